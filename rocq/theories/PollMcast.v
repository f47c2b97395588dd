(** PollMcast.v — the polling requests of a publisher context for its own two sockets. *)
From Verif Require Import Base CircBuf CircBufProofs Wire SeqList Pub SpecPub PubProofs Proto SpecProto ProtoProofs Safe
  Conn SpecConn ConnProofs PubCtx SpecPubCtx PubCtxProofs PubCtxSteps PropPubCtx SpecPubRecv PubRecv SpecPoll PollPub.

(** ** Calls that leave the sockets of the context alone *)
(** [l]: the listening socket. *)
Definition conn_only (l : Z) (e : pev) : Prop :=
  match e with
  | PvConn (EvAdd _ j _) | PvConn (EvRem _ j) => j < RMC_LISTEN_INDEX
  | PvConn (EvMod d j _ a) => j < RMC_LISTEN_INDEX \/ (d = l /\ j = RMC_LISTEN_INDEX /\ a = POLLREAD)
  | _ => True
  end.
Definition CK (x x' : pctx) (evs : list pev) : Prop :=
  x_mcast x' = x_mcast x /\ x_listen x' = x_listen x /\ queued x' = queued x /\ Forall (conn_only (x_listen x)) evs.
Lemma CK_refl x : CK x x [].
Proof. repeat split. constructor. Qed.
Lemma CK_trans x y z e1 e2 : CK x y e1 -> CK y z e2 -> CK x z (e1 ++ e2).
Proof. intros (A1 & A2 & A3 & A4) (B1 & B2 & B3 & B4). rewrite A2 in B4. split; [congruence|]. split; [congruence|]. split; [congruence|]. apply Forall_app. auto. Qed.
Lemma free_conn_only l evs : Forall is_free_ev evs -> Forall (conn_only l) evs.
Proof. apply Forall_impl. intros e. destruct e; cbn; tauto. Qed.
Lemma free_evs_free_ev fr : Forall is_free_ev (free_evs fr).
Proof. unfold free_evs. apply Forall_map, Forall_forall. intros; exact Logic.I. Qed.
Lemma queued_Q x y t t' g g' log log' sp sp' L L' Q : XI t x g log sp L Q -> XI t' y g' log' sp' L' Q -> queued y = queued x.
Proof. intros X Y. rewrite (queued_inv _ _ _ _ (xi_pub _ _ _ _ _ _ _ X)), (queued_inv _ _ _ _ (xi_pub _ _ _ _ _ _ _ Y)). reflexivity. Qed.

Lemma close_ck x g log i code x' evs : XInv false x g log -> 0 <= i -> rmc_pub_close_connection x i = Ok (code, x', evs) -> CK x x' evs.
Proof.
  intros (sp & L & Q & X) Hi E. destruct (find_index_cases (x_vec x) i Hi) as [[_ H]|(c & _ & Ho)].
  - rewrite (close_none x i Hi H) in E. assert (x' = x /\ evs = []) as [-> ->] by (split; congruence). apply CK_refl.
  - destruct (close_xi false x g log sp L Q i c X Ho) as (x1 & L' & fr & e1 & E1 & Ee & _ & X' & _ & _ & _ & _ & _ & _ & Em & El).
    assert (x' = x1 /\ evs = e1) as [-> ->] by (split; congruence). split; [exact Em|]. split; [exact El|]. split; [exact (queued_Q _ _ _ _ _ _ _ _ _ _ _ _ _ X X')|].
    rewrite Ee. pose proof (slot_range _ _ _ (proj1 Ho)). pose proof (vi_size _ _ (xi_vec _ _ _ _ _ _ _ X)).
    constructor; [exact Logic.I|]. cbn [map app]. constructor; [cbn; lia|]. constructor; [exact Logic.I|]. apply free_conn_only, free_evs_free_ev.
Qed.
Lemma resend_ck t x g log sp L Q i c a e code x' evs : XI t x g log sp L Q -> is_open (x_vec x) i c -> In (a, e) L ->
  rmc_pub_resend_packet x i a = Ok (code, x', evs) -> Forall (conn_only (x_listen x)) evs.
Proof.
  intros X Ho Hin. pose proof (slot_range _ _ _ (proj1 Ho)). pose proof (vi_size _ _ (xi_vec _ _ _ _ _ _ _ X)). unfold rmc_pub_resend_packet. rewrite (proj1 Ho). cbn [bind].
  destruct (get_pack _ _) as [p| | |]; cbn [bind]; [|discriminate..].
  match goal with |- context [bind ?h _] => destruct h as [w| | |] end; cbn [bind]; [|discriminate..].
  destruct (_ =? 0); intros E; injection E as _ _ <-; repeat constructor. cbn. lia.
Qed.
Lemma sent_timeout_ck t x g log sp L Q i c a e code x' evs : XI t x g log sp L Q -> is_open (x_vec x) i c -> In (a, e) L ->
  process_sent_packet_timeout x i a = Ok (code, x', evs) -> Forall (conn_only (x_listen x)) evs.
Proof.
  intros X Ho Hin. unfold process_sent_packet_timeout. rewrite (proj1 Ho). cbn [bind].
  destruct (get_pack _ _) as [p| | |]; cbn [bind]; [|discriminate..].
  destruct (negb _).
  - destruct (rmc_pub_packet_ack x i _) as [[x1 e1]| | |] eqn:E1; cbn [bind fst snd]; [|discriminate..]. intros E.
    assert (evs = e1) as -> by congruence. apply free_conn_only. exact (proj2 (ack_frame _ _ _ _ _ E1)).
  - destruct (rmc_pub_resend_packet x i a) as [[[cd x1] e1]| | |] eqn:E1; cbn [bind]; [|discriminate..].
    pose proof (resend_ck _ _ _ _ _ _ _ _ _ _ _ _ _ _ X Ho Hin E1) as F1.
    destruct (cd =? 0).
    + destruct (rmc_pub_packet_ack x1 i _) as [[x2 e2]| | |] eqn:E2; cbn [bind fst snd]; [|discriminate..]. intros E.
      assert (evs = e1 ++ e2) as -> by congruence. apply Forall_app. split; [exact F1|]. apply free_conn_only. exact (proj2 (ack_frame _ _ _ _ _ E2)).
    + intros E. assert (evs = e1) as -> by congruence. exact F1.
Qed.
Definition CR (l : Z) (r : Z * pctx * list pev) : Prop := Forall (conn_only l) (snd r).
Lemma resend_loop_ck t i : forall packs x g log c, XInv t x g log -> is_open (x_vec x) i c -> NoDup packs -> incl packs (p_sinf (x_pub x) (Z.to_nat i)) ->
  safe t (resend_loop x i packs) (CR (x_listen x)).
Proof.
  induction packs as [|a packs IH]; intros x g log c XV Ho ND Hi; cbn [resend_loop].
  - cbn [safe]. constructor.
  - destruct XV as (sp & L & Q & X). pose proof (xi_pub _ _ _ _ _ _ _ X) as I. inversion ND as [|? ? N1 N2]; subst.
    destruct (sinf_entry _ _ _ _ _ a I (Hi a (or_introl eq_refl))) as (e & He & Hh).
    apply (safe_bind t _ _ _ _ (sent_timeout_xi t x g log sp L Q i c a e X Ho He Hh)).
    intros [[code x1] evs] E1 (sp' & L' & X1 & Cf & Ko & Su & _ & Cc & Hk).
    pose proof (sent_timeout_ck _ _ _ _ _ _ _ _ _ _ _ _ _ _ X Ho He E1) as P1.
    destruct (code =? 0) eqn:Ec; cbn [negb]; [|exact P1].
    destruct (proj2 Ko i c Ho) as (c1 & Ho1 & _).
    apply (safe_bind t _ _ (CR (x_listen x))).
    + replace (x_listen x) with (x_listen x1) by (unfold same_cfg in Cf; tauto).
      apply (IH x1 (g_unlend g evs) (log ++ evs) c1); [eexists _, _, _; exact X1|exact Ho1|exact N2|].
      intros b Hb. apply Hk; [apply Hi; right; exact Hb|].
      destruct (sinf_entry _ _ _ _ _ b I (Hi b (or_intror Hb))) as (f & Hf & _). rewrite (inv_pidL I b f Hf).
      intros E. apply N1. rewrite (live_pid_inj _ _ _ _ _ _ _ _ I He Hf (eq_sym E)). exact Hb.
    + intros [[code2 x2] evs2] _ P2. cbn [safe]. unfold CR in *. cbn [snd] in *. apply Forall_app. auto.
Qed.
Lemma sub_timeout_ck t x g log n now : XInv t x g log -> (exists c, is_open (x_vec x) (Z.of_nat n) c) ->
  safe t (process_subscriber_timeout x n now) (CR (x_listen x)).
Proof.
  intros XV [c Ho]. pose proof XV as (sp & L & Q & X). pose proof (xi_pub _ _ _ _ _ _ _ X) as I. unfold process_subscriber_timeout, pub_get_timed_out_packets.
  destruct (timed_out_packs_ok (x_pub x) now (x_resend x) (p_sinf (x_pub x) n)) as (packs & Ep).
  { intros a Ha. apply (inv_liveL I). exact (sinf_incl I n a Ha). }
  rewrite Ep. cbn [bind]. destruct (timed_out_packs_sub _ _ _ _ _ Ep) as (tl & Etl).
  apply (resend_loop_ck t (Z.of_nat n) packs x g log c XV Ho).
  - apply (NoDup_app_l _ tl). rewrite <- Etl, (inv_sinf I). apply NoDup_rev.
    pose proof (inv_ndL I) as ND. clear - ND. induction L as [|y L IH]; [constructor|]. cbn [map] in ND. inversion ND as [|? ? N1 N2]; subst.
    cbn [filter]. destruct (holds n y); [|exact (IH N2)]. cbn [map]. constructor; [|exact (IH N2)].
    intros H. apply N1. apply in_map_iff in H. destruct H as (z & E & Hz). apply filter_In in Hz. rewrite <- E. apply in_map. tauto.
  - rewrite Nat2Z.id, Etl. apply incl_appl, incl_refl.
Qed.
Lemma subs_loop_ck t now : forall subs x g log, XInv t x g log -> (forall n, In n subs -> exists c, is_open (x_vec x) (Z.of_nat n) c) ->
  safe t (subs_loop x now subs) (fun r => let '(_, x', evs) := r in CK x x' evs).
Proof.
  induction subs as [|n subs IH]; intros x g log XV H; cbn [subs_loop].
  - cbn [safe]. apply CK_refl.
  - apply (safe_bind t _ _ _ _ (sub_timeout_inv t x g log n now XV (H n (or_introl eq_refl)))).
    intros [[code x1] evs] E1 T1. pose proof (safe_ok _ _ _ _ (sub_timeout_ck t x g log n now XV (H n (or_introl eq_refl))) E1) as P1.
    assert (C1 : CK x x1 evs). { destruct T1 as (_ & Cf & _ & _ & _ & Eq). unfold same_cfg in Cf. repeat split; [tauto|tauto|exact Eq|exact P1]. }
    destruct (code =? 0); cbn [negb]; [|exact C1].
    eapply (safe_bind t _ _ (fun r => let '(_, x', e2) := r in CK x1 x' e2)).
    + apply (IH x1 (g_unlend g evs) (log ++ evs)); [apply T1|]. intros m Hm. destruct (H m (or_intror Hm)) as [c Ho]. destruct T1 as (_ & _ & Ko & _). destruct (proj2 Ko _ c Ho) as (c' & Ho' & _). eauto.
    + intros [[code2 x2] evs2] _ T2. cbn [safe]. exact (CK_trans _ _ _ _ _ C1 T2).
Qed.
Lemma close_loop_ck : forall n x g log ind x' evs, XInv false x g log -> 0 <= ind -> close_loop n x ind = Ok (x', evs) -> CK x x' evs.
Proof.
  induction n as [|n IH]; intros x g log ind x' evs XV Hi E; cbn [close_loop] in E.
  - assert (x' = x /\ evs = []) as [-> ->] by (split; congruence). apply CK_refl.
  - destruct (find_index_cases (x_vec x) ind Hi) as [[Ef _]|(c & Ef & Ho)]; rewrite Ef in E; cbn [bind] in E; [exact (IH x g log (ind + 1) x' evs XV ltac:(lia) E)|].
    destruct (rmc_pub_close_connection x ind) as [[[cd x1] e1]| | |] eqn:E1; cbn [bind] in E; [|discriminate E..].
    pose proof (safe_ok _ _ _ _ (close_inv_x false x g log ind XV Hi) E1) as XV1. cbv beta iota in XV1.
    destruct (close_loop n x1 (ind + 1)) as [[x2 e2]| | |] eqn:E2; cbn [bind fst snd] in E; [|discriminate E..].
    assert (x' = x2 /\ evs = e1 ++ e2) as [-> ->] by (split; congruence).
    exact (CK_trans _ _ _ _ _ (close_ck _ _ _ _ _ _ _ XV Hi E1) (IH x1 (g_unlend g e1) (log ++ e1) (ind + 1) x2 e2 XV1 ltac:(lia) E2)).
Qed.
Lemma accept_ck x g log i a cb code op x' evs : XInv false x g log -> xok x g (XRead i (RdAccept a cb)) ->
  rmc_pub_read x i (RdAccept a cb) = Ok (code, op, x', evs) -> CK x x' evs.
Proof.
  intros XV Hok. pose proof (ctx_size _ _ _ XV) as Hz. destruct XV as (sp & L & Q & X). cbn [rmc_pub_read].
  destruct (accept_cases (x_listen x) (x_vec x) a (nil_listen _ Hz)) as [[_ ->]|(j & c & Lf & Hs & Hd & E)].
  - cbn [bind]. change (ENOMEM =? 0) with false. cbn [negb map]. intros E. injection E as _ _ <- <-. repeat split. constructor.
  - pose proof (slot_range _ _ _ Hs) as R. destruct a as [e|d addr nd].
    + rewrite E. cbn [bind]. cbn in Hok. replace (e =? 0) with false by lia. cbn [negb map]. intros E'. injection E' as _ _ <- <-. repeat split. constructor.
    + cbn in Hok. destruct Hok as [Hd0 ->]. destruct E as [[_ E]|[E0 _]]; [|congruence]. rewrite E. cbn [bind].
      change (0 =? 0) with true. cbn [negb].
      destruct (accept_xi false x g log sp L Q j c d addr X Lf Hs Hd Hd0) as [X1 Ho].
      set (c' := mkConn POLLREAD d (c_node c) (c_rbuf c) (c_wbuf c) CONNECTED (c_port c) addr) in *.
      set (v' := set_active _ _) in *. set (ae := [EvOpen d; EvAdd d j POLLREAD; _]) in *.
      destruct (find_index_cases v' j (proj1 R)) as [[_ H]|(c0 & -> & Ho0)]; [destruct (H c' Ho)|].
      assert (c0 = c') by (destruct Ho, Ho0; congruence). subst c0. cbn [bind]. set (x1 := set_pub (set_vec x v') _) in *.
      assert (C1 : CK x x1 (map PvConn ae)).
      { repeat split. unfold ae. cbn [map]. constructor; [exact Logic.I|]. constructor; [cbn; lia|]. constructor; [cbn; auto|constructor]. }
      assert (C2 : CK x x1 (map PvConn ae ++ [PvJoin (c_addr c') (c_port c')])).
      { apply (CK_trans _ x1); [exact C1|]. repeat split. repeat constructor. }
      destruct cb as [[|]|].
      * intros E'. assert (x' = x1 /\ evs = map PvConn ae ++ [PvJoin (c_addr c') (c_port c')]) as [-> ->] by (split; congruence). exact C2.
      * destruct (rmc_pub_close_connection x1 j) as [[[cd x2] e2]| | |] eqn:E2; cbn [bind]; [|discriminate..].
        intros E'. assert (x' = x2 /\ evs = map PvConn ae ++ PvJoin (c_addr c') (c_port c') :: e2) as [-> ->] by (split; congruence).
        change (map PvConn ae ++ PvJoin (c_addr c') (c_port c') :: e2) with (map PvConn ae ++ [PvJoin (c_addr c') (c_port c')] ++ e2). rewrite app_assoc.
        apply (CK_trans _ x1 _ _ _ C2). exact (close_ck _ _ _ _ _ _ _ (ex_intro _ _ (ex_intro _ _ (ex_intro _ _ X1))) (proj1 R) E2).
      * intros E'. assert (x' = x1 /\ evs = map PvConn ae) as [-> ->] by (split; congruence). exact C1.
Qed.
(** The handlers of a TCP read. *)
Definition HQM (g : ghost) (log : list pev) (x : pctx) (st : hst) : Prop :=
  HP false g log x st /\ queued (fst st) = queued x /\ Forall (conn_only (x_listen x)) (snd st).
Lemma eff_ack_ck g log x i st iv : 0 <= i -> HQM g log x st -> safe false (eff_ack i st iv) (HQM g log x).
Proof.
  intros Hi [H [Eq F]]. eapply safe_imp; [exact (eff_ack_safe false g log x i st iv Hi H)|]. intros st' E H'. split; [exact H'|].
  destruct H as [(sp & L & Q & X) S]. destruct st as [x1 evs1], iv as [a b]. cbn [fst snd] in *.
  unfold eff_ack, ack_interval in E. cbn [fst snd] in E. destruct (_ && _); [discriminate E|].
  destruct (rounds_xi false i (Z.to_nat (b + 1 - a)) x1 _ _ sp L Q a (XI_ackev _ _ _ _ _ _ _ i a b X) Hi) as (x2 & L' & evs' & E2 & X' & _ & S').
  { intros k Hk. rewrite since_app. cbn [fold_left since_ev]. rewrite Z.eqb_refl. exists a, b. split; [apply in_or_app; right; left; reflexivity|]. lia. }
  rewrite E2 in E. cbn [bind fst snd] in E. injection E as <-. cbn [fst snd].
  split; [rewrite <- Eq; exact (queued_Q _ _ _ _ _ _ _ _ _ _ _ _ _ X X')|].
  apply Forall_app. split; [exact F|]. constructor; [exact Logic.I|]. apply free_conn_only. exact (proj2 (rounds_frame _ _ _ _ _ _ E2)).
Qed.
Lemma eff_ctrl_ck g log x i st p : HQM g log x st -> safe false (eff_ctrl i st p) (HQM g log x).
Proof.
  intros [H [Eq F]]. eapply safe_imp; [exact (eff_ctrl_safe false g log x i st p H)|]. intros st' E H'. split; [exact H'|].
  unfold eff_ctrl in E. destruct (x_ccb (fst st)); [discriminate E|injection E as <-; auto|].
  destruct (slot _ _) as [c| | |]; cbn [bind] in E; [|discriminate E..]. injection E as <-. cbn [fst snd]. split; [exact Eq|]. apply Forall_app. split; [exact F|repeat constructor].
Qed.
Lemma read_tcp_ck x g log i t code op x' evs : XInv false x g log -> xok x g (XRead i (RdTcp t)) ->
  rmc_pub_read x i (RdTcp t) = Ok (code, op, x', evs) -> CK x x' evs.
Proof.
  intros XV Hok. pose proof (ctx_size _ _ _ XV) as Hz. cbn in Hok. cbn [rmc_pub_read].
  assert (Same : forall c o x1 e1, Ok (c, o, x, []) = Ok (code, op, x1, e1) -> CK x x1 e1).
  { intros c o x1 e1 E. assert (x1 = x /\ e1 = []) as [-> ->] by (split; congruence). apply CK_refl. }
  destruct (find_index_cases (x_vec x) i (proj1 Hok)) as [[-> _]|(c & -> & Ho)]; cbn [bind]; [apply Same|].
  destruct (negb (c_mode c =? CONNECTED)); [apply Same|].
  assert (S : safe false (tcp_read (pub_dispatch (eff_ack i) (ccb_set x) (eff_ctrl i)) (x, []) (c_rbuf c) t) (fun r => HQM g log x (r_st r))).
  { apply tcp_read_safe.
    - apply pub_dispatch_safe; [intros st iv; apply eff_ack_ck; lia|intros st p; apply eff_ctrl_ck].
    - split; [split; [|apply sbp_refl]|split; [reflexivity|constructor]]. cbn [fst snd]. rewrite g_unlend_nil, app_nil_r. exact XV. }
  destruct (tcp_read _ _ (c_rbuf c) t) as [r| | |]; cbn [bind]; [|discriminate..]. cbn [safe] in S.
  destruct S as [[(sp & L & Q & X) S] [Eq F]]. destruct (r_st r) as [x1 evs1]. cbn [fst snd] in *.
  assert (C1 : CK x x1 evs1). { unfold same_but_pub in S. repeat split; [tauto|tauto|exact Eq|exact F]. }
  assert (Ev : x_vec x1 = x_vec x) by exact (proj1 S).
  assert (Ho1 : is_open (x_vec x1) i c) by (rewrite Ev; exact Ho).
  destruct (vi_ring _ _ (xi_vec _ _ _ _ _ _ _ X) i c (proj1 Ho1)) as [Hw Hsz].
  destruct (r_code r =? EPIPE).
  - destruct (rmc_pub_close_connection _ i) as [[[cd x2] e2]| | |] eqn:E2; cbn [bind]; [|discriminate..]. intros E. injection E as _ _ <- <-.
    pose proof (XI_io false x1 _ _ sp L Q i c (set_rbuf c (r_buf r)) [] X Ho1 eq_refl eq_refl Hw Hsz (Forall_nil _) (fun _ _ => Forall_nil _)) as X2.
    rewrite g_unlend_nil, app_nil_r in X2. specialize (X2 (xi_str _ _ _ _ _ _ _ X i c Ho1)).
    apply (CK_trans _ (set_vec x1 (put_slot (x_vec x1) i (set_rbuf c (r_buf r))))); [exact C1|].
    exact (close_ck _ _ _ _ _ _ _ (ex_intro _ _ (ex_intro _ _ (ex_intro _ _ X2))) (proj1 Hok) E2).
  - intros E. injection E as _ _ <- <-. apply (CK_trans _ x1); [exact C1|]. repeat split. constructor; [|constructor]. cbn. left.
    pose proof (slot_range _ _ _ (proj1 Ho)). lia.
Qed.
Lemma write_tcp_ck x g log i w code op x' evs : XInv false x g log -> xok x g (XWrite i (WrTcp w)) ->
  rmc_pub_write x i (WrTcp w) = Ok (code, op, x', evs) -> CK x x' evs.
Proof.
  intros XV Hok. pose proof (ctx_size _ _ _ XV) as Hz. assert (Hi : 0 <= i < 65536) by (destruct w; cbn in Hok; tauto).
  assert (Same : forall c o x1 e1, Ok (c, o, x, []) = Ok (code, op, x1, e1) -> CK x x1 e1).
  { intros c o x1 e1 E. assert (x1 = x /\ e1 = []) as [-> ->] by (split; congruence). apply CK_refl. }
  cbn [rmc_pub_write]. destruct (_ <=? i); [apply Same|].
  destruct (find_index_cases (x_vec x) i (proj1 Hi)) as [[-> _]|(c & -> & Ho)]; cbn [bind]; [apply Same|].
  destruct (negb _); [apply Same|]. destruct (circ_buf_in_use (c_wbuf c) =? 0); [apply Same|].
  destruct (tcp_write (c_wbuf c) w) as [r| | |]; cbn [bind]; [|discriminate..]. intros E. injection E as _ _ <- <-. repeat split.
  pose proof (slot_range _ _ _ (proj1 Ho)). constructor; [exact Logic.I|]. constructor; [cbn; lia|constructor].
Qed.

(** ** The invariant *)
Record MInv (b : bool) (x : pctx) (log : list pev) : Prop := mkMInv {
  m_listen : x_listen x <> -1 -> asked RMC_LISTEN_INDEX (pub_polls log) = Some (x_listen x, POLLREAD);
  m_polled : x_mcast x <> -1 -> exists act, asked RMC_MULTICAST_INDEX (pub_polls log) = Some (x_mcast x, act);
  m_some : b = true -> x_mcast x <> -1 -> queued x <> [] -> asked RMC_MULTICAST_INDEX (pub_polls log) = Some (x_mcast x, POLLWRITE);
  m_none : forall d act, asked RMC_MULTICAST_INDEX (pub_polls log) = Some (d, act) -> for_output act = true -> queued x <> []
}.
Lemma conn_only_asked l evs : Forall (conn_only l) evs -> forall log,
  asked RMC_MULTICAST_INDEX (pub_polls (log ++ evs)) = asked RMC_MULTICAST_INDEX (pub_polls log) /\
  (asked RMC_LISTEN_INDEX (pub_polls log) = Some (l, POLLREAD) -> asked RMC_LISTEN_INDEX (pub_polls (log ++ evs)) = Some (l, POLLREAD)).
Proof.
  intros F log. rewrite !polls_app, !asked_app. generalize (asked RMC_MULTICAST_INDEX (pub_polls log)), (asked RMC_LISTEN_INDEX (pub_polls log)).
  induction F as [|e evs H F IH]; intros a b; [auto|]. cbn [pub_polls flat_map]. rewrite !fold_left_app. change (flat_map _ evs) with (pub_polls evs).
  destruct (IH (fold_left (asked_ev RMC_MULTICAST_INDEX) (match e with PvConn c => [c] | _ => [] end) a)
               (fold_left (asked_ev RMC_LISTEN_INDEX) (match e with PvConn c => [c] | _ => [] end) b)) as [I1 I2].
  rewrite I1. split.
  - destruct e as [[d|d|d k act|d k o act|d k]| | | | | | |]; cbn [fold_left asked_ev]; try reflexivity; cbn in H; unfold RMC_MULTICAST_INDEX, RMC_LISTEN_INDEX in *;
    (destruct (Z.eqb_spec k 32766); [lia|reflexivity]).
  - intros Hb. apply I2. subst b.
    destruct e as [[d|d|d k act|d k o act|d k]| | | | | | |]; cbn [fold_left asked_ev]; try reflexivity; cbn in H;
    (destruct (Z.eqb_spec k RMC_LISTEN_INDEX); [|reflexivity]); try lia. destruct H as [H|(-> & _ & ->)]; [lia|reflexivity].
Qed.
Lemma CK_MInv b x x' evs log : CK x x' evs -> MInv b x log -> MInv b x' (log ++ evs).
Proof.
  intros (A1 & A2 & A3 & A4) [I1 I2 I3 I4]. destruct (conn_only_asked _ _ A4 log) as [M1 M2]. constructor; rewrite ?A1, ?A2, ?A3, ?M1; auto.
Qed.
Lemma next_none x : pub_next_queued (x_pub x) = None <-> queued x = [].
Proof.
  unfold pub_next_queued, last_opt, queued. destruct (p_queued (x_pub x)) as [|a l].
  - split; reflexivity.
  - split; [|discriminate]. destruct (rev (a :: l)) eqn:E; [|discriminate]. apply (f_equal (@length nat)) in E. rewrite rev_length in E. discriminate E.
Qed.
(** One more request for the multicast socket. *)
Lemma mod_asked x log pre d old act : pub_polls pre = [] ->
  asked RMC_MULTICAST_INDEX (pub_polls (log ++ pre ++ [PvConn (EvMod d RMC_MULTICAST_INDEX old act)])) = Some (d, act) /\
  asked RMC_LISTEN_INDEX (pub_polls (log ++ pre ++ [PvConn (EvMod d RMC_MULTICAST_INDEX old act)])) = asked RMC_LISTEN_INDEX (pub_polls log) /\ x = (x : pctx).
Proof. intros E. rewrite !polls_app, E. cbn [app]. rewrite !asked_app. cbn. auto. Qed.
Lemma insert_ne {D} c (a : D) l : seq_insert_sorted c a l <> [].
Proof. destruct l as [|b l]; [discriminate|]. cbn [seq_insert_sorted]. destruct (_ <=? _); discriminate. Qed.
Lemma queue_MInv b x log p l a code x' evs : MInv b x log -> rmc_pub_queue_packet x p l a = Ok (code, x', evs) -> MInv b x' (log ++ evs).
Proof.
  intros M. unfold rmc_pub_queue_packet.
  assert (Same : forall c x1 e1, Ok (c, x, []) = Ok (code, x1, e1) -> MInv b x1 (log ++ e1)).
  { intros c x1 e1 E. assert (x1 = x /\ e1 = []) as [-> ->] by (split; congruence). rewrite app_nil_r. exact M. }
  destruct (_ =? _); [apply Same|]. destruct (_ <? _); [apply Same|]. destruct (x_susp x); [apply Same|].
  match goal with |- context [bind ?h _] => destruct h as [[[s' pd] nd]| | |] eqn:Eq end; cbn [bind fst snd]; [|discriminate..].
  assert (Hq : p_queued s' <> []).
  { assert (W : forall pb k r, pub_queue_with_pid pb k p l 0 = Ok r -> p_queued (fst (fst r)) <> []).
    { intros pb k r. unfold pub_queue_with_pid. destruct (p =? 0); [discriminate|]. destruct (check_live _ _); cbn [bind]; [|discriminate..].
      intros E. injection E as <-. cbn [fst set_queued p_queued]. apply insert_ne. }
    destruct a; [exact (W _ _ _ Eq)|exact (W _ _ _ Eq)]. }
  intros E. injection E as _ <- <-.
  match goal with |- MInv b ?z _ => assert (Z1 : x_mcast z = x_mcast x /\ x_listen z = x_listen x /\ queued z <> []) end.
  { destruct (_ && _); repeat split; cbn; unfold queued; cbn [set_susp set_pub x_pub]; intros N; apply map_eq_nil in N; congruence. }
  destruct Z1 as (Z1 & Z2 & Z3). match goal with |- MInv _ _ (_ ++ [PvConn (EvMod ?d _ ?o ?ac)]) => destruct (mod_asked x log [] d o ac eq_refl) as (A1 & A2 & _) end.
  cbn [app] in A1, A2. destruct M as [I1 I2 I3 I4]. constructor.
  - rewrite Z2, A2. exact I1.
  - rewrite Z1, A1. eauto.
  - rewrite Z1, A1. auto.
  - auto.
Qed.
Lemma send_MInv b x log a o code x' evs : MInv b x log -> pub_next_queued (x_pub x) = Some a -> send_single_multicast_packet x a o = Ok (code, x', evs) -> MInv b x' (log ++ evs).
Proof.
  intros M Hn. assert (Hq : queued x <> []) by (intros H; apply next_none in H; congruence). unfold send_single_multicast_packet.
  assert (Same : forall c x1 e1, Ok (c, x, []) = Ok (code, x1, e1) -> MInv b x1 (log ++ e1)).
  { intros c x1 e1 E. assert (x1 = x /\ e1 = []) as [-> ->] by (split; congruence). rewrite app_nil_r. exact M. }
  destruct (_ =? _); [apply Same|]. destruct (get_pack _ _) as [p| | |]; cbn [bind]; [|discriminate..]. destruct (_ <? _); [apply Same|].
  destruct (load _ _ _) as [bs| | |]; cbn [bind]; [|discriminate..]. destruct o as [e|ts].
  - destruct (_ =? _); [|apply Same]. intros E. injection E as _ <- <-. rewrite Hn. destruct (mod_asked x log [] (x_mcast x) POLLWRITE POLLWRITE eq_refl) as (A1 & A2 & _).
    cbn [app] in A1, A2. destruct M as [I1 I2 I3 I4]. constructor; rewrite ?A1, ?A2; eauto.
  - destruct (pub_packet_sent _ _ _) as [s| | |]; cbn [bind]; [|discriminate..]. intros E. injection E as _ <- <-.
    match goal with |- MInv b _ (log ++ [?c; PvConn (EvMod ?d _ ?o ?ac)]) => destruct (mod_asked x log [c] d o ac eq_refl) as (A1 & A2 & _) end.
    cbn [app] in A1, A2. pose proof (next_none (set_pub x s)) as N. cbn [set_pub x_pub] in N. destruct M as [I1 I2 I3 I4].
    constructor; rewrite ?A1, ?A2; cbn [set_pub x_mcast x_listen]; eauto.
    + intros _ _ Hs. destruct (pub_next_queued s); [reflexivity|]. destruct Hs. apply N. reflexivity.
    + intros d act Ed Ho Hs. injection Ed as <- <-. apply N in Hs. rewrite Hs in Ho. discriminate Ho.
Qed.
Lemma mcast_MInv b : forall outs x log code x' evs, MInv b x log -> process_multicast_write x outs = Ok (code, x', evs) -> MInv b x' (log ++ evs).
Proof.
  induction outs as [|o outs IH]; intros x log code x' evs M E; cbn [process_multicast_write] in E;
  (destruct (pub_next_queued (x_pub x)) as [a|] eqn:Hn; [|assert (x' = x /\ evs = []) as [-> ->] by (split; congruence); rewrite app_nil_r; exact M]).
  - exact (send_MInv _ _ _ _ _ _ _ _ M Hn E).
  - destruct (send_single_multicast_packet x a o) as [[[cd x1] e1]| | |] eqn:E1; cbn [bind] in E; [|discriminate E..].
    pose proof (send_MInv _ _ _ _ _ _ _ _ M Hn E1) as M1. destruct (negb (cd =? 0)); [assert (x' = x1 /\ evs = e1) as [-> ->] by (split; congruence); exact M1|].
    destruct (process_multicast_write x1 outs) as [[[cd2 x2] e2]| | |] eqn:E2; cbn [bind] in E; [|discriminate E..].
    assert (x' = x2 /\ evs = e1 ++ e2) as [-> ->] by (split; congruence). rewrite app_assoc. exact (IH _ _ _ _ _ M1 E2).
Qed.
Lemma MInv_ext b x x' log : MInv b x log -> x_mcast x' = x_mcast x -> x_listen x' = x_listen x -> queued x' = queued x -> MInv b x' log.
Proof. intros [I1 I2 I3 I4] E1 E2 E3. constructor; rewrite ?E1, ?E2, ?E3; auto. Qed.
Lemma timeout_MInv b x g log now buf o code x' evs : XInv false x g log -> MInv b x log ->
  rmc_pub_timeout_process x now buf o = Ok (code, x', evs) -> MInv b x' (log ++ evs).
Proof.
  intros XV M. unfold rmc_pub_timeout_process. destruct (announce_due x now).
  - destruct (match o with AnnNone => _ | AnnNo => _ | AnnYes bs len => _ end) as [[bs len] send].
    match goal with |- context [bind ?h _] => destruct h as [[[cd x2] e2]| | |] eqn:E2 end; cbn [bind]; [|discriminate..].
    assert (M0 : MInv b (set_mem x (updz (x_mem x) buf (Some bs))) log) by (apply (MInv_ext b x); auto).
    assert (H : MInv b x2 (log ++ e2)).
    { destruct send; [exact (queue_MInv _ _ _ _ _ _ _ _ _ M0 E2)|]. injection E2 as _ <- <-. rewrite app_nil_r. exact M0. }
    intros E. injection E as _ <- <-. apply (MInv_ext b x2); auto.
  - pose proof XV as (sp & L & Q & X). unfold pub_get_timed_out_subscribers.
    destruct (timed_out_subs_ok _ now (x_resend x) _ _ _ (xi_pub _ _ _ _ _ _ _ X) (p_subs (x_pub x))) as (subs & -> & Hi). cbn [bind].
    intros E. apply (CK_MInv b x); [|exact M]. refine (safe_ok false _ _ _ (subs_loop_ck false now subs x g log XV _) E).
    intros n Hn'. apply (vi_reg _ _ (xi_vec _ _ _ _ _ _ _ X)). rewrite <- (i_subs _ _ _ _ (xi_pub _ _ _ _ _ _ _ X)). exact (Hi n Hn').
Qed.
Lemma deactivate_MInv b x g log code x' evs : XInv false x g log -> rmc_pub_deactivate_context x = Ok (code, x', evs) -> MInv b x' (log ++ evs).
Proof.
  intros XV. unfold rmc_pub_deactivate_context. match goal with |- context [bind ?h _] => destruct h as [[x2 e2]| | |] eqn:E2 end; cbn [bind fst snd]; [|discriminate..].
  assert (C : CK x x2 e2).
  { destruct (_ =? _); [assert (x2 = x /\ e2 = []) as [-> ->] by (split; congruence); apply CK_refl|]. exact (close_loop_ck _ _ _ _ 0 _ _ XV ltac:(lia) E2). }
  intros E. injection E as _ <- <-. constructor; cbn [set_descs x_mcast x_listen]; try congruence.
  intros d act. 
  assert (A : asked RMC_MULTICAST_INDEX (pub_polls (log ++ [PvConn (EvRem (x_mcast x) RMC_MULTICAST_INDEX); PvConn (EvRem (x_listen x) RMC_LISTEN_INDEX)] ++ e2 ++ [PvConn (EvClose (x_mcast x)); PvConn (EvClose (x_listen x))])) = None).
  { rewrite !app_assoc. rewrite (polls_app _ [PvConn (EvClose (x_mcast x)); PvConn (EvClose (x_listen x))]), asked_app. cbn [pub_polls flat_map app fold_left asked_ev].
    change (flat_map _ ?l) with (pub_polls l).
    rewrite (proj1 (conn_only_asked (x_listen x) e2 (proj2 (proj2 (proj2 C))) _)). rewrite polls_app, asked_app. reflexivity. }
  cbn [app] in A. cbn [app]. rewrite A. discriminate.
Qed.
Lemma step_MInv b x g log o code x' evs : XInv false x g log -> xok x g o -> (b = true -> drained x o) -> MInv b x log -> xstep x o = Ok (code, x', evs) -> MInv b x' (log ++ evs).
Proof.
  intros XV Hok Hd M E.
  assert (Nil : forall y, x_mcast y = x_mcast x -> x_listen y = x_listen x -> queued y = queued x -> MInv b y (log ++ [])) by (intros y H1 H2 H3; rewrite app_nil_r; exact (MInv_ext b x y log M H1 H2 H3)).
  destruct o as [ptr bs|ptr|ptr len ann|i [a cb|err|t]|i [outs|w]|now buf o|i|interval now|s r|bb|o|]; cbn [xstep] in E.
  - injection E as _ <- <-. apply Nil; reflexivity.
  - injection E as _ <- <-. apply Nil; reflexivity.
  - exact (queue_MInv _ _ _ _ _ _ _ _ _ M E).
  - destruct (rmc_pub_read x i (RdAccept a cb)) as [[[[cd op] x1] e1]| | |] eqn:Ed; cbn [bind] in E; [|discriminate E..]. injection E as _ <- <-.
    apply (CK_MInv b x); [|exact M]. exact (accept_ck _ _ _ _ _ _ _ _ _ _ XV Hok Ed).
  - cbn [rmc_pub_read] in E. destruct (x_mcast x =? -1) eqn:Em; [cbn [bind] in E; injection E as _ <- <-; apply Nil; reflexivity|].
    destruct err; cbn [bind] in E; injection E as _ <- <-; [apply Nil; reflexivity|].
    destruct (mod_asked x log [] (x_mcast x) POLLREAD POLLREAD eq_refl) as (A1 & A2 & _). cbn [app] in A1, A2.
    destruct M as [I1 I2 I3 I4]. constructor; rewrite ?A1, ?A2; eauto.
    + intros T _ Hq. destruct (Hq (Hd T)).
    + intros d act Ea Ho. injection Ea as <- <-. discriminate Ho.
  - destruct (rmc_pub_read x i (RdTcp t)) as [[[[cd op] x1] e1]| | |] eqn:Ed; cbn [bind] in E; [|discriminate E..]. injection E as _ <- <-.
    apply (CK_MInv b x); [|exact M]. exact (read_tcp_ck _ _ _ _ _ _ _ _ _ XV Hok Ed).
  - cbn [rmc_pub_write] in E. destruct (process_multicast_write x outs) as [[[cd x1] e1]| | |] eqn:Ed; cbn [bind] in E; [|discriminate E..].
    injection E as _ <- <-. exact (mcast_MInv _ _ _ _ _ _ _ M Ed).
  - destruct (rmc_pub_write x i (WrTcp w)) as [[[[cd op] x1] e1]| | |] eqn:Ed; cbn [bind] in E; [|discriminate E..]. injection E as _ <- <-.
    apply (CK_MInv b x); [|exact M]. exact (write_tcp_ck _ _ _ _ _ _ _ _ _ XV Hok Ed).
  - exact (timeout_MInv _ _ _ _ _ _ _ _ _ _ XV M E).
  - apply (CK_MInv b x); [|exact M]. exact (close_ck _ _ _ _ _ _ _ XV (proj1 Hok) E).
  - injection E as _ <- <-. apply Nil; reflexivity.
  - unfold rmc_pub_throttling in E. destruct (s <? r); injection E as _ <- <-; apply Nil; reflexivity.
  - injection E as _ <- <-. apply Nil; reflexivity.
  - unfold rmc_pub_activate_context in E. destruct o as [e ds ea|m l port]; injection E as _ <- <-.
    + assert (A : forall i, asked i (pub_polls (log ++ map (fun d => PvConn (EvOpen d)) ds ++ map (fun d => PvConn (EvClose d)) (ds ++ if ea && negb (x_listen x =? -1) then [x_listen x] else []))) = asked i (pub_polls log)).
      { intros i. rewrite polls_app, asked_app, polls_app, fold_left_app. clear. generalize (asked i (pub_polls log)). intros a.
        assert (H : forall (f : Z -> cev) ds a, (forall d a, asked_ev i a (f d) = a) -> fold_left (asked_ev i) (pub_polls (map (fun d => PvConn (f d)) ds)) a = a).
        { clear. intros f ds. induction ds as [|d ds IH]; intros a H; [reflexivity|]. cbn [map pub_polls flat_map app fold_left]. rewrite H. apply IH. exact H. }
        rewrite (H EvOpen), (H EvClose); reflexivity. }
      destruct M as [I1 I2 I3 I4]. constructor; rewrite ?A; cbn [set_descs x_mcast x_listen]; try congruence. exact I4.
    + assert (A1 : asked RMC_MULTICAST_INDEX (pub_polls (log ++ [PvConn (EvOpen m); PvConn (EvOpen l); PvConn (EvAdd m RMC_MULTICAST_INDEX POLLREAD); PvConn (EvAdd l RMC_LISTEN_INDEX POLLREAD)])) = Some (m, POLLREAD)) by (rewrite polls_app, asked_app; reflexivity).
      assert (A2 : asked RMC_LISTEN_INDEX (pub_polls (log ++ [PvConn (EvOpen m); PvConn (EvOpen l); PvConn (EvAdd m RMC_MULTICAST_INDEX POLLREAD); PvConn (EvAdd l RMC_LISTEN_INDEX POLLREAD)])) = Some (l, POLLREAD)) by (rewrite polls_app, asked_app; reflexivity).
      match goal with |- MInv b ?z _ => assert (Z1 : x_mcast z = m /\ x_listen z = l /\ queued z = queued x) by (destruct (x_lport x =? 0); auto) end. destruct Z1 as (Z1 & Z2 & Z3).
      constructor; rewrite ?A1, ?A2, ?Z1, ?Z2, ?Z3; eauto.
      * intros T _ Hq. destruct (Hq (Hd T)).
      * intros d act Ea Ho. injection Ea as <- <-. discriminate Ho.
  - exact (deactivate_MInv _ _ _ _ _ _ _ XV E).
Qed.
Lemma init_MInv b x0 : fresh_ctx x0 -> MInv b x0 [].
Proof. intros (node & lip & lport & buf & m & -> & _). constructor; cbn; try congruence. Qed.
Lemma reached_MInv x g log : reached x g log -> MInv false x log.
Proof.
  intros (x0 & ops & F & H). induction H as [|ops x g log o code x' evs H IH Hok E]; [apply init_MInv; exact F|].
  refine (step_MInv _ _ _ _ _ _ _ _ _ Hok _ IH E); [|discriminate]. apply reached_inv. exists x0, ops. auto.
Qed.
Lemma drained_MInv x g log : reached_drained x g log -> MInv true x log.
Proof.
  intros (x0 & ops & F & H & D). revert D. induction H as [|ops x g log o code x' evs H IH Hok E]; intros D; [apply init_MInv; exact F|].
  refine (step_MInv _ _ _ _ _ _ _ _ _ Hok _ _ E).
  - apply reached_inv. exists x0, ops. auto.
  - intros _. exact (D ops o [] x g log eq_refl H).
  - apply IH. intros pre o' post x1 g1 log1 Eo H1. apply (D pre o' (post ++ [o]) x1 g1 log1); [|exact H1]. rewrite Eo, <- app_assoc. reflexivity.
Qed.
