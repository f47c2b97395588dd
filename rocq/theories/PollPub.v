(** PollPub.v — the polling requests of a publisher context follow its connections. *)
From Verif Require Import Base CircBuf CircBufProofs Wire SeqList Pub SpecPub PubProofs Proto SpecProto ProtoProofs Safe
  Conn SpecConn ConnProofs PubCtx SpecPubCtx PubCtxProofs PubCtxSteps PropPubCtx SpecPubRecv PubRecv SpecPoll.

Lemma asked_app i a b : asked i (a ++ b) = fold_left (asked_ev i) b (asked i a).
Proof. apply fold_left_app. Qed.
Lemma polls_app a b : pub_polls (a ++ b) = pub_polls a ++ pub_polls b.
Proof. apply flat_map_app. Qed.
Lemma polls_conn l : pub_polls (map PvConn l) = l.
Proof. induction l as [|e l IH]; [reflexivity|]. cbn [map pub_polls flat_map]. cbn [app]. f_equal. exact IH. Qed.
Lemma polls_free l : Forall is_free_ev l -> pub_polls l = [].
Proof. induction 1 as [|e l H _ IH]; [reflexivity|]. cbn [pub_polls flat_map]. destruct e; try destruct H. exact IH. Qed.

(** ** The requests for connections *)
Definition want (wb : cbuf) : Z := if circ_buf_in_use wb =? 0 then POLLREAD else Z.lor POLLREAD POLLWRITE.
Definition PollI (x : pctx) (log : list pev) : Prop :=
  forall i c, slot (x_vec x) i = Ok c ->
    asked i (pub_polls log) = (if c_mode c =? CLOSED then None else Some (c_desc c, c_action c)) /\
    (c_mode c <> CLOSED -> c_action c = want (c_wbuf c)).
(** A call that polls nothing but the sockets of the context. *)
Definition elsewhere (e : pev) : Prop :=
  match e with
  | PvConn (EvAdd _ j _) | PvConn (EvMod _ j _ _) | PvConn (EvRem _ j) => RMC_LISTEN_INDEX <= j
  | _ => True
  end.
Lemma elsewhere_asked i log evs : i < RMC_LISTEN_INDEX -> Forall elsewhere evs -> asked i (pub_polls (log ++ evs)) = asked i (pub_polls log).
Proof.
  intros Hi. rewrite polls_app, asked_app. generalize (asked i (pub_polls log)). induction evs as [|e evs IH]; intros a F; [reflexivity|].
  inversion F as [|? ? H F']; subst. cbn [pub_polls flat_map]. rewrite fold_left_app. change (flat_map _ evs) with (pub_polls evs). rewrite IH by exact F'.
  destruct e as [[d|d|d j act|d j o act|d j]| | | | | | |]; cbn [fold_left asked_ev]; try reflexivity; cbn in H;
  (destruct (Z.eqb_spec j i); [lia|reflexivity]).
Qed.
Lemma elsewhere_free evs : Forall is_free_ev evs -> Forall elsewhere evs.
Proof. apply Forall_impl. intros e. destruct e; cbn; tauto. Qed.
Lemma PollI_same x x' log evs : v_size (x_vec x) <= RMC_LISTEN_INDEX -> PollI x log -> (forall j, slot (x_vec x') j = slot (x_vec x) j) -> Forall elsewhere evs -> PollI x' (log ++ evs).
Proof.
  intros Hz P Ev F i c Hs. rewrite Ev in Hs. destruct (P i c Hs) as [P1 P2]. rewrite elsewhere_asked; [auto| |exact F].
  pose proof (slot_range _ _ _ Hs). lia.
Qed.
Lemma asked_other i j log evs : j <> i -> Forall (fun e => match e with PvConn (EvAdd _ k _) | PvConn (EvMod _ k _ _) | PvConn (EvRem _ k) => k = j \/ RMC_LISTEN_INDEX <= k | _ => True end) evs ->
  i < RMC_LISTEN_INDEX -> asked i (pub_polls (log ++ evs)) = asked i (pub_polls log).
Proof.
  intros N F Hi. rewrite polls_app, asked_app. generalize (asked i (pub_polls log)). induction F as [|e evs H F IH]; intros a; [reflexivity|].
  cbn [pub_polls flat_map]. rewrite fold_left_app. change (flat_map _ evs) with (pub_polls evs). rewrite IH.
  destruct e as [[d|d|d k act|d k o act|d k]| | | | | | |]; cbn [fold_left asked_ev]; try reflexivity;
  (destruct (Z.eqb_spec k i); [lia|reflexivity]).
Qed.
Lemma asked_last i log d j old act : j = i -> asked i (pub_polls (log ++ [PvConn (EvMod d j old act)])) = Some (d, act).
Proof. intros ->. rewrite polls_app, asked_app. cbn. rewrite Z.eqb_refl. reflexivity. Qed.

(** One connection is changed, and its new action is asked for. *)
Lemma PollI_put x log i c c' pre old : v_size (x_vec x) <= RMC_LISTEN_INDEX -> PollI x log -> slot (x_vec x) i = Ok c -> c_mode c' <> CLOSED ->
  c_action c' = want (c_wbuf c') -> Forall elsewhere pre ->
  PollI (set_vec x (put_slot (x_vec x) i c')) (log ++ pre ++ [PvConn (EvMod (c_desc c') i old (c_action c'))]).
Proof.
  intros Hz P Hs Hm Ha Fp j d Hd. cbn [set_vec x_vec] in Hd. pose proof (slot_range _ _ _ Hs) as R. rewrite app_assoc.
  destruct (slot_put _ i c' j d R Hd) as [[-> ->]|[N Hd']].
  - rewrite asked_last by reflexivity. apply Z.eqb_neq in Hm. rewrite Hm. auto.
  - destruct (P j d Hd') as [P1 P2]. pose proof (slot_range _ _ _ Hd'). rewrite (asked_other j i); [|auto| |lia].
    + rewrite elsewhere_asked by (lia || exact Fp). auto.
    + repeat constructor.
Qed.

(** ** Closing *)
Lemma close_poll x log i code x' evs : v_size (x_vec x) <= RMC_LISTEN_INDEX -> 0 <= i -> PollI x log ->
  rmc_pub_close_connection x i = Ok (code, x', evs) -> PollI x' (log ++ evs).
Proof.
  intros Hz Hi P. unfold rmc_pub_close_connection.
  destruct (find_index_cases (x_vec x) i Hi) as [[-> N]|(c & -> & Ho)]; cbn [bind].
  { intros E. assert (x' = x /\ evs = []) as [-> ->] by (split; congruence). rewrite app_nil_r. exact P. }
  destruct (close_cases (x_vec x) i Hi) as [[H _]|[(c1 & H1 & H2 & _)|(c1 & Ho1 & E1)]].
  { pose proof (slot_range _ _ _ (proj1 Ho)). lia. }
  { destruct Ho as [Hs Hm]. congruence. }
  assert (c1 = c) by (destruct Ho, Ho1; congruence). subst c1. cbv zeta in E1. rewrite E1. cbn [bind].
  match goal with |- context [bind ?h _] => destruct h as [[s fr]| | |] end; cbn [bind fst snd]; [|discriminate..].
  match goal with |- context [bind ?h _] => destruct h as [[m e]| | |] eqn:Er end; cbn [bind fst snd]; [|discriminate..].
  pose proof (release_free _ _ _ _ Er) as Fe. intros E. injection E as _ <- <-.
  pose proof (slot_range _ _ _ (proj1 Ho)) as R. intros j d Hd. cbn [set_mem set_pub set_vec x_vec] in Hd. rewrite slot_set_active in Hd.
  destruct (closed_slot (x_vec x) i c _ j d R eq_refl Hd) as [[-> ->]|[N Hd']].
  - split; [|intros H; destruct (H eq_refl)]. rewrite polls_app, asked_app.
    cbn [pub_polls flat_map map app]. change (flat_map _ e) with (pub_polls e). rewrite (polls_free e Fe). cbn [app fold_left asked_ev]. rewrite Z.eqb_refl. reflexivity.
  - destruct (P j d Hd') as [P1 P2]. split; [|exact P2]. pose proof (slot_range _ _ _ Hd'). rewrite (asked_other j i); [exact P1|auto| |lia].
    constructor; [exact Logic.I|]. cbn [map app]. constructor; [left; reflexivity|]. constructor; [exact Logic.I|]. eapply Forall_impl; [|exact Fe]. intros ev. destruct ev; cbn; tauto.
Qed.
Lemma close_size x i code x' evs : 0 <= i -> rmc_pub_close_connection x i = Ok (code, x', evs) -> v_size (x_vec x') = v_size (x_vec x).
Proof. intros Hi E. apply (close_frame None x i code x' evs Hi E). Qed.

(** ** Resending *)
Lemma in_use_contents wb : cb_wf wb -> (circ_buf_in_use wb =? 0) = match contents wb with [] => true | _ => false end.
Proof.
  intros W. rewrite <- (contents_len wb W). destruct (contents wb) as [|b l]; [reflexivity|]. rewrite zlen_cons. pose proof (zlen_nonneg l). lia.
Qed.
Lemma resend_poll t x g log sp L Q i c a e code x' evs : XI t x g log sp L Q -> is_open (x_vec x) i c -> In (a, e) L -> PollI x log ->
  rmc_pub_resend_packet x i a = Ok (code, x', evs) -> PollI x' (log ++ evs).
Proof.
  intros X Ho Hin P. destruct (live_facts _ _ _ _ _ _ _ a e X Hin) as (Eg & Hpid & Hl & bs & El & Hbl & Hbb & Hnth).
  pose proof (vi_size _ _ (xi_vec _ _ _ _ _ _ _ X)) as Hz.
  destruct (vi_ring _ _ (xi_vec _ _ _ _ _ _ _ X) i c (proj1 Ho)) as [Hw Hs].
  destruct (P i c (proj1 Ho)) as [P1 P2]. specialize (P2 (proj2 Ho)).
  unfold rmc_pub_resend_packet. rewrite (proj1 Ho). cbn [bind]. rewrite Eg. cbn [bind].
  change (pk_len (pk_entry e)) with (len_of (e_pl e)). change (pk_payload (pk_entry e)) with (ptr_of (e_pl e)). change (1 + header_size) with 21.
  assert (W : forall w, (if circ_buf_available (c_wbuf c) <? 21 + len_of (e_pl e) then Ok (EAGAIN, c_wbuf c)
      else do payload <- load (x_mem x) (ptr_of (e_pl e)) (len_of (e_pl e)); write_packet (c_wbuf c) (setup_packet_header x (pk_entry e)) payload) = Ok w ->
      circ_buf_in_use (snd w) <> 0).
  { intros w. destruct (Z.ltb_spec (circ_buf_available (c_wbuf c)) (21 + len_of (e_pl e))) as [B|B].
    - intros E. injection E as <-. cbn [snd]. rewrite (available_val _ Hw), Hs in B. unfold RMC_MAX_PACKET, RMC_MAX_PAYLOAD in *. lia.
    - rewrite El. cbn [bind]. destruct (write_packet_spec (c_wbuf c) (setup_packet_header x (pk_entry e)) bs Hw) as (W1 & W2 & W3). rewrite Hbl in W1, W2, W3.
      destruct (Z.lt_ge_cases (cb_stop (c_wbuf c)) (cb_size (c_wbuf c))) as [C|C].
      + destruct (W2 B C) as (wb' & -> & Wf' & Wz' & _ & Wc' & _). intros E. injection E as <-. cbn [snd]. rewrite <- (contents_len wb' Wf'), Wc', zlen_app.
        pose proof (wire_len (CmdPacket (setup_packet_header x (pk_entry e)) bs)). pose proof (zlen_nonneg (contents (c_wbuf c))). pose proof (zlen_nonneg bs). cbn in *. lia.
      + rewrite W3; [discriminate|exact B|]. unfold cb_wf in Hw. lia. }
  match goal with |- context [bind ?h _] => destruct h as [w| | |] eqn:Ew end; cbn [bind]; [|discriminate..].
  specialize (W w eq_refl). assert (Ww : want (snd w) = 3) by (unfold want; apply Z.eqb_neq in W; rewrite W; reflexivity).
  destruct (Z.land (c_action c) POLLWRITE =? 0) eqn:Ea.
  - intros E. injection E as _ <- <-.
    apply (PollI_put x log i c (set_action (set_wbuf c (snd w)) (Z.lor (c_action c) POLLWRITE)) [] (c_action c)); [exact Hz|exact P|apply Ho|exact (proj2 Ho)| |constructor].
    cbn [set_action c_action set_wbuf c_wbuf]. rewrite Ww, P2. unfold want. destruct (circ_buf_in_use (c_wbuf c) =? 0); reflexivity.
  - intros E. injection E as _ <- <-. rewrite app_nil_r. intros j d Hd. cbn [set_vec x_vec] in Hd. pose proof (slot_range _ _ _ (proj1 Ho)) as R.
    destruct (slot_put _ i _ j d R Hd) as [[-> ->]|[N Hd']]; [|exact (P j d Hd')]. split; [exact P1|]. intros _. cbn [set_wbuf c_action c_wbuf].
    rewrite Ww, P2. rewrite P2 in Ea. unfold want in *. destruct (circ_buf_in_use (c_wbuf c) =? 0); [discriminate Ea|reflexivity].
Qed.
Lemma sent_timeout_poll t x g log sp L Q i c a e code x' evs : XI t x g log sp L Q -> is_open (x_vec x) i c -> In (a, e) L -> In (Z.to_nat i) (e_hold e) -> PollI x log ->
  process_sent_packet_timeout x i a = Ok (code, x', evs) -> PollI x' (log ++ evs).
Proof.
  intros X Ho Hin Hh P. pose proof (vi_size _ _ (xi_vec _ _ _ _ _ _ _ X)) as Hz. unfold process_sent_packet_timeout. rewrite (proj1 Ho). cbn [bind].
  destruct (live_facts _ _ _ _ _ _ _ a e X Hin) as (Eg & _). rewrite Eg. cbn [bind].
  destruct (negb _).
  - destruct (rmc_pub_packet_ack x i _) as [[x1 e1]| | |] eqn:E1; cbn [bind fst snd]; [|discriminate..]. intros E.
    assert (x' = x1 /\ evs = e1) as [-> ->] by (split; congruence). destruct (ack_frame _ _ _ _ _ E1) as [V F].
    apply (PollI_same x); [exact Hz|exact P|rewrite V; reflexivity|apply elsewhere_free; exact F].
  - destruct (rmc_pub_resend_packet x i a) as [[[cd x1] e1]| | |] eqn:E1; cbn [bind]; [|discriminate..].
    pose proof (resend_poll _ _ _ _ _ _ _ _ _ _ _ _ _ _ X Ho Hin P E1) as P1.
    destruct (resend_xi t x g log sp L Q i c a e X Ho Hin Hh) as [(_ & _ & B)|(cd' & x1' & e1' & E1' & X1 & _)]; [congruence|].
    assert (cd' = cd /\ x1' = x1 /\ e1' = e1) as (-> & -> & ->) by (repeat split; congruence).
    destruct (cd =? 0).
    + destruct (rmc_pub_packet_ack x1 i _) as [[x2 e2]| | |] eqn:E2; cbn [bind fst snd]; [|discriminate..]. intros E.
      assert (x' = x2 /\ evs = e1 ++ e2) as [-> ->] by (split; congruence). destruct (ack_frame _ _ _ _ _ E2) as [V F]. rewrite app_assoc.
      apply (PollI_same x1); [exact (vi_size _ _ (xi_vec _ _ _ _ _ _ _ X1))|exact P1|rewrite V; reflexivity|apply elsewhere_free; exact F].
    + intros E. assert (x' = x1 /\ evs = e1) as [-> ->] by (split; congruence). exact P1.
Qed.
Definition PR (log : list pev) (r : Z * pctx * list pev) : Prop := let '(_, x', evs) := r in PollI x' (log ++ evs).
Lemma resend_loop_poll t i : forall packs x g log c, XInv t x g log -> is_open (x_vec x) i c -> NoDup packs -> incl packs (p_sinf (x_pub x) (Z.to_nat i)) ->
  PollI x log -> safe t (resend_loop x i packs) (PR log).
Proof.
  induction packs as [|a packs IH]; intros x g log c XV Ho ND Hi P; cbn [resend_loop].
  - cbn [safe]. unfold PR. rewrite app_nil_r. exact P.
  - destruct XV as (sp & L & Q & X). pose proof (xi_pub _ _ _ _ _ _ _ X) as I. inversion ND as [|? ? N1 N2]; subst.
    destruct (sinf_entry _ _ _ _ _ a I (Hi a (or_introl eq_refl))) as (e & He & Hh).
    apply (safe_bind t _ _ _ _ (sent_timeout_xi t x g log sp L Q i c a e X Ho He Hh)).
    intros [[code x1] evs] E1 (sp' & L' & X1 & Cf & Ko & Su & _ & Cc & Hk).
    pose proof (sent_timeout_poll _ _ _ _ _ _ _ _ _ _ _ _ _ _ X Ho He Hh P E1) as P1.
    destruct (code =? 0) eqn:Ec; cbn [negb]; [|exact P1].
    destruct (proj2 Ko i c Ho) as (c1 & Ho1 & _).
    apply (safe_bind t _ _ (PR (log ++ evs))).
    + apply (IH x1 (g_unlend g evs) _ c1); [eexists _, _, _; exact X1|exact Ho1|exact N2| |exact P1].
      intros b Hb. apply Hk; [apply Hi; right; exact Hb|].
      destruct (sinf_entry _ _ _ _ _ b I (Hi b (or_intror Hb))) as (f & Hf & _). rewrite (inv_pidL I b f Hf).
      intros E. apply N1. rewrite (live_pid_inj _ _ _ _ _ _ _ _ I He Hf (eq_sym E)). exact Hb.
    + intros [[code2 x2] evs2] _ P2. cbn [safe]. unfold PR in *. rewrite app_assoc. exact P2.
Qed.
Lemma sub_timeout_poll t x g log n now : XInv t x g log -> (exists c, is_open (x_vec x) (Z.of_nat n) c) -> PollI x log ->
  safe t (process_subscriber_timeout x n now) (PR log).
Proof.
  intros XV [c Ho] P. pose proof XV as (sp & L & Q & X). pose proof (xi_pub _ _ _ _ _ _ _ X) as I. unfold process_subscriber_timeout, pub_get_timed_out_packets.
  destruct (timed_out_packs_ok (x_pub x) now (x_resend x) (p_sinf (x_pub x) n)) as (packs & Ep).
  { intros a Ha. apply (inv_liveL I). exact (sinf_incl I n a Ha). }
  rewrite Ep. cbn [bind]. destruct (timed_out_packs_sub _ _ _ _ _ Ep) as (tl & Etl).
  apply (resend_loop_poll t (Z.of_nat n) packs x g log c XV Ho); [| |exact P].
  - apply (NoDup_app_l _ tl). rewrite <- Etl, (inv_sinf I). apply NoDup_rev.
    pose proof (inv_ndL I) as ND. clear - ND. induction L as [|y L IH]; [constructor|]. cbn [map] in ND. inversion ND as [|? ? N1 N2]; subst.
    cbn [filter]. destruct (holds n y); [|exact (IH N2)]. cbn [map]. constructor; [|exact (IH N2)].
    intros H. apply N1. apply in_map_iff in H. destruct H as (z & E & Hz). apply filter_In in Hz. rewrite <- E. apply in_map. tauto.
  - rewrite Nat2Z.id, Etl. apply incl_appl, incl_refl.
Qed.
Lemma subs_loop_poll t now : forall subs x g log, XInv t x g log -> (forall n, In n subs -> exists c, is_open (x_vec x) (Z.of_nat n) c) -> PollI x log ->
  safe t (subs_loop x now subs) (PR log).
Proof.
  induction subs as [|n subs IH]; intros x g log XV H P; cbn [subs_loop].
  - cbn [safe]. unfold PR. rewrite app_nil_r. exact P.
  - apply (safe_bind t _ _ _ _ (sub_timeout_inv t x g log n now XV (H n (or_introl eq_refl)))).
    intros [[code x1] evs] E1 T1. pose proof (safe_ok _ _ _ _ (sub_timeout_poll t x g log n now XV (H n (or_introl eq_refl)) P) E1) as P1.
    destruct (code =? 0); cbn [negb]; [|exact P1].
    apply (safe_bind t _ _ (PR (log ++ evs))).
    + apply (IH x1 (g_unlend g evs)); [apply T1| |exact P1]. intros m Hm. destruct (H m (or_intror Hm)) as [c Ho]. destruct T1 as (_ & _ & Ko & _). destruct (proj2 Ko _ c Ho) as (c' & Ho' & _). eauto.
    + intros [[code2 x2] evs2] _ T2. cbn [safe]. unfold PR in *. rewrite app_assoc. exact T2.
Qed.

(** ** Calls that only poll the multicast socket *)
Lemma queue_else x p l a code x' evs : rmc_pub_queue_packet x p l a = Ok (code, x', evs) -> x_vec x' = x_vec x /\ Forall elsewhere evs.
Proof.
  unfold rmc_pub_queue_packet. destruct (_ =? _); [intros E; assert (x' = x /\ evs = []) as [-> ->] by (split; congruence); auto|].
  destruct (_ <? _); [intros E; assert (x' = x /\ evs = []) as [-> ->] by (split; congruence); auto|].
  destruct (x_susp x); [intros E; assert (x' = x /\ evs = []) as [-> ->] by (split; congruence); auto|].
  match goal with |- context [bind ?h _] => destruct h as [[[s' pd] nd]| | |] end; cbn [bind fst snd]; [|discriminate..].
  intros E. injection E as _ <- <-. split; [destruct (_ && _); reflexivity|]. repeat constructor; cbn; unfold RMC_LISTEN_INDEX, RMC_MULTICAST_INDEX; lia.
Qed.
Lemma send_else x a o code x' evs : send_single_multicast_packet x a o = Ok (code, x', evs) -> x_vec x' = x_vec x /\ Forall elsewhere evs.
Proof.
  unfold send_single_multicast_packet. destruct (_ =? _); [intros E; assert (x' = x /\ evs = []) as [-> ->] by (split; congruence); auto|].
  destruct (get_pack _ _) as [p| | |]; cbn [bind]; [|discriminate..].
  destruct (_ <? _); [intros E; assert (x' = x /\ evs = []) as [-> ->] by (split; congruence); auto|].
  destruct (load _ _ _) as [bs| | |]; cbn [bind]; [|discriminate..]. destruct o as [e|ts].
  - destruct (_ =? _); intros E; injection E as _ <- <-; split; auto; repeat constructor; cbn; unfold RMC_LISTEN_INDEX, RMC_MULTICAST_INDEX; lia.
  - destruct (pub_packet_sent _ _ _) as [s| | |]; cbn [bind]; [|discriminate..]. intros E. injection E as _ <- <-. split; [reflexivity|].
    repeat constructor; cbn; unfold RMC_LISTEN_INDEX, RMC_MULTICAST_INDEX; lia.
Qed.
Lemma mcast_else : forall outs x code x' evs, process_multicast_write x outs = Ok (code, x', evs) -> x_vec x' = x_vec x /\ Forall elsewhere evs.
Proof.
  induction outs as [|o outs IH]; intros x code x' evs E; cbn [process_multicast_write] in E;
  (destruct (pub_next_queued (x_pub x)) as [a|]; [|assert (x' = x /\ evs = []) as [-> ->] by (split; congruence); auto]).
  - exact (send_else _ _ _ _ _ _ E).
  - destruct (send_single_multicast_packet x a o) as [[[cd x1] e1]| | |] eqn:E1; cbn [bind] in E; [|discriminate E..].
    destruct (send_else _ _ _ _ _ _ E1) as [V1 F1]. destruct (negb (cd =? 0)); [assert (x' = x1 /\ evs = e1) as [-> ->] by (split; congruence); auto|].
    destruct (process_multicast_write x1 outs) as [[[cd2 x2] e2]| | |] eqn:E2; cbn [bind] in E; [|discriminate E..].
    assert (x' = x2 /\ evs = e1 ++ e2) as [-> ->] by (split; congruence). destruct (IH _ _ _ _ E2) as [V2 F2]. split; [congruence|]. apply Forall_app. auto.
Qed.

(** ** The other calls *)
Lemma timeout_poll x g log now buf o code x' evs : XInv false x g log -> PollI x log ->
  rmc_pub_timeout_process x now buf o = Ok (code, x', evs) -> PollI x' (log ++ evs).
Proof.
  intros XV P. pose proof XV as (sp & L & Q & X). pose proof (vi_size _ _ (xi_vec _ _ _ _ _ _ _ X)) as Hz.
  unfold rmc_pub_timeout_process. destruct (announce_due x now).
  - destruct (match o with AnnNone => _ | AnnNo => _ | AnnYes bs len => _ end) as [[bs len] send].
    match goal with |- context [bind ?h _] => destruct h as [[[cd x2] e2]| | |] eqn:E2 end; cbn [bind]; [|discriminate..].
    assert (H : x_vec x2 = x_vec x /\ Forall elsewhere e2).
    { destruct send; [exact (queue_else _ _ _ _ _ _ _ E2)|]. injection E2 as _ <- <-. auto. }
    intros E. injection E as _ <- <-. apply (PollI_same x); [exact Hz|exact P| |apply H]. intros j. cbn [set_mem set_ann x_vec]. destruct H as [-> _]. reflexivity.
  - unfold pub_get_timed_out_subscribers.
    destruct (timed_out_subs_ok _ now (x_resend x) _ _ _ (xi_pub _ _ _ _ _ _ _ X) (p_subs (x_pub x))) as (subs & -> & Hi). cbn [bind].
    intros E. refine (safe_ok false _ _ _ (subs_loop_poll false now subs x g log XV _ P) E).
    intros n Hn'. apply (vi_reg _ _ (xi_vec _ _ _ _ _ _ _ X)). rewrite <- (i_subs _ _ _ _ (xi_pub _ _ _ _ _ _ _ X)). exact (Hi n Hn').
Qed.
Lemma write_tcp_poll x g log i w code op x' evs : XInv false x g log -> xok x g (XWrite i (WrTcp w)) -> PollI x log ->
  rmc_pub_write x i (WrTcp w) = Ok (code, op, x', evs) -> PollI x' (log ++ evs).
Proof.
  intros XV Hok P. assert (Hi : 0 <= i < 65536) by (destruct w; cbn in Hok; tauto).
  assert (Same : forall c o x1 e1, Ok (c, o, x, []) = Ok (code, op, x1, e1) -> PollI x1 (log ++ e1)).
  { intros c o x1 e1 E. assert (x1 = x /\ e1 = []) as [-> ->] by (split; congruence). rewrite app_nil_r. exact P. }
  cbn [rmc_pub_write]. destruct (_ <=? i); [apply Same|].
  destruct (find_index_cases (x_vec x) i (proj1 Hi)) as [[-> _]|(c & -> & Ho)]; cbn [bind]; [apply Same|].
  destruct (negb _); [apply Same|]. destruct (circ_buf_in_use (c_wbuf c) =? 0) eqn:Eu; [apply Same|].
  destruct XV as (sp & L & Q & X). destruct (vi_ring _ _ (xi_vec _ _ _ _ _ _ _ X) i c (proj1 Ho)) as [Hw Hz].
  destruct (tcp_write_spec (c_wbuf c) w Hw ltac:(lia)) as (wb' & -> & Hw' & Hz' & Hc' & _). { destruct w; cbn in Hok; tauto. }
  cbn [bind w_left w_code w_sent w_buf]. intros E. injection E as _ _ <- <-. destruct (P i c (proj1 Ho)) as [_ P2]. specialize (P2 (proj2 Ho)).
  match goal with |- PollI (set_vec x (put_slot (x_vec x) i ?c')) _ => apply (PollI_put x log i c c' [PvTcp i _] (c_action c)) end.
  - exact (vi_size _ _ (xi_vec _ _ _ _ _ _ _ X)).
  - exact P.
  - apply Ho.
  - exact (proj2 Ho).
  - cbn [set_action set_wbuf c_action c_wbuf]. rewrite (contents_len _ Hw'), P2. unfold want. rewrite Eu. destruct (circ_buf_in_use wb' =? 0); reflexivity.
  - repeat constructor.
Qed.
Lemma close_loop_poll : forall n x g log ind x' evs, XInv false x g log -> 0 <= ind -> PollI x log ->
  close_loop n x ind = Ok (x', evs) -> PollI x' (log ++ evs).
Proof.
  induction n as [|n IH]; intros x g log ind x' evs XV Hi P E; cbn [close_loop] in E.
  - assert (x' = x /\ evs = []) as [-> ->] by (split; congruence). rewrite app_nil_r. exact P.
  - destruct (find_index_cases (x_vec x) ind Hi) as [[Ef _]|(c & Ef & Ho)]; rewrite Ef in E; cbn [bind] in E; [exact (IH x g log (ind + 1) x' evs XV ltac:(lia) P E)|].
    destruct (rmc_pub_close_connection x ind) as [[[cd x1] e1]| | |] eqn:E1; cbn [bind] in E; [|discriminate E..].
    pose proof (safe_ok _ _ _ _ (close_inv_x false x g log ind XV Hi) E1) as XV1. cbv beta iota in XV1.
    destruct (close_loop n x1 (ind + 1)) as [[x2 e2]| | |] eqn:E2; cbn [bind fst snd] in E; [|discriminate E..].
    assert (x' = x2 /\ evs = e1 ++ e2) as [-> ->] by (split; congruence). rewrite app_assoc.
    destruct XV as (sp & L & Q & X).
    apply (IH x1 (g_unlend g e1) (log ++ e1) (ind + 1) x2 e2 XV1 ltac:(lia)); [|exact E2].
    exact (close_poll x log ind _ _ _ (vi_size _ _ (xi_vec _ _ _ _ _ _ _ X)) Hi P E1).
Qed.
Lemma ctx_size x g log : XInv false x g log -> v_size (x_vec x) <= RMC_LISTEN_INDEX.
Proof. intros (sp & L & Q & X). exact (vi_size _ _ (xi_vec _ _ _ _ _ _ _ X)). Qed.
Lemma deactivate_poll x g log code x' evs : XInv false x g log -> PollI x log ->
  rmc_pub_deactivate_context x = Ok (code, x', evs) -> PollI x' (log ++ evs).
Proof.
  intros XV P. unfold rmc_pub_deactivate_context.
  set (e1 := [PvConn (EvRem (x_mcast x) RMC_MULTICAST_INDEX); PvConn (EvRem (x_listen x) RMC_LISTEN_INDEX)]).
  set (e3 := [PvConn (EvClose (x_mcast x)); PvConn (EvClose (x_listen x))]).
  assert (XV1 : XInv false x (g_unlend g e1) (log ++ e1)) by (apply XInv_plain; [exact XV|repeat constructor|intros; repeat constructor]).
  assert (F1 : Forall elsewhere e1) by (repeat constructor; cbn; unfold RMC_LISTEN_INDEX, RMC_MULTICAST_INDEX; lia).
  assert (P1 : PollI x (log ++ e1)) by (apply (PollI_same x); [exact (ctx_size _ _ _ XV)|exact P|reflexivity|exact F1]).
  match goal with |- context [bind ?h _] => destruct h as [[x2 e2]| | |] eqn:E2 end; cbn [bind fst snd]; [|discriminate..].
  assert (H2 : PollI x2 ((log ++ e1) ++ e2) /\ v_size (x_vec x2) <= RMC_LISTEN_INDEX).
  { destruct (_ =? _).
    - assert (x2 = x /\ e2 = []) as [-> ->] by (split; congruence). rewrite app_nil_r. split; [exact P1|exact (ctx_size _ _ _ XV)].
    - split; [exact (close_loop_poll _ _ _ _ 0 _ _ XV1 ltac:(lia) P1 E2)|].
      pose proof (safe_ok _ _ _ _ (close_loop_inv false _ x _ _ 0 XV1 ltac:(lia)) E2) as XV2. exact (ctx_size _ _ _ XV2). }
  intros E. injection E as _ <- <-. destruct H2 as [H2 Hz].
  replace (log ++ _) with (((log ++ e1) ++ e2) ++ e3) by (unfold e1, e3; rewrite <- !app_assoc; reflexivity).
  apply (PollI_same x2); [exact Hz|exact H2|reflexivity|repeat constructor].
Qed.
Lemma accept_poll x g log i a cb code op x' evs : XInv false x g log -> xok x g (XRead i (RdAccept a cb)) -> PollI x log ->
  rmc_pub_read x i (RdAccept a cb) = Ok (code, op, x', evs) -> PollI x' (log ++ evs).
Proof.
  intros XV Hok P. pose proof (ctx_size _ _ _ XV) as Hz. destruct XV as (sp & L & Q & X). cbn [rmc_pub_read].
  destruct (accept_cases (x_listen x) (x_vec x) a (nil_listen _ Hz)) as [[_ ->]|(j & c & Lf & Hs & Hd & E)].
  - cbn [bind]. change (ENOMEM =? 0) with false. cbn [negb map]. intros E. injection E as _ _ <- <-. apply (PollI_same x); auto.
  - pose proof (slot_range _ _ _ Hs) as R. destruct a as [e|d addr nd].
    + rewrite E. cbn [bind]. cbn in Hok. replace (e =? 0) with false by lia. cbn [negb map]. intros E'. injection E' as _ _ <- <-.
      apply (PollI_same x); auto. intros k. cbn [set_vec x_vec].
      apply (VI_fail (x_vec x) (sp_reg sp) j c (xi_vec _ _ _ _ _ _ _ X) Lf Hs Hd).
    + cbn in Hok. destruct Hok as [Hd0 ->]. destruct E as [[_ E]|[E0 _]]; [|congruence]. rewrite E. cbn [bind].
      change (0 =? 0) with true. cbn [negb].
      set (c' := mkConn POLLREAD d (c_node c) (c_rbuf c) (c_wbuf c) CONNECTED (c_port c) addr) in *.
      set (v' := set_active _ _) in *. set (ae := [EvOpen d; EvAdd d j POLLREAD; _]) in *.
      assert (Vs : forall k d0, slot v' k = Ok d0 -> (k = j /\ d0 = c') \/ (k <> j /\ slot (x_vec x) k = Ok d0)).
      { intros k d0 Hk. unfold v' in Hk. rewrite slot_set_active in Hk. destruct (slot_put (bumped (x_vec x) j) j c' k d0) as [A|[A B]]; [rewrite bumped_size; exact R|exact Hk|auto|].
        rewrite bumped_slot in B. auto. }
      destruct (vi_mode _ _ (xi_vec _ _ _ _ _ _ _ X) j c Hs) as (Hmd & _ & _). apply Hmd in Hd.
      assert (P1 : forall x1, x_vec x1 = v' -> PollI x1 (log ++ map PvConn ae)).
      { intros x1 Ev k d0 Hk. rewrite Ev in Hk. destruct (Vs k d0 Hk) as [[-> ->]|[N Hk']].
        - split.
          + rewrite polls_app, asked_app, polls_conn. unfold ae. cbn [fold_left asked_ev]. rewrite Z.eqb_refl.
            destruct (Z.eqb_spec RMC_LISTEN_INDEX j); [lia|]. reflexivity.
          + intros _. unfold c'. cbn [c_action c_wbuf]. unfold want.
            destruct (fresh_ring_wf c (vi_clean _ _ (xi_vec _ _ _ _ _ _ _ X) j c Hs Hd)) as (Fw & _ & Fc).
            rewrite (in_use_contents _ Fw), Fc. reflexivity.
        - destruct (P k d0 Hk') as [A B]. split; [|exact B]. pose proof (slot_range _ _ _ Hk'). rewrite (asked_other k j); [exact A|auto| |lia].
          unfold ae. cbn [map]. constructor; [exact Logic.I|]. constructor; [left; reflexivity|]. constructor; [right; lia|constructor]. }
      destruct (accept_xi false x g log sp L Q j c d addr X Lf Hs ltac:(apply Hmd; exact Hd) Hd0) as [X1 Ho]. fold c' in X1, Ho. fold v' in X1, Ho. fold ae in X1.
      destruct (find_index_cases v' j (proj1 R)) as [[_ H]|(c0 & -> & Ho0)]; [destruct (H c' Ho)|].
      assert (c0 = c') by (destruct Ho, Ho0; congruence). subst c0. cbn [bind]. set (x1 := set_pub (set_vec x v') _) in *.
      assert (P2 : PollI x1 ((log ++ map PvConn ae) ++ [PvJoin (c_addr c') (c_port c')])).
      { apply (PollI_same x1); [exact (vi_size _ _ (xi_vec _ _ _ _ _ _ _ X1))|apply P1; reflexivity|reflexivity|repeat constructor]. }
      destruct cb as [[|]|].
      * intros E'. assert (x' = x1 /\ evs = map PvConn ae ++ [PvJoin (c_addr c') (c_port c')]) as [-> ->] by (split; congruence). rewrite app_assoc. exact P2.
      * destruct (rmc_pub_close_connection x1 j) as [[[cd x2] e2]| | |] eqn:E2; cbn [bind]; [|discriminate..].
        intros E'. assert (x' = x2 /\ evs = map PvConn ae ++ PvJoin (c_addr c') (c_port c') :: e2) as [-> ->] by (split; congruence).
        replace (log ++ _) with (((log ++ map PvConn ae) ++ [PvJoin (c_addr c') (c_port c')]) ++ e2) by (rewrite <- !app_assoc; reflexivity).
        exact (close_poll _ _ _ _ _ _ (vi_size _ _ (xi_vec _ _ _ _ _ _ _ X1)) (proj1 R) P2 E2).
      * intros E'. assert (x' = x1 /\ evs = map PvConn ae) as [-> ->] by (split; congruence). apply P1. reflexivity.
Qed.
(** The handlers of a TCP read poll nothing. *)
Definition HQ (g : ghost) (log : list pev) (x : pctx) (st : hst) : Prop := HP false g log x st /\ Forall elsewhere (snd st).
Lemma eff_ack_poll g log x i st iv : 0 <= i -> HQ g log x st -> safe false (eff_ack i st iv) (HQ g log x).
Proof.
  intros Hi [H F]. eapply safe_imp; [exact (eff_ack_safe false g log x i st iv Hi H)|]. intros st' E H'. split; [exact H'|].
  unfold eff_ack, ack_interval in E. destruct (_ && _); [discriminate E|].
  destruct (ack_rounds _ _ _ _) as [[x3 e3]| | |] eqn:E3; cbn [bind fst snd] in E; [|discriminate E..]. injection E as <-. cbn [snd].
  apply Forall_app. split; [exact F|]. constructor; [exact Logic.I|]. apply elsewhere_free. exact (proj2 (rounds_frame _ _ _ _ _ _ E3)).
Qed.
Lemma eff_ctrl_poll g log x i st p : HQ g log x st -> safe false (eff_ctrl i st p) (HQ g log x).
Proof.
  intros [H F]. eapply safe_imp; [exact (eff_ctrl_safe false g log x i st p H)|]. intros st' E H'. split; [exact H'|].
  unfold eff_ctrl in E. destruct (x_ccb (fst st)); [discriminate E|injection E as <-; exact F|].
  destruct (slot _ _) as [c| | |]; cbn [bind] in E; [|discriminate E..]. injection E as <-. cbn [snd]. apply Forall_app. split; [exact F|repeat constructor].
Qed.
Lemma read_tcp_poll x g log i t code op x' evs : XInv false x g log -> xok x g (XRead i (RdTcp t)) -> PollI x log ->
  rmc_pub_read x i (RdTcp t) = Ok (code, op, x', evs) -> PollI x' (log ++ evs).
Proof.
  intros XV Hok P. pose proof (ctx_size _ _ _ XV) as Hz. cbn in Hok. cbn [rmc_pub_read].
  assert (Same : forall c o x1 e1, Ok (c, o, x, []) = Ok (code, op, x1, e1) -> PollI x1 (log ++ e1)).
  { intros c o x1 e1 E. assert (x1 = x /\ e1 = []) as [-> ->] by (split; congruence). rewrite app_nil_r. exact P. }
  destruct (find_index_cases (x_vec x) i (proj1 Hok)) as [[-> _]|(c & -> & Ho)]; cbn [bind]; [apply Same|].
  destruct (negb (c_mode c =? CONNECTED)); [apply Same|].
  assert (S : safe false (tcp_read (pub_dispatch (eff_ack i) (ccb_set x) (eff_ctrl i)) (x, []) (c_rbuf c) t) (fun r => HQ g log x (r_st r))).
  { apply tcp_read_safe.
    - apply pub_dispatch_safe; [intros st iv; apply eff_ack_poll; lia|intros st p; apply eff_ctrl_poll].
    - split; [split; [|apply sbp_refl]|constructor]. cbn [fst snd]. rewrite g_unlend_nil, app_nil_r. exact XV. }
  destruct (tcp_read _ _ (c_rbuf c) t) as [r| | |]; cbn [bind]; [|discriminate..]. cbn [safe] in S.
  destruct S as [[(sp & L & Q & X) S] F]. destruct (r_st r) as [x1 evs1]. cbn [fst snd] in *.
  assert (Ev : x_vec x1 = x_vec x) by exact (proj1 S).
  assert (Ho1 : is_open (x_vec x1) i c) by (rewrite Ev; exact Ho).
  assert (P1 : PollI x1 (log ++ evs1)) by (apply (PollI_same x); [exact Hz|exact P|rewrite Ev; reflexivity|exact F]).
  assert (Hz1 : v_size (x_vec x1) <= RMC_LISTEN_INDEX) by (rewrite Ev; exact Hz).
  destruct (P1 i c (proj1 Ho1)) as [Pa Pb]. specialize (Pb (proj2 Ho1)).
  destruct (r_code r =? EPIPE).
  - destruct (rmc_pub_close_connection _ i) as [[[cd x2] e2]| | |] eqn:E2; cbn [bind]; [|discriminate..]. intros E. injection E as _ _ <- <-. rewrite app_assoc.
    refine (close_poll _ _ _ _ _ _ _ (proj1 Hok) _ E2).
    + cbn [set_vec x_vec]. rewrite size_put. exact Hz1.
    + intros j d Hd. cbn [set_vec x_vec] in Hd. pose proof (slot_range _ _ _ (proj1 Ho1)) as R.
      destruct (slot_put _ i _ j d R Hd) as [[-> ->]|[N Hd']]; [|exact (P1 j d Hd')]. split; [exact Pa|intros _; exact Pb].
  - intros E. injection E as _ _ <- <-. rewrite app_assoc.
    match goal with |- PollI (set_vec x1 (put_slot (x_vec x1) i ?c')) _ => apply (PollI_put x1 (log ++ evs1) i c c' [] (c_action c)) end; auto.
    + apply Ho1.
    + exact (proj2 Ho1).
    + cbn [set_action set_rbuf c_action c_wbuf]. unfold want, pending_send. cbn [c_wbuf set_rbuf].
      destruct (vi_ring _ _ (xi_vec _ _ _ _ _ _ _ X) i c (proj1 Ho1)) as [Hw Hs]. pose proof (in_use_bounds _ Hw) as B. rewrite Hs in B.
      unfold u16. rewrite Z.mod_small by (unfold RMC_MAX_PACKET in B; lia).
      destruct (Z.ltb_spec 0 (circ_buf_in_use (c_wbuf c))), (Z.eqb_spec (circ_buf_in_use (c_wbuf c)) 0); try lia; reflexivity.
Qed.
Lemma step_poll x g log o code x' evs : XInv false x g log -> xok x g o -> PollI x log -> xstep x o = Ok (code, x', evs) -> PollI x' (log ++ evs).
Proof.
  intros XV Hok P E. pose proof (ctx_size _ _ _ XV) as Hz.
  assert (Vec : forall y l, (forall j, slot (x_vec y) j = slot (x_vec x) j) -> Forall elsewhere l -> PollI y (log ++ l)) by (intros y l H F; apply (PollI_same x); assumption).
  destruct o as [ptr bs|ptr|ptr len ann|i [a cb|err|t]|i [outs|w]|now buf o|i|interval now|s r|b|o|]; cbn [xstep] in E.
  - injection E as _ <- <-. apply Vec; [reflexivity|constructor].
  - injection E as _ <- <-. apply Vec; [reflexivity|constructor].
  - destruct (queue_else _ _ _ _ _ _ _ E) as [V F]. apply Vec; [rewrite V; reflexivity|exact F].
  - destruct (rmc_pub_read x i (RdAccept a cb)) as [[[[cd op] x1] e1]| | |] eqn:Ed; cbn [bind] in E; [|discriminate E..]. injection E as _ <- <-.
    exact (accept_poll _ _ _ _ _ _ _ _ _ _ XV Hok P Ed).
  - cbn [rmc_pub_read] in E. destruct (x_mcast x =? -1); [|destruct err]; cbn [bind] in E; injection E as _ <- <-; (apply Vec; [reflexivity|]);
    repeat constructor; cbn; unfold RMC_LISTEN_INDEX, RMC_MULTICAST_INDEX; lia.
  - destruct (rmc_pub_read x i (RdTcp t)) as [[[[cd op] x1] e1]| | |] eqn:Ed; cbn [bind] in E; [|discriminate E..]. injection E as _ <- <-.
    exact (read_tcp_poll _ _ _ _ _ _ _ _ _ XV Hok P Ed).
  - cbn [rmc_pub_write] in E. destruct (process_multicast_write x outs) as [[[cd x1] e1]| | |] eqn:Ed; cbn [bind] in E; [|discriminate E..].
    injection E as _ <- <-. destruct (mcast_else _ _ _ _ _ Ed) as [V F]. apply Vec; [rewrite V; reflexivity|exact F].
  - destruct (rmc_pub_write x i (WrTcp w)) as [[[[cd op] x1] e1]| | |] eqn:Ed; cbn [bind] in E; [|discriminate E..]. injection E as _ <- <-.
    exact (write_tcp_poll _ _ _ _ _ _ _ _ _ XV Hok P Ed).
  - exact (timeout_poll _ _ _ _ _ _ _ _ _ XV P E).
  - exact (close_poll _ _ _ _ _ _ Hz (proj1 Hok) P E).
  - injection E as _ <- <-. apply Vec; [reflexivity|constructor].
  - unfold rmc_pub_throttling in E. destruct (s <? r); injection E as _ <- <-; (apply Vec; [reflexivity|constructor]).
  - injection E as _ <- <-. apply Vec; [reflexivity|constructor].
  - unfold rmc_pub_activate_context in E. destruct o as [e ds ea|m l port]; injection E as _ <- <-.
    + apply Vec; [reflexivity|]. apply Forall_app. split; apply Forall_map, Forall_forall; intros; exact Logic.I.
    + apply Vec; [destruct (_ =? 0); reflexivity|]. repeat constructor; cbn; unfold RMC_LISTEN_INDEX, RMC_MULTICAST_INDEX; lia.
  - exact (deactivate_poll _ _ _ _ _ _ XV P E).
Qed.
Lemma init_poll x0 : fresh_ctx x0 -> PollI x0 [].
Proof.
  intros (node & lip & lport & buf & m & -> & _) i c Hs. cbn in Hs. destruct (slot_init buf i c Hs) as [_ ->]. split; [reflexivity|]. intros H. destruct (H eq_refl).
Qed.
Lemma reached_poll x g log : reached x g log -> PollI x log.
Proof.
  intros (x0 & ops & F & H). induction H as [|ops x g log o code x' evs H IH Hok E]; [apply init_poll; exact F|].
  refine (step_poll _ _ _ _ _ _ _ _ Hok IH E). apply reached_inv. exists x0, ops. auto.
Qed.
