(** EpollSub.v — the epoll set of a subscriber context. *)
From Verif Require Import Base CircBuf CircBufProofs Wire SeqList Proto SpecProto ProtoProofs
  Conn SpecConn ConnProofs Sub PubCtx SubCtx SpecSubCtx SubSteps SubInv SpecPoll PollPub PollSub SpecDesc Desc DescSub Epoll EpollProofs EpollPub.

(** A connection that is being set up is polled for output. *)
Definition CA (v : cvec) : Prop := forall i c, slot v i = Ok c -> c_mode c = CONNECTING -> c_action c = POLLWRITE.
Lemma CA_put v i c' : (c_mode c' = CONNECTING -> c_action c' = POLLWRITE) -> CA v -> CA (put_slot v i c').
Proof.
  intros H A j d Hs Hm. destruct (Z.eq_dec j i) as [->|N].
  - pose proof (slot_range _ _ _ Hs) as R. rewrite size_put in R. rewrite slot_put_same in Hs by exact R. injection Hs as <-. exact (H Hm).
  - destruct (Z_lt_ge_dec i 0) as [L|G].
    + pose proof (slot_range _ _ _ Hs) as R. unfold put_slot in Hs. revert Hs. unfold slot. cbn [v_conns]. replace (Z.to_nat i) with 0%nat by lia. intros Hs.
      destruct (Z.eq_dec j 0) as [->|Nj].
      * destruct (v_conns v) as [|c0 l]; cbn in Hs; [discriminate|]. injection Hs as <-. exact (H Hm).
      * apply (A j d); [|exact Hm]. unfold slot. destruct (0 <=? j) eqn:E0; [|exact Hs]. destruct (v_conns v) as [|c0 l]; [exact Hs|]. destruct (Z.to_nat j) as [|k] eqn:Ek; [lia|exact Hs].
    + rewrite slot_put_other in Hs by (lia || exact N). exact (A j d Hs Hm).
Qed.
Lemma CA_close v i code v' evs : 0 <= i -> close_conn v i = Ok (code, v', evs) -> CA v -> CA v'.
Proof.
  intros Hi E A. destruct (close_cases v i Hi) as [[_ Ec]|[(c & _ & _ & Ec)|(c & Ho & Ec)]]; rewrite Ec in E; injection E as _ <- _; auto.
  intros j d Hs. rewrite slot_set_active in Hs. assert (Hs' : slot (put_slot v i (reset_conn c)) j = Ok d) by (destruct (i =? v_max v); exact Hs). revert Hs'. apply CA_put; [|exact A]. discriminate.
Qed.
Lemma CA_bumped v i : CA v -> CA (bumped v i).
Proof. intros A j d. rewrite bumped_slot. apply A. Qed.
Lemma CA_connect v addr port node o code ri v' evs : v_size v <= RMC_NIL_INDEX -> connect_tcp v addr port node o = Ok (code, ri, v', evs) -> CA v -> CA v'.
Proof.
  intros Sz E A. destruct (connect_cases v addr port node o Sz) as [[_ Ec]|(i & c & _ & Hs & Hd & Ec)]; [rewrite Ec in E; injection E as _ _ <- <-; exact A|].
  pose proof (CA_bumped v i A) as A1.
  destruct o as [e|d ok errno]; [|destruct Ec as [(_ & _ & Ec)|[_ Ec]]]; rewrite Ec in E; injection E as _ _ <- _.
  - apply CA_put; [|exact A1]. exact (A i c Hs).
  - intros j k. rewrite slot_reset_max. revert j k. apply CA_put; [|exact A1]. exact (A i c Hs).
  - intros j k. rewrite slot_set_active. revert j k. apply CA_put; [reflexivity|exact A1].
Qed.
Lemma CA_complete v i o code v' evs : 0 <= i -> complete_conn v i o = Ok (code, v', evs) -> CA v -> CA v'.
Proof.
  intros Hi E A. unfold complete_conn in E. destruct (slot v i) as [c| | |]; cbn [bind] in E; [|discriminate E..].
  assert (Put : CA (put_slot v i (set_action (set_mode c CONNECTED) POLLREAD))) by (apply CA_put; [discriminate|exact A]).
  destruct (close_conn v i) as [[[cd v1] e1]| | |] eqn:E1; cbn [bind] in E.
  2,3,4: destruct o as [e|so nd]; [discriminate E|]; destruct (negb (so =? 0)); [discriminate E|]; destruct (negb (nd =? 0)); [discriminate E|]; injection E as _ <- _; exact Put.
  pose proof (CA_close _ _ _ _ _ Hi E1 A) as C1. destruct o as [e|so nd]; [|destruct (negb (so =? 0)); [|destruct (negb (nd =? 0))]]; injection E as _ <- _; first [exact C1|exact Put].
Qed.

Definition SW (x x' : sctx) (evs : list sev) : Prop :=
  v_size (t_vec x') = v_size (t_vec x) /\ t_mcast x' = t_mcast x /\ (CA (t_vec x) -> CA (t_vec x')) /\
  (v_size (t_vec x) <= RMC_LISTEN_INDEX -> forall S, special S -> WT (ovw S (t_vec x)) (sub_polls evs) (ovw S (t_vec x'))).
Lemma SW_trans x y z e1 e2 : SW x y e1 -> SW y z e2 -> SW x z (e1 ++ e2).
Proof.
  intros (A1 & A2 & A3 & A4) (B1 & B2 & B3 & B4). split; [congruence|]. split; [congruence|]. split; [auto|]. intros Hz S HS. rewrite spolls_app. refine (WT_trans _ _ _ _ _ (A4 Hz S HS) (B4 _ S HS)). rewrite A1. exact Hz.
Qed.
Lemma SW_same x x' evs : t_vec x' = t_vec x -> t_mcast x' = t_mcast x -> sub_polls evs = [] -> SW x x' evs.
Proof. intros A B C. unfold SW. rewrite A, B, C. repeat match goal with |- _ /\ _ => split end; auto. intros _ S _. apply WT_nil. reflexivity. Qed.
Lemma SW_FR x x' evs : FR x x' evs -> SW x x' evs.
Proof. intros (A & B & C). apply SW_same; assumption. Qed.
Lemma SW_refl x : SW x x [].
Proof. apply SW_same; reflexivity. Qed.
Lemma SW_ign x d j a : SW x x [SvConn (EvMod d j a a)].
Proof. unfold SW. repeat match goal with |- _ /\ _ => split end; auto. intros _ S _. apply WT_ign. Qed.
Lemma SW_put x x1 i c c' pre : is_open (t_vec x) i c -> c_mode c <> CONNECTING -> c_mode c' = c_mode c -> c_desc c' = c_desc c -> t_vec x1 = put_slot (t_vec x) i c' -> t_mcast x1 = t_mcast x -> sub_polls pre = [] ->
  SW x x1 (pre ++ [SvConn (EvMod (c_desc c) i (c_action c) (c_action c'))]).
Proof.
  intros Ho Hc Hm Hd E1 E2 P. split; [rewrite E1; apply size_put|]. split; [exact E2|]. split; [rewrite E1; apply CA_put; congruence|].
  intros Hz S HS. rewrite spolls_app, P, E1. refine (put_WT S HS _ i c c' Hz Ho _ Hd). rewrite Hm. exact (proj2 Ho).
Qed.
Lemma SW_keep x x1 i c c' : slot (t_vec x) i = Ok c -> c_mode c <> CONNECTING -> c_mode c' = c_mode c -> c_desc c' = c_desc c -> c_action c' = c_action c -> t_vec x1 = put_slot (t_vec x) i c' -> t_mcast x1 = t_mcast x -> SW x x1 [].
Proof.
  intros Hs Hc Hm Hd Ha E1 E2. split; [rewrite E1; apply size_put|]. split; [exact E2|]. split; [rewrite E1; apply CA_put; congruence|].
  intros Hz S HS. rewrite E1. apply (keep_WT S _ i c); [exact Hs|rewrite Hm; reflexivity|]. intros _. split; assumption.
Qed.
Lemma SW_close x i code v evs : 0 <= i -> close_conn (t_vec x) i = Ok (code, v, evs) -> SW x (set_tvec x v) (map SvConn evs).
Proof.
  intros Hi E. split; [exact (close_size_v _ _ _ _ _ Hi E)|]. split; [reflexivity|]. split; [exact (CA_close _ _ _ _ _ Hi E)|]. intros Hz S HS. rewrite spolls_conn. exact (close_WT S HS _ _ _ _ _ Hz Hi E).
Qed.
Lemma sclose_SW x i x' evs : 0 <= i -> rmc_sub_close_connection x i = Ok (x', evs) -> SW x x' evs.
Proof.
  intros Hi. unfold rmc_sub_close_connection. destruct (close_conn (t_vec x) i) as [[[code v] ce]| | |] eqn:E; cbn [bind]; [|discriminate..].
  destruct (get_spub _ i) as [s| | |]; cbn [bind]; [|discriminate..]. destruct (sub_reset s) as [s' fr]. destruct (free_payloads _ _) as [[m fe]| | |] eqn:Ef; cbn [bind fst snd]; [|discriminate..].
  intros H. injection H as <- <-. refine (SW_trans _ _ _ _ _ (SW_close x i _ _ _ Hi E) _). apply SW_FR. split; [reflexivity|]. split; [reflexivity|]. exact (free_polls _ _ _ _ Ef).
Qed.
Lemma unsub_SW x h p o x' evs : v_size (t_vec x) <= RMC_LISTEN_INDEX -> decode_unsubscribed x h p o = Ok (x', evs) -> SW x x' evs.
Proof.
  intros Hl. assert (Hz : v_size (t_vec x) <= RMC_NIL_INDEX) by (unfold RMC_NIL_INDEX, RMC_LISTEN_INDEX in *; lia).
  unfold decode_unsubscribed. destruct (negb _); [intros E; injection E as <- <-; apply SW_refl|]. cbv zeta.
  set (e0 := if t_acb x then [SvAnnounce (h_ip h) (h_port h) (h_node h) p] else []). assert (E0 : SW x x e0) by (apply SW_same; try reflexivity; unfold e0; destruct (t_acb x); reflexivity).
  destruct (if t_acb x then mi_answer o else true).
  - destruct (connect_tcp _ _ _ _ _) as [[[[cd j] v] ce]| | |] eqn:Ec; cbn [bind]; [|discriminate..]. intros E. injection E as <- <-.
    apply (SW_trans _ _ _ _ _ E0). split; [exact (connect_size _ _ _ _ _ _ _ _ _ Hz Ec)|]. split; [reflexivity|]. split; [exact (CA_connect _ _ _ _ _ _ _ _ _ Hz Ec)|].
    intros Hl' S HS. rewrite spolls_conn. exact (connect_WT S HS _ _ _ _ _ _ _ _ _ Hl' Ec).
  - intros E. injection E as <- <-. exact E0.
Qed.
Lemma smcast_SW x src bs o code op x' evs : v_size (t_vec x) <= RMC_LISTEN_INDEX -> process_multicast_read x src bs o = Ok (code, op, x', evs) -> SW x x' evs.
Proof.
  intros Hz. unfold process_multicast_read. destruct (_ <? _); [intros E; injection E as _ _ <- <-; apply SW_refl|]. cbv zeta.
  destruct (_ <? _); [intros E; injection E as _ _ <- <-; apply SW_refl|].
  set (h := if _ =? 0 then _ else _). set (pl := ztake _ _).
  assert (Un : forall cd op1 y e, (do r <- decode_unsubscribed x h pl o; Ok (0, Some RMC_READ_MULTICAST_NOT_READY, fst r, snd r)) = Ok (cd, op1, y, e) -> SW x y e).
  { intros cd op1 y e. destruct (decode_unsubscribed x h pl o) as [[x1 e1]| | |] eqn:E1; cbn [bind fst snd]; [|discriminate..]. intros E. injection E as _ _ <- <-. exact (unsub_SW _ _ _ _ _ _ Hz E1). }
  destruct (find_by_address _ _ _) as [[i|]| | |]; cbn [bind]; [| |discriminate..]; [|apply Un].
  destruct (slot (t_vec x) i) as [c| | |]; cbn [bind]; [|discriminate..]. destruct (c_mode c =? CONNECTING); [apply Un|].
  destruct (decode_subscribed x i h pl (mi_acc o)) as [[x1 e1]| | |] eqn:E1; cbn [bind fst snd]; [|discriminate..]. intros E. injection E as _ _ <- <-. apply SW_FR.
  unfold decode_subscribed in E1. destruct (h_pid h =? 0); [injection E1 as <- <-; apply FR_refl|]. destruct (get_spub x i) as [s| | |]; cbn [bind] in E1; try discriminate E1.
  destruct (sub_is_duplicate s (h_pid h)); [injection E1 as <- <-; apply FR_refl|]. exact (accept_FR _ _ _ _ _ _ _ _ E1).
Qed.
Lemma mread_SW ins : forall x op code op' x' evs, v_size (t_vec x) <= RMC_LISTEN_INDEX -> mread_loop x op ins = Ok (code, op', x', evs) -> SW x x' evs.
Proof.
  induction ins as [|m ins IH]; intros x op code op' x' evs Hz; cbn [mread_loop]; [intros E; injection E as _ _ <- <-; apply SW_refl|].
  destruct m as [|e|src bs o]; [intros E; injection E as _ _ <- <-; apply SW_refl..|]. cbv zeta.
  destruct (process_multicast_read x src _ o) as [[[[cd op1] x1] e1]| | |] eqn:E1; cbn [bind]; [|discriminate..].
  assert (V1 : SW x x1 (SvDgram src (ztake RMC_MAX_PACKET bs) :: e1)).
  { apply (SW_trans x x _ [SvDgram src (ztake RMC_MAX_PACKET bs)]); [apply SW_same; reflexivity|exact (smcast_SW _ _ _ _ _ _ _ _ Hz E1)]. }
  destruct (negb (cd =? 0)); [intros E; injection E as _ _ <- <-; exact V1|].
  destruct (mread_loop x1 _ ins) as [[[[cd2 op3] x2] e2]| | |] eqn:E2; cbn [bind]; [|discriminate..]. intros E. injection E as _ _ <- <-.
  refine (SW_trans _ _ _ _ _ V1 (IH _ _ _ _ _ _ _ E2)). rewrite (proj1 V1). exact Hz.
Qed.
Lemma iack_SW x i iv code x' evs : rmc_sub_packet_interval_acknowledged x i iv = Ok (code, x', evs) -> SW x x' evs.
Proof.
  unfold rmc_sub_packet_interval_acknowledged, write_interval_ack. destruct (slot (t_vec x) i) as [c| | |] eqn:Hs; cbn [bind]; [|discriminate..].
  destruct (Z.eqb_spec (c_mode c) CONNECTED) as [Hm|Hm]; cbn [negb]; [|intros E; injection E as _ <- <-; apply SW_refl]. cbn [bind].
  destruct (write_ack _ _ _) as [[cd wb]| | |]; cbn [bind fst snd]; [|discriminate..].
  assert (Ho : is_open (t_vec x) i c) by (split; [exact Hs|rewrite Hm; discriminate]).
  destruct (negb (cd =? 0)); intros E; injection E as _ <- <-; [apply SW_refl|].
  match goal with |- SW _ (set_tvec _ (put_slot _ _ ?c')) (?a :: [_]) => apply (SW_put x _ i c c' [a]) end; [exact Ho|rewrite Hm; discriminate|reflexivity..].
Qed.
Lemma ack_loop_SW l : forall x i s code x' evs, ack_loop x i s l = Ok (code, x', evs) -> SW x x' evs.
Proof.
  induction l as [|iv l IH]; intros x i s code x' evs; cbn [ack_loop]; [intros E; injection E as _ <- <-; apply SW_refl|]. cbv zeta.
  set (x0 := put_spub x i _). assert (V0 : SW x x0 []) by (apply SW_same; reflexivity).
  destruct (rmc_sub_packet_interval_acknowledged x0 i iv) as [[[cd x1] e1]| | |] eqn:E1; cbn [bind]; [|discriminate..].
  pose proof (SW_trans _ _ _ _ _ V0 (iack_SW x0 _ _ _ _ _ E1)) as V. cbn [app] in V.
  destruct (negb (cd =? 0)).
  - intros E. injection E as _ <- <-. apply (SW_trans _ x1 _ _ _ V). apply SW_same; reflexivity.
  - destruct (ack_loop x1 i _ l) as [[[cd2 x2] e2]| | |] eqn:E2; cbn [bind]; [|discriminate..]. intros E. injection E as _ <- <-. exact (SW_trans _ _ _ _ _ V (IH _ _ _ _ _ _ E2)).
Qed.
Lemma timeout_SW l now : forall x code x' evs, timeout_loop x now l = Ok (code, x', evs) -> SW x x' evs.
Proof.
  induction l as [|i l IH]; intros x code x' evs; cbn [timeout_loop]; [intros E; injection E as _ <- <-; apply SW_refl|].
  destruct (get_spub x i) as [s| | |]; cbn [bind]; [|discriminate..]. destruct (_ <? _); [intros E; injection E as _ <- <-; apply SW_refl|].
  destruct (ack_loop x i s (s_intv s)) as [[[cd x1] e1]| | |] eqn:E1; cbn [bind]; [|discriminate..]. pose proof (ack_loop_SW _ _ _ _ _ _ _ E1) as V1.
  destruct (negb (cd =? 0)); [intros E; injection E as _ <- <-; exact V1|].
  destruct (timeout_loop (set_tack x1 l) now l) as [[[cd2 x2] e2]| | |] eqn:E2; cbn [bind]; [|discriminate..]. intros E. injection E as _ <- <-.
  apply (SW_trans _ _ _ _ _ V1). apply (SW_trans x1 (set_tack x1 l) x2 [] e2); [apply SW_same; reflexivity|exact (IH _ _ _ _ E2)].
Qed.
Lemma ctrl_SW x i p ptr code x' evs : rmc_sub_write_control_message x i p ptr = Ok (code, x', evs) -> SW x x' evs.
Proof.
  unfold rmc_sub_write_control_message. destruct (_ || _) eqn:E0; [intros E; injection E as _ <- <-; apply SW_refl|].
  destruct (slot (t_vec x) i) as [c| | |] eqn:Hs; cbn [bind]; [|discriminate..]. destruct (Z.eqb_spec (c_mode c) CONNECTED) as [Hm|Hm]; cbn [negb]; [|intros E; injection E as _ <- <-; apply SW_refl].
  destruct (write_ctrl _ _ _) as [[cd wb]| | |]; cbn [bind fst snd]; [|discriminate..].
  assert (Ho : is_open (t_vec x) i c) by (split; [exact Hs|rewrite Hm; discriminate]).
  destruct (negb (cd =? 0)); intros E; injection E as _ <- <-; [apply SW_refl|].
  match goal with |- SW _ (set_tvec _ (put_slot _ _ ?c')) _ => apply (SW_put x _ i c c' []) end; [exact Ho|rewrite Hm; discriminate|reflexivity..].
Qed.
Lemma control_SW f x p ptr code x' evs : control_by f x p ptr = Ok (code, x', evs) -> SW x x' evs.
Proof.
  unfold control_by. destruct (_ || _); [intros E; injection E as _ <- <-; apply SW_refl|]. destruct f as [[i|]| | |]; cbn [bind]; [| |discriminate..].
  - destruct (slot (t_vec x) i) as [c| | |]; cbn [bind]; [|discriminate..]. destruct (negb _); [intros E; injection E as _ <- <-; apply SW_refl|]. apply ctrl_SW.
  - intros E. injection E as _ <- <-. apply SW_refl.
Qed.
Lemma swrite_SW x i o code op x' evs : 0 <= i -> rmc_sub_write x i o = Ok (code, op, x', evs) -> SW x x' evs.
Proof.
  intros Hi. unfold rmc_sub_write. destruct (find_index_cases (t_vec x) i Hi) as [[E Hn]|(c & E & Hs & Ho)]; rewrite E; cbn [bind]; [intros Q; injection Q as _ _ <- <-; apply SW_refl|].
  destruct (Z.eqb_spec (c_mode c) CONNECTING) as [Hm|Hm].
  - cbv zeta. set (x1 := put_spub x i sub_init). assert (V0 : SW x x1 []) by (apply SW_same; reflexivity).
    destruct (complete_conn (t_vec x1) i (sw_cmp o)) as [[[cd v] ce]| | |] eqn:Ec; cbn [bind]; [|discriminate..].
    assert (V1 : SW x (set_tvec x1 v) (map SvConn ce)).
    { apply (SW_trans x x1 _ [] _ V0). split; [exact (complete_size _ _ _ _ _ _ Hi Ec)|]. split; [reflexivity|]. split; [exact (CA_complete _ _ _ _ _ _ Hi Ec)|].
      intros Hz S HS. rewrite spolls_conn. apply (complete_WT S HS _ i (sw_cmp o) cd); [exact Hz|exact Hi| |exact Ec].
      intros d Hd. change (t_vec x1) with (t_vec x) in Hd. congruence. }
    destruct (negb (cd =? 0)).
    + destruct (close_conn (t_vec (set_tvec x1 v)) i) as [[[cd2 v2] e2]| | |] eqn:E2; cbn [bind]; [|discriminate..]. intros Q. injection Q as _ _ <- <-. rewrite map_app.
      apply (SW_trans _ _ _ _ _ V1). exact (SW_close (set_tvec x1 v) i _ _ _ Hi E2).
    + intros Q. injection Q as _ _ <- <-. apply (SW_trans _ _ _ _ _ V1). apply SW_same; try reflexivity. destruct (t_ccb x); reflexivity.
  - destruct (circ_buf_in_use (c_wbuf c) =? 0); [intros Q; injection Q as _ _ <- <-; apply SW_refl|].
    destruct (tcp_write _ _) as [r| | |]; cbn [bind]; [|discriminate..]. intros Q. injection Q as _ _ <- <-.
    match goal with |- SW _ (set_tvec _ (put_slot _ _ ?c')) (?a :: [_]) => apply (SW_put x _ i c c' [a]) end; [split; [exact Hs|exact Ho]|exact Hm|reflexivity..].
Qed.
Lemma sread_tcp_SW x i t ins code op x' evs : 0 <= i -> rmc_sub_read x i (SrTcp t ins) = Ok (code, op, x', evs) -> SW x x' evs.
Proof.
  intros Hi. cbn [rmc_sub_read]. destruct (find_index_cases (t_vec x) i Hi) as [[E Hn]|(c & E & Hs & Ho)]; rewrite E; cbn [bind]; [intros Q; injection Q as _ _ <- <-; apply SW_refl|].
  destruct (Z.eqb_spec (c_mode c) CONNECTED) as [Hm|Hm]; cbn [negb]; [|intros Q; injection Q as _ _ <- <-; apply SW_refl]. cbv zeta.
  set (got := match t with RErr => _ | _ => _ end).
  assert (G : sub_polls got = []) by (unfold got; destruct t as [|[|? ?]]; reflexivity).
  destruct (tcp_read _ _ (c_rbuf c) t) as [[cd op1 [[x1 e1] ins1] rb]| | |] eqn:Et; cbn [bind]; [|discriminate..].
  assert (S : FR x x1 e1).
  { refine (tcp_read_ok _ (fun st : tst => FR x (fst (fst st)) (snd (fst st))) _ (x, got, ins) (c_rbuf c) t _ _ Et); [|split; [reflexivity|split; [reflexivity|exact G]]].
    apply sub_dispatch_ok. intros [[y1 f1] jns] hp [[y2 f2] kns] F. cbn [fst snd] in *. unfold tcp_eff. destruct jns as [|a jns]; [discriminate|].
    destruct (accept_packet y1 i (h_pid (fst hp)) (snd hp) false a) as [[y3 f3]| | |] eqn:Ea; cbn [bind fst snd]; [|discriminate..]. intros Q. injection Q as <- <- _.
    exact (FR_trans _ _ _ _ _ F (accept_FR _ _ _ _ _ _ _ _ Ea)). }
  cbn [r_st fst snd r_buf r_code r_op] in *.
  set (x2 := set_tvec x1 _).
  assert (V1 : SW x x2 e1).
  { rewrite <- (app_nil_r e1). apply (SW_trans _ x1); [exact (SW_FR _ _ _ S)|]. eapply (SW_keep x1 _ i c); [rewrite (proj1 S); exact Hs|rewrite Hm; discriminate| | | |reflexivity|reflexivity]; reflexivity. }
  assert (Re : forall y, SW y y [SvConn (EvMod (c_desc c) i POLLREAD POLLREAD)]) by (intros y; apply SW_ign).
  destruct (cd =? ENOMEM); [intros Q; injection Q as _ _ <- <-; exact (SW_trans _ _ _ _ _ V1 (Re x2))|].
  destruct (cd =? EPIPE).
  { destruct (rmc_sub_close_connection x2 i) as [[x3 e3]| | |] eqn:E3; cbn [bind fst snd]; [|discriminate..]. intros Q. injection Q as _ _ <- <-. exact (SW_trans _ _ _ _ _ V1 (sclose_SW _ _ _ _ Hi E3)). }
  destruct (process_received x2 i) as [[x3 e3]| | |] eqn:E3; cbn [bind fst snd]; [|discriminate..].
  pose proof (SW_trans _ _ _ _ _ V1 (SW_FR _ _ _ (process_FR _ _ _ _ E3))) as V3.
  destruct (cd =? EPROTO).
  - destruct (rmc_sub_close_connection x3 i) as [[x4 e4]| | |] eqn:E4; cbn [bind fst snd]; [|discriminate..]. intros Q. injection Q as _ _ <- <-.
    rewrite app_assoc. exact (SW_trans _ _ _ _ _ V3 (sclose_SW _ _ _ _ Hi E4)).
  - intros Q. injection Q as _ _ <- <-. rewrite app_assoc. exact (SW_trans _ _ _ _ _ V3 (Re x3)).
Qed.
Lemma sclose_loop_SW n : forall x ind x' evs, 0 <= ind -> sclose_loop n x ind = Ok (x', evs) -> SW x x' evs.
Proof.
  induction n as [|n IH]; intros x ind x' evs Hi; cbn [sclose_loop]; [intros E; injection E as <- <-; apply SW_refl|].
  destruct (find_by_index (t_vec x) ind) as [[c|]| | |]; cbn [bind]; [| |discriminate..]; [|apply IH; lia].
  destruct (rmc_sub_close_connection x ind) as [[x1 e1]| | |] eqn:E1; cbn [bind fst snd]; [|discriminate..].
  destruct (sclose_loop n x1 (ind + 1)) as [[x2 e2]| | |] eqn:E2; cbn [bind fst snd]; [|discriminate..]. intros E. injection E as <- <-.
  refine (SW_trans _ _ _ _ _ (sclose_SW _ _ _ _ Hi E1) (IH x1 (ind + 1) _ _ _ E2)). lia.
Qed.

(** ** With the multicast socket *)
(** [w]: bind() did not fail for it. *)
Definition sp_sub (x : sctx) (w : bool) (j : Z) : option (option (Z * Z)) :=
  if j =? RMC_MULTICAST_INDEX then Some (if negb w || (t_mcast x =? -1) then None else Some (t_mcast x, POLLREAD)) else None.
Lemma sps_special x w : special (sp_sub x w).
Proof. intros j Hj. unfold sp_sub, RMC_LISTEN_INDEX, RMC_MULTICAST_INDEX in *. replace (j =? 32766) with false by lia. reflexivity. Qed.
Definition EPS (b : bool) (x : sctx) (l : list cev) : Prop := exists w, EP (ovw (sp_sub x w) (t_vec x)) l /\ (b = true -> w = true).
Definition ST (b : bool) (x x' : sctx) (evs : list sev) : Prop :=
  (CA (t_vec x) -> CA (t_vec x')) /\ forall l, kernel_ok (l ++ sub_polls evs) -> EPS b x l -> EPS b x' (l ++ sub_polls evs).
Lemma ST_SW b x x' evs : v_size (t_vec x) <= RMC_LISTEN_INDEX -> SW x x' evs -> ST b x x' evs.
Proof.
  intros Hz (_ & A2 & A3 & A4). split; [exact A3|]. intros l K (w & P & Hw). exists w. split; [|exact Hw].
  apply (EP_ext (ovw (sp_sub x w) (t_vec x'))); [intros j; unfold ovw, sp_sub; rewrite A2; reflexivity|]. exact (A4 Hz _ (sps_special x w) l K P).
Qed.
Lemma ST_trans b x y z e1 e2 : ST b x y e1 -> ST b y z e2 -> ST b x z (e1 ++ e2).
Proof. intros [A1 A2] [B1 B2]. split; [auto|]. intros l K H. rewrite spolls_app, app_assoc in *. apply B2; [exact K|]. apply A2; [exact (kernel_pre _ _ K)|exact H]. Qed.
Lemma sactivate_ST b x o code x' evs : (b = true -> binds x (YActivate o)) -> rmc_sub_activate_context x o = (code, x', evs) -> ST b x x' evs.
Proof.
  intros Hb. unfold rmc_sub_activate_context.
  assert (Refl : ST b x x []). { split; [auto|]. intros l K P. cbn [sub_polls flat_map]. rewrite app_nil_r. exact P. }
  destruct (Z.eqb_spec (t_mcast x) (-1)) as [Em|Em]; cbn [negb]; [|intros E; injection E as _ <- <-; exact Refl].
  destruct o as [e|d e|d e|d]; intros E; injection E as _ <- <-; [exact Refl| | |]; (split; [auto|]); cbn [sub_polls flat_map app]; intros l K (w & P & Hw).
  - exists w. split; [|exact Hw]. exact (WT_temp _ [d] l K P).
  - exists false. split; [|intros Eb; destruct (Hb Eb)]. apply (EP_ext (ovw (sp_sub x w) (t_vec x))); [|exact (WT_open _ d l K P)].
    intros j. unfold ovw, sp_sub. cbn [set_tmcast t_mcast t_vec negb orb]. rewrite Em. change (-1 =? -1) with true. rewrite orb_true_r. reflexivity.
  - exists true. split; [|reflexivity]. refine (WT_add (ovw (sp_sub x w) (t_vec x)) _ d RMC_MULTICAST_INDEX POLLREAD _ _ _ l K P).
    + left. unfold ovw, sp_sub. rewrite Z.eqb_refl, Em. change (-1 =? -1) with true. rewrite orb_true_r. reflexivity.
    + unfold ovw, sp_sub. rewrite Z.eqb_refl. cbn [set_tmcast t_mcast negb orb]. replace (d =? -1) with false by (pose proof (proj1 (kernel_next _ _ _ K)); lia). reflexivity.
    + intros k N. unfold ovw, sp_sub. replace (k =? RMC_MULTICAST_INDEX) with false by lia. reflexivity.
Qed.
Lemma sdeactivate_ST b x code x' evs : v_size (t_vec x) <= RMC_LISTEN_INDEX -> (forall i c, is_open (t_vec x) i c -> c_desc c <> t_mcast x \/ t_mcast x = -1) ->
  rmc_sub_deactivate_context x = Ok (code, x', evs) -> ST b x x' evs.
Proof.
  intros Hz Hd. unfold rmc_sub_deactivate_context. destruct (drop_ready x (t_ready x)) as [[x1 e1]| | |] eqn:E1; cbn [bind fst snd]; [|discriminate..]. cbv zeta.
  set (x2 := set_tmcast (set_tack x1 []) (-1)). destruct (sclose_loop _ x2 0) as [[x3 e3]| | |] eqn:E3; cbn [bind fst snd]; [|discriminate..]. intros E. injection E as _ <- <-.
  pose proof (drop_FR _ _ _ _ E1) as F. apply (ST_trans b _ _ _ _ _ (ST_SW b _ _ _ Hz (SW_FR _ _ _ F))). destruct F as (F1 & F2 & _).
  apply (ST_trans b x1 x2 x3 [SvConn (EvClose (t_mcast x)); SvConn (EvRem (t_mcast x) RMC_MULTICAST_INDEX)] e3);
    [|apply ST_SW; [unfold x2; cbn [set_tmcast set_tack t_vec]; rewrite F1; exact Hz|refine (sclose_loop_SW _ _ 0 _ _ _ E3); lia]].
  split; [auto|]. cbn [sub_polls flat_map app]. intros l K (w & P & Hw). exists true. split; [|reflexivity].
  change [EvClose (t_mcast x); EvRem (t_mcast x) RMC_MULTICAST_INDEX] with ([EvClose (t_mcast x)] ++ [EvRem (t_mcast x) RMC_MULTICAST_INDEX]) in *. rewrite app_assoc in *.
  pose proof (kernel_pre _ _ K) as K1. pose proof (EP_nil _ _ (kernel_pre _ _ K1) P) as U0.
  assert (E2 : forall j, ovw (sp_sub x2 true) (t_vec x2) j = if j =? RMC_MULTICAST_INDEX then None else wdesc (t_vec x1) j).
  { intros j. unfold ovw, sp_sub, x2. destruct (j =? RMC_MULTICAST_INDEX); reflexivity. }
  assert (U : unwatched (ovw (sp_sub x2 true) (t_vec x2)) (t_mcast x)).
  { intros j a Q. rewrite E2 in Q. destruct (j =? RMC_MULTICAST_INDEX) eqn:Ej; [discriminate|].
    destruct (Z.eq_dec (t_mcast x) (-1)) as [Em|Em]; [rewrite Em in Q; apply (U0 j a); unfold ovw, sp_sub; rewrite Ej; exact Q|].
    unfold wdesc in Q. rewrite F1 in Q. destruct (slot (t_vec x) j) as [c| | |] eqn:Hs; try discriminate Q. destruct (Z.eqb_spec (c_mode c) CLOSED) as [|Hm]; [discriminate Q|].
    destruct (Hd j c (conj Hs Hm)) as [N|N]; [congruence|contradiction]. }
  apply EP_norem; [|exact U].
  destruct (negb w || (t_mcast x1 =? -1)) eqn:Ew.
  - apply EP_noclose; [|exact U]. apply (EP_ext (ovw (sp_sub x1 w) (t_vec x1))); [|exact P]. intros j. rewrite E2. unfold ovw, sp_sub. rewrite Ew. destruct (j =? RMC_MULTICAST_INDEX); reflexivity.
  - refine (WT_close (ovw (sp_sub x1 w) (t_vec x1)) _ _ RMC_MULTICAST_INDEX POLLREAD _ _ _ l K1 P).
    + unfold ovw, sp_sub. rewrite Z.eqb_refl, Ew, F2. reflexivity.
    + rewrite E2, Z.eqb_refl. reflexivity.
    + intros k N. rewrite E2. unfold ovw, sp_sub. replace (k =? RMC_MULTICAST_INDEX) with false by lia. reflexivity.
Qed.
Lemma sstep_ST b x log0 o code x' evs : v_size (t_vec x) <= RMC_LISTEN_INDEX -> (forall i c, is_open (t_vec x) i c -> c_desc c <> t_mcast x \/ t_mcast x = -1) ->
  (b = true -> binds x o) -> yok x log0 o -> ystep x o = Ok (code, x', evs) -> ST b x x' evs.
Proof.
  intros Hz Hd Hb Hok E. destruct o as [i [ins|t ins]|i o|now|i|a keep|ptr|i p ptr|a port p ptr|n p ptr|a c r|o|]; cbn [ystep] in E.
  - destruct (rmc_sub_read x i (SrMcast ins)) as [[[[cd op] x1] e1]| | |] eqn:E1; cbn [bind] in E; [|discriminate E..]. injection E as _ <- <-. apply ST_SW; [exact Hz|].
    revert E1. cbn [rmc_sub_read]. unfold multicast_read. destruct (t_mcast x =? -1); cbn [bind]; [intros E; injection E as _ _ <- <-; apply SW_refl|].
    destruct (mread_loop x RMC_ERROR ins) as [[[[cd1 op1] x2] e2]| | |] eqn:E2; cbn [bind]; [|discriminate..]. intros E. injection E as _ _ <- <-.
    apply (SW_trans _ _ _ _ _ (mread_SW _ _ _ _ _ _ _ Hz E2)). apply SW_ign.
  - destruct (rmc_sub_read x i (SrTcp t ins)) as [[[[cd op] x1] e1]| | |] eqn:E1; cbn [bind] in E; [|discriminate E..]. injection E as _ <- <-. apply ST_SW; [exact Hz|]. refine (sread_tcp_SW _ _ _ _ _ _ _ _ _ E1). apply Hok.
  - destruct (rmc_sub_write x i o) as [[[[cd op] x1] e1]| | |] eqn:E1; cbn [bind] in E; [|discriminate E..]. injection E as _ <- <-. apply ST_SW; [exact Hz|]. refine (swrite_SW _ _ _ _ _ _ _ _ E1). apply (proj1 Hok).
  - apply ST_SW; [exact Hz|]. exact (timeout_SW _ _ _ _ _ _ E).
  - destruct (rmc_sub_close_connection x i) as [[x1 e1]| | |] eqn:E1; cbn [bind fst snd] in E; [|discriminate E..]. injection E as _ <- <-. apply ST_SW; [exact Hz|]. exact (sclose_SW _ _ _ _ (proj1 Hok) E1).
  - apply ST_SW; [exact Hz|]. exact (SW_FR _ _ _ (dispatched_FR _ _ _ _ _ _ E)).
  - injection E as _ <- <-. apply ST_SW; [exact Hz|]. apply SW_same; reflexivity.
  - apply ST_SW; [exact Hz|]. exact (ctrl_SW _ _ _ _ _ _ _ E).
  - apply ST_SW; [exact Hz|]. exact (control_SW _ _ _ _ _ _ _ E).
  - apply ST_SW; [exact Hz|]. exact (control_SW _ _ _ _ _ _ _ E).
  - injection E as _ <- <-. apply ST_SW; [exact Hz|]. apply SW_same; reflexivity.
  - assert (E1 : rmc_sub_activate_context x o = (code, x', evs)) by congruence. exact (sactivate_ST b _ _ _ _ _ Hb E1).
  - exact (sdeactivate_ST b _ _ _ _ Hz Hd E).
Qed.
Lemma reached_EPS b (P : sctx -> yop -> Prop) x log : (forall y o, P y o -> b = true -> binds y o) -> sreached_by P x log -> kernel_ok (sub_polls log) -> CA (t_vec x) /\ EPS b x (sub_polls log).
Proof.
  intros HP (x0 & ops & F & H & D). revert D. induction H as [|ops x log o code x' evs H IH Hok Hr E]; intros D K.
  - destruct F as (node & buf & m & -> & _). split.
    + intros i c Hs. cbn in Hs. destruct (slot_init buf i c Hs) as [_ ->]. discriminate.
    + exists true. split; [|reflexivity]. apply EP_init. intros j. unfold ovw, sp_sub. cbn.
      destruct (j =? RMC_MULTICAST_INDEX); [reflexivity|]. unfold wdesc. destruct (slot _ j) as [c| | |] eqn:Es; try reflexivity. destruct (slot_init buf j c Es) as [_ ->]. reflexivity.
  - rewrite spolls_app in *. assert (R : sreached false x log) by (exists x0, ops; auto). assert (B : BI x) by exact (proj1 (sreached_inv false x log R)).
    pose proof (kernel_pre _ _ K) as K1. destruct (sreached_HI x log R K1) as [_ _ _ H4 _].
    destruct (IH (fun pre o' post x1 log1 Eo H1 => D pre o' (post ++ [o]) x1 log1 ltac:(rewrite Eo, <- app_assoc; reflexivity) H1) K1) as [C1 C2].
    destruct (sstep_ST b x log o code x' evs) as [S1 S2]; [exact (tv_size _ (bi_vec _ B))| |exact (HP x o (D ops o [] x log eq_refl H))|exact Hok|exact E|].
    + intros i c Ho. specialize (H4 i _ (sdesc_open _ _ _ Ho)). unfold sock_in in H4. destruct (Z.eqb_spec (t_mcast x) (-1)) as [Em|Em]; [right; exact Em|left; intros Q; apply H4; left; congruence].
    + split; [exact (S1 C1)|exact (S2 _ K C2)].
Qed.
