(** DescSub.v — the subscriber's descriptors. *)
From Verif Require Import Base CircBuf CircBufProofs Wire SeqList Proto SpecProto ProtoProofs
  Conn SpecConn ConnProofs Sub SubCtx SpecSubCtx SubSteps SubInv SpecPoll PollSub SpecDesc Desc.

Definition SD (x x' : sctx) (evs : list sev) : Prop :=
  DT (sock_in (t_mcast x)) (t_vec x) (sub_polls evs) (sock_in (t_mcast x')) (t_vec x') /\ v_size (t_vec x') = v_size (t_vec x).
Lemma SD_trans x y z e1 e2 : SD x y e1 -> SD y z e2 -> SD x z (e1 ++ e2).
Proof. intros [A1 A2] [B1 B2]. split; [|congruence]. rewrite spolls_app. exact (DT_trans _ _ _ _ _ _ _ _ A1 B1). Qed.
Lemma SD_FR x x' evs : FR x x' evs -> SD x x' evs.
Proof. intros (A & B & C). unfold SD. rewrite A, B, C. split; [|reflexivity]. apply DT_same; reflexivity. Qed.
Lemma SD_refl x : SD x x [].
Proof. apply SD_FR, FR_refl. Qed.
Lemma SD_quiet x x' evs : t_vec x' = t_vec x -> t_mcast x' = t_mcast x -> quiet (sub_polls evs) -> SD x x' evs.
Proof. intros A B C. unfold SD. rewrite A, B. split; [|reflexivity]. apply DT_same; [reflexivity|exact C]. Qed.
Lemma SD_put x x1 i c c' evs : slot (t_vec x) i = Ok c -> c_mode c' = c_mode c -> c_desc c' = c_desc c -> quiet (sub_polls evs) ->
  t_vec x1 = put_slot (t_vec x) i c' -> t_mcast x1 = t_mcast x -> SD x x1 evs.
Proof.
  intros Hs Hm Hd Q E1 E2. unfold SD. rewrite E1, E2. split; [|apply size_put]. apply DT_same; [|exact Q]. intros j. apply (sdesc_put _ i c); [exact Hs|rewrite Hm; reflexivity|intros _; exact Hd].
Qed.
Lemma close_size_v v i code v' evs : 0 <= i -> close_conn v i = Ok (code, v', evs) -> v_size v' = v_size v.
Proof.
  intros Hi E. destruct (close_cases v i Hi) as [[_ Ec]|[(c & _ & _ & Ec)|(c & Ho & Ec)]]; rewrite Ec in E; injection E as _ <- <-; try reflexivity.
  destruct (i =? v_max v); apply (size_put v i).
Qed.
Lemma connect_size v addr port node o code ri v' evs : v_size v <= RMC_NIL_INDEX -> connect_tcp v addr port node o = Ok (code, ri, v', evs) -> v_size v' = v_size v.
Proof.
  intros Sz E. destruct (connect_cases v addr port node o Sz) as [[_ Ec]|(i & c & _ & Hs & Hd & Ec)]; [rewrite Ec in E; injection E as _ _ <- <-; reflexivity|].
  destruct o as [e|d ok errno]; [|destruct Ec as [(_ & _ & Ec)|[_ Ec]]]; rewrite Ec in E; injection E as _ _ <- <-; rewrite <- (bumped_size v i); apply (size_put (bumped v i) i).
Qed.
Lemma SD_close x i code v evs : 0 <= i -> close_conn (t_vec x) i = Ok (code, v, evs) -> SD x (set_tvec x v) (map SvConn evs).
Proof. intros Hi E. split; [rewrite spolls_conn; exact (close_DT _ _ _ _ _ _ Hi E)|exact (close_size_v _ _ _ _ _ Hi E)]. Qed.
Lemma sclose_SD x i x' evs : 0 <= i -> rmc_sub_close_connection x i = Ok (x', evs) -> SD x x' evs.
Proof.
  intros Hi. unfold rmc_sub_close_connection. destruct (close_conn (t_vec x) i) as [[[code v] ce]| | |] eqn:E; cbn [bind]; [|discriminate..].
  destruct (get_spub _ i) as [s| | |]; cbn [bind]; [|discriminate..]. destruct (sub_reset s) as [s' fr]. destruct (free_payloads _ _) as [[m fe]| | |] eqn:Ef; cbn [bind fst snd]; [|discriminate..].
  intros H. injection H as <- <-. refine (SD_trans _ _ _ _ _ (SD_close x i _ _ _ Hi E) _). apply SD_FR. split; [reflexivity|]. split; [reflexivity|]. exact (free_polls _ _ _ _ Ef).
Qed.
Lemma unsub_SD x h p o x' evs : v_size (t_vec x) <= RMC_NIL_INDEX -> decode_unsubscribed x h p o = Ok (x', evs) -> SD x x' evs.
Proof.
  intros Hz. unfold decode_unsubscribed. destruct (negb _); [intros E; injection E as <- <-; apply SD_refl|]. cbv zeta.
  set (e0 := if t_acb x then [SvAnnounce (h_ip h) (h_port h) (h_node h) p] else []). assert (E0 : SD x x e0) by (apply SD_quiet; try reflexivity; unfold e0; destruct (t_acb x); reflexivity).
  destruct (if t_acb x then mi_answer o else true).
  - destruct (connect_tcp _ _ _ _ _) as [[[[cd j] v] ce]| | |] eqn:Ec; cbn [bind]; [|discriminate..]. intros E. injection E as <- <-.
    apply (SD_trans _ _ _ _ _ E0). split; [rewrite spolls_conn; exact (connect_DT _ _ _ _ _ _ _ _ _ _ Hz Ec)|exact (connect_size _ _ _ _ _ _ _ _ _ Hz Ec)].
  - intros E. injection E as <- <-. exact E0.
Qed.
Lemma smcast_SD x src bs o code op x' evs : v_size (t_vec x) <= RMC_NIL_INDEX -> process_multicast_read x src bs o = Ok (code, op, x', evs) -> SD x x' evs.
Proof.
  intros Hz. unfold process_multicast_read. destruct (_ <? _); [intros E; injection E as _ _ <- <-; apply SD_refl|]. cbv zeta.
  destruct (_ <? _); [intros E; injection E as _ _ <- <-; apply SD_refl|].
  set (h := if _ =? 0 then _ else _). set (pl := ztake _ _).
  assert (Un : forall cd op1 y e, (do r <- decode_unsubscribed x h pl o; Ok (0, Some RMC_READ_MULTICAST_NOT_READY, fst r, snd r)) = Ok (cd, op1, y, e) -> SD x y e).
  { intros cd op1 y e. destruct (decode_unsubscribed x h pl o) as [[x1 e1]| | |] eqn:E1; cbn [bind fst snd]; [|discriminate..]. intros E. injection E as _ _ <- <-. exact (unsub_SD _ _ _ _ _ _ Hz E1). }
  destruct (find_by_address _ _ _) as [[i|]| | |]; cbn [bind]; [| |discriminate..]; [|apply Un].
  destruct (slot (t_vec x) i) as [c| | |]; cbn [bind]; [|discriminate..]. destruct (c_mode c =? CONNECTING); [apply Un|].
  destruct (decode_subscribed x i h pl (mi_acc o)) as [[x1 e1]| | |] eqn:E1; cbn [bind fst snd]; [|discriminate..]. intros E. injection E as _ _ <- <-. apply SD_FR.
  unfold decode_subscribed in E1. destruct (h_pid h =? 0); [injection E1 as <- <-; apply FR_refl|]. destruct (get_spub x i) as [s| | |]; cbn [bind] in E1; try discriminate E1.
  destruct (sub_is_duplicate s (h_pid h)); [injection E1 as <- <-; apply FR_refl|]. exact (accept_FR _ _ _ _ _ _ _ _ E1).
Qed.
Lemma mread_SD ins : forall x op code op' x' evs, v_size (t_vec x) <= RMC_NIL_INDEX -> mread_loop x op ins = Ok (code, op', x', evs) -> SD x x' evs.
Proof.
  induction ins as [|m ins IH]; intros x op code op' x' evs Hz; cbn [mread_loop]; [intros E; injection E as _ _ <- <-; apply SD_refl|].
  destruct m as [|e|src bs o]; [intros E; injection E as _ _ <- <-; apply SD_refl..|]. cbv zeta.
  destruct (process_multicast_read x src _ o) as [[[[cd op1] x1] e1]| | |] eqn:E1; cbn [bind]; [|discriminate..].
  assert (V1 : SD x x1 (SvDgram src (ztake RMC_MAX_PACKET bs) :: e1)).
  { apply (SD_trans x x _ [SvDgram src (ztake RMC_MAX_PACKET bs)]); [apply SD_quiet; reflexivity|exact (smcast_SD _ _ _ _ _ _ _ _ Hz E1)]. }
  destruct (negb (cd =? 0)); [intros E; injection E as _ _ <- <-; exact V1|].
  destruct (mread_loop x1 _ ins) as [[[[cd2 op3] x2] e2]| | |] eqn:E2; cbn [bind]; [|discriminate..]. intros E. injection E as _ _ <- <-.
  refine (SD_trans _ _ _ _ _ V1 (IH _ _ _ _ _ _ _ E2)). rewrite (proj2 V1). exact Hz.
Qed.
Lemma iack_SD x i iv code x' evs : rmc_sub_packet_interval_acknowledged x i iv = Ok (code, x', evs) -> SD x x' evs.
Proof.
  unfold rmc_sub_packet_interval_acknowledged, write_interval_ack. destruct (slot (t_vec x) i) as [c| | |] eqn:Hs; cbn [bind]; [|discriminate..].
  destruct (negb (c_mode c =? CONNECTED)); [intros E; injection E as _ <- <-; apply SD_refl|]. cbn [bind].
  destruct (write_ack _ _ _) as [[cd wb]| | |]; cbn [bind fst snd]; [|discriminate..].
  destruct (negb (cd =? 0)); intros E; injection E as _ <- <-; [apply SD_refl|]. eapply (SD_put x _ i c); [exact Hs| | | |reflexivity|reflexivity]; reflexivity.
Qed.
Lemma ack_loop_SD l : forall x i s code x' evs, ack_loop x i s l = Ok (code, x', evs) -> SD x x' evs.
Proof.
  induction l as [|iv l IH]; intros x i s code x' evs; cbn [ack_loop]; [intros E; injection E as _ <- <-; apply SD_refl|]. cbv zeta.
  set (x0 := put_spub x i _). assert (V0 : SD x x0 []) by (apply SD_quiet; reflexivity).
  destruct (rmc_sub_packet_interval_acknowledged x0 i iv) as [[[cd x1] e1]| | |] eqn:E1; cbn [bind]; [|discriminate..].
  pose proof (SD_trans _ _ _ _ _ V0 (iack_SD x0 _ _ _ _ _ E1)) as V. cbn [app] in V.
  destruct (negb (cd =? 0)).
  - intros E. injection E as _ <- <-. apply (SD_trans _ x1 _ _ _ V). apply SD_quiet; reflexivity.
  - destruct (ack_loop x1 i _ l) as [[[cd2 x2] e2]| | |] eqn:E2; cbn [bind]; [|discriminate..]. intros E. injection E as _ <- <-. exact (SD_trans _ _ _ _ _ V (IH _ _ _ _ _ _ E2)).
Qed.
Lemma timeout_SD l now : forall x code x' evs, timeout_loop x now l = Ok (code, x', evs) -> SD x x' evs.
Proof.
  induction l as [|i l IH]; intros x code x' evs; cbn [timeout_loop]; [intros E; injection E as _ <- <-; apply SD_refl|].
  destruct (get_spub x i) as [s| | |]; cbn [bind]; [|discriminate..]. destruct (_ <? _); [intros E; injection E as _ <- <-; apply SD_refl|].
  destruct (ack_loop x i s (s_intv s)) as [[[cd x1] e1]| | |] eqn:E1; cbn [bind]; [|discriminate..]. pose proof (ack_loop_SD _ _ _ _ _ _ _ E1) as V1.
  destruct (negb (cd =? 0)); [intros E; injection E as _ <- <-; exact V1|].
  destruct (timeout_loop (set_tack x1 l) now l) as [[[cd2 x2] e2]| | |] eqn:E2; cbn [bind]; [|discriminate..]. intros E. injection E as _ <- <-.
  apply (SD_trans _ _ _ _ _ V1). apply (SD_trans x1 (set_tack x1 l) x2 [] e2); [apply SD_quiet; reflexivity|exact (IH _ _ _ _ E2)].
Qed.
Lemma ctrl_SD x i p ptr code x' evs : rmc_sub_write_control_message x i p ptr = Ok (code, x', evs) -> SD x x' evs.
Proof.
  unfold rmc_sub_write_control_message. destruct (_ || _) eqn:E0; [intros E; injection E as _ <- <-; apply SD_refl|].
  destruct (slot (t_vec x) i) as [c| | |] eqn:Hs; cbn [bind]; [|discriminate..]. destruct (negb (c_mode c =? CONNECTED)); [intros E; injection E as _ <- <-; apply SD_refl|].
  destruct (write_ctrl _ _ _) as [[cd wb]| | |]; cbn [bind fst snd]; [|discriminate..].
  destruct (negb (cd =? 0)); intros E; injection E as _ <- <-; [apply SD_refl|]. eapply (SD_put x _ i c); [exact Hs| | | |reflexivity|reflexivity]; reflexivity.
Qed.
Lemma control_SD f x p ptr code x' evs : control_by f x p ptr = Ok (code, x', evs) -> SD x x' evs.
Proof.
  unfold control_by. destruct (_ || _); [intros E; injection E as _ <- <-; apply SD_refl|]. destruct f as [[i|]| | |]; cbn [bind]; [| |discriminate..].
  - destruct (slot (t_vec x) i) as [c| | |]; cbn [bind]; [|discriminate..]. destruct (negb _); [intros E; injection E as _ <- <-; apply SD_refl|]. apply ctrl_SD.
  - intros E. injection E as _ <- <-. apply SD_refl.
Qed.
Lemma complete_size v i o code v' evs : 0 <= i -> complete_conn v i o = Ok (code, v', evs) -> v_size v' = v_size v.
Proof.
  intros Hi. unfold complete_conn. destruct (slot v i) as [c| | |]; cbn [bind]; [|discriminate..]. destruct (close_conn v i) as [[[cd v1] e1]| | |] eqn:E1; cbn [bind].
  2,3,4: destruct o as [e|so nd]; [discriminate|]; destruct (negb (so =? 0)); [discriminate|]; destruct (negb (nd =? 0)); [discriminate|]; intros E; injection E as _ <- _; apply size_put.
  pose proof (close_size_v _ _ _ _ _ Hi E1) as S. destruct o as [e|so nd]; [|destruct (negb (so =? 0)); [|destruct (negb (nd =? 0))]]; intros E; injection E as _ <- _; try exact S. apply size_put.
Qed.
Lemma swrite_SD x i o code op x' evs : 0 <= i -> rmc_sub_write x i o = Ok (code, op, x', evs) -> SD x x' evs.
Proof.
  intros Hi. unfold rmc_sub_write. destruct (find_index_cases (t_vec x) i Hi) as [[E Hn]|(c & E & Hs & Ho)]; rewrite E; cbn [bind]; [intros Q; injection Q as _ _ <- <-; apply SD_refl|].
  destruct (Z.eqb_spec (c_mode c) CONNECTING) as [Hm|Hm].
  - cbv zeta. set (x1 := put_spub x i sub_init). assert (V0 : SD x x1 []) by (apply SD_quiet; reflexivity).
    destruct (complete_conn (t_vec x1) i (sw_cmp o)) as [[[cd v] ce]| | |] eqn:Ec; cbn [bind]; [|discriminate..].
    assert (V1 : SD x (set_tvec x1 v) (map SvConn ce)).
    { apply (SD_trans x x1 _ [] _ V0). split; [rewrite spolls_conn; apply (complete_DT _ _ i (sw_cmp o) cd); [exact Hi| |exact Ec]|exact (complete_size _ _ _ _ _ _ Hi Ec)].
      intros d Hd. change (t_vec x1) with (t_vec x) in Hd. congruence. }
    destruct (negb (cd =? 0)).
    + destruct (close_conn (t_vec (set_tvec x1 v)) i) as [[[cd2 v2] e2]| | |] eqn:E2; cbn [bind]; [|discriminate..]. intros Q. injection Q as _ _ <- <-. rewrite map_app.
      apply (SD_trans _ _ _ _ _ V1). exact (SD_close (set_tvec x1 v) i _ _ _ Hi E2).
    + intros Q. injection Q as _ _ <- <-. apply (SD_trans _ _ _ _ _ V1). apply SD_quiet; try reflexivity. destruct (t_ccb x); reflexivity.
  - destruct (circ_buf_in_use (c_wbuf c) =? 0); [intros Q; injection Q as _ _ <- <-; apply SD_refl|].
    destruct (tcp_write _ _) as [r| | |]; cbn [bind]; [|discriminate..]. intros Q. injection Q as _ _ <- <-. eapply (SD_put x _ i c); [exact Hs| | | |reflexivity|reflexivity]; reflexivity.
Qed.
Lemma sread_tcp_SD x i t ins code op x' evs : 0 <= i -> rmc_sub_read x i (SrTcp t ins) = Ok (code, op, x', evs) -> SD x x' evs.
Proof.
  intros Hi. cbn [rmc_sub_read]. destruct (find_index_cases (t_vec x) i Hi) as [[E Hn]|(c & E & Hs & Ho)]; rewrite E; cbn [bind]; [intros Q; injection Q as _ _ <- <-; apply SD_refl|].
  destruct (Z.eqb_spec (c_mode c) CONNECTED) as [Hm|Hm]; cbn [negb]; [|intros Q; injection Q as _ _ <- <-; apply SD_refl]. cbv zeta.
  set (got := match t with RErr => _ | _ => _ end).
  assert (G : sub_polls got = []) by (unfold got; destruct t as [|[|? ?]]; reflexivity).
  destruct (tcp_read _ _ (c_rbuf c) t) as [[cd op1 [[x1 e1] ins1] rb]| | |] eqn:Et; cbn [bind]; [|discriminate..].
  assert (S : FR x x1 e1).
  { refine (tcp_read_ok _ (fun st : tst => FR x (fst (fst st)) (snd (fst st))) _ (x, got, ins) (c_rbuf c) t _ _ Et); [|split; [reflexivity|split; [reflexivity|exact G]]].
    apply sub_dispatch_ok. intros [[y1 f1] jns] hp [[y2 f2] kns] F. cbn [fst snd] in *. unfold tcp_eff. destruct jns as [|a jns]; [discriminate|].
    destruct (accept_packet y1 i (h_pid (fst hp)) (snd hp) false a) as [[y3 f3]| | |] eqn:Ea; cbn [bind fst snd]; [|discriminate..]. intros Q. injection Q as <- <- _.
    exact (FR_trans _ _ _ _ _ F (accept_FR _ _ _ _ _ _ _ _ Ea)). }
  cbn [r_st fst snd r_buf r_code r_op] in *.
  set (x2 := set_tvec x1 _).
  assert (V1 : SD x x2 e1).
  { rewrite <- (app_nil_r e1). apply (SD_trans _ x1); [exact (SD_FR _ _ _ S)|]. eapply (SD_put x1 _ i c); [rewrite (proj1 S); exact Hs| | | |reflexivity|reflexivity]; reflexivity. }
  assert (Re : forall y, SD y y [SvConn (EvMod (c_desc c) i POLLREAD POLLREAD)]) by (intros y; apply SD_quiet; reflexivity).
  destruct (cd =? ENOMEM); [intros Q; injection Q as _ _ <- <-; exact (SD_trans _ _ _ _ _ V1 (Re x2))|].
  destruct (cd =? EPIPE).
  { destruct (rmc_sub_close_connection x2 i) as [[x3 e3]| | |] eqn:E3; cbn [bind fst snd]; [|discriminate..]. intros Q. injection Q as _ _ <- <-. exact (SD_trans _ _ _ _ _ V1 (sclose_SD _ _ _ _ Hi E3)). }
  destruct (process_received x2 i) as [[x3 e3]| | |] eqn:E3; cbn [bind fst snd]; [|discriminate..].
  pose proof (SD_trans _ _ _ _ _ V1 (SD_FR _ _ _ (process_FR _ _ _ _ E3))) as V3.
  destruct (cd =? EPROTO).
  - destruct (rmc_sub_close_connection x3 i) as [[x4 e4]| | |] eqn:E4; cbn [bind fst snd]; [|discriminate..]. intros Q. injection Q as _ _ <- <-.
    rewrite app_assoc. exact (SD_trans _ _ _ _ _ V3 (sclose_SD _ _ _ _ Hi E4)).
  - intros Q. injection Q as _ _ <- <-. rewrite app_assoc. exact (SD_trans _ _ _ _ _ V3 (Re x3)).
Qed.
Lemma sactivate_SD x o code x' evs : rmc_sub_activate_context x o = (code, x', evs) -> SD x x' evs.
Proof.
  unfold rmc_sub_activate_context. destruct (Z.eqb_spec (t_mcast x) (-1)) as [Em|Em]; cbn [negb]; [|intros E; injection E as _ <- <-; apply SD_refl].
  destruct o as [e|d e|d e|d]; intros E; injection E as _ <- <-; [apply SD_refl| | |]; (split; [|reflexivity]); cbn [set_tmcast t_mcast t_vec sub_polls flat_map app]; rewrite ?Em.
  - apply temp_DT.
  - intros l K H. unfold sock_in. replace (d =? -1) with false by (pose proof (proj1 (kernel_next _ _ _ K)); lia). apply HI_hold; [exact K|exact H|reflexivity].
  - intros l K H. unfold sock_in. replace (d =? -1) with false by (pose proof (proj1 (kernel_next _ _ _ K)); lia). apply HI_hold; [exact K|exact H|reflexivity].
Qed.
Lemma sclose_loop_SD n : forall x ind x' evs, 0 <= ind -> sclose_loop n x ind = Ok (x', evs) -> SD x x' evs.
Proof.
  induction n as [|n IH]; intros x ind x' evs Hi; cbn [sclose_loop]; [intros E; injection E as <- <-; apply SD_refl|].
  destruct (find_by_index (t_vec x) ind) as [[c|]| | |]; cbn [bind]; [| |discriminate..]; [|apply IH; lia].
  destruct (rmc_sub_close_connection x ind) as [[x1 e1]| | |] eqn:E1; cbn [bind fst snd]; [|discriminate..].
  destruct (sclose_loop n x1 (ind + 1)) as [[x2 e2]| | |] eqn:E2; cbn [bind fst snd]; [|discriminate..]. intros E. injection E as <- <-.
  refine (SD_trans _ _ _ _ _ (sclose_SD _ _ _ _ Hi E1) (IH x1 (ind + 1) _ _ _ E2)). lia.
Qed.
Lemma sdeactivate_SD x code x' evs : rmc_sub_deactivate_context x = Ok (code, x', evs) -> SD x x' evs.
Proof.
  unfold rmc_sub_deactivate_context. destruct (drop_ready x (t_ready x)) as [[x1 e1]| | |] eqn:E1; cbn [bind fst snd]; [|discriminate..]. cbv zeta.
  set (x2 := set_tmcast (set_tack x1 []) (-1)). destruct (sclose_loop _ x2 0) as [[x3 e3]| | |] eqn:E3; cbn [bind fst snd]; [|discriminate..]. intros E. injection E as _ <- <-.
  pose proof (drop_FR _ _ _ _ E1) as F. apply (SD_trans _ _ _ _ _ (SD_FR _ _ _ F)).
  apply (SD_trans x1 x2 x3 [SvConn (EvClose (t_mcast x)); SvConn (EvRem (t_mcast x) RMC_MULTICAST_INDEX)] e3); [|refine (sclose_loop_SD _ _ 0 _ _ _ E3); lia].
  split; [|reflexivity]. unfold x2. cbn [set_tmcast set_tack t_mcast t_vec sub_polls flat_map app]. rewrite (proj1 (proj2 F)). intros l K H. change (sock_in (-1)) with (@nil Z).
  apply HI_unhold; [exact (kernel_pre _ _ K)|rewrite app_nil_r; exact H|reflexivity].
Qed.
Lemma sstep_SD x log0 o code x' evs : v_size (t_vec x) <= RMC_NIL_INDEX -> yok x log0 o -> ystep x o = Ok (code, x', evs) -> SD x x' evs.
Proof.
  intros Hz Hok E. destruct o as [i [ins|t ins]|i o|now|i|a keep|ptr|i p ptr|a port p ptr|n p ptr|a c r|o|]; cbn [ystep] in E.
  - destruct (rmc_sub_read x i (SrMcast ins)) as [[[[cd op] x1] e1]| | |] eqn:E1; cbn [bind] in E; [|discriminate E..]. injection E as _ <- <-.
    revert E1. cbn [rmc_sub_read]. unfold multicast_read. destruct (t_mcast x =? -1); cbn [bind]; [intros E; injection E as _ _ <- <-; apply SD_refl|].
    destruct (mread_loop x RMC_ERROR ins) as [[[[cd1 op1] x2] e2]| | |] eqn:E2; cbn [bind]; [|discriminate..]. intros E. injection E as _ _ <- <-.
    apply (SD_trans _ _ _ _ _ (mread_SD _ _ _ _ _ _ _ Hz E2)). apply SD_quiet; reflexivity.
  - destruct (rmc_sub_read x i (SrTcp t ins)) as [[[[cd op] x1] e1]| | |] eqn:E1; cbn [bind] in E; [|discriminate E..]. injection E as _ <- <-. refine (sread_tcp_SD _ _ _ _ _ _ _ _ _ E1). apply Hok.
  - destruct (rmc_sub_write x i o) as [[[[cd op] x1] e1]| | |] eqn:E1; cbn [bind] in E; [|discriminate E..]. injection E as _ <- <-. refine (swrite_SD _ _ _ _ _ _ _ _ E1). apply (proj1 Hok).
  - exact (timeout_SD _ _ _ _ _ _ E).
  - destruct (rmc_sub_close_connection x i) as [[x1 e1]| | |] eqn:E1; cbn [bind fst snd] in E; [|discriminate E..]. injection E as _ <- <-. exact (sclose_SD _ _ _ _ (proj1 Hok) E1).
  - exact (SD_FR _ _ _ (dispatched_FR _ _ _ _ _ _ E)).
  - injection E as _ <- <-. apply SD_quiet; reflexivity.
  - exact (ctrl_SD _ _ _ _ _ _ _ E).
  - exact (control_SD _ _ _ _ _ _ _ E).
  - exact (control_SD _ _ _ _ _ _ _ E).
  - injection E as _ <- <-. apply SD_quiet; reflexivity.
  - assert (E1 : rmc_sub_activate_context x o = (code, x', evs)) by congruence. exact (sactivate_SD _ _ _ _ _ E1).
  - exact (sdeactivate_SD _ _ _ _ E).
Qed.
Lemma sreached_HI x log : sreached false x log -> kernel_ok (sub_polls log) -> HI (sock_in (t_mcast x)) (sdesc (t_vec x)) (sub_polls log).
Proof.
  intros (x0 & ops & F & H). induction H as [|ops x log o code x' evs H IH Hok Hr E]; intros K.
  - destruct F as (node & buf & m & -> & _). apply init_HI.
  - rewrite spolls_app in *. assert (B : BI x) by (apply (sreached_inv false x log); exists x0, ops; auto).
    refine (proj1 (sstep_SD x log o code x' evs _ Hok E) _ K (IH (kernel_pre _ _ K))). pose proof (tv_size _ (bi_vec _ B)). unfold RMC_NIL_INDEX, RMC_LISTEN_INDEX in *. lia.
Qed.
