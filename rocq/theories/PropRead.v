(** PropRead.v — C80: what a read of a control connection returns, and what it leaves. *)
From Coq Require Import Sorting.Permutation Sorting.Sorted.
From Verif Require Import Base CircBuf CircBufProofs Wire ListHeap SeqList Pub SpecPub PubProofs PubTrace PropPub Sub SpecSub SubProofs SubTrace
  Proto SpecProto ProtoProofs ProtoRead Conn SpecConn ConnProofs Safe PubCtx SpecPubCtx PubCtxProofs PubCtxSteps PropPubCtx PropPubFlow PropPubTime PropPubMem
  SpecPubRecv PubRecv PropPubRecv SubCtx SpecSubCtx SubSteps SubMem SubDecomp SubInv PropSubCtx SubRecv PropSubConn PropSubRecv PropCall PropTotal PropTotalSub.

(** ** Specification *)
(** The code for a read after which the bytes [rest] are left over behind the complete commands:
    nothing left, the beginning of a command (whose code is one of [known]), or anything else. *)
Definition rest_code (known : list Z) (rest : list Z) (code : Z) : Prop :=
  (rest = [] -> code = 0) /\
  (forall b r, rest = b :: r -> In b known -> code = EAGAIN) /\
  (forall b r, rest = b :: r -> ~ In b known -> code = EPROTO).
(** In bytes left over by [parses] there is no complete command. *)
Lemma sub_left_code s cmds r : bytes_ok s -> parses for_sub s cmds r -> rest_code [1] r (left_code sub_next r).
Proof.
  intros Hb (E & _ & N). rewrite E in Hb. apply Forall_app in Hb. destruct Hb as [_ Hb].
  unfold rest_code, left_code. split; [intros ->; reflexivity|]. split; intros b l -> H; cbn [In] in H.
  - destruct H as [<-|[]]. destruct (sub_next (1 :: l)) as [| |c rest] eqn:En; [reflexivity| |].
    + cbn [sub_next] in En. change (1 =? 1) with true in En. cbv iota in En. destruct (20 <=? zlen l); [|discriminate En]. cbv zeta in En. destruct (_ <=? zlen l); discriminate En.
    + destruct (sub_next_sound _ _ _ Hb En) as (E1 & E2 & E3). destruct (N c rest E2 E3 E1).
  - cbn [sub_next]. destruct (Z.eqb_spec b 1) as [->|_]; [tauto|reflexivity].
Qed.
Lemma pub_left_code s cmds r : bytes_ok s -> parses for_pub s cmds r -> rest_code [2; 3] r (left_code pub_next r).
Proof.
  intros Hb (E & _ & N). rewrite E in Hb. apply Forall_app in Hb. destruct Hb as [_ Hb].
  unfold rest_code, left_code. split; [intros ->; reflexivity|]. split; intros b l -> H; cbn [In] in H.
  - destruct (pub_next (b :: l)) as [| |c rest] eqn:En; [reflexivity| |].
    + cbn [pub_next] in En. destruct H as [<-|[<-|[]]].
      * change (2 =? 2) with true in En. cbv iota in En. destruct (16 <=? zlen l); discriminate En.
      * change (3 =? 2) with false in En. change (3 =? 3) with true in En. cbv iota in En. destruct (2 <=? zlen l); [|discriminate En]. cbv zeta in En. destruct (_ <=? zlen l); discriminate En.
    + destruct (pub_next_sound _ _ _ Hb En) as (E1 & E2 & E3). destruct (N c rest E2 E3 E1).
  - cbn [pub_next]. destruct (Z.eqb_spec b 2) as [->|_]; [tauto|]. destruct (Z.eqb_spec b 3) as [->|_]; [tauto|reflexivity].
Qed.

(** ** The subscriber *)
(** The receive ring is full: ENOMEM, and nothing changes. *)
Theorem c80_sub_full : forall x log i c o ins, sreached true x log -> sconnected x i c -> zlen (contents (c_rbuf c)) = RMC_MAX_PACKET - 1 ->
  exists x' evs, rmc_sub_read x i (SrTcp o ins) = Ok (ENOMEM, RMC_ERROR, x', evs) /\
    (forall j, 0 <= j -> slot (t_vec x') j = slot (t_vec x) j) /\ t_pubs x' = t_pubs x /\ t_mem x' = t_mem x /\ t_ready x' = t_ready x /\
    In (SvConn (EvMod (c_desc c) i POLLREAD POLLREAD)) evs.
Proof.
  intros x log i c o ins R Hc Hl. pose proof (sreached_RW x log R i c (proj1 Hc)) as (W & Sz & _). destruct (sreached_inv true x log R) as (B & _).
  pose proof (slot_range _ _ _ (proj1 Hc)) as Rg. cbn [rmc_sub_read]. rewrite (sub_open x i c (proj1 Hc) (connected_mode x i c Hc)). cbn [bind]. rewrite (proj2 Hc), Z.eqb_refl. cbn [negb].
  cbv zeta. rewrite tcp_read_full. 2:{ rewrite (available_val _ W), <- (contents_len _ W), Hl, Sz. lia. }
  cbn [bind r_st r_code r_op r_buf]. change (ENOMEM =? ENOMEM) with true. cbv iota. do 2 eexists. split; [reflexivity|]. cbn [set_tvec t_vec t_pubs t_mem t_ready].
  split; [|split; [reflexivity|split; [reflexivity|split; [reflexivity|apply in_or_app; right; left; reflexivity]]]].
  intros j Hj. destruct (Z.eq_dec j i) as [->|N]; [rewrite slot_put_same by exact Rg; rewrite (proj1 Hc); destruct c; reflexivity|apply slot_put_other; lia].
Qed.
(** The publisher closed the connection, or the read failed: the connection is closed. *)
Theorem c80_sub_disconnect : forall x log i c o ins, sreached true x log -> sconnected x i c -> zlen (contents (c_rbuf c)) < RMC_MAX_PACKET - 1 ->
  o = RErr \/ o = RData [] ->
  exists x' evs d, rmc_sub_read x i (SrTcp o ins) = Ok (0, RMC_READ_DISCONNECT, x', evs) /\ slot (t_vec x') i = Ok d /\ c_mode d = CLOSED /\
    (forall j, j <> i -> slot (t_vec x') j = slot (t_vec x) j).
Proof.
  intros x log i c o ins R Hc Hl Ho. pose proof (sreached_RW x log R i c (proj1 Hc)) as (W & Sz & _). destruct (sreached_inv true x log R) as (B & M & _).
  pose proof (slot_range _ _ _ (proj1 Hc)) as Rg. cbn [rmc_sub_read]. rewrite (sub_open x i c (proj1 Hc) (connected_mode x i c Hc)). cbn [bind]. rewrite (proj2 Hc), Z.eqb_refl. cbn [negb].
  cbv zeta. set (got := match o with RErr => _ | _ => _ end). assert (Eg : got = []) by (destruct Ho as [-> | ->]; reflexivity). rewrite Eg.
  assert (Ea : circ_buf_available (c_rbuf c) <> 0) by (rewrite (available_val _ W), <- (contents_len _ W), Sz; lia).
  destruct (pipe_returns (sub_dispatch (tcp_dup i) (tcp_eff i)) (x, [], ins) (c_rbuf c) o W Ea Ho) as (rb' & ->).
  cbn [bind r_st r_code r_op r_buf]. change (EPIPE =? ENOMEM) with false. change (EPIPE =? EPIPE) with true. cbv iota.
  set (x2 := set_tvec x _).
  assert (U : usteps (Some i) log x [] x2) by (apply us_one; exact (u_rbuf (Some i) log x i c rb' eq_refl Hc)).
  destruct (steps_BMI _ log x _ x2 B M U) as [B2 M2].
  assert (Hc2 : sconnected x2 i (set_rbuf c rb')).
  { split; [unfold x2; cbn [set_tvec t_vec]; apply slot_put_same; exact Rg|exact (proj2 Hc)]. }
  destruct (close_succeeds x2 _ i _ B2 M2 Hc2) as (x3 & e3 & -> & _ & _ & S & d & Sd & Hd). cbn [bind fst snd].
  exists x3, ([] ++ e3), d. split; [reflexivity|]. split; [exact Sd|]. split; [exact Hd|].
  intros j N. rewrite (S j N). unfold x2. cbn [set_tvec t_vec]. 
  destruct (Z_lt_ge_dec j 0); [unfold slot; replace (0 <=? j) with false by lia; reflexivity|apply slot_put_other; lia].
Qed.
(** Data, which complete the packets [cmds] and leave the bytes [rest]: the code and operation tell
    which case it is.  In the first two the rest is kept for the next read; else the connection
    is closed. *)
Theorem c80_sub_data : forall x log i c bs ins cmds rest code op x' evs, sreached true x log -> sconnected x i c ->
  zlen (contents (c_rbuf c)) < RMC_MAX_PACKET - 1 -> bytes_ok bs -> bs <> [] -> read_good x (YRead i (SrTcp (RData bs) ins)) ->
  parses for_sub (contents (c_rbuf c) ++ ztake (RMC_MAX_PACKET - 1 - zlen (contents (c_rbuf c))) bs) cmds rest ->
  rmc_sub_read x i (SrTcp (RData bs) ins) = Ok (code, op, x', evs) ->
  rest_code [1] rest code /\ op = (if code =? EPROTO then RMC_ERROR else RMC_READ_TCP) /\
  exists d, slot (t_vec x') i = Ok d /\
    (code <> EPROTO -> c_mode d = CONNECTED /\ contents (c_rbuf d) = rest /\ In (SvConn (EvMod (c_desc c) i POLLREAD POLLREAD)) evs) /\
    (code = EPROTO -> c_mode d = CLOSED).
Proof.
  intros x log i c bs ins cmds rest code op x' evs R Hc Hl Hb Hne Hg P.
  pose proof (sreached_RW x log R i c (proj1 Hc)) as (W & Sz & Cb & _). destruct (sreached_inv true x log R) as (B & M & _).
  pose proof (slot_range _ _ _ (proj1 Hc)) as Rg. cbn [rmc_sub_read]. rewrite (sub_open x i c (proj1 Hc) (connected_mode x i c Hc)). cbn [bind]. rewrite (proj2 Hc), Z.eqb_refl. cbn [negb].
  cbv zeta. assert (Av : circ_buf_available (c_rbuf c) = RMC_MAX_PACKET - 1 - zlen (contents (c_rbuf c))) by (rewrite (available_val _ W), <- (contents_len _ W), Sz; lia).
  assert (Ea : circ_buf_available (c_rbuf c) <> 0) by lia. rewrite <- Av in P.
  set (got := match bs with [] => _ | _ => _ end).
  assert (Calm : Forall (calm_ev x (Some i)) got).
  { unfold got. destruct bs as [|b bs]; [constructor|]. constructor; [split; [reflexivity|eauto]|constructor]. }
  pose proof (us_size_calm (Some i) log x got Calm) as U0.
  pose proof (Hg c (proj1 Hc) (proj2 Hc) Hne) as Hro. rewrite <- Sz in Hro. set (b1 := ztake (circ_buf_available (c_rbuf c)) bs) in *.
  assert (Hcb : bytes_ok (contents (c_rbuf c) ++ b1)) by (apply Forall_app; split; [exact Cb|apply bytes_take; exact Hb]).
  pose proof (tcp_read_total (sub_dispatch (tcp_dup i) (tcp_eff i)) (sub_eff (tcp_dup i) (tcp_eff i)) for_sub sub_next false sub_next_sound sub_next_complete
      (fun st rb c rest W B N _ => sub_handler_cmd (tcp_dup i) (tcp_eff i) st rb c rest W B N) (sub_handler_more (tcp_dup i) (tcp_eff i)) (sub_handler_bad (tcp_dup i) (tcp_eff i))
      (x, got, ins) (c_rbuf c) bs cmds rest W Cb Hb Hne Ea Hro P ltac:(discriminate)) as Tt.
  assert (Ff : Forall for_sub cmds). { destruct P as (_ & F & _). eapply Forall_impl; [|exact F]. cbn. tauto. }
  destruct (sub_run_out x log i c B M Hc cmds x got ins Ff U0 eq_refl) as [[(x1 & e1 & i1 & E1 & U1 & V1)|E1] _].
  2:{ rewrite E1 in Tt. rewrite Tt. cbn [bind]. discriminate. }
  rewrite E1 in Tt. destruct Tt as (rb' & -> & W' & Z' & C' & S0'). cbn [bind r_st r_code r_op r_buf].
  pose proof (sub_left_code _ _ _ Hcb P) as Rc. destruct (left_not_pipe rest) as [L1 L2]. apply Z.eqb_neq in L1, L2. rewrite L1, L2.
  set (x2 := set_tvec x1 _).
  assert (Hc1 : sconnected x1 i c) by (unfold sconnected; rewrite V1; exact Hc).
  assert (U2 : usteps (Some i) log x e1 x2).
  { replace e1 with (e1 ++ []) by apply app_nil_r. eapply us_then; [exact U1|]. exact (u_rbuf (Some i) _ x1 i c rb' eq_refl Hc1). }
  assert (Hc2 : sconnected x2 i (set_rbuf c rb')).
  { split; [unfold x2; cbn [set_tvec t_vec]; apply slot_put_same; rewrite V1; exact Rg|exact (proj2 Hc)]. }
  destruct (steps_BMI _ log x e1 x2 B M U2) as [B2 M2].
  pose proof (proc_dec (Some i) x2 (log ++ e1) i _ B2 Hc2) as Pd. destruct (process_received x2 i) as [[x3 e3]|u| |]; cbn [bind]; [|discriminate..]. cbn [ssafe fst snd] in *. destruct Pd as [U3 V3].
  assert (Hc3 : sconnected x3 i (set_rbuf c rb')) by (unfold sconnected; rewrite V3; exact Hc2).
  set (k := left_code sub_next rest) in *.
  destruct (Z.eqb_spec k EPROTO) as [Ek|Ek].
  - pose proof (us_app (Some i) log x e1 x2 e3 x3 U2 U3) as U4. destruct (steps_BMI _ log x _ x3 B M U4) as [B3 M3].
    destruct (close_succeeds x3 _ i _ B3 M3 Hc3) as (x4 & e4 & -> & _ & _ & _ & d & Sd & Hd). cbn [bind fst snd]. intros E.
    assert (code = EPROTO /\ op = RMC_ERROR /\ x' = x4) as (-> & -> & ->) by (repeat split; congruence).
    rewrite Ek in Rc. split; [exact Rc|]. split; [reflexivity|]. exists d. split; [exact Sd|]. split; [congruence|auto].
  - intros E. assert (code = k /\ op = RMC_READ_TCP /\ x' = x3 /\ evs = e1 ++ e3 ++ [SvConn (EvMod (c_desc c) i POLLREAD POLLREAD)]) as (-> & -> & -> & ->) by (repeat split; congruence).
    split; [exact Rc|]. split; [apply Z.eqb_neq in Ek; rewrite Ek; reflexivity|]. exists (set_rbuf c rb'). split; [exact (proj1 Hc3)|]. split; [|congruence].
    intros _. split; [exact (proj2 Hc)|]. split; [exact C'|]. apply in_or_app. right. apply in_or_app. right. left. reflexivity.
Qed.

(** ** The publisher *)
(** What the connection is polled for after a read: input, and output if there is any. *)
Definition poll_for (c : conn) (act : Z) : Prop :=
  (contents (c_wbuf c) = [] -> act = POLLREAD) /\ (contents (c_wbuf c) <> [] -> act = Z.lor POLLREAD POLLWRITE).
Lemma poll_for_pending c rb : cb_wf (c_wbuf c) -> cb_size (c_wbuf c) = RMC_MAX_PACKET ->
  poll_for c (Z.lor POLLREAD (if 0 <? pending_send (set_rbuf c rb) then POLLWRITE else 0)).
Proof.
  intros W Sz. unfold pending_send. cbn [set_rbuf c_wbuf]. pose proof (in_use_bounds _ W) as B. unfold u16. rewrite Z.mod_small by (unfold RMC_MAX_PACKET in Sz; lia).
  rewrite <- (contents_len _ W). unfold poll_for. destruct (contents (c_wbuf c)) as [|b l]; [split; [reflexivity|congruence]|].
  rewrite zlen_cons. pose proof (zlen_nonneg l). replace (0 <? 1 + zlen l) with true by lia. split; [discriminate|reflexivity].
Qed.
Theorem c80_pub_full : forall x g log f i c t, preached x g log f -> 0 <= i -> slot (x_vec x) i = Ok c -> c_mode c = CONNECTED ->
  zlen (contents (c_rbuf c)) = RMC_MAX_PACKET - 1 ->
  exists act x', rmc_pub_read x i (RdTcp t) = Ok (ENOMEM, Some RMC_ERROR, x', [PvConn (EvMod (c_desc c) i (c_action c) act)]) /\ poll_for c act /\
    slot (x_vec x') i = Ok (set_action c act) /\ (forall j, j <> i -> 0 <= j -> slot (x_vec x') j = slot (x_vec x) j) /\ x_pub x' = x_pub x /\ x_mem x' = x_mem x.
Proof.
  intros x g log f i c t R Hi Hs Hm Hl. destruct (preached_PRI _ _ _ _ R i c Hs Hm) as [W Sz _ _]. apply preached_reached in R.
  destruct (reached_inv _ _ _ R) as (sp & L & Q & X). destruct (vi_ring _ _ (xi_vec _ _ _ _ _ _ _ X) i c Hs) as [Ww Wz]. pose proof (slot_range _ _ _ Hs) as Rg.
  cbn [rmc_pub_read]. rewrite (pub_open x i c Hs Hm). cbn [bind]. rewrite Hm, Z.eqb_refl. cbn [negb].
  rewrite tcp_read_full. 2:{ rewrite (available_val _ W), <- (contents_len _ W), Hl, Sz. lia. }
  cbn [bind r_st r_code r_op r_buf fst snd]. change (ENOMEM =? EPIPE) with false. cbv iota zeta. cbn [app].
  do 2 eexists. split; [reflexivity|]. split; [apply poll_for_pending; assumption|]. cbn [set_vec x_vec x_pub x_mem].
  split; [rewrite slot_put_same by exact Rg; destruct c; reflexivity|]. split; [|split; reflexivity]. intros j N Hj. apply slot_put_other; lia.
Qed.
Theorem c80_pub_disconnect : forall x g log f i c t, preached x g log f -> 0 <= i -> slot (x_vec x) i = Ok c -> c_mode c = CONNECTED ->
  zlen (contents (c_rbuf c)) < RMC_MAX_PACKET - 1 -> t = RErr \/ t = RData [] ->
  exists x' evs, rmc_pub_read x i (RdTcp t) = Ok (0, Some RMC_READ_DISCONNECT, x', evs) /\ ~ connected x' i /\
    (forall j, j <> i -> 0 <= j -> slot (x_vec x') j = slot (x_vec x) j).
Proof.
  intros x g log f i c t R Hi Hs Hm Hl Ht. destruct (preached_PRI _ _ _ _ R i c Hs Hm) as [W Sz _ _]. apply preached_reached in R.
  destruct (reached_inv _ _ _ R) as (sp & L & Q & X). destruct (vi_ring _ _ (xi_vec _ _ _ _ _ _ _ X) i c Hs) as [Ww Wz]. pose proof (slot_range _ _ _ Hs) as Rg.
  assert (Ho : c_mode c <> CLOSED) by (rewrite Hm; discriminate).
  cbn [rmc_pub_read]. rewrite (pub_open x i c Hs Hm). cbn [bind]. rewrite Hm, Z.eqb_refl. cbn [negb].
  assert (Ea : circ_buf_available (c_rbuf c) <> 0) by (rewrite (available_val _ W), <- (contents_len _ W), Sz; lia).
  destruct (pipe_returns (pub_dispatch (eff_ack i) (ccb_set x) (eff_ctrl i)) (x, []) (c_rbuf c) t W Ea Ht) as (rb' & ->).
  cbn [bind r_st r_code r_op r_buf fst snd]. change (EPIPE =? EPIPE) with true. cbv iota zeta.
  pose proof (XI_io false x _ _ sp L Q i c (set_rbuf c rb') [] X (conj Hs Ho) eq_refl eq_refl Ww Wz (Forall_nil _) (fun _ _ => Forall_nil _)) as X2.
  rewrite g_unlend_nil, app_nil_r in X2. specialize (X2 (xi_str _ _ _ _ _ _ _ X i c (conj Hs Ho))).
  destruct (close_xi _ _ _ _ _ _ _ i (set_rbuf c rb') X2) as (x2 & L2 & fr & e2 & E2 & Hr).
  { split; [cbn [set_vec x_vec]; apply slot_put_same; exact Rg|exact Ho]. }
  destruct Hr as (_ & _ & _ & _ & _ & _ & _ & O & N & _). rewrite E2. cbn [bind app]. do 2 eexists. split; [reflexivity|].
  split.
  - intros (d & Hd & Hmd). apply (N d). split; [exact Hd|]. intros E; congruence.
  - intros j Nj Hj. rewrite (O j Nj). cbn [set_vec x_vec]. apply slot_put_other; lia.
Qed.

(** Data, which complete the commands [cmds] and leave the bytes [rest]: the code and operation
    tell which case it is; in every one the connection stays up and the rest is kept. *)
Theorem c80_pub_data : forall x g log f i c bs cmds rest code op x' evs, preached x g log f -> 0 <= i -> slot (x_vec x) i = Ok c -> c_mode c = CONNECTED ->
  zlen (contents (c_rbuf c)) < RMC_MAX_PACKET - 1 -> bs <> [] -> pread_good x (XRead i (RdTcp (RData bs))) ->
  parses for_pub (contents (c_rbuf c) ++ ztake (RMC_MAX_PACKET - 1 - zlen (contents (c_rbuf c))) bs) cmds rest ->
  rmc_pub_read x i (RdTcp (RData bs)) = Ok (code, op, x', evs) ->
  rest_code [2; 3] rest code /\ op = Some (if code =? EPROTO then RMC_ERROR else RMC_READ_TCP) /\
  exists rb act, slot (x_vec x') i = Ok (set_action (set_rbuf c rb) act) /\ contents rb = rest /\ poll_for c act /\
    In (PvConn (EvMod (c_desc c) i (c_action c) act)) evs /\
    (cmds = [] -> x_pub x' = x_pub x /\ x_mem x' = x_mem x /\ evs = [PvConn (EvMod (c_desc c) i (c_action c) act)]).
Proof.
  intros x g log f i c bs cmds rest code op x' evs R Hi Hs Hm Hl Hne Hg P.
  destruct (preached_PRI _ _ _ _ R i c Hs Hm) as [W Sz Bg (cmds0 & P0 & _)]. apply preached_reached in R.
  assert (Hb : bytes_ok (contents (c_rbuf c))) by (destruct P0 as (E & _); rewrite E in Bg; apply Forall_app in Bg; exact (proj2 Bg)).
  pose proof (reached_inv _ _ _ R) as XV. pose proof XV as (sp & L & Q & X). destruct (vi_ring _ _ (xi_vec _ _ _ _ _ _ _ X) i c Hs) as [Ww Wz]. pose proof (slot_range _ _ _ Hs) as Rg.
  cbn [rmc_pub_read]. rewrite (pub_open x i c Hs Hm). cbn [bind]. rewrite Hm, Z.eqb_refl. cbn [negb].
  assert (Av : circ_buf_available (c_rbuf c) = RMC_MAX_PACKET - 1 - zlen (contents (c_rbuf c))) by (rewrite (available_val _ W), <- (contents_len _ W), Sz; lia).
  assert (Ea : circ_buf_available (c_rbuf c) <> 0) by lia. rewrite <- Av in P.
  destruct (Hg c Hs Hm Hne) as (Hbs & Hro & Hct). rewrite <- Sz in Hro, Hct. set (b1 := ztake (circ_buf_available (c_rbuf c)) bs) in *.
  assert (Hcb : bytes_ok (contents (c_rbuf c) ++ b1)) by (apply Forall_app; split; [exact Hb|apply bytes_take; exact Hbs]).
  pose proof (tcp_read_total (pub_dispatch (eff_ack i) (ccb_set x) (eff_ctrl i)) (pub_eff (eff_ack i) (ccb_set x) (eff_ctrl i)) for_pub pub_next (ccb_set x) pub_next_sound pub_next_complete
      (pub_handler_cmd _ _ _) (pub_handler_more _ _ _) (pub_handler_bad _ _ _) (x, []) (c_rbuf c) bs cmds rest
      W Hb Hbs Hne Ea Hro P (fun T => Hct T cmds rest P)) as Tt.
  destruct (run_out x g log i cmds XV Hi (proj1 (proj2 P)) (ex_intro _ c Hs)) as [G B].
  destruct (first_bad (fatal_cmd x) (fatal_dec x) cmds) as [H|(pre & m & post & Ec & Hf & _)].
  2:{ destruct B as [E|E]; [intros F; rewrite Ec in F; apply Forall_app in F; destruct F as [_ F]; apply Forall_inv in F; exact (F Hf)| |]; rewrite E in Tt; rewrite Tt; cbn [bind]; discriminate. }
  destruct (G H) as (x1 & e1 & E1 & _ & S1). rewrite E1 in Tt. destruct Tt as (rb' & -> & _ & _ & C' & _). cbn [bind r_st r_code r_op r_buf fst snd].
  pose proof (pub_left_code _ _ _ Hcb P) as Rc. pose proof (PubRecv.left_not_pipe rest) as L1. apply Z.eqb_neq in L1. rewrite L1. cbv zeta. intros E.
  set (act := Z.lor _ _) in E. set (k := left_code pub_next rest) in *.
  assert (code = k /\ op = Some (left_op pub_next rest) /\ x' = set_vec x1 (put_slot (x_vec x1) i (set_action (set_rbuf c rb') act)) /\
    evs = e1 ++ [PvConn (EvMod (c_desc c) i (c_action c) act)]) as (-> & -> & -> & ->) by (repeat split; congruence).
  split; [exact Rc|]. split.
  - f_equal. unfold k, left_op, left_code. destruct rest as [|b l]; [reflexivity|]. destruct (pub_next (b :: l)); reflexivity.
  - exists rb', act. assert (Ev : x_vec x1 = x_vec x) by (unfold same_but_pub in S1; decompose [and] S1; congruence).
    cbn [set_vec x_vec]. rewrite Ev. split; [apply slot_put_same; exact Rg|]. split; [exact C'|]. split; [apply poll_for_pending; assumption|].
    split; [apply in_or_app; right; left; reflexivity|]. intros ->. cbn in E1. injection E1 as <- <-. auto.
Qed.

(** Once the bytes kept start with one that is no command code, no later read gets past them:
    the bytes read pile up behind them until the ring is full. *)
Theorem c80_pub_garbage_stays : forall x g log f i c b l bs, preached x g log f -> 0 <= i < 65536 -> slot (x_vec x) i = Ok c -> c_mode c = CONNECTED ->
  contents (c_rbuf c) = b :: l -> b <> 2 -> b <> 3 ->
  zlen (contents (c_rbuf c)) < RMC_MAX_PACKET - 1 -> bs <> [] -> pread_good x (XRead i (RdTcp (RData bs))) ->
  exists x' evs d, rmc_pub_read x i (RdTcp (RData bs)) = Ok (EPROTO, Some RMC_ERROR, x', evs) /\ slot (x_vec x') i = Ok d /\ c_mode d = CONNECTED /\
    contents (c_rbuf d) = b :: l ++ ztake (RMC_MAX_PACKET - 1 - zlen (contents (c_rbuf c))) bs.
Proof.
  intros x g log f i c b l bs R Hi Hs Hm Ec N2 N3 Hl Hne Hg. set (t := ztake _ bs).
  assert (P : parses for_pub (contents (c_rbuf c) ++ t) [] (b :: l ++ t)).
  { rewrite Ec. split; [reflexivity|]. split; [constructor|]. intros [h p|a e|p] rest _ A; cbn [wire app]; intros E; [destruct A| |]; injection E as E _; congruence. }
  destruct (c77_pub_read x g log f i (RData bs) R Hi Hg) as [C _].
  destruct C as [[[[code op] x'] evs] E].
  { intros cmds (d & bs' & r & H1 & _ & H3 & H4). assert (d = c) as -> by congruence. assert (bs' = bs) as -> by congruence.
    destruct (preached_PRI _ _ _ _ R i c Hs Hm) as [W Sz _ _]. rewrite (available_val _ W), <- (contents_len _ W), Sz in H4.
    replace (RMC_MAX_PACKET - zlen (contents (c_rbuf c)) - 1) with (RMC_MAX_PACKET - 1 - zlen (contents (c_rbuf c))) in H4 by lia.
    rewrite (proj1 (parses_unique for_pub pub_next pub_next_complete _ _ _ _ _ H4 P)). constructor. }
  destruct (c80_pub_data x g log f i c bs [] (b :: l ++ t) code op x' evs R (proj1 Hi) Hs Hm Hl Hne Hg P E) as (Rc & -> & rb & act & S & Cb & _).
  destruct Rc as (_ & _ & Rc). assert (code = EPROTO) as -> by (apply (Rc b (l ++ t) eq_refl); cbn [In]; intros [|[|[]]]; congruence).
  exists x', evs, (set_action (set_rbuf c rb) act). split; [exact E|]. split; [exact S|]. split; [exact Hm|exact Cb].
Qed.

(** ** The hypotheses are met *)
Definition fill : list Z := 255 :: repeat 255 (Z.to_nat 65397).
(** Subscriber: after the demo history a read may get a whole packet, the beginning of one or
    garbage; a packet announced longer than the ring fills the ring. *)
Definition c80_ins : list accin := [mkAi 300 1200 []].
Definition sfull_ops : list yop := sdemo_ops ++ [YRead 0 (SrTcp (RData (1 :: fill)) [])].
Example c80_sub_witness : exists x log c, sreached true x log /\ sconnected x 0 c /\ contents (c_rbuf c) = [] /\
  (forall bs, In bs [wire (pcmd 6 [60; 61]); [1; 8]; [9]] -> read_good x (YRead 0 (SrTcp (RData bs) c80_ins))) /\
  (exists x' evs, rmc_sub_read x 0 (SrTcp (RData (wire (pcmd 6 [60; 61]))) c80_ins) = Ok (0, RMC_READ_TCP, x', evs)) /\
  (exists x' evs, rmc_sub_read x 0 (SrTcp (RData [1; 8]) c80_ins) = Ok (EAGAIN, RMC_READ_TCP, x', evs)) /\
  (exists x' evs, rmc_sub_read x 0 (SrTcp (RData [9]) c80_ins) = Ok (EPROTO, RMC_ERROR, x', evs)).
Proof.
  destruct (ycheck_hist true sdemo0 sdemo_ops (fun x log => match slot (t_vec x) 0 with
      | Ok c => (c_mode c =? CONNECTED) && (circ_buf_in_use (c_rbuf c) =? 0) && (cb_start (c_rbuf c) =? 0)
      | _ => false end &&
      forallb (fun q => match rmc_sub_read x 0 (SrTcp (RData (fst q)) c80_ins) with Ok (code, op, _, _) => (code =? fst (snd q)) && (op =? snd (snd q)) | _ => false end)
        [(wire (pcmd 6 [60; 61]), (0, RMC_READ_TCP)); ([1; 8], (EAGAIN, RMC_READ_TCP)); ([9], (EPROTO, RMC_ERROR))]))
   as (x & log & H & E); [vm_compute; reflexivity|]. 
  apply andb_prop in E. destruct E as [E1 E2]. destruct (slot (t_vec x) 0) as [c| | |] eqn:Es; try discriminate E1. bool_split.
  assert (R : sreached true x log) by (exists sdemo0, sdemo_ops; split; [exact sdemo0_fresh|exact H]).
  exists x, log, c. split; [exact R|]. split; [split; [exact Es|lia]|]. pose proof (sreached_RW x log R 0 c Es) as (W & _). split.
  { pose proof (contents_len _ W) as Cl. destruct (contents (c_rbuf c)); [reflexivity|]. rewrite zlen_cons in Cl. pose proof (zlen_nonneg l). lia. }
  split.
  { intros bs _ d Hd _ _. assert (d = c) as -> by congruence. cbv zeta. left. pose proof (in_use_bounds _ W). match goal with |- context [zlen ?q] => pose proof (zlen_nonneg q) end. lia. }
  rewrite forallb_forall in E2.
  assert (Q : forall bs code op, In (bs, (code, op)) [(wire (pcmd 6 [60; 61]), (0, RMC_READ_TCP)); ([1; 8], (EAGAIN, RMC_READ_TCP)); ([9], (EPROTO, RMC_ERROR))] ->
    exists x' evs, rmc_sub_read x 0 (SrTcp (RData bs) c80_ins) = Ok (code, op, x', evs)).
  { intros bs code op Hin. specialize (E2 _ Hin). cbn [fst snd] in E2. destruct (rmc_sub_read _ _ _) as [[[[k o] x'] evs]| | |]; try discriminate E2.
    apply andb_prop in E2. destruct E2 as [A B]. apply Z.eqb_eq in A, B. subst. eauto. }
  split; [apply Q; left; reflexivity|]. split; apply Q; right; [left|right; left]; reflexivity.
Qed.
Example c80_sub_full_witness : exists x log c, sreached true x log /\ sconnected x 0 c /\ zlen (contents (c_rbuf c)) = RMC_MAX_PACKET - 1.
Proof.
  destruct (ycheck_hist true sdemo0 sfull_ops (fun x log => match slot (t_vec x) 0 with
      | Ok c => (c_mode c =? CONNECTED) && (circ_buf_in_use (c_rbuf c) =? RMC_MAX_PACKET - 1) | _ => false end)) as (x & log & H & E); [vm_cast_no_check (@eq_refl bool true)|].
  destruct (slot (t_vec x) 0) as [c| | |] eqn:Es; try discriminate E. bool_split.
  assert (R : sreached true x log) by (exists sdemo0, sfull_ops; split; [exact sdemo0_fresh|exact H]).
  exists x, log, c. split; [exact R|]. split; [split; [exact Es|lia]|]. pose proof (sreached_RW x log R 0 c Es) as (W & _). rewrite (contents_len _ W). lia.
Qed.
(** Publisher: the same, and garbage stays. *)
Definition pcheck (ops : list xop) (k : pctx -> bool) : bool := match rrun demo0 g_init [] (fun _ => []) ops with Some (x, _, _, _) => k x | None => false end.
Lemma pcheck_reached ops k : pcheck ops k = true -> exists x g log f, preached x g log f /\ k x = true.
Proof.
  unfold pcheck. destruct (rrun demo0 g_init [] (fun _ => []) ops) as [[[[x g] log] f]|] eqn:E; [|discriminate]. intros H. exists x, g, log, f. split; [|exact H].
  exists demo0, ops. split; [exact demo0_fresh|]. exact (rrun_hist demo0 _ demo0 g_init [] (fun _ => []) [] x g log f (rh_nil _) E).
Qed.
Definition reads_as (x : pctx) (bs : list Z) (code op : Z) : bool :=
  pgoodb x (XRead 0 (RdTcp (RData bs))) && match rmc_pub_read x 0 (RdTcp (RData bs)) with Ok (k, Some o, _, _) => (k =? code) && (o =? op) | _ => false end.
Lemma reads_as_ok x bs code op : reads_as x bs code op = true ->
  pread_good x (XRead 0 (RdTcp (RData bs))) /\ exists x' evs, rmc_pub_read x 0 (RdTcp (RData bs)) = Ok (code, Some op, x', evs).
Proof.
  unfold reads_as. intros H. apply andb_prop in H. destruct H as [H1 H2]. split; [exact (pgoodb_ok _ _ H1)|].
  destruct (rmc_pub_read _ _ _) as [[[[k [o|]] x'] evs]| | |]; try discriminate H2. apply andb_prop in H2. destruct H2 as [A B]. apply Z.eqb_eq in A, B. subst. eauto.
Qed.
Definition at_most (x : pctx) (n : Z) : bool := match slot (x_vec x) 0 with Ok c => (c_mode c =? CONNECTED) && (zlen (contents (c_rbuf c)) =? n) | _ => false end.
Lemma at_most_ok x n : at_most x n = true -> exists c, slot (x_vec x) 0 = Ok c /\ c_mode c = CONNECTED /\ zlen (contents (c_rbuf c)) = n.
Proof. unfold at_most. destruct (slot (x_vec x) 0) as [c| | |]; try discriminate. intros H. apply andb_prop in H. destruct H. exists c. split; [reflexivity|]. lia. Qed.
Example c80_pub_witness : exists x g log f c, preached x g log f /\ slot (x_vec x) 0 = Ok c /\ c_mode c = CONNECTED /\ zlen (contents (c_rbuf c)) = 0 /\
  (forall bs code op, In (bs, (code, op)) [(wire (CmdAck 1 1), (0, RMC_READ_TCP)); (wire (CmdAck 1 1) ++ [2; 2], (EAGAIN, RMC_READ_TCP)); ([9; 7], (EPROTO, RMC_ERROR))] ->
     pread_good x (XRead 0 (RdTcp (RData bs))) /\ exists x' evs, rmc_pub_read x 0 (RdTcp (RData bs)) = Ok (code, Some op, x', evs)).
Proof.
  destruct (pcheck_reached demo_ops (fun x => at_most x 0 && (reads_as x (wire (CmdAck 1 1)) 0 RMC_READ_TCP && (reads_as x (wire (CmdAck 1 1) ++ [2; 2]) EAGAIN RMC_READ_TCP && reads_as x [9; 7] EPROTO RMC_ERROR))))
    as (x & g & log & f & R & H); [vm_compute; reflexivity|].
  apply andb_prop in H. destruct H as [H0 H]. apply andb_prop in H. destruct H as [H1 H]. apply andb_prop in H. destruct H as [H2 H3].
  destruct (at_most_ok _ _ H0) as (c & A1 & A2 & A3). exists x, g, log, f, c. split; [exact R|]. split; [exact A1|]. split; [exact A2|]. split; [exact A3|].
  intros bs code op [E|[E|[E|[]]]]; inversion E; subst; apply reads_as_ok; assumption.
Qed.
Example c80_pub_full_witness : exists x g log f c, preached x g log f /\ slot (x_vec x) 0 = Ok c /\ c_mode c = CONNECTED /\ zlen (contents (c_rbuf c)) = RMC_MAX_PACKET - 1.
Proof.
  destruct (pcheck_reached (demo_ops ++ [XRead 0 (RdTcp (RData (9 :: fill)))]) (fun x => match slot (x_vec x) 0 with
     Ok c => (c_mode c =? CONNECTED) && (circ_buf_in_use (c_rbuf c) =? RMC_MAX_PACKET - 1) | _ => false end)) as (x & g & log & f & R & H); [vm_cast_no_check (@eq_refl bool true)|].
  destruct (slot (x_vec x) 0) as [c| | |] eqn:Es; try discriminate H. bool_split.
  exists x, g, log, f, c. split; [exact R|]. split; [exact Es|]. split; [lia|]. destruct (preached_PRI _ _ _ _ R 0 c Es) as [W _ _ _]; [lia|]. rewrite (contents_len _ W). lia.
Qed.
Example c80_garbage_witness : exists x g log f c, preached x g log f /\ slot (x_vec x) 0 = Ok c /\ c_mode c = CONNECTED /\ contents (c_rbuf c) = [9; 7] /\
  pread_good x (XRead 0 (RdTcp (RData (wire (CmdAck 1 1))))).
Proof.
  destruct (pcheck_reached (demo_ops ++ [XRead 0 (RdTcp (RData [9; 7]))]) (fun x => reads_as x (wire (CmdAck 1 1)) EPROTO RMC_ERROR &&
     match slot (x_vec x) 0 with Ok c => (c_mode c =? CONNECTED) && (if list_eq_dec Z.eq_dec (contents (c_rbuf c)) [9; 7] then true else false) | _ => false end)) as (x & g & log & f & R & H); [vm_compute; reflexivity|].
  apply andb_prop in H. destruct H as [H0 H]. destruct (slot (x_vec x) 0) as [c| | |] eqn:Es; try discriminate H. apply andb_prop in H. destruct H as [H H1].
  destruct (list_eq_dec Z.eq_dec (contents (c_rbuf c)) [9; 7]) as [Ec|]; [|discriminate H1]. exists x, g, log, f, c. split; [exact R|]. split; [exact Es|]. split; [lia|]. split; [exact Ec|].
  exact (proj1 (reads_as_ok _ _ _ _ H0)).
Qed.

Print Assumptions c80_sub_full.
Print Assumptions c80_sub_disconnect.
Print Assumptions c80_sub_data.
Print Assumptions c80_pub_full.
Print Assumptions c80_pub_disconnect.
Print Assumptions c80_pub_data.
Print Assumptions c80_pub_garbage_stays.
