(** PropRecover.v — C83: whatever the network has lost so far, the publisher and a subscriber can
    always make up for it: from every reachable state of the whole system there is a way on, made
    of timeouts, writes and reads only, after which the subscriber has everything it can get. *)
From Coq Require Import Sorting.Permutation Sorting.Sorted.
From Verif Require ListHeapProofs.
From Verif Require Import Base CircBuf CircBufProofs Wire ListHeap SeqList Pub SpecPub PubProofs PubTrace PropPub Sub SpecSub SubProofs SubTrace Proto SpecProto ProtoProofs ProtoRead
  Conn SpecConn ConnProofs Safe PubCtx SpecPubCtx PubCtxProofs PubCtxSteps PubCtxOwed PropPubCtx PropPubFlow PropPubTime PropPubMem SpecPubRecv PubRecv PropPubRecv PropCall PropTotal
  SubCtx SpecSubCtx SubSteps SubMem SubDecomp SubInv PropSubCtx SubRecv PropSubConn PropSubAck PropSubRecv PropTotalSub PropRead PropSubDeliver SpecSys SysProofs PropSys PropDrain PropSysRun.

(** ** Payloads fit, ids stay below 2^64 - 1 *)
Lemma reached_data x g log : reached x g log -> Forall (fun p => zlen p <= RMC_MAX_PAYLOAD) (g_data g) /\ zlen (g_data g) < 18446744073709551615.
Proof.
  intros R. split.
  2:{ destruct (reached_inv _ _ _ R) as (sp & L & Q & X). pose proof (mi_count _ _ _ _ (xi_mem _ _ _ _ _ _ _ X)). pose proof (i_nextr _ _ _ _ (xi_pub _ _ _ _ _ _ _ X)). lia. }
  destruct R as (x0 & ops & F & H). induction H as [|ops x g log o code x' evs H IH Hok E]; [constructor|].
  destruct o; cbn [g_next g_data]; try exact IH. destruct (code =? 0) eqn:Ec; [|exact IH]. destruct announce; [exact IH|].
  cbn [g_data]. apply Forall_app. split; [exact IH|]. constructor; [|constructor]. cbn [xok xstep] in *. destruct Hok as ((Hl & Hu) & _ & Hp).
  destruct (Z.eq_dec ptr 0) as [->|N0]; [cbn in E; exfalso; assert (code = EINVAL) as -> by congruence; discriminate Ec|].
  destruct (Hp N0) as ((bs & -> & Hb) & _). rewrite zlen_ztake by lia.
  destruct (Z.leb_spec len RMC_MAX_PAYLOAD) as [L|L]; [exact L|]. rewrite (c11_too_long_refused x ptr len false N0 L) in E. exfalso. assert (code = EMSGSIZE) as -> by congruence. discriminate Ec.
Qed.
Lemma carrier_bounds x g log c : reached x g log -> carrier (g_data g) c ->
  exists h p, c = CmdPacket h p /\ cmd_ok c /\ good_pid (h_pid h) /\ zlen (wire c) <= RMC_MAX_PACKET - 1.
Proof.
  intros R (h & p & -> & H1 & H2 & H3). exists h, p. split; [reflexivity|]. split; [exact H3|]. destruct (reached_data _ _ _ R) as [D1 D2].
  assert (Hl : (Z.to_nat (h_pid h - 1) < length (g_data g))%nat) by (apply nth_error_Some; congruence). split; [unfold good_pid; unfold zlen in D2; lia|].
  rewrite Forall_forall in D1. specialize (D1 p (nth_error_In _ _ H2)). cbn [wire]. rewrite !zlen_cons, zlen_app, enc_header_zlen. unfold RMC_MAX_PACKET, RMC_MAX_PAYLOAD in *. lia.
Qed.

(** ** The subscriber reads one packet command *)
(** There is always memory to be had. *)
Definition plenty (x : sctx) : Prop := forall n, exists p, n < p /\ t_mem x p = None.
Lemma plenty_gen x x' L : plenty x -> (forall q, L < q -> t_mem x q = None -> t_mem x' q = None) -> plenty x'.
Proof. intros P H n. destruct (P (Z.max n L)) as (p & H1 & H2). exists p. split; [lia|]. apply H; [lia|exact H2]. Qed.
Lemma free_mem_none l : forall m q, m q = None -> free_mem m l q = None.
Proof. induction l as [|p l IH]; intros m q H; [exact H|]. cbn [free_mem fold_left]. apply IH. unfold tupd. destruct (_ =? _); [reflexivity|exact H]. Qed.
Lemma ustep_plenty r log x evs x' : plenty x -> ustep r log x evs x' -> plenty x'.
Proof.
  intros P Hu.
  assert (Same : t_mem x' = t_mem x -> plenty x') by (intros E; unfold plenty; rewrite E; exact P).
  destruct Hu; try (apply Same; reflexivity || assumption).
  - subst x'. apply (plenty_gen x _ ptr P). intros q Hq Hn. cbn [t_mem]. subst m. unfold tupd. replace (q =? ptr) with false by lia. exact Hn.
  - apply (plenty_gen x _ 0 P). intros q Hq Hn. cbn [set_tmem t_mem]. unfold tupd. destruct (q =? _); [reflexivity|exact Hn].
  - apply (plenty_gen x _ 0 P). intros q Hq Hn. cbn [set_tmem t_mem]. apply free_mem_none. exact Hn.
  - apply (plenty_gen x _ 0 P). intros q Hq Hn. cbn [set_tmem t_mem]. unfold tupd. destruct (q =? _); [reflexivity|exact Hn].
Qed.
Lemma usteps_plenty r log x evs x' : plenty x -> usteps r log x evs x' -> plenty x'.
Proof. intros P H. induction H as [|evs x1 evs1 x2 H IH Hu]; [exact P|]. exact (ustep_plenty _ _ _ _ _ IH Hu). Qed.

(** The effects of receiving packet [k] that is not new bytes. *)
Definition tame (k : Z) (e : sev) : Prop :=
  match e with
  | SvAlloc _ _ | SvPut _ _ _ | SvReady => True
  | SvGot _ pid _ _ => pid = k
  | SvConn (EvMod _ _ _ _) => True
  | _ => False
  end.
Lemma proc_tame k x i x' evs : process_received x i = Ok (x', evs) -> Forall (tame k) evs.
Proof.
  unfold process_received. destruct (get_spub x i) as [s| | |]; cbn [bind]; [|discriminate..]. destruct (sub_process s) as [s' out]. intros E. injection E as _ <-.
  apply Forall_forall. intros e He. apply in_map_iff in He. destruct He as (p & <- & _). exact Logic.I.
Qed.
Lemma accept_tame x i k bs mc ptr now x' evs : accept_packet x i k bs mc (mkAi ptr now []) = Ok (x', evs) -> Forall (tame k) evs.
Proof.
  unfold accept_packet. cbn [ai_ptr ai_now ai_ops]. destruct (_ || _); [discriminate|]. cbv zeta.
  match goal with |- context [bind ?h _] => destruct h as [x2| | |] end; cbn [bind]; [|discriminate..].
  destruct (process_received x2 i) as [[x3 e3]| | |] eqn:E3; cbn [bind fst snd]; [|discriminate..]. pose proof (proc_tame k _ _ _ _ E3) as T.
  destruct (_ && _); cbn [ready_cb bind fst snd]; intros E; injection E as _ <-.
  - constructor; [exact Logic.I|]. constructor; [reflexivity|]. apply Forall_app. split; [exact T|]. repeat constructor.
  - constructor; [exact Logic.I|]. constructor; [reflexivity|exact T].
Qed.
Lemma tame_recv k i evs : Forall (tame k) evs -> forall T, ts_recv (fold_left (ts_ev i) evs T) = ts_recv T.
Proof.
  induction 1 as [|e l H _ IH]; intros T; [reflexivity|]. cbn [fold_left]. rewrite IH. destruct T. destruct e as [[]| | | | | | | | | | | | | | |]; try destruct H; cbn [ts_ev]; try reflexivity; destruct (_ =? _); reflexivity.
Qed.
Lemma tame_adds k i evs : Forall (tame k) evs -> adds i evs = false.
Proof. induction 1 as [|e l H _ IH]; [reflexivity|]. cbn [adds existsb]. unfold adds in IH. rewrite IH. destruct e as [[]| | | | | | | | | | | | | | |]; try destruct H; reflexivity. Qed.
Lemma tame_genuine own y k evs : Forall (tame k) evs -> Forall (genuine own y) evs.
Proof. apply Forall_impl. intros e H. destruct e; try destruct H; exact Logic.I. Qed.
Lemma tame_ids k evs : good_pid k -> Forall (tame k) evs -> good_ids evs.
Proof. intros G. apply Forall_impl. intros e H. destruct e; try exact Logic.I. cbn in *. subst. exact G. Qed.
Lemma run_tame i x got ptr now h p x' evs ins : run_cmds (sub_eff (tcp_dup i) (tcp_eff i)) (x, got, [mkAi ptr now []]) [CmdPacket h p] = Ok (x', evs, ins) ->
  exists e, evs = got ++ e /\ Forall (tame (h_pid h)) e.
Proof.
  cbn [run_cmds sub_eff]. destruct (tcp_dup i _ _).
  { cbn [bind]. intros E. injection E as _ <- _. exists []. rewrite app_nil_r. split; [reflexivity|constructor]. }
  cbn [tcp_eff fst snd]. destruct (accept_packet x i (h_pid h) p false (mkAi ptr now [])) as [[x1 e1]| | |] eqn:E1; cbn [bind fst snd]; [|discriminate..].
  intros E. injection E as _ <- _. exists e1. split; [reflexivity|exact (accept_tame _ _ _ _ _ _ _ _ _ E1)].
Qed.
Lemma wire_bytes h p : cmd_ok (CmdPacket h p) -> bytes_ok (wire (CmdPacket h p)).
Proof.
  intros (_ & _ & Hb). cbn [wire]. constructor; [unfold is_u8, RMC_CMD_PACKET; lia|]. apply Forall_app. split; [|exact Hb].
  unfold enc_header. repeat (apply Forall_app; split); apply le_bytes_ok.
Qed.
(** Reading one whole packet command, from an empty receive buffer, always works and empties it again. *)
Lemma sub_feed x log i c h p now : sreached true x log -> sconnected x i c -> contents (c_rbuf c) = [] -> plenty x ->
  cmd_ok (CmdPacket h p) -> zlen (wire (CmdPacket h p)) <= RMC_MAX_PACKET - 1 ->
  exists ptr x' evs tl rb, let o := YRead i (SrTcp (RData (wire (CmdPacket h p))) [mkAi ptr now []]) in
    yok x log o /\ read_good x o /\ ystep x o = Ok (0, x', evs) /\ evs = SvRecv i (wire (CmdPacket h p)) :: tl /\ Forall (tame (h_pid h)) tl /\
    sconnected x' i (set_rbuf c rb) /\ contents rb = [] /\ (forall j, 0 <= j -> j <> i -> slot (t_vec x') j = slot (t_vec x) j) /\ plenty x'.
Proof.
  intros R Hc He Pl Ok1 Hl. destruct (Pl 0) as (ptr & Hp1 & Hp2). set (bs := wire (CmdPacket h p)) in *. set (ins := [mkAi ptr now []]).
  pose proof (sreached_RW x log R i c (proj1 Hc)) as (W & Sz & Cb & S0). specialize (S0 He). destruct (sreached_inv true x log R) as (B & M & _).
  pose proof (slot_range _ _ _ (proj1 Hc)) as Rg. assert (Hb : bytes_ok bs) by (apply wire_bytes; exact Ok1).
  assert (Hne : bs <> []) by discriminate.
  assert (Av : circ_buf_available (c_rbuf c) = RMC_MAX_PACKET - 1) by (rewrite (available_val _ W), <- (contents_len _ W), Sz, He; reflexivity).
  assert (Et : ztake (circ_buf_available (c_rbuf c)) bs = bs) by (apply ztake_all; lia).
  assert (Hro : read_ok (cb_size (c_rbuf c)) (cb_start (c_rbuf c)) (circ_buf_in_use (c_rbuf c) + zlen (ztake (circ_buf_available (c_rbuf c)) bs))).
  { left. rewrite S0, <- (contents_len _ W), He, Et. pose proof (zlen_nonneg bs). change (zlen (@nil Z)) with 0. lia. }
  assert (Sz16 : 0 <= i < 65536). { pose proof (tv_size _ (bi_vec _ B)). unfold RMC_LISTEN_INDEX in *. lia. }
  assert (P : parses for_sub (contents (c_rbuf c) ++ ztake (circ_buf_available (c_rbuf c)) bs) [CmdPacket h p] []).
  { rewrite He, Et. split; [cbn [flat_map app]; rewrite !app_nil_r; reflexivity|]. split; [constructor; [split; [exact Ok1|exact Logic.I]|constructor]|].
    intros c0 rest _ _ E. apply (f_equal zlen) in E. rewrite zlen_app in E. pose proof (wire_len c0). pose proof (zlen_nonneg rest). change (zlen (@nil Z)) with 0 in E. lia. }
  pose proof (us_size_calm (Some i) log x [SvRecv i bs] ltac:(constructor; [split; [reflexivity|eauto]|constructor])) as U0.
  pose proof (tcp_read_total (sub_dispatch (tcp_dup i) (tcp_eff i)) (sub_eff (tcp_dup i) (tcp_eff i)) for_sub sub_next false sub_next_sound sub_next_complete
      (fun st rb c rest W B N _ => sub_handler_cmd (tcp_dup i) (tcp_eff i) st rb c rest W B N) (sub_handler_more (tcp_dup i) (tcp_eff i)) (sub_handler_bad (tcp_dup i) (tcp_eff i))
      (x, [SvRecv i bs], ins) (c_rbuf c) bs [CmdPacket h p] [] W Cb Hb Hne ltac:(rewrite Av; unfold RMC_MAX_PACKET; lia) Hro P ltac:(discriminate)) as Tt.
  destruct (sub_run_out x log i c B M Hc [CmdPacket h p] x [SvRecv i bs] ins ltac:(repeat constructor) U0 eq_refl) as [[(x1 & e1 & i1 & E1 & U1 & V1)|E1] A2].
  2:{ exfalso. apply A2; [|cbn; lia|exact E1]. split; [repeat constructor; intros []|]. constructor; [|constructor]. split; [cbn [ai_ptr]; lia|exact Hp2]. }
  rewrite E1 in Tt. destruct Tt as (rb' & Er & W' & Z' & C' & S0').
  destruct (run_tame i x [SvRecv i bs] ptr now h p x1 e1 i1 E1) as (tl1 & -> & T1).
  set (x2 := set_tvec x1 (put_slot (t_vec x1) i (set_rbuf c rb'))).
  assert (Hc1 : sconnected x1 i c) by (unfold sconnected; rewrite V1; exact Hc).
  assert (U2 : usteps (Some i) log x ([SvRecv i bs] ++ tl1) x2).
  { rewrite <- (app_nil_r ([SvRecv i bs] ++ tl1)). eapply us_then; [exact U1|]. exact (u_rbuf (Some i) _ x1 i c rb' eq_refl Hc1). }
  assert (Hc2 : sconnected x2 i (set_rbuf c rb')).
  { split; [unfold x2; cbn [set_tvec t_vec]; apply slot_put_same; rewrite V1; exact Rg|exact (proj2 Hc)]. }
  destruct (steps_BMI _ log x _ x2 B M U2) as [B2 M2]. destruct (conn_spub x2 i _ B2 Hc2) as [s Hsp].
  assert (Pr : exists x3 e3, process_received x2 i = Ok (x3, e3)).
  { unfold process_received. rewrite (get_spub_some x2 i s B2 Hsp). cbn [bind]. destruct (sub_process s). do 2 eexists. reflexivity. }
  destruct Pr as (x3 & e3 & Pr). pose proof (proc_dec (Some i) x2 (log ++ [SvRecv i bs] ++ tl1) i _ B2 Hc2) as Pd. rewrite Pr in Pd. cbn [fst snd ssafe] in Pd. destruct Pd as [U3 V3].
  pose proof (proc_tame (h_pid h) _ _ _ _ Pr) as T3.
  exists ptr, x3, (([SvRecv i bs] ++ tl1) ++ e3 ++ [SvConn (EvMod (c_desc c) i POLLREAD POLLREAD)]), (tl1 ++ e3 ++ [SvConn (EvMod (c_desc c) i POLLREAD POLLREAD)]), rb'. cbv zeta.
  split; [cbn [yok]; split; [exact Sz16|exact Hb]|].
  split. { cbn [read_good]. intros c0 Hs0 _ _. assert (c0 = c) as -> by (destruct Hc; congruence). rewrite <- Sz. exact Hro. }
  split.
  { cbn [ystep rmc_sub_read]. rewrite (sub_open x i c (proj1 Hc) (connected_mode x i c Hc)). cbn [bind]. rewrite (proj2 Hc), Z.eqb_refl. cbn [negb]. cbv zeta.
    match goal with |- context [tcp_read _ (x, ?g, _) _ _] => assert (Eg : g = [SvRecv i bs]) end.
    { transitivity [SvRecv i (ztake (circ_buf_available (c_rbuf c)) bs)]; [reflexivity|rewrite Et; reflexivity]. }
    rewrite Eg. unfold ins in Er. rewrite Er. cbn [bind r_st r_code r_op r_buf]. change (left_code sub_next []) with 0. cbn [Z.eqb]. fold x2. rewrite Pr. reflexivity. }
  split; [cbn [app]; reflexivity|]. split; [apply Forall_app; split; [exact T1|apply Forall_app; split; [exact T3|repeat constructor]]|].
  split; [unfold sconnected; rewrite V3; exact Hc2|]. split; [exact C'|]. split.
  - intros j Hj Nj. rewrite V3. unfold x2. cbn [set_tvec t_vec]. rewrite slot_put_other by lia. rewrite V1. reflexivity.
  - exact (usteps_plenty _ _ _ _ _ (usteps_plenty _ _ _ _ _ Pl U2) U3).
Qed.

(** ** The system *)
Section Recover.
Variable own : Z * Z -> bool.

(** A run in which only this happens: the publisher writes to its subscribers' sockets and processes
    timeouts when no announce is due, and subscribers read their control connections. *)
Inductive recovery (y : sys) : sys -> Prop :=
| rec_none : recovery y y
| rec_write y1 k w code x' evs : let o := XWrite k (WrTcp w) in recovery y y1 -> xstep (sy_pub y1) o = Ok (code, x', evs) ->
    sys_step own y1 (pub_next_sys y1 o code x' evs) -> recovery y (pub_next_sys y1 o code x' evs)
| rec_timeout y1 now buf a code x' evs : let o := XTimeout now buf a in recovery y y1 -> announce_due (sy_pub y1) now = false ->
    xstep (sy_pub y1) o = Ok (code, x', evs) ->
    sys_step own y1 (pub_next_sys y1 o code x' evs) -> recovery y (pub_next_sys y1 o code x' evs)
| rec_read y1 s i bs ins code x' evs : let o := YRead i (SrTcp (RData bs) ins) in recovery y y1 -> ystep (sy_sub y1 s) o = Ok (code, x', evs) ->
    sys_step own y1 (sub_next_sys y1 s x' evs) -> recovery y (sub_next_sys y1 s x' evs).
Lemma recovery_trans y y1 y2 : recovery y y1 -> recovery y1 y2 -> recovery y y2.
Proof. intros H H2. induction H2; [exact H|eapply rec_write|eapply rec_timeout|eapply rec_read]; eauto. Qed.
Lemma recovery_reached y y' : sys_reached own y -> recovery y y' -> sys_reached own y'.
Proof. intros R H. induction H; [exact R|..]; eapply sr_step; eassumption. Qed.

(** Connection [i] of subscriber [s] leads to the publisher and the subscriber has not read an
    incomplete packet from it. *)
Definition ready_at (y : sys) (s : nat) (i : Z) : Prop :=
  good_ids (sy_slog y s) /\ plenty (sy_sub y s) /\
  exists c, sconnected (sy_sub y s) i c /\ own (c_addr c, c_port c) = true /\ contents (c_rbuf c) = [].
Lemma filter_all {X} (f : X -> bool) l : (forall a, In a l -> f a = true) -> filter f l = l.
Proof. induction l as [|a l IH]; intros H; [reflexivity|]. cbn [filter]. rewrite (H a (or_introl eq_refl)). f_equal. apply IH. intros b Hb. apply H. right. exact Hb. Qed.

(** *** The publisher's part *)
Definition still (e : pev) : Prop := match e with PvConn (EvMod _ _ _ _) | PvFree _ _ | PvTcp _ _ => True | _ => False end.
Lemma still_opens k evs : Forall still evs -> existsb (opens_at k) evs = false.
Proof. induction 1 as [|e l H _ IH]; [reflexivity|]. cbn [existsb]. rewrite IH. destruct e as [[]| | | | | | |]; try destruct H; reflexivity. Qed.
Lemma still_cast k evs : Forall still evs -> forall T, s_cast (fold_left (since_ev k) evs T) = s_cast T.
Proof. induction 1 as [|e l H _ IH]; intros T; [reflexivity|]. cbn [fold_left]. rewrite IH. destruct e as [[]| | | | | | |]; try destruct H; cbn [since_ev]; try reflexivity; destruct (_ =? _); reflexivity. Qed.
Lemma write_still x i w code x' evs : xstep x (XWrite i (WrTcp w)) = Ok (code, x', evs) -> Forall still evs.
Proof.
  cbn [xstep rmc_pub_write]. destruct (_ <=? _); [cbn [bind]; intros E; injection E as _ _ <-; constructor|].
  destruct (find_by_index _ _) as [[c|]| | |]; cbn [bind]; [|intros E; injection E as _ _ <-; constructor|discriminate..].
  destruct (negb _); [cbn [bind]; intros E; injection E as _ _ <-; constructor|]. destruct (_ =? 0); [cbn [bind]; intros E; injection E as _ _ <-; constructor|].
  destruct (tcp_write _ _) as [r| | |]; cbn [bind]; [|discriminate..]. intros E. injection E as _ _ <-. repeat constructor.
Qed.
Lemma pub_still y o code x' evs : sys_reached own y -> xok (sy_pub y) (sy_g y) o -> xstep (sy_pub y) o = Ok (code, x', evs) -> Forall still evs ->
  (forall k, connected (sy_pub y) k -> connected x' k) -> (forall bs i, o <> XRead i (RdTcp (RData bs))) ->
  sys_step own y (pub_next_sys y o code x' evs) /\ sy_links (pub_next_sys y o code x' evs) = sy_links y.
Proof.
  intros R Hok E St Ck No. pose proof (reached_SysI own y R) as I. split.
  - constructor; [exact Hok| |exact E|].
    + destruct o as [| | |i [| |t]| | | | | | | |]; try exact Logic.I. destruct t as [|bs]; [exact Logic.I|]. destruct (No bs i eq_refl).
    + intros s i k Hl. unfold rcv_next. rewrite (still_opens k evs St). replace (taken (sy_pub y) o k) with (@nil Z); [rewrite app_nil_r; exact (proj2 (proj2 (si_link _ _ I s i k Hl)))|].
      destruct o as [| | |j [| |t]| | | | | | | |]; try reflexivity. destruct t as [|bs]; [reflexivity|]. destruct (No bs j eq_refl).
  - cbn [pub_next_sys sy_links]. apply filter_all. intros [[s i] k] Hl. cbn [snd]. rewrite (still_opens k evs St). rewrite (proj2 (is_connected_iff x' k)); [reflexivity|].
    apply Ck. exact (proj1 (si_link _ _ I s i k Hl)).
Qed.
Lemma lift_retry y n x' g' log' : sys_reached own y -> retry (sy_pub y) (sy_g y) (sy_plog y) n x' g' log' ->
  exists y', recovery y y' /\ sy_pub y' = x' /\ sy_g y' = g' /\ sy_plog y' = log' /\ sy_sub y' = sy_sub y /\ sy_slog y' = sy_slog y /\ sy_links y' = sy_links y /\
    (forall k, s_cast (since_open k log') = s_cast (since_open k (sy_plog y))).
Proof.
  intros R H. induction H as [|n x1 g1 log1 i o code x2 evs H IH Hok E|n x1 g1 log1 now buf o code x2 evs H IH Fl Du Ha Hok E].
  - exists y. split; [constructor|]. auto 10.
  - destruct IH as (y1 & Rc & <- & <- & <- & E4 & E5 & E6 & E7). pose proof (recovery_reached _ _ R Rc) as R1. pose proof (reached_SysI own _ R1) as I1. pose proof (preached_reached _ _ _ _ (si_pub _ _ I1)) as P1.
    destruct (write_facts _ _ _ _ _ _ _ _ P1 Hok E) as (_ & _ & (_ & _ & _ & _ & Sg) & _). pose proof (write_still _ _ _ _ _ _ E) as St.
    destruct (pub_still y1 (XWrite i (WrTcp o)) code x2 evs R1 Hok E St (fun k Hk => proj1 (proj2 Sg k Hk)) ltac:(discriminate)) as [S1 L1].
    exists (pub_next_sys y1 (XWrite i (WrTcp o)) code x2 evs). split; [exact (rec_write y y1 i o code x2 evs Rc E S1)|]. split; [reflexivity|]. split; [reflexivity|]. split; [reflexivity|]. split; [exact E4|]. split; [exact E5|]. split; [rewrite L1; exact E6|].
    intros k. rewrite <- E7, since_app. apply still_cast. exact St.
  - destruct IH as (y1 & Rc & <- & <- & <- & E4 & E5 & E6 & E7). pose proof (recovery_reached _ _ R Rc) as R1. pose proof (reached_SysI own _ R1) as I1. pose proof (preached_reached _ _ _ _ (si_pub _ _ I1)) as P1.
    destruct (timeout_PG _ _ _ _ _ _ _ _ _ P1 Ha Hok E) as (_ & _ & _ & _ & Sg).
    assert (St : Forall still evs) by (eapply Forall_impl; [|exact (timeout_calm _ _ _ _ _ _ _ Ha E)]; intros e He; destruct e as [[]| | | | | | |]; try destruct He; exact Logic.I).
    destruct (pub_still y1 (XTimeout now buf o) code x2 evs R1 Hok E St (fun k Hk => proj1 (proj2 Sg k Hk)) ltac:(discriminate)) as [S1 L1].
    exists (pub_next_sys y1 (XTimeout now buf o) code x2 evs). split; [exact (rec_timeout y y1 now buf o code x2 evs Rc Ha E S1)|]. split; [reflexivity|]. split; [reflexivity|]. split; [reflexivity|]. split; [exact E4|]. split; [exact E5|]. split; [rewrite L1; exact E6|].
    intros k. rewrite <- E7, since_app. apply still_cast. exact St.
Qed.

(** *** The subscribers' part *)
Lemma tame_put k i evs : Forall (tame k) evs -> forall T, prefix (SpecSubCtx.ts_put T) (SpecSubCtx.ts_put (fold_left (ts_ev i) evs T)).
Proof.
  induction 1 as [|e l H _ IH]; intros T; [apply prefix_refl|]. cbn [fold_left]. eapply prefix_trans; [|apply IH]. destruct T. destruct e as [[]| | | | | | | | | | | | | | |]; try destruct H; cbn [ts_ev]; try apply prefix_refl; destruct (_ =? _); cbn [SpecSubCtx.ts_put]; try apply prefix_refl; apply prefix_app.
Qed.
(** One packet is read. *)
Lemma read_one y s i h p w : sys_reached own y -> ready_at y s i -> carrier (queued_payloads y) (CmdPacket h p) ->
  sy_down y s i = ts_recv (ts_open i (sy_slog y s)) ++ wire (CmdPacket h p) ++ w ->
  exists y', recovery y y' /\ sy_pub y' = sy_pub y /\ sy_g y' = sy_g y /\ sy_plog y' = sy_plog y /\ sy_links y' = sy_links y /\ (forall t j, sy_down y' t j = sy_down y t j) /\
    ts_recv (ts_open i (sy_slog y' s)) = ts_recv (ts_open i (sy_slog y s)) ++ wire (CmdPacket h p) /\
    (forall t j, (t, j) <> (s, i) -> ts_recv (ts_open j (sy_slog y' t)) = ts_recv (ts_open j (sy_slog y t))) /\
    (forall t j, prefix (delivered_at y t j) (delivered_at y' t j)) /\
    (forall t j, ready_at y t j -> ready_at y' t j).
Proof.
  intros R (Gd & Pl & c & Hc & Ho & He) Ca Hd. pose proof (reached_SysI own y R) as I. pose proof (preached_reached _ _ _ _ (si_pub _ _ I)) as P1.
  destruct (carrier_bounds _ _ _ _ P1 Ca) as (h0 & p0 & E0 & Ok1 & Gp & Hl). assert (h0 = h /\ p0 = p) as [-> ->] by (split; congruence). clear E0.
  destruct (sub_feed (sy_sub y s) (sy_slog y s) i c h p 0 (si_sub _ _ I s) Hc He Pl Ok1 Hl) as (ptr & x' & evs & tl & rb & H). cbv zeta in H. set (bs := wire (CmdPacket h p)) in *.
  destruct H as (Yo & Rg & E & Ev & Tt & Hc' & He' & Sl & Pl').
  assert (Ad : forall j, adds j evs = false) by (intros j; rewrite Ev; exact (tame_adds _ j tl Tt)).
  assert (Rv : forall j, ts_recv (ts_open j (sy_slog y s ++ evs)) = ts_recv (ts_open j (sy_slog y s)) ++ if j =? i then bs else []).
  { intros j. unfold ts_open. rewrite fold_left_app, Ev. cbn [fold_left]. rewrite (tame_recv _ j tl Tt). destruct (fold_left (ts_ev j) (sy_slog y s) ts_empty). cbn [ts_ev]. rewrite (Z.eqb_sym j i). destruct (_ =? _); cbn [SpecSubCtx.ts_recv]; [reflexivity|symmetry; apply app_nil_r]. }
  assert (Dn : forall t j, sy_down (sub_next_sys y s x' evs) t j = sy_down y t j) by (intros t j; cbn [sub_next_sys sy_down]; rewrite Ad, andb_false_r; reflexivity).
  assert (St : sys_step own y (sub_next_sys y s x' evs)).
  { apply (sy_subscriber own y s (YRead i (SrTcp (RData bs) [mkAi ptr 0 []])) 0 x' evs Yo Rg E).
    - rewrite Ev. constructor; [exact Logic.I|]. exact (tame_genuine own y _ tl Tt).
    - intros j d Hj Hoj. rewrite Dn, Rv. destruct (Z.eqb_spec j i) as [->|N].
      + exists w. rewrite Hd, <- app_assoc. reflexivity.
      + rewrite app_nil_r. apply (si_recv _ _ I s j d); [|exact Hoj]. destruct Hj as [Hj Hm]. split; [|exact Hm]. rewrite <- (Sl j); [exact Hj|exact (proj1 (slot_range _ _ _ Hj))|exact N]. }
  exists (sub_next_sys y s x' evs). split; [exact (rec_read y y s i bs _ 0 x' evs (rec_none y) E St)|]. do 3 (split; [reflexivity|]).
  split; [cbn [sub_next_sys sy_links]; apply filter_all; intros l _; rewrite Ad, andb_false_r; reflexivity|]. split; [exact Dn|].
  unfold delivered_at, ready_at. cbn [sub_next_sys sy_slog sy_sub]. split; [|split; [|split]].
  - rewrite supd_same, Rv, Z.eqb_refl. reflexivity.
  - intros t j N. destruct (Nat.eq_dec t s) as [->|Nt]; [|rewrite supd_other by exact Nt; reflexivity]. rewrite supd_same, Rv. destruct (Z.eqb_spec j i) as [->|_]; [contradiction|]. apply app_nil_r.
  - intros t j. destruct (Nat.eq_dec t s) as [->|Nt]; [|rewrite supd_other by exact Nt; apply prefix_refl]. rewrite supd_same. unfold ts_open. rewrite fold_left_app, Ev. cbn [fold_left]. eapply prefix_trans; [|apply (tame_put _ j tl Tt)].
    destruct (fold_left (ts_ev j) (sy_slog y s) ts_empty). cbn [ts_ev]. destruct (_ =? _); apply prefix_refl.
  - intros t j (A1 & A2 & d & A3 & A4 & A5). destruct (Nat.eq_dec t s) as [->|Nt]; [|rewrite !supd_other by exact Nt; split; [exact A1|split; [exact A2|eauto]]]. rewrite !supd_same.
    split; [apply Forall_app; split; [exact A1|]; rewrite Ev; constructor; [exact Logic.I|exact (tame_ids _ tl Gp Tt)]|]. split; [exact Pl'|].
    destruct (Z.eq_dec j i) as [->|N].
    + exists (set_rbuf c rb). split; [exact Hc'|]. split; [exact Ho|exact He'].
    + exists d. split; [|auto]. destruct A3 as [A3 Am]. split; [|exact Am]. rewrite Sl; [exact A3|exact (proj1 (slot_range _ _ _ A3))|exact N].
Qed.
(** All that was sent to a connection is read. *)
Lemma read_rest : forall cmds y s i, sys_reached own y -> ready_at y s i -> Forall (carrier (queued_payloads y)) cmds ->
  sy_down y s i = ts_recv (ts_open i (sy_slog y s)) ++ flat_map wire cmds ->
  exists y', recovery y y' /\ sy_pub y' = sy_pub y /\ sy_g y' = sy_g y /\ sy_plog y' = sy_plog y /\ sy_links y' = sy_links y /\ (forall t j, sy_down y' t j = sy_down y t j) /\
    ts_recv (ts_open i (sy_slog y' s)) = sy_down y' s i /\
    (forall t j, (t, j) <> (s, i) -> ts_recv (ts_open j (sy_slog y' t)) = ts_recv (ts_open j (sy_slog y t))) /\
    (forall t j, prefix (delivered_at y t j) (delivered_at y' t j)) /\
    (forall t j, ready_at y t j -> ready_at y' t j).
Proof.
  induction cmds as [|c cmds IH]; intros y s i R Ha F Hd.
  - exists y. split; [constructor|]. do 4 (split; [reflexivity|]). split; [reflexivity|]. split; [rewrite Hd; cbn [flat_map]; rewrite app_nil_r; reflexivity|]. split; [reflexivity|]. split; [intros; apply prefix_refl|auto].
  - apply Forall_cons_iff in F. destruct F as [F1 F2]. pose proof F1 as (h & p & -> & _).
    destruct (read_one y s i h p (flat_map wire cmds) R Ha F1 Hd) as (y1 & Rc & E1 & E2 & E3 & E4 & E5 & E6 & E7 & E8 & E9).
    destruct (IH y1 s i (recovery_reached _ _ R Rc) (E9 s i Ha)) as (y2 & Rc2 & A1 & A2 & A3 & A4 & A5 & A6 & A7 & A8 & A9).
    { unfold queued_payloads. rewrite E2. exact F2. }
    { rewrite E5, E6, Hd. cbn [flat_map]. rewrite <- app_assoc. reflexivity. }
    exists y2. split; [exact (recovery_trans _ _ _ Rc Rc2)|]. split; [congruence|]. split; [congruence|]. split; [congruence|]. split; [congruence|]. split; [intros; rewrite A5; apply E5|].
    split; [exact A6|]. split; [intros t j N; rewrite (A7 t j N); exact (E7 t j N)|]. split; [intros t j; exact (prefix_trans _ _ _ (E8 t j) (A8 t j))|auto].
Qed.
(** The same for several connections of several subscribers. *)
Lemma read_links : forall ls y, sys_reached own y -> flushed (sy_pub y) -> (forall s i k, In (s, i, k) ls -> In (s, i, k) (sy_links y) /\ ready_at y s i) ->
  exists y', recovery y y' /\ sy_pub y' = sy_pub y /\ sy_g y' = sy_g y /\ sy_plog y' = sy_plog y /\ sy_links y' = sy_links y /\
    (forall s i k, In (s, i, k) ls -> ts_recv (ts_open i (sy_slog y' s)) = sy_down y' s i) /\
    (forall t j, prefix (delivered_at y t j) (delivered_at y' t j)) /\
    (forall t j, ready_at y t j -> ready_at y' t j).
Proof.
  induction ls as [|[[s i] k] ls IH]; intros y R Fl Hl.
  - exists y. split; [constructor|]. do 4 (split; [reflexivity|]). split; [intros s i k []|]. split; [intros; apply prefix_refl|auto].
  - destruct (IH y R Fl (fun s i k H => Hl s i k (or_intror H))) as (y1 & Rc & E1 & E2 & E3 & E4 & E5 & E6 & E7). destruct (Hl s i k (or_introl eq_refl)) as [Hin Hr0].
    pose proof (E7 s i Hr0) as Hr. pose proof (recovery_reached _ _ R Rc) as R1. pose proof (reached_SysI own _ R1) as I1. pose proof (preached_reached _ _ _ _ (si_pub _ _ I1)) as P1.
    pose proof Hr as (Gd & _ & c & Hc & Ho & He). rewrite <- E4 in Hin. destruct (si_link _ _ I1 s i k Hin) as (Ck & Ed & _).
    destruct (c64_nothing_forgotten _ _ _ k P1 Ck) as (all & (pc & Ps & Es) & Fc & _). assert (Hw : contents (c_wbuf pc) = []).
    { destruct Ck as (pc' & Ps' & Pm). assert (pc' = pc) as -> by congruence. apply (Fl k pc); [rewrite <- E1; exact Ps|exact Pm]. }
    rewrite Hw, app_nil_r, <- Ed in Es.
    assert (Fa : Forall (carrier (queued_payloads y1)) all) by (eapply Forall_impl; [|exact Fc]; intros m (k' & Hm); exact (packet_carrier _ _ _ _ _ Hm)).
    destruct (sreached_RI _ _ (si_sub _ _ I1 s) Gd i c Hc) as [_ _ _ _ (cm & (Pe & Pf & _) & _)]. rewrite He, app_nil_r in Pe.
    destruct (si_recv _ _ I1 s i c Hc Ho) as [w Ew]. rewrite Es, Pe in Ew.
    destruct (stream_prefix cm all [] w Pf (carrier_good _ _ Fa) (eq_sym Ew)) as (more & Ea & Em). cbn [app] in Em.
    destruct (read_rest more y1 s i R1 Hr) as (y2 & Rc2 & A1 & A2 & A3 & A4 & A5 & A6 & A7 & A8 & A9).
    { rewrite Ea in Fa. apply Forall_app in Fa. exact (proj2 Fa). }
    { rewrite Es, Pe, Ea, flat_map_app. reflexivity. }
    exists y2. split; [exact (recovery_trans _ _ _ Rc Rc2)|]. split; [congruence|]. split; [congruence|]. split; [congruence|]. split; [congruence|]. split; [|split; [intros t j; exact (prefix_trans _ _ _ (E6 t j) (A8 t j))|auto]].
    intros t j l [Hd|Hd]; [injection Hd as <- <- <-; exact A6|]. destruct (Nat.eq_dec t s) as [->|Nt].
    + destruct (Z.eq_dec j i) as [->|Nj]; [exact A6|]. rewrite A7 by congruence. rewrite A5. exact (E5 _ _ _ Hd).
    + rewrite A7 by congruence. rewrite A5. exact (E5 _ _ _ Hd).
Qed.

(** ** The theorem *)
(** Whatever datagrams were lost, whatever is still owed: if no announce is due once all resend
    timers have run out, the run below makes good.  Afterwards no acknowledgement is owed, and each of the
    subscribers [ls] has received every packet multicast since the publisher accepted its
    connection, unless it is older than the first packet it was handed out; and from its first
    such packet on, it has been handed out all of them.  What it had got it keeps. *)
Theorem c83_recovers : forall y now buf ls, sys_reached own y ->
  clock_ok (sy_plog y) -> due (sy_pub y) now -> announce_due (sy_pub y) now = false -> buf <> 0 -> x_mem (sy_pub y) buf = None ->
  (forall s i k, In (s, i, k) ls -> In (s, i, k) (sy_links y) /\ ready_at y s i) ->
  exists y', recovery y y' /\ sy_links y' = sy_links y /\ queued_payloads y' = queued_payloads y /\ drained (sy_pub y') /\
    forall s i k, In (s, i, k) ls -> ready_at y' s i /\ tcp_quiet y' s i k /\ cast_since y' k = cast_since y k /\
      prefix (delivered_at y s i) (delivered_at y' s i) /\
      (forall n, In n (cast_since y k) -> In n (map fst (accepted_at y' s i)) \/ exists f bs rest, delivered_at y' s i = (f, bs) :: rest /\ n < f) /\
      (forall f bs rest n, delivered_at y' s i = (f, bs) :: rest -> In f (cast_since y k) -> In n (cast_since y k) -> f <= n ->
         In n (map fst (delivered_at y' s i))).
Proof.
  intros y now buf ls R C Du Ha Hb Hm Hls. pose proof (reached_SysI own y R) as I. pose proof (preached_reached _ _ _ _ (si_pub _ _ I)) as P.
  destruct (c82_can_always_drain _ _ _ now buf P C Du Ha Hb Hm) as (l & n & x' & g' & log' & _ & _ & Tr & Dr & Fl).
  destruct (retry_PG _ _ _ _ _ _ _ P Tr) as (_ & Gd & _).
  destruct (lift_retry y n x' g' log' R Tr) as (y1 & Rc1 & <- & <- & <- & B4 & B5 & B6 & B7). pose proof (recovery_reached _ _ R Rc1) as R1.
  assert (Rd1 : forall s i, ready_at y s i -> ready_at y1 s i) by (unfold ready_at; rewrite B4, B5; auto).
  destruct (read_links ls y1 R1 Fl) as (y2 & Rc2 & E1 & E2 & E3 & E4 & E5 & E6 & E7).
  { intros s i k H. destruct (Hls s i k H). split; [rewrite B6; assumption|auto]. }
  pose proof (recovery_trans _ _ _ Rc1 Rc2) as Rc. pose proof (recovery_reached _ _ R Rc) as R2. pose proof (reached_SysI own y2 R2) as I2.
  exists y2. split; [exact Rc|]. split; [congruence|]. split; [unfold queued_payloads; congruence|]. split; [rewrite E1; exact Dr|].
  intros s i k H. destruct (Hls s i k H) as [Hl Hr]. pose proof (E7 s i (Rd1 s i Hr)) as Hr2. pose proof Hr2 as (G2 & _ & c & Hc & Ho & _). assert (At : at_publisher own y2 s i) by (exists c; auto).
  assert (Hl2 : In (s, i, k) (sy_links y2)) by (rewrite E4, B6; exact Hl). destruct (si_link _ _ I2 s i k Hl2) as (Ck & _). pose proof Ck as (pc & Ps & Pm).
  assert (Q : tcp_quiet y2 s i k). { split; [exists pc; split; [exact Ps|apply (Fl k pc); [rewrite <- E1; exact Ps|exact Pm]]|exact (E5 s i k H)]. }
  assert (Cs : cast_since y2 k = cast_since y k) by (unfold cast_since; rewrite E3, B7; reflexivity).
  assert (Nk : forall m, ~ owes (sy_pub y2) k m) by (intros m; rewrite E1; apply Dr; exact (proj1 (slot_range _ _ _ Ps))).
  split; [exact Hr2|]. split; [exact Q|]. split; [exact Cs|]. split; [unfold delivered_at in *; rewrite <- B5; apply E6|]. split.
  - intros m Hn. rewrite <- Cs in Hn. exact (c57_all_arrived_partial own y2 s i k m R2 G2 At Hl2 Q (Nk m) Hn).
  - intros f bs rest m Ed Hf Hn Hle. rewrite <- Cs in Hf, Hn. exact (c57_from_registration_partial own y2 s i k f bs rest m R2 G2 At Hl2 Q Nk Ed Hf Hn Hle).
Qed.
(** So a publisher that does not announce can always make good, whatever happened. *)
Lemma due_some x g log : reached x g log -> exists now, due x now.
Proof.
  intros R. pose proof (sinf_beyond x g log R) as Hb. set (L := flat_map (fun n => map (ts_of (x_pub x)) (p_sinf (x_pub x) n)) (seq 0 (length (v_conns (x_vec x))))).
  exists (fold_right Z.max 0 L + x_resend x). intros i Hi k ts Ho. apply owed_at in Ho. destruct Ho as (a & Ha & _ & <-).
  assert (Hin : In (ts_of (x_pub x) a) L).
  { apply in_flat_map. exists (Z.to_nat i). split; [|apply in_map; exact Ha]. apply in_seq. destruct (Nat.lt_ge_cases (Z.to_nat i) (length (v_conns (x_vec x)))) as [Q|Q]; [lia|rewrite (Hb _ Q) in Ha; destruct Ha]. }
  clear - Hin. induction L as [|b L IH]; [destruct Hin|]. cbn [fold_right]. destruct Hin as [->|Hin]; [lia|specialize (IH Hin); lia].
Qed.
Theorem c83_always_recoverable : forall y buf ls, sys_reached own y -> clock_ok (sy_plog y) -> x_aint (sy_pub y) = 0 -> buf <> 0 -> x_mem (sy_pub y) buf = None ->
  (forall s i k, In (s, i, k) ls -> In (s, i, k) (sy_links y) /\ ready_at y s i) ->
  exists y', recovery y y' /\ drained (sy_pub y') /\
    forall s i k, In (s, i, k) ls -> cast_since y' k = cast_since y k /\ prefix (delivered_at y s i) (delivered_at y' s i) /\
      (forall f bs rest n, delivered_at y' s i = (f, bs) :: rest -> In f (cast_since y k) -> In n (cast_since y k) -> f <= n ->
         exists p, In (n, p) (delivered_at y' s i) /\ nth_error (queued_payloads y) (Z.to_nat (n - 1)) = Some p).
Proof.
  intros y buf ls R C Ha Hb Hm Hls. destruct (due_some _ _ _ (preached_reached _ _ _ _ (si_pub _ _ (reached_SysI own y R)))) as [now Du].
  destruct (c83_recovers y now buf ls R C Du) as (y' & Rc & _ & Eq & Dr & H); auto; [unfold announce_due; rewrite Ha; reflexivity|]. exists y'. split; [exact Rc|]. split; [exact Dr|].
  intros s i k Hl. destruct (H s i k Hl) as ((Gd & _ & c & Hc & Ho & _) & _ & Cs & Pf & _ & H6). split; [exact Cs|]. split; [exact Pf|]. intros f bs rest n Ed Hf Hn Hle. pose proof (H6 f bs rest n Ed Hf Hn Hle) as Hd.
  apply in_map_iff in Hd. destruct Hd as ([n' p] & En & Hd). cbn [fst] in En. subst n'. exists p. split; [exact Hd|]. rewrite <- Eq.
  pose proof (recovery_reached _ _ R Rc) as R'. assert (At : at_publisher own y' s i) by (exists c; auto).
  apply (c55_accepted_genuine own y' s i n p R' Gd At). destruct (c72_contents true _ _ i c (si_sub _ _ (reached_SysI own y' R') s) Gd Hc) as (w & Pm & _).
  apply (Permutation_in _ (Permutation_sym Pm)). apply in_or_app. left. exact Hd.
Qed.
(** If memory could be allocated at first it can at any time. *)
Theorem c83_memory : forall y y' s, sys_reached own y -> plenty (sy_sub y s) -> sys_step own y y' -> plenty (sy_sub y' s).
Proof.
  intros y y' s R P H. destruct H as [o code x' evs _ _ _ _|t o code x' evs Hok Hg E _ _|t i k _ _ _ _ _ _]; [exact P| |exact P].
  cbn [sub_next_sys sy_sub]. destruct (Nat.eq_dec s t) as [->|N]; [rewrite supd_same|rewrite supd_other by exact N; exact P].
  destruct (sreached_inv _ _ _ (si_sub _ _ (reached_SysI own y R) t)) as (B & M & _). destruct (step_bmi _ _ _ _ _ _ B M Hok E) as (U & _). exact (usteps_plenty _ _ _ _ _ P U).
Qed.
End Recover.

(** ** A case *)
Lemma sysrun_plenty s : forall ops y y', sys_reached own77 y -> plenty (sy_sub y s) -> sysrun own77 y ops = Some y' -> plenty (sy_sub y' s).
Proof.
  induction ops as [|o ops IH]; intros y y' R P; cbn [sysrun]; [intros E; injection E as <-; exact P|]. destruct (sysstepb own77 y o) as [y1|] eqn:E1; [|discriminate].
  pose proof (sysstepb_ok own77 y o y1 E1) as S1. apply IH; [exact (sr_step _ _ _ R S1)|exact (c83_memory own77 y y1 s R P S1)].
Qed.
(** Packets 1 and 3 have arrived, 2 was lost; 1 is acknowledged.  The publisher resends 2 and 3, and
    the subscriber gets 2 and then 3. *)
Example c83_witness : exists y, sys_reached own77 y /\ sy_links y = [(0%nat, 0, 0)] /\ delivered_at y 0 0 = [(1, [10; 11])] /\ cast_since y 0 = [1; 2; 3] /\ ready_at own77 y 0 0 /\
  exists y', recovery own77 y y' /\ drained (sy_pub y') /\ In (2, [20; 21; 22]) (delivered_at y' 0 0) /\ In (3, [30]) (delivered_at y' 0 0).
Proof.
  destruct (sysrun own77 sys0 (firstn 22 sys_ops)) as [y|] eqn:Er; [|vm_compute in Er; discriminate Er].
  assert (R : sys_reached own77 y) by exact (sysrun_reached own77 _ _ _ sys0_reached Er).
  assert (Pl : plenty (sy_sub y 0%nat)). { apply (sysrun_plenty 0%nat _ _ _ sys0_reached) with (2 := Er). intros n. exists (n + 1). split; [lia|reflexivity]. }
  assert (H : goodidsb (sy_slog y 0%nat) = true /\
    match slot (t_vec (sy_sub y 0%nat)) 0 with Ok c => (c_mode c =? CONNECTED) && own77 (c_addr c, c_port c) && listb (contents (c_rbuf c)) [] | _ => false end = true /\
    sy_links y = [(0%nat, 0, 0)] /\ cast_since y 0 = [1; 2; 3] /\ delivered_at y 0 0 = [(1, [10; 11])] /\ x_aint (sy_pub y) = 0 /\ x_mem (sy_pub y) 900 = None /\
    flat_map cast_ts (sy_plog y) = [10; 1000; 2000; 3000] /\ queued_payloads y = [[10; 11]; [20; 21; 22]; [30]]).
  { change (match Some y with Some y => goodidsb (sy_slog y 0%nat) = true /\
    match slot (t_vec (sy_sub y 0%nat)) 0 with Ok c => (c_mode c =? CONNECTED) && own77 (c_addr c, c_port c) && listb (contents (c_rbuf c)) [] | _ => false end = true /\
    sy_links y = [(0%nat, 0, 0)] /\ cast_since y 0 = [1; 2; 3] /\ delivered_at y 0 0 = [(1, [10; 11])] /\ x_aint (sy_pub y) = 0 /\ x_mem (sy_pub y) 900 = None /\
    flat_map cast_ts (sy_plog y) = [10; 1000; 2000; 3000] /\ queued_payloads y = [[10; 11]; [20; 21; 22]; [30]] | None => False end). rewrite <- Er. clear. vm_compute. auto 12. }
  destruct H as (G & A & L & Cs & Dl & Ai & Mm & Ct & Qp).
  assert (Rd : ready_at own77 y 0 0).
  { split; [apply goodidsb_ok; exact G|]. split; [exact Pl|]. destruct (slot (t_vec (sy_sub y 0%nat)) 0) as [c| | |] eqn:Es; try discriminate A. apply andb_prop in A. destruct A as [A A3]. apply andb_prop in A. destruct A as [A1 A2].
    exists c. split; [split; [exact Es|lia]|]. split; [exact A2|apply listb_eq; exact A3]. }
  exists y. split; [exact R|]. split; [exact L|]. split; [exact Dl|]. split; [exact Cs|]. split; [exact Rd|].
  destruct (c83_always_recoverable own77 y 900 [(0%nat, 0, 0)] R) as (y' & Rc & Dr & H); [unfold clock_ok; rewrite Ct; repeat constructor; lia|exact Ai|discriminate|exact Mm| |].
  { intros s i k [E|[]]. injection E as <- <- <-. split; [rewrite L; left; reflexivity|exact Rd]. }
  exists y'. split; [exact Rc|]. split; [exact Dr|]. destruct (H 0%nat 0 0 (or_introl eq_refl)) as (_ & [w Pf] & H1). rewrite Dl in Pf. cbn [app] in Pf. rewrite Cs, Qp in H1.
  destruct (H1 1 [10; 11] w 2 Pf ltac:(cbn; auto) ltac:(cbn; auto) ltac:(lia)) as (p2 & P2 & E2). destruct (H1 1 [10; 11] w 3 Pf ltac:(cbn; auto) ltac:(cbn; auto) ltac:(lia)) as (p3 & P3 & E3).
  change (nth_error _ _) with (Some [20; 21; 22]) in E2. change (nth_error _ _) with (Some [30]) in E3. assert (p2 = [20; 21; 22]) as -> by congruence. assert (p3 = [30]) as -> by congruence. auto.
Qed.
Print Assumptions c83_recovers.
Print Assumptions c83_always_recoverable.
Print Assumptions c83_memory.
