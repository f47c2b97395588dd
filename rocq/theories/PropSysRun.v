(** PropSysRun.v — runs of the system of SpecSys.v: the hypotheses of the theorems of PropSys.v can
    be met, and the parts of C56 and C57 that are missing there are false. *)
From Verif Require Import Base CircBuf CircBufProofs Wire SeqList Pub Sub SpecSub Proto SpecProto
  Conn PubCtx SpecPubCtx PropPubCtx PropPubTime SpecPubRecv PropPubRecv
  SubCtx SpecSubCtx PropSubCtx PropSubRecv SpecSys PropSys.

(** ** Running the system *)
Inductive sysop := Pb (o : xop) | Sb (s : nat) (o : yop) | Lk (s : nat) (i k : Z).
Fixpoint prefixb (a b : list Z) : bool :=
  match a, b with [], _ => true | u :: a, v :: b => (u =? v) && prefixb a b | _, _ => false end.
Lemma prefixb_ok : forall a b, prefixb a b = true -> prefix a b.
Proof.
  induction a as [|u a IH]; intros b H; [exists b; reflexivity|]. destruct b as [|v b]; [discriminate|]. cbn [prefixb] in H.
  apply andb_prop in H. destruct H as [H1 H2]. apply Z.eqb_eq in H1. subst v. destruct (IH b H2) as [c ->]. exists c. reflexivity.
Qed.
Section Run.
Variable own : Z * Z -> bool.
Definition genuineb (y : sys) (e : sev) : bool :=
  match e with SvDgram src d => negb (own (origin src d)) || existsb (fun d0 => listb d (seen d0)) (flat_map cast_ev (sy_plog y)) | _ => true end.
Lemma genuineb_ok y e : genuineb y e = true -> genuine own y e.
Proof.
  destruct e; cbn [genuineb genuine]; try (intros _; exact Logic.I). intros H Ho. rewrite Ho in H. cbn [negb orb] in H. apply existsb_exists in H.
  destruct H as (d0 & H1 & H2). exists d0. split; [exact H1|]. apply listb_eq. exact H2.
Qed.
Definition sysstepb (y : sys) (o : sysop) : option sys :=
  match o with
  | Pb o => if xokb (sy_pub y) (sy_g y) o && pgoodb (sy_pub y) o then
      match xstep (sy_pub y) o with
      | Ok (code, x', evs) =>
          if forallb (fun l => prefixb (rcv_next (sy_rcv y) (sy_pub y) o evs (snd l)) (ts_sent (ts_open (snd (fst l)) (sy_slog y (fst (fst l)))))) (sy_links y)
          then Some (pub_next_sys y o code x' evs) else None
      | _ => None
      end else None
  | Sb s o => if yokb (sy_sub y s) (sy_slog y s) o && rgoodb (sy_sub y s) o then
      match ystep (sy_sub y s) o with
      | Ok (code, x', evs) =>
          if forallb (genuineb y) evs &&
             forallb (fun n => match slot (t_vec x') (Z.of_nat n) with
                               | Ok c => negb (c_mode c =? CONNECTED) || negb (own (c_addr c, c_port c)) ||
                                         prefixb (ts_recv (ts_open (Z.of_nat n) (sy_slog y s ++ evs))) (sy_down (sub_next_sys y s x' evs) s (Z.of_nat n))
                               | _ => true end) (seq 0 (length (v_conns (t_vec x'))))
          then Some (sub_next_sys y s x' evs) else None
      | _ => None
      end else None
  | Lk s i k => if is_connected (sy_pub y) k && listb (s_sent (since_open k (sy_plog y))) [] && listb (sy_rcv y k) [] &&
                   negb (zinb k (map snd (sy_links y))) && (match peer (sy_links y) s i with None => true | _ => false end) && listb (sy_down y s i) []
                then Some (mkSys (sy_pub y) (sy_g y) (sy_plog y) (sy_rcv y) (sy_sub y) (sy_slog y) ((s, i, k) :: sy_links y) (sy_down y)) else None
  end.
Lemma sysstepb_ok y o y' : sysstepb y o = Some y' -> sys_step own y y'.
Proof.
  destruct o as [o|s o|s i k]; cbn [sysstepb].
  - destruct (xokb _ _ _ && _) eqn:Ek; [|discriminate]. apply andb_prop in Ek. destruct Ek as [Ek Eg].
    destruct (xstep _ _) as [[[code x'] evs]| | |] eqn:Es; [|discriminate..]. destruct (forallb _ _) eqn:Ef; [|discriminate]. intros E. injection E as <-.
    econstructor; [apply xokb_ok; exact Ek|apply pgoodb_ok; exact Eg|exact Es|]. intros s i k Hl. rewrite forallb_forall in Ef. exact (prefixb_ok _ _ (Ef _ Hl)).
  - destruct (yokb _ _ _ && _) eqn:Ek; [|discriminate]. apply andb_prop in Ek. destruct Ek as [Ek Eg].
    destruct (ystep _ _) as [[[code x'] evs]| | |] eqn:Es; [|discriminate..]. destruct (_ && _) eqn:Ef; [|discriminate]. intros E. injection E as <-.
    apply andb_prop in Ef. destruct Ef as [F1 F2]. rewrite forallb_forall in F1, F2.
    econstructor; [apply yokb_ok; exact Ek|apply rgoodb_ok; exact Eg|exact Es| |].
    + apply Forall_forall. intros e He. apply genuineb_ok. exact (F1 e He).
    + intros i c [Hs Hm] Ho. pose proof (ConnProofs.slot_range _ _ _ Hs) as Hr. specialize (F2 (Z.to_nat i)). rewrite Z2Nat.id in F2 by lia. rewrite Hs in F2.
      replace (c_mode c =? CONNECTED) with true in F2 by lia. rewrite Ho in F2. cbn [negb orb] in F2. apply prefixb_ok. apply F2. apply in_seq.
      unfold v_size, zlen in Hr. lia.
  - intros E. destruct (_ && _) eqn:Ek in E; [|discriminate]. injection E as <-. repeat match goal with H : _ && _ = true |- _ => apply andb_prop in H; destruct H end.
    repeat match goal with H : listb _ _ = true |- _ => apply listb_eq in H end. constructor; try assumption.
    + apply zinb_false. apply negb_true_iff. assumption.
    + destruct (peer _ _ _); [discriminate|reflexivity].
Qed.
Fixpoint sysrun (y : sys) (ops : list sysop) : option sys :=
  match ops with [] => Some y | o :: ops => match sysstepb y o with Some y' => sysrun y' ops | None => None end end.
Lemma sysrun_reached : forall ops y y', sys_reached own y -> sysrun y ops = Some y' -> sys_reached own y'.
Proof.
  induction ops as [|o ops IH]; intros y y' R; cbn [sysrun]; [intros E; injection E as <-; exact R|]. destruct (sysstepb y o) as [y1|] eqn:E1; [|discriminate].
  apply IH. eapply sr_step; [exact R|apply (sysstepb_ok _ o); exact E1].
Qed.
End Run.

(** One publisher (two slots) at 77:4711, subscribers with three slots. *)
Definition own77 (ap : Z * Z) : bool := (fst ap =? 77) && (snd ap =? 4711).
Definition sys0 : sys := mkSys demo0 g_init [] (fun _ => []) (fun _ => sdemo0) (fun _ => []) [] (fun _ _ => []).
Lemma sys0_reached : sys_reached own77 sys0.
Proof.
  apply sr_init. unfold sys_init, sys0. cbn [sy_pub sy_g sy_plog sy_rcv sy_sub sy_slog sy_links sy_down]. split; [exact demo0_fresh|].
  do 3 (split; [reflexivity|]). split; [intros _; exact sdemo0_fresh|]. auto.
Qed.
Definition sys_start : list sysop :=
  [Pb (XActivate (ActOk 3 4 0)); Sb 0 (YActivate (SaOk 3)); Pb (XAlloc 50 [65]); Pb (XQueue 50 1 true); Pb (XWrite 0 (WrMcast [SndOk 10]))].
Definition send (ptr : Z) (bs : list Z) (ts : Z) : list sysop :=
  [Pb (XAlloc ptr bs); Pb (XQueue ptr (zlen bs) false); Pb (XWrite 0 (WrMcast [SndOk ts]))].
Definition join : list sysop :=
  [Sb 0 (mcast_in [ann 4]); Pb (XRead RMC_LISTEN_INDEX (RdAccept (AccOk 5 1 0) None)); Lk 0 0 0; Sb 0 (establish 0)].
(** The first packet arrives, the second is lost, the third arrives twice; the acks travel in two
    pieces; the second is resent over TCP, which delivers it in two pieces. *)
Definition sys_ops : list sysop :=
  sys_start ++ join ++ send 100 [10; 11] 1000 ++ send 200 [20; 21; 22] 2000 ++ send 300 [30] 3000 ++
  [Sb 0 (mcast_in [data 1 [10; 11] 100 1000 []; data 3 [30] 300 3100 []; data 3 [30] 301 3200 []]);
   Sb 0 (YTimeout 999999); Sb 0 (YWrite 0 (mkSw (CmpOk 0 0) (WOk 20)));
   Pb (XRead 0 (RdTcp (RData (ztake 20 (wire (CmdAck 1 1) ++ wire (CmdAck 3 3))))));
   Pb (XTimeout 500000 900 AnnNone); Pb (XWrite 0 (WrTcp (WOk 100)));
   Sb 0 (YRead 0 (SrTcp (RData (ztake 9 (wire (pcmd 3 [30])))) []));
   Sb 0 (YRead 0 (SrTcp (RData (zdrop 9 (wire (pcmd 3 [30])) ++ wire (pcmd 2 [20; 21; 22]))) [mkAi 200 4000 []]))].
(** The same with the announce received twice: two connections.  The multicast packet is accepted on
    the first, the publisher resends it on the second. *)
Definition twice_ops : list sysop :=
  sys_start ++ [Sb 0 (mcast_in [ann 4; ann 5]); Pb (XRead RMC_LISTEN_INDEX (RdAccept (AccOk 5 1 0) None)); Pb (XRead RMC_LISTEN_INDEX (RdAccept (AccOk 6 1 0) None));
    Lk 0 0 0; Lk 0 1 1; Sb 0 (establish 0); Sb 0 (establish 1)] ++ send 100 [10; 11] 1000 ++
  [Sb 0 (mcast_in [data 1 [10; 11] 100 1000 []]); Sb 0 (YTimeout 999999); Sb 0 (YWrite 0 (mkSw (CmpOk 0 0) (WOk 20)));
   Pb (XRead 0 (RdTcp (RData (wire (CmdAck 1 1)))));
   Pb (XTimeout 500000 900 AnnNone); Pb (XWrite 1 (WrTcp (WOk 100)));
   Sb 0 (YRead 1 (SrTcp (RData (wire (pcmd 1 [10; 11]))) [mkAi 200 4000 []]))].
(** The first packet is lost, the second is the first to arrive. *)
Definition late_ops : list sysop :=
  sys_start ++ join ++ send 100 [10; 11] 1000 ++ send 200 [20] 2000 ++
  [Sb 0 (mcast_in [data 2 [20] 200 3100 []]);
   Pb (XTimeout 500000 900 AnnNone); Pb (XWrite 0 (WrTcp (WOk 100)));
   Sb 0 (YRead 0 (SrTcp (RData (wire (pcmd 2 [20]) ++ wire (pcmd 1 [10; 11]))) [mkAi 300 4000 []]))].
(** Packet 1 arrives and packet 2 is lost between the completion of connect() at the subscriber and
    accept() at the publisher; packet 3 follows. *)
Definition gap_ops : list sysop :=
  sys_start ++ [Sb 0 (mcast_in [ann 4]); Sb 0 (establish 0)] ++ send 100 [10; 11] 1000 ++ send 200 [20] 2000 ++
  [Sb 0 (mcast_in [data 1 [10; 11] 100 1000 []]); Pb (XRead RMC_LISTEN_INDEX (RdAccept (AccOk 5 1 0) None)); Lk 0 0 0] ++ send 300 [30] 3000 ++
  [Sb 0 (mcast_in [data 3 [30] 300 1000 []]); Sb 0 (YTimeout 999999); Sb 0 (YWrite 0 (mkSw (CmpOk 0 0) (WOk 100)));
   Pb (XRead 0 (RdTcp (RData (wire (CmdAck 1 1) ++ wire (CmdAck 3 3)))))].

(** ** Reading off the final state *)
Definition goodidsb (log : list sev) : bool :=
  forallb (fun e => match e with SvGot _ pid _ _ => (1 <=? pid) && (pid <? 18446744073709551615) | _ => true end) log.
Lemma goodidsb_ok log : goodidsb log = true -> good_ids log.
Proof. intros H. apply Forall_forall. intros e He. unfold goodidsb in H. rewrite forallb_forall in H. specialize (H e He). destruct e; cbn; auto. unfold good_pid. lia. Qed.
(** Connection [i] of subscriber 0 leads to the publisher's connection [k], is established, owes
    nothing, and all bytes for it have arrived. *)
Definition quietb (y : sys) (i k : Z) : bool :=
  goodidsb (sy_slog y 0%nat) &&
  match slot (t_vec (sy_sub y 0%nat)) i with Ok c => (c_mode c =? CONNECTED) && own77 (c_addr c, c_port c) | _ => false end &&
  (match peer (sy_links y) 0 i with Some j => j =? k | None => false end) &&
  match slot (x_vec (sy_pub y)) k with Ok c => listb (contents (c_wbuf c)) [] | _ => false end &&
  listb (ts_recv (ts_open i (sy_slog y 0%nat))) (sy_down y 0%nat i) &&
  match p_sinf (x_pub (sy_pub y)) (Z.to_nat k) with [] => true | _ => false end.
Lemma quietb_ok y i k : quietb y i k = true ->
  good_ids (sy_slog y 0%nat) /\ at_publisher own77 y 0 i /\ In (0%nat, i, k) (sy_links y) /\ tcp_quiet y 0 i k /\ (forall m, ~ owes (sy_pub y) k m).
Proof.
  unfold quietb. intros H. repeat match goal with H : _ && _ = true |- _ => apply andb_prop in H; destruct H end.
  split; [apply goodidsb_ok; assumption|]. split; [|split; [|split]].
  - destruct (slot (t_vec (sy_sub y 0%nat)) i) as [c| | |] eqn:Es; try discriminate. exists c. match goal with H : _ && _ = true |- _ => apply andb_prop in H; destruct H end.
    split; [split; [exact Es|lia]|assumption].
  - destruct (peer _ _ _) as [j|] eqn:Ep; [|discriminate]. apply SysProofs.peer_some in Ep. replace k with j by lia. exact Ep.
  - repeat match goal with H : listb _ _ = true |- _ => apply listb_eq in H end. split; [|assumption].
    destruct (slot (x_vec (sy_pub y)) k) as [c| | |] eqn:Es; try discriminate. exists c. split; [reflexivity|]. apply listb_eq. assumption.
  - intros m. unfold owes. destruct (p_sinf _ _); [intros []|discriminate].
Qed.
Definition reaches (ops : list sysop) (P : sys -> Prop) : Prop := match sysrun own77 sys0 ops with Some y => P y | None => False end.
Lemma reaches_reached ops P : reaches ops P -> exists y, sys_reached own77 y /\ P y.
Proof. unfold reaches. destruct (sysrun own77 sys0 ops) as [y|] eqn:E; [|tauto]. intros H. exists y. split; [exact (sysrun_reached own77 ops _ _ sys0_reached E)|exact H]. Qed.

(** ** C55, C57, C58: the hypotheses can be met *)
Example c55_witness : exists y, sys_reached own77 y /\ good_ids (sy_slog y 0%nat) /\ at_publisher own77 y 0 0 /\
  queued_payloads y = [[10; 11]; [20; 21; 22]; [30]] /\ accepted_at y 0 0 = [(1, [10; 11]); (3, [30]); (2, [20; 21; 22])] /\
  delivered_at y 0 0 = [(1, [10; 11]); (2, [20; 21; 22]); (3, [30])].
Proof.
  destruct (reaches_reached sys_ops (fun y => quietb y 0 0 = true /\ queued_payloads y = [[10; 11]; [20; 21; 22]; [30]] /\
    accepted_at y 0 0 = [(1, [10; 11]); (3, [30]); (2, [20; 21; 22])] /\ delivered_at y 0 0 = [(1, [10; 11]); (2, [20; 21; 22]); (3, [30])])) as (y & R & Q & H1 & H2 & H3); [vm_compute; auto|].
  apply quietb_ok in Q. destruct Q as (Q1 & Q2 & _). exists y. auto 8.
Qed.
Example c57_witness : exists y bs rest, sys_reached own77 y /\ good_ids (sy_slog y 0%nat) /\ at_publisher own77 y 0 0 /\ In (0%nat, 0, 0) (sy_links y) /\
  tcp_quiet y 0 0 0 /\ (forall m, ~ owes (sy_pub y) 0 m) /\ delivered_at y 0 0 = (1, bs) :: rest /\ In 1 (cast_since y 0) /\ In 3 (cast_since y 0) /\
  In 3 (map fst (delivered_at y 0 0)).
Proof.
  destruct (reaches_reached sys_ops (fun y => quietb y 0 0 = true /\ cast_since y 0 = [1; 2; 3] /\ delivered_at y 0 0 = [(1, [10; 11]); (2, [20; 21; 22]); (3, [30])])) as (y & R & Q & H1 & H2); [vm_compute; auto|].
  apply quietb_ok in Q. destruct Q as (Q1 & Q2 & Q3 & Q4 & Q5). exists y, [10; 11], [(2, [20; 21; 22]); (3, [30])]. rewrite H1.
  do 7 (split; [assumption|]). split; [cbn; auto|]. split; [cbn; auto|]. apply (c57_from_registration_partial own77 y 0 0 0 1 [10; 11] [(2, [20; 21; 22]); (3, [30])] 3 R Q1 Q2 Q3 Q4 Q5 H2); [rewrite H1; cbn; auto..|lia].
Qed.
(** Just before the publisher times out it has the ack of packet 1, and packets 2 and 3 are owed. *)
Example c58_witness : exists y, sys_reached own77 y /\ good_ids (sy_slog y 0%nat) /\ at_publisher own77 y 0 0 /\ In (0%nat, 0, 0) (sy_links y) /\
  cast_since y 0 = [1; 2; 3] /\ s_acks (since_open 0 (sy_plog y)) = [(1, 1)] /\ ~ owes (sy_pub y) 0 1 /\ owes (sy_pub y) 0 2 /\ owes (sy_pub y) 0 3 /\
  accepted_at y 0 0 = [(1, [10; 11]); (3, [30])].
Proof.
  destruct (reaches_reached (firstn 22 sys_ops) (fun y => goodidsb (sy_slog y 0%nat) = true /\
    match slot (t_vec (sy_sub y 0%nat)) 0 with Ok c => (c_mode c =? CONNECTED) && own77 (c_addr c, c_port c) | _ => false end = true /\
    sy_links y = [(0%nat, 0, 0)] /\ cast_since y 0 = [1; 2; 3] /\ s_acks (since_open 0 (sy_plog y)) = [(1, 1)] /\
    map (pid_of (x_pub (sy_pub y))) (p_sinf (x_pub (sy_pub y)) 0%nat) = [3; 2] /\ accepted_at y 0 0 = [(1, [10; 11]); (3, [30])])) as (y & R & G & A & L & H1 & H2 & H3 & H4).
  { vm_compute. auto 10. }
  exists y. split; [exact R|]. split; [apply goodidsb_ok; exact G|]. split.
  { destruct (slot (t_vec (sy_sub y 0%nat)) 0) as [c| | |] eqn:Es; try discriminate. exists c. apply andb_prop in A. destruct A. split; [split; [exact Es|lia]|assumption]. }
  unfold owes. change (Z.to_nat 0) with 0%nat. rewrite L, H3. repeat split; auto; cbn; [auto|lia|lia|lia].
Qed.
Example c58_release_witness : exists y, sys_reached own77 y /\ good_ids (sy_slog y 0%nat) /\ at_publisher own77 y 0 0 /\ In (0%nat, 0, 0) (sy_links y) /\
  In 2 (cast_since y 0) /\ flying (sy_pub y) = [].
Proof.
  destruct (reaches_reached sys_ops (fun y => quietb y 0 0 = true /\ cast_since y 0 = [1; 2; 3] /\ flying (sy_pub y) = [])) as (y & R & Q & H1 & H2); [vm_compute; auto|].
  apply quietb_ok in Q. destruct Q as (Q1 & Q2 & Q3 & Q4 & Q5). exists y. rewrite H1. cbn. auto 10.
Qed.

(** ** C56: two connections *)
(** At most once per subscriber is false: an announce received twice while the connection is being
    established makes a second connection, and both hand out the packet. *)
Theorem c56_once_per_subscriber_refuted : exists own y s, sys_reached own y /\ good_ids (sy_slog y s) /\
  at_publisher own y s 0 /\ at_publisher own y s 1 /\ queued_payloads y = [[10; 11]] /\
  filter (fun e => match e with SvPut _ _ _ => true | _ => false end) (sy_slog y s) = [SvPut 0 1 [10; 11]; SvPut 1 1 [10; 11]].
Proof.
  destruct (reaches_reached twice_ops (fun y => quietb y 0 0 = true /\ quietb y 1 1 = true /\ queued_payloads y = [[10; 11]] /\
    filter (fun e => match e with SvPut _ _ _ => true | _ => false end) (sy_slog y 0%nat) = [SvPut 0 1 [10; 11]; SvPut 1 1 [10; 11]])) as (y & R & Q & Q' & H1 & H2); [vm_compute; auto|].
  apply quietb_ok in Q, Q'. destruct Q as (Q1 & Q2 & _). destruct Q' as (_ & Q3 & _). exists own77, y, 0%nat. auto 8.
Qed.

(** ** C57: what is missing is false *)
(** A packet multicast after the registration that is not the first to arrive is dropped when it is
    resent.  Nothing is owed any more, and everything sent has arrived. *)
Theorem c57_first_packet_refuted : exists own y s i k n, sys_reached own y /\ good_ids (sy_slog y s) /\ at_publisher own y s i /\
  In (s, i, k) (sy_links y) /\ tcp_quiet y s i k /\ (forall m, ~ owes (sy_pub y) k m) /\ flying (sy_pub y) = [] /\
  cast_since y k = [1; 2] /\ n = 1 /\ ~ In n (map fst (accepted_at y s i)) /\ delivered_at y s i = [(2, [20])].
Proof.
  destruct (reaches_reached late_ops (fun y => quietb y 0 0 = true /\ flying (sy_pub y) = [] /\ cast_since y 0 = [1; 2] /\ accepted_at y 0 0 = [(2, [20])] /\ delivered_at y 0 0 = [(2, [20])]))
    as (y & R & Q & H1 & H2 & H3 & H4); [vm_compute; auto|].
  apply quietb_ok in Q. destruct Q as (Q1 & Q2 & Q3 & Q4 & Q5). exists own77, y, 0%nat, 0, 0, 1. rewrite H3.
  do 8 (split; [assumption|]). split; [reflexivity|]. split; [cbn; lia|exact H4].
Qed.
(** ... and it will not be handed out later on this connection. *)
Theorem c57_older_never : forall own y s i f bs rest n, sys_reached own y -> good_ids (sy_slog y s) -> at_publisher own y s i ->
  delivered_at y s i = (f, bs) :: rest -> n < f -> ~ In n (map fst (delivered_at y s i)).
Proof.
  intros own y s i f bs rest n R Gd (c & Hc & Ho) Ed Hn Hi.
  apply (proj1 (PropSubDeliver.c72_exact true _ _ i c f bs rest (SysProofs.si_sub _ _ (SysProofs.reached_SysI own y R) s) Gd Hc Ed n)) in Hi. lia.
Qed.
(** A packet lost between the completion of connect() at the subscriber and accept() at the publisher
    is owed by nobody: a subscriber that got an earlier one is handed out nothing any more. *)
Theorem c57_gap_refuted : exists own y s i k n, sys_reached own y /\ good_ids (sy_slog y s) /\ at_publisher own y s i /\
  In (s, i, k) (sy_links y) /\ tcp_quiet y s i k /\ (forall m, ~ owes (sy_pub y) k m) /\
  cast_since y k = [3] /\ n = 3 /\ accepted_at y s i = [(1, [10; 11]); (n, [30])] /\ delivered_at y s i = [(1, [10; 11])].
Proof.
  destruct (reaches_reached gap_ops (fun y => quietb y 0 0 = true /\ cast_since y 0 = [3] /\ accepted_at y 0 0 = [(1, [10; 11]); (3, [30])] /\ delivered_at y 0 0 = [(1, [10; 11])]))
    as (y & R & Q & H2 & H3 & H4); [vm_compute; auto|].
  apply quietb_ok in Q. destruct Q as (Q1 & Q2 & Q3 & Q4 & Q5). exists own77, y, 0%nat, 0, 0, 3. auto 12.
Qed.

Print Assumptions c55_accepted_genuine.
Print Assumptions c55_slice.
Print Assumptions c56_once_per_connection_partial.
Print Assumptions c56_once_per_subscriber_refuted.
Print Assumptions c57_all_arrived_partial.
Print Assumptions c57_delivered_partial.
Print Assumptions c57_consecutive.
Print Assumptions c57_from_registration_partial.
Print Assumptions c57_older_never.
Print Assumptions c57_first_packet_refuted.
Print Assumptions c57_gap_refuted.
Print Assumptions c58_acks_sound.
Print Assumptions c58_not_owed.
Print Assumptions c58_release.
