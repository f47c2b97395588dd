(** SubInv.v — per connection invariants of a subscriber context: what it received, handed out
    and acknowledged since the connection was opened. *)
From Coq Require Import Sorting.Permutation.
From Verif Require Import Base CircBuf CircBufProofs Wire SeqList Sub SpecSub SubProofs SubTrace Proto SpecProto ProtoProofs
  Conn SpecConn ConnProofs SubCtx SpecSubCtx SubSteps SubMem SubDecomp.

(** ** The record of one connection *)
Lemma ts_app i log evs : ts_open i (log ++ evs) = fold_left (ts_ev i) evs (ts_open i log).
Proof. unfold ts_open. apply fold_left_app. Qed.
(** Events that leave the record of [i] alone, except for datagrams and received bytes. *)
Definition frame_ev (i : Z) (e : sev) : Prop :=
  match e with
  | SvConn (EvAdd _ j _) | SvTcp j _ | SvGot j _ _ _ | SvPut j _ _ | SvAck j _ _ | SvLost j _ _ => j <> i
  | _ => True
  end.
Definition no_recv (i : Z) (e : sev) : Prop := match e with SvRecv j _ => j <> i | _ => True end.
Record same_ts (T T' : tsince) : Prop := mkSame {
  sm_sent : ts_sent T' = ts_sent T; sm_got : ts_got T' = ts_got T; sm_put : ts_put T' = ts_put T;
  sm_acks : ts_acks T' = ts_acks T; sm_lost : ts_lost T' = ts_lost T;
  sm_dgram : exists d, ts_dgram T' = ts_dgram T ++ d
}.
Lemma same_refl T : same_ts T T.
Proof. constructor; auto. exists []. rewrite app_nil_r. reflexivity. Qed.
Lemma same_trans T1 T2 T3 : same_ts T1 T2 -> same_ts T2 T3 -> same_ts T1 T3.
Proof.
  intros [A1 A2 A3 A4 A5 [d Ad]] [B1 B2 B3 B4 B5 [e Be]]. constructor; try congruence. exists (d ++ e). rewrite Be, Ad, app_assoc. reflexivity.
Qed.
Lemma frame_one i T e : frame_ev i e -> same_ts T (ts_ev i T e).
Proof.
  intros H. destruct T as [a b c d f g h]. destruct e as [[]| | | | | | | | | | | | | | |]; cbn [ts_ev frame_ev] in *; try apply same_refl;
  try (destruct (Z.eqb_spec i0 i) as [E|E]; [contradiction|apply same_refl]).
  - constructor; auto. cbn. eauto.
  - destruct (i0 =? i); [|apply same_refl]. constructor; auto. exists []. rewrite app_nil_r. reflexivity.
Qed.
Lemma frame_many i evs : forall T, Forall (frame_ev i) evs -> same_ts T (fold_left (ts_ev i) evs T).
Proof.
  induction evs as [|e evs IH]; intros T H; [apply same_refl|]. inversion H; subst. cbn [fold_left].
  eapply same_trans; [apply frame_one; eassumption|]. apply IH. assumption.
Qed.
Lemma recv_one i T e : frame_ev i e -> no_recv i e -> ts_recv (ts_ev i T e) = ts_recv T.
Proof.
  intros H N. destruct T as [a b c d f g h]. destruct e as [[]| | | | | | | | | | | | | | |]; cbn [ts_ev frame_ev no_recv] in *; try reflexivity;
  destruct (Z.eqb_spec i0 i) as [E|E]; try contradiction; reflexivity.
Qed.
Lemma recv_many i evs : forall T, Forall (frame_ev i) evs -> Forall (no_recv i) evs -> ts_recv (fold_left (ts_ev i) evs T) = ts_recv T.
Proof.
  induction evs as [|e evs IH]; intros T H N; [reflexivity|]. inversion H; inversion N; subst. cbn [fold_left].
  rewrite IH by assumption. apply recv_one; assumption.
Qed.

(** ** The invariant *)
Definition acks_of (cmds : list cmd) : list (Z * Z) := flat_map (fun c => match c with CmdAck a b => [(a, b)] | _ => [] end) cmds.
Definition got_of (log : list sev) (a : spacket * bool * Z) : Z * bool * list Z := (sk_pid (fst (fst a)), snd (fst a), cont log (sk_addr (fst (fst a)))).
Definition put_of (log : list sev) (p : spacket) : Z * list Z := (sk_pid p, cont log (sk_addr p)).
Definition iv_pair (iv : intv) : Z * Z := (iv_first iv, iv_last iv).
Record TC (log : list sev) (i : Z) (c : conn) (s : spub) (ops : list sop) (cmds : list cmd) : Prop := mkTC {
  tc_run : fst (sub_run sub_init ops) = s;
  tc_start : ops = [] \/ starts_processed ops;
  tc_good : Forall op_good ops;
  tc_got : map (got_of log) (accepted ops (snd (sub_run sub_init ops))) = ts_got (ts_open i log);
  tc_put : map (put_of log) (dispatched (snd (sub_run sub_init ops))) = ts_put (ts_open i log);
  tc_ack : Permutation (map iv_pair (acked (snd (sub_run sub_init ops)))) (ts_acks (ts_open i log) ++ ts_lost (ts_open i log));
  tc_wire : ts_sent (ts_open i log) ++ contents (c_wbuf c) = flat_map wire cmds;
  tc_cmds : Forall (fun c => cmd_ok c /\ for_pub c) cmds;
  tc_acks : acks_of cmds = ts_acks (ts_open i log);
  tc_dgram : forall k bs, In (k, true, bs) (ts_got (ts_open i log)) ->
    exists sd, In sd (ts_dgram (ts_open i log)) /\ carries_packet (c_addr c) (c_port c) k bs sd /\ bytes_ok (snd sd) /\ zlen (snd sd) <= RMC_MAX_PACKET;
  tc_addr : forall p, In p (acc_packs ops (snd (sub_run sub_init ops))) \/ In p (dispatched (snd (sub_run sub_init ops))) ->
    (sk_addr p < length (got_bytes log))%nat
}.
Definition ts_new (T : tsince) : Prop :=
  ts_sent T = [] /\ ts_recv T = [] /\ ts_got T = [] /\ ts_put T = [] /\ ts_acks T = [] /\ ts_lost T = [].
Record TI (x : sctx) (log : list sev) : Prop := mkTI {
  ti_conn : forall i c s, sconnected x i c -> t_pubs x i = Some s -> exists ops cmds, TC log i c s ops cmds;
  ti_wait : forall i c, slot (t_vec x) i = Ok c -> c_mode c = CONNECTING -> ts_new (ts_open i log) /\ fresh_rings c
}.
Lemma cont_ext log evs a : (a < length (got_bytes log))%nat -> cont (log ++ evs) a = cont log a.
Proof. apply cont_old. Qed.
Lemma got_len log evs : (length (got_bytes log) <= length (got_bytes (log ++ evs)))%nat.
Proof. rewrite got_app, app_length. lia. Qed.

(** Steps that do not concern the connection. *)
Lemma TC_frame log evs i c c' s ops cmds : TC log i c s ops cmds -> Forall (frame_ev i) evs ->
  contents (c_wbuf c') = contents (c_wbuf c) -> c_addr c' = c_addr c -> c_port c' = c_port c -> TC (log ++ evs) i c' s ops cmds.
Proof.
  intros [T1 T2 T3 T4 T5 T6 T7 T8 T9 T10 T11] F Ew Ea Ep.
  destruct (frame_many i evs (ts_open i log) F) as [S1 S2 S3 S4 S5 [d S6]]. rewrite <- ts_app in *.
  constructor; auto; rewrite ?S1, ?S2, ?S3, ?S4, ?S5, ?Ew, ?Ea, ?Ep; auto.
  - rewrite <- T4. apply map_ext_in. intros [[p b] t] Hp. unfold got_of. cbn [fst snd]. rewrite cont_ext; [reflexivity|].
    apply T11. left. exact (in_map (fun a => fst (fst a)) _ _ Hp).
  - rewrite <- T5. apply map_ext_in. intros p Hp. unfold put_of. rewrite cont_ext; [reflexivity|]. apply T11. right. exact Hp.
  - intros k bs Hk. destruct (T10 k bs Hk) as (sd & H1 & H2). exists sd. split; [|exact H2]. rewrite S6. apply in_or_app. left. exact H1.
  - intros p Hp. specialize (T11 p Hp). pose proof (got_len log evs). lia.
Qed.
Lemma TI_other x log evs x' (i0 : Z) : TI x log ->
  (forall i, i <> i0 -> 0 <= i < v_size (t_vec x) -> Forall (frame_ev i) evs /\ Forall (fun e => forall c, slot (t_vec x) i = Ok c -> c_mode c = CONNECTING -> no_recv i e) evs) ->
  v_size (t_vec x') = v_size (t_vec x) ->
  (forall i, i <> i0 -> slot (t_vec x') i = slot (t_vec x) i /\ t_pubs x' i = t_pubs x i) ->
  (forall c s, sconnected x' i0 c -> t_pubs x' i0 = Some s -> exists ops cmds, TC (log ++ evs) i0 c s ops cmds) ->
  (forall c, slot (t_vec x') i0 = Ok c -> c_mode c = CONNECTING -> ts_new (ts_open i0 (log ++ evs)) /\ fresh_rings c) -> TI x' (log ++ evs).
Proof.
  intros [T1 T2] F Sz O Hc Hw. constructor.
  - intros i c s Hs Hp. destruct (Z.eq_dec i i0) as [->|N]; [exact (Hc c s Hs Hp)|]. destruct (O i N) as [O1 O2].
    unfold sconnected in Hs. rewrite O1 in Hs. rewrite O2 in Hp. destruct (T1 i c s Hs Hp) as (ops & cmds & T). exists ops, cmds.
    apply (TC_frame log evs i c c); auto. apply F; [exact N|]. exact (slot_range _ _ _ (proj1 Hs)).
  - intros i c Hs Hm. destruct (Z.eq_dec i i0) as [->|N]; [exact (Hw c Hs Hm)|]. destruct (O i N) as [O1 O2]. rewrite O1 in Hs.
    destruct (T2 i c Hs Hm) as [(N1 & N2 & N3 & N4 & N5 & N6) Hf]. split; [|exact Hf].
    destruct (F i N (slot_range _ _ _ Hs)) as [F1 F2].
    destruct (frame_many i evs (ts_open i log) F1) as [S1 S2 S3 S4 S5 _].
    assert (R : ts_recv (fold_left (ts_ev i) evs (ts_open i log)) = ts_recv (ts_open i log)).
    { apply recv_many; [exact F1|]. clear -F2 Hs Hm. induction F2 as [|e l He _ IH]; [constructor|]. constructor; [|exact IH].
      exact (He c Hs Hm). }
    unfold ts_new. rewrite ts_app, S1, S2, S3, S4, S5, R. auto 10.
Qed.

(** Simple frames: nothing that happened is about any connection. *)
Definition quiet_ev (e : sev) : Prop :=
  match e with
  | SvConn (EvAdd _ _ _) | SvTcp _ _ | SvGot _ _ _ _ | SvPut _ _ _ | SvAck _ _ _ | SvLost _ _ _ | SvRecv _ _ => False
  | _ => True
  end.
Lemma quiet_frame i evs : Forall quiet_ev evs -> Forall (frame_ev i) evs /\ Forall (no_recv i) evs.
Proof.
  intros H. split; (eapply Forall_impl; [|exact H]); intros e; destruct e as [[]| | | | | | | | | | | | | | |]; cbn; tauto.
Qed.
Lemma TI_quiet x log evs x' : TI x log -> Forall quiet_ev evs -> (forall i, slot (t_vec x') i = slot (t_vec x) i) ->
  v_size (t_vec x') = v_size (t_vec x) -> (forall i, t_pubs x' i = t_pubs x i) -> TI x' (log ++ evs).
Proof.
  intros T Q O Sz P. apply (TI_other x log evs x' (-1)); auto.
  - intros i N _. destruct (quiet_frame i evs Q) as [Q1 Q2]. split; [exact Q1|]. eapply Forall_impl; [|exact Q2]. cbn. auto.
  - intros c s [H _]. apply slot_range in H. lia.
  - intros c H. apply slot_range in H. lia.
Qed.
(** Only the connection [i0] is concerned. *)
Definition about (i0 : Z) (e : sev) : Prop :=
  match e with
  | SvConn (EvAdd _ j _) | SvTcp j _ | SvGot j _ _ _ | SvPut j _ _ | SvAck j _ _ | SvLost j _ _ | SvRecv j _ => j = i0
  | _ => True
  end.
Lemma about_frame i0 i evs : Forall (about i0) evs -> i <> i0 -> Forall (frame_ev i) evs /\ Forall (no_recv i) evs.
Proof.
  intros H N. split; (eapply Forall_impl; [|exact H]); intros e; destruct e as [[]| | | | | | | | | | | | | | |]; cbn; try tauto; intros ->; congruence.
Qed.
Lemma TI_one x log evs x' i0 : TI x log -> Forall (about i0) evs -> v_size (t_vec x') = v_size (t_vec x) ->
  (forall i, i <> i0 -> slot (t_vec x') i = slot (t_vec x) i) -> (forall i, i <> i0 -> t_pubs x' i = t_pubs x i) ->
  (forall c s, sconnected x' i0 c -> t_pubs x' i0 = Some s -> exists ops cmds, TC (log ++ evs) i0 c s ops cmds) ->
  (forall c, slot (t_vec x') i0 = Ok c -> c_mode c = CONNECTING -> ts_new (ts_open i0 (log ++ evs)) /\ fresh_rings c) -> TI x' (log ++ evs).
Proof.
  intros T A Sz O P Hc Hw. apply (TI_other x log evs x' i0); auto.
  intros i N _. destruct (about_frame i0 i evs A N) as [Q1 Q2]. split; [exact Q1|]. eapply Forall_impl; [|exact Q2]. cbn. auto.
Qed.

(** Appending to the history of one publisher. *)
Lemma run_app ops1 : forall s ops2, sub_run s (ops1 ++ ops2) =
  (fst (sub_run (fst (sub_run s ops1)) ops2), snd (sub_run s ops1) ++ snd (sub_run (fst (sub_run s ops1)) ops2)).
Proof.
  induction ops1 as [|o ops1 IH]; intros s ops2; cbn [app sub_run].
  - cbn [fst snd app]. destruct (sub_run s ops2). reflexivity.
  - destruct (sub_step s o) as [s1 y]. rewrite IH. destruct (sub_run s1 ops1) as [s2 ys]. reflexivity.
Qed.
Lemma accepted_app ops1 ops2 s : accepted (ops1 ++ ops2) (snd (sub_run s (ops1 ++ ops2))) =
  accepted ops1 (snd (sub_run s ops1)) ++ accepted ops2 (snd (sub_run (fst (sub_run s ops1)) ops2)).
Proof.
  rewrite run_app. cbn [snd]. unfold accepted. pose proof (srun_len ops1 s) as L. revert L.
  generalize (snd (sub_run (fst (sub_run s ops1)) ops2)) as o2.
  generalize (snd (sub_run s ops1)) as outs. intros outs o2. revert outs. induction ops1 as [|o ops1 IH]; intros [|y outs] L; try discriminate; [reflexivity|].
  cbn [app combine flat_map length] in *. rewrite IH by lia. rewrite app_assoc. reflexivity.
Qed.
Lemma dispatched_app a b : dispatched (a ++ b) = dispatched a ++ dispatched b.
Proof. apply flat_map_app. Qed.
Lemma acked_app a b : acked (a ++ b) = acked a ++ acked b.
Proof. apply flat_map_app. Qed.
Lemma acks_app a b : acks_of (a ++ b) = acks_of a ++ acks_of b.
Proof. apply flat_map_app. Qed.
Lemma started_app ops ops2 : starts_processed ops -> starts_processed (ops ++ ops2).
Proof. intros (p & b & t & rest & ->). exists p, b, t, (rest ++ ops2). reflexivity. Qed.

(** The general shape of a step on a connection. *)
Lemma TC_step log evs i c c' s s' ops ops2 cmds cmds2 : TC log i c s ops cmds ->
  s' = fst (sub_run s ops2) -> (ops ++ ops2 = [] \/ starts_processed (ops ++ ops2)) -> Forall op_good ops2 ->
  let outs2 := snd (sub_run s ops2) in let T := ts_open i log in let T' := ts_open i (log ++ evs) in
  ts_got T' = ts_got T ++ map (got_of (log ++ evs)) (accepted ops2 outs2) ->
  ts_put T' = ts_put T ++ map (put_of (log ++ evs)) (dispatched outs2) ->
  Permutation (ts_acks T' ++ ts_lost T') ((ts_acks T ++ ts_lost T) ++ map iv_pair (acked outs2)) ->
  ts_sent T' ++ contents (c_wbuf c') = (ts_sent T ++ contents (c_wbuf c)) ++ flat_map wire cmds2 ->
  Forall (fun c => cmd_ok c /\ for_pub c) cmds2 -> ts_acks T' = ts_acks T ++ acks_of cmds2 ->
  c_addr c' = c_addr c -> c_port c' = c_port c -> (exists d, ts_dgram T' = ts_dgram T ++ d) ->
  (forall k bs, In (k, true, bs) (map (got_of (log ++ evs)) (accepted ops2 outs2)) -> exists sd, In sd (ts_dgram T') /\
     carries_packet (c_addr c) (c_port c) k bs sd /\ bytes_ok (snd sd) /\ zlen (snd sd) <= RMC_MAX_PACKET) ->
  (forall p, In p (acc_packs ops2 outs2) \/ In p (dispatched outs2) -> (sk_addr p < length (got_bytes (log ++ evs)))%nat) ->
  TC (log ++ evs) i c' s' (ops ++ ops2) (cmds ++ cmds2).
Proof.
  intros [T1 T2 T3 T4 T5 T6 T7 T8 T9 T10 T11] Es Hst Hg outs2 T T' G1 G2 G3 G4 G5 G6 Ea Ep [d Ed] G7 G8.
  assert (Ef : fst (sub_run sub_init (ops ++ ops2)) = s') by (rewrite run_app; cbn [fst]; rewrite T1; auto).
  assert (Eacc : accepted (ops ++ ops2) (snd (sub_run sub_init (ops ++ ops2))) = accepted ops (snd (sub_run sub_init ops)) ++ accepted ops2 outs2)
    by (rewrite accepted_app, T1; reflexivity).
  assert (Eout : snd (sub_run sub_init (ops ++ ops2)) = snd (sub_run sub_init ops) ++ outs2) by (rewrite run_app; cbn [snd]; rewrite T1; reflexivity).
  constructor; auto.
  - apply Forall_app. auto.
  - fold T'. rewrite Eacc, map_app, G1. f_equal. unfold T. rewrite <- T4. apply map_ext_in. intros [[p b] t] Hp. unfold got_of. cbn [fst snd]. rewrite cont_ext; [reflexivity|].
    apply T11. left. exact (in_map (fun a => fst (fst a)) _ _ Hp).
  - fold T'. rewrite Eout, dispatched_app, map_app, G2. f_equal. unfold T. rewrite <- T5. apply map_ext_in. intros p Hp. unfold put_of. rewrite cont_ext; [reflexivity|].
    apply T11. right. exact Hp.
  - fold T'. rewrite Eout, acked_app, map_app, G3. apply Permutation_app_tail. exact T6.
  - fold T'. rewrite G4, flat_map_app. unfold T. rewrite T7. reflexivity.
  - apply Forall_app. auto.
  - fold T'. rewrite acks_app, G6, T9. reflexivity.
  - intros k bs Hk. rewrite Ea, Ep. fold T' in Hk |- *. rewrite G1 in Hk. apply in_app_or in Hk. destruct Hk as [Hk|Hk]; [|exact (G7 k bs Hk)].
    destruct (T10 k bs Hk) as (sd & H1 & H2). exists sd. split; [|exact H2]. rewrite Ed. apply in_or_app. left. exact H1.
  - intros p Hp. rewrite Eout, dispatched_app in Hp. unfold acc_packs in Hp. rewrite <- Eout, Eacc, map_app in Hp. rewrite !in_app_iff in Hp.
    pose proof (got_len log evs) as L.
    assert (Hq : (In p (acc_packs ops (snd (sub_run sub_init ops))) \/ In p (dispatched (snd (sub_run sub_init ops)))) \/
                 (In p (acc_packs ops2 outs2) \/ In p (dispatched outs2))) by (unfold acc_packs; tauto).
    destruct Hq as [Hq|Hq]; [specialize (T11 p Hq); lia|exact (G8 p Hq)].
Qed.

(** Records after handing out packets. *)
Lemma put_fold i m out : forall T, let T' := fold_left (ts_ev i) (put_evs m i out) T in
  ts_sent T' = ts_sent T /\ ts_dgram T' = ts_dgram T /\ ts_got T' = ts_got T /\ ts_acks T' = ts_acks T /\ ts_lost T' = ts_lost T /\
  ts_put T' = ts_put T ++ map (fun p => (sk_pid p, peek m (sk_payload p) (sk_len p))) out.
Proof.
  induction out as [|p out IH]; intros T; cbn [put_evs map fold_left].
  - rewrite app_nil_r. auto 10.
  - destruct (IH (ts_ev i T (SvPut i (sk_pid p) (peek m (sk_payload p) (sk_len p))))) as (I1 & I2 & I3 & I4 & I5 & I6).
    fold (put_evs m i out). rewrite I1, I2, I3, I4, I5, I6. destruct T as [a b c d f g h]. cbn [ts_ev ts_sent ts_dgram ts_got ts_put ts_acks ts_lost].
    rewrite Z.eqb_refl. cbn. rewrite <- app_assoc. auto 10.
Qed.
Lemma put_about m i out : Forall (about i) (put_evs m i out).
Proof. induction out; constructor; cbn; auto. Qed.
Lemma peek_held x log p : MI x log -> In p (held x) -> peek (t_mem x) (sk_payload p) (sk_len p) = cont log (sk_addr p).
Proof.
  intros M Hp. destruct (mi_held x log M p Hp) as (_ & E & L & _). unfold peek. rewrite E, L. apply ztake_all. lia.
Qed.
Lemma process_init : sub_process sub_init = (sub_init, []).
Proof. reflexivity. Qed.
Lemma TC_started log i c s ops cmds : TC log i c s ops cmds -> s <> sub_init -> starts_processed ops.
Proof. intros T N. destruct (tc_start _ _ _ _ _ _ T) as [->|H]; [|exact H]. destruct (N (eq_sym (tc_run _ _ _ _ _ _ T))). Qed.
Lemma calm_frame x r e i : calm_ev x r e -> 0 <= i < v_size (t_vec x) ->
  frame_ev i e /\ forall c, slot (t_vec x) i = Ok c -> c_mode c = CONNECTING -> no_recv i e.
Proof.
  intros H R. destruct e as [[]| | | | | | | | | | | | | | |]; cbn in *; try tauto; try (split; [auto|intros; exact Logic.I]).
  - lia.
  - split; [exact Logic.I|]. intros c Hs Hm ->. destruct H as [_ (c0 & H1 & H2)]. rewrite Hs in H1. injection H1 as <-. rewrite Hm in H2. discriminate.
Qed.
Lemma free_about i l : Forall (about i) (free_evs l).
Proof. induction l; constructor; cbn; auto. Qed.

(** A connection whose record changes by [ops2] and [cmds2]. *)
Lemma TI_at x log evs x' i c c' s' : TI x log -> Forall (about i) evs -> v_size (t_vec x') = v_size (t_vec x) ->
  (forall j, j <> i -> slot (t_vec x') j = slot (t_vec x) j) -> (forall j, j <> i -> t_pubs x' j = t_pubs x j) ->
  sconnected x i c -> sconnected x' i c' -> t_pubs x' i = Some s' ->
  (exists ops cmds, TC (log ++ evs) i c' s' ops cmds) -> TI x' (log ++ evs).
Proof.
  intros T A Sz O P Hc Hc' Hp' HT. apply (TI_one x log evs x' i); auto.
  - intros d s Hd Hs. destruct Hd as [Hd _], Hc' as [Hc' _]. rewrite Hp' in Hs. injection Hs as <-. rewrite Hc' in Hd. injection Hd as <-. exact HT.
  - intros d Hd Hm. destruct Hc' as [Hc' Hm']. rewrite Hc' in Hd. injection Hd as <-. rewrite Hm in Hm'. discriminate.
Qed.
(** A connection that is not open afterwards. *)
Lemma TI_gone x log evs x' i c' : TI x log -> Forall (about i) evs -> v_size (t_vec x') = v_size (t_vec x) ->
  (forall j, j <> i -> slot (t_vec x') j = slot (t_vec x) j) -> (forall j, j <> i -> t_pubs x' j = t_pubs x j) ->
  slot (t_vec x') i = Ok c' -> c_mode c' = CLOSED -> TI x' (log ++ evs).
Proof.
  intros T A Sz O P Hs Hm. apply (TI_one x log evs x' i); auto.
  - intros d s [Hd Hdm]. rewrite Hs in Hd. injection Hd as <-. rewrite Hm in Hdm. discriminate.
  - intros d Hd Hdm. rewrite Hs in Hd. injection Hd as <-. rewrite Hm in Hdm. discriminate.
Qed.
Lemma conn_put x i c c' v : sconnected x i c -> v = put_slot (t_vec x) i c' -> c_mode c' = CONNECTED ->
  v_size v = v_size (t_vec x) /\ (forall j, j <> i -> slot v j = slot (t_vec x) j) /\ slot v i = Ok c'.
Proof.
  intros [H _] -> Hm. pose proof (slot_range _ _ _ H) as R. split; [apply put_size|]. split.
  - intros j N. apply slot_put_other; [lia|exact N].
  - apply slot_put_same. exact R.
Qed.

Lemma step_TI r log x evs x' : BI x -> MI x log -> MI x' (log ++ evs) -> good_ids (log ++ evs) -> TI x log ->
  ustep r log x evs x' -> TI x' (log ++ evs).
Proof.
  intros B M M' Gd T Hu. destruct Hu as
    [e He|x' E1 E2 E3 E4 E5 E6|i c s pid bs src ptr now x' s' out Hc Hp Hd Hsrc Hptr Hm mc Hproc m Ex'|i c s s' out Hc Hp Hproc
    |p rest a Hu|p rest a Hu|p rest Hu|i c s iv rest wb act Hc Hp Hiv W1 W2 W3|i c s iv rest Hc Hp Hiv|i rest Ha Hpe|Ha
    |i c p wb act Hc W1 W2 Hk W3 Hr3|i c wb act sent Hc W1 W2 W3|i c rb Hr Hc|i c d addr port node Hr Hs Hd Hd0
    |i c c' v evs Hs Hd Hd' Hm Er Ew Ev Mx Ac Hev|i R Hn|i s Hp Hn|i c Hs Hm Hp|i c v Hs Hm Ec|i c v s Hc Hp Ec|ptr Hk].
  - (* event *)
    apply (TI_other x log [e] x (-1)); auto.
    + intros i N R. destruct (calm_frame x r e i He R) as [F1 F2]. split; repeat constructor; assumption.
    + intros c s [H _]. apply slot_range in H. lia.
    + intros c H. apply slot_range in H. lia.
  - apply (TI_quiet x); auto; intros; rewrite ?E1, ?E2; auto.
  - (* got *)
    destruct (ti_conn x log T i c s Hc Hp) as (ops & cmds & TCi).
    set (pk := new_packet x i pid ptr (zlen bs)) in *.
    set (pre := match src with Some sd => [SvDgram (fst sd) (snd sd)] | None => [] end) in *.
    set (evs := pre ++ SvAlloc ptr (zlen bs) :: SvGot i pid mc bs :: put_evs m i out) in *.
    assert (Gp : good_pid pid).
    { unfold good_ids in Gd. rewrite Forall_forall in Gd. apply (Gd (SvGot i pid mc bs)). unfold evs. rewrite !in_app_iff. cbn. auto. }
    assert (Eg : got_bytes evs = [bs]).
    { unfold evs. rewrite got_app. replace (got_bytes pre) with (@nil (list Z)) by (destruct src; reflexivity). cbn [app].
      change (got_bytes (SvAlloc ptr (zlen bs) :: SvGot i pid mc bs :: put_evs m i out)) with (bs :: got_bytes (put_evs m i out)).
      destruct (memless_flat _ (put_memless m i out) []) as (_ & _ & _ & -> & _). reflexivity. }
    assert (Ea : Forall (about i) evs).
    { unfold evs. apply Forall_app. split; [unfold pre; destruct src; repeat constructor|]. constructor; [exact Logic.I|]. constructor; [reflexivity|apply put_about]. }
    assert (Ec : cont (log ++ evs) (sk_addr pk) = bs).
    { unfold cont. rewrite got_app, Eg. cbn [pk new_packet sk_addr]. rewrite (mi_fresh x log M), app_nth2, Nat.sub_diag by lia. reflexivity. }
    assert (Hout : forall p, In p out -> In p (held x')).
    { intros p Hq. apply in_held. right. rewrite Ex'. cbn [t_ready]. apply in_or_app. auto. }
    assert (Emem : t_mem x' = m) by (rewrite Ex'; reflexivity).
    assert (Eput : map (fun p => (sk_pid p, peek m (sk_payload p) (sk_len p))) out = map (put_of (log ++ evs)) out).
    { apply map_ext_in. intros p Hq. unfold put_of. f_equal. rewrite <- Emem. apply peek_held; auto. }
    set (T0 := ts_open i log).
    assert (ET : ts_open i (log ++ evs) = fold_left (ts_ev i) (put_evs m i out) (ts_ev i (fold_left (ts_ev i) pre T0) (SvGot i pid mc bs))).
    { rewrite ts_app. unfold evs. rewrite fold_left_app. cbn [fold_left]. fold T0. destruct (fold_left (ts_ev i) pre T0); reflexivity. }
    set (T1 := fold_left (ts_ev i) pre T0) in *.
    assert (ET1 : ts_sent T1 = ts_sent T0 /\ ts_got T1 = ts_got T0 /\ ts_put T1 = ts_put T0 /\ ts_acks T1 = ts_acks T0 /\ ts_lost T1 = ts_lost T0 /\
                  ts_dgram T1 = ts_dgram T0 ++ match src with Some sd => [sd] | None => [] end).
    { unfold T1, pre. destruct T0 as [? ? ? ? ? ? ?]. destruct src as [[sa sb]|]; cbn; rewrite ?app_nil_r; auto 10. }
    destruct ET1 as (A1 & A2 & A3 & A4 & A5 & A6).
    destruct (put_fold i m out (ts_ev i T1 (SvGot i pid mc bs))) as (P1 & P2 & P3 & P4 & P5 & P6). rewrite <- ET in P1, P2, P3, P4, P5, P6.
    assert (AG : ts_sent (ts_ev i T1 (SvGot i pid mc bs)) = ts_sent T1 /\ ts_dgram (ts_ev i T1 (SvGot i pid mc bs)) = ts_dgram T1 /\
                 ts_got (ts_ev i T1 (SvGot i pid mc bs)) = ts_got T1 ++ [(pid, mc, bs)] /\ ts_acks (ts_ev i T1 (SvGot i pid mc bs)) = ts_acks T1 /\
                 ts_lost (ts_ev i T1 (SvGot i pid mc bs)) = ts_lost T1 /\ ts_put (ts_ev i T1 (SvGot i pid mc bs)) = ts_put T1).
    { destruct T1 as [? ? ? ? ? ? ?]. cbn [ts_ev]. rewrite Z.eqb_refl. cbn. auto 10. }
    destruct AG as (B1 & B2 & B3 & B4 & B5 & B6). rewrite B1 in P1. rewrite B2 in P2. rewrite B3 in P3. rewrite B4 in P4. rewrite B5 in P5. rewrite B6 in P6.
    rewrite A1 in P1. rewrite A6 in P2. rewrite A2 in P3. rewrite A4 in P4. rewrite A5 in P5. rewrite A3, Eput in P6.
    set (ops2 := [SArrive pk mc now; SProcess]).
    assert (Er : sub_run s ops2 = (s', [OAccepted; ODispatched out])).
    { unfold ops2. cbn [sub_run sub_step]. unfold pk at 1. cbn [new_packet sk_pid]. rewrite Hd. fold pk. rewrite Hproc. reflexivity. }
    apply (TI_at x log evs x' i c c s'); auto.
    + rewrite Ex'. reflexivity.
    + intros j N. rewrite Ex'. reflexivity.
    + intros j N. rewrite Ex'. cbn [t_pubs]. rewrite !tupd_other by exact N. reflexivity.
    + rewrite Ex'. exact Hc.
    + rewrite Ex'. cbn [t_pubs]. apply tupd_same.
    + exists (ops ++ ops2), (cmds ++ []).
      apply (TC_step log evs i c c s s' ops ops2 cmds []); auto; rewrite ?Er; cbn [fst snd]; try (match goal with |- ?a = ?a => reflexivity end).
      * right. destruct (tc_start _ _ _ _ _ _ TCi) as [->|St]; [exists pk, mc, now, []; reflexivity|apply started_app; exact St].
      * constructor; [exact Gp|]. constructor; [exact Logic.I|constructor].
      * cbn [accepted ops2 combine flat_map accepted1 app map]. unfold got_of. cbn [fst snd]. rewrite Ec. exact P3.
      * cbn [dispatched flat_map dispatched1]. rewrite app_nil_r. exact P6.
      * rewrite P4, P5. cbn [acked flat_map acked1 map]. rewrite app_nil_r. apply Permutation_refl.
      * rewrite P1. cbn [flat_map]. rewrite app_nil_r. reflexivity.
      * rewrite P4. cbn. rewrite app_nil_r. reflexivity.
      * exists (match src with Some sd => [sd] | None => [] end). exact P2.
      * cbn [accepted ops2 combine flat_map accepted1 app map]. unfold got_of. cbn [fst snd]. rewrite Ec. intros k b [E|[]].
        injection E as Ek Em Eb. destruct src as [sd|]; [|discriminate Em]. exists sd. rewrite P2. split; [apply in_or_app; right; left; reflexivity|].
        cbn [pk new_packet sk_pid] in Ek. subst k b. exact (proj2 Hsrc).
      * intros p Hq. assert (Ef : t_fresh x' = S (t_fresh x)) by (rewrite Ex'; reflexivity).
        rewrite <- (mi_fresh x' _ M'), Ef. destruct Hq as [Hq|Hq].
        -- unfold acc_packs, ops2 in Hq. cbn in Hq. destruct Hq as [<-|[]]. cbn. lia.
        -- cbn [dispatched flat_map dispatched1] in Hq. rewrite app_nil_r in Hq. destruct (mi_held x' _ M' p (Hout p Hq)) as (H1 & _). lia.
  - (* process *)
    destruct (ti_conn x log T i c s Hc Hp) as (ops & cmds & TCi). set (evs := put_evs (t_mem x) i out) in *.
    set (x' := set_tready (put_spub x i s') (t_ready x ++ out)) in *.
    destruct (put_fold i (t_mem x) out (ts_open i log)) as (P1 & P2 & P3 & P4 & P5 & P6). fold evs in P1, P2, P3, P4, P5, P6.
    rewrite <- ts_app in P1, P2, P3, P4, P5, P6.
    assert (Hout : forall p, In p out -> In p (held x')).
    { intros p Hq. apply in_held. right. unfold x'. cbn [t_ready set_tready]. apply in_or_app. auto. }
    assert (Eput : map (fun p => (sk_pid p, peek (t_mem x) (sk_payload p) (sk_len p))) out = map (put_of (log ++ evs)) out).
    { apply map_ext_in. intros p Hq. unfold put_of. f_equal. change (t_mem x) with (t_mem x'). apply peek_held; auto. }
    rewrite Eput in P6.
    assert (Hpub : t_pubs x' i = Some s') by (unfold x'; cbn; apply tupd_same).
    assert (Hpo : forall j, j <> i -> t_pubs x' j = t_pubs x j) by (intros j N; unfold x'; cbn; apply tupd_other; exact N).
    assert (Ab : Forall (about i) evs) by apply put_about.
    apply (TI_at x log evs x' i c c s'); auto.
    destruct (tc_start _ _ _ _ _ _ TCi) as [E0|St].
    + subst ops. pose proof (tc_run _ _ _ _ _ _ TCi) as E. cbn in E. subst s. rewrite process_init in Hproc. injection Hproc as <- <-.
      exists [], cmds. unfold evs. cbn [put_evs map]. rewrite app_nil_r. exact TCi.
    + exists (ops ++ [SProcess]), (cmds ++ []).
      assert (Er : sub_run s [SProcess] = (s', [ODispatched out])) by (cbn [sub_run sub_step]; rewrite Hproc; reflexivity).
      apply (TC_step log evs i c c s s' ops [SProcess] cmds []); auto; rewrite ?Er; cbn [fst snd]; try (match goal with |- ?a = ?a => reflexivity end).
      * right. apply started_app. exact St.
      * constructor; [exact Logic.I|constructor].
      * rewrite P3. cbn. rewrite app_nil_r. reflexivity.
      * cbn [dispatched flat_map dispatched1]. rewrite app_nil_r. exact P6.
      * rewrite P4, P5. cbn [acked flat_map acked1 map]. rewrite app_nil_r. apply Permutation_refl.
      * rewrite P1. cbn [flat_map]. rewrite app_nil_r. reflexivity.
      * rewrite P4. cbn. rewrite app_nil_r. reflexivity.
      * exists []. rewrite app_nil_r. exact P2.
      * intros k b [].
      * intros p [[]|Hq]. cbn [dispatched flat_map dispatched1] in Hq. rewrite app_nil_r in Hq. rewrite <- (mi_fresh x' _ M').
        exact (proj1 (mi_held x' _ M' p (Hout p Hq))).
  - apply (TI_quiet x); auto. repeat constructor.
  - apply (TI_quiet x); auto. repeat constructor.
  - apply (TI_quiet x); auto. repeat constructor.
  - (* ack *)
    destruct (ti_conn x log T i c s Hc Hp) as (ops & cmds & TCi). set (s' := mkSP (s_ready s) (s_maxrecv s) (s_recv s) rest) in *.
    set (c' := set_action (set_wbuf c wb) act).
    assert (St : starts_processed ops) by (apply (TC_started _ _ _ _ _ _ TCi); intros ->; discriminate Hiv).
    pose proof (H_run ops St (tc_good _ _ _ _ _ _ TCi)) as HH. rewrite (tc_run _ _ _ _ _ _ TCi) in HH.
    destruct (h_ivg _ _ _ HH iv ltac:(rewrite Hiv; left; reflexivity)) as [Gf Gl].
    destruct (conn_put x i c c' (put_slot (t_vec x) i c') Hc eq_refl (proj2 Hc)) as (V1 & V2 & V3).
    apply (TI_at x log _ _ i c c' s'); auto.
    + repeat constructor.
    + intros j N. cbn. apply tupd_other. exact N.
    + split; [exact V3|exact (proj2 Hc)].
    + cbn. apply tupd_same.
    + exists (ops ++ [SAck]), (cmds ++ [CmdAck (iv_first iv) (iv_last iv)]).
      assert (Er : sub_run s [SAck] = (s', [OAck (Some iv)])) by (cbn [sub_run sub_step]; unfold sub_pop_interval; rewrite Hiv; reflexivity).
      set (T0 := ts_open i log).
      assert (ET : ts_open i (log ++ [SvAck i (iv_first iv) (iv_last iv); SvConn (EvMod (c_desc c) i (c_action c) act)]) =
                   mkTs (ts_sent T0) (ts_recv T0) (ts_dgram T0) (ts_got T0) (ts_put T0) (ts_acks T0 ++ [(iv_first iv, iv_last iv)]) (ts_lost T0)).
      { rewrite ts_app. fold T0. destruct T0. cbn [fold_left ts_ev]. rewrite Z.eqb_refl. reflexivity. }
      apply (TC_step log _ i c c' s s' ops [SAck] cmds _); auto; rewrite ?Er, ?ET; cbn [fst snd ts_sent ts_recv ts_dgram ts_got ts_put ts_acks ts_lost]; try (match goal with |- ?a = ?a => reflexivity end).
      * right. apply started_app. exact St.
      * constructor; [exact Logic.I|constructor].
      * cbn. rewrite app_nil_r. reflexivity.
      * cbn. rewrite app_nil_r. reflexivity.
      * cbn [acked flat_map acked1 map app]. rewrite <- !app_assoc. apply Permutation_app_head. apply Permutation_app_comm.
      * cbn [flat_map]. unfold c'. cbn [c_wbuf set_action set_wbuf]. rewrite W3, app_nil_r, app_assoc. reflexivity.
      * constructor; [|constructor]. unfold good_pid in Gf, Gl. cbn. unfold is_u64. lia.
      * reflexivity.
      * exists []. rewrite app_nil_r. reflexivity.
      * intros k b [].
      * intros p [[]|[]].
  - (* lost *)
    destruct (ti_conn x log T i c s Hc Hp) as (ops & cmds & TCi). set (s' := mkSP (s_ready s) (s_maxrecv s) (s_recv s) rest) in *.
    assert (St : starts_processed ops) by (apply (TC_started _ _ _ _ _ _ TCi); intros ->; discriminate Hiv).
    apply (TI_at x log _ _ i c c s'); auto.
    + repeat constructor.
    + intros j N. cbn. apply tupd_other. exact N.
    + cbn. apply tupd_same.
    + exists (ops ++ [SAck]), (cmds ++ []).
      assert (Er : sub_run s [SAck] = (s', [OAck (Some iv)])) by (cbn [sub_run sub_step]; unfold sub_pop_interval; rewrite Hiv; reflexivity).
      set (T0 := ts_open i log).
      assert (ET : ts_open i (log ++ [SvLost i (iv_first iv) (iv_last iv)]) =
                   mkTs (ts_sent T0) (ts_recv T0) (ts_dgram T0) (ts_got T0) (ts_put T0) (ts_acks T0) (ts_lost T0 ++ [(iv_first iv, iv_last iv)])).
      { rewrite ts_app. fold T0. destruct T0. cbn [fold_left ts_ev]. rewrite Z.eqb_refl. reflexivity. }
      apply (TC_step log _ i c c s s' ops [SAck] cmds _); auto; rewrite ?Er, ?ET; cbn [fst snd ts_sent ts_recv ts_dgram ts_got ts_put ts_acks ts_lost]; try (match goal with |- ?a = ?a => reflexivity end).
      * right. apply started_app. exact St.
      * constructor; [exact Logic.I|constructor].
      * cbn. rewrite app_nil_r. reflexivity.
      * cbn. rewrite app_nil_r. reflexivity.
      * cbn [acked flat_map acked1 map app]. rewrite <- !app_assoc. apply Permutation_refl.
      * cbn [flat_map]. rewrite app_nil_r. reflexivity.
      * cbn. rewrite app_nil_r. reflexivity.
      * exists []. rewrite app_nil_r. reflexivity.
      * intros k b [].
      * intros p [[]|[]].
  - apply (TI_quiet x); auto.
  - apply (TI_quiet x); auto.
  - (* control message *)
    destruct (conn_spub x i c B Hc) as [s Hp].
    destruct (ti_conn x log T i c s Hc Hp) as (ops & cmds & TCi). set (c' := set_action (set_wbuf c wb) act).
    destruct (conn_put x i c c' (put_slot (t_vec x) i c') Hc eq_refl (proj2 Hc)) as (V1 & V2 & V3).
    apply (TI_at x log _ _ i c c' s); auto.
    + repeat constructor.
    + split; [exact V3|exact (proj2 Hc)].
    + exists (ops ++ []), (cmds ++ [CmdCtrl p]). set (T0 := ts_open i log).
      assert (ET : ts_open i (log ++ [SvConn (EvMod (c_desc c) i (c_action c) act)]) = T0).
      { rewrite ts_app. fold T0. destruct T0. reflexivity. }
      apply (TC_step log _ i c c' s s ops [] cmds _); auto; rewrite ?ET; cbn [sub_run fst snd]; fold T0; try (match goal with |- ?a = ?a => reflexivity end).
      * rewrite app_nil_r. exact (tc_start _ _ _ _ _ _ TCi).
      * cbn. rewrite app_nil_r. reflexivity.
      * cbn. rewrite app_nil_r. reflexivity.
      * cbn [acked flat_map acked1 map app]. rewrite app_nil_r. apply Permutation_refl.
      * cbn [flat_map]. unfold c'. cbn [c_wbuf set_action set_wbuf]. rewrite W3, app_nil_r, app_assoc. reflexivity.
      * constructor; [split; [exact Hk|exact Logic.I]|constructor].
      * cbn. rewrite app_nil_r. reflexivity.
      * exists []. rewrite app_nil_r. reflexivity.
      * intros k b [].
      * intros q [[]|[]].
  - (* write *)
    destruct (conn_spub x i c B Hc) as [s Hp].
    destruct (ti_conn x log T i c s Hc Hp) as (ops & cmds & TCi). set (c' := set_action (set_wbuf c wb) act).
    destruct (conn_put x i c c' (put_slot (t_vec x) i c') Hc eq_refl (proj2 Hc)) as (V1 & V2 & V3).
    apply (TI_at x log _ _ i c c' s); auto.
    + repeat constructor.
    + split; [exact V3|exact (proj2 Hc)].
    + exists (ops ++ []), (cmds ++ []). set (T0 := ts_open i log).
      assert (ET : ts_open i (log ++ [SvTcp i sent; SvConn (EvMod (c_desc c) i (c_action c) act)]) =
                   mkTs (ts_sent T0 ++ sent) (ts_recv T0) (ts_dgram T0) (ts_got T0) (ts_put T0) (ts_acks T0) (ts_lost T0)).
      { rewrite ts_app. fold T0. destruct T0. cbn [fold_left ts_ev]. rewrite Z.eqb_refl. reflexivity. }
      apply (TC_step log _ i c c' s s ops [] cmds _); auto; rewrite ?ET; cbn [sub_run fst snd ts_sent ts_recv ts_dgram ts_got ts_put ts_acks ts_lost]; try (match goal with |- ?a = ?a => reflexivity end).
      * rewrite app_nil_r. exact (tc_start _ _ _ _ _ _ TCi).
      * cbn. rewrite app_nil_r. reflexivity.
      * cbn. rewrite app_nil_r. reflexivity.
      * cbn [acked flat_map acked1 map app]. rewrite app_nil_r. apply Permutation_refl.
      * cbn [flat_map]. unfold c'. cbn [c_wbuf set_action set_wbuf]. rewrite W3, app_nil_r, app_assoc. reflexivity.
      * cbn. rewrite app_nil_r. reflexivity.
      * exists []. rewrite app_nil_r. reflexivity.
      * intros k b [].
      * intros q [[]|[]].
  - (* read buffer *)
    destruct (conn_spub x i c B Hc) as [s Hp].
    destruct (ti_conn x log T i c s Hc Hp) as (ops & cmds & TCi).
    destruct (conn_put x i c (set_rbuf c rb) (put_slot (t_vec x) i (set_rbuf c rb)) Hc eq_refl (proj2 Hc)) as (V1 & V2 & V3).
    apply (TI_at x log _ _ i c (set_rbuf c rb) s); auto.
    + split; [exact V3|exact (proj2 Hc)].
    + exists ops, cmds. apply (TC_frame log [] i c); auto.
  - (* connect *)
    destruct (TV_connect (t_vec x) i c d addr port node POLLWRITE (bi_vec x B) Hs Hd Hd0) as (_ & S1 & S2 & S3 & Hm & F).
    apply (TI_one x log _ _ i); auto.
    + repeat constructor.
    + intros c1 s1 [H1 H2]. cbn [set_tvec t_vec] in H1. rewrite S1 in H1. injection H1 as <-. discriminate H2.
    + intros c1 H1 H2. cbn [set_tvec t_vec] in H1. rewrite S1 in H1. injection H1 as <-. split; [|exact F].
      rewrite ts_app. destruct (ts_open i log). cbn [fold_left ts_ev]. rewrite Z.eqb_refl. unfold ts_new. cbn. auto 10.
  - (* no connection *)
    destruct (tv_mode _ (bi_vec x B) i c Hs) as (D1 & _). assert (Hcl : c_mode c = CLOSED) by tauto. pose proof (slot_range _ _ _ Hs) as R.
    apply (TI_gone x log evs _ i c'); auto; cbn [set_tvec t_vec].
    + destruct Hev as [->|(d & _ & ->)]; repeat constructor.
    + unfold v_size. rewrite Ev. apply size_put.
    + intros j N. rewrite (slot_conns _ _ j Ev). apply slot_put_other; [lia|exact N].
    + rewrite (slot_conns _ _ i Ev). apply slot_put_same. exact R.
    + congruence.
  - apply (TI_one x log [] _ i); auto.
    + intros j N. cbn. apply tupd_other. exact N.
    + intros c s [H1 H2]. destruct (Hn c (conj H1 H2)).
    + intros c H1 H2. rewrite app_nil_r. exact (ti_wait x log T i c H1 H2).
  - apply (TI_one x log [] _ i); auto.
    + intros j N. cbn. apply tupd_other. exact N.
    + intros c s1 [H1 H2]. destruct (Hn c (conj H1 H2)).
    + intros c H1 H2. rewrite app_nil_r. exact (ti_wait x log T i c H1 H2).
  - (* established *)
    set (c' := set_action (set_mode c CONNECTED) POLLREAD). pose proof (slot_range _ _ _ Hs) as R.
    destruct (ti_wait x log T i c Hs Hm) as [(N1 & N2 & N3 & N4 & N5 & N6) F]. destruct (ring_fresh c F) as (_ & _ & F3).
    apply (TI_one x log _ _ i); auto; cbn [set_tvec t_vec].
    + repeat constructor.
    + apply size_put.
    + intros j N. apply slot_put_other; [lia|exact N].
    + intros c1 s1 [H1 H2] Hp1. cbn [set_tvec t_vec] in H1. rewrite slot_put_same in H1 by exact R. injection H1 as <-.
      cbn in Hp1. rewrite Hp in Hp1. injection Hp1 as <-. exists [], []. rewrite <- (app_nil_r log) in N1, N3, N4, N5, N6.
      assert (ET : ts_open i (log ++ [SvConn (EvMod (c_desc c) i (c_action c) POLLREAD)]) = ts_open i (log ++ [])).
      { rewrite !ts_app. cbn [fold_left]. destruct (ts_open i log). reflexivity. }
      constructor; rewrite ?ET, ?N1, ?N3, ?N4, ?N5, ?N6; auto.
      * intros k bs [].
      * intros p [[]|[]].
    + intros c1 H1 H2. rewrite slot_put_same in H1 by exact R. injection H1 as <-. discriminate H2.
  - (* abort *)
    destruct (TV_close (t_vec x) i c v (bi_vec x B) Hs ltac:(rewrite Hm; discriminate) Ec) as (_ & Sz & S & O).
    apply (TI_gone x log _ _ i (reset_conn c)); auto. repeat constructor.
  - destruct (TV_close (t_vec x) i c v (bi_vec x B) (proj1 Hc) (connected_mode x i c Hc) Ec) as (_ & Sz & S & O).
    apply (TI_gone x log _ _ i (reset_conn c)); auto.
    + constructor; [exact Logic.I|]. constructor; [exact Logic.I|]. apply free_about.
    + intros j N. cbn. apply tupd_other. exact N.
  - apply (TI_quiet x); auto. repeat constructor.
Qed.
Lemma good_ids_app a b : good_ids (a ++ b) -> good_ids a.
Proof. intros H. apply Forall_app in H. exact (proj1 H). Qed.
Lemma steps_TI r log x evs x' : BI x -> MI x log -> TI x log -> good_ids (log ++ evs) -> usteps r log x evs x' -> TI x' (log ++ evs).
Proof.
  intros B M T Gd Hu. induction Hu as [|evs x1 evs1 x2 Hu IH Hs]; [rewrite app_nil_r; exact T|].
  rewrite app_assoc in *. destruct (steps_BMI _ _ _ _ _ B M Hu) as [B1 M1].
  apply (step_TI r (log ++ evs) x1); auto.
  - exact (step_MI _ _ _ _ _ B1 M1 Hs).
  - apply IH. exact (good_ids_app _ _ Gd).
Qed.

(** ** Reachable contexts *)
Lemma fresh_inv x0 : fresh_sub x0 -> BI x0 /\ MI x0 [] /\ TI x0 [].
Proof.
  intros (node & buf & m & -> & L). pose proof (init_inv true buf L) as C.
  assert (Nc : forall i c, ~ sconnected (rmc_sub_init_context node buf m) i c).
  { intros i c [Hs Hm]. apply slot_init in Hs. destruct Hs as [_ Hs]. rewrite Hs in Hm. discriminate. }
  assert (Hh : held (rmc_sub_init_context node buf m) = []).
  { unfold held. cbn [t_ready rmc_sub_init_context]. rewrite app_nil_r. induction (indices _) as [|a l IH]; [reflexivity|exact IH]. }
  split; [|split].
  - constructor.
    + cbn [t_vec rmc_sub_init_context]. constructor.
      * exact (ci_size _ _ _ C).
      * exact (ci_max _ _ _ C).
      * intros i c Hs. destruct (slot_init buf i c Hs) as [A B]. rewrite A, B. unfold CLOSED. intuition lia.
      * intros i c Hs. destruct (slot_init buf i c Hs) as [A B]. destruct (ring_fresh c (init_clean buf i c Hs B)) as (F1 & F2 & _). auto.
      * apply init_clean.
      * exact (ci_active _ _ _ C).
    + intros i c H. destruct (Nc i c H).
    + intros i s H. discriminate H.
    + intros i s H. discriminate H.
    + intros i [].
    + intros i H. destruct (H eq_refl).
  - constructor; try (rewrite Hh); cbn; auto; try constructor; try tauto.
    + unfold owned. rewrite Hh. constructor.
    + unfold owned. rewrite Hh. intros q [].
    + unfold owned. rewrite Hh. cbn. tauto.
  - constructor.
    + intros i c s H. destruct (Nc i c H).
    + intros i c Hs Hm. apply slot_init in Hs. destruct Hs as [_ Hs]. rewrite Hs in Hm. discriminate.
Qed.
Lemma step_bmi x log o code x' evs : BI x -> MI x log -> yok x log o -> ystep x o = Ok (code, x', evs) ->
  usteps (reads o) log x evs x' /\ BI x' /\ MI x' (log ++ evs).
Proof.
  intros B M Hok E. pose proof (step_dec x log o B M Hok) as U. rewrite E in U. cbn [ssafe fst snd] in U.
  split; [exact U|]. exact (steps_BMI _ _ _ _ _ B M U).
Qed.
Lemma hist_inv_y t x0 ops x log : fresh_sub x0 -> yhist t x0 ops x log -> BI x /\ MI x log /\ (good_ids log -> TI x log).
Proof.
  intros F Hh. destruct (fresh_inv x0 F) as (B0 & M0 & T0).
  induction Hh as [|ops x log o code x' evs Hh IH Hok Hr E]; [auto|].
  destruct IH as (B & M & T). destruct (step_bmi x log o code x' evs B M Hok E) as (U & B' & M').
  split; [exact B'|]. split; [exact M'|]. intros G. apply (steps_TI _ log x evs x' B M (T (good_ids_app _ _ G)) G U).
Qed.
Lemma sreached_inv t x log : sreached t x log -> BI x /\ MI x log /\ (good_ids log -> TI x log).
Proof. intros (x0 & ops & F & Hh). exact (hist_inv_y t x0 ops x log F Hh). Qed.
Lemma sreached_step t x log o code x' evs : sreached t x log -> yok x log o -> (t = true -> read_good x o) ->
  ystep x o = Ok (code, x', evs) -> sreached t x' (log ++ evs).
Proof. intros (x0 & ops & F & Hh) Hok Hr E. exists x0, (ops ++ [o]). split; [exact F|]. eapply yh_step; eassumption. Qed.
