(** PropSubDeliver.v — theorems about what a subscriber context hands out and acknowledges on
    one connection: C72, C73. *)
From Coq Require Import Sorting.Permutation Sorting.Sorted.
From Verif Require Import Base CircBuf CircBufProofs Wire SeqList Sub SpecSub SubProofs SubTrace Proto SpecProto ProtoProofs
  Conn SpecConn ConnProofs SubCtx SpecSubCtx SubSteps SubMem SubDecomp SubInv PropSubCtx PropSubConn PropSubMem.

(** ** Nothing that could be handed out waits *)
Definition drained (s : spub) : Prop :=
  match s_recv s with [] => True | p :: _ => s_ready s <> 0 /\ sk_pid p <> u64 (s_ready s + 1) end.
Lemma loop_drained l : forall r, let '(r', _, rest) := process_loop r l in
  match rest with [] => True | p :: _ => r' <> 0 /\ sk_pid p <> u64 (r' + 1) end.
Proof.
  induction l as [|p l IH]; intros r; cbn [process_loop]; [exact Logic.I|].
  destruct (negb (r =? 0) && negb (sk_pid p =? u64 (r + 1))) eqn:E.
  - apply andb_prop in E. destruct E as [E1 E2]. split; intros X; [rewrite X in E1; discriminate|rewrite X, Z.eqb_refl in E2; discriminate].
  - specialize (IH (u64 (r + 1))). destruct (process_loop (u64 (r + 1)) l) as [[a b] d]. exact IH.
Qed.
Lemma process_drained s s' out : sub_process s = (s', out) -> drained s'.
Proof.
  unfold sub_process. set (r := match s_recv s with [] => _ | _ => _ end). pose proof (loop_drained (s_recv s) r) as L.
  destruct (process_loop r (s_recv s)) as [[a b] d]. intros E. injection E as <- <-. exact L.
Qed.
Definition all_drained (x : sctx) : Prop := forall i s, t_pubs x i = Some s -> drained s.
Lemma drained_upd f i s' : (forall j s, f j = Some s -> drained s) -> drained s' -> forall j s, tupd f i (Some s') j = Some s -> drained s.
Proof.
  intros A D j s. destruct (Z.eq_dec j i) as [->|N]; [rewrite tupd_same|rewrite tupd_other by exact N; apply A].
  intros E. injection E as <-. exact D.
Qed.
Lemma step_drained r log x evs x' : ustep r log x evs x' -> all_drained x -> all_drained x'.
Proof.
  unfold all_drained. intros Hu A. destruct Hu; try exact A.
  - intros j s Hs. rewrite H in Hs. eauto.
  - intros j q. rewrite H6. cbn [t_pubs]. rewrite tupd_twice. revert j q.
    apply drained_upd; [exact A|exact (process_drained _ _ _ H5)].
  - apply drained_upd; [exact A|exact (process_drained _ _ _ H1)].
  - apply drained_upd; [exact A|]. exact (A i s H0).
  - apply drained_upd; [exact A|]. exact (A i s H0).
  - apply drained_upd; [exact A|]. exact Logic.I.
  - apply drained_upd; [exact A|]. exact Logic.I.
  - apply drained_upd; [exact A|]. exact Logic.I.
Qed.
Lemma steps_drained r log x evs x' : usteps r log x evs x' -> all_drained x -> all_drained x'.
Proof. intros Hu A. induction Hu as [|e1 x1 e2 x2 Hu IH Hs]; [exact A|]. exact (step_drained _ _ _ _ _ Hs IH). Qed.
Lemma sreached_drained t x log : sreached t x log -> all_drained x.
Proof.
  intros (x0 & ops & F & Hh). induction Hh as [|ops x log o code x' evs Hh IH Hok Hr E].
  - destruct F as (node & buf & m & -> & L). intros i s X. discriminate X.
  - destruct (hist_inv_y t x0 ops x log F Hh) as (B & M & _). destruct (step_bmi x log o code x' evs B M Hok E) as (U & _).
    exact (steps_drained _ _ _ _ _ U IH).
Qed.
Record conn_facts (x : sctx) (log : list sev) (i : Z) (c : conn) (s : spub) (ops : list sop) (cmds : list cmd) : Prop := mkCF {
  cf_pub : t_pubs x i = Some s;
  cf_tc : TC log i c s ops cmds;
  cf_g : G (acc_packs ops (snd (sub_run sub_init ops))) (dispatched (snd (sub_run sub_init ops))) s;
  cf_h : ops = [] \/ (starts_processed ops /\ H ops (snd (sub_run sub_init ops)) s);
  cf_drained : drained s
}.
Lemma connected_facts t x log i c : sreached t x log -> good_ids log -> sconnected x i c -> exists s ops cmds, conn_facts x log i c s ops cmds.
Proof.
  intros R Gd Hc. destruct (sreached_inv t x log R) as (B & M & T). destruct (t_pubs x i) as [s|] eqn:Hs; [|exfalso; exact (bi_init x B i c Hc Hs)].
  destruct (ti_conn x log (T Gd) i c s Hc Hs) as (ops & cmds & Tc). exists s, ops, cmds. constructor; auto.
  - rewrite <- (tc_run _ _ _ _ _ _ Tc). apply G_run. exact (tc_good _ _ _ _ _ _ Tc).
  - destruct (tc_start _ _ _ _ _ _ Tc) as [E|E]; [left; exact E|right]. split; [exact E|]. rewrite <- (tc_run _ _ _ _ _ _ Tc). apply H_run; [exact E|].
    exact (tc_good _ _ _ _ _ _ Tc).
  - exact (sreached_drained t x log R i s Hs).
Qed.
Lemma got_ids log i c s ops cmds : TC log i c s ops cmds -> map (fun g => fst (fst g)) (ts_got (ts_open i log)) = acc_pids ops (snd (sub_run sub_init ops)).
Proof. intros Tc. rewrite <- (tc_got _ _ _ _ _ _ Tc), map_map. reflexivity. Qed.
Lemma put_ids log i c s ops cmds : TC log i c s ops cmds -> map fst (ts_put (ts_open i log)) = pids (dispatched (snd (sub_run sub_init ops))).
Proof. intros Tc. rewrite <- (tc_put _ _ _ _ _ _ Tc), map_map. reflexivity. Qed.
Lemma got_flat log i c s ops cmds : TC log i c s ops cmds ->
  map (fun g => (fst (fst g), snd g)) (ts_got (ts_open i log)) = map (put_of log) (acc_packs ops (snd (sub_run sub_init ops))).
Proof. intros Tc. rewrite <- (tc_got _ _ _ _ _ _ Tc). unfold acc_packs. rewrite !map_map. reflexivity. Qed.

Lemma nodup_r {X} (l m : list X) : NoDup (l ++ m) -> NoDup m.
Proof. induction l as [|a l IH]; [auto|]. intros N. inversion N; subst. auto. Qed.

(** ** C72. Delivery on one connection *)
(** Since the connection was opened: packets were handed out with consecutive ids. *)
Theorem c72_in_order : forall t x log i c, sreached t x log -> good_ids log -> sconnected x i c ->
  exists f, map fst (ts_put (ts_open i log)) = upfrom f (length (ts_put (ts_open i log))).
Proof.
  intros t x log i c R Gd Hc. destruct (connected_facts t x log i c R Gd Hc) as (s & ops & cmds & [F1 F2 F3 F4 F5]).
  rewrite (put_ids _ _ _ _ _ _ F2). rewrite <- (tc_put _ _ _ _ _ _ F2), map_length. pose proof (g_ready _ _ _ F3) as Gr.
  destruct (dispatched (snd (sub_run sub_init ops))) as [|p l]; [exists 0; reflexivity|]. exists (sk_pid p). exact (proj1 Gr).
Qed.
(** No packet is accepted twice, and so none is handed out twice. *)
Theorem c72_once : forall t x log i c, sreached t x log -> good_ids log -> sconnected x i c ->
  NoDup (map (fun g => fst (fst g)) (ts_got (ts_open i log))) /\ NoDup (map fst (ts_put (ts_open i log))).
Proof.
  intros t x log i c R Gd Hc. destruct (c72_in_order t x log i c R Gd Hc) as [f Hf]. destruct (connected_facts t x log i c R Gd Hc) as (s & ops & cmds & [F1 F2 F3 F4 F5]).
  split; [|rewrite Hf; apply upfrom_NoDup]. rewrite (got_ids _ _ _ _ _ _ F2).
  destruct F4 as [->|[_ F4]]; [constructor|]. exact (h_nd _ _ _ F4).
Qed.
(** The first packet accepted is the first one handed out. *)
Theorem c72_first : forall t x log i c k mc bs rest, sreached t x log -> good_ids log -> sconnected x i c ->
  ts_got (ts_open i log) = (k, mc, bs) :: rest -> exists rest', ts_put (ts_open i log) = (k, bs) :: rest'.
Proof.
  intros t x log i c k mc bs rest R Gd Hc Eg. destruct (connected_facts t x log i c R Gd Hc) as (s & ops & cmds & [F1 F2 F3 F4 F5]).
  pose proof (tc_got _ _ _ _ _ _ F2) as Tg. pose proof (tc_put _ _ _ _ _ _ F2) as Tp. pose proof (tc_good _ _ _ _ _ _ F2) as To. rewrite Eg in Tg.
  destruct F4 as [->|[(p & b & tm & ops1 & ->) F4]]; [discriminate Tg|]. apply Forall_inv in To. cbn [op_good] in To.
  cbn [sub_run sub_step] in Tg, Tp. change (sub_is_duplicate sub_init (sk_pid p)) with false in Tg, Tp. cbv iota in Tg, Tp.
  assert (E : exists s1, sub_process (sub_received sub_init p b tm) = (s1, [p])).
  { unfold sub_process. cbn [sub_received sub_init s_recv s_ready]. unfold seq_insert_sorted_rev. cbn [rev app seq_insert_sorted s_ready]. cbn [Z.eqb].
    cbn [process_loop]. rewrite (u64_pred _ To). replace (u64 (sk_pid p - 1 + 1)) with (sk_pid p) by (unfold good_pid in To; unfold u64; rewrite Z.mod_small; lia).
    rewrite Z.eqb_refl, andb_false_r. eexists. reflexivity. }
  destruct E as [s1 E]. rewrite E in Tg, Tp. destruct (sub_run s1 ops1) as [s2 outs]. cbn [snd accepted combine flat_map accepted1 app map dispatched dispatched1] in Tg, Tp.
  assert (Eg1 : got_of log (p, b, tm) = (k, mc, bs)) by congruence. unfold got_of in Eg1. cbn [fst snd] in Eg1. injection Eg1 as <- _ <-.
  exists (map (put_of log) (dispatched outs)). symmetry. exact Tp.
Qed.
(** A packet has been handed out exactly if it and all packets since the first one accepted have
    been: none is held back by more than what is missing. *)
Theorem c72_exact : forall t x log i c f bs rest, sreached t x log -> good_ids log -> sconnected x i c ->
  ts_put (ts_open i log) = (f, bs) :: rest ->
  forall k, In k (map fst (ts_put (ts_open i log))) <->
            f <= k /\ forall j, f <= j <= k -> In j (map (fun g => fst (fst g)) (ts_got (ts_open i log))).
Proof.
  intros t x log i c f bs rest R Gd Hc Ep k. destruct (connected_facts t x log i c R Gd Hc) as (s & ops & cmds & [F1 F2 F3 F4 F5]).
  rewrite (got_ids _ _ _ _ _ _ F2), (put_ids _ _ _ _ _ _ F2), pids_eq. pose proof (tc_put _ _ _ _ _ _ F2) as Tp. rewrite Ep in Tp. destruct F3 as [A B C D].
  destruct F4 as [->|[_ F4]]; [discriminate Tp|].
  destruct (dispatched (snd (sub_run sub_init ops))) as [|d disp] eqn:Ed; [discriminate Tp|]. destruct D as (D1 & D2 & D3).
  cbn [map] in Tp. unfold put_of at 1 in Tp. injection Tp as <- _ _. rewrite D1, upfrom_In. unfold zlen in D2. split.
  - intros Hk. split; [lia|]. intros j Hj. assert (X : In j (pids (d :: disp))) by (rewrite D1, upfrom_In; lia).
    unfold pids in *. apply in_map_iff in X. destruct X as (q & <- & Hq). apply in_map. eapply Permutation_in; [symmetry; exact C|]. apply in_or_app. auto.
  - intros (Hk & Hall). split; [exact Hk|]. destruct (Z_lt_dec k (sk_pid d + Z.of_nat (length (d :: disp)))) as [|Hge]; [assumption|exfalso].
    specialize (Hall (s_ready s + 1) ltac:(lia)). unfold pids in Hall. apply in_map_iff in Hall. destruct Hall as (q & Eq & Hq).
    apply (Permutation_in _ C) in Hq. apply in_app_or in Hq. destruct Hq as [Hq|Hq].
    + assert (X : In (sk_pid q) (pids (d :: disp))) by (apply in_map; exact Hq). rewrite D1, upfrom_In in X. lia.
    + unfold drained in F5. destruct (s_recv s) as [|p l] eqn:Er; [contradiction|]. destruct F5 as [_ F5].
      pose proof (h_gt _ _ _ F4 p) as Hp. rewrite Er in Hp. specialize (Hp (or_introl eq_refl)).
      assert (Hle : sk_pid p <= sk_pid q).
      { unfold psorted, pids in A. cbn [map] in A. inversion A as [|? ? _ Fa]; subst. destruct Hq as [<-|Hq]; [lia|].
        rewrite Forall_forall in Fa. apply Fa. apply in_map. exact Hq. }
      apply F5. replace (u64 (s_ready s + 1)) with (s_ready s + 1) by (unfold u64; rewrite Z.mod_small; lia). lia.
Qed.
(** Everything accepted has been handed out, or waits; ids and payloads are those accepted. *)
Theorem c72_contents : forall t x log i c, sreached t x log -> good_ids log -> sconnected x i c ->
  exists wait, Permutation (map (fun g => (fst (fst g), snd g)) (ts_got (ts_open i log))) (ts_put (ts_open i log) ++ wait) /\
    map fst wait = map sk_pid (waiting x i) /\ map (fun w => Some (snd w)) wait = map (fun p => t_mem x (sk_payload p)) (waiting x i).
Proof.
  intros t x log i c R Gd Hc. destruct (connected_facts t x log i c R Gd Hc) as (s & ops & cmds & [F1 F2 F3 F4 F5]).
  destruct (sreached_inv t x log R) as (B & M & _).
  assert (W : waiting x i = s_recv s) by (unfold waiting; rewrite F1; reflexivity).
  exists (map (put_of log) (s_recv s)). split; [|split].
  - rewrite (got_flat _ _ _ _ _ _ F2), <- (tc_put _ _ _ _ _ _ F2), <- map_app. apply Permutation_map. exact (g_perm _ _ _ F3).
  - rewrite W, map_map. reflexivity.
  - rewrite W, map_map. apply map_ext_in. intros p Hp. unfold put_of. cbn [snd]. symmetry.
    assert (Hh : In p (held x)) by (apply in_held; left; exists i; split; [exact (slot_range _ _ _ (proj1 Hc))|rewrite W; exact Hp]).
    destruct (mi_held x log M p Hh) as (_ & H1 & _). exact H1.
Qed.
(** Packets that wait have larger ids than those handed out, in increasing order. *)
Theorem c72_waiting : forall t x log i c, sreached t x log -> good_ids log -> sconnected x i c ->
  StronglySorted Z.lt (map fst (ts_put (ts_open i log)) ++ map sk_pid (waiting x i)).
Proof.
  intros t x log i c R Gd Hc. destruct (c72_once t x log i c R Gd Hc) as [Nd _]. destruct (connected_facts t x log i c R Gd Hc) as (s & ops & cmds & [F1 F2 F3 F4 F5]).
  assert (W : waiting x i = s_recv s) by (unfold waiting; rewrite F1; reflexivity). rewrite W.
  rewrite (got_ids _ _ _ _ _ _ F2), pids_eq in Nd. rewrite (put_ids _ _ _ _ _ _ F2). destruct F3 as [A B C D].
  fold (pids (s_recv s)). pose proof (Permutation_map sk_pid C) as Pm. fold (pids (acc_packs ops (snd (sub_run sub_init ops)))) in Pm. rewrite map_app in Pm.
  apply (Permutation_NoDup Pm) in Nd. clear Pm.
  assert (Sr : StronglySorted Z.lt (pids (s_recv s))).
  { apply nodup_r in Nd. fold (pids (s_recv s)) in Nd. clear -A Nd. unfold psorted in A. induction A as [|a l A IH Fa]; [constructor|]. inversion Nd; subst.
    constructor; [auto|]. rewrite Forall_forall in *. intros y Hy. specialize (Fa y Hy). assert (a <> y) by (intros ->; contradiction). lia. }
  assert (Sd : StronglySorted Z.lt (pids (dispatched (snd (sub_run sub_init ops)))) /\ forall y z, In y (pids (dispatched (snd (sub_run sub_init ops)))) -> In z (pids (s_recv s)) -> y < z).
  { destruct (dispatched (snd (sub_run sub_init ops))) as [|d disp]; [split; [constructor|intros ? ? []]|]. destruct D as (D1 & D2 & D3). rewrite D1. split.
    - clear. generalize (sk_pid d). induction (length (d :: disp)) as [|n IH]; intros f; cbn; constructor; [apply IH|]. rewrite Forall_forall. intros y Hy.
      apply upfrom_In in Hy. lia.
    - intros y z Hy Hz. apply upfrom_In in Hy. unfold pids in Hz. apply in_map_iff in Hz. destruct Hz as (q & <- & Hq). destruct F4 as [->|[_ F4]].
      + pose proof (tc_run _ _ _ _ _ _ F2) as Es. cbn in Es. rewrite <- Es in Hq. contradiction.
      + pose proof (h_gt _ _ _ F4 q Hq). unfold zlen in D2. lia. }
  destruct Sd as [Sd Sx]. revert Sd Sr Sx. generalize (pids (dispatched (snd (sub_run sub_init ops)))) (pids (s_recv s)). clear.
  induction l as [|a l IH]; intros m S1 S2 X; [exact S2|]. cbn [app]. inversion S1; subst. constructor.
  - apply IH; auto. intros y z Hy. apply X. right. exact Hy.
  - apply Forall_app. split; [assumption|]. rewrite Forall_forall. intros z Hz. apply X; [left; reflexivity|exact Hz].
Qed.

(** ** C73. What is acknowledged on one connection *)
(** How many of the intervals [l] contain [k]. *)
Definition times (k : Z) (l : list (Z * Z)) : nat := length (filter (fun ab => (fst ab <=? k) && (k <=? snd ab)) l).
Lemma times_app k a b : times k (a ++ b) = (times k a + times k b)%nat.
Proof. unfold times. rewrite filter_app, app_length. reflexivity. Qed.
Lemma times_perm k a b : Permutation a b -> times k a = times k b.
Proof.
  intros P. unfold times. induction P as [|y a b P IH|y z a|a b d P IH P2 IH2]; [reflexivity| | |congruence].
  - cbn [filter]. destruct (_ && _); cbn [length]; congruence.
  - cbn [filter]. destruct ((fst y <=? k) && _), ((fst z <=? k) && _); reflexivity.
Qed.
Lemma times_covered k l : covered k l <-> (0 < times k (map iv_pair l))%nat.
Proof.
  unfold times, covered. induction l as [|iv l IH]; cbn [map filter length].
  - split; [intros (? & [] & _)|lia].
  - destruct (_ && _) eqn:E; cbn [length].
    + split; [lia|]. intros _. exists iv. split; [left; reflexivity|]. apply andb_prop in E. unfold in_iv, iv_pair in *. cbn [fst snd] in E. lia.
    + rewrite <- IH. split.
      * intros (jv & [<-|Hj] & Hk); [|eauto]. exfalso. apply andb_false_iff in E. unfold in_iv, iv_pair in *. cbn [fst snd] in E. lia.
      * intros (jv & Hj & Hk). eauto using in_cons.
Qed.
(** Each id is in at most one of the intervals taken for acknowledgement. *)
Lemma started_prefix ops o : starts_processed (ops ++ [o]) -> starts_processed ops \/ (length ops <= 1)%nat.
Proof.
  intros (p & b & t & rest & E). destruct ops as [|a [|a2 ops]]; [right; cbn; lia|right; cbn; lia|left].
  cbn [app] in E. injection E as -> -> E. exists p, b, t, ops. reflexivity.
Qed.
Lemma acked_once ops : starts_processed ops -> Forall op_good ops -> forall k, (times k (map iv_pair (acked (snd (sub_run sub_init ops)))) <= 1)%nat.
Proof.
  induction ops as [|o ops IH] using rev_ind; intros Hs Hg k; [destruct Hs as (? & ? & ? & ? & X); discriminate X|].
  apply Forall_app in Hg. destruct Hg as [Hg Ho]. rewrite srun_snoc. cbn [snd]. rewrite acked_snoc, map_app, times_app.
  destruct (started_prefix ops o Hs) as [Hp|Hl].
  - specialize (IH Hp Hg k). pose proof (H_run ops Hp Hg) as HI. set (s := fst (sub_run sub_init ops)) in *. set (outs := snd (sub_run sub_init ops)) in *.
    destruct o as [p b t| |]; cbn [sub_step].
    + destruct (sub_is_duplicate s (sk_pid p)); cbn [snd acked1 map]; change (times k []) with 0%nat; lia.
    + destruct (sub_process s); cbn [snd acked1 map]; change (times k []) with 0%nat; lia.
    + unfold sub_pop_interval. destruct (s_intv s) as [|iv l] eqn:Ei; cbn [snd acked1 map]; [change (times k []) with 0%nat; lia|].
      destruct (times k (map iv_pair (acked outs))) as [|n] eqn:Et; [unfold times; cbn [filter]; destruct (_ && _); cbn; lia|].
      assert (Hc : covered k (acked outs)) by (apply times_covered; lia). assert (n = 0)%nat by lia. subst n.
      enough (times k [iv_pair iv] = 0)%nat by lia. destruct (times k [iv_pair iv]) as [|m] eqn:Em; [reflexivity|exfalso].
      assert (Hiv : covered k [iv]) by (apply times_covered; cbn [map]; lia).
      assert (Hcs : covered k (s_intv s)). { rewrite Ei. destruct Hiv as (jv & [<-|[]] & Hk). exists iv. split; [left; reflexivity|exact Hk]. }
      apply (h_cov _ _ _ HI) in Hcs. tauto.
  - destruct Hs as (p & b & t & rest & E). destruct ops as [|a [|a2 ops]]; [discriminate E| |cbn in Hl; lia].
    cbn [app] in E. injection E as -> -> <-. cbn [sub_run sub_step]. change (sub_is_duplicate sub_init (sk_pid p)) with false. cbv iota.
    destruct (sub_process _). cbn [fst snd acked acked1 flat_map app map]. cbn. lia.
Qed.
Lemma stored_got log i c s ops cmds k : TC log i c s ops cmds ->
  (In k (map fst (stored ops (snd (sub_run sub_init ops)))) <-> exists bs, In (k, true, bs) (ts_got (ts_open i log))).
Proof.
  intros Tc. rewrite <- (tc_got _ _ _ _ _ _ Tc). unfold stored. rewrite map_map. cbn [fst]. rewrite in_map_iff. split.
  - intros ([[p b] t] & E & Ha). apply filter_In in Ha. cbn [fst snd] in *. destruct Ha as [Ha ->]. exists (cont log (sk_addr p)). subst k.
    exact (in_map (got_of log) _ _ Ha).
  - intros (bs & Hi). apply in_map_iff in Hi. destruct Hi as ([[p b] t] & E & Ha). unfold got_of in E. cbn [fst snd] in E.
    injection E as E1 -> E3. exists (p, true, t). split; [exact E1|]. apply filter_In. auto.
Qed.
(** Of the packets a connection accepted, exactly those that came by multicast are acknowledged,
    or wait for it, or had their acknowledgement lost, and each of them only once. *)
Theorem c73_exact : forall t x log i c k, sreached t x log -> good_ids log -> sconnected x i c ->
  let T := ts_open i log in
  let n := (times k (ts_acks T) + times k (ts_lost T) + times k (map (fun iv => (iv_first iv, iv_last iv)) (pending_acks x i)))%nat in
  (n <= 1)%nat /\ ((n = 1)%nat <-> exists bs, In (k, true, bs) (ts_got T)).
Proof.
  intros t x log i c k R Gd Hc T. destruct (connected_facts t x log i c R Gd Hc) as (s & ops & cmds & [F1 F2 F3 F4 F5]).
  cbv zeta. fold iv_pair. unfold pending_acks. rewrite F1. pose proof (times_perm k _ _ (tc_ack _ _ _ _ _ _ F2)) as Pm. rewrite times_app in Pm. fold T in Pm.
  change (fun iv : intv => (iv_first iv, iv_last iv)) with iv_pair. unfold T in *. rewrite <- (stored_got _ _ _ _ _ _ k F2). rewrite <- Pm.
  destruct F4 as [->|[Hs F4]].
  - pose proof (tc_run _ _ _ _ _ _ F2) as <-. cbn. split; [lia|]. split; [lia|intros []].
  - pose proof (acked_once ops Hs (tc_good _ _ _ _ _ _ F2) k) as A1. pose proof (h_cov _ _ _ F4 k) as Hcov. pose proof (h_ack _ _ _ F4 k) as Hack.
    pose proof (h_sep _ _ _ F4) as Hsep.
    assert (A2 : (times k (map iv_pair (s_intv s)) <= 1)%nat).
    { clear -Hsep. induction (s_intv s) as [|iv l IH]; [cbn; lia|]. destruct Hsep as (S1 & S2 & S3). specialize (IH S3).
      cbn [map]. change (iv_pair iv :: map iv_pair l) with ([iv_pair iv] ++ map iv_pair l). rewrite times_app.
      destruct (times k (map iv_pair l)) as [|m] eqn:Et; [unfold times; cbn [filter]; destruct (_ && _); cbn; lia|].
      assert (Hc : covered k l) by (apply times_covered; lia). destruct Hc as (jv & Hj & Hk). specialize (S2 jv Hj). unfold in_iv in Hk.
      unfold times. cbn [filter iv_pair fst snd]. destruct ((iv_first iv <=? k) && (k <=? iv_last iv)) eqn:E; cbn [length]; lia. }
    rewrite times_covered in Hcov, Hack. rewrite times_covered in Hcov. split; [lia|]. split.
    + intros E. destruct (times k (map iv_pair (acked (snd (sub_run sub_init ops))))) as [|m] eqn:Em; [apply Hcov; lia|apply Hack; lia].
    + intros Hin. destruct (times k (map iv_pair (acked (snd (sub_run sub_init ops))))) as [|m] eqn:Em; [|lia].
      assert (0 < times k (map iv_pair (s_intv s)))%nat; [|lia]. apply Hcov. split; [exact Hin|lia].
Qed.
(** What was put on the socket and what the TCP ring still holds are together a sequence of whole
    commands, and the acks among them are exactly those the context sent. *)
Theorem c73_wire : forall t x log i c, sreached t x log -> good_ids log -> sconnected x i c ->
  exists cmds, Forall (fun m => cmd_ok m /\ for_pub m) cmds /\
    ts_sent (ts_open i log) ++ contents (c_wbuf c) = flat_map wire cmds /\
    flat_map (fun m => match m with CmdAck a b => [(a, b)] | _ => [] end) cmds = ts_acks (ts_open i log).
Proof.
  intros t x log i c R Gd Hc. destruct (connected_facts t x log i c R Gd Hc) as (s & ops & cmds & [F1 F2 F3 F4 F5]).
  exists cmds. split; [exact (tc_cmds _ _ _ _ _ _ F2)|]. split; [exact (tc_wire _ _ _ _ _ _ F2)|exact (tc_acks _ _ _ _ _ _ F2)].
Qed.
(** No packet is acknowledged that did not come in a datagram of the publisher the connection
    leads to. *)
Theorem c73_sound : forall t x log i c k a b, sreached t x log -> good_ids log -> sconnected x i c ->
  In (a, b) (ts_acks (ts_open i log)) -> a <= k <= b ->
  exists bs sd, In (k, true, bs) (ts_got (ts_open i log)) /\ In sd (ts_dgram (ts_open i log)) /\ carries_packet (c_addr c) (c_port c) k bs sd.
Proof.
  intros t x log i c k a b R Gd Hc Hi Hk. destruct (c73_exact t x log i c k R Gd Hc) as [N1 N2]. cbv zeta in N1, N2.
  assert (P : (0 < times k (ts_acks (ts_open i log)))%nat).
  { unfold times. apply in_split in Hi. destruct Hi as (l1 & l2 & ->). rewrite filter_app, app_length. cbn [filter fst snd].
    replace ((a <=? k) && (k <=? b)) with true by lia. cbn [length]. lia. }
  destruct N2 as [N2 _]. destruct N2 as [bs Hb]; [lia|]. destruct (connected_facts t x log i c R Gd Hc) as (s & ops & cmds & [F1 F2 F3 F4 F5]).
  destruct (tc_dgram _ _ _ _ _ _ F2 k bs Hb) as (sd & H1 & H2 & _). exists bs, sd. auto.
Qed.
(** Packets 5 and 7 arrive, 5 and 7 are acknowledged, 9 arrives, then 6 closes the gap up to 7, and 9 waits. *)
Definition deliver_ops : list yop :=
  sdemo_ops ++ [YTimeout 200000; mcast_in [data 9 [90] 300 200100 []]; mcast_in [data 6 [60; 61; 62] 400 200200 []; data 5 [50; 51] 500 200300 []]].
Example c72_witness : exists x log c, yhist true sdemo0 deliver_ops x log /\ good_ids log /\ sconnected x 0 c /\
  map (fun g => fst (fst g)) (ts_got (ts_open 0 log)) = [5; 7; 9; 6] /\ ts_put (ts_open 0 log) = [(5, [50; 51]); (6, [60; 61; 62]); (7, [70])] /\
  map sk_pid (waiting x 0) = [9] /\ ts_acks (ts_open 0 log) = [(5, 5); (7, 7)] /\ map iv_pair (pending_acks x 0) = [(6, 6); (9, 9)] /\
  contents (c_wbuf c) = wire (CmdAck 5 5) ++ wire (CmdAck 7 7).
Proof.
  destruct (yrun sdemo0 [] deliver_ops) as [[x log]|] eqn:E1; [|vm_compute in E1; discriminate E1].
  pose proof (yrun_hist true sdemo0 _ sdemo0 [] [] x log (yh_nil _ _) E1) as H1. vm_compute in E1. injection E1 as <- <-.
  do 3 eexists. split; [exact H1|]. split; [repeat constructor; cbn; unfold good_pid; lia|]. split; [split; reflexivity|].
  repeat split; vm_compute; reflexivity.
Qed.
Print Assumptions c72_exact.
Print Assumptions c72_contents.
Print Assumptions c72_waiting.
Print Assumptions c73_exact.
Print Assumptions c73_sound.
