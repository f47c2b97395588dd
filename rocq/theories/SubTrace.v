(** SubTrace.v — invariants of sub.c over histories. *)
From Coq Require Import Sorting.Sorted Permutation.
From Verif Require Import Base SeqList Sub SpecSub SubProofs.

Lemma srun_len ops : forall s, length (snd (sub_run s ops)) = length ops.
Proof.
  induction ops as [|o ops IH]; intros s; [reflexivity|]. cbn [sub_run]. destruct (sub_step s o) as [s1 x].
  specialize (IH s1). destruct (sub_run s1 ops) as [s2 xs]. cbn in *. lia.
Qed.
Lemma srun_snoc ops o : forall s, sub_run s (ops ++ [o]) =
  (fst (sub_step (fst (sub_run s ops)) o), snd (sub_run s ops) ++ [snd (sub_step (fst (sub_run s ops)) o)]).
Proof.
  induction ops as [|o' ops IH]; intros s; cbn [app sub_run].
  - cbn [fst snd]. destruct (sub_step s o) as [s1 x]. reflexivity.
  - destruct (sub_step s o') as [s1 x]. rewrite IH. destruct (sub_run s1 ops) as [s2 xs]. reflexivity.
Qed.
Lemma combine_snoc {X Y} (l : list X) (m : list Y) x y : length l = length m ->
  combine (l ++ [x]) (m ++ [y]) = combine l m ++ [(x, y)].
Proof.
  revert m. induction l as [|a l IH]; intros [|b m] H; try discriminate; [reflexivity|]. cbn in *. f_equal. apply IH. lia.
Qed.
Lemma accepted_snoc ops outs o x : length outs = length ops ->
  accepted (ops ++ [o]) (outs ++ [x]) = accepted ops outs ++ accepted1 (o, x).
Proof. intros H. unfold accepted. rewrite combine_snoc by congruence. rewrite flat_map_app. cbn. rewrite app_nil_r. reflexivity. Qed.
Lemma dispatched_snoc outs x : dispatched (outs ++ [x]) = dispatched outs ++ dispatched1 x.
Proof. unfold dispatched. rewrite flat_map_app. cbn. rewrite app_nil_r. reflexivity. Qed.
Lemma acked_snoc outs x : acked (outs ++ [x]) = acked outs ++ acked1 x.
Proof. unfold acked. rewrite flat_map_app. cbn. rewrite app_nil_r. reflexivity. Qed.
Lemma upfrom_app f n m : upfrom f n ++ upfrom (f + Z.of_nat n) m = upfrom f (n + m).
Proof.
  revert f. induction n as [|n IH]; intros f; cbn [upfrom plus app].
  - f_equal. lia.
  - f_equal. rewrite <- IH. do 2 f_equal. lia.
Qed.
Lemma upfrom_In f n k : In k (upfrom f n) <-> f <= k < f + Z.of_nat n.
Proof.
  revert f. induction n as [|n IH]; intros f; cbn [upfrom In]; [lia|]. rewrite IH. lia.
Qed.
Lemma upfrom_NoDup f n : NoDup (upfrom f n).
Proof.
  revert f. induction n as [|n IH]; intros f; cbn [upfrom]; [constructor|]. constructor; [|apply IH].
  rewrite upfrom_In. lia.
Qed.
Lemma upfrom_len f n : length (upfrom f n) = n.
Proof. revert f. induction n as [|n IH]; intros f; [reflexivity|]. cbn. rewrite IH. reflexivity. Qed.

(** ** Any history *)
Record G (acc : list spacket) (disp : list spacket) (s : spub) : Prop := mkG {
  g_sort : psorted (s_recv s);
  g_good : forall p, In p acc -> good_pid (sk_pid p);
  g_perm : Permutation acc (disp ++ s_recv s);
  g_ready : match disp with
            | [] => s_ready s = 0
            | p :: _ => pids disp = upfrom (sk_pid p) (length disp) /\ s_ready s = sk_pid p + zlen disp - 1 /\
                        1 <= s_ready s < 18446744073709551615
            end
}.
Lemma G_init : G [] [] sub_init.
Proof. split; cbn; try constructor; try tauto. Qed.
Lemma G_recv acc disp s p b t : G acc disp s -> good_pid (sk_pid p) -> G (acc ++ [p]) disp (sub_received s p b t).
Proof.
  intros [A B C D] Hp. split.
  - apply insert_sorted_ok. exact A.
  - intros q Hq. apply in_app_or in Hq. destruct Hq as [Hq|[<-|[]]]; auto.
  - cbn [sub_received s_recv]. transitivity (p :: acc); [symmetry; apply Permutation_cons_append|].
    transitivity (p :: disp ++ s_recv s); [constructor; exact C|].
    transitivity (disp ++ p :: s_recv s); [apply Permutation_middle|]. apply Permutation_app_head, insert_perm.
  - exact D.
Qed.
Lemma sub_process_spec acc disp s : G acc disp s ->
  exists s' out, sub_process s = (s', out) /\ G acc (disp ++ out) s' /\ s_recv s = out ++ s_recv s' /\
    s_intv s' = s_intv s /\ s_ready s <= s_ready s' /\
    match s_recv s' with [] => True | p :: _ => sk_pid p <> s_ready s' + 1 end /\
    (s_recv s <> [] -> s_ready s' <> 0).
Proof.
  intros [A B C D]. unfold sub_process.
  set (ready := match s_recv s with [] => s_ready s | p :: _ => if s_ready s =? 0 then u64 (sk_pid p - 1) else s_ready s end).
  destruct (process_loop ready (s_recv s)) as [[r' out] rest] eqn:E. exists (mkSP r' (s_maxrecv s) rest (s_intv s)), out.
  assert (Hg : forall p, In p (s_recv s) -> good_pid (sk_pid p)).
  { intros p Hp. apply B. eapply Permutation_in; [symmetry; exact C|]. apply in_or_app. auto. }
  assert (Hb : 0 <= s_ready s < 18446744073709551615) by (destruct disp; [lia|destruct D as (_ & _ & D); lia]).
  assert (HR : 0 <= ready < 18446744073709551615 /\ s_ready s <= ready /\ (s_ready s <> 0 -> ready = s_ready s) /\
    (ready = 0 -> match s_recv s with [] => True | p :: _ => sk_pid p = 1 end) /\
    (s_ready s = 0 -> match s_recv s with [] => ready = 0 | p :: _ => ready = sk_pid p - 1 end)).
  { unfold ready. destruct (s_recv s) as [|p l].
    - repeat split; lia.
    - specialize (Hg p (or_introl eq_refl)). rewrite (u64_pred _ Hg). unfold good_pid in Hg.
      destruct (s_ready s =? 0) eqn:E0; repeat split; lia. }
  destruct HR as (R1 & R2 & R3 & R4 & R5).
  destruct (process_loop_spec _ _ _ _ _ Hg R1 R4 E) as (P1 & P2 & P3 & P4 & P5).
  split; [reflexivity|]. cbn [s_recv s_intv s_ready].
  split; [|split; [exact P1|split; [reflexivity|split; [pose proof (zlen_nonneg out); lia|split]]]].
  - split; cbn [s_recv s_ready].
    + unfold psorted, pids in *. rewrite P1, map_app in A. clear -A. induction (map sk_pid out) as [|x m IH]; [exact A|].
      cbn in A. inversion A; subst. auto.
    + exact B.
    + rewrite <- app_assoc, <- P1. exact C.
    + destruct disp as [|d disp]; cbn [app].
      * destruct out as [|q out].
        -- rewrite zlen_nil in P3. destruct (s_recv s) as [|p l] eqn:Er; [specialize (R5 D); lia|].
           exfalso. cbn [app] in P1. subst rest. specialize (R5 D). lia.
        -- assert (Hq : ready = sk_pid q - 1). { rewrite P1 in R5. cbn [app] in R5. apply R5. exact D. }
           split; [rewrite P2; f_equal; lia|]. rewrite zlen_cons in *.
           assert (In q (s_recv s)) as Hin by (rewrite P1; left; reflexivity). specialize (Hg q Hin). unfold good_pid in Hg.
           pose proof (zlen_nonneg out). lia.
      * destruct D as (D1 & D2 & D3). rewrite (R3 ltac:(lia)) in *.
        split; [|rewrite zlen_cons, zlen_app in *; pose proof (zlen_nonneg out); lia].
        unfold pids in *. cbn [app]. change (d :: disp ++ out) with ((d :: disp) ++ out). rewrite map_app, app_length, D1, P2, <- upfrom_app.
        f_equal. f_equal. rewrite D2. unfold zlen. cbn [length]. lia.
  - destruct rest; [exact Logic.I|]. tauto.
  - intros Hne. destruct rest as [|p l]; [|tauto]. rewrite app_nil_r in P1. subst out.
    destruct (s_recv s) as [|q m]; [congruence|]. rewrite zlen_cons in P3. pose proof (zlen_nonneg m). lia.
Qed.
Lemma G_pop acc disp s : G acc disp s -> G acc disp (fst (sub_pop_interval s)).
Proof. intros [A B C D]. unfold sub_pop_interval. destruct (s_intv s); split; cbn; auto. Qed.

Definition acc_packs (ops : list sop) (outs : list sout) : list spacket := map (fun a => fst (fst a)) (accepted ops outs).
Lemma G_run ops : Forall op_good ops ->
  G (acc_packs ops (snd (sub_run sub_init ops))) (dispatched (snd (sub_run sub_init ops))) (fst (sub_run sub_init ops)).
Proof.
  induction ops as [|o ops IH] using rev_ind; intros HF; [apply G_init|]. apply Forall_app in HF. destruct HF as [HF Ho].
  specialize (IH HF). inversion Ho as [|? ? Ho' _]; subst. rewrite srun_snoc. cbn [fst snd].
  unfold acc_packs. rewrite accepted_snoc, dispatched_snoc, map_app by apply srun_len.
  fold (acc_packs ops (snd (sub_run sub_init ops))).
  set (s := fst (sub_run sub_init ops)) in *. set (outs := snd (sub_run sub_init ops)) in *.
  destruct o as [p b t| |]; cbn [sub_step op_good] in *.
  - destruct (sub_is_duplicate s (sk_pid p)); cbn [fst snd accepted1 dispatched1 map]; rewrite ?app_nil_r; [exact IH|].
    apply G_recv; assumption.
  - destruct (sub_process_spec _ _ _ IH) as (s' & out & E & H & _). rewrite E. cbn [fst snd accepted1 dispatched1 map]. rewrite app_nil_r. exact H.
  - pose proof (G_pop _ _ _ IH) as H. destruct (sub_pop_interval s) as [s' iv]. cbn [fst snd accepted1 dispatched1 map] in *. rewrite !app_nil_r. exact H.
Qed.

(** ** Histories whose first packet was processed before anything else arrived *)
Definition stored (ops : list sop) (outs : list sout) : list (Z * Z) :=
  map (fun a => (sk_pid (fst (fst a)), snd a)) (filter (fun a => snd (fst a)) (accepted ops outs)).

Record H (ops : list sop) (outs : list sout) (s : spub) : Prop := mkH {
  h_g : G (acc_packs ops outs) (dispatched outs) s;
  h_disp : dispatched outs <> [];
  h_gt : forall p, In p (s_recv s) -> s_ready s < sk_pid p;
  h_nd : NoDup (acc_pids ops outs);
  h_sep : separated (s_intv s);
  h_ivg : ivs_good (s_intv s);
  h_cov : forall k, covered k (s_intv s) <-> In k (map fst (stored ops outs)) /\ ~ covered k (acked outs);
  h_ack : forall k, covered k (acked outs) -> In k (map fst (stored ops outs))
}.

Lemma pids_eq ops outs : acc_pids ops outs = pids (acc_packs ops outs).
Proof. unfold acc_pids, pids, acc_packs. rewrite map_map. reflexivity. Qed.
Lemma stored_acc ops outs k : In k (map fst (stored ops outs)) -> In k (acc_pids ops outs).
Proof.
  unfold stored, acc_pids. rewrite map_map. rewrite !in_map_iff. intros (a & E & Ha). apply filter_In in Ha.
  exists a. split; [exact E|tauto].
Qed.
Lemma dup_started ops outs s k : H ops outs s ->
  (sub_is_duplicate s k = true <-> k <= s_ready s \/ In k (acc_pids ops outs)).
Proof.
  intros I. destruct (h_g _ _ _ I) as [A B C D]. rewrite (is_duplicate_iff s k A).
  pose proof (h_disp _ _ _ I) as Hd. destruct (dispatched outs) as [|d disp]; [congruence|]. destruct D as (D1 & D2 & D3).
  rewrite pids_eq. split.
  - intros [_ [X|X]]; [left; exact X|right]. unfold pids in *. apply in_map_iff in X. destruct X as (q & <- & Hq).
    apply in_map. eapply Permutation_in; [symmetry; exact C|]. apply in_or_app. auto.
  - intros [X|X]; [split; [lia|left; exact X]|]. split; [lia|]. unfold pids in X. apply in_map_iff in X. destruct X as (q & <- & Hq).
    apply (Permutation_in q C) in Hq. apply in_app_or in Hq. destruct Hq as [Hq|Hq]; [left|right; apply in_map; exact Hq].
    assert (X : In (sk_pid q) (pids (d :: disp))) by (apply in_map; exact Hq). rewrite D1, upfrom_In in X. unfold zlen in D2. lia.
Qed.
Lemma H_step ops outs s o : H ops outs s -> length outs = length ops -> op_good o ->
  H (ops ++ [o]) (outs ++ [snd (sub_step s o)]) (fst (sub_step s o)).
Proof.
  intros I Hlen Ho. pose proof (h_g _ _ _ I) as HG.
  assert (Hacc : forall x, acc_packs (ops ++ [o]) (outs ++ [x]) = acc_packs ops outs ++ map (fun a => fst (fst a)) (accepted1 (o, x))).
  { intros x. unfold acc_packs. rewrite accepted_snoc, map_app by exact Hlen. reflexivity. }
  assert (Hst : forall x, stored (ops ++ [o]) (outs ++ [x]) = stored ops outs ++
     map (fun a => (sk_pid (fst (fst a)), snd a)) (filter (fun a => snd (fst a)) (accepted1 (o, x)))).
  { intros x. unfold stored. rewrite accepted_snoc by exact Hlen. rewrite filter_app, map_app. reflexivity. }
  assert (Hcov : forall k l1 l2, covered k (l1 ++ l2) <-> covered k l1 \/ covered k l2) by apply covered_app.
  destruct o as [p b t| |]; cbn [sub_step op_good] in *.
  - destruct (sub_is_duplicate s (sk_pid p)) eqn:Ed; cbn [fst snd].
    + split; rewrite ?pids_eq, ?Hacc, ?Hst, ?dispatched_snoc, ?acked_snoc; cbn [accepted1 dispatched1 acked1 map filter];
        rewrite ?app_nil_r; try rewrite <- pids_eq; try apply I.
    + assert (Hnew : ~ (sk_pid p <= s_ready s \/ In (sk_pid p) (acc_pids ops outs))).
      { intros X. apply (dup_started _ _ _ _ I) in X. congruence. }
      assert (Hnc : ~ covered (sk_pid p) (s_intv s)).
      { intros X. apply (h_cov _ _ _ I) in X. apply Hnew. right. apply stored_acc, X. }
      assert (Hperm : forall q, In q (s_recv (sub_received s p b t)) <-> q = p \/ In q (s_recv s)).
      { intros q. cbn [sub_received s_recv]. split.
        - intros X. apply (Permutation_in q (Permutation_sym (insert_perm p (s_recv s)))) in X. destruct X; auto.
        - intros X. apply (Permutation_in q (insert_perm p (s_recv s))). destruct X; [left|right]; auto. }
      destruct (add_interval_spec (s_intv s) (sk_pid p) t Ho (h_ivg _ _ _ I) (h_sep _ _ _ I) Hnc) as (A1 & A2 & A3 & _).
      split; rewrite ?pids_eq, ?Hacc, ?Hst, ?dispatched_snoc, ?acked_snoc; cbn [accepted1 dispatched1 acked1 map filter fst snd]; rewrite ?app_nil_r.
      * apply G_recv; assumption.
      * apply I.
      * intros q Hq. apply Hperm in Hq. cbn [sub_received s_ready]. destruct Hq as [->|Hq]; [lia|exact (h_gt _ _ _ I q Hq)].
      * unfold pids. rewrite map_app. cbn [map]. fold (pids (acc_packs ops outs)). rewrite <- pids_eq.
        apply (Permutation_NoDup (Permutation_cons_append _ _)). constructor; [tauto|apply I].
      * cbn [sub_received s_intv]. destruct b; [exact A1|apply I].
      * cbn [sub_received s_intv]. destruct b; [exact A2|apply I].
      * intros k. cbn [sub_received s_intv]. destruct b; cbn [map fst snd app]; rewrite ?app_nil_r; [|apply I].
        rewrite A3, map_app, in_app_iff. cbn [map fst In]. rewrite (h_cov _ _ _ I). split.
        -- intros [->|[X Y]]; [|tauto]. split; [right; left; reflexivity|]. intros X. apply (h_ack _ _ _ I), stored_acc in X. tauto.
        -- intros [[X|[X|[]]] Y]; [tauto|left; congruence].
      * intros k Hk. apply (h_ack _ _ _ I) in Hk. rewrite map_app. apply in_or_app. auto.
  - destruct (sub_process_spec _ _ _ HG) as (s' & out & E & HG' & Hre & Hiv & Hle & Hhd & Hne). rewrite E. cbn [fst snd].
    split; rewrite ?pids_eq, ?Hacc, ?Hst, ?dispatched_snoc, ?acked_snoc; cbn [accepted1 dispatched1 acked1 map filter]; rewrite ?app_nil_r, ?Hiv;
      try rewrite <- pids_eq; try apply I.
    + exact HG'.
    + pose proof (h_disp _ _ _ I). destruct (dispatched outs); [congruence|discriminate].
    + intros p Hp. pose proof (g_perm _ _ _ HG') as P'. pose proof (g_ready _ _ _ HG') as R'.
      pose proof (h_nd _ _ _ I) as ND. rewrite pids_eq in ND. unfold pids in ND.
      apply (Permutation_NoDup (Permutation_map sk_pid P')) in ND. rewrite map_app in ND.
      assert (Hgt : s_ready s < sk_pid p) by (apply (h_gt _ _ _ I); rewrite Hre; apply in_or_app; auto).
      destruct (Z_lt_dec (s_ready s') (sk_pid p)) as [|Hn]; [assumption|exfalso].
      assert (X : In (sk_pid p) (map sk_pid (dispatched outs ++ out))).
      { pose proof (h_disp _ _ _ I) as Hd0. destruct (dispatched outs) as [|d disp] eqn:Ed; [congruence|].
        pose proof (g_ready _ _ _ HG) as R.
        destruct R as (R0 & R1 & R2). cbn [app] in R', ND |- *. destruct R' as (R1' & R2' & R3').
        change (map sk_pid (d :: disp ++ out)) with (pids (d :: disp ++ out)). rewrite R1', upfrom_In. unfold zlen in R2', R1.
        cbn [length] in *. lia. }
      apply (in_map sk_pid) in Hp. clear -ND X Hp. induction (map sk_pid (dispatched outs ++ out)) as [|y m IH]; [destruct X|].
      cbn in ND. inversion ND as [|? ? N1 N2]; subst. destruct X as [->|X]; [apply N1, in_or_app; auto|auto].
  - unfold sub_pop_interval. destruct (s_intv s) as [|iv r] eqn:Ei; cbn [fst snd].
    + split; rewrite ?pids_eq, ?Hacc, ?Hst, ?dispatched_snoc, ?acked_snoc; cbn [accepted1 dispatched1 acked1 map filter];
        rewrite ?app_nil_r; try rewrite <- pids_eq; try apply I.
    + pose proof (h_sep _ _ _ I) as Hs. rewrite Ei in Hs. cbn [separated] in Hs. destruct Hs as (Hs1 & Hs2 & Hs3).
      pose proof (h_cov _ _ _ I) as Hc. rewrite Ei in Hc.
      split; rewrite ?pids_eq, ?Hacc, ?Hst, ?dispatched_snoc, ?acked_snoc; cbn [accepted1 dispatched1 acked1 map filter s_intv s_recv s_ready];
        rewrite ?app_nil_r; try rewrite <- pids_eq; try apply I.
      * destruct HG as [A B C D]. split; assumption.
      * exact Hs3.
      * intros jv Hj. apply (h_ivg _ _ _ I). rewrite Ei. right. exact Hj.
      * intros k. rewrite Hcov, covered_cons. split.
        -- intros X. assert (Y : covered k (iv :: r)) by (apply covered_cons; auto). apply Hc in Y. split; [tauto|].
           intros [Z1|[Z1|Z1]]; [tauto| |destruct (covered_nil _ Z1)]. destruct X as (jv & Hj & Hkj). specialize (Hs2 jv Hj).
           unfold in_iv in *. lia.
        -- intros [X Y]. assert (Z1 : covered k (iv :: r)) by (apply Hc; tauto). apply covered_cons in Z1. tauto.
      * intros k Hk. apply Hcov in Hk. destruct Hk as [Hk|Hk]; [exact (h_ack _ _ _ I k Hk)|].
        apply Hc. apply covered_cons. apply covered_cons in Hk. destruct Hk as [Hk|Hk]; [auto|destruct (covered_nil _ Hk)].
Qed.
Lemma H_start p b t : good_pid (sk_pid p) ->
  H [SArrive p b t; SProcess] (snd (sub_run sub_init [SArrive p b t; SProcess])) (fst (sub_run sub_init [SArrive p b t; SProcess])).
Proof.
  intros Hp. assert (HF : Forall op_good [SArrive p b t; SProcess]).
  { constructor; [exact Hp|]. constructor; [exact Logic.I|constructor]. }
  pose proof (G_run _ HF) as HG. clear HF.
  assert (E : sub_run sub_init [SArrive p b t; SProcess] =
    (mkSP (sk_pid p) (sk_pid p) [] (if b then [mkIv (sk_pid p) (sk_pid p) t] else []), [OAccepted; ODispatched [p]])).
  { cbn [sub_run sub_step]. replace (sub_is_duplicate sub_init (sk_pid p)) with false by reflexivity.
    unfold sub_received, sub_process. cbn [s_ready s_maxrecv s_recv s_intv sub_init]. unfold seq_insert_sorted_rev. cbn [rev seq_insert_sorted app].
    unfold add_interval. cbn [rev add_walk fst]. unfold good_pid in Hp.
    rewrite (u64_pred _ Hp). replace (0 =? 0) with true by reflexivity. cbn [process_loop].
    rewrite (u64_small (sk_pid p - 1 + 1)) by (unfold is_u64; lia).
    replace (negb (sk_pid p - 1 =? 0) && negb (sk_pid p =? sk_pid p - 1 + 1)) with false by (symmetry; apply andb_false_iff; right; lia).
    replace (0 <? sk_pid p) with true by lia. replace (sk_pid p - 1 + 1) with (sk_pid p) by lia. reflexivity. }
  rewrite E in *. cbn [fst snd] in *. split.
  - exact HG.
  - cbn. discriminate.
  - intros q [].
  - cbn. repeat constructor. tauto.
  - cbn [s_intv]. destruct b; cbn; [|exact Logic.I]. split; [lia|]. split; [intros jv []|exact Logic.I].
  - cbn [s_intv]. intros iv. destruct b; cbn; [|tauto]. intros [<-|[]]. auto.
  - intros k. cbn [s_intv]. unfold stored, accepted, acked. destruct b; cbn.
    + rewrite covered_cons. unfold in_iv. cbn. pose proof (covered_nil k). split; [intros [X|X]; [|tauto]; split; [left; lia|tauto]|intros [[X|[]] _]; left; lia].
    + pose proof (covered_nil k). tauto.
  - intros k Hk. cbn in Hk. destruct (covered_nil _ Hk).
Qed.
Lemma H_run ops : starts_processed ops -> Forall op_good ops ->
  H ops (snd (sub_run sub_init ops)) (fst (sub_run sub_init ops)).
Proof.
  intros (p & b & t & rest & ->). induction rest as [|o rest IH] using rev_ind; intros HF.
  - inversion HF; subst. apply H_start. assumption.
  - change (SArrive p b t :: SProcess :: rest ++ [o]) with ((SArrive p b t :: SProcess :: rest) ++ [o]) in *.
    apply Forall_app in HF. destruct HF as [HF Ho]. inversion Ho; subst. rewrite srun_snoc. cbn [fst snd].
    apply H_step; [apply IH; exact HF|apply srun_len|assumption].
Qed.
