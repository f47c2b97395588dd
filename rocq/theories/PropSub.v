(** PropSub.v — properties C23..C30 (sub.c). *)
From Coq Require Import Sorting.Sorted Permutation.
From Verif Require Import Base SeqList Sub SpecSub SubProofs SubTrace.

Definition pk (k : Z) : spacket := mkSK (Z.to_nat k) 0 k (1000 + k) 4 0.
Ltac good_ops := repeat (apply Forall_cons; [cbn; unfold good_pid; cbn; try lia; exact Logic.I|]); apply Forall_nil.

(** C23. What is handed to the application, over any history of arrivals (each checked for
    duplication first), processing and acknowledging: consecutive increasing ids, hence no
    id twice, and only packets that arrived and were accepted. *)
Theorem c23_dispatch_consecutive_once : forall ops s outs, Forall op_good ops -> sub_run sub_init ops = (s, outs) ->
  (exists f, map sk_pid (dispatched outs) = upfrom f (length (dispatched outs))) /\
  NoDup (map sk_pid (dispatched outs)) /\
  (exists held, Permutation (acc_packs ops outs) (dispatched outs ++ held)) /\
  (forall p, In p (acc_packs ops outs) -> In p (arrived ops)).
Proof.
  intros ops s outs HF E. pose proof (G_run ops HF) as [A B C D]. rewrite E in *. cbn [fst snd] in *.
  assert (F : exists f, map sk_pid (dispatched outs) = upfrom f (length (dispatched outs))).
  { destruct (dispatched outs) as [|d l]; [exists 0; reflexivity|]. exists (sk_pid d). exact (proj1 D). }
  split; [exact F|]. split; [destruct F as [f ->]; apply upfrom_NoDup|]. split; [exists (s_recv s); exact C|].
  intros p Hp. unfold acc_packs, accepted in Hp. apply in_map_iff in Hp. destruct Hp as ([[q b] t] & <- & Hq).
  apply in_flat_map in Hq. destruct Hq as ([o x] & Hox & Hin). apply in_combine_l in Hox. cbn [fst].
  unfold arrived. apply in_flat_map. exists o. split; [exact Hox|]. destruct o, x; cbn in Hin; try tauto.
  destruct Hin as [Hin|[]]. injection Hin as -> _ _. left. reflexivity.
Qed.
Definition demo_ops : list sop :=
  [SArrive (pk 5) true 10; SProcess; SArrive (pk 7) true 11; SArrive (pk 4) true 12; SArrive (pk 7) true 13;
   SProcess; SAck; SArrive (pk 9) true 14; SArrive (pk 6) true 15; SProcess; SArrive (pk 6) true 16].
Lemma demo_good : Forall op_good demo_ops. Proof. good_ops. Qed.
Definition demo_souts : list sout := snd (sub_run sub_init demo_ops).
Example c23_nonvacuous : map sk_pid (dispatched demo_souts) = [5; 6; 7] /\
  acc_pids demo_ops demo_souts = [5; 7; 9; 6] /\ starts_processed demo_ops.
Proof. split; [reflexivity|]. split; [reflexivity|]. exists (pk 5), true, 10. eexists. reflexivity. Qed.

(** C24. *)
Theorem c24_duplicate_exact : forall ops s outs first l k, Forall op_good ops -> sub_run sub_init ops = (s, outs) ->
  dispatched outs = first :: l ->
  (sub_is_duplicate s k = true <-> k < sk_pid first \/ In k (acc_pids ops outs)).
Proof.
  intros ops s outs d l k HF E Ed. pose proof (G_run ops HF) as [A B C D]. rewrite E in *. cbn [fst snd] in *.
  rewrite Ed in *. destruct D as (D1 & D2 & D3). rewrite (is_duplicate_iff s k A). rewrite pids_eq.
  assert (Hin : In k (pids (acc_packs ops outs)) <-> In k (pids (d :: l)) \/ In k (pids (s_recv s))).
  { unfold pids. rewrite <- in_app_iff, <- map_app. split; apply Permutation_in; [|symmetry]; apply Permutation_map; exact C. }
  rewrite Hin, D1, upfrom_In. unfold zlen in D2.
  split; [intros [_ [X|X]]|intros [X|[X|X]]; (split; [lia|])].
  - destruct (Z_lt_dec k (sk_pid d)); [left|right; left]; lia.
  - auto.
  - left. lia.
  - left. lia.
  - auto.
Qed.
Example c24_nonvacuous : exists s, sub_run sub_init demo_ops = (s, demo_souts) /\
  dispatched demo_souts = [pk 5; pk 6; pk 7] /\
  map (sub_is_duplicate s) [3; 6; 8; 9; 10] = [true; true; false; true; false].
Proof. eexists. split; [reflexivity|]. split; reflexivity. Qed.

(** C25. Everything that forms an unbroken range from the first processed id is delivered. *)
Theorem c25_gap_closure : forall p0 b t rest s outs k,
  let ops := SArrive p0 b t :: SProcess :: rest ++ [SProcess] in
  Forall op_good ops -> sub_run sub_init ops = (s, outs) -> sk_pid p0 <= k ->
  (forall j, sk_pid p0 <= j <= k -> In j (map sk_pid (arrived ops))) ->
  In k (map sk_pid (dispatched outs)).
Proof.
  intros p0 b t rest s outs k ops HF E Hk Hall. subst ops.
  set (ops1 := SArrive p0 b t :: SProcess :: rest).
  change (SArrive p0 b t :: SProcess :: rest ++ [SProcess]) with (ops1 ++ [SProcess]) in *.
  pose proof (proj1 (proj1 (Forall_app _ _ _) HF)) as HF1.
  assert (Hst : starts_processed ops1) by (exists p0, b, t, rest; reflexivity).
  pose proof (H_run ops1 Hst (proj1 (proj1 (Forall_app _ _ _) HF))) as I.
  assert (Hst2 : starts_processed (ops1 ++ [SProcess])) by (exists p0, b, t, (rest ++ [SProcess]); reflexivity).
  pose proof (H_run _ Hst2 HF) as I2.
  destruct (sub_process_spec _ _ _ (h_g _ _ _ I)) as (s' & out & Ep & _ & _ & _ & _ & Hhd & _).
  (* every id that arrived is below the first one or was accepted *)
  assert (Harr : forall rest', Forall op_good (SArrive p0 b t :: SProcess :: rest') -> forall j,
     In j (map sk_pid (arrived (SArrive p0 b t :: SProcess :: rest'))) ->
     j < sk_pid p0 \/ In j (acc_pids (SArrive p0 b t :: SProcess :: rest') (snd (sub_run sub_init (SArrive p0 b t :: SProcess :: rest'))))).
  { clear. induction rest' as [|o rest' IH] using rev_ind; intros HF j Hj.
    - cbn in Hj. destruct Hj as [<-|[]]. right. rewrite pids_eq. inversion HF as [|? ? Hp _]; subst.
      pose proof (h_g _ _ _ (H_start p0 b t Hp)) as [_ _ C _].
      cbn [sub_run sub_step] in *. change (sub_is_duplicate sub_init (sk_pid p0)) with false in *. cbv iota in *.
      destruct (sub_process (sub_received sub_init p0 b t)). cbn. left. reflexivity.
    - change (SArrive p0 b t :: SProcess :: rest' ++ [o]) with ((SArrive p0 b t :: SProcess :: rest') ++ [o]) in *.
      set (ops := SArrive p0 b t :: SProcess :: rest') in *. apply Forall_app in HF. destruct HF as [HF Ho].
      unfold arrived in Hj. rewrite flat_map_app, map_app in Hj. apply in_app_or in Hj. fold (arrived ops) in Hj.
      rewrite srun_snoc. cbn [snd]. unfold acc_pids. rewrite accepted_snoc, map_app, in_app_iff by apply srun_len.
      fold (acc_pids ops (snd (sub_run sub_init ops))).
      destruct Hj as [Hj|Hj]; [destruct (IH HF j Hj); tauto|].
      destruct o as [p b' t'| |]; cbn in Hj; try tauto. destruct Hj as [<-|[]]. cbn [sub_step].
      destruct (sub_is_duplicate (fst (sub_run sub_init ops)) (sk_pid p)) eqn:Ed; cbn [fst snd accepted1 map In]; [|tauto].
      assert (I : H ops (snd (sub_run sub_init ops)) (fst (sub_run sub_init ops))) by (apply H_run; [exists p0, b, t, rest'; reflexivity|exact HF]).
      apply (dup_started _ _ _ _ I) in Ed. destruct Ed as [Ed|Ed]; [|tauto].
      destruct (h_g _ _ _ I) as [A B C D]. 
      assert (Hd0 : exists l, dispatched (snd (sub_run sub_init ops)) = p0 :: l).
      { inversion HF as [|? ? Hp _]; subst. clear -Hp. unfold ops. cbn [sub_run sub_step].
        change (sub_is_duplicate sub_init (sk_pid p0)) with false. cbv iota.
        pose proof (h_disp _ _ _ (H_start p0 b t Hp)) as X. pose proof (h_g _ _ _ (H_start p0 b t Hp)) as [_ _ Y _].
        cbn [sub_run sub_step] in X, Y. change (sub_is_duplicate sub_init (sk_pid p0)) with false in X, Y. cbv iota in X, Y.
        destruct (sub_process (sub_received sub_init p0 b t)) as [s1 l1]. cbn [fst snd] in X, Y.
        destruct (sub_run s1 rest') as [s2 xs]. cbn [snd dispatched flat_map dispatched1 app] in *. rewrite app_nil_r in *.
        destruct l1 as [|q l1]; [congruence|]. cbn in Y. apply Permutation_length_1_inv in Y. injection Y as -> Y.
        exists (l1 ++ dispatched xs). reflexivity. }
      destruct Hd0 as [l Hl]. rewrite Hl in *. destruct D as (D1 & D2 & D3).
      destruct (Z_lt_dec (sk_pid p) (sk_pid p0)); [left; lia|right; left].
      rewrite pids_eq. unfold pids. apply (Permutation_in _ (Permutation_sym (Permutation_map sk_pid C))). rewrite map_app. apply in_or_app. left.
      change (map sk_pid (p0 :: l)) with (pids (p0 :: l)). rewrite D1, upfrom_In. unfold zlen in D2. lia. }
  rewrite srun_snoc in E. cbn [sub_step] in E. rewrite Ep in E. cbn [fst snd] in E.
  assert (E1 : s = s') by congruence. assert (E2 : outs = snd (sub_run sub_init ops1) ++ [ODispatched out]) by congruence.
  clear E. subst s outs. rewrite srun_snoc in I2. cbn [sub_step] in I2. rewrite Ep in I2. cbn [fst snd] in I2.
  set (outs := snd (sub_run sub_init ops1) ++ [ODispatched out]) in *.
  destruct (h_g _ _ _ I2) as [A B C D].
  assert (Hd0 : exists l, dispatched outs = p0 :: l).
  { clear -HF1. inversion HF1 as [|? ? Hp _]; subst. unfold outs, ops1. cbn [sub_run sub_step].
    change (sub_is_duplicate sub_init (sk_pid p0)) with false. cbv iota.
    pose proof (h_disp _ _ _ (H_start p0 b t Hp)) as X. pose proof (h_g _ _ _ (H_start p0 b t Hp)) as [_ _ Y _].
    cbn [sub_run sub_step] in X, Y. change (sub_is_duplicate sub_init (sk_pid p0)) with false in X, Y. cbv iota in X, Y.
    destruct (sub_process (sub_received sub_init p0 b t)) as [s1 l1]. cbn [fst snd] in X, Y.
    destruct (sub_run s1 rest) as [s2 xs]. cbn [snd dispatched flat_map dispatched1 app] in *. rewrite app_nil_r in *.
    destruct l1 as [|q l1]; [congruence|]. cbn in Y. apply Permutation_length_1_inv in Y. injection Y as -> Y.
    exists (l1 ++ dispatched (xs ++ [ODispatched out])). reflexivity. }
  destruct Hd0 as [l Hl]. rewrite Hl in *. destruct D as (D1 & D2 & D3).
  change (map sk_pid (p0 :: l)) with (pids (p0 :: l)). rewrite D1, upfrom_In. unfold zlen in D2.
  destruct (Z_lt_dec k (sk_pid p0 + Z.of_nat (length (p0 :: l)))) as [|Hn]; [lia|exfalso].
  assert (Hj : sk_pid p0 <= s_ready s' + 1 <= k) by lia.
  specialize (Hall _ Hj). apply (Harr (rest ++ [SProcess])) in Hall; [|exact HF]. destruct Hall as [X|X]; [lia|].
  change (SArrive p0 b t :: SProcess :: rest ++ [SProcess]) with (ops1 ++ [SProcess]) in X.
  rewrite srun_snoc in X. cbn [sub_step] in X. rewrite Ep in X. cbn [fst snd] in X. fold outs in X.
  rewrite pids_eq in X. unfold pids in X. apply (Permutation_in _ (Permutation_map sk_pid C)) in X. rewrite map_app in X. apply in_app_or in X.
  destruct X as [X|X].
  - change (map sk_pid (p0 :: l)) with (pids (p0 :: l)) in X. rewrite D1, upfrom_In in X. lia.
  - pose proof (h_gt _ _ _ I2) as Hgt. destruct (s_recv s') as [|q r]; [destruct X|].
    unfold psorted in A. cbn [pids map] in A. inversion A as [|? ? _ HA]; subst. rewrite Forall_forall in HA.
    specialize (Hgt q (or_introl eq_refl)). cbn [map] in X. destruct X as [X|X]; [lia|]. specialize (HA _ X). lia.
Qed.
Example c25_nonvacuous : exists s outs,
  let ops := SArrive (pk 5) true 1 :: SProcess :: [SArrive (pk 8) true 1; SArrive (pk 7) true 2; SProcess; SArrive (pk 6) true 3] ++ [SProcess] in
  Forall op_good ops /\ sub_run sub_init ops = (s, outs) /\ (forall j, 5 <= j <= 8 -> In j (map sk_pid (arrived ops))) /\
  map sk_pid (dispatched outs) = [5; 6; 7; 8].
Proof.
  eexists. eexists. cbn zeta. split; [good_ops|]. split; [reflexivity|]. split; [|reflexivity].
  intros j Hj. cbn. lia.
Qed.

(** C26 refuted: the first packet processed fixes a baseline, and every packet with a smaller
    id is dropped as a duplicate although it was never seen before. *)
Theorem c26_below_baseline_lost_refuted : forall p0 b t rest s outs p,
  Forall op_good (SArrive p0 b t :: SProcess :: rest) -> sub_run sub_init (SArrive p0 b t :: SProcess :: rest) = (s, outs) ->
  sk_pid p < sk_pid p0 -> sub_is_duplicate s (sk_pid p) = true /\ ~ In p (dispatched outs).
Proof.
  intros p0 b t rest s outs p HF E Hlt. pose proof HF as HF0. inversion HF as [|? ? Hp _]; subst.
  assert (Hd0 : exists l, dispatched outs = p0 :: l).
  { cbn [sub_run sub_step] in E. change (sub_is_duplicate sub_init (sk_pid p0)) with false in E. cbv iota in E.
    pose proof (h_disp _ _ _ (H_start p0 b t Hp)) as X. pose proof (h_g _ _ _ (H_start p0 b t Hp)) as [_ _ Y _].
    cbn [sub_run sub_step] in X, Y. change (sub_is_duplicate sub_init (sk_pid p0)) with false in X, Y. cbv iota in X, Y.
    destruct (sub_process (sub_received sub_init p0 b t)) as [s1 l1]. cbn [fst snd] in X, Y.
    destruct (sub_run s1 rest) as [s2 xs]. injection E as <- <-. cbn [snd dispatched flat_map dispatched1 app] in *. rewrite app_nil_r in *.
    destruct l1 as [|q l1]; [congruence|]. cbn in Y. apply Permutation_length_1_inv in Y. injection Y as -> Y.
    exists (l1 ++ dispatched xs). reflexivity. }
  destruct Hd0 as [l Hl]. split.
  - apply (c24_duplicate_exact _ _ _ p0 l (sk_pid p) HF0 E Hl). left. exact Hlt.
  - pose proof (G_run _ HF0) as [_ _ _ D]. rewrite E in D. cbn [fst snd] in D. rewrite Hl in *. destruct D as (D1 & _ & _).
    intros X. apply (in_map sk_pid) in X. change (map sk_pid (p0 :: l)) with (pids (p0 :: l)) in X. rewrite D1, upfrom_In in X. lia.
Qed.
Example c26_refuted_witness : exists s outs,
  sub_run sub_init [SArrive (pk 6) true 1; SProcess; SArrive (pk 5) true 2; SArrive (pk 7) true 3; SProcess] = (s, outs) /\
  outs = [OAccepted; ODispatched [pk 6]; ODuplicate; OAccepted; ODispatched [pk 7]].
Proof. eexists. eexists. split; reflexivity. Qed.

(** C27, one call: an id that is not covered yet is added, the result stays sorted, disjoint
    and non-adjacent, and the return value is the change in the number of intervals. *)
Theorem c27_add_one : forall l pid now, good_pid pid -> ivs_good l -> separated l -> ~ covered pid l ->
  let (l', r) := add_interval l pid now in
  separated l' /\ (forall k, covered k l' <-> k = pid \/ covered k l) /\ zlen l' = zlen l + r.
Proof.
  intros l pid now Hp Hg Hs Hc. pose proof (add_interval_spec l pid now Hp Hg Hs Hc) as (A & _ & B & C).
  destruct (add_interval l pid now). cbn [fst snd] in *. auto.
Qed.
Example c27_add_one_nonvacuous :
  let l := [mkIv 1 3 0; mkIv 5 9 0; mkIv 20 20 0] in
  ivs_good l /\ separated l /\ ~ covered 4 l /\ add_interval l 4 7 = ([mkIv 1 9 0; mkIv 20 20 0], -1) /\
  add_interval l 12 7 = ([mkIv 1 3 0; mkIv 5 9 0; mkIv 12 12 7; mkIv 20 20 0], 1) /\ snd (add_interval l 10 7) = 0.
Proof.
  cbn zeta. split; [|split; [|split; [|split; [reflexivity|split; reflexivity]]]].
  - intros iv [<-|[<-|[<-|[]]]]; unfold good_pid; cbn; lia.
  - cbn. repeat split; try lia; intros jv; cbn; intuition (subst; cbn; lia).
  - intros (iv & [<-|[<-|[<-|[]]]] & Hk); unfold in_iv in Hk; cbn in Hk; lia.
Qed.

(** C27, any history in which the first packet was processed on arrival (as the library does):
    the intervals are exactly the stored and not yet acknowledged ids. *)
Theorem c27_intervals_exact : forall ops s outs, starts_processed ops -> Forall op_good ops ->
  sub_run sub_init ops = (s, outs) ->
  separated (s_intv s) /\
  (forall k, covered k (s_intv s) <-> In k (map fst (stored ops outs)) /\ ~ covered k (acked outs)) /\
  (forall k, covered k (acked outs) -> In k (map fst (stored ops outs))).
Proof.
  intros ops s outs Hs HF E. pose proof (H_run ops Hs HF) as I. rewrite E in I. cbn [fst snd] in I.
  split; [apply I|]. split; apply I.
Qed.
Example c27_nonvacuous : exists s, sub_run sub_init demo_ops = (s, demo_souts) /\
  map fst (stored demo_ops demo_souts) = [5; 7; 9; 6] /\ acked demo_souts = [mkIv 5 5 10] /\
  s_intv s = [mkIv 6 7 11; mkIv 9 9 14].
Proof. eexists. split; [reflexivity|]. repeat split; reflexivity. Qed.
(** Without that, a second copy of an id that is already covered yields overlapping intervals:
    the duplicate check answers "no" until the first sub_process_received_packets. *)
Theorem c27_unprocessed_duplicate_refuted : exists s outs,
  sub_run sub_init [SArrive (pk 1) true 1; SArrive (pk 2) true 2; SArrive (pk 3) true 3; SArrive (pk 2) true 4] = (s, outs) /\
  s_intv s = [mkIv 2 2 4; mkIv 1 3 1] /\ ~ separated (s_intv s).
Proof.
  eexists. eexists. split; [reflexivity|]. cbn [s_intv]. split; [reflexivity|].
  cbn. intros (_ & X & _). specialize (X _ (or_introl eq_refl)). cbn in X. lia.
Qed.

(** C28. *)
Definition stamp_of (l : list (Z * Z)) (k : Z) : Z := match find (fun a => fst a =? k) l with Some a => snd a | None => 0 end.
Lemma stamp_snoc l pid t k : ~ In pid (map fst l) -> stamp_of (l ++ [(pid, t)]) k = set_stamp (stamp_of l) pid t k.
Proof.
  unfold stamp_of, set_stamp. induction l as [|[a b] l IH]; cbn [app find map fst snd]; intros Hn.
  - rewrite Z.eqb_sym. destruct (k =? pid); reflexivity.
  - destruct (a =? k) eqn:E.
    + replace (k =? pid) with false; [reflexivity|]. symmetry. apply Z.eqb_neq. intros ->. apply Hn. left. lia.
    + apply IH. intros X. apply Hn. right. exact X.
Qed.
Lemma stamp_In l k : In k (map fst l) -> In (k, stamp_of l k) l.
Proof.
  unfold stamp_of. induction l as [|[a b] l IH]; cbn [map fst find]; [intros []|]. intros H. destruct (a =? k) eqn:E.
  - left. cbn. f_equal. lia.
  - right. apply IH. destruct H as [H|H]; [lia|exact H].
Qed.
Lemma stamp_uniq l k t : NoDup (map fst l) -> In (k, t) l -> stamp_of l k = t.
Proof.
  unfold stamp_of. induction l as [|[a b] l IH]; cbn [map fst find]; [intros _ []|]. intros H Hin.
  inversion H as [|? ? N1 N2]; subst. destruct Hin as [E|Hin].
  - injection E as -> ->. rewrite Z.eqb_refl. reflexivity.
  - replace (a =? k) with false; [auto|]. symmetry. apply Z.eqb_neq. intros ->. apply N1. apply (in_map fst _ _ Hin).
Qed.
Lemma stamped_ext f g l : (forall k, f k = g k) -> stamped f l -> stamped g l.
Proof. intros E Hs iv Hi. destruct (Hs iv Hi) as [A (k & B & C)]. split; [intros j Hj; rewrite <- E; auto|exists k; rewrite <- E; auto]. Qed.
Lemma sclock_app ops1 ops2 : forall t, sclock t (ops1 ++ ops2) -> sclock t ops1.
Proof. induction ops1 as [|o ops1 IH]; intros t HC; [exact Logic.I|]. destruct o; cbn in *; [destruct HC; split; auto|auto|auto]. Qed.
Fixpoint last_clock (t : Z) (ops : list sop) : Z :=
  match ops with [] => t | SArrive _ _ now :: rest => last_clock now rest | _ :: rest => last_clock t rest end.
Lemma sclock_snoc ops p b now : forall t, sclock t (ops ++ [SArrive p b now]) -> last_clock t ops <= now.
Proof. induction ops as [|o ops IH]; intros t HC; cbn in *; [lia|]. destruct o; cbn in *; [apply IH; tauto|auto|auto]. Qed.
Lemma last_clock_snoc ops o t : last_clock t (ops ++ [o]) = match o with SArrive _ _ now => now | _ => last_clock t ops end.
Proof. revert t. induction ops as [|o' ops IH]; intros t; cbn; [destruct o; reflexivity|]. destruct o'; rewrite ?IH; destruct o; reflexivity. Qed.

Lemma stamped_run ops t0 : starts_processed ops -> Forall op_good ops -> sclock t0 ops ->
  stamped (stamp_of (stored ops (snd (sub_run sub_init ops)))) (s_intv (fst (sub_run sub_init ops))) /\
  forall iv, In iv (s_intv (fst (sub_run sub_init ops))) -> iv_ts iv <= last_clock t0 ops.
Proof.
  intros (p & b & t & rest & ->). induction rest as [|o rest IH] using rev_ind; intros HF HC.
  - inversion HF as [|? ? Hp _]; subst. cbn [sub_run sub_step].
    change (sub_is_duplicate sub_init (sk_pid p)) with false. cbv iota. unfold sub_received, sub_process.
    destruct (process_loop _ _) as [[r o] l]. cbn [fst snd s_intv sub_init last_clock]. cbn in HC. destruct b; [|split; intros iv []].
    unfold add_interval. cbn [rev add_walk fst]. split; intros iv [<-|[]]; cbn [iv_ts]; [|lia].
    unfold stamp_of, stored, accepted. cbn. split.
    + intros k Hk. unfold in_iv in Hk. cbn in Hk. replace (sk_pid p =? k) with true by lia. cbn. lia.
    + exists (sk_pid p). unfold in_iv. cbn. rewrite Z.eqb_refl. cbn. lia.
  - change (SArrive p b t :: SProcess :: rest ++ [o]) with ((SArrive p b t :: SProcess :: rest) ++ [o]) in *.
    set (ops := SArrive p b t :: SProcess :: rest) in *. apply Forall_app in HF. destruct HF as [HF Ho].
    inversion Ho as [|? ? Ho' _]; subst. specialize (IH HF (sclock_app _ _ _ HC)).
    assert (I : H ops (snd (sub_run sub_init ops)) (fst (sub_run sub_init ops))) by (apply H_run; [exists p, b, t, rest; reflexivity|exact HF]).
    rewrite srun_snoc, last_clock_snoc. cbn [fst snd].
    unfold stored. rewrite accepted_snoc, filter_app, map_app by apply srun_len. fold (stored ops (snd (sub_run sub_init ops))).
    set (s := fst (sub_run sub_init ops)) in *. set (outs := snd (sub_run sub_init ops)) in *. destruct IH as [IH1 IH2].
    destruct o as [q b' t'| |]; cbn [sub_step op_good] in *.
    + apply sclock_snoc in HC. assert (Hold : forall iv, In iv (s_intv s) -> iv_ts iv <= t') by (intros iv Hi; specialize (IH2 iv Hi); lia).
      destruct (sub_is_duplicate s (sk_pid q)) eqn:Ed; cbn [fst snd accepted1 filter map]; rewrite ?app_nil_r; [auto|].
      destruct b'; cbn [fst snd filter map sub_received s_intv]; rewrite ?app_nil_r; [|auto].
      assert (Hnew : ~ In (sk_pid q) (acc_pids ops outs)).
      { intros X. assert (Y : sub_is_duplicate s (sk_pid q) = true) by (apply (dup_started _ _ _ _ I); auto). congruence. }
      assert (Hns : ~ In (sk_pid q) (map fst (stored ops outs))) by (intros X; apply Hnew, stored_acc, X).
      assert (Hnc : ~ covered (sk_pid q) (s_intv s)) by (intros X; apply (h_cov _ _ _ I) in X; tauto).
      destruct (add_interval_stamped (s_intv s) (sk_pid q) t' _ Ho' (h_ivg _ _ _ I) (h_sep _ _ _ I) Hnc Hold IH1) as [R1 R2].
      split; [|exact R2]. eapply stamped_ext; [|exact R1]. intros k. symmetry. apply stamp_snoc. exact Hns.
    + destruct (sub_process_spec _ _ _ (h_g _ _ _ I)) as (s' & out & Ep & _ & _ & Ei & _). rewrite Ep. cbn [fst snd accepted1 filter map]. rewrite app_nil_r, Ei. auto.
    + unfold sub_pop_interval. destruct (s_intv s) as [|iv r] eqn:Ei; cbn [fst snd accepted1 filter map s_intv]; rewrite app_nil_r, ?Ei; [split; intros iv []|].
      split; [intros jv Hj; apply IH1; right; exact Hj|intros jv Hj; apply IH2; right; exact Hj].
Qed.
Lemma stored_nodup ops outs s : H ops outs s -> NoDup (map fst (stored ops outs)).
Proof.
  intros I. pose proof (h_nd _ _ _ I) as N. unfold acc_pids, stored in *. clear I. rewrite map_map.
  induction (accepted ops outs) as [|a l IH]; [constructor|]. cbn [map filter] in *. inversion N as [|? ? N1 N2]; subst.
  destruct (snd (fst a)); [|auto]. cbn [map fst snd]. constructor; [|auto]. intros X. apply N1. apply in_map_iff in X.
  destruct X as (y & E & Hy). apply filter_In in Hy. cbn in E. rewrite <- E. apply (in_map (fun a => sk_pid (fst (fst a)))). tauto.
Qed.
Theorem c28_interval_timestamps : forall ops s outs t0, starts_processed ops -> Forall op_good ops -> sclock t0 ops ->
  sub_run sub_init ops = (s, outs) ->
  forall iv, In iv (s_intv s) ->
    (forall k t, In (k, t) (stored ops outs) -> in_iv k iv -> iv_ts iv <= t) /\
    (exists k, In (k, iv_ts iv) (stored ops outs) /\ in_iv k iv).
Proof.
  intros ops s outs t0 Hs HF HC E iv Hi. pose proof (H_run ops Hs HF) as I. pose proof (stamped_run ops t0 Hs HF HC) as [ST _].
  rewrite E in *. cbn [fst snd] in *. destruct (ST iv Hi) as [A (k & B & C)]. split.
  - intros j t Hj Hin. specialize (A j Hin). rewrite (stamp_uniq _ _ _ (stored_nodup _ _ _ I) Hj) in A. exact A.
  - exists k. split; [|exact B]. rewrite <- C. apply stamp_In. apply (h_cov _ _ _ I). exists iv. auto.
Qed.
Example c28_nonvacuous : exists s, sub_run sub_init demo_ops = (s, demo_souts) /\ sclock 0 demo_ops /\
  stored demo_ops demo_souts = [(5, 10); (7, 11); (9, 14); (6, 15)] /\ In (mkIv 6 7 11) (s_intv s).
Proof. eexists. split; [reflexivity|]. split; [cbn; lia|]. split; [reflexivity|]. cbn. auto. Qed.

(** C29. [unacked]: stored ids, with receive times, that no ack interval has covered. *)
Definition unacked (ops : list sop) (outs : list sout) (k t : Z) : Prop :=
  In (k, t) (stored ops outs) /\ ~ covered k (acked outs).
(** What is reported: 0 if nothing is unacknowledged, else the earliest receive time within
    the run of consecutive ids that contains the LOWEST unacknowledged id. *)
Theorem c29_oldest_exact : forall ops s outs t0, starts_processed ops -> Forall op_good ops -> sclock t0 ops ->
  sub_run sub_init ops = (s, outs) ->
  (sub_oldest_unacked s = 0 /\ (forall k t, ~ unacked ops outs k t)) \/
  exists lo hi, lo <= hi /\ (forall k t, unacked ops outs k t -> lo <= k) /\
    (forall k, lo <= k <= hi -> exists t, unacked ops outs k t) /\ (forall t, ~ unacked ops outs (hi + 1) t) /\
    (forall k t, lo <= k <= hi -> unacked ops outs k t -> sub_oldest_unacked s <= t) /\
    (exists k, lo <= k <= hi /\ unacked ops outs k (sub_oldest_unacked s)).
Proof.
  intros ops s outs t0 Hs HF HC E. pose proof (H_run ops Hs HF) as I.
  pose proof (c28_interval_timestamps ops s outs t0 Hs HF HC E) as ST. rewrite E in I. cbn [fst snd] in I.
  assert (U : forall k, covered k (s_intv s) <-> exists t, unacked ops outs k t).
  { intros k. rewrite (h_cov _ _ _ I k). unfold unacked. split.
    - intros [A B]. apply in_map_iff in A. destruct A as ([k' t] & <- & A). cbn. exists t. auto.
    - intros (t & A & B). split; [exact (in_map fst _ _ A)|exact B]. }
  pose proof (h_sep _ _ _ I) as Hsep. unfold sub_oldest_unacked. destruct (s_intv s) as [|iv r] eqn:Ei.
  - left. split; [reflexivity|]. intros k t Hk. apply (covered_nil k). apply U. exists t. exact Hk.
  - right. exists (iv_first iv), (iv_last iv). cbn [separated] in Hsep. destruct Hsep as (S1 & S2 & S3).
    assert (Hfirst : forall k, covered k (iv :: r) -> iv_first iv <= k).
    { intros k Hk. apply covered_cons in Hk. destruct Hk as [Hk|(jv & Hj & Hk)]; [exact (proj1 Hk)|]. specialize (S2 jv Hj). unfold in_iv in Hk. lia. }
    destruct (ST iv (or_introl eq_refl)) as [T1 (k & T2 & T3)].
    split; [exact S1|]. split; [intros j t Hj; apply Hfirst, U; exists t; exact Hj|]. split; [|split; [|split]].
    + intros j Hj. apply U. apply covered_cons. left. exact Hj.
    + intros t Ht. assert (X : covered (iv_last iv + 1) (iv :: r)) by (apply U; exists t; exact Ht).
      apply covered_cons in X. destruct X as [X|(jv & Hj & X)]; [unfold in_iv in X; lia|]. specialize (S2 jv Hj). unfold in_iv in X. lia.
    + intros j t Hj [Ht _]. apply (T1 j t Ht Hj).
    + exists k. split; [exact T3|]. split; [exact T2|]. apply (h_cov _ _ _ I k). rewrite Ei. apply covered_cons. auto.
Qed.
(** If packets arrived in the order of their ids it is the earliest unacknowledged time. *)
Theorem c29_oldest_when_in_order : forall ops s outs t0, starts_processed ops -> Forall op_good ops -> sclock t0 ops ->
  sub_run sub_init ops = (s, outs) ->
  (forall k1 t1 k2 t2, unacked ops outs k1 t1 -> unacked ops outs k2 t2 -> k1 < k2 -> t1 <= t2) ->
  (sub_oldest_unacked s = 0 /\ (forall k t, ~ unacked ops outs k t)) \/
  ((exists k, unacked ops outs k (sub_oldest_unacked s)) /\ forall k t, unacked ops outs k t -> sub_oldest_unacked s <= t).
Proof.
  intros ops s outs t0 Hs HF HC E Hord. destruct (c29_oldest_exact ops s outs t0 Hs HF HC E) as [?|(lo & hi & A & B & C & D & F & (k0 & G1 & G2))]; [left; assumption|right].
  split; [exists k0; exact G2|]. intros k t Hk. pose proof (B k t Hk). destruct (Z_le_dec k hi); [apply (F k t); [lia|exact Hk]|].
  apply (Hord k0 _ k t G2 Hk). lia.
Qed.
(** The property is false in general: after the ack of id 5, id 9 (received at 11) has waited
    longer than id 7 (received at 12), but the time of id 7 is reported. *)
Theorem c29_oldest_refuted : exists ops s outs, starts_processed ops /\ Forall op_good ops /\ sclock 0 ops /\
  sub_run sub_init ops = (s, outs) /\ unacked ops outs 9 11 /\ unacked ops outs 7 12 /\ sub_oldest_unacked s = 12.
Proof.
  exists [SArrive (pk 5) true 10; SProcess; SAck; SArrive (pk 9) true 11; SProcess; SArrive (pk 7) true 12; SProcess].
  eexists. eexists. split; [exists (pk 5), true, 10; eexists; reflexivity|]. split; [good_ops|]. split; [cbn; lia|].
  split; [reflexivity|]. unfold unacked, stored, accepted, acked. cbn.
  assert (X : forall k, covered k [mkIv 5 5 10] -> k = 5). { intros k (iv & [<-|[]] & Hk). unfold in_iv in Hk. cbn in Hk. lia. }
  split; [|split; [|reflexivity]]; (split; [tauto|]); intros Y; apply X in Y; lia.
Qed.

(** C30. *)
Definition payload_of (p : spacket) : Z * Z * Z := (sk_payload p, sk_len p, sk_user p).
Theorem c30_reset_releases_held : forall ops s outs, Forall op_good ops -> sub_run sub_init ops = (s, outs) ->
  let (s', frees) := sub_reset s in
  s_recv s' = [] /\ s_intv s' = [] /\ s_ready s' = s_ready s /\ s_maxrecv s' = s_maxrecv s /\
  Permutation (map payload_of (acc_packs ops outs)) (map payload_of (dispatched outs) ++ frees).
Proof.
  intros ops s outs HF E. pose proof (G_run ops HF) as [_ _ C _]. rewrite E in C. cbn [fst snd] in C.
  unfold sub_reset. cbn [s_recv s_intv s_ready s_maxrecv]. repeat (split; [reflexivity|]).
  change (map (fun p => (sk_payload p, sk_len p, sk_user p)) (s_recv s)) with (map payload_of (s_recv s)). rewrite <- map_app.
  apply Permutation_map. exact C.
Qed.
Example c30_nonvacuous : exists s, sub_run sub_init demo_ops = (s, demo_souts) /\
  snd (sub_reset s) = [(1009, 4, 0)] /\ s_intv s <> [].
Proof. eexists. split; [reflexivity|]. split; [reflexivity|]. discriminate. Qed.

(** max_pid_received is the largest id accepted so far. *)
Theorem c24_max_received : forall ops s outs, sub_run sub_init ops = (s, outs) -> Forall op_good ops ->
  (s_maxrecv s = 0 /\ acc_pids ops outs = []) \/
  (In (s_maxrecv s) (acc_pids ops outs) /\ forall k, In k (acc_pids ops outs) -> k <= s_maxrecv s).
Proof.
  induction ops as [|o ops IH] using rev_ind; intros s outs E HF.
  - injection E as <- <-. left. split; reflexivity.
  - apply Forall_app in HF. destruct HF as [HF Ho]. inversion Ho as [|? ? Ho' _]; subst.
    rewrite srun_snoc in E. injection E as <- <-. specialize (IH _ _ (surjective_pairing _) HF).
    unfold acc_pids. rewrite accepted_snoc, map_app by apply srun_len. fold (acc_pids ops (snd (sub_run sub_init ops))).
    set (s := fst (sub_run sub_init ops)) in *. set (outs := snd (sub_run sub_init ops)) in *.
    destruct o as [p b t| |]; cbn [sub_step op_good] in *.
    + destruct (sub_is_duplicate s (sk_pid p)); cbn [fst snd accepted1 map]; rewrite ?app_nil_r; [exact IH|].
      cbn [sub_received s_maxrecv]. unfold good_pid in Ho'. right. destruct IH as [[A B]|[A B]].
      * rewrite A, B. replace (0 <? sk_pid p) with true by lia. cbn. split; [auto|intros k [<-|[]]; lia].
      * destruct (s_maxrecv s <? sk_pid p) eqn:El; (split; [apply in_or_app; cbn; auto|]); intros k Hk; apply in_app_or in Hk;
          cbn in Hk; destruct Hk as [Hk|[<-|[]]]; try specialize (B k Hk); lia.
    + unfold sub_process. destruct (process_loop _ _) as [[r o] l]. cbn [fst snd accepted1 map s_maxrecv]. rewrite app_nil_r. exact IH.
    + unfold sub_pop_interval. destruct (s_intv s); cbn [fst snd accepted1 map s_maxrecv]; rewrite app_nil_r; exact IH.
Qed.

Print Assumptions c23_dispatch_consecutive_once.
Print Assumptions c24_duplicate_exact.
Print Assumptions c25_gap_closure.
Print Assumptions c27_intervals_exact.
Print Assumptions c28_interval_timestamps.
Print Assumptions c29_oldest_exact.
Print Assumptions c30_reset_releases_held.
