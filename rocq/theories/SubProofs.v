(** SubProofs.v — lemmas about sub.c. *)
From Coq Require Import Sorting.Sorted Permutation.
From Verif Require Import Base SeqList Sub SpecSub.

(** ** Intervals *)
Lemma separated_app l1 l2 : separated (l1 ++ l2) <->
  separated l1 /\ separated l2 /\ (forall a b, In a l1 -> In b l2 -> iv_last a + 1 < iv_first b).
Proof.
  induction l1 as [|x l1 IH]; cbn [app separated].
  - split; [intros H; split; [exact Logic.I|]; split; [exact H|intros a b []]|tauto].
  - rewrite IH. split.
    + intros (H1 & H2 & H3 & H4 & H5). split; [split; [exact H1|split; [|exact H3]]|split; [exact H4|]].
      * intros jv Hj. apply H2, in_or_app. auto.
      * intros a b [<-|Ha] Hb; [apply H2, in_or_app; auto|auto].
    + intros ((H1 & H2 & H3) & H4 & H5). split; [exact H1|]. split.
      * intros jv Hj. apply in_app_or in Hj. destruct Hj as [Hj|Hj]; [auto|apply H5; [left; reflexivity|exact Hj]].
      * split; [exact H3|]. split; [exact H4|]. intros a b Ha Hb. apply H5; [right; exact Ha|exact Hb].
Qed.
Lemma separated_le l iv : separated l -> In iv l -> iv_first iv <= iv_last iv.
Proof. induction l as [|x l IH]; [intros _ []|]. cbn. intros (H1 & _ & H3) [<-|H]; auto. Qed.
Lemma covered_app k l1 l2 : covered k (l1 ++ l2) <-> covered k l1 \/ covered k l2.
Proof.
  unfold covered. split.
  - intros (iv & H & Hi). apply in_app_or in H. destruct H; [left|right]; eauto.
  - intros [(iv & H & Hi)|(iv & H & Hi)]; exists iv; split; auto; apply in_or_app; auto.
Qed.
Lemma covered_cons k x l : covered k (x :: l) <-> in_iv k x \/ covered k l.
Proof.
  unfold covered. split.
  - intros (iv & [<-|H] & Hi); [left; exact Hi|right; eauto].
  - intros [H|(iv & H & Hi)]; [exists x; split; [left; reflexivity|exact H]|exists iv; split; [right|]; assumption].
Qed.
Lemma covered_nil k : ~ covered k [].
Proof. intros (iv & [] & _). Qed.

Definition ivs_good (l : list intv) : Prop := forall iv, In iv l -> good_pid (iv_first iv) /\ good_pid (iv_last iv).

(** How an id is added: [mid] is replaced by one interval [x]. *)
Inductive added (pid now : Z) : list intv -> intv -> Z -> Prop :=
| add_new : added pid now [] (mkIv pid pid now) 1
| add_end a : iv_last a + 1 = pid -> added pid now [a] (mkIv (iv_first a) pid (iv_ts a)) 0
| add_front a : iv_first a - 1 = pid -> added pid now [a] (mkIv pid (iv_last a) (iv_ts a)) 0
| add_merge a b : iv_last a + 1 = pid -> iv_first b - 1 = pid ->
    added pid now [a; b] (mkIv (iv_first a) (iv_last b) (Z.min (iv_ts a) (iv_ts b))) (-1).

Lemma u64_succ k : good_pid k -> u64 (k + 1) = k + 1.
Proof. unfold good_pid. intros H. apply u64_small. unfold is_u64. lia. Qed.
Lemma u64_pred k : good_pid k -> u64 (k - 1) = k - 1.
Proof. unfold good_pid. intros H. apply u64_small. unfold is_u64. lia. Qed.

Lemma add_walk_shape todo : forall passed pid now,
  good_pid pid -> ivs_good (rev todo ++ passed) -> separated (rev todo ++ passed) ->
  ~ covered pid (rev todo ++ passed) -> (forall iv, In iv passed -> pid + 1 < iv_first iv) ->
  exists l1 mid l2 x, rev todo ++ passed = l1 ++ mid ++ l2 /\
    added pid now mid x (snd (add_walk todo passed pid now)) /\
    fst (add_walk todo passed pid now) = l1 ++ x :: l2 /\
    (forall iv, In iv l1 -> iv_last iv + 1 < iv_first x) /\ (forall iv, In iv l2 -> iv_last x + 1 < iv_first iv).
Proof.
  induction todo as [|iv rest IH]; intros passed pid now Hp Hg Hs Hc Hpass.
  - exists [], [], passed, (mkIv pid pid now). split; [reflexivity|]. split; [constructor|]. split; [reflexivity|].
    split; [intros iv []|exact Hpass].
  - cbn [rev] in *. rewrite <- app_assoc in Hg, Hs, Hc. cbn [app] in Hg, Hs, Hc.
    assert (Hiv : In iv (rev rest ++ iv :: passed)) by (apply in_or_app; right; left; reflexivity).
    destruct (Hg iv Hiv) as [G1 G2]. pose proof (separated_le _ _ Hs Hiv) as Hle.
    apply separated_app in Hs. destruct Hs as (S1 & S2 & S3). cbn [separated] in S2. destruct S2 as (_ & S4 & S5).
    assert (Hnin : ~ in_iv pid iv). { intros X. apply Hc. exists iv. auto. }
    unfold in_iv in Hnin. cbn [add_walk]. rewrite (u64_succ _ G2), (u64_pred _ G1).
    destruct (iv_last iv + 1 <? pid) eqn:E1; [|destruct (iv_last iv + 1 =? pid) eqn:E2; [|destruct (iv_first iv - 1 =? pid) eqn:E3]].
    + exists (rev rest ++ [iv]), [], passed, (mkIv pid pid now). cbn [fst snd app]. rewrite <- !app_assoc. cbn [app].
      split; [reflexivity|]. split; [constructor|]. split; [reflexivity|]. cbn [iv_first iv_last]. split; [|exact Hpass].
      intros jv Hj. apply in_app_or in Hj. destruct Hj as [Hj|[<-|[]]]; [|lia].
      specialize (S3 jv iv Hj (or_introl eq_refl)). lia.
    + assert (R : snd (match passed with
        | [] => (rev rest ++ [mkIv (iv_first iv) pid (iv_ts iv)], 0)
        | nx :: passed' => if u64 (iv_first nx - 1) =? pid
            then (rev rest ++ mkIv (iv_first iv) (iv_last nx) (if iv_ts iv <? iv_ts nx then iv_ts iv else iv_ts nx) :: passed', -1)
            else (rev rest ++ mkIv (iv_first iv) pid (iv_ts iv) :: passed, 0) end) = 0 /\
        fst (match passed with
        | [] => (rev rest ++ [mkIv (iv_first iv) pid (iv_ts iv)], 0)
        | nx :: passed' => if u64 (iv_first nx - 1) =? pid
            then (rev rest ++ mkIv (iv_first iv) (iv_last nx) (if iv_ts iv <? iv_ts nx then iv_ts iv else iv_ts nx) :: passed', -1)
            else (rev rest ++ mkIv (iv_first iv) pid (iv_ts iv) :: passed, 0) end) = rev rest ++ mkIv (iv_first iv) pid (iv_ts iv) :: passed).
      { destruct passed as [|nx passed']; [split; reflexivity|].
        assert (Hnx : In nx (rev rest ++ iv :: nx :: passed')) by (apply in_or_app; right; right; left; reflexivity).
        rewrite (u64_pred _ (proj1 (Hg nx Hnx))). specialize (Hpass nx (or_introl eq_refl)).
        replace (iv_first nx - 1 =? pid) with false by lia. split; reflexivity. }
      destruct R as [R1 R2]. rewrite R1, R2.
      exists (rev rest), [iv], passed, (mkIv (iv_first iv) pid (iv_ts iv)). rewrite <- app_assoc. split; [reflexivity|].
      split; [constructor; lia|]. split; [reflexivity|]. cbn [iv_first iv_last].
      split; [|exact Hpass]. intros jv Hj. exact (S3 jv iv Hj (or_introl eq_refl)).
    + destruct rest as [|pv rest'].
      * exists [], [iv], passed, (mkIv pid (iv_last iv) (iv_ts iv)). split; [reflexivity|]. split; [constructor; lia|].
        split; [reflexivity|]. cbn [iv_first iv_last]. split; [intros jv []|exact S4].
      * cbn [rev] in *. assert (Hpv : In pv ((rev rest' ++ [pv]) ++ iv :: passed)) by (apply in_or_app; left; apply in_or_app; right; left; reflexivity).
        rewrite (u64_succ _ (proj2 (Hg pv Hpv))).
        assert (Hsp : iv_last pv + 1 < iv_first iv) by (apply S3; [apply in_or_app; right|]; left; reflexivity).
        apply separated_app in S1. destruct S1 as (S1a & S1b & S1c).
        assert (Hpp : ~ in_iv pid pv) by (intros X; apply Hc; exists pv; auto). unfold in_iv in Hpp. cbn [separated] in S1b.
        destruct (iv_last pv + 1 =? pid) eqn:E4; cbn [fst snd].
        -- exists (rev rest'), [pv; iv], passed, (mkIv (iv_first pv) (iv_last iv) (Z.min (iv_ts pv) (iv_ts iv))).
           rewrite <- !app_assoc. split; [reflexivity|]. split; [constructor; lia|].
           split. { f_equal. f_equal. f_equal. destruct (iv_ts iv <? iv_ts pv) eqn:E5; lia. }
           cbn [iv_first iv_last]. split; [|exact S4]. intros jv Hj. apply (S1c jv pv Hj). left. reflexivity.
        -- exists (rev rest' ++ [pv]), [iv], passed, (mkIv pid (iv_last iv) (iv_ts iv)). rewrite <- !app_assoc.
           split; [reflexivity|]. split; [constructor; lia|]. split; [reflexivity|]. cbn [iv_first iv_last].
           split; [|exact S4]. intros jv Hj.
           assert (iv_last jv <= iv_last pv). { apply in_app_or in Hj. destruct Hj as [Hj|[<-|[]]]; [|lia].
             specialize (S1c jv pv Hj (or_introl eq_refl)). lia. }
           lia.
    + rewrite <- app_assoc. cbn [app]. apply IH; auto.
      * apply separated_app. cbn [separated]. auto.
      * intros jv [<-|Hj]; [lia|auto].
Qed.

(** sub_packet_add_to_received_interval, for an id that is not covered yet. *)
Lemma add_interval_shape l pid now : good_pid pid -> ivs_good l -> separated l -> ~ covered pid l ->
  exists l1 mid l2 x, l = l1 ++ mid ++ l2 /\ added pid now mid x (snd (add_interval l pid now)) /\
    fst (add_interval l pid now) = l1 ++ x :: l2 /\
    (forall iv, In iv l1 -> iv_last iv + 1 < iv_first x) /\ (forall iv, In iv l2 -> iv_last x + 1 < iv_first iv).
Proof.
  intros Hp Hg Hs Hc. unfold add_interval.
  assert (E : rev (rev l) ++ [] = l) by (rewrite rev_involutive, app_nil_r; reflexivity).
  destruct (add_walk_shape (rev l) [] pid now Hp) as (l1 & mid & l2 & x & H); rewrite ?E; auto; [intros iv []|].
  rewrite E in H. exists l1, mid, l2, x. exact H.
Qed.
Lemma added_cover pid now mid x r : added pid now mid x r -> (forall iv, In iv mid -> iv_first iv <= iv_last iv) ->
  forall k, in_iv k x <-> k = pid \/ covered k mid.
Proof.
  intros H Hle k. destruct H as [|a Ha|a Ha|a b Ha Hb]; unfold in_iv; cbn [iv_first iv_last].
  - split; [intros; left; lia|intros [->|X]; [lia|destruct (covered_nil _ X)]].
  - specialize (Hle a (or_introl eq_refl)). rewrite covered_cons. unfold in_iv. split; [|intros [->|[X|X]]; [lia|lia|destruct (covered_nil _ X)]].
    intros X. destruct (Z.eq_dec k pid); [left; lia|right; left; lia].
  - specialize (Hle a (or_introl eq_refl)). rewrite covered_cons. unfold in_iv. split; [|intros [->|[X|X]]; [lia|lia|destruct (covered_nil _ X)]].
    intros X. destruct (Z.eq_dec k pid); [left; lia|right; left; lia].
  - pose proof (Hle a (or_introl eq_refl)). specialize (Hle b (or_intror (or_introl eq_refl))). rewrite !covered_cons. unfold in_iv.
    split; [|intros [->|[X|[X|X]]]; [lia|lia|lia|destruct (covered_nil _ X)]].
    intros X. destruct (Z.eq_dec k pid); [left; lia|right]. destruct (Z_lt_dec k pid); [left; lia|right; left; lia].
Qed.
Lemma added_len pid now mid x r : added pid now mid x r -> 1 - zlen mid = r.
Proof. destruct 1; reflexivity. Qed.
Lemma added_good pid now mid x r : added pid now mid x r -> good_pid pid -> ivs_good mid ->
  good_pid (iv_first x) /\ good_pid (iv_last x).
Proof.
  intros H Hp Hg. destruct H as [|a Ha|a Ha|a b Ha Hb]; cbn [iv_first iv_last]; auto.
  - split; [apply (Hg a (or_introl eq_refl))|exact Hp].
  - split; [exact Hp|apply (Hg a (or_introl eq_refl))].
  - split; [apply (Hg a (or_introl eq_refl))|apply (Hg b (or_intror (or_introl eq_refl)))].
Qed.
Lemma in_mid {X} (l1 mid l2 : list X) x : In x mid -> In x (l1 ++ mid ++ l2).
Proof. intros H. apply in_or_app. right. apply in_or_app. left. exact H. Qed.

Lemma add_interval_spec l pid now : good_pid pid -> ivs_good l -> separated l -> ~ covered pid l ->
  let l' := fst (add_interval l pid now) in
  separated l' /\ ivs_good l' /\ (forall k, covered k l' <-> k = pid \/ covered k l) /\
  zlen l' = zlen l + snd (add_interval l pid now).
Proof.
  intros Hp Hg Hs Hc. destruct (add_interval_shape l pid now Hp Hg Hs Hc) as (l1 & mid & l2 & x & El & Ha & -> & H1 & H2).
  subst l. cbn zeta.
  pose proof (proj1 (separated_app _ _) Hs) as (S1 & S2 & S3). pose proof (proj1 (separated_app _ _) S2) as (S4 & S5 & S6).
  assert (Hle : forall iv, In iv mid -> iv_first iv <= iv_last iv) by (intros iv Hi; exact (separated_le _ _ S4 Hi)).
  pose proof (added_cover _ _ _ _ _ Ha Hle) as HC.
  assert (Hmg : ivs_good mid) by (intros iv Hi; apply Hg, in_mid, Hi).
  split; [|split; [|split]].
  - apply separated_app. split; [exact S1|]. cbn [separated]. split; [split; [|split; [exact H2|exact S5]]|].
    + pose proof (proj2 (HC pid) (or_introl eq_refl)) as X. unfold in_iv in X. lia.
    + intros a b Ha' [<-|Hb]; [apply H1; exact Ha'|]. apply S3; [exact Ha'|apply in_or_app; right; exact Hb].
  - intros iv Hi. apply in_app_or in Hi. destruct Hi as [Hi|[<-|Hi]].
    + apply Hg, in_or_app. auto.
    + exact (added_good _ _ _ _ _ Ha Hp Hmg).
    + apply Hg, in_or_app. right. apply in_or_app. auto.
  - intros k. rewrite !covered_app, covered_cons, (HC k). tauto.
  - rewrite !zlen_app, zlen_cons. pose proof (added_len _ _ _ _ _ Ha). lia.
Qed.

(** Times: [stamp k] is when id k was received. *)
Definition stamped (stamp : Z -> Z) (l : list intv) : Prop :=
  forall iv, In iv l -> (forall k, in_iv k iv -> iv_ts iv <= stamp k) /\ exists k, in_iv k iv /\ stamp k = iv_ts iv.
Definition set_stamp (stamp : Z -> Z) (pid now : Z) : Z -> Z := fun k => if k =? pid then now else stamp k.
Lemma add_interval_stamped l pid now stamp : good_pid pid -> ivs_good l -> separated l -> ~ covered pid l ->
  (forall iv, In iv l -> iv_ts iv <= now) ->
  stamped stamp l -> stamped (set_stamp stamp pid now) (fst (add_interval l pid now)) /\
  (forall iv, In iv (fst (add_interval l pid now)) -> iv_ts iv <= now).
Proof.
  intros Hp Hg Hs Hc Hnow Hst. destruct (add_interval_shape l pid now Hp Hg Hs Hc) as (l1 & mid & l2 & x & El & Ha & -> & H1 & H2).
  subst l.
  assert (Hold : forall iv, In iv (l1 ++ mid ++ l2) -> forall k, in_iv k iv -> set_stamp stamp pid now k = stamp k).
  { intros iv Hi k Hk. unfold set_stamp. replace (k =? pid) with false; [reflexivity|]. symmetry. apply Z.eqb_neq. intros ->.
    apply Hc. exists iv. auto. }
  assert (Hself : set_stamp stamp pid now pid = now) by (unfold set_stamp; rewrite Z.eqb_refl; reflexivity).
  assert (Hkeep : forall iv, In iv (l1 ++ mid ++ l2) -> (forall k, in_iv k iv -> iv_ts iv <= set_stamp stamp pid now k) /\
     exists k, in_iv k iv /\ set_stamp stamp pid now k = iv_ts iv).
  { intros iv Hi. destruct (Hst iv Hi) as [A (k & B & C)]. split; [intros j Hj; rewrite (Hold iv Hi j Hj); auto|].
    exists k. split; [exact B|]. rewrite (Hold iv Hi k B). exact C. }
  assert (Hxx : ((forall k, in_iv k x -> iv_ts x <= set_stamp stamp pid now k) /\
     exists k, in_iv k x /\ set_stamp stamp pid now k = iv_ts x) /\ iv_ts x <= now).
  { assert (Hle : forall iv, In iv mid -> iv_first iv <= iv_last iv) by (intros iv Hi; apply (separated_le _ _ Hs), in_mid, Hi).
    pose proof (added_cover _ _ _ _ _ Ha Hle) as HC.
    assert (Hsub : forall iv k, In iv mid -> in_iv k iv -> in_iv k x) by (intros iv k Hi Hk; apply HC; right; exists iv; auto).
    pose proof (fun iv (Hi : In iv mid) => Hkeep iv (in_mid l1 mid l2 iv Hi)) as HK.
    pose proof (fun iv (Hi : In iv mid) => Hnow iv (in_mid l1 mid l2 iv Hi)) as HN.
    destruct Ha as [|a Ha|a Ha|a b Ha Hb].
    - split; [|cbn; lia]. split.
      + intros k Hk. apply HC in Hk. destruct Hk as [->|Hk]; [rewrite Hself; cbn; lia|destruct (covered_nil _ Hk)].
      + exists pid. split; [apply HC; auto|exact Hself].
    - destruct (HK a (or_introl eq_refl)) as [A (k & B & C)]. specialize (HN a (or_introl eq_refl)). cbn [iv_ts]. split; [|exact HN]. split.
      + intros j Hj. apply HC in Hj. destruct Hj as [->|(v & [<-|[]] & Hv)]; [rewrite Hself; exact HN|apply A; exact Hv].
      + exists k. split; [apply (Hsub a); [left; reflexivity|exact B]|exact C].
    - destruct (HK a (or_introl eq_refl)) as [A (k & B & C)]. specialize (HN a (or_introl eq_refl)). cbn [iv_ts]. split; [|exact HN]. split.
      + intros j Hj. apply HC in Hj. destruct Hj as [->|(v & [<-|[]] & Hv)]; [rewrite Hself; exact HN|apply A; exact Hv].
      + exists k. split; [apply (Hsub a); [left; reflexivity|exact B]|exact C].
    - destruct (HK a (or_introl eq_refl)) as [A (k & B & C)]. destruct (HK b (or_intror (or_introl eq_refl))) as [A' (k' & B' & C')].
      pose proof (HN a (or_introl eq_refl)). pose proof (HN b (or_intror (or_introl eq_refl))). cbn [iv_ts]. split; [|lia]. split.
      + intros j Hj. apply HC in Hj. destruct Hj as [->|(v & [<-|[<-|[]]] & Hv)]; [rewrite Hself; lia| |].
        * specialize (A j Hv). lia.
        * specialize (A' j Hv). lia.
      + destruct (Z_le_dec (iv_ts a) (iv_ts b)).
        * exists k. split; [apply (Hsub a); [left; reflexivity|exact B]|lia].
        * exists k'. split; [apply (Hsub b); [right; left; reflexivity|exact B']|lia]. }
  split; intros iv Hi; apply in_app_or in Hi; destruct Hi as [Hi|[<-|Hi]].
  - apply Hkeep, in_or_app. auto.
  - apply Hxx.
  - apply Hkeep, in_or_app. right. apply in_or_app. auto.
  - apply Hnow, in_or_app. auto.
  - apply Hxx.
  - apply Hnow, in_or_app. right. apply in_or_app. auto.
Qed.

(** ** The gap list *)
Definition pids (l : list spacket) : list Z := map sk_pid l.
Definition psorted (l : list spacket) : Prop := StronglySorted Z.le (pids l).

Lemma insert_perm p l : Permutation (p :: l) (seq_insert_sorted_rev sk_compare p l).
Proof.
  unfold seq_insert_sorted_rev.
  assert (G : forall m, Permutation (p :: m) (seq_insert_sorted sk_compare p m)).
  { induction m as [|y m IH]; cbn; [constructor; constructor|]. destruct (0 <=? sk_compare p y); [reflexivity|].
    rewrite perm_swap. constructor. exact IH. }
  rewrite <- Permutation_rev, <- G. constructor. apply Permutation_rev.
Qed.
Lemma SSle_snoc l x : StronglySorted Z.le (l ++ [x]) <-> StronglySorted Z.le l /\ Forall (fun y => y <= x) l.
Proof.
  induction l as [|y l IH]; cbn [app].
  - split; [intros _; split; constructor|intros _; repeat constructor].
  - split.
    + intros H. inversion H as [|? ? H1 H2]; subst. apply IH in H1. apply Forall_app in H2. destruct H1 as [A B], H2 as [C D].
      split; [constructor; assumption|]. constructor; [inversion D; assumption|assumption].
    + intros [H1 H2]. inversion H1 as [|? ? A B]; inversion H2 as [|? ? C D]; subst. constructor; [apply IH; auto|].
      apply Forall_app. split; [exact B|repeat constructor; exact C].
Qed.
Lemma insert_sorted_ok p l : psorted l -> psorted (seq_insert_sorted_rev sk_compare p l).
Proof.
  unfold psorted, seq_insert_sorted_rev. rewrite <- (rev_involutive l) at 1. generalize (rev l) as m. clear l.
  assert (HF : forall (Q : Z -> Prop) m, Forall Q (pids (rev m)) -> Q (sk_pid p) -> Forall Q (pids (rev (seq_insert_sorted sk_compare p m)))).
  { intros Q m H HQ. apply Forall_forall. intros k Hk. unfold pids in *. rewrite in_map_iff in Hk. destruct Hk as (q & <- & Hq).
    rewrite <- in_rev in Hq. assert (G : In q (p :: m)).
    { clear H. induction m as [|y m IH]; cbn in *; [tauto|]. destruct (0 <=? sk_compare p y); cbn in *; tauto. }
    destruct G as [->|G]; [exact HQ|]. rewrite Forall_forall in H. apply H. apply in_map. rewrite <- in_rev. exact G. }
  induction m as [|y m IH]; intros HS; [repeat constructor|].
  cbn [rev] in HS. unfold pids in HS. rewrite map_app in HS. cbn [map] in HS. apply SSle_snoc in HS. destruct HS as [H1 H2].
  cbn [seq_insert_sorted]. unfold sk_compare at 1.
  assert (Hcase : (0 <=? (if sk_pid p <? sk_pid y then -1 else if sk_pid y <? sk_pid p then 1 else 0)) = (sk_pid y <=? sk_pid p)).
  { destruct (sk_pid p <? sk_pid y) eqn:E1, (sk_pid y <? sk_pid p) eqn:E2; lia. }
  rewrite Hcase. destruct (sk_pid y <=? sk_pid p) eqn:E; cbn [rev]; unfold pids; rewrite !map_app; cbn [map].
  - apply SSle_snoc. split; [apply SSle_snoc; auto|]. apply Forall_app. split.
    + eapply Forall_impl; [|exact H2]. cbn. intros; lia.
    + repeat constructor. lia.
  - apply SSle_snoc. split; [apply IH; exact H1|]. apply HF; [exact H2|lia].
Qed.

Lemma dup_find pid m : StronglySorted Z.ge (pids m) ->
  (match seq_find (dup_cmp pid) m with Some _ => true | None => false end = true <-> In pid (pids m)).
Proof.
  induction m as [|y m IH]; intros HS; [cbn; split; [discriminate|tauto]|].
  cbn [pids map] in HS. inversion HS as [|? ? H1 H2]; subst. cbn [seq_find pids map In]. unfold dup_cmp at 1 2.
  destruct (pid =? sk_pid y) eqn:E1; cbn.
  - split; [intros _; left; lia|reflexivity].
  - destruct (sk_pid y <? pid) eqn:E2; cbn.
    + split; [discriminate|]. intros [X|X]; [lia|]. rewrite Forall_forall in H2. specialize (H2 pid X). lia.
    + rewrite (IH H1). split; [tauto|]. intros [X|X]; [lia|exact X].
Qed.
Lemma SS_rev_ge l : StronglySorted Z.le l -> StronglySorted Z.ge (rev l).
Proof.
  induction l as [|x l IH]; intros H; [constructor|]. inversion H as [|? ? H1 H2]; subst. cbn [rev].
  assert (G : forall m, StronglySorted Z.ge m -> Forall (fun y => x <= y) m -> StronglySorted Z.ge (m ++ [x])).
  { induction m as [|z m IHm]; intros A B; [repeat constructor|]. inversion A as [|? ? A1 A2]; inversion B as [|? ? B1 B2]; subst.
    cbn. constructor; [auto|]. apply Forall_app. split; [exact A2|]. repeat constructor. lia. }
  apply G; [auto|]. apply Forall_rev. exact H2.
Qed.
Lemma is_duplicate_iff s pid : psorted (s_recv s) ->
  (sub_is_duplicate s pid = true <-> s_ready s <> 0 /\ (pid <= s_ready s \/ In pid (pids (s_recv s)))).
Proof.
  intros HS. unfold sub_is_duplicate. destruct (s_ready s =? 0) eqn:E0; [split; [discriminate|lia]|].
  destruct (pid <=? s_ready s) eqn:E1; [split; [intros _; lia|reflexivity]|].
  rewrite dup_find.
  - unfold pids. rewrite map_rev, <- in_rev. split; [intros H; split; [lia|right; exact H]|intros [_ [X|X]]; [lia|exact X]].
  - unfold pids. rewrite map_rev. apply SS_rev_ge. exact HS.
Qed.

(** ** Processing *)
Lemma process_loop_spec l : forall ready ready' out rest, (forall p, In p l -> good_pid (sk_pid p)) ->
  0 <= ready < 18446744073709551615 ->
  (ready = 0 -> match l with [] => True | p :: _ => sk_pid p = 1 end) ->
  process_loop ready l = (ready', out, rest) ->
  l = out ++ rest /\ pids out = upfrom (ready + 1) (length out) /\ ready' = ready + zlen out /\
  0 <= ready' < 18446744073709551615 /\
  match rest with [] => True | p :: _ => sk_pid p <> ready' + 1 /\ ready' <> 0 end.
Proof.
  induction l as [|p l IH]; intros ready ready' out rest Hg Hr H0 E; cbn [process_loop] in E.
  - injection E as <- <- <-. cbn. repeat split; lia.
  - rewrite (u64_small (ready + 1)) in E by (unfold is_u64; lia).
    destruct (negb (ready =? 0) && negb (sk_pid p =? ready + 1)) eqn:Eb.
    + injection E as <- <- <-. rewrite zlen_nil. split; [reflexivity|]. split; [reflexivity|]. split; [lia|]. split; [lia|]. split; lia.
    + destruct (process_loop (ready + 1) l) as [[r1 o1] l1] eqn:E1. injection E as <- <- <-.
      assert (Hp : sk_pid p = ready + 1). { destruct (Z.eq_dec ready 0) as [->|]; [specialize (H0 eq_refl); lia|lia]. }
      pose proof (Hg p (or_introl eq_refl)) as Hgp. unfold good_pid in Hgp.
      destruct (IH (ready + 1) r1 o1 l1) as (A & B & C & D & F); auto; [intros; apply Hg; right; assumption|lia|lia|].
      split; [cbn; congruence|]. split; [cbn [pids map length upfrom]; unfold pids in B; rewrite B, Hp; reflexivity|].
      rewrite zlen_cons. split; [lia|]. split; [exact D|exact F].
Qed.
