(** PropList.v — properties C07..C09 (rmc_list_template.h). *)
From Coq Require Import Sorting.Permutation Sorting.Sorted.
From Verif Require Import Base ListHeap SeqList ListHeapProofs SpecList ListRefine.

(** C07: any number of lists in one heap, any sequence of calls (fewer than 2^32 of them,
    the range of elem_count): no undefined behaviour, no failed assert, no endless loop;
    every output, and at the end every list, is that of the textbook sequences. *)
Theorem c07_lists_refine_sequences :
  forall (D : Type) (cmp : D -> D -> Z) (n : nat) (h0 : heap D) (ops : list (lop D)),
  Forall (lop_ok n) ops -> zlen ops <= 4294967296 ->
  exists h, heap_run cmp (init_lists h0 n) ops = Ok (h, snd (seq_run cmp (fun _ => []) ops)) /\
    forall lid, (lid < n)%nat ->
      exists l, R h lid l /\ map snd l = fst (seq_run cmp (fun _ => []) ops) lid.
Proof.
  intros D cmp n h0 ops Hok Hlen.
  destruct (heap_run_refines cmp n ops (init_lists h0 n) (fun _ => []) 0 (init_lists_G n h0) Hok)
    as (h & xs & E & HG & ->).
  { intros j Hj. unfold zlen. cbn. lia. } { lia. }
  exists h. split; [exact E|exact HG].
Qed.

Definition zcmp (a b : Z) : Z := if a <? b then -1 else if b <? a then 1 else 0.
Definition c07_ops : list (lop Z) :=
  [LPushHead 0 5; LPushTail 0 7; LInsertAfter 0 0 6; LInsertBefore 0 0 4; LSize 0; LMoveTail 0 1 1;
   LInsertSorted 1 9; LInsertSortedRev 1 8; LToList 0; LToListRev 1; LDelete 0 5; LPopTail 0; LEmpty 1;
   LPopHeadNode 0 1; LPopTailNode 1 0; LFind 0 3; LFindRev 0 3; LMoveSorted 0 0 1; LMoveHead 0 0 1; LPopHead 0].
Example c07_nonvacuous : Forall (lop_ok 2) c07_ops /\
  snd (seq_run zcmp (fun _ => []) c07_ops) =
  [OVoid; OVoid; OVoid; OVoid; OSize 4; OVoid; OVoid; OVoid; OAll [4;6;7]; OAll [8;5;9]; OMiss;
   OData (Some 7); OVoid; OVoid; OVoid; OData None; OData None; OVoid; OVoid; OData None].
Proof. split; [unfold c07_ops, lop_ok; repeat constructor; lia|reflexivity]. Qed.

(** Per-call form of C07: effect on the addressed list and on all others, and which node
    handles stay valid.  [R h lid l] reads "list lid of heap h is the sequence l of
    (node address, data)". *)
Theorem c07_delete :
  forall D (h : heap D) lid l1 a d l2, R h lid (l1 ++ (a, d) :: l2) ->
  exists h', delete h (Some a) = Ok h' /\ R h' lid (l1 ++ l2) /\ h_nodes h' a = None /\
    (forall j lj, j <> lid -> R h j lj -> R h' j lj) /\
    (forall b, b <> a -> h_nodes h b <> None -> h_nodes h' b <> None).
Proof.
  intros D h lid l1 a d l2 HR. destruct (delete_spec h lid l1 a d l2 HR) as (h' & E & HR' & Hn & HF & _).
  exists h'. split; [exact E|]. split; [exact HR'|]. split; [exact Hn|]. split.
  - intros j lj Hj HRj. apply (frame_other h h' lid _ [] j lj HR HF Hj HRj). intros b [].
  - intros b Hb Hnn. destruct (in_dec Nat.eq_dec b (map fst (l1 ++ (a, d) :: l2))) as [Hin|Hnin].
    + destruct HR' as (_ & HS' & _).
      assert (Hin' : In b (map fst (l1 ++ l2))).
      { rewrite map_app, in_app_iff in *. cbn in Hin. destruct Hin as [X|[X|X]]; [auto|congruence|auto]. }
      destruct (seg_owner _ _ _ _ _ _ HS' Hin') as (nd & En & _). congruence.
    + destruct HF as (_ & F2 & _). rewrite F2; auto.
Qed.

Theorem c07_unlink_then_link :
  forall D (h : heap D) lid l1 a d l2 lid2 lt, R h lid (l1 ++ (a, d) :: l2) -> R h lid2 lt -> lid <> lid2 ->
  exists h1 h2, unlink h (Some a) = Ok (h1, Some a) /\
    push_head_node h1 (Some lid2) (Some a) = Ok (h2, Some a) /\
    R h2 lid (l1 ++ l2) /\ R h2 lid2 ((a, d) :: lt) /\
    (forall j lj, j <> lid -> j <> lid2 -> R h j lj -> R h2 j lj).
Proof.
  intros D h lid l1 a d l2 lid2 lt HR HR2 Hne.
  destruct (unlink_spec h lid l1 a d l2 HR) as (h1 & nd & Eu & HR1 & Hn & Hd & Ho & HF & Hfr).
  assert (Hoth : forall j lj, j <> lid -> R h j lj -> R h1 j lj).
  { intros j lj Hj HRj. apply (frame_other h h1 lid _ [] j lj HR HF Hj HRj). intros b []. }
  assert (Hnotin : forall j lj, R h1 j lj -> ~ In a (map fst lj)).
  { intros j lj HRj Hin. destruct HRj as (_ & HS & _).
    destruct (seg_owner _ _ _ _ _ _ HS Hin) as (nd' & E1 & E2). congruence. }
  assert (HR2' := Hoth lid2 lt (not_eq_sym Hne) HR2).
  assert (Hafr : (a < h_fresh h1)%nat).
  { rewrite Hfr. destruct HR as (_ & _ & _ & HFr). rewrite Forall_forall in HFr. apply HFr.
    rewrite map_app. apply in_or_app. right. left. reflexivity. }
  destruct (push_head_node_spec h1 lid2 lt a nd HR2' Hn (Hnotin _ _ HR2') Hafr) as (h2 & E2 & HRn & HF2 & _).
  rewrite Hd in HRn.
  exists h1, h2. split; [exact Eu|]. split; [exact E2|]. split; [|split; [exact HRn|]].
  - apply (frame_other h1 h2 lid2 lt [a] lid _ HR2' HF2 Hne HR1). intros b [<-|[]]. apply (Hnotin _ _ HR1).
  - intros j lj H1 H2 HRj. apply (frame_other h1 h2 lid2 lt [a] j _ HR2' HF2 H2 (Hoth j lj H1 HRj)).
    intros b [<-|[]]. apply (Hnotin _ _ (Hoth j lj H1 HRj)).
Qed.
Definition c07_heap : heap Z :=
  match heap_run zcmp (init_lists (mkHeap (fun _ => None) (fun _ => None) 0 (fun _ => mkNode 0 None None None)) 2)
          [LPushTail 0 1; LPushTail 0 2; LPushTail 0 3; LPushTail 1 4] with
  | Ok (h, _) => h
  | _ => mkHeap (fun _ => None) (fun _ => None) 0 (fun _ => mkNode 0 None None None)
  end.
Example c07_call_nonvacuous :
  R c07_heap 0 ([(0%nat,1)] ++ (1%nat,2) :: [(2%nat,3)]) /\ R c07_heap 1 [(3%nat,4)].
Proof.
  split; unfold R, c07_heap; (refine (conj _ (conj _ (conj _ _)));
    [vm_compute; reflexivity | cbn [seg app]; repeat (split; [vm_compute; reflexivity|]); exact I
    |cbn [map fst app]; repeat (constructor; [cbn [In]; intuition discriminate|]); constructor
    |cbn [map fst app]; repeat (apply Forall_cons; [vm_compute; lia|]); apply Forall_nil]).
Qed.

(** C08. [cmp] is the user's comparison; it orders data by [key]. *)
Section Sorted.
Context {D : Type} (key : D -> Z) (cmp : D -> D -> Z).
Hypothesis cmp_key : forall x y, 0 <= cmp x y <-> key y <= key x.

Lemma insert_sorted_desc x l : StronglySorted (fun a b => key b <= key a) l ->
  StronglySorted (fun a b => key b <= key a) (seq_insert_sorted cmp x l) /\
  Permutation (x :: l) (seq_insert_sorted cmp x l).
Proof.
  induction l as [|y l IH]; intros HS; cbn [seq_insert_sorted].
  - split; [repeat constructor|reflexivity].
  - inversion HS as [|y' l' HS' HF]; subst. destruct (0 <=? cmp x y) eqn:E.
    + assert (key y <= key x) by (apply cmp_key; lia). split; [|reflexivity].
      constructor; [exact HS|]. constructor; [assumption|]. eapply Forall_impl; [|exact HF]. cbv beta. intros; lia.
    + assert (key x < key y). { destruct (Z_lt_ge_dec (key x) (key y)); [assumption|]. assert (0 <= cmp x y) by (apply cmp_key; lia). lia. }
      destruct (IH HS') as [I1 I2]. split.
      * constructor; [exact I1|]. eapply Permutation_Forall; [exact I2|]. constructor; [lia|exact HF].
      * rewrite <- I2. apply perm_swap.
Qed.
Lemma StronglySorted_snoc (P : D -> D -> Prop) l x : StronglySorted P l -> Forall (fun y => P y x) l ->
  StronglySorted P (l ++ [x]).
Proof.
  induction l as [|y l IH]; intros H1 H2; cbn; [repeat constructor|].
  inversion H1; inversion H2; subst. constructor; [auto|]. apply Forall_app. split; [assumption|repeat constructor; assumption].
Qed.
Lemma StronglySorted_rev (P Q : D -> D -> Prop) (HPQ : forall a b, P a b -> Q b a) l :
  StronglySorted P l -> StronglySorted Q (rev l).
Proof.
  induction l as [|y l IH]; intros HS; cbn [rev]; [constructor|]. inversion HS; subst.
  apply StronglySorted_snoc; [auto|]. apply Forall_forall. intros z Hz. apply in_rev in Hz.
  apply HPQ. rewrite Forall_forall in H2. auto.
Qed.
Lemma insert_sorted_rev_asc x l : StronglySorted (fun a b => key a <= key b) l ->
  StronglySorted (fun a b => key a <= key b) (seq_insert_sorted_rev cmp x l) /\
  Permutation (x :: l) (seq_insert_sorted_rev cmp x l).
Proof.
  intros HS. unfold seq_insert_sorted_rev.
  destruct (insert_sorted_desc x (rev l)) as [I1 I2].
  { apply (StronglySorted_rev (fun a b => key a <= key b)); [auto|exact HS]. }
  split.
  - apply (StronglySorted_rev (fun a b => key b <= key a)); [auto|exact I1].
  - rewrite <- Permutation_rev, <- I2, <- Permutation_rev. reflexivity.
Qed.

Lemma desc_tail x (l2 : list (nat * D)) : StronglySorted (fun a b => key b <= key a) (map snd l2) ->
  match l2 with [] => True | y :: _ => 0 <= cmp x (snd y) end ->
  Forall (fun y => key (snd y) <= key x) l2.
Proof.
  destruct l2 as [|[b y] l2]; intros HS H; [constructor|]. apply cmp_key in H. cbn in *.
  inversion HS as [|? ? ? HF]; subst. constructor; [exact H|].
  rewrite Forall_forall in *. intros z Hz. specialize (HF (snd z) (in_map snd l2 z Hz)). cbv beta in HF. lia.
Qed.
Lemma lt_key x (l : list (nat * D)) : Forall (fun y => cmp x (snd y) < 0) l ->
  Forall (fun y => key x < key (snd y)) l.
Proof.
  intros H. eapply Forall_impl; [|exact H]. cbv beta. intros y Hy.
  destruct (Z_lt_ge_dec (key x) (key (snd y))); [assumption|].
  assert (0 <= cmp x (snd y)) by (apply cmp_key; lia). lia.
Qed.
Lemma SS_app_r (P : D -> D -> Prop) l1 l2 : StronglySorted P (l1 ++ l2) -> StronglySorted P l2.
Proof. induction l1 as [|y l1 IH]; cbn; [auto|]. intros HS. inversion HS; subst. auto. Qed.
Lemma SS_app_l (P : D -> D -> Prop) l1 l2 : StronglySorted P (l1 ++ l2) -> StronglySorted P l1.
Proof.
  induction l1 as [|y l1 IH]; cbn; [constructor|]. intros HS. inversion HS; subst.
  apply Forall_app in H2. constructor; tauto.
Qed.

(** insert_sorted keeps a descending list descending, adds exactly the new element and
    leaves every other list alone. The new element goes in front of its equals. *)
Theorem c08_insert_sorted :
  forall (h : heap D) lid l x, R h lid l ->
  StronglySorted (fun a b => key b <= key a) (map snd l) ->
  exists h' l1 l2 a, insert_sorted h (Some lid) x cmp = Ok (h', Some a) /\ l = l1 ++ l2 /\
    R h' lid (l1 ++ (a, x) :: l2) /\
    StronglySorted (fun a b => key b <= key a) (map snd (l1 ++ (a, x) :: l2)) /\
    Forall (fun y => key x < key (snd y)) l1 /\ Forall (fun y => key (snd y) <= key x) l2 /\
    (forall j lj, j <> lid -> R h j lj -> R h' j lj).
Proof.
  intros h lid l x HR HS.
  destruct (insert_sorted_spec h lid l x cmp HR) as (h' & l1 & l2 & E & El & HR' & Hm & HF & P1 & P2).
  destruct (insert_sorted_desc x (map snd l) HS) as [I1 _].
  exists h', l1, l2, (h_fresh h). split; [exact E|]. split; [exact El|]. split; [exact HR'|].
  split; [rewrite Hm; exact I1|]. split; [exact (lt_key x l1 P1)|]. split.
  - apply desc_tail; [|exact P2]. subst l. rewrite map_app in HS. exact (SS_app_r _ _ _ HS).
  - intros j lj Hj HRj. exact (frame_fresh_other h h' lid l j lj HR HF Hj HRj).
Qed.

(** The reverse walk keeps an ascending list ascending; the new element goes behind its equals. *)
Theorem c08_insert_sorted_rev :
  forall (h : heap D) lid l x, R h lid l ->
  StronglySorted (fun a b => key a <= key b) (map snd l) ->
  exists h' l1 l2 a, insert_sorted_rev h (Some lid) x cmp = Ok (h', Some a) /\ l = l1 ++ l2 /\
    R h' lid (l1 ++ (a, x) :: l2) /\
    StronglySorted (fun a b => key a <= key b) (map snd (l1 ++ (a, x) :: l2)) /\
    Forall (fun y => key (snd y) <= key x) l1 /\ Forall (fun y => key x < key (snd y)) l2 /\
    (forall j lj, j <> lid -> R h j lj -> R h' j lj).
Proof.
  intros h lid l x HR HS.
  destruct (insert_sorted_rev_spec h lid l x cmp HR) as (h' & l1 & l2 & E & El & HR' & Hm & HF & P1 & P2).
  destruct (insert_sorted_rev_asc x (map snd l) HS) as [I1 _].
  exists h', l1, l2, (h_fresh h). split; [exact E|]. split; [exact El|]. split; [exact HR'|].
  split; [rewrite Hm; exact I1|]. split; [|split; [exact (lt_key x l2 P1)|]].
  - rewrite <- (rev_involutive l1). apply Forall_rev'. apply desc_tail; [|exact P2].
    subst l. rewrite map_app in HS. apply SS_app_l in HS. rewrite map_rev.
    exact (StronglySorted_rev _ _ (fun a b H => H) _ HS).
  - intros j lj Hj HRj. exact (frame_fresh_other h h' lid l j lj HR HF Hj HRj).
Qed.
End Sorted.

Example c08_nonvacuous :
  (forall x y, 0 <= zcmp x y <-> y <= x) /\ R c07_heap 0 [(0%nat,1); (1%nat,2); (2%nat,3)] /\
  StronglySorted (fun a b => a <= b) (map snd [(0%nat,1); (1%nat,2); (2%nat,3)]) /\
  StronglySorted (fun a b => b <= a) (map snd [(3%nat,4)]).
Proof.
  refine (conj _ (conj (proj1 c07_call_nonvacuous) (conj _ _))).
  - intros x y. unfold zcmp. destruct (x <? y) eqn:E1; [|destruct (y <? x) eqn:E2]; lia.
  - cbn. repeat constructor; lia.
  - cbn. repeat constructor.
Qed.

(** C09. The comparison protocol of find: 0 = go on, -1 = stop, anything else = found. *)
Section Find.
Context {D : Type}.

Lemma seq_find_some {X} (f : X -> Z) l y : seq_find f l = Some y <->
  exists l1 l2, l = l1 ++ y :: l2 /\ Forall (fun z => f z = 0) l1 /\ f y <> 0 /\ f y <> -1.
Proof.
  split.
  - induction l as [|z l IH]; cbn [seq_find]; [discriminate|].
    destruct (f z =? -1) eqn:E1; [discriminate|]. destruct (f z =? 0) eqn:E2; cbn [negb].
    + intros H. destruct (IH H) as (l1 & l2 & -> & H1 & H2). exists (z :: l1), l2.
      split; [reflexivity|]. split; [constructor; [lia|exact H1]|exact H2].
    + intros H. injection H as <-. exists [], l. split; [reflexivity|]. split; [constructor|]. lia.
  - intros (l1 & l2 & -> & H1 & H2 & H3). induction H1 as [|z l1 Hz H1 IH]; cbn [app seq_find].
    + replace (f y =? -1) with false by lia. replace (f y =? 0) with false by lia. reflexivity.
    + rewrite Hz. cbn. exact IH.
Qed.
Lemma seq_find_none {X} (f : X -> Z) l : seq_find f l = None <->
  Forall (fun z => f z = 0) l \/
  exists l1 y l2, l = l1 ++ y :: l2 /\ Forall (fun z => f z = 0) l1 /\ f y = -1.
Proof.
  split.
  - induction l as [|z l IH]; cbn [seq_find]; [left; constructor|].
    destruct (f z =? -1) eqn:E1; [intros _; right; exists [], z, l; split; [reflexivity|split; [constructor|lia]]|].
    destruct (f z =? 0) eqn:E2; cbn [negb]; [|discriminate]. intros H. destruct (IH H) as [H1|(l1 & y & l2 & -> & H1 & H2)].
    + left. constructor; [lia|exact H1].
    + right. exists (z :: l1), y, l2. split; [reflexivity|]. split; [constructor; [lia|exact H1]|exact H2].
  - intros [H|(l1 & y & l2 & -> & H1 & H2)].
    + induction H as [|z l Hz H IH]; cbn [seq_find]; [reflexivity|]. rewrite Hz. cbn. exact IH.
    + induction H1 as [|z l1 Hz H1 IH]; cbn [app seq_find]; [rewrite H2; reflexivity|]. rewrite Hz. cbn. exact IH.
Qed.

(** find_node returns a node iff it is the first one whose comparison is not 0 and that
    comparison is not -1; it returns nothing iff there is no such node. The heap is not an
    output of find_node, so it is unchanged. *)
Theorem c09_find_node : forall (h : heap D) lid l d cmp, R h lid l ->
  (forall a, find_node h (Some lid) d cmp = Ok (Some a) <->
     exists l1 y l2, l = l1 ++ (a, y) :: l2 /\ Forall (fun z => cmp d (snd z) = 0) l1 /\
       cmp d y <> 0 /\ cmp d y <> -1) /\
  (find_node h (Some lid) d cmp = Ok None <->
     Forall (fun z => cmp d (snd z) = 0) l \/
     exists l1 z l2, l = l1 ++ z :: l2 /\ Forall (fun z => cmp d (snd z) = 0) l1 /\ cmp d (snd z) = -1).
Proof.
  intros h lid l d cmp HR. destruct (find_node_spec h lid l d cmp HR) as [-> _]. split.
  - intros a. pose proof (fun y => seq_find_some (fun x => cmp d (snd x)) l (a, y)) as HS.
    destruct (seq_find _ l) as [[b z]|] eqn:E; cbn [option_map fst].
    + split.
      * intros H. injection H as ->. destruct (proj1 (HS z) eq_refl) as (l1 & l2 & ->  & H1 & H2).
        exists l1, z, l2. auto.
      * intros (l1 & y & l2 & El & H1 & H2). assert (Some (b, z) = Some (a, y)) as X; [|congruence].
        apply HS. exists l1, l2. auto.
    + split; [discriminate|]. intros (l1 & y & l2 & El & H1 & H2). exfalso.
      assert (@None (nat * D) = Some (a, y)) as X; [|discriminate]. apply HS. exists l1, l2. auto.
  - rewrite <- (seq_find_none (fun x : nat * D => cmp d (snd x)) l).
    destruct (seq_find _ l); cbn [option_map]; split; congruence.
Qed.

(** find_node_rev is find_node on the reversed sequence. *)
Theorem c09_find_node_rev : forall (h : heap D) lid l d cmp, R h lid l ->
  (forall a, find_node_rev h (Some lid) d cmp = Ok (Some a) <->
     exists l1 y l2, l = l1 ++ (a, y) :: l2 /\ Forall (fun z => cmp d (snd z) = 0) l2 /\
       cmp d y <> 0 /\ cmp d y <> -1) /\
  (find_node_rev h (Some lid) d cmp = Ok None <->
     Forall (fun z => cmp d (snd z) = 0) l \/
     exists l1 z l2, l = l1 ++ z :: l2 /\ Forall (fun z => cmp d (snd z) = 0) l2 /\ cmp d (snd z) = -1).
Proof.
  intros h lid l d cmp HR. destruct (find_node_spec h lid l d cmp HR) as [_ ->].
  assert (Hr : forall (z : nat * D) l1 l2, rev l = l1 ++ z :: l2 <-> l = rev l2 ++ z :: rev l1).
  { intros z l1 l2. split; intros H.
    - rewrite <- (rev_involutive l), H, rev_app_distr. cbn. rewrite <- app_assoc. reflexivity.
    - rewrite H, rev_app_distr. cbn. rewrite !rev_involutive, <- app_assoc. reflexivity. }
  split.
  - intros a. pose proof (fun y => seq_find_some (fun x => cmp d (snd x)) (rev l) (a, y)) as HS.
    destruct (seq_find _ (rev l)) as [[b z]|] eqn:E; cbn [option_map fst].
    + split.
      * intros H. injection H as ->. destruct (proj1 (HS z) eq_refl) as (l1 & l2 & El & H1 & H2).
        exists (rev l2), z, (rev l1). split; [apply Hr, El|]. split; [apply Forall_rev'; exact H1|exact H2].
      * intros (l1 & y & l2 & El & H1 & H2). assert (Some (b, z) = Some (a, y)) as X; [|congruence].
        apply HS. exists (rev l2), (rev l1). rewrite Hr, !rev_involutive.
        split; [exact El|]. split; [apply Forall_rev'; exact H1|exact H2].
    + split; [discriminate|]. intros (l1 & y & l2 & El & H1 & H2). exfalso.
      assert (@None (nat * D) = Some (a, y)) as X; [|discriminate]. apply HS. exists (rev l2), (rev l1).
      rewrite Hr, !rev_involutive. split; [exact El|]. split; [apply Forall_rev'; exact H1|exact H2].
  - rewrite <- (rev_involutive l) at 2. 
    assert (H0 : seq_find (fun x : nat * D => cmp d (snd x)) (rev l) = None <->
                 Ok (option_map fst (seq_find (fun x : nat * D => cmp d (snd x)) (rev l))) = Ok None).
    { destruct (seq_find _ (rev l)); cbn [option_map]; split; congruence. }
    rewrite <- H0, seq_find_none. split; (intros [H|(l1 & z & l2 & El & H1 & H2)]; [left|right]).
    + apply Forall_rev'. exact H.
    + exists (rev l2), z, (rev l1). split; [apply Hr, El|]. split; [apply Forall_rev'; exact H1|exact H2].
    + rewrite <- (rev_involutive (rev l)). apply Forall_rev'. exact H.
    + exists (rev l2), z, (rev l1). rewrite Hr, !rev_involutive.
      split; [exact El|]. split; [apply Forall_rev'; exact H1|exact H2].
Qed.

(** for_each visits the nodes head to tail and stops right after the first one its callback
    rejects: [visited] are exactly the nodes passed to the callback, in this order. *)
Theorem c09_for_each : forall (h : heap D) lid l (keep : nat -> D -> bool), R h lid l ->
  exists visited rest, l = visited ++ rest /\
    for_each h (Some lid) (fun acc a d => (acc ++ [(a, d)], keep a d)) [] = Ok visited /\
    ((rest = [] /\ Forall (fun x => keep (fst x) (snd x) = true) visited) \/
     (exists v x, visited = v ++ [x] /\ Forall (fun x => keep (fst x) (snd x) = true) v /\
        keep (fst x) (snd x) = false)).
Proof.
  intros h lid l keep HR. destruct (for_each_spec (fun acc a d => (acc ++ [(a, d)], keep a d)) h lid l [] HR) as [-> _].
  clear HR. cut (forall acc, exists visited rest, l = visited ++ rest /\
    seq_for_each (fun s x => (s ++ [(fst x, snd x)], keep (fst x) (snd x))) acc l = acc ++ visited /\
    ((rest = [] /\ Forall (fun x : nat * D => keep (fst x) (snd x) = true) visited) \/
     (exists v x, visited = v ++ [x] /\ Forall (fun x => keep (fst x) (snd x) = true) v /\
        keep (fst x) (snd x) = false))).
  { intros H. destruct (H []) as (v & r & E & E2 & E3). exists v, r. rewrite E2. auto. }
  induction l as [|[a d] l IH]; intros acc; cbn [seq_for_each fst snd].
  - exists [], []. split; [reflexivity|]. split; [symmetry; apply app_nil_r|]. left. split; constructor.
  - destruct (keep a d) eqn:E.
    + destruct (IH (acc ++ [(a, d)])) as (v & r & E1 & E2 & E3). exists ((a, d) :: v), r.
      split; [cbn; congruence|]. split; [rewrite E2, <- app_assoc; reflexivity|].
      destruct E3 as [[-> E3]|(v' & x & -> & E3 & E4)].
      * left. split; [reflexivity|]. constructor; assumption.
      * right. exists ((a, d) :: v'), x. split; [reflexivity|]. split; [constructor; assumption|exact E4].
    + exists [(a, d)], l. split; [reflexivity|]. split; [reflexivity|]. right. exists [], (a, d). 
      split; [reflexivity|]. split; [constructor|exact E].
Qed.
Theorem c09_for_each_rev : forall (h : heap D) lid l S (func : S -> nat -> D -> S * bool) s, R h lid l ->
  for_each_rev h (Some lid) func s = Ok (seq_for_each (fun s x => func s (fst x) (snd x)) s (rev l)) /\
  for_each h (Some lid) func s = Ok (seq_for_each (fun s x => func s (fst x) (snd x)) s l).
Proof. intros h lid l S func s HR. destruct (for_each_spec func h lid l s HR). auto. Qed.
End Find.

Example c09_nonvacuous :
  R c07_heap 0 [(0%nat,1); (1%nat,2); (2%nat,3)] /\
  find_node c07_heap (Some 0%nat) 2 (fun a b => if a =? b then 1 else 0) = Ok (Some 1%nat) /\
  find_node c07_heap (Some 0%nat) 4 (fun a b => if a =? b then 1 else 0) = Ok None /\
  for_each c07_heap (Some 0%nat) (fun acc a d => (acc ++ [(a, d)], d <? 2)) [] = Ok [(0%nat,1); (1%nat,2)].
Proof. split; [exact (proj1 c07_call_nonvacuous)|]. vm_compute. auto. Qed.

Print Assumptions c07_lists_refine_sequences.
Print Assumptions c07_delete.
Print Assumptions c07_unlink_then_link.
Print Assumptions c08_insert_sorted.
Print Assumptions c08_insert_sorted_rev.
Print Assumptions c09_find_node.
Print Assumptions c09_find_node_rev.
Print Assumptions c09_for_each.
Print Assumptions c09_for_each_rev.
