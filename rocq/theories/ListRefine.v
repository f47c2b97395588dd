(** ListRefine.v — the heap model refines the family of sequences of SpecList.v. *)
From Verif Require Import Base ListHeap SeqList ListHeapProofs SpecList.

Section Refine.
Context {D : Type}.
Variable cmp : D -> D -> Z.
Notation heap := (heap D).

Definition G (n : nat) (h : heap) (m : nat -> list D) : Prop :=
  forall j, (j < n)%nat -> exists l, R h j l /\ map snd l = m j.

Lemma setl_eq (m : nat -> list D) j l : setl m j l j = l.
Proof. unfold setl. rewrite Nat.eqb_refl. reflexivity. Qed.
Lemma setl_neq (m : nat -> list D) j k l : k <> j -> setl m j l k = m k.
Proof. intros H. unfold setl. apply Nat.eqb_neq in H. rewrite H. reflexivity. Qed.

Lemma G_update n h h' m lid l l' :
  G n h m -> R h lid l -> R h' lid l' ->
  (forall j lj, j <> lid -> R h j lj -> R h' j lj) ->
  G n h' (setl m lid (map snd l')).
Proof.
  intros HG HR HR' Hfr j Hj. destruct (Nat.eq_dec j lid) as [->|Hne].
  - exists l'. split; [exact HR'|]. rewrite setl_eq. reflexivity.
  - destruct (HG j Hj) as (lj & Hl & Hm). exists lj. split; [apply Hfr; assumption|].
    rewrite setl_neq by assumption. exact Hm.
Qed.

Lemma G_fresh n h h' m lid l l' x :
  G n h m -> R h lid l -> R h' lid l' -> frame h h' lid l [h_fresh h] -> map snd l' = x ->
  G n h' (setl m lid x).
Proof.
  intros HG HR HR' HF <-. apply (G_update n h h' m lid l l' HG HR HR'). intros j lj Hj HRj.
  exact (frame_fresh_other h h' lid l j lj HR HF Hj HRj).
Qed.
Lemma G_nofresh n h h' m lid l l' x :
  G n h m -> R h lid l -> R h' lid l' -> frame h h' lid l [] -> map snd l' = x ->
  G n h' (setl m lid x).
Proof.
  intros HG HR HR' HF <-. apply (G_update n h h' m lid l l' HG HR HR'). intros j lj Hj HRj.
  apply (frame_other h h' lid l [] j lj HR HF Hj HRj). intros a [].
Qed.

Lemma nth_ptr_spec (h : heap) lid l2 : forall l1 i, R h lid (l1 ++ l2) ->
  nth_ptr h (first_ptr l2 None) i =
    Ok (match nth_error l2 i with Some (a, _) => Some a | None => None end).
Proof.
  induction l2 as [|[a d] l2 IH]; intros l1 i HR.
  - destruct i as [|i]; cbn; [reflexivity|]. induction i as [|i IHi]; cbn; [reflexivity|exact IHi].
  - destruct i as [|i]; cbn [nth_ptr first_ptr nth_error]; [reflexivity|].
    destruct (R_node _ _ _ _ _ _ HR) as (nd & Hn & _ & _ & Hnx & _).
    unfold list_next. rewrite (get_node_some _ _ _ Hn). cbn [bind snd]. rewrite Hnx.
    apply (IH (l1 ++ [(a, d)])). rewrite <- app_assoc. exact HR.
Qed.

Lemma nth_error_map_snd (l : list (nat * D)) i :
  nth_error (map snd l) i = option_map snd (nth_error l i).
Proof. revert i; induction l as [|x l IH]; intros [|i]; cbn; auto. Qed.

Lemma nth_error_split' (l : list (nat * D)) i a d : nth_error l i = Some (a, d) ->
  exists l1 l2, l = l1 ++ (a, d) :: l2 /\ length l1 = i.
Proof. intros H. destruct (nth_error_split _ _ H) as (l1 & l2 & E & Hl). eauto. Qed.

(** at_pos resolves to the node, or to OMiss. *)
Lemma at_pos_spec (h : heap) lid l i k : R h lid l ->
  at_pos h lid i k =
    match nth_error l i with
    | Some (a, _) => k (Some a)
    | None => Ok (h, OMiss)
    end.
Proof.
  intros HR. unfold at_pos. destruct (head_tail_spec h lid l HR) as [Hh _]. rewrite Hh. cbn [bind].
  rewrite (nth_ptr_spec h lid l [] i) by exact HR. cbn [bind].
  destruct (nth_error l i) as [[a d]|]; reflexivity.
Qed.

Lemma remove_nth_split {A} (l1 : list A) x l2 :
  firstn (length l1) (l1 ++ x :: l2) ++ skipn (S (length l1)) (l1 ++ x :: l2) = l1 ++ l2.
Proof.
  rewrite firstn_app, firstn_all, Nat.sub_diag. cbn [firstn]. rewrite app_nil_r. f_equal.
  rewrite skipn_app. rewrite skipn_all2 by lia. replace (S (length l1) - length l1)%nat with 1%nat by lia.
  reflexivity.
Qed.
Lemma insert_nth_split (l1 : list D) d l2 : insert_nth (length l1) d (l1 ++ l2) = l1 ++ d :: l2.
Proof.
  unfold insert_nth. rewrite firstn_app, firstn_all, Nat.sub_diag. cbn [firstn]. rewrite app_nil_r.
  rewrite skipn_app, skipn_all2, Nat.sub_diag by lia. reflexivity.
Qed.
Lemma remove_nth_map l1 a d l2 :
  remove_nth (length l1) (map snd (l1 ++ (a, d) :: l2)) = map (@snd nat D) (l1 ++ l2).
Proof.
  unfold remove_nth. rewrite !map_app. cbn [map snd]. rewrite <- (map_length snd l1).
  apply remove_nth_split.
Qed.

(** Moving a node between lists, for any of the three ways to link it. *)
Lemma move_spec n (h : heap) m lid i lid2 (ins : heap -> option nat -> option nat -> res (heap * option nat))
  (put : D -> list D -> list D) :
  (forall h lid l a nd, R h lid l -> h_nodes h a = Some nd -> ~ In a (map fst l) ->
     (a < h_fresh h)%nat ->
     exists h' l', ins h (Some lid) (Some a) = Ok (h', Some a) /\ R h' lid l' /\
       map snd l' = put (n_data nd) (map snd l) /\ frame h h' lid l [a]) ->
  G n h m -> (lid < n)%nat -> (lid2 < n)%nat ->
  exists h' x,
    at_pos h lid i (fun p => do r <- unlink h p; done (ins (fst r) (Some lid2) p)) = Ok (h', x) /\
    G n h' (fst (seq_move m lid i lid2 put)) /\ x = snd (seq_move m lid i lid2 put).
Proof.
  intros Hins HG H1 H2. destruct (HG lid H1) as (l & HR & Hm).
  rewrite (at_pos_spec h lid l i) by exact HR. unfold seq_move. rewrite <- Hm, nth_error_map_snd.
  destruct (nth_error l i) as [[a d]|] eqn:E; cbn [option_map snd].
  2:{ exists h, OMiss. split; [reflexivity|]. split; [exact HG|reflexivity]. }
  destruct (nth_error_split' _ _ _ _ E) as (l1 & l2 & -> & Hl).
  destruct (unlink_spec h lid l1 a d l2 HR) as (h1 & nd & Eu & HR1 & Hn & Hd & Ho & HF & Hfr).
  rewrite Eu. cbn [bind fst].
  assert (HG1 : G n h1 (setl m lid (remove_nth i (map snd (l1 ++ (a, d) :: l2))))).
  { eapply G_nofresh; [exact HG|exact HR|exact HR1|exact HF|]. rewrite <- Hl. symmetry. apply remove_nth_map. }
  assert (Hnotin : forall j lj, R h1 j lj -> ~ In a (map fst lj)).
  { intros j lj HRj Hin. destruct HRj as (_ & HS & _).
    destruct (seg_owner _ _ _ _ _ _ HS Hin) as (nd' & E1 & E2). congruence. }
  destruct (HG1 lid2 H2) as (lt & HRt & Hmt).
  assert (Hafr : (a < h_fresh h1)%nat).
  { rewrite Hfr. destruct HR as (_ & _ & _ & HFr). rewrite Forall_forall in HFr. apply HFr.
    rewrite map_app. apply in_or_app. right. left. reflexivity. }
  destruct (Hins h1 lid2 lt a nd HRt Hn (Hnotin _ _ HRt) Hafr) as (h2 & l' & Ei & HR2 & Hm2 & HF2).
  unfold done. rewrite Ei. cbn [bind fst]. exists h2, OVoid. split; [reflexivity|]. split; [|reflexivity].
  cbn [fst]. rewrite <- Hmt. rewrite Hd in Hm2. rewrite <- Hm2. eapply G_update; [exact HG1|exact HRt|exact HR2|].
  intros j lj Hj HRj. apply (frame_other h1 h2 lid2 lt [a] j lj HRt HF2 Hj HRj).
  intros b [<-|[]]. apply (Hnotin _ _ HRj).
Qed.

Lemma ins_head : forall (h : heap) lid l a nd, R h lid l -> h_nodes h a = Some nd -> ~ In a (map fst l) ->
     (a < h_fresh h)%nat ->
     exists h' l', push_head_node h (Some lid) (Some a) = Ok (h', Some a) /\ R h' lid l' /\
       map snd l' = (fun d l => d :: l) (n_data nd) (map snd l) /\ frame h h' lid l [a].
Proof.
  intros h lid l a nd HR Ha Hn Hf. destruct (push_head_node_spec h lid l a nd HR Ha Hn Hf) as (h' & E & HR' & HF & _).
  exists h', ((a, n_data nd) :: l). auto.
Qed.
Lemma ins_tail : forall (h : heap) lid l a nd, R h lid l -> h_nodes h a = Some nd -> ~ In a (map fst l) ->
     (a < h_fresh h)%nat ->
     exists h' l', push_tail_node h (Some lid) (Some a) = Ok (h', Some a) /\ R h' lid l' /\
       map snd l' = (fun d l => l ++ [d]) (n_data nd) (map snd l) /\ frame h h' lid l [a].
Proof.
  intros h lid l a nd HR Ha Hn Hf. destruct (push_tail_node_spec h lid l a nd HR Ha Hn Hf) as (h' & E & HR' & HF & _).
  exists h', (l ++ [(a, n_data nd)]). rewrite map_app. auto.
Qed.
Lemma ins_sorted : forall (h : heap) lid l a nd, R h lid l -> h_nodes h a = Some nd -> ~ In a (map fst l) ->
     (a < h_fresh h)%nat ->
     exists h' l', insert_sorted_node h (Some lid) (Some a) cmp = Ok (h', Some a) /\ R h' lid l' /\
       map snd l' = seq_insert_sorted cmp (n_data nd) (map snd l) /\ frame h h' lid l [a].
Proof.
  intros h lid l a nd HR Ha Hn Hf.
  destruct (insert_sorted_node_spec h lid l a nd cmp HR Ha Hn Hf) as (h' & l1 & l2 & E & _ & HR' & Hm & HF & _).
  eauto 10.
Qed.

Lemma seq_find_map (f : D -> Z) (l : list (nat * D)) :
  seq_find f (map snd l) = option_map snd (seq_find (fun x => f (snd x)) l).
Proof.
  induction l as [|[a d] l IH]; cbn [map seq_find snd]; [reflexivity|].
  destruct (f d =? -1); [reflexivity|]. destruct (negb (f d =? 0)); [reflexivity|exact IH].
Qed.
Lemma seq_find_in (f : nat * D -> Z) l a d : seq_find f l = Some (a, d) -> In (a, d) l.
Proof.
  induction l as [|x l IH]; cbn [seq_find]; [discriminate|].
  destruct (f x =? -1); [discriminate|]. destruct (negb (f x =? 0)); [intros [= ->]; left; reflexivity|].
  intros H. right. auto.
Qed.
Lemma collect_all (l : list (nat * D)) : forall acc,
  seq_for_each (fun s x => ((s ++ [snd x], true) : list D * bool)) acc l = acc ++ map snd l.
Proof.
  induction l as [|[a d] l IH]; intros acc; cbn [seq_for_each map snd].
  - rewrite app_nil_r. reflexivity.
  - rewrite IH, <- app_assoc. reflexivity.
Qed.

Lemma pop_head_node_move n h m lid lid2 : G n h m -> (lid < n)%nat -> (lid2 < n)%nat ->
  heap_step cmp h (LPopHeadNode lid lid2) = heap_step cmp h (LMoveTail lid 0 lid2).
Proof.
  intros HG H1 H2. destruct (HG lid H1) as (l & HR & Hm). cbn [heap_step].
  rewrite (at_pos_spec h lid l 0) by exact HR.
  assert (HL := HR). destruct HL as (HL & _). unfold pop_head_node. hrun.
  destruct l as [|[a d] l]; cbn [first_ptr is_null nth_error bind fst snd]; [reflexivity|].
  destruct (unlink_spec h lid [] a d l HR) as (h1 & nd & Eu & _). rewrite Eu. reflexivity.
Qed.
Lemma pop_tail_node_move n h m lid lid2 : G n h m -> (lid < n)%nat -> (lid2 < n)%nat ->
  heap_step cmp h (LPopTailNode lid lid2) = heap_step cmp h (LMoveHead lid (length (m lid) - 1) lid2).
Proof.
  intros HG H1 H2. destruct (HG lid H1) as (l & HR & Hm). cbn [heap_step].
  rewrite (at_pos_spec h lid l) by exact HR. rewrite <- Hm, map_length.
  assert (HL := HR). destruct HL as (HL & _). unfold pop_tail_node. hrun.
  destruct (list_snoc_cases l) as [->|(l' & [a d] & ->)]; [reflexivity|].
  rewrite last_ptr_snoc. cbn [is_null].
  destruct (unlink_spec h lid l' a d [] HR) as (h1 & nd & Eu & _). rewrite Eu. cbn [bind snd fst].
  rewrite app_length. cbn [length]. replace (length l' + 1 - 1)%nat with (length l') by lia.
  rewrite nth_error_app2 by lia. rewrite Nat.sub_diag. cbn [nth_error]. rewrite Eu. reflexivity.
Qed.

Lemma heap_step_refines n h m o : G n h m -> lop_ok n o ->
  (forall j, (j < n)%nat -> zlen (m j) < 4294967296) ->
  exists h' x, heap_step cmp h o = Ok (h', x) /\ G n h' (fst (seq_step cmp m o)) /\
    x = snd (seq_step cmp m o).
Proof.
  intros HG Hok Hlen.
  destruct o as [lid d|lid d|lid i d|lid i d|lid i|lid|lid|lid i lid2|lid i lid2|lid i lid2|lid lid2|lid lid2
                |lid|lid d|lid d|lid|lid d|lid d|lid|lid]; cbn [lop_ok] in Hok.
  all: try (destruct (HG lid Hok) as (l & HR & Hm)).
  - (* push_head *)
    destruct (push_head_spec h lid l d HR) as (h' & E & HR' & HF). cbn [heap_step seq_step]. unfold done. rewrite E. cbn.
    do 2 eexists; split; [reflexivity|]; split; [|reflexivity]. eapply G_fresh; eauto. cbn. congruence.
  - destruct (push_tail_spec h lid l d HR) as (h' & E & HR' & HF). cbn [heap_step seq_step]. unfold done. rewrite E. cbn.
    do 2 eexists; split; [reflexivity|]; split; [|reflexivity]. eapply G_fresh; eauto. rewrite map_app. cbn. congruence.
  - (* insert_before *)
    cbn [heap_step seq_step]. rewrite (at_pos_spec h lid l i) by exact HR. rewrite <- Hm, map_length.
    destruct (nth_error l i) as [[a d']|] eqn:E.
    + assert (Hi : (i < length l)%nat) by (apply nth_error_Some; congruence).
      apply Nat.ltb_lt in Hi. rewrite Hi.
      destruct (nth_error_split' _ _ _ _ E) as (l1 & l2 & -> & <-).
      destruct (insert_before_spec h lid l1 a d' l2 d HR) as (h' & E' & HR' & HF). unfold done. rewrite E'. cbn [bind fst snd].
      do 2 eexists; split; [reflexivity|]; split; [|reflexivity]. eapply G_fresh; eauto.
      rewrite !map_app. cbn [map snd]. rewrite <- (map_length snd l1). symmetry. apply insert_nth_split.
    + apply nth_error_None in E. replace (Nat.ltb i (length l)) with false by (symmetry; apply Nat.ltb_ge; exact E).
      do 2 eexists; split; [reflexivity|]; split; [exact HG|reflexivity].
  - (* insert_after *)
    cbn [heap_step seq_step]. rewrite (at_pos_spec h lid l i) by exact HR. rewrite <- Hm, map_length.
    destruct (nth_error l i) as [[a d']|] eqn:E.
    + assert (Hi : (i < length l)%nat) by (apply nth_error_Some; congruence).
      apply Nat.ltb_lt in Hi. rewrite Hi.
      destruct (nth_error_split' _ _ _ _ E) as (l1 & l2 & -> & <-).
      destruct (insert_after_spec h lid l1 a d' l2 d HR) as (h' & E' & HR' & HF). unfold done. rewrite E'. cbn [bind fst snd].
      do 2 eexists; split; [reflexivity|]; split; [|reflexivity]. eapply G_fresh; eauto.
      rewrite !map_app. cbn [map snd].
      replace (S (length l1)) with (length (map snd l1 ++ [d'])) by (rewrite app_length, map_length; cbn; lia).
      transitivity ((map snd l1 ++ [d']) ++ d :: map snd l2); [rewrite <- app_assoc; reflexivity|].
      rewrite <- insert_nth_split. rewrite <- app_assoc. reflexivity.
    + apply nth_error_None in E. replace (Nat.ltb i (length l)) with false by (symmetry; apply Nat.ltb_ge; exact E).
      do 2 eexists; split; [reflexivity|]; split; [exact HG|reflexivity].
  - (* delete *)
    cbn [heap_step seq_step]. rewrite (at_pos_spec h lid l i) by exact HR. rewrite <- Hm, map_length.
    destruct (nth_error l i) as [[a d']|] eqn:E.
    + assert (Hi : (i < length l)%nat) by (apply nth_error_Some; congruence).
      apply Nat.ltb_lt in Hi. rewrite Hi.
      destruct (nth_error_split' _ _ _ _ E) as (l1 & l2 & -> & <-).
      destruct (delete_spec h lid l1 a d' l2 HR) as (h' & E' & HR' & _ & HF & _). rewrite E'. cbn [bind].
      do 2 eexists; split; [reflexivity|]; split; [|reflexivity]. eapply G_nofresh; eauto.
      symmetry. apply remove_nth_map.
    + apply nth_error_None in E. replace (Nat.ltb i (length l)) with false by (symmetry; apply Nat.ltb_ge; exact E).
      do 2 eexists; split; [reflexivity|]; split; [exact HG|reflexivity].
  - (* pop_head *)
    cbn [heap_step seq_step]. pose proof (pop_head_spec h lid l HR) as Hp. rewrite <- Hm.
    destruct l as [|[a d] l]; cbn [map snd].
    + rewrite Hp. cbn. do 2 eexists; split; [reflexivity|]; split; [exact HG|reflexivity].
    + destruct Hp as (h' & E' & HR' & _ & HF & _). rewrite E'. cbn [bind].
      do 2 eexists; split; [reflexivity|]; split; [|reflexivity]. eapply G_nofresh; eauto.
  - (* pop_tail *)
    cbn [heap_step seq_step]. rewrite <- Hm.
    destruct (list_snoc_cases l) as [->|(l' & [a d] & ->)].
    + rewrite pop_tail_nil by exact HR. cbn. do 2 eexists; split; [reflexivity|]; split; [exact HG|reflexivity].
    + destruct (pop_tail_spec h lid l' a d HR) as (h' & E' & HR' & _ & HF & _). rewrite E'. cbn [bind].
      rewrite map_app, rev_app_distr. cbn [map rev app snd].
      do 2 eexists; split; [reflexivity|]; split; [|reflexivity]. eapply G_nofresh; eauto.
      rewrite rev_involutive. reflexivity.
  - exact (move_spec n h m lid i lid2 _ _ ins_head HG (proj1 Hok) (proj2 Hok)).
  - exact (move_spec n h m lid i lid2 _ _ ins_tail HG (proj1 Hok) (proj2 Hok)).
  - exact (move_spec n h m lid i lid2 (fun h l p => insert_sorted_node h l p cmp) _ ins_sorted HG (proj1 Hok) (proj2 Hok)).
  - rewrite (pop_head_node_move n h m lid lid2 HG (proj1 Hok) (proj2 Hok)).
    exact (move_spec n h m lid 0 lid2 _ _ ins_tail HG (proj1 Hok) (proj2 Hok)).
  - rewrite (pop_tail_node_move n h m lid lid2 HG (proj1 Hok) (proj2 Hok)).
    exact (move_spec n h m lid (length (m lid) - 1) lid2 _ _ ins_head HG (proj1 Hok) (proj2 Hok)).
  - (* empty *)
    destruct (list_empty_spec h lid l HR) as (h' & E' & HR' & _ & HF & _).
    { rewrite <- (zlen_map snd l), Hm. apply Hlen. exact Hok. }
    cbn [heap_step seq_step]. rewrite E'. cbn [bind].
    do 2 eexists; split; [reflexivity|]; split; [|reflexivity]. eapply G_nofresh; eauto.
  - destruct (insert_sorted_spec h lid l d cmp HR) as (h' & l1 & l2 & E & El & HR' & Hs & HF & _).
    cbn [heap_step seq_step]. unfold done. rewrite E. cbn [bind].
    do 2 eexists; split; [reflexivity|]; split; [|reflexivity]. eapply G_fresh; eauto. rewrite Hs, Hm. reflexivity.
  - destruct (insert_sorted_rev_spec h lid l d cmp HR) as (h' & l1 & l2 & E & El & HR' & Hs & HF & _).
    cbn [heap_step seq_step]. unfold done. rewrite E. cbn [bind].
    do 2 eexists; split; [reflexivity|]; split; [|reflexivity]. eapply G_fresh; eauto. rewrite Hs, Hm. reflexivity.
  - cbn [heap_step seq_step]. rewrite (size_spec h lid l HR). cbn [bind].
    do 2 eexists; split; [reflexivity|]; split; [exact HG|]. cbn [snd]. rewrite <- Hm, zlen_map, u32_small; [reflexivity|].
    specialize (Hlen lid Hok). rewrite <- Hm, zlen_map in Hlen. pose proof (zlen_nonneg l). unfold is_u32. lia.
  - cbn [heap_step seq_step]. destruct (find_node_spec h lid l d cmp HR) as [E _]. rewrite E. cbn [bind].
    rewrite <- Hm, seq_find_map.
    destruct (seq_find (fun x => cmp d (snd x)) l) as [[a d']|] eqn:Ef; cbn [option_map fst snd].
    + apply seq_find_in in Ef. destruct (in_split _ _ Ef) as (l1 & l2 & ->).
      destruct (R_node _ _ _ _ _ _ HR) as (nd & Hn & _ & Hd & _). rewrite (get_node_some _ _ _ Hn). cbn [bind snd].
      do 2 eexists; split; [reflexivity|]; split; [exact HG|]. rewrite Hd. reflexivity.
    + do 2 eexists; split; [reflexivity|]; split; [exact HG|]. reflexivity.
  - cbn [heap_step seq_step]. destruct (find_node_spec h lid l d cmp HR) as [_ E]. rewrite E. cbn [bind].
    rewrite <- Hm, <- map_rev, seq_find_map.
    destruct (seq_find (fun x => cmp d (snd x)) (rev l)) as [[a d']|] eqn:Ef; cbn [option_map fst snd].
    + apply seq_find_in in Ef. apply in_rev in Ef. destruct (in_split _ _ Ef) as (l1 & l2 & ->).
      destruct (R_node _ _ _ _ _ _ HR) as (nd & Hn & _ & Hd & _). rewrite (get_node_some _ _ _ Hn). cbn [bind snd].
      do 2 eexists; split; [reflexivity|]; split; [exact HG|]. rewrite Hd. reflexivity.
    + do 2 eexists; split; [reflexivity|]; split; [exact HG|]. reflexivity.
  - cbn [heap_step seq_step].
    destruct (for_each_spec (fun acc _ d => (acc ++ [d], true)) h lid l ([] : list D) HR) as [E _]. rewrite E.
    cbn [bind]. rewrite collect_all. do 2 eexists; split; [reflexivity|]; split; [exact HG|]. cbn. congruence.
  - cbn [heap_step seq_step].
    destruct (for_each_spec (fun acc _ d => (acc ++ [d], true)) h lid l ([] : list D) HR) as [_ E]. rewrite E.
    cbn [bind]. rewrite collect_all, map_rev. do 2 eexists; split; [reflexivity|]; split; [exact HG|]. cbn. congruence.
Qed.

Lemma seq_insert_sorted_length d l : length (seq_insert_sorted cmp d l) = S (length l).
Proof. induction l as [|y l IH]; cbn; [reflexivity|]. destruct (0 <=? cmp d y); cbn; [reflexivity|]. rewrite IH. reflexivity. Qed.

Lemma seq_step_len n m o k : lop_ok n o ->
  (forall j, (j < n)%nat -> zlen (m j) <= k) ->
  forall j, (j < n)%nat -> zlen (fst (seq_step cmp m o) j) <= k + 1.
Proof.
  intros Hok Hk.
  assert (Hset : forall (m' : nat -> list D) lid (x : list D), (forall j, (j < n)%nat -> zlen (m' j) <= k + 1) -> zlen x <= k + 1 ->
     forall j, (j < n)%nat -> zlen (setl m' lid x j) <= k + 1).
  { intros m' lid x H1 H2 j Hj. unfold setl. destruct (Nat.eqb j lid); auto. }
  assert (Hk1 : forall j, (j < n)%nat -> zlen (m j) <= k + 1).
  { intros j Hj. specialize (Hk j Hj). lia. }
  assert (Hmv : forall lid i lid2 (put : D -> list D -> list D), (lid < n)%nat -> (lid2 < n)%nat ->
    (forall d l, length (put d l) = S (length l)) ->
    forall j, (j < n)%nat -> zlen (fst (seq_move m lid i lid2 put) j) <= k + 1).
  { intros lid i lid2 put L1 L2 Hput. unfold seq_move. destruct (nth_error (m lid) i) as [d|] eqn:E; [|exact Hk1].
    cbn [fst].
    assert (Hm1 : forall j, (j < n)%nat -> zlen (setl m lid (remove_nth i (m lid)) j) <= k).
    { intros j Hj. unfold setl. destruct (Nat.eqb j lid); [|auto]. specialize (Hk lid L1).
      unfold remove_nth, zlen in *. rewrite app_length, firstn_length, skipn_length. lia. }
    apply Hset.
    - intros j Hj. specialize (Hm1 j Hj). lia.
    - specialize (Hm1 lid2 L2). unfold zlen in *. rewrite Hput. lia. }
  destruct o as [lid d|lid d|lid i d|lid i d|lid i|lid|lid|lid i lid2|lid i lid2|lid i lid2|lid lid2|lid lid2
                |lid|lid d|lid d|lid|lid d|lid d|lid|lid]; cbn [lop_ok] in Hok; cbn [seq_step].
  all: try (exact Hk1).
  all: try (apply Hmv; [apply Hok|apply Hok|intros; cbn; rewrite ?app_length, ?seq_insert_sorted_length; cbn; lia]).
  all: try (specialize (Hk lid Hok)).
  - apply Hset; [exact Hk1|]. rewrite zlen_cons. lia.
  - apply Hset; [exact Hk1|]. rewrite zlen_app. change (zlen [d]) with 1. lia.
  - destruct (Nat.ltb i (length (m lid))); [|exact Hk1]. apply Hset; [exact Hk1|].
    unfold insert_nth, zlen in *. rewrite app_length. cbn [length]. rewrite firstn_length, skipn_length. lia.
  - destruct (Nat.ltb i (length (m lid))); [|exact Hk1]. apply Hset; [exact Hk1|].
    unfold insert_nth, zlen in *. rewrite app_length. cbn [length]. rewrite firstn_length, skipn_length. lia.
  - destruct (Nat.ltb i (length (m lid))); [|exact Hk1]. apply Hset; [exact Hk1|].
    unfold remove_nth, zlen in *. rewrite app_length, firstn_length, skipn_length. lia.
  - destruct (m lid) as [|d r]; [exact Hk1|]. apply Hset; [exact Hk1|]. rewrite zlen_cons in Hk. lia.
  - destruct (rev (m lid)) as [|d r] eqn:E; [exact Hk1|]. apply Hset; [exact Hk1|].
    assert (length (rev (m lid)) = S (length r)) by (rewrite E; reflexivity).
    rewrite rev_length in *. unfold zlen in *. rewrite rev_length. lia.
  - apply Hset; [exact Hk1|]. pose proof (zlen_nonneg (m lid)). rewrite zlen_nil. lia.
  - apply Hset; [exact Hk1|]. unfold zlen in *. rewrite seq_insert_sorted_length. lia.
  - apply Hset; [exact Hk1|]. unfold zlen, seq_insert_sorted_rev in *.
    rewrite rev_length, seq_insert_sorted_length, rev_length. lia.
Qed.

Lemma heap_run_refines n ops : forall h m k, G n h m -> Forall (lop_ok n) ops ->
  (forall j, (j < n)%nat -> zlen (m j) <= k) -> k + zlen ops <= 4294967296 ->
  exists h' xs, heap_run cmp h ops = Ok (h', xs) /\ G n h' (fst (seq_run cmp m ops)) /\
    xs = snd (seq_run cmp m ops).
Proof.
  induction ops as [|o ops IH]; intros h m k HG Hok Hk Hlen.
  - exists h, []. cbn. auto.
  - inversion Hok as [|o' ops' Ho Hr]; subst. rewrite zlen_cons in Hlen. pose proof (zlen_nonneg ops).
    destruct (heap_step_refines n h m o HG Ho) as (h1 & x & E1 & HG1 & Hx).
    { intros j Hj. specialize (Hk j Hj). lia. }
    destruct (IH h1 (fst (seq_step cmp m o)) (k + 1) HG1 Hr) as (h2 & xs & E2 & HG2 & Hxs).
    { apply (seq_step_len n); assumption. } { lia. }
    exists h2, (x :: xs). cbn [heap_run seq_run]. rewrite E1. cbn [bind fst snd]. rewrite E2. cbn [bind fst snd].
    destruct (seq_step cmp m o) as [m1 x1]. cbn [fst snd] in *.
    destruct (seq_run cmp m1 ops) as [m2 xs2]. cbn [fst snd] in *. subst. auto.
Qed.

Lemma init_lists_G n (h : heap) : G n (init_lists h n) (fun _ => []).
Proof.
  induction n as [|n IH]; intros j Hj; [lia|]. cbn [init_lists].
  destruct (Nat.eq_dec j n) as [->|Hne].
  - exists []. split; [apply init_R|reflexivity].
  - destruct (IH j ltac:(lia)) as (l & HR & Hm). exists l. split; [|exact Hm]. apply init_other; assumption.
Qed.

End Refine.
