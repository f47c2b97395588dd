(** ListHeapProofs.v — the pointer code of ListHeap.v refines sequences. *)
From Verif Require Import Base ListHeap SeqList.

Section Proofs.
Context {D : Type}.
Notation heap := (heap D).
Notation node := (node D).

Definition first_ptr (l : list (nat * D)) (nxt : option nat) : option nat :=
  match l with [] => nxt | (a, _) :: _ => Some a end.
Fixpoint last_ptr (prv : option nat) (l : list (nat * D)) : option nat :=
  match l with [] => prv | (a, _) :: rest => last_ptr (Some a) rest end.

(** A doubly linked segment owned by list [lid]. *)
Fixpoint seg (ns : nat -> option node) (lid : nat) (prv : option nat) (l : list (nat * D))
         (nxt : option nat) : Prop :=
  match l with
  | [] => True
  | (a, d) :: rest =>
      ns a = Some (mkNode d (first_ptr rest nxt) prv (Some lid)) /\
      seg ns lid (Some a) rest nxt
  end.

(** List [lid] of heap [h] represents the sequence [l] of (address, data), head first. *)
Definition R (h : heap) (lid : nat) (l : list (nat * D)) : Prop :=
  h_lists h lid = Some (mkHdr (first_ptr l None) (last_ptr None l) (u32 (zlen l))) /\
  seg (h_nodes h) lid None l None /\
  NoDup (map fst l) /\
  Forall (fun a => (a < h_fresh h)%nat) (map fst l).

Lemma upd_eq {X} (f : nat -> X) a x : upd f a x a = x.
Proof. unfold upd. rewrite Nat.eqb_refl. reflexivity. Qed.
Lemma upd_neq {X} (f : nat -> X) a b x : b <> a -> upd f a x b = f b.
Proof. intros H. unfold upd. apply Nat.eqb_neq in H. rewrite H. reflexivity. Qed.

Lemma first_ptr_app l1 l2 nxt : first_ptr (l1 ++ l2) nxt = first_ptr l1 (first_ptr l2 nxt).
Proof. destruct l1 as [|[a d] l1]; reflexivity. Qed.
Lemma last_ptr_app l1 : forall l2 prv, last_ptr prv (l1 ++ l2) = last_ptr (last_ptr prv l1) l2.
Proof. induction l1 as [|[a d] l1 IH]; intros l2 prv; [reflexivity|]. apply IH. Qed.

Lemma seg_app ns lid l1 : forall prv l2 nxt,
  seg ns lid prv (l1 ++ l2) nxt <->
  seg ns lid prv l1 (first_ptr l2 nxt) /\ seg ns lid (last_ptr prv l1) l2 nxt.
Proof.
  induction l1 as [|[a d] l1 IH]; intros prv l2 nxt; cbn [app seg last_ptr].
  - tauto.
  - rewrite IH, first_ptr_app. tauto.
Qed.

Lemma seg_frame ns ns' lid l : forall prv nxt,
  (forall a, In a (map fst l) -> ns' a = ns a) ->
  seg ns lid prv l nxt -> seg ns' lid prv l nxt.
Proof.
  induction l as [|[a d] l IH]; intros prv nxt Hf H; cbn [seg map fst In] in *; [exact I|].
  destruct H as [H1 H2]. split.
  - rewrite Hf by (left; reflexivity). exact H1.
  - apply IH; [|exact H2]. intros b Hb. apply Hf. right; exact Hb.
Qed.

(** Nodes of a segment carry their owner, hence lists are disjoint. *)
Lemma seg_owner ns lid l : forall prv nxt a, seg ns lid prv l nxt -> In a (map fst l) ->
  exists n, ns a = Some n /\ n_owner n = Some lid.
Proof.
  induction l as [|[b d] l IH]; intros prv nxt a H Hin; cbn [seg map fst In] in *; [contradiction|].
  destruct H as [H1 H2]. destruct Hin as [->|Hin].
  - eexists; split; [exact H1|reflexivity].
  - eapply IH; eauto.
Qed.

Lemma R_disjoint h i j li lj a : R h i li -> R h j lj -> i <> j ->
  In a (map fst li) -> In a (map fst lj) -> False.
Proof.
  intros (_ & Si & _) (_ & Sj & _) Hij Hi Hj.
  destruct (seg_owner _ _ _ _ _ _ Si Hi) as (n & E1 & O1).
  destruct (seg_owner _ _ _ _ _ _ Sj Hj) as (m & E2 & O2). congruence.
Qed.

Lemma R_frame h h' lid l :
  h_lists h' lid = h_lists h lid ->
  (forall a, In a (map fst l) -> h_nodes h' a = h_nodes h a) ->
  (h_fresh h <= h_fresh h')%nat ->
  R h lid l -> R h' lid l.
Proof.
  intros Hl Hn Hf (H1 & H2 & H3 & H4). split; [congruence|]. split.
  - eapply seg_frame; eauto.
  - split; [exact H3|]. eapply Forall_impl; [|exact H4]. cbv beta. intros; lia.
Qed.

(** Change of the outgoing pointers at the two ends of a segment. *)
Lemma seg_last_next ns lid prv l b d nxt nxt' nd :
  seg ns lid prv (l ++ [(b, d)]) nxt ->
  NoDup (map fst (l ++ [(b, d)])) ->
  nd = mkNode d nxt' (last_ptr prv l) (Some lid) ->
  seg (upd ns b (Some nd)) lid prv (l ++ [(b, d)]) nxt'.
Proof.
  intros H Hnd ->. apply seg_app in H. destruct H as [H1 H2]. cbn [seg first_ptr] in *.
  apply seg_app. cbn [seg first_ptr]. split.
  - apply (seg_frame ns); [|exact H1]. intros a Ha. apply upd_neq.
    rewrite map_app in Hnd. cbn in Hnd. apply NoDup_remove_2 in Hnd. rewrite app_nil_r in Hnd.
    congruence.
  - split; [|exact I]. rewrite upd_eq. reflexivity.
Qed.

Lemma seg_first_prev ns lid prv prv' l b d nxt nd :
  seg ns lid prv ((b, d) :: l) nxt ->
  NoDup (map fst ((b, d) :: l)) ->
  nd = mkNode d (first_ptr l nxt) prv' (Some lid) ->
  seg (upd ns b (Some nd)) lid prv' ((b, d) :: l) nxt.
Proof.
  intros H Hnd ->. cbn [seg] in *. destruct H as [H1 H2]. split.
  - rewrite upd_eq. reflexivity.
  - apply (seg_frame ns); [|exact H2]. intros a Ha. apply upd_neq.
    cbn in Hnd. inversion Hnd. congruence.
Qed.

(** Symbolic execution of the pointer code. *)
Lemma get_node_some (h : heap) a n : h_nodes h a = Some n -> get_node h (Some a) = Ok (a, n).
Proof. intros H. unfold get_node. rewrite H. reflexivity. Qed.
Lemma get_list_some (h : heap) a n : h_lists h a = Some n -> get_list h (Some a) = Ok (a, n).
Proof. intros H. unfold get_list. rewrite H. reflexivity. Qed.

Lemma nodes_put_eq (h : heap) a n : h_nodes (put_node h a n) a = Some n.
Proof. apply upd_eq. Qed.
Lemma nodes_put_neq (h : heap) a b n : b <> a -> h_nodes (put_node h a n) b = h_nodes h b.
Proof. apply upd_neq. Qed.
Lemma nodes_putl (h : heap) a n : h_nodes (put_list h a n) = h_nodes h.
Proof. reflexivity. Qed.
Lemma lists_put_eq (h : heap) a n : h_lists (put_list h a n) a = Some n.
Proof. apply upd_eq. Qed.
Lemma lists_put_neq (h : heap) a b n : b <> a -> h_lists (put_list h a n) b = h_lists h b.
Proof. apply upd_neq. Qed.
Lemma lists_putn (h : heap) a n : h_lists (put_node h a n) = h_lists h.
Proof. reflexivity. Qed.
Lemma fresh_putn (h : heap) a n : h_fresh (put_node h a n) = h_fresh h.
Proof. reflexivity. Qed.
Lemma fresh_putl (h : heap) a n : h_fresh (put_list h a n) = h_fresh h.
Proof. reflexivity. Qed.

End Proofs.

Ltac hlook :=
  repeat first
    [ rewrite nodes_put_eq | rewrite nodes_put_neq by congruence | rewrite nodes_putl
    | rewrite lists_put_eq | rewrite lists_put_neq by congruence | rewrite lists_putn
    | rewrite fresh_putn | rewrite fresh_putl ].
Ltac hstep :=
  cbn [bind fst snd assert_ negb is_null n_data n_next n_prev n_owner l_head l_tail l_count];
  first
    [ erewrite get_node_some by (hlook; first [reflexivity | eassumption])
    | erewrite get_list_some by (hlook; first [reflexivity | eassumption])
    | progress unfold set_next, set_prev, set_owner, set_data, set_head, set_tail, set_count,
        list_head, list_tail, list_size ];
  cbn [bind fst snd assert_ negb is_null n_data n_next n_prev n_owner l_head l_tail l_count].
Ltac hrun := repeat hstep.
Ltac hother := repeat first [rewrite nodes_put_neq by intuition congruence | rewrite nodes_putl]; reflexivity.

Section Proofs2.
Context {D : Type}.
Notation heap := (heap D).

Lemma last_ptr_snoc (l : list (nat * D)) b d prv : last_ptr prv (l ++ [(b, d)]) = Some b.
Proof. rewrite last_ptr_app. reflexivity. Qed.

Lemma list_snoc_cases {A} (l : list A) : l = [] \/ exists l' x, l = l' ++ [x].
Proof.
  destruct l as [|x l]; [left; reflexivity|right].
  destruct (exists_last (l := x :: l)) as (l' & y & E); [discriminate|]. eauto.
Qed.

Lemma u32_add_l x y : u32 (u32 x + y) = u32 (x + y).
Proof. unfold u32. apply Zplus_mod_idemp_l. Qed.
Lemma u32_sub_l x y : u32 (u32 x - y) = u32 (x - y).
Proof. unfold u32. apply Zminus_mod_idemp_l. Qed.

(** What an operation on list [lid] may touch: other lists are unchanged, [excl] lists
    the node addresses (besides those of list [lid]) that may change. *)
Definition frame (h h' : heap) (lid : nat) (l : list (nat * D)) (excl : list nat) : Prop :=
  (forall j, j <> lid -> h_lists h' j = h_lists h j) /\
  (forall a, ~ In a (map fst l) -> ~ In a excl -> h_nodes h' a = h_nodes h a) /\
  (h_fresh h <= h_fresh h')%nat.

(** A frame keeps every other list that does not contain an excluded node. *)
Lemma frame_other h h' lid l excl j lj :
  R h lid l -> frame h h' lid l excl -> j <> lid -> R h j lj ->
  (forall a, In a excl -> ~ In a (map fst lj)) -> R h' j lj.
Proof.
  intros HR (F1 & F2 & F3) Hj HRj Hex. eapply R_frame; [| | |exact HRj]; auto.
  intros a Ha. apply F2.
  - intros Hin. exact (R_disjoint _ _ _ _ _ _ HR HRj (not_eq_sym Hj) Hin Ha).
  - intros Hin. exact (Hex a Hin Ha).
Qed.

Lemma push_head_node_spec (h : heap) lid l a n :
  R h lid l -> h_nodes h a = Some n -> ~ In a (map fst l) -> (a < h_fresh h)%nat ->
  exists h', push_head_node h (Some lid) (Some a) = Ok (h', Some a) /\
    R h' lid ((a, n_data n) :: l) /\ frame h h' lid l [a] /\ h_fresh h' = h_fresh h.
Proof.
  intros (HL & HS & HN & HF) Ha Hnin Hfr.
  destruct l as [|[b db] l]; cbn [first_ptr last_ptr seg map fst In] in *.
  - unfold push_head_node. hrun. eexists; split; [reflexivity|].
    split; [split; [|split; [|split]]|split; [split; [|split]|]].
    + hlook. do 2 f_equal; cbn; try reflexivity.
    + cbn [seg first_ptr]. split; [|exact I]. hlook. reflexivity.
    + cbn. constructor; [intros []|constructor].
    + cbn. constructor; [exact Hfr|constructor].
    + intros j Hj. hlook. reflexivity.
    + intros c _ Hc. cbn in Hc. hlook. hother.
    + hlook. lia.
    + hlook. reflexivity.
  - destruct HS as [Hb HS]. assert (Hab : a <> b) by (intros ->; apply Hnin; left; reflexivity).
    assert (Hba : b <> a) by congruence.
    unfold push_head_node. hrun. 
    destruct (last_ptr (Some b) l) as [t|] eqn:ET.
    2:{ exfalso. clear -ET. revert b ET; induction l as [|[c dc] l IH]; intros b ET; cbn in ET; [discriminate|eauto]. }
    hrun. eexists; split; [reflexivity|].
    split; [split; [|split; [|split]]|split; [split; [|split]|]].
    + hlook. cbn [first_ptr last_ptr]. rewrite ET, u32_add_l. do 3 f_equal. rewrite !zlen_cons. lia.
    + cbn [seg first_ptr]. split; [hlook; reflexivity|]. split; [hlook; reflexivity|].
      eapply seg_frame; [|exact HS]. intros c Hc. hlook.
      assert (c <> b) by (intros ->; inversion HN; auto).
      assert (c <> a) by (intros ->; apply Hnin; right; exact Hc).
      hlook. reflexivity.
    + cbn. constructor; [exact Hnin|exact HN].
    + cbn. constructor; [exact Hfr|exact HF].
    + intros j Hj. hlook. reflexivity.
    + intros c Hc Hc2. cbn in Hc, Hc2. hlook. hother.
    + hlook. lia.
    + hlook. reflexivity.
Qed.

Lemma NoDup_app_inv {A} (l1 l2 : list A) : NoDup (l1 ++ l2) ->
  NoDup l1 /\ NoDup l2 /\ (forall x, In x l1 -> In x l2 -> False).
Proof.
  induction l1 as [|x l1 IH]; cbn; intros H.
  - split; [constructor|]. split; [exact H|]. intros y [].
  - inversion H as [|y l Hn Hd]; subst. destruct (IH Hd) as (A1 & A2 & A3).
    split; [constructor; [|exact A1]; intros Hin; apply Hn, in_or_app; left; exact Hin|].
    split; [exact A2|]. intros y [->|Hy] Hy2; [apply Hn, in_or_app; right; exact Hy2|eauto].
Qed.

Lemma NoDup_app_intro {A} (l1 l2 : list A) : NoDup l1 -> NoDup l2 ->
  (forall x, In x l1 -> In x l2 -> False) -> NoDup (l1 ++ l2).
Proof.
  induction l1 as [|x l1 IH]; cbn; intros H1 H2 H3; [exact H2|].
  inversion H1 as [|y l Hn Hd]; subst. constructor.
  - intros Hin. apply in_app_or in Hin. destruct Hin as [Hin|Hin]; [auto|]. eapply H3; eauto.
  - apply IH; auto. intros y Hy Hy2. eapply H3; eauto.
Qed.

Lemma first_ptr_some (l : list (nat * D)) b d nxt : exists q, first_ptr (l ++ [(b, d)]) nxt = Some q.
Proof. destruct l as [|[c dc] l]; cbn; eauto. Qed.
Lemma last_ptr_some (l : list (nat * D)) : forall b d prv, exists q, last_ptr prv ((b, d) :: l) = Some q.
Proof.
  induction l as [|[c dc] l IH]; intros b d prv; cbn; [eauto|]. exact (IH c dc (Some b)).
Qed.

Lemma push_tail_node_spec (h : heap) lid l a n :
  R h lid l -> h_nodes h a = Some n -> ~ In a (map fst l) -> (a < h_fresh h)%nat ->
  exists h', push_tail_node h (Some lid) (Some a) = Ok (h', Some a) /\
    R h' lid (l ++ [(a, n_data n)]) /\ frame h h' lid l [a] /\ h_fresh h' = h_fresh h.
Proof.
  intros (HL & HS & HN & HF) Ha Hnin Hfr.
  destruct (list_snoc_cases l) as [->|(l' & [b db] & ->)].
  - cbn [first_ptr last_ptr seg map fst In app] in *.
    unfold push_tail_node. hrun. eexists; split; [reflexivity|].
    split; [split; [|split; [|split]]|split; [split; [|split]|]].
    + hlook. do 2 f_equal; cbn; try reflexivity.
    + cbn [seg first_ptr]. split; [|exact I]. hlook. reflexivity.
    + cbn. constructor; [intros []|constructor].
    + cbn. constructor; [exact Hfr|constructor].
    + intros j Hj. hlook. reflexivity.
    + intros c _ Hc. cbn in Hc. hlook. hother.
    + hlook. lia.
    + hlook. reflexivity.
  - rewrite last_ptr_snoc in HL.
    destruct (first_ptr_some l' b db None) as [q Eq]. rewrite Eq in HL.
    assert (HS' := HS). apply seg_app in HS'. destruct HS' as [HS1 [Hb _]]. cbn [first_ptr] in *.
    assert (Hab : a <> b).
    { intros ->. apply Hnin. rewrite map_app. apply in_or_app. right. left. reflexivity. }
    assert (Hba : b <> a) by congruence.
    unfold push_tail_node. hrun. eexists; split; [reflexivity|].
    split; [split; [|split; [|split]]|split; [split; [|split]|]].
    + hlook. rewrite last_ptr_snoc, first_ptr_app. cbn [first_ptr].
      rewrite first_ptr_app in Eq. cbn [first_ptr] in Eq.
      assert (E2 : first_ptr (l' ++ [(b, db)]) (Some a) = Some q).
      { rewrite first_ptr_app. exact Eq. }
      rewrite E2, u32_add_l. do 3 f_equal. rewrite !zlen_app. reflexivity.
    + apply seg_app. split; [|cbn [seg]; split; [|exact I]].
      * cbn [first_ptr].
        set (hh := put_list _ _ _).
        apply (seg_frame (upd (h_nodes h) b (Some (mkNode db (Some a) (last_ptr None l') (Some lid))))).
        { intros c Hc. subst hh. 
          assert (c <> a) by (intros ->; contradiction).
          destruct (Nat.eq_dec c b) as [->|Hcb].
          - hlook. rewrite upd_eq. reflexivity.
          - hlook. rewrite upd_neq by congruence. reflexivity. }
        eapply seg_last_next; [exact HS|exact HN|reflexivity].
      * hlook. rewrite last_ptr_snoc. reflexivity.
    + rewrite map_app. apply NoDup_app_intro; [exact HN|cbn; constructor; [intros []|constructor]|].
      cbn. intros x Hx [->|[]]. contradiction.
    + rewrite map_app. apply Forall_app. split; [exact HF|]. cbn. constructor; [exact Hfr|constructor].
    + intros j Hj. hlook. reflexivity.
    + intros c Hc Hc2. cbn in Hc2. rewrite map_app, in_app_iff in Hc. cbn in Hc. hlook.
      hother.
    + hlook. lia.
    + hlook. reflexivity.
Qed.

Lemma insert_before_node_spec (h : heap) lid l1 b db l2 a n :
  R h lid (l1 ++ (b, db) :: l2) -> h_nodes h a = Some n ->
  ~ In a (map fst (l1 ++ (b, db) :: l2)) -> (a < h_fresh h)%nat ->
  exists h', insert_before_node h (Some b) (Some a) = Ok (h', Some a) /\
    R h' lid (l1 ++ (a, n_data n) :: (b, db) :: l2) /\
    frame h h' lid (l1 ++ (b, db) :: l2) [a] /\ h_fresh h' = h_fresh h.
Proof.
  intros HR Ha Hnin Hfr. assert (HR' := HR). destruct HR' as (HL & HS & HN & HF).
  assert (HS' := HS). apply seg_app in HS'. destruct HS' as [HS1 [Hb HS2]]. cbn [first_ptr] in *.
  destruct (list_snoc_cases l1) as [->|(l0 & [c dc] & ->)].
  - (* b is the head *)
    cbn [app last_ptr] in *.
    destruct (push_head_node_spec h lid ((b, db) :: l2) a n HR Ha Hnin Hfr) as (h' & E & rest).
    exists h'. split; [|exact rest].
    unfold insert_before_node. hrun. cbn [first_ptr ptr_eqb]. rewrite Nat.eqb_refl. exact E.
  - rewrite last_ptr_snoc in *.
    rewrite <- app_assoc in *. cbn [app] in *.
    apply seg_app in HS. destruct HS as [HS0 [Hc _]]. cbn [first_ptr] in *.
    rewrite map_app in Hnin, HN, HF. cbn [map fst] in *.
    assert (Hac : a <> c). { intros ->. apply Hnin, in_or_app. right. left. reflexivity. }
    assert (Hab : a <> b). { intros ->. apply Hnin, in_or_app. right. right. left. reflexivity. }
    destruct (NoDup_app_inv _ _ HN) as (N1 & N2 & N3).
    inversion N2 as [|x y Hnc N4]; subst. inversion N4 as [|x y Hnb N5]; subst.
    assert (Hcb : c <> b). { intros ->. apply Hnc. left. reflexivity. }
    assert (Hca : c <> a) by congruence. assert (Hba : b <> a) by congruence.
    assert (Hbc : b <> c) by congruence.
    destruct (first_ptr_some l0 c dc None) as [q Eq]. 
    assert (Hq : first_ptr (l0 ++ (c, dc) :: (b, db) :: l2) None = Some q).
    { rewrite first_ptr_app in *. exact Eq. }
    assert (Hqb : q <> b).
    { intros ->. destruct l0 as [|[e de] l0]; cbn in Eq; inversion Eq; subst; [congruence|].
      apply (N3 b); [left; reflexivity|right; left; reflexivity]. }
    rewrite Hq in HL.
    unfold insert_before_node. hrun. cbn [ptr_eqb].
    replace (Nat.eqb b q) with false by (symmetry; apply Nat.eqb_neq; congruence).
    hrun. eexists; split; [reflexivity|].
    split; [split; [|split; [|split]]|split; [split; [|split]|]].
    + hlook. rewrite !last_ptr_app, !first_ptr_app. cbn [last_ptr first_ptr].
      rewrite first_ptr_app in Eq. cbn [first_ptr] in Eq. rewrite Eq, u32_add_l.
      do 3 f_equal. rewrite !zlen_app, !zlen_cons. lia.
    + apply seg_app. cbn [seg first_ptr].
      refine (conj _ (conj _ (conj _ (conj _ _)))); [| hlook; reflexivity | hlook; reflexivity | hlook; reflexivity|].
      * eapply seg_frame; [|exact HS0]. intros e He.
        assert (e <> a) by (intros ->; apply Hnin, in_or_app; left; exact He).
        assert (e <> c) by (intros ->; apply (N3 c He); left; reflexivity).
        assert (e <> b) by (intros ->; apply (N3 b He); right; left; reflexivity).
        hlook. reflexivity.
      * eapply seg_frame; [|exact HS2]. intros e He.
        assert (e <> a) by (intros ->; apply Hnin, in_or_app; right; right; right; exact He).
        assert (e <> c) by (intros ->; apply Hnc; right; exact He).
        assert (e <> b) by (intros ->; contradiction).
        hlook. reflexivity.
    + rewrite map_app. cbn [map fst]. apply NoDup_app_intro; [exact N1| |].
      * constructor; [intros [X|[X|X]]; [congruence|congruence|]|].
        { apply Hnc. right. exact X. }
        constructor; [|exact N4].
        intros X. apply Hnin, in_or_app. right. right. exact X.
      * intros e He [X|[X|X]]; subst; [apply (N3 e He); left; reflexivity| |].
        { apply Hnin, in_or_app; left; exact He. }
        apply (N3 e He). right. exact X.
    + rewrite map_app. cbn [map fst]. apply Forall_app in HF. destruct HF as [F1 F2].
      apply Forall_app. split; [exact F1|]. inversion F2; subst. constructor; [assumption|].
      constructor; assumption.
    + intros j Hj. hlook. reflexivity.
    + intros e He He2. cbn in He2. rewrite !map_app, !in_app_iff in He. cbn in He. hlook.
      hother.
    + hlook. lia.
    + hlook. reflexivity.
Qed.

Lemma insert_after_node_spec (h : heap) lid l1 b db l2 a n :
  R h lid (l1 ++ (b, db) :: l2) -> h_nodes h a = Some n ->
  ~ In a (map fst (l1 ++ (b, db) :: l2)) -> (a < h_fresh h)%nat ->
  exists h', insert_after_node h (Some b) (Some a) = Ok (h', Some a) /\
    R h' lid (l1 ++ (b, db) :: (a, n_data n) :: l2) /\
    frame h h' lid (l1 ++ (b, db) :: l2) [a] /\ h_fresh h' = h_fresh h.
Proof.
  intros HR Ha Hnin Hfr. assert (HR' := HR). destruct HR' as (HL & HS & HN & HF).
  assert (HS' := HS). apply seg_app in HS'. destruct HS' as [HS1 [Hb HS2]]. cbn [first_ptr] in *.
  destruct l2 as [|[c dc] l2].
  - (* b is the tail *)
    destruct (push_tail_node_spec h lid (l1 ++ [(b, db)]) a n HR Ha Hnin Hfr) as (h' & E & HR2 & rest).
    exists h'. split; [|rewrite <- app_assoc in HR2; split; [exact HR2|exact rest]].
    rewrite last_ptr_snoc in HL.
    unfold insert_after_node. hrun. cbn [ptr_eqb]. rewrite Nat.eqb_refl. exact E.
  - cbn [first_ptr seg] in *. destruct HS2 as [Hc HS2].
    rewrite map_app in Hnin, HN, HF. cbn [map fst] in *.
    assert (Hac : a <> c). { intros ->. apply Hnin, in_or_app. right. right. left. reflexivity. }
    assert (Hab : a <> b). { intros ->. apply Hnin, in_or_app. right. left. reflexivity. }
    destruct (NoDup_app_inv _ _ HN) as (N1 & N2 & N3).
    inversion N2 as [|x y Hnb N4]; subst. inversion N4 as [|x y Hnc N5]; subst.
    assert (Hcb : c <> b). { intros ->. apply Hnb. left. reflexivity. }
    assert (Hca : c <> a) by congruence. assert (Hba : b <> a) by congruence.
    assert (Hbc : b <> c) by congruence.
    destruct (last_ptr_some l2 c dc (Some b)) as [q Eq].
    assert (Hq : last_ptr None (l1 ++ (b, db) :: (c, dc) :: l2) = Some q).
    { rewrite last_ptr_app. exact Eq. }
    assert (Hqin : In q (map fst ((c, dc) :: l2))).
    { clear -Eq. revert c dc Eq. generalize (Some b). induction l2 as [|[e de] l2 IH]; intros p c dc Eq; cbn in *.
      - left. congruence.
      - right. eapply (IH (Some c) e de). cbn. exact Eq. }
    assert (Hqb : q <> b).
    { intros ->. apply Hnb. cbn in Hqin. destruct Hqin as [X|X]; [congruence|right; exact X]. }
    rewrite Hq in HL.
    unfold insert_after_node. hrun. cbn [ptr_eqb].
    replace (Nat.eqb b q) with false by (symmetry; apply Nat.eqb_neq; congruence).
    hrun. eexists; split; [reflexivity|].
    split; [split; [|split; [|split]]|split; [split; [|split]|]].
    + hlook. rewrite !last_ptr_app, !first_ptr_app. cbn [last_ptr first_ptr].
      cbn [last_ptr] in Eq. rewrite Eq, u32_add_l.
      do 3 f_equal. rewrite !zlen_app, !zlen_cons. lia.
    + apply seg_app. cbn [seg first_ptr].
      refine (conj _ (conj _ (conj _ (conj _ _)))); [| hlook; reflexivity | hlook; reflexivity | hlook; reflexivity|].
      * eapply seg_frame; [|exact HS1]. intros e He.
        assert (e <> a) by (intros ->; apply Hnin, in_or_app; left; exact He).
        assert (e <> b) by (intros ->; apply (N3 b He); left; reflexivity).
        assert (e <> c) by (intros ->; apply (N3 c He); right; left; reflexivity).
        hlook. reflexivity.
      * eapply seg_frame; [|exact HS2]. intros e He.
        assert (e <> a) by (intros ->; apply Hnin, in_or_app; right; right; right; exact He).
        assert (e <> b) by (intros ->; apply Hnb; right; exact He).
        assert (e <> c) by (intros ->; contradiction).
        hlook. reflexivity.
    + rewrite map_app. cbn [map fst]. apply NoDup_app_intro; [exact N1| |].
      * constructor; [intros [X|[X|X]]; [congruence|congruence|]|].
        { apply Hnb. right. exact X. }
        constructor; [|exact N4].
        intros X. apply Hnin, in_or_app. right. right. exact X.
      * intros e He [X|[X|X]]; subst; [apply (N3 e He); left; reflexivity| |].
        { apply Hnin, in_or_app; left; exact He. }
        apply (N3 e He). right. exact X.
    + rewrite map_app. cbn [map fst]. apply Forall_app in HF. destruct HF as [F1 F2].
      apply Forall_app. split; [exact F1|]. inversion F2; subst. constructor; [assumption|].
      constructor; assumption.
    + intros j Hj. hlook. reflexivity.
    + intros e He He2. cbn in He2. rewrite !map_app, !in_app_iff in He. cbn in He. hlook.
      hother.
    + hlook. lia.
    + hlook. reflexivity.
Qed.

(** unlink removes the node, which survives with its data and owner NULL. *)
Lemma unlink_spec (h : heap) lid l1 a d l2 :
  R h lid (l1 ++ (a, d) :: l2) ->
  exists h' n, unlink h (Some a) = Ok (h', Some a) /\ R h' lid (l1 ++ l2) /\
    h_nodes h' a = Some n /\ n_data n = d /\ n_owner n = None /\
    frame h h' lid (l1 ++ (a, d) :: l2) [] /\ h_fresh h' = h_fresh h.
Proof.
  intros (HL & HS & HN & HF).
  assert (HS' := HS). apply seg_app in HS'. destruct HS' as [HS1 [Ha HS2]]. cbn [first_ptr] in *.
  rewrite map_app in HN, HF. cbn [map fst] in *.
  destruct (NoDup_app_inv _ _ HN) as (N1 & N2 & N3). inversion N2 as [|x y Hna N4]; subst.
  assert (N12 : NoDup (map fst (l1 ++ l2))).
  { rewrite map_app. apply NoDup_app_intro; auto. intros x X1 X2. apply (N3 x X1). right. exact X2. }
  assert (F12 : Forall (fun x => (x < h_fresh h)%nat) (map fst (l1 ++ l2))).
  { rewrite map_app. apply Forall_app in HF. destruct HF as [F1 F2]. inversion F2; subst.
    apply Forall_app. split; assumption. }
  assert (Hcount : u32 (u32 (zlen (l1 ++ (a, d) :: l2)) - 1) = u32 (zlen (l1 ++ l2))).
  { rewrite u32_sub_l. f_equal. rewrite !zlen_app, zlen_cons. lia. }
  destruct (list_snoc_cases l1) as [->|(l0 & [b db] & ->)]; destruct l2 as [|[c dc] l2];
    cbn [app first_ptr last_ptr seg map fst] in *.
  - (* only node *)
    unfold unlink. hrun. cbn [ptr_eqb]. rewrite Nat.eqb_refl. hrun. cbn [ptr_eqb].
    rewrite Nat.eqb_refl. hrun. do 2 eexists. split; [reflexivity|].
    split; [split; [|split; [|split]]|split; [|split; [|split; [|split; [split; [|split]|]]]]].
    + hlook. rewrite Hcount. reflexivity.
    + exact I.
    + exact N12.
    + hlook. exact F12.
    + hlook. reflexivity.
    + reflexivity.
    + reflexivity.
    + intros j Hj. hlook. reflexivity.
    + intros e He _. cbn in He. hlook. hother.
    + hlook. lia.
    + hlook. reflexivity.
  - (* head *)
    destruct HS2 as [Hc HS2].
    assert (Hca : c <> a). { intros ->. apply Hna. left. reflexivity. }
    assert (Hac : a <> c) by congruence.
    inversion N4 as [|x y Hnc N5]; subst.
    destruct (last_ptr_some l2 c dc (Some a)) as [q Eq].
    assert (Hqin : In q (map fst ((c, dc) :: l2))).
    { clear -Eq. revert c dc Eq. generalize (Some a). induction l2 as [|[e de] l2 IH]; intros p c dc Eq; cbn in *.
      - left. congruence.
      - right. eapply (IH (Some c) e de). cbn. exact Eq. }
    assert (Hqa : q <> a). { intros ->. apply Hna. exact Hqin. }
    cbn [last_ptr] in Eq. rewrite Eq in HL.
    unfold unlink. hrun. cbn [ptr_eqb]. rewrite Nat.eqb_refl. hrun. cbn [ptr_eqb].
    replace (Nat.eqb q a) with false by (symmetry; apply Nat.eqb_neq; congruence).
    hrun. do 2 eexists. split; [reflexivity|].
    split; [split; [|split; [|split]]|split; [|split; [|split; [|split; [split; [|split]|]]]]].
    + hlook. rewrite Hcount. cbn [first_ptr last_ptr]. rewrite Eq. reflexivity.
    + cbn [seg]. split; [hlook; reflexivity|]. eapply seg_frame; [|exact HS2]. intros e He.
      assert (e <> c) by (intros ->; contradiction).
      assert (e <> a) by (intros ->; apply Hna; right; exact He). hlook. reflexivity.
    + exact N12.
    + hlook. exact F12.
    + hlook. reflexivity.
    + reflexivity.
    + reflexivity.
    + intros j Hj. hlook. reflexivity.
    + intros e He _. cbn in He. hlook. hother.
    + hlook. lia.
    + hlook. reflexivity.
  - (* tail *)
    rewrite app_nil_r in *. rewrite last_ptr_snoc in *.
    assert (Hb0 := HS1). apply seg_app in Hb0. destruct Hb0 as [Hb1 [Hb _]]. cbn [first_ptr] in *.
    assert (Hba : b <> a).
    { intros ->. apply (N3 a); [|left; reflexivity]. rewrite map_app. apply in_or_app. right. left. reflexivity. }
    assert (Hab : a <> b) by congruence.
    destruct (first_ptr_some l0 b db None) as [q Eq].
    assert (Hq : first_ptr ((l0 ++ [(b, db)]) ++ [(a, d)]) None = Some q).
    { rewrite !first_ptr_app in *. exact Eq. }
    assert (Hqin : In q (map fst (l0 ++ [(b, db)]))).
    { clear -Eq. destruct l0 as [|[e de] l0]; cbn in *; left; congruence. }
    assert (Hqa : q <> a). { intros ->. apply (N3 a Hqin). left. reflexivity. }
    rewrite Hq, ?last_ptr_app in HL. cbn [last_ptr] in HL.
    unfold unlink. hrun. cbn [ptr_eqb].
    replace (Nat.eqb q a) with false by (symmetry; apply Nat.eqb_neq; congruence).
    hrun. cbn [ptr_eqb]. rewrite Nat.eqb_refl.
    hrun. do 2 eexists. split; [reflexivity|].
    split; [split; [|split; [|split]]|split; [|split; [|split; [|split; [split; [|split]|]]]]].
    + hlook. rewrite Hcount, Eq, last_ptr_snoc. reflexivity.
    + set (hh := put_node _ _ _).
      apply (seg_frame (upd (h_nodes h) b (Some (mkNode db None (last_ptr None l0) (Some lid))))).
      { intros c Hc. subst hh.
        assert (c <> a) by (intros ->; apply (N3 a Hc); left; reflexivity).
        destruct (Nat.eq_dec c b) as [->|Hcb].
        - hlook. rewrite upd_eq. reflexivity.
        - hlook. rewrite upd_neq by congruence. reflexivity. }
      eapply seg_last_next; [exact HS1|exact N12|reflexivity].
    + exact N12.
    + hlook. exact F12.
    + hlook. reflexivity.
    + reflexivity.
    + reflexivity.
    + intros j Hj. hlook. reflexivity.
    + intros e He _. rewrite !map_app, !in_app_iff in He. cbn in He. hlook.
      hother.
    + hlook. lia.
    + hlook. reflexivity.
  - (* middle *)
    rewrite last_ptr_snoc in *.
    assert (Hb0 := HS1). apply seg_app in Hb0. destruct Hb0 as [Hb1 [Hb _]]. cbn [first_ptr] in *.
    destruct HS2 as [Hc HS2].
    rewrite map_app in N3. cbn [map fst] in N3.
    assert (Hba : b <> a).
    { intros ->. apply (N3 a); [|left; reflexivity]. apply in_or_app. right. left. reflexivity. }
    assert (Hbc : b <> c).
    { intros ->. apply (N3 c); [|right; left; reflexivity]. apply in_or_app. right. left. reflexivity. }
    assert (Hca : c <> a). { intros ->. apply Hna. left. reflexivity. }
    assert (Hab : a <> b) by congruence. assert (Hac : a <> c) by congruence.
    assert (Hcb : c <> b) by congruence.
    inversion N4 as [|x y Hnc N5]; subst.
    destruct (first_ptr_some l0 b db None) as [q Eq].
    assert (Hq : first_ptr ((l0 ++ [(b, db)]) ++ (a, d) :: (c, dc) :: l2) None = Some q).
    { rewrite !first_ptr_app in *. exact Eq. }
    assert (Hqin : In q (map fst l0 ++ [b])).
    { clear -Eq. destruct l0 as [|[e de] l0]; cbn in *; left; congruence. }
    assert (Hqa : q <> a). { intros ->. apply (N3 a Hqin). left. reflexivity. }
    destruct (last_ptr_some l2 c dc (Some a)) as [t Et].
    assert (Htin : In t (map fst ((c, dc) :: l2))).
    { clear -Et. revert c dc Et. generalize (Some a). induction l2 as [|[e de] l2 IH]; intros p c dc Eq; cbn in *.
      - left. congruence.
      - right. eapply (IH (Some c) e de). cbn. exact Eq. }
    assert (Hta : t <> a). { intros ->. apply Hna. exact Htin. }
    cbn [last_ptr] in Et.
    rewrite Hq, ?last_ptr_app in HL. cbn [last_ptr] in HL. rewrite Et in HL.
    unfold unlink. hrun. cbn [ptr_eqb].
    replace (Nat.eqb q a) with false by (symmetry; apply Nat.eqb_neq; congruence).
    hrun. cbn [ptr_eqb].
    replace (Nat.eqb t a) with false by (symmetry; apply Nat.eqb_neq; congruence).
    hrun. do 2 eexists. split; [reflexivity|].
    split; [split; [|split; [|split]]|split; [|split; [|split; [|split; [split; [|split]|]]]]].
    + hlook. rewrite Hcount, last_ptr_app. cbn [last_ptr]. rewrite Et.
      rewrite !first_ptr_app in *. cbn [first_ptr] in *. rewrite Eq. reflexivity.
    + apply seg_app. cbn [first_ptr]. rewrite last_ptr_snoc. split.
      * set (hh := put_node _ _ _).
        apply (seg_frame (upd (h_nodes h) b (Some (mkNode db (Some c) (last_ptr None l0) (Some lid))))).
        { intros e He. subst hh. rewrite map_app in He. cbn [map fst] in He.
          assert (e <> a) by (intros ->; apply (N3 a He); left; reflexivity).
          assert (e <> c) by (intros ->; apply (N3 c He); right; left; reflexivity).
          destruct (Nat.eq_dec e b) as [->|Hcb'].
          - hlook. rewrite upd_eq. reflexivity.
          - hlook. rewrite upd_neq by congruence. reflexivity. }
        eapply seg_last_next; [exact HS1|exact N1|reflexivity].
      * cbn [seg]. split; [hlook; reflexivity|]. eapply seg_frame; [|exact HS2]. intros e He.
        assert (e <> c) by (intros ->; contradiction).
        assert (e <> b).
        { intros ->. apply (N3 b); [apply in_or_app; right; left; reflexivity|right; right; exact He]. }
        assert (e <> a) by (intros ->; apply Hna; right; exact He). hlook. reflexivity.
    + exact N12.
    + hlook. exact F12.
    + hlook. reflexivity.
    + reflexivity.
    + reflexivity.
    + intros j Hj. hlook. reflexivity.
    + intros e He _. rewrite !map_app, !in_app_iff in He. cbn in He. hlook.
      hother.
    + hlook. lia.
    + hlook. reflexivity.
Qed.

Lemma frame_weaken h h' lid l e e' : frame h h' lid l e -> incl e e' -> frame h h' lid l e'.
Proof. intros (A & B & C) Hi. split; [exact A|]. split; [|exact C]. intros a H1 H2. apply B; auto. Qed.

Lemma delete_spec (h : heap) lid l1 a d l2 :
  R h lid (l1 ++ (a, d) :: l2) ->
  exists h', delete h (Some a) = Ok h' /\ R h' lid (l1 ++ l2) /\ h_nodes h' a = None /\
    frame h h' lid (l1 ++ (a, d) :: l2) [] /\ h_fresh h' = h_fresh h.
Proof.
  intros HR. destruct (unlink_spec h lid l1 a d l2 HR) as (h1 & n & E & HR1 & Hn & _ & _ & HF & Hfr).
  assert (Hg : exists n0, h_nodes h a = Some n0).
  { destruct HR as (_ & HS & _). apply seg_app in HS. destruct HS as [_ [Ha _]]. eauto. }
  destruct Hg as [n0 Hg].
  assert (Hnin : ~ In a (map fst (l1 ++ l2))).
  { destruct HR as (_ & _ & HN & _). rewrite map_app in *. cbn in HN. apply NoDup_remove_2 in HN. exact HN. }
  unfold delete. hrun. rewrite E. cbn [bind fst]. unfold free_node. hrun.
  eexists; split; [reflexivity|]. split; [|split; [|split]].
  - eapply R_frame; [| | |exact HR1]; try reflexivity.
    cbn [h_nodes]. intros b Hb. apply upd_neq. congruence.
  - cbn. apply upd_eq.
  - destruct HF as (F1 & F2 & F3). split; [exact F1|]. split; [|exact F3].
    intros b Hb Hb2. cbn [h_nodes]. rewrite upd_neq; [auto|]. intros ->.
    apply Hb. rewrite map_app. apply in_or_app. right. left. reflexivity.
  - exact Hfr.
Qed.

Lemma alloc_R (h : heap) lid l : R h lid l -> R (fst (alloc_node h)) lid l.
Proof.
  intros HR. eapply R_frame; [| | |exact HR]; cbn; try reflexivity; [|lia].
  intros a Ha. apply upd_neq. destruct HR as (_ & _ & _ & HF). rewrite Forall_forall in HF.
  specialize (HF a Ha). lia.
Qed.

Definition fresh_heap (h : heap) (d : D) : heap :=
  let a := h_fresh h in
  let nd := h_junk h a in
  put_node (fst (alloc_node h)) a (mkNode d (n_next nd) (n_prev nd) (n_owner nd)).

Lemma fresh_heap_R (h : heap) lid l d : R h lid l ->
  R (fresh_heap h d) lid l /\ ~ In (h_fresh h) (map fst l).
Proof.
  intros HR. assert (Hnin : ~ In (h_fresh h) (map fst l)).
  { destruct HR as (_ & _ & _ & HF). rewrite Forall_forall in HF. intros Hin. specialize (HF _ Hin). lia. }
  split; [|exact Hnin]. eapply R_frame; [| | |exact (alloc_R h lid l HR)]; cbn; try reflexivity.
  intros b Hb. apply upd_neq. congruence.
Qed.

Lemma alloc_set_data (h : heap) d :
  (let (h1, p) := alloc_node h in set_data h1 p d) = Ok (fresh_heap h d).
Proof. unfold alloc_node, set_data, get_node. cbn. rewrite upd_eq. reflexivity. Qed.

Lemma alloc_then (h : heap) d {X} (k : heap -> option nat -> res X) :
  (let (h1, p) := alloc_node h in do h2 <- set_data h1 p d; k h2 p) =
  k (fresh_heap h d) (Some (h_fresh h)).
Proof. unfold alloc_node, set_data, get_node. cbn. rewrite upd_eq. reflexivity. Qed.

(** Frame of an operation that also allocates. *)
Lemma frame_fresh (h h' : heap) lid l d :
  frame (fresh_heap h d) h' lid l [h_fresh h] -> frame h h' lid l [h_fresh h].
Proof.
  intros (A & B & C). split; [exact A|]. split.
  - intros a H1 H2. rewrite B by assumption. cbn. rewrite !upd_neq; [reflexivity| |];
      intros ->; apply H2; left; reflexivity.
  - cbn in C. lia.
Qed.

(** A frame that only excludes the freshly allocated node preserves every other list. *)
Lemma frame_fresh_other (h h' : heap) lid l j lj :
  R h lid l -> frame h h' lid l [h_fresh h] -> j <> lid -> R h j lj -> R h' j lj.
Proof.
  intros HR HF Hj HRj. apply (frame_other h h' lid l [h_fresh h] j lj HR HF Hj HRj).
  intros a [<-|[]].
  destruct HRj as (_ & _ & _ & HFj). rewrite Forall_forall in HFj. intros Hin. specialize (HFj _ Hin). lia.
Qed.

Lemma fresh_lookup (h : heap) d : exists n, h_nodes (fresh_heap h d) (h_fresh h) = Some n /\ n_data n = d.
Proof. eexists. unfold fresh_heap. hlook. split; reflexivity. Qed.

Lemma R_list (h : heap) lid l : R h lid l -> exists hdr, h_lists h lid = Some hdr.
Proof. intros (H & _). eauto. Qed.

Lemma push_head_spec (h : heap) lid l d : R h lid l ->
  exists h', push_head h (Some lid) d = Ok (h', Some (h_fresh h)) /\
    R h' lid ((h_fresh h, d) :: l) /\ frame h h' lid l [h_fresh h].
Proof.
  intros HR. destruct (fresh_heap_R h lid l d HR) as [HR1 Hnin].
  destruct (fresh_lookup h d) as (n & Hn & Hd). destruct (R_list _ _ _ HR) as [hdr Hh].
  destruct (push_head_node_spec _ lid l _ n HR1 Hn Hnin) as (h' & E & HR' & HF & _). { cbn. lia. }
  rewrite Hd in HR'. exists h'. unfold push_head. rewrite (get_list_some _ _ _ Hh). cbn [bind].
  rewrite (alloc_then h d (fun h p => push_head_node h (Some lid) p)).
  split; [exact E|]. split; [exact HR'|]. eapply frame_fresh; eauto.
Qed.

Lemma push_tail_spec (h : heap) lid l d : R h lid l ->
  exists h', push_tail h (Some lid) d = Ok (h', Some (h_fresh h)) /\
    R h' lid (l ++ [(h_fresh h, d)]) /\ frame h h' lid l [h_fresh h].
Proof.
  intros HR. destruct (fresh_heap_R h lid l d HR) as [HR1 Hnin].
  destruct (fresh_lookup h d) as (n & Hn & Hd). destruct (R_list _ _ _ HR) as [hdr Hh].
  destruct (push_tail_node_spec _ lid l _ n HR1 Hn Hnin) as (h' & E & HR' & HF & _). { cbn. lia. }
  rewrite Hd in HR'. exists h'. unfold push_tail. rewrite (get_list_some _ _ _ Hh). cbn [bind].
  rewrite (alloc_then h d (fun h p => push_tail_node h (Some lid) p)).
  split; [exact E|]. split; [exact HR'|]. eapply frame_fresh; eauto.
Qed.

Lemma R_node (h : heap) lid l1 b db l2 : R h lid (l1 ++ (b, db) :: l2) ->
  exists n, h_nodes h b = Some n /\ n_owner n = Some lid /\ n_data n = db /\
    n_next n = first_ptr l2 None /\ n_prev n = last_ptr None l1.
Proof.
  intros (_ & HS & _). apply seg_app in HS. destruct HS as [_ [Hb _]]. eexists; split; [exact Hb|].
  repeat split; reflexivity.
Qed.

Lemma insert_before_spec (h : heap) lid l1 b db l2 d : R h lid (l1 ++ (b, db) :: l2) ->
  exists h', insert_before h (Some b) d = Ok (h', Some (h_fresh h)) /\
    R h' lid (l1 ++ (h_fresh h, d) :: (b, db) :: l2) /\
    frame h h' lid (l1 ++ (b, db) :: l2) [h_fresh h].
Proof.
  intros HR. destruct (fresh_heap_R h lid _ d HR) as [HR1 Hnin].
  destruct (fresh_lookup h d) as (n & Hn & Hd). destruct (R_list _ _ _ HR) as [hdr Hh].
  destruct (R_node _ _ _ _ _ _ HR) as (nb & Hb & Ho & _).
  destruct (insert_before_node_spec _ lid l1 b db l2 _ n HR1 Hn Hnin) as (h' & E & HR' & HF & _). { cbn. lia. }
  rewrite Hd in HR'. exists h'. unfold insert_before. rewrite (get_node_some _ _ _ Hb). cbn [bind fst snd].
  rewrite Ho, (get_list_some _ _ _ Hh). cbn [bind].
  rewrite (alloc_then h d (fun h p => insert_before_node h (Some b) p)).
  split; [exact E|]. split; [exact HR'|]. eapply frame_fresh; eauto.
Qed.

Lemma insert_after_spec (h : heap) lid l1 b db l2 d : R h lid (l1 ++ (b, db) :: l2) ->
  exists h', insert_after h (Some b) d = Ok (h', Some (h_fresh h)) /\
    R h' lid (l1 ++ (b, db) :: (h_fresh h, d) :: l2) /\
    frame h h' lid (l1 ++ (b, db) :: l2) [h_fresh h].
Proof.
  intros HR. destruct (fresh_heap_R h lid _ d HR) as [HR1 Hnin].
  destruct (fresh_lookup h d) as (n & Hn & Hd). destruct (R_list _ _ _ HR) as [hdr Hh].
  destruct (R_node _ _ _ _ _ _ HR) as (nb & Hb & Ho & _).
  destruct (insert_after_node_spec _ lid l1 b db l2 _ n HR1 Hn Hnin) as (h' & E & HR' & HF & _). { cbn. lia. }
  rewrite Hd in HR'. exists h'. unfold insert_after. rewrite (get_node_some _ _ _ Hb). cbn [bind fst snd].
  rewrite Ho, (get_list_some _ _ _ Hh). cbn [bind].
  rewrite (alloc_then h d (fun h p => insert_after_node h (Some b) p)).
  split; [exact E|]. split; [exact HR'|]. eapply frame_fresh; eauto.
Qed.

(** pop_head / pop_tail and their node variants. *)
Lemma pop_head_spec (h : heap) lid l : R h lid l ->
  match l with
  | [] => pop_head h (Some lid) = Ok (h, None)
  | (a, d) :: rest => exists h', pop_head h (Some lid) = Ok (h', Some d) /\ R h' lid rest /\
      h_nodes h' a = None /\ frame h h' lid l [] /\ h_fresh h' = h_fresh h
  end.
Proof.
  intros HR. assert (HL := HR). destruct HL as (HL & _).
  destruct l as [|[a d] rest]; unfold pop_head; cbn [first_ptr] in HL.
  - hrun. reflexivity.
  - destruct (delete_spec h lid [] a d rest HR) as (h' & E & HR' & Hn & HF & Hfr).
    destruct (R_node _ _ [] _ _ _ HR) as (nb & Hb & Ho & Hd & _).
    exists h'. hrun. rewrite E. cbn [bind]. rewrite Hd. auto 10.
Qed.

Lemma pop_tail_spec (h : heap) lid l a d : R h lid (l ++ [(a, d)]) ->
  exists h', pop_tail h (Some lid) = Ok (h', Some d) /\ R h' lid l /\
      h_nodes h' a = None /\ frame h h' lid (l ++ [(a, d)]) [] /\ h_fresh h' = h_fresh h.
Proof.
  intros HR. assert (HL := HR). destruct HL as (HL & _). rewrite last_ptr_snoc in HL.
  destruct (delete_spec h lid l a d [] HR) as (h' & E & HR' & Hn & HF & Hfr). rewrite app_nil_r in HR'.
  destruct (R_node _ _ l _ _ _ HR) as (nb & Hb & Ho & Hd & _).
  exists h'. unfold pop_tail. hrun. rewrite E. cbn [bind]. rewrite Hd. auto 10.
Qed.
Lemma pop_tail_nil (h : heap) lid : R h lid [] -> pop_tail h (Some lid) = Ok (h, None).
Proof. intros (HL & _). unfold pop_tail. cbn in HL. hrun. reflexivity. Qed.

Lemma pop_head_node_spec (h : heap) lid l : R h lid l ->
  match l with
  | [] => pop_head_node h (Some lid) = Ok (h, None)
  | (a, d) :: rest => exists h' n, pop_head_node h (Some lid) = Ok (h', Some a) /\ R h' lid rest /\
      h_nodes h' a = Some n /\ n_data n = d /\ n_owner n = None /\
      frame h h' lid l [] /\ h_fresh h' = h_fresh h
  end.
Proof.
  intros HR. assert (HL := HR). destruct HL as (HL & _).
  destruct l as [|[a d] rest]; unfold pop_head_node; cbn [first_ptr] in HL.
  - hrun. reflexivity.
  - destruct (unlink_spec h lid [] a d rest HR) as (h' & n & E & rst). exists h', n. hrun. auto.
Qed.
Lemma pop_tail_node_spec (h : heap) lid l a d : R h lid (l ++ [(a, d)]) ->
  exists h' n, pop_tail_node h (Some lid) = Ok (h', Some a) /\ R h' lid l /\
      h_nodes h' a = Some n /\ n_data n = d /\ n_owner n = None /\
      frame h h' lid (l ++ [(a, d)]) [] /\ h_fresh h' = h_fresh h.
Proof.
  intros HR. assert (HL := HR). destruct HL as (HL & _). rewrite last_ptr_snoc in HL.
  destruct (unlink_spec h lid l a d [] HR) as (h' & n & E & HR' & rst). rewrite app_nil_r in HR'.
  exists h', n. unfold pop_tail_node. hrun. auto.
Qed.
Lemma pop_tail_node_nil (h : heap) lid : R h lid [] -> pop_tail_node h (Some lid) = Ok (h, None).
Proof. intros (HL & _). unfold pop_tail_node. cbn in HL. hrun. reflexivity. Qed.

(** Length bound giving enough fuel to every walk. *)
Lemma R_len (h : heap) lid l : R h lid l -> (length l <= h_fresh h)%nat.
Proof.
  intros (_ & _ & HN & HF).
  rewrite <- (map_length fst l), <- (seq_length (h_fresh h) 0).
  apply NoDup_incl_length; [exact HN|]. intros a Ha. rewrite Forall_forall in HF.
  specialize (HF a Ha). apply in_seq. lia.
Qed.

(** Walks.  Forward over a suffix, backward over a prefix. *)
Lemma for_each_fwd {S} (func : S -> nat -> D -> S * bool) (h : heap) lid l : forall fuel prv s,
  seg (h_nodes h) lid prv l None -> (length l < fuel)%nat ->
  for_each_loop fuel true func h (first_ptr l None) s =
    Ok (seq_for_each (fun s x => func s (fst x) (snd x)) s l).
Proof.
  induction l as [|[a d] l IH]; intros fuel prv s HS Hf; (destruct fuel as [|fuel]; [cbn in Hf; lia|]);
    cbn [for_each_loop first_ptr seq_for_each].
  - reflexivity.
  - destruct HS as [Ha HS]. hrun. destruct (func s a d) as [s' go]. destruct go; [|reflexivity].
    eapply IH; [exact HS|]. cbn in Hf. lia.
Qed.
Lemma for_each_bwd {S} (func : S -> nat -> D -> S * bool) (h : heap) lid l : forall fuel nxt s,
  seg (h_nodes h) lid None l nxt -> (length l < fuel)%nat ->
  for_each_loop fuel false func h (last_ptr None l) s =
    Ok (seq_for_each (fun s x => func s (fst x) (snd x)) s (rev l)).
Proof.
  induction l as [|[a d] l IH] using rev_ind; intros fuel nxt s HS Hf;
    (destruct fuel as [|fuel]; [cbn in Hf; lia|]).
  - reflexivity.
  - apply seg_app in HS. destruct HS as [HS [Ha _]]. rewrite last_ptr_snoc, rev_app_distr.
    cbn [for_each_loop first_ptr seq_for_each app rev].
    hrun. destruct (func s a d) as [s' go]. destruct go; [|reflexivity].
    eapply IH; [exact HS|]. rewrite app_length in Hf. cbn in Hf. lia.
Qed.

Lemma for_each_spec {S} (func : S -> nat -> D -> S * bool) (h : heap) lid l s : R h lid l ->
  for_each h (Some lid) func s = Ok (seq_for_each (fun s x => func s (fst x) (snd x)) s l) /\
  for_each_rev h (Some lid) func s = Ok (seq_for_each (fun s x => func s (fst x) (snd x)) s (rev l)).
Proof.
  intros HR. pose proof (R_len _ _ _ HR). destruct HR as (HL & HS & _).
  unfold for_each, for_each_rev, walk_fuel. hrun. split.
  - eapply for_each_fwd; [exact HS|]. lia.
  - eapply for_each_bwd; [exact HS|]. lia.
Qed.

(** find_node: address of the first element with non-zero comparison. *)
Lemma find_fwd (cmp : D -> Z) (h : heap) lid l : forall fuel prv,
  seg (h_nodes h) lid prv l None -> (length l < fuel)%nat ->
  find_loop fuel true cmp h (first_ptr l None) =
    Ok (option_map fst (seq_find (fun x => cmp (snd x)) l)).
Proof.
  induction l as [|[a d] l IH]; intros fuel prv HS Hf; (destruct fuel as [|fuel]; [cbn in Hf; lia|]);
    cbn [find_loop first_ptr seq_find snd].
  - reflexivity.
  - destruct HS as [Ha HS]. hrun. destruct (cmp d =? -1); [reflexivity|].
    destruct (negb (cmp d =? 0)); [reflexivity|]. eapply IH; [exact HS|]. cbn in Hf. lia.
Qed.
Lemma find_bwd (cmp : D -> Z) (h : heap) lid l : forall fuel nxt,
  seg (h_nodes h) lid None l nxt -> (length l < fuel)%nat ->
  find_loop fuel false cmp h (last_ptr None l) =
    Ok (option_map fst (seq_find (fun x => cmp (snd x)) (rev l))).
Proof.
  induction l as [|[a d] l IH] using rev_ind; intros fuel nxt HS Hf;
    (destruct fuel as [|fuel]; [cbn in Hf; lia|]).
  - reflexivity.
  - apply seg_app in HS. destruct HS as [HS [Ha _]]. rewrite last_ptr_snoc, rev_app_distr.
    cbn [find_loop first_ptr seq_find app rev snd].
    hrun. destruct (cmp d =? -1); [reflexivity|].
    destruct (negb (cmp d =? 0)); [reflexivity|]. eapply IH; [exact HS|].
    rewrite app_length in Hf. cbn in Hf. lia.
Qed.
Lemma find_node_spec (h : heap) lid l d cmp : R h lid l ->
  find_node h (Some lid) d cmp = Ok (option_map fst (seq_find (fun x => cmp d (snd x)) l)) /\
  find_node_rev h (Some lid) d cmp = Ok (option_map fst (seq_find (fun x => cmp d (snd x)) (rev l))).
Proof.
  intros HR. pose proof (R_len _ _ _ HR). destruct HR as (HL & HS & _).
  unfold find_node, find_node_rev, walk_fuel. hrun. split.
  - eapply find_fwd; [exact HS|]. lia.
  - eapply find_bwd; [exact HS|]. lia.
Qed.

(** Sorted insertion. *)
Lemma ge_fwd (cmp : D -> Z) (h : heap) lid l : forall fuel prv,
  seg (h_nodes h) lid prv l None -> (length l < fuel)%nat ->
  (exists l1 b db l2, l = l1 ++ (b, db) :: l2 /\ Forall (fun x => cmp (snd x) < 0) l1 /\ 0 <= cmp db /\
     ge_loop fuel true cmp h (first_ptr l None) = Ok (Some b)) \/
  (Forall (fun x => cmp (snd x) < 0) l /\ ge_loop fuel true cmp h (first_ptr l None) = Ok None).
Proof.
  induction l as [|[a d] l IH]; intros fuel prv HS Hf; (destruct fuel as [|fuel]; [cbn in Hf; lia|]);
    cbn [ge_loop first_ptr].
  - right. split; [constructor|reflexivity].
  - destruct HS as [Ha HS]. hrun. destruct (0 <=? cmp d) eqn:E.
    + left. exists [], a, d, l. split; [reflexivity|]. split; [constructor|]. split; [lia|reflexivity].
    + destruct (IH fuel (Some a) HS) as [(l1 & b & db & l2 & -> & H1 & H2 & H3)|[H1 H3]].
      { cbn in Hf. lia. }
      * left. exists ((a, d) :: l1), b, db, l2. split; [reflexivity|].
        split; [constructor; [cbn; lia|exact H1]|]. split; [exact H2|exact H3].
      * right. split; [constructor; [cbn; lia|exact H1]|exact H3].
Qed.
Lemma ge_bwd (cmp : D -> Z) (h : heap) lid l : forall fuel nxt,
  seg (h_nodes h) lid None l nxt -> (length l < fuel)%nat ->
  (exists l1 b db l2, l = l1 ++ (b, db) :: l2 /\ Forall (fun x => cmp (snd x) < 0) l2 /\ 0 <= cmp db /\
     ge_loop fuel false cmp h (last_ptr None l) = Ok (Some b)) \/
  (Forall (fun x => cmp (snd x) < 0) l /\ ge_loop fuel false cmp h (last_ptr None l) = Ok None).
Proof.
  induction l as [|[a d] l IH] using rev_ind; intros fuel nxt HS Hf;
    (destruct fuel as [|fuel]; [cbn in Hf; lia|]).
  - right. split; [constructor|reflexivity].
  - apply seg_app in HS. destruct HS as [HS [Ha _]]. rewrite last_ptr_snoc. cbn [ge_loop first_ptr].
    hrun. destruct (0 <=? cmp d) eqn:E.
    + left. exists l, a, d, []. split; [reflexivity|]. split; [constructor|]. split; [lia|reflexivity].
    + destruct (IH fuel (Some a) HS) as [(l1 & b & db & l2 & -> & H1 & H2 & H3)|[H1 H3]].
      { rewrite app_length in Hf. cbn in Hf. lia. }
      * left. exists l1, b, db, (l2 ++ [(a, d)]). split; [rewrite <- app_assoc; reflexivity|].
        split; [apply Forall_app; split; [exact H1|constructor; [cbn; lia|constructor]]|].
        split; [exact H2|exact H3].
      * right. split; [apply Forall_app; split; [exact H1|constructor; [cbn; lia|constructor]]|exact H3].
Qed.

Lemma seq_insert_sorted_split (cmp : D -> D -> Z) x l1 y l2 :
  Forall (fun z => cmp x z < 0) l1 -> 0 <= cmp x y ->
  seq_insert_sorted cmp x (l1 ++ y :: l2) = l1 ++ x :: y :: l2.
Proof.
  induction l1 as [|z l1 IH]; intros H1 H2; cbn [app seq_insert_sorted].
  - replace (0 <=? cmp x y) with true by lia. reflexivity.
  - inversion H1; subst. replace (0 <=? cmp x z) with false by lia. rewrite IH by assumption. reflexivity.
Qed.
Lemma seq_insert_sorted_end (cmp : D -> D -> Z) x l :
  Forall (fun z => cmp x z < 0) l -> seq_insert_sorted cmp x l = l ++ [x].
Proof.
  induction l as [|z l IH]; intros H1; cbn [app seq_insert_sorted]; [reflexivity|].
  inversion H1; subst. replace (0 <=? cmp x z) with false by lia. rewrite IH by assumption. reflexivity.
Qed.

Lemma Forall_snd (P : D -> Prop) (l : list (nat * D)) :
  Forall (fun x => P (snd x)) l -> Forall P (map snd l).
Proof. intros H. apply Forall_map. exact H. Qed.

(** Where insert_sorted puts x: every element passed over is strictly greater (cmp < 0), the
    next one is not; the reverse walk mirrors it. *)
Definition placed (cmp : D -> Z) (l1 l2 : list (nat * D)) : Prop :=
  Forall (fun y => cmp (snd y) < 0) l1 /\ match l2 with [] => True | y :: _ => 0 <= cmp (snd y) end.
Definition placed_rev (cmp : D -> Z) (l1 l2 : list (nat * D)) : Prop :=
  Forall (fun y => cmp (snd y) < 0) l2 /\ match rev l1 with [] => True | y :: _ => 0 <= cmp (snd y) end.

Lemma insert_sorted_node_spec (h : heap) lid l a n cmp :
  R h lid l -> h_nodes h a = Some n -> ~ In a (map fst l) -> (a < h_fresh h)%nat ->
  exists h' l1 l2, insert_sorted_node h (Some lid) (Some a) cmp = Ok (h', Some a) /\
    l = l1 ++ l2 /\ R h' lid (l1 ++ (a, n_data n) :: l2) /\
    map snd (l1 ++ (a, n_data n) :: l2) = seq_insert_sorted cmp (n_data n) (map snd l) /\
    frame h h' lid l [a] /\ placed (cmp (n_data n)) l1 l2.
Proof.
  intros HR Ha Hnin Hfr. pose proof (R_len _ _ _ HR) as Hlen.
  unfold insert_sorted_node. assert (HR' := HR). destruct HR' as (HL & HS & _). hrun.
  destruct (ge_fwd (cmp (n_data n)) h lid l (walk_fuel h) None HS) as [(l1 & b & db & l2 & E & H1 & H2 & H3)|[H1 H3]].
  { unfold walk_fuel. lia. }
  - rewrite H3. cbn [bind]. subst l.
    destruct (insert_before_node_spec h lid l1 b db l2 a n HR Ha Hnin Hfr) as (h' & E' & HR' & HF & _).
    exists h', l1, ((b, db) :: l2). split; [exact E'|]. split; [reflexivity|]. split; [exact HR'|].
    split; [|exact (conj HF (conj H1 H2))].
    rewrite !map_app. cbn [map snd]. rewrite seq_insert_sorted_split; [reflexivity| |exact H2].
    apply Forall_snd. exact H1.
  - rewrite H3. cbn [bind].
    destruct (push_tail_node_spec h lid l a n HR Ha Hnin Hfr) as (h' & E' & HR' & HF & _).
    exists h', l, []. split; [exact E'|]. split; [rewrite app_nil_r; reflexivity|]. split; [exact HR'|].
    split; [|exact (conj HF (conj H1 I))].
    rewrite !map_app. cbn [map snd]. rewrite seq_insert_sorted_end; [reflexivity|].
    apply Forall_snd. exact H1.
Qed.

Lemma Forall_rev' {A} (P : A -> Prop) l : Forall P l -> Forall P (rev l).
Proof. intros H. rewrite Forall_forall in *. intros x Hx. apply H. apply in_rev. exact Hx. Qed.

Lemma insert_sorted_node_rev_spec (h : heap) lid l a n cmp :
  R h lid l -> h_nodes h a = Some n -> ~ In a (map fst l) -> (a < h_fresh h)%nat ->
  exists h' l1 l2, insert_sorted_node_rev h (Some lid) (Some a) cmp = Ok (h', Some a) /\
    l = l1 ++ l2 /\ R h' lid (l1 ++ (a, n_data n) :: l2) /\
    map snd (l1 ++ (a, n_data n) :: l2) = seq_insert_sorted_rev cmp (n_data n) (map snd l) /\
    frame h h' lid l [a] /\ placed_rev (cmp (n_data n)) l1 l2.
Proof.
  intros HR Ha Hnin Hfr. pose proof (R_len _ _ _ HR) as Hlen.
  unfold insert_sorted_node_rev. assert (HR' := HR). destruct HR' as (HL & HS & _). hrun.
  destruct (ge_bwd (cmp (n_data n)) h lid l (walk_fuel h) None HS) as [(l1 & b & db & l2 & E & H1 & H2 & H3)|[H1 H3]].
  { unfold walk_fuel. lia. }
  - rewrite H3. cbn [bind]. subst l.
    destruct (insert_after_node_spec h lid l1 b db l2 a n HR Ha Hnin Hfr) as (h' & E' & HR' & HF & _).
    exists h', (l1 ++ [(b, db)]), l2. split; [exact E'|]. split; [rewrite <- app_assoc; reflexivity|].
    rewrite <- !app_assoc. cbn [app]. split; [exact HR'|].
    split; [|split; [exact HF|split; [exact H1|rewrite rev_app_distr; exact H2]]]. unfold seq_insert_sorted_rev.
    rewrite !map_app. cbn [map snd]. rewrite rev_app_distr. cbn [rev]. rewrite <- app_assoc. cbn [app].
    rewrite seq_insert_sorted_split; [| |exact H2].
    + rewrite rev_app_distr. cbn [rev]. rewrite !rev_involutive, <- !app_assoc. reflexivity.
    + apply Forall_rev', Forall_snd. exact H1.
  - rewrite H3. cbn [bind].
    destruct (push_head_node_spec h lid l a n HR Ha Hnin Hfr) as (h' & E' & HR' & HF & _).
    exists h', [], l. split; [exact E'|]. split; [reflexivity|]. split; [exact HR'|].
    split; [|exact (conj HF (conj H1 I))]. unfold seq_insert_sorted_rev.
    cbn [app map snd]. rewrite seq_insert_sorted_end; [|apply Forall_rev', Forall_snd; exact H1].
    rewrite rev_app_distr, rev_involutive. reflexivity.
Qed.

Lemma insert_sorted_spec (h : heap) lid l d cmp : R h lid l ->
  exists h' l1 l2, insert_sorted h (Some lid) d cmp = Ok (h', Some (h_fresh h)) /\
    l = l1 ++ l2 /\ R h' lid (l1 ++ (h_fresh h, d) :: l2) /\
    map snd (l1 ++ (h_fresh h, d) :: l2) = seq_insert_sorted cmp d (map snd l) /\
    frame h h' lid l [h_fresh h] /\ placed (cmp d) l1 l2.
Proof.
  intros HR. destruct (fresh_heap_R h lid _ d HR) as [HR1 Hnin].
  destruct (fresh_lookup h d) as (n & Hn & Hd). destruct (R_list _ _ _ HR) as [hdr Hh].
  destruct (insert_sorted_node_spec _ lid l _ n cmp HR1 Hn Hnin) as (h' & l1 & l2 & E & El & HR' & Hm & HF & HP). { cbn. lia. }
  rewrite Hd in *. exists h', l1, l2. unfold insert_sorted. cbn [assert_ negb is_null bind].
  rewrite (get_list_some _ _ _ Hh). cbn [bind].
  rewrite (alloc_then h d (fun h p => insert_sorted_node h (Some lid) p cmp)).
  split; [exact E|]. split; [exact El|]. split; [exact HR'|]. split; [exact Hm|].
  split; [eapply frame_fresh; eauto|exact HP].
Qed.
Lemma insert_sorted_rev_spec (h : heap) lid l d cmp : R h lid l ->
  exists h' l1 l2, insert_sorted_rev h (Some lid) d cmp = Ok (h', Some (h_fresh h)) /\
    l = l1 ++ l2 /\ R h' lid (l1 ++ (h_fresh h, d) :: l2) /\
    map snd (l1 ++ (h_fresh h, d) :: l2) = seq_insert_sorted_rev cmp d (map snd l) /\
    frame h h' lid l [h_fresh h] /\ placed_rev (cmp d) l1 l2.
Proof.
  intros HR. destruct (fresh_heap_R h lid _ d HR) as [HR1 Hnin].
  destruct (fresh_lookup h d) as (n & Hn & Hd). destruct (R_list _ _ _ HR) as [hdr Hh].
  destruct (insert_sorted_node_rev_spec _ lid l _ n cmp HR1 Hn Hnin) as (h' & l1 & l2 & E & El & HR' & Hm & HF & HP). { cbn. lia. }
  rewrite Hd in *. exists h', l1, l2. unfold insert_sorted_rev. cbn [assert_ negb is_null bind].
  rewrite (get_list_some _ _ _ Hh). cbn [bind].
  rewrite (alloc_then h d (fun h p => insert_sorted_node_rev h (Some lid) p cmp)).
  split; [exact E|]. split; [exact El|]. split; [exact HR'|]. split; [exact Hm|].
  split; [eapply frame_fresh; eauto|exact HP].
Qed.

(** empty. *)
Lemma empty_loop_spec l : forall (h : heap) lid fuel, R h lid l -> zlen l < 4294967296 ->
  (length l < fuel)%nat ->
  exists h', empty_loop fuel h (Some lid) = Ok h' /\ R h' lid [] /\
    (forall a, In a (map fst l) -> h_nodes h' a = None) /\
    frame h h' lid l [] /\ h_fresh h' = h_fresh h.
Proof.
  induction l as [|[a d] l IH]; intros h lid fuel HR Hlt Hf; (destruct fuel as [|fuel]; [cbn in Hf; lia|]);
    assert (HL := HR); destruct HL as (HL & _); cbn [empty_loop]; hrun.
  - cbn. exists h. split; [reflexivity|]. split; [exact HR|]. split; [intros a []|].
    split; [|reflexivity]. split; [reflexivity|]. split; [reflexivity|lia].
  - rewrite u32_small. 2:{ pose proof (zlen_nonneg ((a,d) :: l)). unfold is_u32. lia. }
    rewrite zlen_cons in *. pose proof (zlen_nonneg l). replace (1 + zlen l =? 0) with false by lia.
    cbn [first_ptr]. hrun.
    destruct (delete_spec h lid [] a d l HR) as (h1 & E & HR1 & Hn & HF & Hfr). cbn [app first_ptr] in *.
    rewrite E. cbn [bind].
    destruct (IH h1 lid fuel HR1) as (h2 & E2 & HR2 & Hdel & HF2 & Hfr2). { lia. } { cbn in Hf. lia. }
    exists h2. split; [exact E2|]. split; [exact HR2|].
    destruct HR as (_ & _ & HN & _). cbn in HN. inversion HN; subst.
    split; [|split; [|congruence]].
    + cbn [map fst]. intros b [<-|Hb]; [|auto]. destruct HF2 as (_ & F2 & _). rewrite F2; auto.
    + destruct HF as (F1 & F2 & F3). destruct HF2 as (G1 & G2 & G3). split; [|split; [|lia]].
      * intros j Hj. rewrite G1, F1; auto.
      * intros b Hb Hb2. cbn in Hb. rewrite G2, F2; cbn; tauto.
Qed.
Lemma list_empty_spec (h : heap) lid l : R h lid l -> zlen l < 4294967296 ->
  exists h', list_empty h (Some lid) = Ok h' /\ R h' lid [] /\
    (forall a, In a (map fst l) -> h_nodes h' a = None) /\
    frame h h' lid l [] /\ h_fresh h' = h_fresh h.
Proof.
  intros HR Hlt. pose proof (R_len _ _ _ HR). unfold list_empty. cbn [assert_ negb is_null bind].
  apply empty_loop_spec; auto. unfold walk_fuel. lia.
Qed.

Lemma init_R (h : heap) lid : R (list_init h lid) lid [].
Proof.
  split; [unfold list_init; hlook; reflexivity|]. split; [exact I|]. split; [constructor|constructor].
Qed.
Lemma init_other (h : heap) lid j l : j <> lid -> R h j l -> R (list_init h lid) j l.
Proof.
  intros Hj HR. eapply R_frame; [| | |exact HR]; unfold list_init; hlook; auto.
Qed.

Lemma size_spec (h : heap) lid l : R h lid l -> list_size h (Some lid) = Ok (u32 (zlen l)).
Proof. intros (HL & _). hrun. reflexivity. Qed.
Lemma head_tail_spec (h : heap) lid l : R h lid l ->
  list_head h (Some lid) = Ok (first_ptr l None) /\ list_tail h (Some lid) = Ok (last_ptr None l).
Proof. intros (HL & _). hrun. split; reflexivity. Qed.

End Proofs2.
