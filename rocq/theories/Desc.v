(** Desc.v — descriptors are closed exactly once and none is lost. *)
From Verif Require Import Base CircBuf CircBufProofs Wire SeqList Pub SpecPub PubProofs Proto SpecProto ProtoProofs Safe
  Conn SpecConn ConnProofs PubCtx SpecPubCtx PubCtxProofs PubCtxSteps PropPubCtx SpecPubRecv PubRecv SpecPoll PollPub
  SubCtx SpecSubCtx SubSteps SubInv PollSub SpecDesc.

Lemma kernel_pre a b : kernel_ok (a ++ b) -> kernel_ok a.
Proof. intros H pre d post E. apply (H pre d (post ++ b)). rewrite E, <- app_assoc. reflexivity. Qed.
Lemma kernel_next a d b : kernel_ok (a ++ EvOpen d :: b) -> 0 <= d /\ ~ In d (opened a).
Proof. intros H. exact (H a d b eq_refl). Qed.
Lemma opened_nonneg l : kernel_ok l -> forall d, In d (opened l) -> 0 <= d.
Proof.
  induction l as [|e l IH] using rev_ind; [intros _ d []|]. intros K d. rewrite opened_app. cbn [fold_left].
  specialize (IH (kernel_pre _ _ K) d). destruct e as [d'|d'| | |]; cbn [open_ev]; try exact IH.
  - intros [<-|H]; [exact (proj1 (kernel_next l d' [] K))|exact (IH H)].
  - intros H. apply IH. apply in_remove in H. tauto.
Qed.
(** The descriptor in use at an index. *)
Definition sdesc (v : cvec) (i : Z) : option Z := match slot v i with Ok c => if c_mode c =? CLOSED then None else Some (c_desc c) | _ => None end.
Lemma sdesc_some v i d : sdesc v i = Some d <-> exists c, is_open v i c /\ c_desc c = d.
Proof.
  unfold sdesc. split.
  - destruct (slot v i) as [c| | |] eqn:E; try discriminate. destruct (Z.eqb_spec (c_mode c) CLOSED) as [|N]; [discriminate|]. intros H. injection H as <-. exists c. repeat split; assumption.
  - intros (c & [Hs Hm] & <-). rewrite Hs. apply Z.eqb_neq in Hm. rewrite Hm. reflexivity.
Qed.
Lemma sdesc_open v i c : is_open v i c -> sdesc v i = Some (c_desc c).
Proof. intros H. apply sdesc_some. eauto. Qed.
Record HI (ex : list Z) (f : Z -> option Z) (l : list cev) : Prop := mkHI {
  hi_set : forall d, In d (opened l) <-> In d ex \/ exists i, f i = Some d;
  hi_nd : NoDup ex;
  hi_dist : forall i j d, f i = Some d -> f j = Some d -> i = j;
  hi_sep : forall i d, f i = Some d -> ~ In d ex;
  hi_cl : closes_ok l
}.
Definition fdev (e : cev) : bool := match e with EvOpen _ | EvClose _ => true | _ => false end.
Lemma opened_quiet l e : forallb (fun e => negb (fdev e)) e = true -> opened (l ++ e) = opened l.
Proof.
  rewrite opened_app. generalize (opened l). induction e as [|a e IH]; intros o H; [reflexivity|]. cbn [forallb] in H. apply andb_prop in H. destruct H as [H1 H2]. cbn [fold_left]. rewrite IH by exact H2. destruct a; try reflexivity; discriminate.
Qed.
Lemma snoc_split {A} (l : list A) e pre x post : l ++ [e] = pre ++ x :: post -> (post = [] /\ l = pre /\ e = x) \/ exists post', post = post' ++ [e] /\ l = pre ++ x :: post'.
Proof.
  destruct post as [|y post _] using rev_ind.
  - intros E. apply app_inj_tail in E. tauto.
  - intros E. right. exists post. change (pre ++ x :: post ++ [y]) with (pre ++ (x :: post) ++ [y]) in E. rewrite app_assoc in E. apply app_inj_tail in E. destruct E as [-> ->]. auto.
Qed.
Lemma cl_snoc l e : closes_ok l -> match e with EvClose d => d = -1 \/ In d (opened l) | _ => True end -> closes_ok (l ++ [e]).
Proof. intros H He pre d post E. destruct (snoc_split _ _ _ _ _ E) as [(_ & -> & ->)|(q & _ & ->)]; [exact He|exact (H _ _ _ eq_refl)]. Qed.
Lemma cl_quiet e : forall l, closes_ok l -> forallb (fun e => negb (fdev e)) e = true -> closes_ok (l ++ e).
Proof.
  induction e as [|a e IH]; intros l H Q; [rewrite app_nil_r; exact H|]. cbn [forallb] in Q. apply andb_prop in Q. destruct Q as [Q1 Q2].
  change (a :: e) with ([a] ++ e). rewrite app_assoc. apply IH; [|exact Q2]. apply cl_snoc; [exact H|]. destruct a; try exact Logic.I. discriminate Q1.
Qed.
Lemma HI_same ex f f' l e : HI ex f l -> (forall i, f' i = f i) -> forallb (fun e => negb (fdev e)) e = true -> HI ex f' (l ++ e).
Proof.
  intros [H1 H2 H3 H4 H5] E Q. constructor; [|exact H2| | |exact (cl_quiet _ _ H5 Q)].
  - intros d. rewrite opened_quiet by exact Q. rewrite H1. split; intros [A|[i A]]; auto; right; exists i; [rewrite E|rewrite <- E]; exact A.
  - intros i j d. rewrite !E. apply H3.
  - intros i d. rewrite E. apply H4.
Qed.
Lemma HI_close ex f f' l i d e : HI ex f l -> f i = Some d -> f' i = None -> (forall j, j <> i -> f' j = f j) -> forallb (fun e => negb (fdev e)) e = true ->
  HI ex f' (l ++ EvClose d :: e).
Proof.
  intros [H1 H2 H3 H4 H5] Hi Hn E Q. change (EvClose d :: e) with ([EvClose d] ++ e). rewrite app_assoc. constructor; [|exact H2| | |apply cl_quiet; [|exact Q]; apply cl_snoc; [exact H5|]; right; apply H1; eauto].
  - intros k. rewrite opened_quiet by exact Q. rewrite opened_app. cbn [fold_left open_ev]. unfold rmz. split.
    + intros A. apply in_remove in A. destruct A as [A N]. apply H1 in A. destruct A as [A|[j A]]; [auto|]. right. exists j. rewrite E; [exact A|]. intros ->. congruence.
    + intros A. assert (B : In k (opened l) /\ k <> d).
      { destruct A as [A|[j A]]; [split; [apply H1; auto|]|].
        - intros ->. exact (H4 _ _ Hi A).
        - assert (N : j <> i) by (intros ->; congruence). rewrite E in A by exact N. split; [apply H1; eauto|]. intros ->. exact (N (H3 _ _ _ A Hi)). }
      apply in_in_remove; tauto.
  - intros j k x A B. assert (j <> i /\ k <> i) as [N1 N2] by (split; intros ->; congruence). rewrite E in A, B by assumption. eauto.
  - intros j x A. assert (j <> i) as N1 by (intros ->; congruence). rewrite E in A by assumption. eauto.
Qed.
Lemma HI_open ex f f' l i d e : kernel_ok (l ++ EvOpen d :: e) -> HI ex f l -> f i = None -> f' i = Some d -> (forall j, j <> i -> f' j = f j) -> forallb (fun e => negb (fdev e)) e = true ->
  HI ex f' (l ++ EvOpen d :: e).
Proof.
  intros K [H1 H2 H3 H4 H5] Hi Hn E Q. destruct (kernel_next _ _ _ K) as [_ F]. change (EvOpen d :: e) with ([EvOpen d] ++ e). rewrite app_assoc. constructor; [|exact H2| | |apply cl_quiet; [|exact Q]; apply cl_snoc; [exact H5|exact Logic.I]].
  - intros k. rewrite opened_quiet by exact Q. rewrite opened_app. cbn [fold_left open_ev]. split.
    + intros [<-|A]; [eauto|]. apply H1 in A. destruct A as [A|[j A]]; [auto|]. right. exists j. rewrite E; [exact A|]. intros ->. congruence.
    + intros [A|[j A]]; [right; apply H1; auto|]. destruct (Z.eq_dec j i) as [->|N]; [left; congruence|]. rewrite E in A by exact N. right. apply H1. eauto.
  - intros j k x A B. destruct (Z.eq_dec j i) as [->|N1], (Z.eq_dec k i) as [->|N2]; try reflexivity.
    + rewrite E in B by exact N2. exfalso. apply F. apply H1. right. exists k. congruence.
    + rewrite E in A by exact N1. exfalso. apply F. apply H1. right. exists j. congruence.
    + rewrite E in A, B by assumption. eauto.
  - intros j x A. destruct (Z.eq_dec j i) as [->|N1]; [|rewrite E in A by exact N1; eauto]. intros B. apply F. apply H1. left. congruence.
Qed.
Lemma HI_hold ex f l d e : kernel_ok (l ++ EvOpen d :: e) -> HI ex f l -> forallb (fun e => negb (fdev e)) e = true -> HI (d :: ex) f (l ++ EvOpen d :: e).
Proof.
  intros K [H1 H2 H3 H4 H5] Q. destruct (kernel_next _ _ _ K) as [_ F]. change (EvOpen d :: e) with ([EvOpen d] ++ e). rewrite app_assoc. constructor; [| | | |apply cl_quiet; [|exact Q]; apply cl_snoc; [exact H5|exact Logic.I]].
  - intros k. rewrite opened_quiet by exact Q. rewrite opened_app. cbn [fold_left open_ev In]. rewrite H1. tauto.
  - constructor; [|exact H2]. intros A. apply F. apply H1. auto.
  - exact H3.
  - intros i x A [<-|B]; [apply F; apply H1; eauto|exact (H4 _ _ A B)].
Qed.
Lemma HI_drop ex f l d e : HI (d :: ex) f l -> forallb (fun e => negb (fdev e)) e = true -> HI ex f (l ++ EvClose d :: e).
Proof.
  intros [H1 H2 H3 H4 H5] Q. inversion H2 as [|? ? N1 N2]; subst. change (EvClose d :: e) with ([EvClose d] ++ e). rewrite app_assoc. constructor; [|exact N2|exact H3| |apply cl_quiet; [|exact Q]; apply cl_snoc; [exact H5|]; right; apply H1; left; left; reflexivity].
  - intros k. rewrite opened_quiet by exact Q. rewrite opened_app. cbn [fold_left open_ev]. unfold rmz. split.
    + intros A. apply in_remove in A. destruct A as [A N]. apply H1 in A. cbn [In] in A. intuition congruence.
    + intros A. apply in_in_remove; [|apply H1; cbn [In]; tauto]. intros ->. destruct A as [A|[i A]]; [exact (N1 A)|exact (H4 _ _ A (or_introl eq_refl))].
  - intros i x A B. exact (H4 _ _ A (or_intror B)).
Qed.
(** Closing -1 does nothing. *)
Lemma HI_none ex f l e : kernel_ok l -> HI ex f l -> forallb (fun e => negb (fdev e)) e = true -> HI ex f (l ++ EvClose (-1) :: e).
Proof.
  intros K [H1 H2 H3 H4 H5] Q. change (EvClose (-1) :: e) with ([EvClose (-1)] ++ e). rewrite app_assoc. constructor; [|exact H2|exact H3|exact H4|apply cl_quiet; [|exact Q]; apply cl_snoc; [exact H5|left; reflexivity]].
  intros k. rewrite opened_quiet by exact Q. rewrite opened_app. cbn [fold_left open_ev]. unfold rmz. rewrite <- H1. split.
  - intros A. apply in_remove in A. tauto.
  - intros A. apply in_in_remove; [|exact A]. intros ->. pose proof (opened_nonneg l K _ A). lia.
Qed.
Lemma HI_unhold ex f l d e : kernel_ok l -> HI (sock_in d ++ ex) f l -> forallb (fun e => negb (fdev e)) e = true -> HI ex f (l ++ EvClose d :: e).
Proof. unfold sock_in. destruct (Z.eqb_spec d (-1)) as [->|]; cbn [app]; [apply HI_none|intros _; apply HI_drop]. Qed.
Lemma HI_nonneg ex f l i d : kernel_ok l -> HI ex f l -> f i = Some d -> 0 <= d.
Proof. intros K H E. apply (opened_nonneg l K). apply (hi_set _ _ _ H). eauto. Qed.
(** Sockets opened and closed again. *)
Lemma HI_temp ex f ds : forall l, kernel_ok (l ++ map EvOpen ds ++ map EvClose ds) -> HI ex f l -> HI ex f (l ++ map EvOpen ds ++ map EvClose ds).
Proof.
  intros l K H. assert (O : forall ds l, HI ex f (l) -> kernel_ok (l ++ map EvOpen ds) -> HI (rev ds ++ ex) f (l ++ map EvOpen ds)).
  { clear. intros ds. induction ds as [|d ds IH] using rev_ind; intros l H K; [cbn [map rev app]; rewrite app_nil_r; exact H|].
    rewrite map_app in *. cbn [map] in *. rewrite app_assoc in *. rewrite rev_app_distr. cbn [rev app].
    apply HI_hold; [exact K| |reflexivity]. apply IH; [exact H|]. exact (kernel_pre _ _ K). }
  pose proof K as K'. rewrite app_assoc in K'. specialize (O ds l H (kernel_pre _ _ K')). rewrite app_assoc.
  assert (C : forall ds ex l, (forall d, In d ds -> 0 <= d) -> NoDup ds -> (forall d, In d (opened l) <-> In d ds \/ In d ex \/ exists i, f i = Some d) -> (forall d, In d ds -> ~ In d ex /\ forall i, f i <> Some d) ->
     closes_ok l -> closes_ok (l ++ map EvClose ds) /\ forall d, In d (opened (l ++ map EvClose ds)) <-> In d ex \/ exists i, f i = Some d).
  { clear. intros ds. induction ds as [|a ds IH]; intros ex l P ND Hs Hd Cl; [cbn [map]; rewrite app_nil_r; split; [exact Cl|]; intros d; rewrite Hs; cbn [In]; tauto|].
    cbn [map]. change (EvClose a :: map EvClose ds) with ([EvClose a] ++ map EvClose ds). rewrite app_assoc. inversion ND as [|? ? N1 N2]; subst.
    apply IH; [intros; apply P; right; assumption|exact N2| |intros x Hx; apply Hd; right; exact Hx|apply cl_snoc; [exact Cl|]; right; apply Hs; left; left; reflexivity].
    intros x. rewrite opened_app. cbn [fold_left open_ev]. unfold rmz. split.
    - intros A. apply in_remove in A. destruct A as [A N]. apply Hs in A. cbn [In] in A. intuition congruence.
    - intros A. apply in_in_remove; [|apply Hs; cbn [In]; tauto]. intros ->. destruct (Hd a (or_introl eq_refl)) as [B1 B2]. destruct A as [A|[A|[i A]]]; [exact (N1 A)|exact (B1 A)|exact (B2 i A)]. }
  destruct H as [H1 H2 H3 H4 H5]. destruct O as [O1 O2 O3 O4 O5].
  assert (In_rev' : forall d, In d (rev ds ++ ex) <-> In d ds \/ In d ex) by (intros d; rewrite in_app_iff, <- in_rev; tauto).
  assert (G : closes_ok ((l ++ map EvOpen ds) ++ map EvClose ds) /\ forall d, In d (opened ((l ++ map EvOpen ds) ++ map EvClose ds)) <-> In d ex \/ exists i, f i = Some d);
    [|destruct G as [G1 G2]; constructor; assumption].
  apply C; [| | | |exact O5].
  - intros d Hd. apply (opened_nonneg _ (kernel_pre _ _ K')). apply O1. left. apply In_rev'. auto.
  - rewrite <- (rev_involutive ds). apply NoDup_rev. clear - O2. induction (rev ds) as [|a r IH]; [constructor|]. inversion O2 as [|? ? N1 N2]; subst. constructor; [|exact (IH N2)]. intros A. apply N1. apply in_or_app. auto.
  - intros d. rewrite O1, In_rev'. tauto.
  - intros d Hd. split.
    + intros A. clear - O2 Hd A. apply in_rev in Hd. revert Hd. induction (rev ds) as [|a r IH]; intros Hd; [destruct Hd|]. inversion O2 as [|? ? N1 N2]; subst. destruct Hd as [->|Hd]; [apply N1; apply in_or_app; auto|exact (IH N2 Hd)].
    + intros i A. apply (O4 i d A). apply In_rev'. auto.
Qed.

(** ** One call on the connection table *)
Definition DT (ex : list Z) (v : cvec) (evs : list cev) (ex' : list Z) (v' : cvec) : Prop :=
  forall l, kernel_ok (l ++ evs) -> HI ex (sdesc v) l -> HI ex' (sdesc v') (l ++ evs).
Definition quiet (evs : list cev) : Prop := forallb (fun e => negb (fdev e)) evs = true.
Lemma quiet_app a b : quiet a -> quiet b -> quiet (a ++ b).
Proof. unfold quiet. rewrite forallb_app. intros -> ->. reflexivity. Qed.
Lemma DT_trans ex v e1 ex1 v1 e2 ex2 v2 : DT ex v e1 ex1 v1 -> DT ex1 v1 e2 ex2 v2 -> DT ex v (e1 ++ e2) ex2 v2.
Proof. intros H1 H2 l K H. rewrite app_assoc in *. apply H2; [exact K|]. apply H1; [exact (kernel_pre _ _ K)|exact H]. Qed.
Lemma DT_same ex v evs v' : (forall i, sdesc v' i = sdesc v i) -> quiet evs -> DT ex v evs ex v'.
Proof. intros E Q l _ H. apply (HI_same ex (sdesc v)); assumption. Qed.
Lemma sdesc_put v i c c' j : slot v i = Ok c -> (c_mode c' =? CLOSED) = (c_mode c =? CLOSED) -> (c_mode c <> CLOSED -> c_desc c' = c_desc c) -> sdesc (put_slot v i c') j = sdesc v j.
Proof.
  intros Hs Hm Hd. pose proof (slot_range _ _ _ Hs) as R. unfold sdesc. destruct (Z.eq_dec j i) as [->|N].
  - rewrite slot_put_same by exact R. rewrite Hs, Hm. destruct (Z.eqb_spec (c_mode c) CLOSED); [reflexivity|]. rewrite Hd by assumption. reflexivity.
  - rewrite slot_put_other by (lia || exact N). reflexivity.
Qed.
Lemma sdesc_ext v v' j : slot v' j = slot v j -> sdesc v' j = sdesc v j.
Proof. unfold sdesc. intros ->. reflexivity. Qed.
Lemma close_DT ex v i code v' evs : 0 <= i -> close_conn v i = Ok (code, v', evs) -> DT ex v evs ex v'.
Proof.
  intros Hi E. destruct (close_cases v i Hi) as [[_ Ec]|[(c & _ & _ & Ec)|(c & Ho & Ec)]]; rewrite Ec in E; injection E as _ <- <-; [apply DT_same; reflexivity|apply DT_same; reflexivity|].
  pose proof (slot_range _ _ _ (proj1 Ho)) as R. intros l K H. change [EvRem (c_desc c) i; EvClose (c_desc c)] with ([EvRem (c_desc c) i] ++ [EvClose (c_desc c)]). rewrite app_assoc.
  apply (HI_close ex (sdesc v) _ _ i (c_desc c) []); [apply (HI_same ex (sdesc v)); [exact H|reflexivity|reflexivity]|exact (sdesc_open _ _ _ Ho)| | |reflexivity].
  - unfold sdesc. rewrite slot_set_active. replace (slot _ i) with (Ok (reset_conn c)) by (destruct (i =? v_max v); rewrite ?slot_reset_max, slot_put_same by exact R; reflexivity). reflexivity.
  - intros j N. apply sdesc_ext. rewrite slot_set_active. destruct (i =? v_max v); rewrite ?slot_reset_max; apply slot_put_other; lia || exact N.
Qed.
(** A free slot has no descriptor. *)
Lemma free_none ex v l i c : kernel_ok l -> HI ex (sdesc v) l -> slot v i = Ok c -> c_desc c = -1 -> sdesc v i = None.
Proof.
  intros K H Hs Hd. destruct (sdesc v i) as [d|] eqn:E; [|reflexivity]. exfalso. pose proof (HI_nonneg _ _ _ _ _ K H E) as N. unfold sdesc in E. rewrite Hs in E. destruct (_ =? _); [discriminate|]. injection E as <-. lia.
Qed.
Lemma open_DT ex v i c v' d evs : slot v i = Ok c -> c_desc c = -1 -> sdesc v' i = Some d -> (forall j, j <> i -> sdesc v' j = sdesc v j) -> quiet evs -> DT ex v (EvOpen d :: evs) ex v'.
Proof.
  intros Hs Hd E1 E2 Q l K H. apply (HI_open ex (sdesc v) _ l i d evs K H); [|exact E1|exact E2|exact Q]. exact (free_none ex v l i c (kernel_pre _ _ K) H Hs Hd).
Qed.
Lemma free_DT ex v i c v' evs : slot v i = Ok c -> c_desc c = -1 -> sdesc v' i = None \/ (exists c', slot v' i = Ok c' /\ c_mode c' = c_mode c /\ c_desc c' = -1) -> (forall j, j <> i -> sdesc v' j = sdesc v j) -> DT ex v evs ex v -> DT ex v evs ex v'.
Proof.
  intros Hs Hd E1 E2 Q l K H. specialize (Q l K H). pose proof (free_none ex v _ i c K Q Hs Hd) as N.
  rewrite <- (app_nil_r (l ++ evs)). apply (HI_same ex (sdesc v)); [exact Q| |reflexivity]. intros j. destruct (Z.eq_dec j i) as [->|Nj]; [|exact (E2 j Nj)].
  rewrite N. destruct E1 as [E1|(c' & E1 & E3 & E4)]; [exact E1|]. unfold sdesc in *. rewrite Hs in N. rewrite E1, E3. destruct (_ =? _); [reflexivity|discriminate N].
Qed.
Lemma temp_DT ex v d : DT ex v [EvOpen d; EvClose d] ex v.
Proof. intros l K H. exact (HI_temp ex _ [d] l K H). Qed.
Lemma accept_DT ex listen v o code ri v' evs : v_size v <= RMC_NIL_INDEX -> match o with AccOk _ _ nd => nd = 0 | _ => True end -> process_accept listen v o = Ok (code, ri, v', evs) -> DT ex v evs ex v'.
Proof.
  intros Sz Hn E. destruct (accept_cases listen v o Sz) as [[_ Ec]|(i & c & _ & Hs & Hd & Ec)]; [rewrite Ec in E; injection E as _ _ <- <-; apply DT_same; reflexivity|].
  pose proof (slot_range _ _ _ Hs) as R.
  destruct o as [e|d addr nd].
  - rewrite Ec in E. injection E as _ _ <- <-. apply (free_DT ex v i c); [exact Hs|exact Hd| | |apply DT_same; reflexivity].
    + right. exists (set_desc c (-1)). split; [|auto]. apply slot_put_same. rewrite bumped_size. exact R.
    + intros j N. apply sdesc_ext. rewrite slot_put_other by (lia || exact N). apply bumped_slot.
  - destruct Ec as [[_ Ec]|[Q _]]; [|contradiction]. rewrite Ec in E. injection E as _ _ <- <-. apply (open_DT ex v i c); [exact Hs|exact Hd| | |reflexivity].
    + unfold sdesc. rewrite slot_set_active, slot_put_same by (rewrite bumped_size; exact R). reflexivity.
    + intros j N. apply sdesc_ext. rewrite slot_set_active, slot_put_other by (lia || exact N). apply bumped_slot.
Qed.
Lemma connect_DT ex v addr port node o code ri v' evs : v_size v <= RMC_NIL_INDEX -> connect_tcp v addr port node o = Ok (code, ri, v', evs) -> DT ex v evs ex v'.
Proof.
  intros Sz E. destruct (connect_cases v addr port node o Sz) as [[_ Ec]|(i & c & _ & Hs & Hd & Ec)]; [rewrite Ec in E; injection E as _ _ <- <-; apply DT_same; reflexivity|].
  pose proof (slot_range _ _ _ Hs) as R.
  destruct o as [e|d ok errno].
  - rewrite Ec in E. injection E as _ _ <- <-. apply (free_DT ex v i c); [exact Hs|exact Hd| | |apply DT_same; reflexivity].
    + right. exists (set_desc c (-1)). split; [|auto]. apply slot_put_same. rewrite bumped_size. exact R.
    + intros j N. apply sdesc_ext. rewrite slot_put_other by (lia || exact N). apply bumped_slot.
  - destruct Ec as [(_ & _ & Ec)|[_ Ec]]; rewrite Ec in E; injection E as _ _ <- <-.
    + apply (free_DT ex v i c); [exact Hs|exact Hd| | |apply temp_DT].
      * right. eexists. split; [rewrite slot_reset_max; apply slot_put_same; rewrite bumped_size; exact R|]. auto.
      * intros j N. apply sdesc_ext. rewrite slot_reset_max, slot_put_other by (lia || exact N). apply bumped_slot.
    + apply (open_DT ex v i c); [exact Hs|exact Hd| | |reflexivity].
      * unfold sdesc. rewrite slot_set_active, slot_put_same by (rewrite bumped_size; exact R). reflexivity.
      * intros j N. apply sdesc_ext. rewrite slot_set_active, slot_put_other by (lia || exact N). apply bumped_slot.
Qed.
Lemma complete_DT ex v i o code v' evs : 0 <= i -> (forall c, slot v i = Ok c -> c_mode c <> CLOSED) -> complete_conn v i o = Ok (code, v', evs) -> DT ex v evs ex v'.
Proof.
  intros Hi Hm. unfold complete_conn. destruct (slot v i) as [c| | |] eqn:Hs; cbn [bind]; [|discriminate..].
  assert (Pre : forall e1 v1, DT ex v e1 ex v1 -> DT ex v (EvRem (c_desc c) i :: e1) ex v1) by (intros e1 v1 H; apply (DT_trans ex v [EvRem (c_desc c) i] ex v e1); [apply DT_same; reflexivity|exact H]).
  destruct o as [e|so nd].
  - destruct (close_conn v i) as [[[cd v1] e1]| | |] eqn:E1; cbn [bind]; [|discriminate..]. intros E. injection E as _ <- <-. exact (close_DT _ _ _ _ _ _ Hi E1).
  - destruct (negb (so =? 0)); [|destruct (negb (nd =? 0))].
    + destruct (close_conn v i) as [[[cd v1] e1]| | |] eqn:E1; cbn [bind]; [|discriminate..]. intros E. injection E as _ <- <-. apply Pre. exact (close_DT _ _ _ _ _ _ Hi E1).
    + destruct (close_conn v i) as [[[cd v1] e1]| | |] eqn:E1; cbn [bind]; [|discriminate..]. intros E. injection E as _ <- <-. apply Pre. exact (close_DT _ _ _ _ _ _ Hi E1).
    + intros E. injection E as _ <- <-. apply DT_same; [|reflexivity]. intros j. apply (sdesc_put v i c); [exact Hs| |reflexivity]. specialize (Hm c eq_refl). apply Z.eqb_neq in Hm. rewrite Hm. reflexivity.
Qed.

(** ** The publisher *)
Definition exs (x : pctx) : list Z := sock_in (x_mcast x) ++ sock_in (x_listen x).
Definition PD (x x' : pctx) (evs : list pev) : Prop := DT (exs x) (x_vec x) (pub_polls evs) (exs x') (x_vec x').
Lemma PD_trans x y z e1 e2 : PD x y e1 -> PD y z e2 -> PD x z (e1 ++ e2).
Proof. unfold PD. rewrite polls_app. apply DT_trans. Qed.
(** Calls that leave all descriptors alone. *)
Definition KP (x x' : pctx) (evs : list pev) : Prop :=
  (forall i, sdesc (x_vec x') i = sdesc (x_vec x) i) /\ x_mcast x' = x_mcast x /\ x_listen x' = x_listen x /\ quiet (pub_polls evs) /\ v_size (x_vec x') = v_size (x_vec x).
Lemma KP_refl x : KP x x [].
Proof. repeat split. Qed.
Lemma KP_trans x y z e1 e2 : KP x y e1 -> KP y z e2 -> KP x z (e1 ++ e2).
Proof.
  intros (A1 & A2 & A3 & A4 & A5) (B1 & B2 & B3 & B4 & B5). split; [intros i; rewrite B1; apply A1|]. split; [congruence|]. split; [congruence|]. split; [rewrite polls_app; apply quiet_app; assumption|congruence].
Qed.
Lemma KP_PD x x' evs : KP x x' evs -> PD x x' evs.
Proof. intros (A & B & C & D & _). unfold PD, exs. rewrite B, C. apply DT_same; assumption. Qed.
Lemma KP_free x x' evs : x_vec x' = x_vec x -> x_mcast x' = x_mcast x -> x_listen x' = x_listen x -> Forall is_free_ev evs -> KP x x' evs.
Proof. intros A B C D. split; [intros i; rewrite A; reflexivity|]. split; [exact B|]. split; [exact C|]. rewrite (polls_free _ D), A. split; reflexivity. Qed.
Lemma packet_ack_KP x i k x' evs : rmc_pub_packet_ack x i k = Ok (x', evs) -> KP x x' evs.
Proof.
  intros E. destruct (ack_frame _ _ _ _ _ E) as [V F]. assert (S : x_mcast x' = x_mcast x /\ x_listen x' = x_listen x).
  { revert E. unfold rmc_pub_packet_ack. destruct (pub_packet_ack _ _ _) as [[s fr]| | |]; cbn [bind fst snd]; [|discriminate..]. destruct (release_all (x_mem x) fr) as [[m e]| | |]; cbn [bind fst snd]; [|discriminate..].
    intros E. match goal with E : Ok (?y, _) = _ |- _ => assert (x' = y) as -> by congruence end. destruct (_ && _); split; reflexivity. }
  apply KP_free; tauto.
Qed.
Lemma rounds_KP i : forall n x k x' evs, ack_rounds n x i k = Ok (x', evs) -> KP x x' evs.
Proof.
  induction n as [|n IH]; intros x k x' evs E; cbn [ack_rounds] in E; [assert (x' = x /\ evs = []) as [-> ->] by (split; congruence); apply KP_refl|].
  destruct (rmc_pub_packet_ack x i k) as [[x1 e1]| | |] eqn:E1; cbn [bind fst snd] in E; [|discriminate E..].
  destruct (ack_rounds n x1 i (k + 1)) as [[x2 e2]| | |] eqn:E2; cbn [bind fst snd] in E; [|discriminate E..].
  assert (x' = x2 /\ evs = e1 ++ e2) as [-> ->] by (split; congruence). exact (KP_trans _ _ _ _ _ (packet_ack_KP _ _ _ _ _ E1) (IH _ _ _ _ E2)).
Qed.
Lemma KP_put x i c c' evs : slot (x_vec x) i = Ok c -> c_mode c' = c_mode c -> c_desc c' = c_desc c -> quiet (pub_polls evs) -> KP x (set_vec x (put_slot (x_vec x) i c')) evs.
Proof. intros Hs Hm Hd Q. split; [|repeat match goal with |- _ /\ _ => split end; auto; apply size_put]. intros j. apply (sdesc_put _ i c); [exact Hs|rewrite Hm; reflexivity|intros _; exact Hd]. Qed.
Lemma resend_KP x i a code x' evs : rmc_pub_resend_packet x i a = Ok (code, x', evs) -> KP x x' evs.
Proof.
  unfold rmc_pub_resend_packet. destruct (slot (x_vec x) i) as [c| | |] eqn:Hs; cbn [bind]; [|discriminate..]. destruct (get_pack _ _) as [p| | |]; cbn [bind]; [|discriminate..].
  match goal with |- context [bind ?h _] => destruct h as [w| | |] end; cbn [bind]; [|discriminate..].
  destruct (_ =? 0); intros E; injection E as _ <- <-; apply (KP_put x i c); auto; reflexivity.
Qed.
Lemma sent_timeout_KP x i a code x' evs : process_sent_packet_timeout x i a = Ok (code, x', evs) -> KP x x' evs.
Proof.
  unfold process_sent_packet_timeout. destruct (slot (x_vec x) i) as [c| | |] eqn:Hs; cbn [bind]; [|discriminate..]. destruct (get_pack _ _) as [p| | |]; cbn [bind]; [|discriminate..].
  destruct (negb _).
  - destruct (rmc_pub_packet_ack x i _) as [[x1 e1]| | |] eqn:E1; cbn [bind fst snd]; [|discriminate..]. intros E. assert (x' = x1 /\ evs = e1) as [-> ->] by (split; congruence). exact (packet_ack_KP _ _ _ _ _ E1).
  - destruct (rmc_pub_resend_packet x i a) as [[[cd x1] e1]| | |] eqn:E1; cbn [bind]; [|discriminate..]. pose proof (resend_KP _ _ _ _ _ _ E1) as K1. destruct (cd =? 0).
    + destruct (rmc_pub_packet_ack x1 i _) as [[x2 e2]| | |] eqn:E2; cbn [bind fst snd]; [|discriminate..]. intros E. assert (x' = x2 /\ evs = e1 ++ e2) as [-> ->] by (split; congruence). exact (KP_trans _ _ _ _ _ K1 (packet_ack_KP _ _ _ _ _ E2)).
    + intros E. assert (x' = x1 /\ evs = e1) as [-> ->] by (split; congruence). exact K1.
Qed.
Lemma resend_loop_KP i : forall packs x code x' evs, resend_loop x i packs = Ok (code, x', evs) -> KP x x' evs.
Proof.
  induction packs as [|a packs IH]; intros x code x' evs; cbn [resend_loop]; [intros E; injection E as _ <- <-; apply KP_refl|].
  destruct (process_sent_packet_timeout x i a) as [[[cd x1] e1]| | |] eqn:E1; cbn [bind]; [|discriminate..]. pose proof (sent_timeout_KP _ _ _ _ _ _ E1) as K1.
  destruct (negb _); [intros E; injection E as _ <- <-; exact K1|]. destruct (resend_loop x1 i packs) as [[[cd2 x2] e2]| | |] eqn:E2; cbn [bind]; [|discriminate..].
  intros E. injection E as _ <- <-. exact (KP_trans _ _ _ _ _ K1 (IH _ _ _ _ E2)).
Qed.
Lemma subs_loop_KP now : forall subs x code x' evs, subs_loop x now subs = Ok (code, x', evs) -> KP x x' evs.
Proof.
  induction subs as [|a subs IH]; intros x code x' evs; cbn [subs_loop]; [intros E; injection E as _ <- <-; apply KP_refl|].
  unfold process_subscriber_timeout. destruct (pub_get_timed_out_packets _ _ _ _) as [packs| | |]; cbn [bind]; [|discriminate..].
  destruct (resend_loop x (Z.of_nat a) packs) as [[[cd x1] e1]| | |] eqn:E1; cbn [bind]; [|discriminate..]. pose proof (resend_loop_KP _ _ _ _ _ _ E1) as K1.
  destruct (negb _); [intros E; injection E as _ <- <-; exact K1|]. destruct (subs_loop x1 now subs) as [[[cd2 x2] e2]| | |] eqn:E2; cbn [bind]; [|discriminate..].
  intros E. injection E as _ <- <-. exact (KP_trans _ _ _ _ _ K1 (IH _ _ _ _ E2)).
Qed.
Lemma queue_KP x p l a code x' evs : rmc_pub_queue_packet x p l a = Ok (code, x', evs) -> KP x x' evs.
Proof.
  unfold rmc_pub_queue_packet. destruct (_ =? _); [intros E; injection E as _ <- <-; apply KP_refl|]. destruct (_ <? _); [intros E; injection E as _ <- <-; apply KP_refl|].
  destruct (x_susp x); [intros E; injection E as _ <- <-; apply KP_refl|]. match goal with |- context [bind ?h _] => destruct h as [w| | |] end; cbn [bind]; [|discriminate..].
  cbv zeta. intros E. injection E as _ <- <-. destruct (_ && _); repeat split.
Qed.
Lemma send_KP x a o code x' evs : send_single_multicast_packet x a o = Ok (code, x', evs) -> KP x x' evs.
Proof.
  unfold send_single_multicast_packet. destruct (_ =? _); [intros E; injection E as _ <- <-; apply KP_refl|]. destruct (get_pack _ _) as [p| | |]; cbn [bind]; [|discriminate..].
  destruct (_ <? _); [intros E; injection E as _ <- <-; apply KP_refl|]. destruct (load _ _ _) as [bs| | |]; cbn [bind]; [|discriminate..]. destruct o as [e|ts].
  - destruct (_ =? _); intros E; injection E as _ <- <-; repeat split.
  - destruct (pub_packet_sent _ _ _) as [s| | |]; cbn [bind]; [|discriminate..]. intros E. injection E as _ <- <-. repeat split.
Qed.
Lemma mcast_KP : forall outs x code x' evs, process_multicast_write x outs = Ok (code, x', evs) -> KP x x' evs.
Proof.
  induction outs as [|o outs IH]; intros x code x' evs; cbn [process_multicast_write]; (destruct (pub_next_queued (x_pub x)) as [a|]; [|intros E; injection E as _ <- <-; apply KP_refl]).
  - apply send_KP.
  - destruct (send_single_multicast_packet x a o) as [[[cd x1] e1]| | |] eqn:E1; cbn [bind]; [|discriminate..]. pose proof (send_KP _ _ _ _ _ _ E1) as K1.
    destruct (negb _); [intros E; injection E as _ <- <-; exact K1|]. destruct (process_multicast_write x1 outs) as [[[cd2 x2] e2]| | |] eqn:E2; cbn [bind]; [|discriminate..].
    intros E. injection E as _ <- <-. exact (KP_trans _ _ _ _ _ K1 (IH _ _ _ _ E2)).
Qed.
Lemma timeout_KP x now buf o code x' evs : rmc_pub_timeout_process x now buf o = Ok (code, x', evs) -> KP x x' evs.
Proof.
  unfold rmc_pub_timeout_process. destruct (announce_due x now).
  - destruct (match o with AnnNone => _ | AnnNo => _ | AnnYes bs len => _ end) as [[bs len] send].
    match goal with |- context [bind ?h _] => destruct h as [[[cd x2] e2]| | |] eqn:E2 end; cbn [bind]; [|discriminate..].
    assert (K : KP x x2 e2). { destruct send; [exact (queue_KP _ _ _ _ _ _ _ E2)|]. injection E2 as _ <- <-. repeat split. }
    intros E. injection E as _ <- <-. exact K.
  - destruct (pub_get_timed_out_subscribers _ _ _) as [subs| | |]; cbn [bind]; [|discriminate..]. apply subs_loop_KP.
Qed.
Lemma pclose_PD x i code x' evs : 0 <= i -> rmc_pub_close_connection x i = Ok (code, x', evs) -> PD x x' evs /\ x_mcast x' = x_mcast x /\ x_listen x' = x_listen x.
Proof.
  intros Hi. unfold rmc_pub_close_connection. destruct (find_by_index _ _) as [[c|]| | |]; cbn [bind]; [| |discriminate..]; [|intros E; injection E as _ <- <-; split; [apply KP_PD, KP_refl|auto]].
  destruct (close_conn (x_vec x) i) as [[[cd v] ce]| | |] eqn:Ec; cbn [bind]; [|discriminate..]. destruct (pub_reset_subscriber _ _) as [[s fr]| | |]; cbn [bind fst snd]; [|discriminate..].
  destruct (release_all _ _) as [[m e]| | |] eqn:Er; cbn [bind fst snd]; [|discriminate..]. intros E. injection E as _ <- <-. split; [|auto].
  unfold PD, exs. change (PvLeave (c_addr c) (c_port c) :: map PvConn ce ++ e) with ([PvLeave (c_addr c) (c_port c)] ++ map PvConn ce ++ e). rewrite !polls_app, polls_conn, (polls_free e (release_free _ _ _ _ Er)), app_nil_r.
  exact (close_DT _ _ _ _ _ _ Hi Ec).
Qed.
Lemma close_loop_PD : forall n x ind x' evs, 0 <= ind -> close_loop n x ind = Ok (x', evs) -> PD x x' evs /\ x_mcast x' = x_mcast x /\ x_listen x' = x_listen x.
Proof.
  induction n as [|n IH]; intros x ind x' evs Hi; cbn [close_loop]; [intros E; injection E as <- <-; split; [apply KP_PD, KP_refl|auto]|].
  destruct (find_by_index _ _) as [[c|]| | |]; cbn [bind]; [| |discriminate..]; [|apply IH; lia].
  destruct (rmc_pub_close_connection x ind) as [[[cd x1] e1]| | |] eqn:E1; cbn [bind]; [|discriminate..]. destruct (close_loop n x1 (ind + 1)) as [[x2 e2]| | |] eqn:E2; cbn [bind fst snd]; [|discriminate..].
  intros E. injection E as <- <-. destruct (pclose_PD _ _ _ _ _ Hi E1) as (A1 & A2 & A3). destruct (IH x1 (ind + 1) x2 e2 ltac:(lia) E2) as (B1 & B2 & B3). split; [exact (PD_trans _ _ _ _ _ A1 B1)|]. split; congruence.
Qed.
Lemma pdeactivate_PD x code x' evs : rmc_pub_deactivate_context x = Ok (code, x', evs) -> PD x x' evs.
Proof.
  unfold rmc_pub_deactivate_context. match goal with |- context [bind ?h _] => destruct h as [[x2 e2]| | |] eqn:E2 end; cbn [bind fst snd]; [|discriminate..].
  assert (P : PD x x2 e2 /\ x_mcast x2 = x_mcast x /\ x_listen x2 = x_listen x).
  { destruct (_ =? _); [injection E2 as <- <-; split; [apply KP_PD, KP_refl|auto]|exact (close_loop_PD _ _ 0 _ _ ltac:(lia) E2)]. }
  destruct P as (P1 & P2 & P3). intros E. injection E as _ <- <-.
  apply (PD_trans x x _ [PvConn (EvRem (x_mcast x) RMC_MULTICAST_INDEX); PvConn (EvRem (x_listen x) RMC_LISTEN_INDEX)]); [apply KP_PD; repeat split|]. apply (PD_trans x x2 _ _ _ P1).
  unfold PD, exs. rewrite P2, P3. cbn [set_descs x_mcast x_listen x_vec pub_polls flat_map app]. change (sock_in (-1) ++ sock_in (-1)) with (@nil Z).
  change [EvClose (x_mcast x); EvClose (x_listen x)] with ([EvClose (x_mcast x)] ++ [EvClose (x_listen x)]).
  apply (DT_trans _ _ _ (sock_in (x_listen x)) (x_vec x2)); intros l K H.
  - apply HI_unhold; [exact (kernel_pre _ _ K)|exact H|reflexivity].
  - apply HI_unhold; [exact (kernel_pre _ _ K)| |reflexivity]. rewrite app_nil_r. exact H.
Qed.

Lemma pub_dispatch_ok {St} (ea : St -> Z * Z -> res St) cb (ec : St -> option (list Z) -> res St) (P : St -> Prop) :
  (forall st iv st', P st -> ea st iv = Ok st' -> P st') -> (forall st p st', P st -> ec st p = Ok st' -> P st') ->
  forall cmd h st rb code st' rb', pub_dispatch ea cb ec cmd = Some h -> P st -> h st rb = Ok (code, st', rb') -> P st'.
Proof.
  intros Ha Hc cmd h st rb code st' rb' E HP. unfold pub_dispatch in E. destruct (cmd =? _); [|destruct (cmd =? _); [|discriminate]]; injection E as <-.
  - destruct (parse_ack rb) as [[e|[a rb1]]| | |]; cbn [bind]; [| |discriminate..]; [intros E; injection E as _ <- _; exact HP|].
    destruct (ea st a) as [s1| | |] eqn:Ee; cbn [bind]; [|discriminate..]. intros E. injection E as _ <- _. exact (Ha _ _ _ HP Ee).
  - destruct (parse_ctrl cb rb) as [[e|[a rb1]]| | |]; cbn [bind]; [| |discriminate..]; [intros E; injection E as _ <- _; exact HP|].
    destruct (ec st a) as [s1| | |] eqn:Ee; cbn [bind]; [|discriminate..]. intros E. injection E as _ <- _. exact (Hc _ _ _ HP Ee).
Qed.
Lemma eff_ack_KP x i st iv st' : KP x (fst st) (snd st) /\ x_vec (fst st) = x_vec x -> eff_ack i st iv = Ok st' -> KP x (fst st') (snd st') /\ x_vec (fst st') = x_vec x.
Proof.
  intros [H V]. unfold eff_ack, ack_interval. destruct (_ && _); [discriminate|]. destruct (ack_rounds _ _ _ _) as [[x1 e1]| | |] eqn:E1; cbn [bind fst snd]; [|discriminate..]. intros E. injection E as <-. cbn [fst snd].
  split; [|rewrite <- V; exact (proj1 (rounds_frame _ _ _ _ _ _ E1))]. apply (KP_trans _ (fst st) _ _ _ H).
  apply (KP_trans _ (fst st) _ [_]); [repeat split|exact (rounds_KP _ _ _ _ _ _ E1)].
Qed.
Lemma eff_ctrl_KP x i st p st' : KP x (fst st) (snd st) /\ x_vec (fst st) = x_vec x -> eff_ctrl i st p = Ok st' -> KP x (fst st') (snd st') /\ x_vec (fst st') = x_vec x.
Proof.
  intros [H V]. unfold eff_ctrl. destruct (x_ccb _); [discriminate|intros E; injection E as <-; auto|]. destruct (slot _ _) as [c| | |]; cbn [bind]; [|discriminate..]. intros E. injection E as <-. cbn [fst snd].
  split; [|exact V]. apply (KP_trans _ (fst st) _ _ _ H). repeat split.
Qed.
Lemma pread_tcp_PD x i t code op x' evs : 0 <= i -> rmc_pub_read x i (RdTcp t) = Ok (code, op, x', evs) -> PD x x' evs.
Proof.
  intros Hi. cbn [rmc_pub_read]. destruct (find_index_cases (x_vec x) i Hi) as [[-> _]|(c & -> & Ho)]; cbn [bind]; [intros E; injection E as _ _ <- <-; apply KP_PD, KP_refl|].
  destruct (negb (c_mode c =? CONNECTED)); [intros E; injection E as _ _ <- <-; apply KP_PD, KP_refl|].
  destruct (tcp_read _ _ (c_rbuf c) t) as [r| | |] eqn:Er; cbn [bind]; [|discriminate..].
  pose proof (tcp_read_ok (pub_dispatch (eff_ack i) (ccb_set x) (eff_ctrl i)) (fun st => KP x (fst st) (snd st) /\ x_vec (fst st) = x_vec x)
    (pub_dispatch_ok _ _ _ _ (fun st iv st' => eff_ack_KP x i st iv st') (fun st p st' => eff_ctrl_KP x i st p st')) (x, []) (c_rbuf c) t r (conj (KP_refl x) eq_refl) Er) as [K V].
  destruct (r_st r) as [x1 e1]. cbn [fst snd] in *. assert (Hs1 : slot (x_vec x1) i = Ok c) by (rewrite V; apply Ho).
  destruct (r_code r =? EPIPE).
  - destruct (rmc_pub_close_connection _ i) as [[[cd x2] e2]| | |] eqn:E2; cbn [bind]; [|discriminate..]. intros E. injection E as _ _ <- <-.
    apply (PD_trans x x1); [apply KP_PD; exact K|]. apply (PD_trans x1 (set_vec x1 (put_slot (x_vec x1) i (set_rbuf c (r_buf r)))) _ [] e2); [|exact (proj1 (pclose_PD _ _ _ _ _ Hi E2))].
    apply KP_PD. apply (KP_put x1 i c); auto; reflexivity.
  - intros E. injection E as _ _ <- <-. apply (PD_trans x x1); [apply KP_PD; exact K|]. apply KP_PD. apply (KP_put x1 i c); auto; reflexivity.
Qed.
Lemma paccept_PD x i a cb code op x' evs : v_size (x_vec x) <= RMC_NIL_INDEX -> match a with AccOk _ _ nd => nd = 0 | _ => True end ->
  rmc_pub_read x i (RdAccept a cb) = Ok (code, op, x', evs) -> PD x x' evs.
Proof.
  intros Hz Hn. cbn [rmc_pub_read]. destruct (process_accept (x_listen x) (x_vec x) a) as [[[[cd ri] v] ce]| | |] eqn:E1; cbn [bind]; [|discriminate..].
  pose proof (accept_DT (exs x) _ _ _ _ _ _ _ Hz Hn E1) as D. assert (P : forall y, x_vec y = v -> x_mcast y = x_mcast x -> x_listen y = x_listen x -> PD x y (map PvConn ce)).
  { intros y A B C. unfold PD, exs. rewrite A, B, C, polls_conn. exact D. }
  destruct (negb _); [intros E; injection E as _ _ <- <-; apply P; reflexivity|]. destruct ri as [j|]; [|discriminate].
  assert (Hj : 0 <= j) by (destruct (accept_cases (x_listen x) (x_vec x) a Hz) as [[_ Q]|(k & c & _ & Hs & _ & Q)]; [congruence|]; pose proof (slot_range _ _ _ Hs); destruct a as [e|d ad nd]; [congruence|]; subst nd; destruct Q as [[_ Q]|[Q _]]; [rewrite Q in E1; injection E1; intros; subst; lia|congruence]).
  destruct (find_by_index v j) as [[c|]| | |]; cbn [bind]; [|discriminate..]. set (X1 := set_pub (set_vec x v) _). destruct cb as [[|]|].
  - intros E. injection E as _ _ <- <-. apply (PD_trans x _ _ (map PvConn ce) _ (P X1 eq_refl eq_refl eq_refl)). apply KP_PD. repeat split.
  - destruct (rmc_pub_close_connection _ j) as [[[cd2 x2] e2]| | |] eqn:E2; cbn [bind]; [|discriminate..]. intros E. injection E as _ _ <- <-.
    apply (PD_trans x _ _ (map PvConn ce) _ (P X1 eq_refl eq_refl eq_refl)). refine (PD_trans _ _ _ [_] e2 _ (proj1 (pclose_PD _ _ _ _ _ Hj E2))). apply KP_PD. repeat split.
  - intros E. injection E as _ _ <- <-. apply P; reflexivity.
Qed.
Lemma pstep_PD x g log o code x' evs : XInv false x g log -> xok x g o -> activated_once x o -> xstep x o = Ok (code, x', evs) -> PD x x' evs.
Proof.
  intros XV Hok Ha E. pose proof (ctx_size _ _ _ XV) as Hz.
  destruct o as [ptr bs|ptr|ptr len ann|i [a cb|err|t]|i [outs|w]|now buf o|i|interval now|s r|bb|o|]; cbn [xstep] in E.
  - injection E as _ <- <-. apply KP_PD. repeat split.
  - injection E as _ <- <-. apply KP_PD. repeat split.
  - apply KP_PD. exact (queue_KP _ _ _ _ _ _ _ E).
  - destruct (rmc_pub_read x i (RdAccept a cb)) as [[[[cd op] x1] e1]| | |] eqn:Ed; cbn [bind] in E; [|discriminate E..]. injection E as _ <- <-.
    refine (paccept_PD _ _ _ _ _ _ _ _ _ _ Ed); [unfold RMC_NIL_INDEX, RMC_LISTEN_INDEX in *; lia|]. destruct a; [exact Logic.I|cbn in Hok; tauto].
  - cbn [rmc_pub_read] in E. destruct (x_mcast x =? -1) eqn:Em; [cbn [bind] in E; injection E as _ <- <-; apply KP_PD, KP_refl|].
    destruct err; cbn [bind] in E; injection E as _ <- <-; apply KP_PD; repeat split.
  - destruct (rmc_pub_read x i (RdTcp t)) as [[[[cd op] x1] e1]| | |] eqn:Ed; cbn [bind] in E; [|discriminate E..]. injection E as _ <- <-. cbn in Hok. exact (pread_tcp_PD _ _ _ _ _ _ _ (proj1 Hok) Ed).
  - cbn [rmc_pub_write] in E. destruct (process_multicast_write x outs) as [[[cd x1] e1]| | |] eqn:Ed; cbn [bind] in E; [|discriminate E..]. injection E as _ <- <-. apply KP_PD. exact (mcast_KP _ _ _ _ _ Ed).
  - cbn [rmc_pub_write] in E. destruct (_ <=? i); [cbn [bind] in E; injection E as _ <- <-; apply KP_PD, KP_refl|].
    assert (Hi : 0 <= i) by (destruct w; cbn in Hok; lia). destruct (find_index_cases (x_vec x) i Hi) as [[Ef _]|(c & Ef & Ho)]; rewrite Ef in E; cbn [bind] in E; [injection E as _ <- <-; apply KP_PD, KP_refl|].
    destruct (negb (c_mode c =? CONNECTED)); [cbn [bind] in E; injection E as _ <- <-; apply KP_PD, KP_refl|]. destruct (circ_buf_in_use (c_wbuf c) =? 0); [cbn [bind] in E; injection E as _ <- <-; apply KP_PD, KP_refl|].
    destruct (tcp_write (c_wbuf c) w) as [r| | |]; cbn [bind] in E; [|discriminate E..]. injection E as _ <- <-. apply KP_PD. apply (KP_put x i c); auto; [apply Ho|reflexivity].
  - apply KP_PD. exact (timeout_KP _ _ _ _ _ _ _ E).
  - exact (proj1 (pclose_PD _ _ _ _ _ (proj1 Hok) E)).
  - injection E as _ <- <-. apply KP_PD. repeat split.
  - unfold rmc_pub_throttling in E. destruct (s <? r); injection E as _ <- <-; apply KP_PD; repeat split.
  - injection E as _ <- <-. apply KP_PD. repeat split.
  - cbn in Ha. destruct Ha as [A1 A2]. unfold rmc_pub_activate_context in E. destruct o as [e ds ea|m l port]; injection E as _ <- <-; unfold PD, exs; rewrite A1, A2; change (sock_in (-1) ++ sock_in (-1)) with (@nil Z).
    + cbn [set_descs x_mcast x_listen x_vec]. change (sock_in (-1) ++ sock_in (-1)) with (@nil Z).
      change (negb (-1 =? -1)) with false. rewrite andb_false_r, app_nil_r.
      replace (pub_polls _) with (map EvOpen ds ++ map EvClose ds).
      * intros l K H. exact (HI_temp [] _ ds l K H).
      * rewrite polls_app. rewrite <- (map_map EvOpen PvConn ds), <- (map_map EvClose PvConn ds), !polls_conn. reflexivity.
    + cbn [pub_polls flat_map app]. intros lg K H. match goal with |- HI (sock_in (x_mcast ?z) ++ _) _ _ => assert (Z1 : x_mcast z = m /\ x_listen z = l /\ x_vec z = x_vec x) by (destruct (x_lport x =? 0); auto) end. destruct Z1 as (-> & -> & ->).
      destruct (kernel_next lg m _ K) as [Hm _]. change (EvOpen m :: ?r) with ([EvOpen m] ++ r) in *. rewrite app_assoc in *. destruct (kernel_next _ l _ K) as [Hl Hlo].
      unfold sock_in. replace (m =? -1) with false by lia. replace (l =? -1) with false by lia.
      assert (S : HI [l; m] (sdesc (x_vec x)) ((lg ++ [EvOpen m]) ++ EvOpen l :: [EvAdd m RMC_MULTICAST_INDEX POLLREAD; EvAdd l RMC_LISTEN_INDEX POLLREAD])).
      { apply HI_hold; [exact K| |reflexivity]. apply HI_hold; [exact (kernel_pre _ _ K)|exact H|reflexivity]. }
      destruct S as [S1 S2 S3 S4 S5]. constructor; [| |exact S3| |exact S5].
      * intros d. rewrite S1. cbn [app In]. tauto.
      * cbn [app]. inversion S2 as [|? ? N1 N2]; subst. constructor; [|constructor; [intros []|constructor]]. intros [A|[]]. apply N1. left. symmetry. exact A.
      * intros i d A. specialize (S4 i d A). cbn [app In] in *. tauto.
  - exact (pdeactivate_PD _ _ _ _ E).
Qed.
Lemma init_HI buf : HI [] (sdesc (init_vec buf)) [].
Proof.
  assert (N : forall i, sdesc (init_vec buf) i = None).
  { intros i. unfold sdesc. destruct (slot _ i) as [c| | |] eqn:E; try reflexivity. destruct (slot_init buf i c E) as [_ ->]. reflexivity. }
  constructor; [|constructor| | |intros [|? ?] ? ? Q; discriminate Q]; intros; rewrite ?N in *; try discriminate. cbn. split; [tauto|]. intros [[]|[i H]]. rewrite N in H. discriminate.
Qed.
Lemma reached_HI x g log : reached_by activated_once x g log -> kernel_ok (pub_polls log) -> HI (exs x) (sdesc (x_vec x)) (pub_polls log).
Proof.
  intros (x0 & ops & F & H & D). revert D. induction H as [|ops x g log o code x' evs H IH Hok E]; intros D K.
  - destruct F as (node & lip & lport & buf & m & -> & _). apply init_HI.
  - rewrite polls_app in *. refine (pstep_PD x g log o code x' evs _ Hok _ E _ K (IH _ (kernel_pre _ _ K))).
    + apply reached_inv. exists x0, ops. auto.
    + exact (D ops o [] x g log eq_refl H).
    + intros pre o' post x1 g1 log1 Eo H1. apply (D pre o' (post ++ [o]) x1 g1 log1); [|exact H1]. rewrite Eo, <- app_assoc. reflexivity.
Qed.
