(** PubProofs.v — pub.c (Pub.v) refines SpecPub.v. *)
From Coq Require Import Sorting.Sorted.
From Verif Require Import Base ListHeap SeqList Pub SpecPub.

(** The packet object for an entry / a queued packet. *)
Definition pk_entry (e : entry) : packet :=
  mkPacket (e_pid e) (fst (fst (e_pl e))) (snd (fst (e_pl e))) (zlen (e_hold e)) (e_ts e) (snd (e_pl e)).
Definition pk_queued (q : Z * pl) : packet :=
  mkPacket (fst q) (fst (fst (snd q))) (snd (fst (snd q))) 0 0 (snd (snd q)).
Definition holds (sub : nat) (x : nat * entry) : bool := mem sub (e_hold (snd x)).

Record Inv (s : pub) (sp : spec) (L : list (nat * entry)) (Q : list (nat * (Z * pl))) : Prop := mkInv {
  i_next : p_next s = sp_next sp;
  i_nextr : 1 <= sp_next sp < 18446744073709551616;
  i_subs : p_subs s = sp_reg sp;
  i_regnd : NoDup (sp_reg sp);
  i_regn : zlen (sp_reg sp) < 4294967296;
  i_L : map snd L = sp_live sp;
  i_infl : rev (p_inflight s) = map fst L;
  i_Q : map snd Q = map (fun p => (0, p)) (sp_ann sp) ++ sp_data sp;
  i_queued : rev (p_queued s) = map fst Q;
  i_nd : NoDup (map fst Q ++ map fst L);
  i_packL : forall a e, In (a, e) L -> p_packs s a = Some (pk_entry e);
  i_packQ : forall a q, In (a, q) Q -> p_packs s a = Some (pk_queued q);
  i_fresh : forall a, In a (map fst Q ++ map fst L) -> (a < p_fresh s)%nat;
  i_sinf : forall sub, rev (p_sinf s sub) = map fst (filter (holds sub) L);
  i_sort : StronglySorted Z.lt (map e_pid (sp_live sp) ++ map fst (sp_data sp));
  i_pidr : Forall (fun k => 1 <= k < sp_next sp) (map e_pid (sp_live sp) ++ map fst (sp_data sp));
  i_hold : forall e, In e (sp_live sp) -> NoDup (e_hold e) /\ incl (e_hold e) (sp_reg sp)
}.

(** ** Small list facts *)
Lemma mem_In x l : mem x l = true <-> In x l.
Proof.
  unfold mem. rewrite existsb_exists. split.
  - intros (y & Hy & E). apply Nat.eqb_eq in E. congruence.
  - intros H. exists x. split; [exact H|apply Nat.eqb_refl].
Qed.
Lemma mem_nIn x l : mem x l = false <-> ~ In x l.
Proof. rewrite <- mem_In. destruct (mem x l); split; congruence. Qed.
Lemma In_dec_nat (x : nat) l : In x l \/ ~ In x l.
Proof. destruct (in_dec Nat.eq_dec x l); auto. Qed.

Lemma rev_eq_iff {X} (l m : list X) : rev l = m -> l = rev m.
Proof. intros <-. symmetry. apply rev_involutive. Qed.

Lemma last_opt_rev {X} (l : list X) : last_opt (rev l) = match l with [] => None | x :: _ => Some x end.
Proof. unfold last_opt. rewrite rev_involutive. reflexivity. Qed.

Lemma rm1_app_r {X} (f : X -> bool) l1 x l2 : Forall (fun y => f y = false) l1 -> f x = true ->
  rm1 f (l1 ++ x :: l2) = l1 ++ l2.
Proof.
  induction 1 as [|y l1 Hy H IH]; cbn [app rm1]; intros Hx.
  - rewrite Hx. reflexivity.
  - rewrite Hy, IH by exact Hx. reflexivity.
Qed.
Lemma rm1_nat a l1 l2 : ~ In a l1 -> rm1 (Nat.eqb a) (l1 ++ a :: l2) = l1 ++ l2.
Proof.
  intros H. apply rm1_app_r; [|apply Nat.eqb_refl]. apply Forall_forall. intros y Hy.
  apply Nat.eqb_neq. intros ->. tauto.
Qed.
Lemma find_app_r {X} (f : X -> bool) l1 x l2 : Forall (fun y => f y = false) l1 -> f x = true ->
  find f (l1 ++ x :: l2) = Some x.
Proof.
  induction 1 as [|y l1 Hy H IH]; cbn [app find]; intros Hx; [rewrite Hx; reflexivity|]. rewrite Hy. auto.
Qed.

Lemma rm_zlen x l : NoDup l -> In x l -> zlen (rm x l) = zlen l - 1.
Proof.
  unfold rm. induction 1 as [|y l Hy H IH]; intros Hin; [destruct Hin|].
  cbn [remove]. destruct (Nat.eq_dec x y) as [<-|Hne].
  - rewrite notin_remove by exact Hy. rewrite zlen_cons. lia.
  - destruct Hin as [->|Hin]; [congruence|]. rewrite !zlen_cons, IH by exact Hin. lia.
Qed.
Lemma rm_NoDup x l : NoDup l -> NoDup (rm x l).
Proof.
  unfold rm. induction 1 as [|y l Hy H IH]; cbn [remove]; [constructor|].
  destruct (Nat.eq_dec x y); [exact IH|]. constructor; [|exact IH].
  intros Hin. apply in_remove in Hin. tauto.
Qed.
Lemma In_rm x y l : In y (rm x l) <-> In y l /\ y <> x.
Proof.
  unfold rm. split.
  - intros H. apply in_remove in H. exact H.
  - intros [H1 H2]. apply in_in_remove; assumption.
Qed.
Lemma mem_rm_ne x y l : y <> x -> mem y (rm x l) = mem y l.
Proof.
  intros H. destruct (mem y l) eqn:E.
  - apply mem_In in E. apply mem_In. apply In_rm. auto.
  - apply mem_nIn in E. apply mem_nIn. rewrite In_rm. tauto.
Qed.
Lemma mem_rm_eq x l : mem x (rm x l) = false.
Proof. apply mem_nIn. rewrite In_rm. tauto. Qed.
Lemma rm_notin x l : ~ In x l -> rm x l = l.
Proof. apply notin_remove. Qed.
Lemma rm1_rm x l : NoDup l -> rm1 (Nat.eqb x) l = rm x l.
Proof.
  unfold rm. induction 1 as [|y l Hy H IH]; cbn [rm1 remove]; [reflexivity|].
  destruct (Nat.eq_dec x y) as [<-|Hne].
  - rewrite Nat.eqb_refl. symmetry. apply notin_remove. exact Hy.
  - replace (Nat.eqb x y) with false by (symmetry; apply Nat.eqb_neq; exact Hne). rewrite IH. reflexivity.
Qed.

Lemma NoDup_app_intro {X} (l m : list X) : NoDup l -> NoDup m -> (forall x, In x l -> ~ In x m) -> NoDup (l ++ m).
Proof.
  induction 1 as [|x l Hx H IH]; cbn [app]; intros Hm Hd; [exact Hm|].
  constructor.
  - rewrite in_app_iff. intros [H1|H1]; [tauto|]. exact (Hd x (or_introl eq_refl) H1).
  - apply IH; [exact Hm|]. intros y Hy. apply Hd. right. exact Hy.
Qed.
Lemma NoDup_app_l {X} (l m : list X) : NoDup (l ++ m) -> NoDup l.
Proof.
  induction l as [|x l IH]; cbn; [constructor|]. intros H. inversion H; subst.
  constructor; [rewrite in_app_iff in *; tauto|auto].
Qed.
Lemma NoDup_app_r {X} (l m : list X) : NoDup (l ++ m) -> NoDup m.
Proof. induction l as [|x l IH]; cbn; [auto|]. intros H. inversion H; subst. auto. Qed.
Lemma NoDup_app_disj {X} (l m : list X) x : NoDup (l ++ m) -> In x l -> In x m -> False.
Proof.
  induction l as [|y l IH]; cbn [app]; [intros _ []|]. intros H. inversion H as [|? ? N1 N2 E]; subst.
  intros [<-|G1] G2; [|exact (IH N2 G1 G2)]. apply N1, in_or_app. right. exact G2.
Qed.

Lemma upd_same {X} (f : nat -> X) a x : upd f a x a = x.
Proof. unfold upd. rewrite Nat.eqb_refl. reflexivity. Qed.
Lemma upd_other {X} (f : nat -> X) a x b : b <> a -> upd f a x b = f b.
Proof. intros H. unfold upd. apply Nat.eqb_neq in H. rewrite H. reflexivity. Qed.

Lemma check_live_ok s l : (forall a, In a l -> p_packs s a <> None) -> check_live s l = Ok tt.
Proof.
  intros H. unfold check_live. replace (forallb (is_live s) l) with true; [reflexivity|].
  symmetry. apply forallb_forall. intros a Ha. unfold is_live. specialize (H a Ha).
  destruct (p_packs s a); congruence.
Qed.

Lemma in_map_fst {X Y} (l : list (X * Y)) a : In a (map fst l) -> exists e, In (a, e) l.
Proof. intros H. apply in_map_iff in H. destruct H as ([b e] & <- & H). exists e. exact H. Qed.
Lemma map_fst_in {X Y} (l : list (X * Y)) a e : In (a, e) l -> In a (map fst l).
Proof. intros H. apply in_map_iff. exists (a, e). auto. Qed.
Lemma fst_inj {X Y} (l : list (X * Y)) a e f : NoDup (map fst l) -> In (a, e) l -> In (a, f) l -> e = f.
Proof.
  induction l as [|[b g] l IH]; cbn [map fst]; [intros _ []|].
  intros H. inversion H as [|? ? N1 N2 E]; subst. intros [E1|G1] [E2|G2].
  - congruence.
  - exfalso. injection E1 as -> ->. apply N1. exact (map_fst_in _ _ _ G2).
  - exfalso. injection E2 as -> ->. apply N1. exact (map_fst_in _ _ _ G1).
  - exact (IH N2 G1 G2).
Qed.

(** Descending insertion at the head and at the end. *)
Lemma insert_head s a l : Forall (fun b => pid_of s b < pid_of s a) l ->
  seq_insert_sorted (compare_pid s) a l = a :: l.
Proof.
  intros H. destruct H as [|b l Hb H]; cbn [seq_insert_sorted]; [reflexivity|].
  unfold compare_pid. replace (pid_of s b <? pid_of s a) with true by lia. reflexivity.
Qed.
Lemma insert_after_gt s a l1 l2 : Forall (fun b => pid_of s a < pid_of s b) l1 ->
  Forall (fun b => pid_of s b <= pid_of s a) l2 ->
  seq_insert_sorted (compare_pid s) a (l1 ++ l2) = l1 ++ a :: l2.
Proof.
  intros H1 H2. induction H1 as [|b l1 Hb H1 IH]; cbn [app seq_insert_sorted].
  - destruct H2 as [|b l2 Hb H2]; cbn [seq_insert_sorted]; [reflexivity|].
    unfold compare_pid. destruct (pid_of s b <? pid_of s a) eqn:E; [reflexivity|].
    replace (pid_of s a <? pid_of s b) with false by lia. reflexivity.
  - assert (E : compare_pid s a b = -1).
    { unfold compare_pid. replace (pid_of s b <? pid_of s a) with false by lia.
      replace (pid_of s a <? pid_of s b) with true by lia. reflexivity. }
    rewrite E. cbn [Z.leb Z.compare]. rewrite IH. reflexivity.
Qed.

(** ** Reading the invariant *)
Section Facts.
Context {s : pub} {sp : spec} {L : list (nat * entry)} {Q : list (nat * (Z * pl))} (I : Inv s sp L Q).

Lemma inv_infl : p_inflight s = rev (map fst L).
Proof. apply rev_eq_iff, (i_infl _ _ _ _ I). Qed.
Lemma inv_queued : p_queued s = rev (map fst Q).
Proof. apply rev_eq_iff, (i_queued _ _ _ _ I). Qed.
Lemma inv_sinf sub : p_sinf s sub = rev (map fst (filter (holds sub) L)).
Proof. apply rev_eq_iff, (i_sinf _ _ _ _ I). Qed.
Lemma inv_liveL a : In a (map fst L) -> p_packs s a <> None.
Proof. intros H. apply in_map_fst in H. destruct H as [e He]. rewrite (i_packL _ _ _ _ I _ _ He). discriminate. Qed.
Lemma inv_liveQ a : In a (map fst Q) -> p_packs s a <> None.
Proof. intros H. apply in_map_fst in H. destruct H as [e He]. rewrite (i_packQ _ _ _ _ I _ _ He). discriminate. Qed.
Lemma inv_pidL a e : In (a, e) L -> pid_of s a = e_pid e.
Proof. intros H. unfold pid_of. rewrite (i_packL _ _ _ _ I _ _ H). reflexivity. Qed.
Lemma inv_pidQ a q : In (a, q) Q -> pid_of s a = fst q.
Proof. intros H. unfold pid_of. rewrite (i_packQ _ _ _ _ I _ _ H). reflexivity. Qed.
Lemma inv_ndL : NoDup (map fst L).
Proof. exact (NoDup_app_r _ _ (i_nd _ _ _ _ I)). Qed.
Lemma inv_ndQ : NoDup (map fst Q).
Proof. exact (NoDup_app_l _ _ (i_nd _ _ _ _ I)). Qed.
Lemma sinf_incl sub a : In a (p_sinf s sub) -> In a (map fst L).
Proof.
  rewrite inv_sinf, <- in_rev. intros H. apply in_map_fst in H. destruct H as [e He].
  apply filter_In in He. exact (map_fst_in _ _ _ (proj1 He)).
Qed.
Lemma inv_entry_in a e : In (a, e) L -> In e (sp_live sp).
Proof. intros H. rewrite <- (i_L _ _ _ _ I). apply in_map_iff. exists (a, e). auto. Qed.
Lemma inv_check_sinf sub : check_live s (p_sinf s sub) = Ok tt.
Proof. apply check_live_ok. intros a Ha. apply inv_liveL. exact (sinf_incl sub a Ha). Qed.
End Facts.

Lemma SSapp_r {X} (P : X -> X -> Prop) l1 l2 : StronglySorted P (l1 ++ l2) -> StronglySorted P l2.
Proof. induction l1 as [|y l1 IH]; cbn; [auto|]. intros HS. inversion HS; subst. auto. Qed.
Lemma SSapp_l {X} (P : X -> X -> Prop) l1 l2 : StronglySorted P (l1 ++ l2) -> StronglySorted P l1.
Proof.
  induction l1 as [|y l1 IH]; cbn; [constructor|]. intros HS. inversion HS as [|? ? H1 H2]; subst.
  apply Forall_app in H2. constructor; tauto.
Qed.
Lemma SSapp_lt {X} (P : X -> X -> Prop) l1 l2 x y : StronglySorted P (l1 ++ l2) -> In x l1 -> In y l2 -> P x y.
Proof.
  induction l1 as [|z l1 IH]; cbn [app]; [intros _ []|]. intros HS. inversion HS as [|? ? H1 H2]; subst.
  intros [<-|Hx] Hy; [|auto]. rewrite Forall_forall in H2. apply H2, in_or_app. auto.
Qed.
Lemma SSsnoc {X} (P : X -> X -> Prop) l x : StronglySorted P l -> Forall (fun y => P y x) l ->
  StronglySorted P (l ++ [x]).
Proof.
  induction l as [|y l IH]; intros H1 H2; cbn; [repeat constructor|].
  inversion H1; inversion H2; subst. constructor; [auto|]. apply Forall_app. split; [assumption|repeat constructor; assumption].
Qed.
Lemma SSapp {X} (P : X -> X -> Prop) l1 l2 : StronglySorted P l1 -> StronglySorted P l2 ->
  (forall x y, In x l1 -> In y l2 -> P x y) -> StronglySorted P (l1 ++ l2).
Proof.
  induction 1 as [|x l1 H1 IH HF]; cbn [app]; intros H2 Hc; [exact H2|].
  constructor; [apply IH; [exact H2|intros; apply Hc; [right; assumption|assumption]]|].
  apply Forall_app. split; [exact HF|]. apply Forall_forall. intros y Hy. apply Hc; [left; reflexivity|exact Hy].
Qed.

Lemma inv_init : Inv pub_init spec_init [] [].
Proof.
  split; cbn; try reflexivity; try lia; try (constructor; fail); try tauto.
  all: try (intros; contradiction).
Qed.

(** ** Registering a subscriber *)
Lemma inv_subscribe s sp L Q sub : Inv s sp L Q -> ~ In sub (sp_reg sp) -> zlen (sp_reg sp) < 4294967295 ->
  Inv (pub_init_subscriber s sub) (fst (spec_step sp (OpSubscribe sub))) L Q.
Proof.
  intros I Hn Hb. assert (Hno : filter (holds sub) L = []).
  { destruct (filter (holds sub) L) as [|[a e] l] eqn:E; [reflexivity|]. exfalso.
    assert (Hin : In (a, e) (filter (holds sub) L)) by (rewrite E; left; reflexivity).
    apply filter_In in Hin. destruct Hin as [Hin Hm]. apply mem_In in Hm. cbn in Hm.
    destruct (i_hold _ _ _ _ I e (inv_entry_in I _ _ Hin)) as [_ Hi]. exact (Hn (Hi _ Hm)). }
  destruct I. split; cbn; auto.
  - rewrite i_subs0. reflexivity.
  - apply NoDup_app_intro; [assumption|repeat constructor; auto|]. intros x Hx [<-|[]]. tauto.
  - rewrite zlen_app. change (zlen [sub]) with 1. lia.
  - intros x. unfold upd. destruct (Nat.eqb_spec x sub) as [->|Hne]; [rewrite Hno; reflexivity|auto].
  - intros e He. destruct (i_hold0 e He) as [H1 H2]. split; [exact H1|]. intros x Hx. apply in_or_app. left. auto.
Qed.

(** ** Queueing *)
Lemma pid_upd_other s f a b : b <> a ->
  pid_of (mkPub (upd (p_packs s) a f) (S a) (p_subs s) (p_queued s) (p_inflight s) (p_sinf s) (p_next s)) b = pid_of s b.
Proof. intros H. unfold pid_of. cbn. rewrite upd_other by exact H. reflexivity. Qed.

Lemma inv_queue_gen s sp L Q pid p len u sp' :
  Inv s sp L Q -> p <> 0 ->
  ((pid = 0 /\ sp' = mkSpec (sp_next sp) (sp_reg sp) (sp_ann sp ++ [(p, len, u)]) (sp_data sp) (sp_live sp)) \/
   (Forall (fun k => k < pid) (map e_pid (sp_live sp) ++ map fst (sp_data sp)) /\ 1 <= pid < sp_next sp /\
    sp' = mkSpec (sp_next sp) (sp_reg sp) (sp_ann sp) (sp_data sp ++ [(pid, (p, len, u))]) (sp_live sp))) ->
  exists s' L' Q', pub_queue_with_pid s pid p len u = Ok (s', pid, p_fresh s) /\ Inv s' sp' L' Q' /\ L' = L /\
    p_inflight s' = p_inflight s /\ p_sinf s' = p_sinf s /\ (forall b, b <> p_fresh s -> p_packs s' b = p_packs s b).
Proof.
  intros I Hp Hcase. unfold pub_queue_with_pid. replace (p =? 0) with false by lia.
  rewrite (check_live_ok s (p_queued s)).
  2:{ intros a Ha. apply (inv_liveQ I). rewrite (inv_queued I), <- in_rev in Ha. exact Ha. }
  cbn [bind].
  set (a := p_fresh s). set (s1 := mkPub _ _ _ _ _ _ _).
  assert (Hfr : forall b, In b (map fst Q ++ map fst L) -> b <> a).
  { intros b Hb. pose proof (i_fresh _ _ _ _ I b Hb). unfold a. lia. }
  assert (Hpid : forall b, b <> a -> pid_of s1 b = pid_of s b) by (intros b Hb; apply pid_upd_other; exact Hb).
  assert (Hpa : pid_of s1 a = pid). { unfold pid_of, s1. cbn. rewrite upd_same. reflexivity. }
  assert (HQ : map snd Q = map (fun p => (0, p)) (sp_ann sp) ++ sp_data sp) by exact (i_Q _ _ _ _ I).
  apply map_eq_app in HQ. destruct HQ as (Q1 & Q2 & EQ & HQ1 & HQ2).
  assert (H0 : forall b q, In (b, q) Q1 -> fst q = 0).
  { intros b q Hb. assert (Hs : In q (map snd Q1)) by (apply in_map_iff; exists (b, q); auto).
    rewrite HQ1 in Hs. apply in_map_iff in Hs. destruct Hs as (y & <- & _). reflexivity. }
  assert (Hd : forall b q, In (b, q) Q2 -> In (fst q) (map fst (sp_data sp))).
  { intros b q Hb. rewrite <- HQ2. apply in_map_iff. exists q. split; [reflexivity|]. apply in_map_iff. exists (b, q). auto. }
  assert (Hins : exists Q', map snd Q' = map (fun p => (0, p)) (sp_ann sp') ++ sp_data sp' /\
     rev (seq_insert_sorted (compare_pid s1) a (p_queued s1)) = map fst Q' /\
     (forall b q, In (b, q) Q' <-> In (b, q) Q \/ (b, q) = (a, (pid, (p, len, u)))) /\
     NoDup (map fst Q' ++ map fst L)).
  { assert (Hqd : p_queued s1 = rev (map fst Q2) ++ rev (map fst Q1)).
    { unfold s1. cbn. rewrite (inv_queued I), EQ, map_app, rev_app_distr. reflexivity. }
    assert (Hna : ~ In a (map fst Q ++ map fst L)) by (intros X; exact (Hfr a X eq_refl)).
    destruct Hcase as [[Hz ->]|[Hmax [Hr ->]]]; cbn [sp_ann sp_data].
    - exists (Q1 ++ (a, (pid, (p, len, u))) :: Q2). split; [|split; [|split]].
      + rewrite !map_app. cbn [map snd]. rewrite HQ1, HQ2, <- app_assoc, Hz. reflexivity.
      + rewrite Hqd, insert_after_gt.
        * rewrite rev_app_distr. cbn [rev]. rewrite !rev_involutive, <- app_assoc, !map_app. reflexivity.
        * apply Forall_forall. intros b Hb. rewrite <- in_rev in Hb. apply in_map_fst in Hb. destruct Hb as [q Hb].
          assert (HbQ : In (b, q) Q) by (rewrite EQ; apply in_or_app; auto).
          rewrite Hpa, Hpid, (inv_pidQ I b q HbQ).
          2:{ apply Hfr, in_or_app. left. exact (map_fst_in _ _ _ HbQ). }
          pose proof (i_pidr _ _ _ _ I) as Hpr. rewrite Forall_forall in Hpr.
          specialize (Hpr (fst q) (in_or_app _ _ _ (or_intror (Hd b q Hb)))). cbv beta in Hpr. lia.
        * apply Forall_forall. intros b Hb. rewrite <- in_rev in Hb. apply in_map_fst in Hb. destruct Hb as [q Hb].
          assert (HbQ : In (b, q) Q) by (rewrite EQ; apply in_or_app; auto).
          rewrite Hpa, Hpid, (inv_pidQ I b q HbQ), (H0 b q Hb); [lia|].
          apply Hfr, in_or_app. left. exact (map_fst_in _ _ _ HbQ).
      + intros b q. rewrite EQ, !in_app_iff. cbn [In]. intuition congruence.
      + rewrite map_app. cbn [map fst]. rewrite <- app_assoc. cbn [app].
        apply NoDup_Add with (a := a) (l := map fst Q1 ++ map fst Q2 ++ map fst L).
        * apply Add_app.
        * rewrite app_assoc, <- map_app, <- EQ. split; [exact (i_nd _ _ _ _ I)|exact Hna].
    - exists (Q ++ [(a, (pid, (p, len, u)))]). split; [|split; [|split]].
      + rewrite map_app, (i_Q _ _ _ _ I), <- app_assoc. reflexivity.
      + rewrite insert_head.
        * cbn [rev]. unfold s1. cbn [p_queued]. rewrite (i_queued _ _ _ _ I), map_app. reflexivity.
        * apply Forall_forall. intros b Hb. unfold s1 in Hb. cbn [p_queued] in Hb.
          rewrite (inv_queued I), <- in_rev in Hb. apply in_map_fst in Hb. destruct Hb as [q HbQ].
          rewrite Hpa, Hpid, (inv_pidQ I b q HbQ).
          2:{ apply Hfr, in_or_app. left. exact (map_fst_in _ _ _ HbQ). }
          rewrite EQ in HbQ. apply in_app_or in HbQ. destruct HbQ as [Hb|Hb].
          -- rewrite (H0 b q Hb). lia.
          -- rewrite Forall_forall in Hmax. apply Hmax, in_or_app. right. exact (Hd b q Hb).
      + intros b q. rewrite in_app_iff. cbn [In]. intuition congruence.
      + rewrite map_app. cbn [map fst]. rewrite <- app_assoc. cbn [app].
        apply NoDup_Add with (a := a) (l := map fst Q ++ map fst L).
        * apply Add_app.
        * split; [exact (i_nd _ _ _ _ I)|exact Hna]. }
  destruct Hins as (Q' & HsQ & HqQ & HinQ & HndQ).
  eexists. exists L, Q'. split; [reflexivity|]. split.
  2:{ split; [reflexivity|]. split; [reflexivity|]. split; [reflexivity|]. intros b Hb. cbn. apply upd_other. exact Hb. }
  assert (Hlive : sp_live sp' = sp_live sp /\ sp_reg sp' = sp_reg sp /\ sp_next sp' = sp_next sp).
  { destruct Hcase as [[_ ->]|[_ [_ ->]]]; auto. }
  destruct Hlive as (Hl1 & Hl2 & Hl3).
  assert (Hsort : StronglySorted Z.lt (map e_pid (sp_live sp') ++ map fst (sp_data sp')) /\
                  Forall (fun k => 1 <= k < sp_next sp') (map e_pid (sp_live sp') ++ map fst (sp_data sp'))).
  { rewrite Hl3. destruct Hcase as [[_ ->]|[Hmax [Hr ->]]]; cbn [sp_live sp_data].
    - split; [exact (i_sort _ _ _ _ I)|exact (i_pidr _ _ _ _ I)].
    - rewrite map_app. cbn [map fst]. rewrite app_assoc. split.
      + apply SSsnoc; [exact (i_sort _ _ _ _ I)|exact Hmax].
      + apply Forall_app. split; [exact (i_pidr _ _ _ _ I)|]. repeat constructor; lia. }
  split; cbn; rewrite ?Hl1, ?Hl2, ?Hl3; try (apply I).
  - exact HsQ.
  - exact HqQ.
  - exact HndQ.
  - intros b e He. rewrite upd_other; [apply I; exact He|]. apply Hfr, in_or_app. right. exact (map_fst_in _ _ _ He).
  - intros b q Hb. apply HinQ in Hb. destruct Hb as [Hb|Hb].
    + rewrite upd_other; [apply I; exact Hb|]. apply Hfr, in_or_app. left. exact (map_fst_in _ _ _ Hb).
    + injection Hb as -> ->. rewrite upd_same. reflexivity.
  - intros b Hb. apply in_app_or in Hb. destruct Hb as [Hb|Hb].
    + apply in_map_fst in Hb. destruct Hb as [q Hb]. apply HinQ in Hb. destruct Hb as [Hb|Hb].
      * pose proof (i_fresh _ _ _ _ I b (in_or_app _ _ _ (or_introl (map_fst_in _ _ _ Hb)))). fold a in H. lia.
      * injection Hb as -> _. lia.
    + pose proof (i_fresh _ _ _ _ I b (in_or_app _ _ _ (or_intror Hb))). fold a in H. lia.
  - rewrite <- Hl1. apply Hsort.
  - rewrite <- Hl1, <- Hl3. apply Hsort.
Qed.

Lemma inv_announce s sp L Q p len u : Inv s sp L Q -> p <> 0 ->
  exists s' Q', pub_queue_no_ack s p len u = Ok (s', 0, p_fresh s) /\
    Inv s' (fst (spec_step sp (OpAnnounce (p, len, u)))) L Q' /\
    p_inflight s' = p_inflight s /\ p_sinf s' = p_sinf s /\ (forall b, b <> p_fresh s -> p_packs s' b = p_packs s b).
Proof.
  intros I Hp. destruct (inv_queue_gen s sp L Q 0 p len u _ I Hp (or_introl (conj eq_refl eq_refl)))
    as (s' & L' & Q' & E & I' & -> & H). exists s', Q'. split; [exact E|]. split; [exact I'|exact H].
Qed.

Lemma inv_queue s sp L Q p len u : Inv s sp L Q -> p <> 0 -> sp_next sp < 18446744073709551615 ->
  exists s' Q', pub_queue_packet s p len u = Ok (s', sp_next sp, p_fresh s) /\
    Inv s' (fst (spec_step sp (OpQueue (p, len, u)))) L Q' /\
    p_inflight s' = p_inflight s /\ p_sinf s' = p_sinf s /\ (forall b, b <> p_fresh s -> p_packs s' b = p_packs s b).
Proof.
  intros I Hp Hn. unfold pub_queue_packet. rewrite (i_next _ _ _ _ I).
  set (s1 := mkPub _ _ _ _ _ _ _).
  set (sp1 := mkSpec (sp_next sp + 1) (sp_reg sp) (sp_ann sp) (sp_data sp) (sp_live sp)).
  pose proof (i_nextr _ _ _ _ I) as Hnr.
  assert (I1 : Inv s1 sp1 L Q).
  { assert (Hm : Forall (fun k => 1 <= k < sp_next sp1) (map e_pid (sp_live sp1) ++ map fst (sp_data sp1))).
    { eapply Forall_impl; [|exact (i_pidr _ _ _ _ I)]. cbn. intros; lia. }
    destruct I. split; cbn; auto; [apply u64_small; unfold is_u64; lia|lia]. }
  destruct (inv_queue_gen s1 sp1 L Q (sp_next sp) p len u
              (fst (spec_step sp (OpQueue (p, len, u)))) I1 Hp) as (s' & L' & Q' & E & I' & -> & H).
  { right. split; [|split; [cbn; lia|reflexivity]].
    eapply Forall_impl; [|exact (i_pidr _ _ _ _ I)]. cbn. intros; lia. }
  exists s', Q'. split; [exact E|]. split; [exact I'|exact H].
Qed.

(** ** Sending *)
Definition with_ref (p : packet) (r : Z) : packet :=
  mkPacket (pk_pid p) (pk_payload p) (pk_len p) r (pk_ts p) (pk_user p).

Lemma sent_loop_spec a subs : forall s p, NoDup subs -> p_packs s a = Some p ->
  0 <= pk_ref p -> pk_ref p + zlen subs < 4294967296 ->
  (forall sub b, In sub subs -> In b (p_sinf s sub) -> p_packs s b <> None /\ b <> a /\ pid_of s b < pk_pid p) ->
  exists s', sent_loop s a subs = Ok s' /\
    p_packs s' a = Some (with_ref p (pk_ref p + zlen subs)) /\
    (forall b, b <> a -> p_packs s' b = p_packs s b) /\
    p_fresh s' = p_fresh s /\ p_subs s' = p_subs s /\ p_queued s' = p_queued s /\
    p_inflight s' = p_inflight s /\ p_next s' = p_next s /\
    (forall sub, p_sinf s' sub = if mem sub subs then a :: p_sinf s sub else p_sinf s sub).
Proof.
  induction subs as [|x subs IH]; intros s p Hnd Hp Hr Hb Hall; cbn [sent_loop].
  - exists s. split; [reflexivity|]. split; [|repeat split; reflexivity].
    change (zlen (@nil nat)) with 0. rewrite Z.add_0_r, Hp. destruct p; reflexivity.
  - inversion Hnd as [|? ? Hx Hnd']; subst. rewrite zlen_cons in *. pose proof (zlen_nonneg subs).
    rewrite check_live_ok by (intros b Hin; apply (Hall x b (or_introl eq_refl) Hin)). cbn [bind].
    rewrite insert_head.
    2:{ apply Forall_forall. intros b Hin. unfold pid_of at 2. rewrite Hp. apply (Hall x b (or_introl eq_refl) Hin). }
    set (s1 := set_sinf s x (a :: p_sinf s x)).
    assert (Hp1 : p_packs s1 a = Some p) by exact Hp.
    unfold get_pack. rewrite Hp1. cbn [bind].
    set (s2 := set_pack s1 a _).
    destruct (IH s2 (with_ref p (pk_ref p + 1))) as (s' & E & P1 & P2 & P3 & P4 & P5 & P6 & P7 & P8).
    + exact Hnd'.
    + unfold s2, set_pack. cbn. rewrite upd_same. rewrite u32_small by (unfold is_u32; lia). reflexivity.
    + cbn. lia.
    + cbn. lia.
    + intros sub b Hs Hin. unfold s2, s1, set_pack, set_sinf in Hin. cbn in Hin.
      rewrite upd_other in Hin by (intros ->; exact (Hx Hs)).
      destruct (Hall sub b (or_intror Hs) Hin) as (A1 & A2 & A3).
      unfold s2, s1, set_pack, set_sinf, pid_of. cbn. rewrite upd_other by exact A2. auto.
    + exists s'. split; [exact E|]. split; [|split; [|split; [|split; [|split; [|split; [|split]]]]]]; auto.
      * rewrite P1. unfold with_ref. cbn [pk_pid pk_payload pk_len pk_ref pk_ts pk_user].
        replace (pk_ref p + 1 + zlen subs) with (pk_ref p + (1 + zlen subs)) by lia. reflexivity.
      * intros b Hne. rewrite P2 by exact Hne. unfold s2, s1, set_pack, set_sinf. cbn. apply upd_other, Hne.
      * intros sub. rewrite P8. unfold s2, s1, set_pack, set_sinf. cbn [p_sinf mem existsb].
        fold (mem sub subs). destruct (Nat.eqb_spec sub x) as [->|Hne].
        -- cbn [orb]. rewrite upd_same. replace (mem x subs) with false; [reflexivity|].
           symmetry. apply mem_nIn. exact Hx.
        -- cbn [orb]. rewrite upd_other by exact Hne. reflexivity.
Qed.

Lemma filter_map_app_holds sub (L : list (nat * entry)) a e :
  map fst (filter (holds sub) (L ++ [(a, e)])) =
  map fst (filter (holds sub) L) ++ (if mem sub (e_hold e) then [a] else []).
Proof.
  rewrite filter_app, map_app. cbn [filter holds snd]. unfold holds at 2. cbn [snd].
  destruct (mem sub (e_hold e)); reflexivity.
Qed.

Lemma next_queued_inv s sp L Q : Inv s sp L Q ->
  pub_next_queued s = match Q with [] => None | (a, _) :: _ => Some a end.
Proof.
  intros I. unfold pub_next_queued. rewrite (inv_queued I), last_opt_rev. destruct Q as [|[a q] Q]; reflexivity.
Qed.

(** pub_packet_sent of the next queued packet. *)
Lemma inv_sent s sp L a q Q ts : Inv s sp L ((a, q) :: Q) ->
  exists s' L', pub_packet_sent s a ts = Ok s' /\
    Inv s' (fst (spec_step sp (OpSend ts))) L' Q /\
    snd (spec_step sp (OpSend ts)) = OutSent (Some q) /\
    (forall b, b <> a -> p_packs s' b = p_packs s b) /\
    ((fst q = 0 /\ L' = L /\ p_packs s' a = Some (mkPacket 0 (fst (fst (snd q))) (snd (fst (snd q))) 0 ts (snd (snd q)))) \/
     (fst q <> 0 /\ L' = L ++ [(a, mkE (fst q) (snd q) ts (sp_reg sp))])).
Proof.
  intros I. pose proof (i_Q _ _ _ _ I) as HQ. cbn [map snd] in HQ.
  assert (Hpa : p_packs s a = Some (pk_queued q)) by (apply I; left; reflexivity).
  pose proof (i_nd _ _ _ _ I) as Hnd. cbn [map fst app] in Hnd. inversion Hnd as [|? ? Hna Hnd']; subst.
  assert (HnQ : ~ In a (map fst Q)) by (intros X; apply Hna, in_or_app; auto).
  assert (HnL : ~ In a (map fst L)) by (intros X; apply Hna, in_or_app; auto).
  assert (HinQ : forall b q', In (b, q') Q -> b <> a) by (intros b q' X ->; exact (HnQ (map_fst_in _ _ _ X))).
  assert (HinL : forall b e, In (b, e) L -> b <> a) by (intros b e X ->; exact (HnL (map_fst_in _ _ _ X))).
  unfold pub_packet_sent, get_pack. rewrite Hpa. cbn [bind].
  set (s1 := set_pack s a _).
  assert (Hq1 : p_queued s1 = rev (map fst Q) ++ [a]).
  { change (p_queued s1) with (p_queued s). rewrite (inv_queued I). reflexivity. }
  unfold unlink_parent. rewrite Hq1.
  replace (mem a (rev (map fst Q) ++ [a])) with true.
  2:{ symmetry. apply mem_In. apply in_or_app. right. left. reflexivity. }
  rewrite rm1_nat by (rewrite <- in_rev; exact HnQ). rewrite app_nil_r. cbn [bind].
  set (s2 := set_queued s1 _).
  assert (Hpk : forall b, b <> a -> p_packs s2 b = p_packs s b).
  { intros b Hb. unfold s2, s1, set_queued, set_pack. cbn. apply upd_other, Hb. }
  assert (Hpka : p_packs s2 a = Some (mkPacket (fst q) (fst (fst (snd q))) (snd (fst (snd q))) 0 ts (snd (snd q)))).
  { unfold s2, s1, set_queued, set_pack. cbn. apply upd_same. }
  change (pk_pid (pk_queued q)) with (fst q).
  cbn [spec_step]. destruct (sp_ann sp) as [|pa ra] eqn:Ea.
  - (* data *)
    cbn [map app] in HQ. destruct (sp_data sp) as [|[k pd] rd] eqn:Ed; [discriminate|].
    injection HQ as -> HQ.
    assert (Hk : 1 <= k < sp_next sp).
    { pose proof (i_pidr _ _ _ _ I) as X. rewrite Ed, Forall_forall in X. apply X, in_or_app. right. left. reflexivity. }
    cbn [fst snd] in *. replace (k =? 0) with false by lia.
    assert (Hlt : forall b e, In (b, e) L -> e_pid e < k).
    { intros b e Hin. pose proof (i_sort _ _ _ _ I) as X. rewrite Ed in X.
      apply (SSapp_lt _ _ _ _ _ X); [|left; reflexivity]. apply in_map_iff. exists e. split; [reflexivity|].
      exact (inv_entry_in I _ _ Hin). }
    assert (Hpid2 : forall b e, In (b, e) L -> pid_of s2 b = e_pid e).
    { intros b e Hin. unfold pid_of. rewrite Hpk by exact (HinL _ _ Hin).
      rewrite (i_packL _ _ _ _ I _ _ Hin). reflexivity. }
    rewrite check_live_ok.
    2:{ intros b Hb. change (p_inflight s2) with (p_inflight s) in Hb. rewrite (inv_infl I), <- in_rev in Hb.
        rewrite Hpk; [exact (inv_liveL I b Hb)|]. intros ->. exact (HnL Hb). }
    cbn [bind]. rewrite insert_head.
    2:{ apply Forall_forall. intros b Hb. change (p_inflight s2) with (p_inflight s) in Hb.
        rewrite (inv_infl I), <- in_rev in Hb. apply in_map_fst in Hb. destruct Hb as [e He].
        rewrite (Hpid2 b e He). unfold pid_of. rewrite Hpka. cbn. exact (Hlt b e He). }
    set (s3 := set_inflight s2 _).
    destruct (sent_loop_spec a (p_subs s3) s3 (mkPacket k (fst (fst pd)) (snd (fst pd)) 0 ts (snd pd)))
      as (s' & E & P1 & P2 & P3 & P4 & P5 & P6 & P7 & P8).
    + change (p_subs s3) with (p_subs s). rewrite (i_subs _ _ _ _ I). apply I.
    + exact Hpka.
    + cbn. lia.
    + change (p_subs s3) with (p_subs s). rewrite (i_subs _ _ _ _ I). cbn [pk_ref]. apply I.
    + intros sub b _ Hin. change (p_sinf s3 sub) with (p_sinf s sub) in Hin.
      apply (sinf_incl I) in Hin. assert (b <> a) by (intros ->; exact (HnL Hin)).
      apply in_map_fst in Hin. destruct Hin as [e He].
      change (p_packs s3 b) with (p_packs s2 b). rewrite Hpk by assumption.
      change (pid_of s3 b) with (pid_of s2 b). rewrite (Hpid2 b e He), (i_packL _ _ _ _ I _ _ He).
      cbn. split; [discriminate|]. split; [assumption|exact (Hlt b e He)].
    + change (p_subs s3) with (p_subs s) in *. rewrite (i_subs _ _ _ _ I) in *.
      exists s', (L ++ [(a, mkE k pd ts (sp_reg sp))]). split; [exact E|]. split; [|split; [reflexivity|split]].
      2:{ intros b Hb. rewrite P2 by exact Hb. apply Hpk, Hb. }
      2:{ right. split; [lia|reflexivity]. }
      assert (HpL : forall b e, In (b, e) L -> p_packs s' b = Some (pk_entry e)).
      { intros b e Hin. rewrite P2 by exact (HinL _ _ Hin). change (p_packs s3 b) with (p_packs s2 b).
        rewrite Hpk by exact (HinL _ _ Hin). exact (i_packL _ _ _ _ I _ _ Hin). }
      split; cbn [sp_next sp_reg sp_live sp_ann sp_data fst].
      * rewrite P7. apply I.
      * apply I.
      * exact P4.
      * apply I.
      * apply I.
      * rewrite map_app, (i_L _ _ _ _ I). reflexivity.
      * rewrite P6. unfold s3, set_inflight. cbn [p_inflight rev]. change (p_inflight s2) with (p_inflight s).
        rewrite (i_infl _ _ _ _ I), map_app. reflexivity.
      * exact HQ.
      * rewrite P5. unfold s3, s2, set_inflight, set_queued. cbn [p_queued]. apply rev_involutive.
      * rewrite map_app, app_assoc. apply NoDup_app_intro; [exact Hnd'|repeat constructor; auto|].
        intros x Hx [<-|[]]. exact (Hna Hx).
      * intros b e Hin. apply in_app_or in Hin. destruct Hin as [Hin|[Hin|[]]]; [exact (HpL b e Hin)|].
        injection Hin as <- <-. rewrite P1. unfold pk_entry, with_ref. cbn. f_equal.
      * intros b q' Hin. rewrite P2 by exact (HinQ _ _ Hin). change (p_packs s3 b) with (p_packs s2 b).
        rewrite Hpk by exact (HinQ _ _ Hin). apply (i_packQ _ _ _ _ I). right. exact Hin.
      * intros b Hb. rewrite P3. change (p_fresh s3) with (p_fresh s). apply (i_fresh _ _ _ _ I).
        cbn [map fst app]. rewrite map_app in Hb. rewrite !in_app_iff in Hb. cbn [map fst In] in *.
        rewrite in_app_iff. tauto.
      * intros sub. rewrite P8, filter_map_app_holds. cbn [e_hold].
        change (p_sinf s3 sub) with (p_sinf s sub).
        destruct (mem sub (sp_reg sp)); cbn [rev]; rewrite (i_sinf _ _ _ _ I); [reflexivity|rewrite app_nil_r; reflexivity].
      * rewrite map_app, <- app_assoc. cbn [map e_pid app]. pose proof (i_sort _ _ _ _ I) as X. rewrite Ed in X. exact X.
      * rewrite map_app, <- app_assoc. cbn [map e_pid app]. pose proof (i_pidr _ _ _ _ I) as X. rewrite Ed in X. exact X.
      * intros e He. apply in_app_or in He. destruct He as [He|[<-|[]]]; [apply I; exact He|]. cbn.
        split; [apply I|apply incl_refl].
  - (* announce *)
    cbn [map app] in HQ. injection HQ as -> HQ. cbn [fst snd] in *. cbn [Z.eqb].
    exists s2, L. split; [reflexivity|]. split; [|split; [reflexivity|split; [exact Hpk|left; auto]]].
    destruct I. split; cbn [sp_next sp_reg sp_live sp_ann sp_data fst]; auto.
    + unfold s2, set_queued. cbn [p_queued]. apply rev_involutive.
    + intros b e Hin. rewrite Hpk by exact (HinL _ _ Hin). auto.
    + intros b q' Hin. rewrite Hpk by exact (HinQ _ _ Hin). apply i_packQ0. right. exact Hin.
    + intros b Hb. apply i_fresh0. right. exact Hb.
Qed.

(** ** Acknowledging *)
Definition hit (sub : nat) (sel : entry -> bool) (e : entry) : bool := sel e && mem sub (e_hold e).
Definition left_over (sub : nat) (e : entry) : list entry :=
  if unclaimed (drop_claim sub e) then [] else [drop_claim sub e].
Definition let_go (sub : nat) (e : entry) : list pl :=
  if unclaimed (drop_claim sub e) then [e_pl e] else [].

Lemma release_cons sub sel e l : release sub sel (e :: l) =
  ((if hit sub sel e then left_over sub e else [e]) ++ fst (release sub sel l),
   (if hit sub sel e then let_go sub e else []) ++ snd (release sub sel l)).
Proof.
  unfold release. cbn [flat_map fst snd]. unfold hit, left_over, let_go.
  destruct (sel e && mem sub (e_hold e)); cbn [andb]; reflexivity.
Qed.
Lemma release_app sub sel l1 l2 : release sub sel (l1 ++ l2) =
  (fst (release sub sel l1) ++ fst (release sub sel l2), snd (release sub sel l1) ++ snd (release sub sel l2)).
Proof. unfold release. cbn [fst snd]. rewrite !flat_map_app. reflexivity. Qed.
Lemma release_none sub sel l : (forall e, In e l -> hit sub sel e = false) -> release sub sel l = (l, []).
Proof.
  induction l as [|e l IH]; intros H; [reflexivity|]. rewrite release_cons, IH by (intros; apply H; right; assumption).
  rewrite (H e (or_introl eq_refl)). reflexivity.
Qed.
Lemma release_one sub sel l1 e l2 : (forall x, In x l1 -> hit sub sel x = false) -> hit sub sel e = true ->
  (forall x, In x l2 -> hit sub sel x = false) ->
  release sub sel (l1 ++ e :: l2) = (l1 ++ left_over sub e ++ l2, let_go sub e).
Proof.
  intros H1 He H2. rewrite release_app, release_cons, He, !release_none by assumption. cbn [fst snd app].
  rewrite app_nil_r. reflexivity.
Qed.

Definition left_overL (sub : nat) (a : nat) (e : entry) : list (nat * entry) :=
  if unclaimed (drop_claim sub e) then [] else [(a, drop_claim sub e)].

Lemma map_snd_split {X Y} (l : list (X * Y)) l1 y l2 : map snd l = l1 ++ y :: l2 ->
  exists k1 x k2, l = k1 ++ (x, y) :: k2 /\ map snd k1 = l1 /\ map snd k2 = l2.
Proof.
  intros H. apply map_eq_app in H. destruct H as (k1 & k' & -> & H1 & H2).
  destruct k' as [|[x y'] k2]; [discriminate|]. cbn in H2. injection H2 as -> H2.
  exists k1, x, k2. auto.
Qed.
Lemma map_fst_split {X Y} (l : list (X * Y)) l1 x l2 : map fst l = l1 ++ x :: l2 ->
  exists k1 y k2, l = k1 ++ (x, y) :: k2 /\ map fst k1 = l1 /\ map fst k2 = l2.
Proof.
  intros H. apply map_eq_app in H. destruct H as (k1 & k' & -> & H1 & H2).
  destruct k' as [|[x' y] k2]; [discriminate|]. cbn in H2. injection H2 as -> H2.
  exists k1, y, k2. auto.
Qed.

Lemma filter_left_over sub' sub a e : map fst (filter (holds sub') (left_overL sub a e)) =
  if mem sub' (rm sub (e_hold e)) then [a] else [].
Proof.
  unfold left_overL, unclaimed. cbn [drop_claim e_hold].
  destruct (rm sub (e_hold e)) as [|y l] eqn:E; [reflexivity|]. cbn [filter]. unfold holds. cbn [snd e_hold drop_claim].
  rewrite E. destruct (mem sub' (y :: l)); reflexivity.
Qed.

Lemma SS_remove_mid l1 (x : Z) l2 : StronglySorted Z.lt (l1 ++ x :: l2) -> StronglySorted Z.lt (l1 ++ l2).
Proof.
  intros H. apply SSapp; [exact (SSapp_l _ _ _ H)| |].
  - apply SSapp_r in H. inversion H; assumption.
  - intros a b Ha Hb. apply (SSapp_lt _ _ _ _ _ H Ha). right. exact Hb.
Qed.

(** The effect of pub_packet_ack when the packet is in flight for the subscriber. *)
Lemma inv_ack_hit s sp L1 a e L2 Q sub : Inv s sp (L1 ++ (a, e) :: L2) Q -> In sub (e_hold e) ->
  exists s', pub_packet_ack s sub (e_pid e) = Ok (s', let_go sub e) /\
    Inv s' (mkSpec (sp_next sp) (sp_reg sp) (sp_ann sp) (sp_data sp)
                   (map snd L1 ++ left_over sub e ++ map snd L2)) (L1 ++ left_overL sub a e ++ L2) Q /\
    (forall b, b <> a -> p_packs s' b = p_packs s b) /\ p_queued s' = p_queued s /\ p_fresh s' = p_fresh s.
Proof.
  intros I Hsub. set (L := L1 ++ (a, e) :: L2) in *.
  assert (Hae : In (a, e) L) by (unfold L; apply in_or_app; right; left; reflexivity).
  assert (Hlive : sp_live sp = map snd L1 ++ e :: map snd L2).
  { rewrite <- (i_L _ _ _ _ I). unfold L. rewrite map_app. reflexivity. }
  destruct (i_hold _ _ _ _ I e (inv_entry_in I _ _ Hae)) as [Hnde Hince].
  pose proof (i_regn _ _ _ _ I) as Hregn.
  assert (Hle : zlen (e_hold e) <= zlen (sp_reg sp)).
  { unfold zlen. pose proof (NoDup_incl_length Hnde Hince). lia. }
  assert (Hpos : 1 <= zlen (e_hold e)).
  { destruct (e_hold e); [destruct Hsub|]. rewrite zlen_cons. pose proof (zlen_nonneg l). lia. }
  assert (Hrm : zlen (rm sub (e_hold e)) = zlen (e_hold e) - 1) by (apply rm_zlen; assumption).
  assert (Huniq : forall b f, In (b, f) L -> e_pid f = e_pid e -> (b, f) = (a, e)).
  { intros b f Hin Hpid. pose proof (SSapp_l _ _ _ (i_sort _ _ _ _ I)) as Hs. rewrite Hlive, map_app in Hs. cbn [map] in Hs.
    unfold L in Hin. apply in_app_or in Hin. destruct Hin as [Hin|[Hin|Hin]].
    - exfalso. assert (e_pid f < e_pid e); [|lia]. apply (SSapp_lt _ _ _ _ _ Hs); [|left; reflexivity].
      apply in_map. apply in_map_iff. exists (b, f). auto.
    - congruence.
    - exfalso. apply SSapp_r in Hs. inversion Hs as [|? ? _ HF]; subst. rewrite Forall_forall in HF.
      assert (e_pid e < e_pid f); [|lia]. apply HF. apply in_map. apply in_map_iff. exists (b, f). auto. }
  assert (HndL := inv_ndL I).
  assert (HnaL : ~ In a (map fst L1) /\ ~ In a (map fst L2)).
  { unfold L in HndL. rewrite map_app in HndL. cbn [map fst] in HndL. apply NoDup_remove_2 in HndL.
    rewrite in_app_iff in HndL. tauto. }
  assert (HnaQ : ~ In a (map fst Q)).
  { intros X. apply (NoDup_app_disj _ _ a (i_nd _ _ _ _ I) X). exact (map_fst_in _ _ _ Hae). }
  assert (HneL : forall b f, In (b, f) (L1 ++ L2) -> b <> a /\ In (b, f) L).
  { intros b f Hin. split.
    - intros ->. apply in_app_or in Hin. destruct Hin as [X|X]; apply map_fst_in in X; tauto.
    - unfold L. rewrite in_app_iff in *. cbn. tauto. }
  assert (Hfl : filter (holds sub) L = filter (holds sub) L1 ++ (a, e) :: filter (holds sub) L2).
  { unfold L. rewrite filter_app. cbn [filter]. unfold holds at 2. cbn [snd].
    replace (mem sub (e_hold e)) with true by (symmetry; apply mem_In; exact Hsub). reflexivity. }
  assert (Hrs : rev (p_sinf s sub) = map fst (filter (holds sub) L1) ++ a :: map fst (filter (holds sub) L2)).
  { rewrite (i_sinf _ _ _ _ I), Hfl, map_app. reflexivity. }
  assert (Hf1 : Forall (fun b => (pid_of s b =? e_pid e) = false) (map fst (filter (holds sub) L1))).
  { apply Forall_forall. intros b Hb. apply in_map_fst in Hb. destruct Hb as [f Hb]. apply filter_In in Hb.
    destruct Hb as [Hb _]. assert (Hin : In (b, f) L) by (unfold L; apply in_or_app; auto).
    rewrite (inv_pidL I b f Hin). apply Z.eqb_neq. intros X. specialize (Huniq b f Hin X).
    injection Huniq as -> ->. apply map_fst_in in Hb. tauto. }
  assert (Hpa : (pid_of s a =? e_pid e) = true) by (rewrite (inv_pidL I a e Hae); apply Z.eqb_refl).
  unfold pub_packet_ack. rewrite (inv_check_sinf I sub). cbn [bind].
  rewrite Hrs, (find_app_r _ _ _ _ Hf1 Hpa), (rm1_app_r _ _ _ _ Hf1 Hpa).
  set (s1 := set_sinf s sub _).
  unfold get_pack. change (p_packs s1 a) with (p_packs s a). rewrite (i_packL _ _ _ _ I _ _ Hae). cbn [bind].
  cbn [pk_entry pk_pid pk_payload pk_len pk_ref pk_ts pk_user].
  rewrite u32_small by (unfold is_u32; lia).
  set (s2 := set_pack s1 a _).
  assert (Hpk2 : forall b, b <> a -> p_packs s2 b = p_packs s b).
  { intros b Hb. unfold s2, s1, set_pack, set_sinf. cbn. apply upd_other, Hb. }
  assert (Hsinf2 : forall sub', rev (p_sinf s2 sub') =
            map fst (filter (holds sub') L1) ++ (if mem sub' (rm sub (e_hold e)) then [a] else []) ++
            map fst (filter (holds sub') L2)).
  { intros sub'. unfold s2, s1, set_pack, set_sinf. cbn [p_sinf]. destruct (Nat.eq_dec sub' sub) as [->|Hne].
    - rewrite upd_same, rev_involutive, mem_rm_eq. reflexivity.
    - rewrite upd_other, mem_rm_ne, (i_sinf _ _ _ _ I) by exact Hne. unfold L. rewrite filter_app, map_app.
      cbn [filter]. unfold holds at 2. cbn [snd]. destruct (mem sub' (e_hold e)); reflexivity. }
  assert (HsinfL : forall sub', rev (p_sinf s2 sub') =
            map fst (filter (holds sub') (L1 ++ left_overL sub a e ++ L2))).
  { intros sub'. rewrite Hsinf2, !filter_app, !map_app, filter_left_over. reflexivity. }
  assert (Hsort' : forall E, (E = [] \/ E = [e_pid e]) ->
     StronglySorted Z.lt ((map e_pid (map snd L1) ++ E ++ map e_pid (map snd L2)) ++ map fst (sp_data sp)) /\
     Forall (fun k => 1 <= k < sp_next sp) ((map e_pid (map snd L1) ++ E ++ map e_pid (map snd L2)) ++ map fst (sp_data sp))).
  { pose proof (i_sort _ _ _ _ I) as Hs. pose proof (i_pidr _ _ _ _ I) as Hr.
    rewrite Hlive, map_app in Hs, Hr. cbn [map] in Hs, Hr.
    intros E [->| ->]; cbn [app]; [|split; assumption].
    rewrite <- app_assoc in Hs, Hr. cbn [app] in Hs, Hr. rewrite <- app_assoc. split; [exact (SS_remove_mid _ _ _ Hs)|].
    apply Forall_app in Hr. destruct Hr as [R1 R2]. inversion R2; subst. apply Forall_app. split; assumption. }
  destruct (zlen (e_hold e) - 1 =? 0) eqn:Ez.
  - (* last claim *)
    assert (Hun : rm sub (e_hold e) = []).
    { destruct (rm sub (e_hold e)) as [|y l]; [reflexivity|]. rewrite zlen_cons in Hrm. pose proof (zlen_nonneg l). lia. }
    assert (Hlo : left_over sub e = [] /\ left_overL sub a e = [] /\ let_go sub e = [e_pl e]).
    { unfold left_over, left_overL, let_go, unclaimed. cbn [drop_claim e_hold]. rewrite Hun. auto. }
    destruct Hlo as (Hlo1 & Hlo2 & Hlo3). rewrite Hlo1, Hlo2, Hlo3 in *. cbn [app] in *.
    unfold unlink_parent. change (p_queued s2) with (p_queued s). change (p_inflight s2) with (p_inflight s).
    replace (mem a (p_queued s)) with false.
    2:{ symmetry. apply mem_nIn. rewrite (inv_queued I), <- in_rev. exact HnaQ. }
    assert (Hin : p_inflight s = rev (map fst L2) ++ a :: rev (map fst L1)).
    { rewrite (inv_infl I). unfold L. rewrite map_app, rev_app_distr. cbn [map fst rev]. rewrite <- app_assoc. reflexivity. }
    rewrite Hin. replace (mem a _) with true.
    2:{ symmetry. apply mem_In. apply in_or_app. right. left. reflexivity. }
    rewrite rm1_nat by (rewrite <- in_rev; tauto). cbn [bind].
    eexists. split.
    { f_equal. f_equal. f_equal. destruct (e_pl e) as [[x y] z]. reflexivity. }
    split; [|split; [|split; reflexivity]].
    2:{ intros b Hb. cbn. rewrite upd_other by exact Hb. apply Hpk2, Hb. }
    destruct (Hsort' [] (or_introl eq_refl)) as [Hs1 Hs2]. cbn [app] in Hs1, Hs2.
    split; cbn [sp_next sp_reg sp_ann sp_data sp_live set_pack set_inflight p_next p_subs p_inflight p_queued p_packs p_fresh p_sinf];
      try (apply I).
    + rewrite map_app. reflexivity.
    + rewrite rev_app_distr, !rev_involutive, map_app. reflexivity.
    + pose proof (i_nd _ _ _ _ I) as X. unfold L in X. rewrite map_app in X. cbn [map fst] in X.
      rewrite app_assoc in X. rewrite map_app, app_assoc. exact (NoDup_remove_1 _ _ _ X).
    + intros b f Hin'. destruct (HneL b f Hin') as [Hb HbL]. rewrite upd_other by exact Hb.
      rewrite Hpk2 by exact Hb. exact (i_packL _ _ _ _ I _ _ HbL).
    + intros b q Hin'. assert (Hb : b <> a) by (intros ->; exact (HnaQ (map_fst_in _ _ _ Hin'))).
      rewrite upd_other by exact Hb. rewrite Hpk2 by exact Hb. exact (i_packQ _ _ _ _ I _ _ Hin').
    + intros b Hb. change (p_fresh s2) with (p_fresh s). apply (i_fresh _ _ _ _ I). unfold L.
      rewrite !map_app, !in_app_iff in *. cbn. tauto.
    + exact HsinfL.
    + rewrite map_app. exact Hs1.
    + rewrite map_app. exact Hs2.
    + intros f Hf. apply (i_hold _ _ _ _ I). rewrite Hlive. rewrite in_app_iff in *. cbn. tauto.
  - (* others still hold it *)
    assert (Hun : unclaimed (drop_claim sub e) = false).
    { unfold unclaimed. cbn [drop_claim e_hold]. destruct (rm sub (e_hold e)); [change (zlen (@nil nat)) with 0 in Hrm; lia|reflexivity]. }
    assert (Hlo : left_over sub e = [drop_claim sub e] /\ left_overL sub a e = [(a, drop_claim sub e)] /\ let_go sub e = []).
    { unfold left_over, left_overL, let_go. rewrite Hun. auto. }
    destruct Hlo as (Hlo1 & Hlo2 & Hlo3). rewrite Hlo1, Hlo2, Hlo3 in *. cbn [app] in *.
    exists s2. split; [reflexivity|]. split; [|split; [exact Hpk2|split; reflexivity]].
    destruct (Hsort' [e_pid e] (or_intror eq_refl)) as [Hs1 Hs2]. cbn [app] in Hs1, Hs2.
    split; cbn [sp_next sp_reg sp_ann sp_data sp_live]; try (apply I).
    + rewrite map_app. reflexivity.
    + change (p_inflight s2) with (p_inflight s). rewrite (i_infl _ _ _ _ I). unfold L. rewrite !map_app. reflexivity.
    + rewrite map_app. cbn [map fst]. pose proof (i_nd _ _ _ _ I) as X. unfold L in X. rewrite map_app in X. exact X.
    + intros b f Hin'. assert (Hc : (b, f) = (a, drop_claim sub e) \/ In (b, f) (L1 ++ L2)).
      { rewrite in_app_iff in *. cbn [In] in Hin'. intuition congruence. }
      destruct Hc as [Hc|Hc].
      * injection Hc as -> ->. unfold s2, set_pack. cbn. rewrite upd_same. unfold pk_entry. cbn. rewrite Hrm. reflexivity.
      * destruct (HneL b f Hc) as [Hb HbL]. rewrite Hpk2 by exact Hb. exact (i_packL _ _ _ _ I _ _ HbL).
    + intros b q Hin'. assert (Hb : b <> a) by (intros ->; exact (HnaQ (map_fst_in _ _ _ Hin'))).
      rewrite Hpk2 by exact Hb. exact (i_packQ _ _ _ _ I _ _ Hin').
    + intros b Hb. change (p_fresh s2) with (p_fresh s). apply (i_fresh _ _ _ _ I). unfold L.
      rewrite !map_app, !in_app_iff in *. cbn in *. tauto.
    + exact HsinfL.
    + rewrite map_app. exact Hs1.
    + rewrite map_app. exact Hs2.
    + intros f Hf. rewrite in_app_iff in Hf. cbn [In] in Hf.
      assert (Hc : drop_claim sub e = f \/ In f (sp_live sp)). { rewrite Hlive, in_app_iff. cbn. tauto. }
      destruct Hc as [<-|Hc]; [|apply I; exact Hc]. cbn. split; [apply rm_NoDup; exact Hnde|].
      intros y Hy. apply In_rm in Hy. apply Hince. tauto.
Qed.

Lemma find_none_iff {X} (f : X -> bool) l : (forall x, In x l -> f x = false) -> find f l = None.
Proof.
  induction l as [|x l IH]; intros H; cbn; [reflexivity|]. rewrite (H x (or_introl eq_refl)). apply IH.
  intros y Hy. apply H. right. exact Hy.
Qed.

(** Acknowledging something not in flight for that subscriber. *)
Lemma inv_ack_miss s sp L Q sub pid : Inv s sp L Q ->
  (forall e, In e (sp_live sp) -> e_pid e = pid -> ~ In sub (e_hold e)) ->
  pub_packet_ack s sub pid = Ok (s, []).
Proof.
  intros I H. unfold pub_packet_ack. rewrite (inv_check_sinf I sub). cbn [bind].
  rewrite find_none_iff; [reflexivity|]. intros a Ha. rewrite (i_sinf _ _ _ _ I) in Ha.
  apply in_map_fst in Ha. destruct Ha as [e He]. apply filter_In in He. destruct He as [He Hm].
  rewrite (inv_pidL I a e He). apply Z.eqb_neq. intros Heq. unfold holds in Hm. cbn in Hm. apply mem_In in Hm.
  exact (H e (inv_entry_in I _ _ He) Heq Hm).
Qed.

Lemma mkSpec_eta sp : mkSpec (sp_next sp) (sp_reg sp) (sp_ann sp) (sp_data sp) (sp_live sp) = sp.
Proof. destruct sp; reflexivity. Qed.

Lemma ack_cases (live : list entry) sub pid :
  (exists l1 e l2, live = l1 ++ e :: l2 /\ hit sub (fun e => e_pid e =? pid) e = true) \/
  (forall e, In e live -> hit sub (fun e => e_pid e =? pid) e = false).
Proof.
  induction live as [|e live IH]; [right; intros e []|].
  destruct (hit sub (fun e => e_pid e =? pid) e) eqn:E.
  - left. exists [], e, live. auto.
  - destruct IH as [(l1 & f & l2 & -> & H)|H].
    + left. exists (e :: l1), f, l2. auto.
    + right. intros f [<-|Hf]; auto.
Qed.

Lemma inv_ack s sp L Q sub pid : Inv s sp L Q ->
  exists s' L' fr, pub_packet_ack s sub pid = Ok (s', fr) /\
    spec_step sp (OpAck sub pid) = (fst (spec_step sp (OpAck sub pid)), OutFreed fr) /\
    Inv s' (fst (spec_step sp (OpAck sub pid))) L' Q /\ p_queued s' = p_queued s /\ p_fresh s' = p_fresh s /\
    (forall b, ~ In b (map fst L) -> p_packs s' b = p_packs s b).
Proof.
  intros I. cbn [spec_step].
  destruct (ack_cases (sp_live sp) sub pid) as [(l1 & e & l2 & El & Hh)|Hno].
  - assert (Hh' := Hh). unfold hit in Hh'. apply andb_prop in Hh'. destruct Hh' as [Hp Hm]. apply mem_In in Hm.
    apply Z.eqb_eq in Hp. pose proof (i_L _ _ _ _ I) as HL. rewrite El in HL.
    destruct (map_snd_split L l1 e l2 HL) as (L1 & a & L2 & -> & H1 & H2).
    destruct (inv_ack_hit s sp L1 a e L2 Q sub I Hm) as (s' & E & I' & Hpk & Hq & Hfr).
    pose proof (SSapp_l _ _ _ (i_sort _ _ _ _ I)) as Hs. rewrite El, map_app in Hs. cbn [map] in Hs.
    assert (Hr : release sub (fun e => e_pid e =? pid) (sp_live sp) = (l1 ++ left_over sub e ++ l2, let_go sub e)).
    { rewrite El. apply release_one; [|exact Hh|].
      - intros x Hx. unfold hit. replace (e_pid x =? pid) with false; [reflexivity|].
        assert (e_pid x < e_pid e); [|lia]. apply (SSapp_lt _ _ _ _ _ Hs); [apply in_map; exact Hx|left; reflexivity].
      - intros x Hx. unfold hit. replace (e_pid x =? pid) with false; [reflexivity|].
        apply SSapp_r in Hs. inversion Hs as [|? ? _ HF]; subst. rewrite Forall_forall in HF.
        specialize (HF (e_pid x) (in_map e_pid _ _ Hx)). lia. }
    rewrite Hr. rewrite Hp, H1, H2 in *. exists s', (L1 ++ left_overL sub a e ++ L2), (let_go sub e).
    split; [exact E|]. split; [reflexivity|]. split; [exact I'|]. split; [exact Hq|]. split; [exact Hfr|].
    intros b Hb. apply Hpk. intros ->. apply Hb. rewrite map_app, in_app_iff. right. left. reflexivity.
  - rewrite (release_none _ _ _ Hno), mkSpec_eta. cbn [fst].
    exists s, L, []. split; [|auto 6]. apply (inv_ack_miss s sp L Q sub pid I).
    intros e He Heq Hin. specialize (Hno e He). unfold hit in Hno.
    replace (e_pid e =? pid) with true in Hno by lia. apply mem_In in Hin. rewrite Hin in Hno. discriminate.
Qed.

(** ** Removing a subscriber *)
Lemma reset_loop_spec n : forall s sp L Q sub fuel fr, Inv s sp L Q ->
  length (filter (holds sub) L) = n -> (n <= fuel)%nat ->
  exists s' L', reset_loop fuel s sub fr = Ok (s', fr ++ snd (release sub (fun _ => true) (sp_live sp))) /\
    Inv s' (mkSpec (sp_next sp) (sp_reg sp) (sp_ann sp) (sp_data sp) (fst (release sub (fun _ => true) (sp_live sp)))) L' Q /\
    filter (holds sub) L' = [] /\ p_queued s' = p_queued s /\ p_fresh s' = p_fresh s /\
    (forall b, ~ In b (map fst L) -> p_packs s' b = p_packs s b).
Proof.
  induction n as [|n IH]; intros s sp L Q sub fuel fr I Hlen Hfuel.
  - apply length_zero_iff_nil in Hlen.
    assert (Hrel : release sub (fun _ => true) (sp_live sp) = (sp_live sp, [])).
    { apply release_none. intros e He. unfold hit. cbn. apply mem_nIn. intros Hin.
      rewrite <- (i_L _ _ _ _ I) in He. apply in_map_iff in He. destruct He as ([a f] & <- & He). cbn in *.
      assert (X : In (a, f) (filter (holds sub) L)). { apply filter_In. split; [exact He|]. unfold holds. cbn. apply mem_In. exact Hin. }
      rewrite Hlen in X. destruct X. }
    rewrite Hrel. cbn [fst snd]. rewrite app_nil_r, mkSpec_eta.
    assert (Hl : last_opt (p_sinf s sub) = None) by (rewrite (inv_sinf I), Hlen; reflexivity).
    exists s, L. split; [|auto 6]. destruct fuel; cbn [reset_loop]; rewrite Hl; reflexivity.
  - destruct (filter (holds sub) L) as [|[a e] FL] eqn:EF; [discriminate|].
    assert (Hsplit : exists L1 L2, L = L1 ++ (a, e) :: L2 /\ filter (holds sub) L1 = [] /\ mem sub (e_hold e) = true /\
               filter (holds sub) L2 = FL).
    { clear -EF. induction L as [|x L IHL]; [discriminate|]. cbn [filter] in EF. destruct (holds sub x) eqn:Ex.
      - injection EF as -> EF. exists [], L. auto.
      - destruct (IHL EF) as (L1 & L2 & -> & H1 & H2 & H3). exists (x :: L1), L2. split; [reflexivity|].
        cbn [filter]. rewrite Ex. auto. }
    destruct Hsplit as (L1 & L2 & EL & HL1 & Hm & HL2). apply mem_In in Hm.
    assert (Hl : last_opt (p_sinf s sub) = Some a) by (rewrite (inv_sinf I), last_opt_rev, EF; reflexivity).
    destruct fuel as [|fuel]; [lia|]. cbn [reset_loop]. rewrite Hl.
    assert (Hin : In (a, e) L) by (rewrite EL; apply in_or_app; right; left; reflexivity).
    unfold get_pack. rewrite (i_packL _ _ _ _ I _ _ Hin). cbn [bind pk_entry pk_pid].
    assert (HL := i_L _ _ _ _ I). subst L.
    destruct (inv_ack_hit s sp L1 a e L2 Q sub I Hm) as (s1 & E1 & I1 & Hpk & Hq & Hfr).
    rewrite E1. cbn [bind fst snd].
    set (sp1 := mkSpec _ _ _ _ _) in *.
    assert (Hflo : filter (holds sub) (left_overL sub a e) = []).
    { pose proof (filter_left_over sub sub a e) as X. rewrite mem_rm_eq in X. apply map_eq_nil in X. exact X. }
    destruct (IH s1 sp1 (L1 ++ left_overL sub a e ++ L2) Q sub fuel (fr ++ let_go sub e) I1)
      as (s' & L' & E2 & I2 & HF & Hq2 & Hfr2 & Hpk2).
    + rewrite !filter_app, HL1, Hflo, HL2. cbn [app]. cbn in Hlen. lia.
    + lia.
    + assert (Hno1 : forall x, In x (map snd L1) -> hit sub (fun _ => true) x = false).
      { intros x Hx. unfold hit. cbn. destruct (mem sub (e_hold x)) eqn:Ex; [|reflexivity]. exfalso.
        apply in_map_iff in Hx. destruct Hx as ([b f] & <- & Hx). cbn in Ex.
        assert (X : In (b, f) (filter (holds sub) L1)) by (apply filter_In; auto). rewrite HL1 in X. destruct X. }
      assert (Hno2 : forall x, In x (left_over sub e) -> hit sub (fun _ => true) x = false).
      { intros x Hx. unfold left_over in Hx. destruct (unclaimed _); [destruct Hx|]. destruct Hx as [<-|[]].
        unfold hit. cbn. apply mem_rm_eq. }
      assert (Hhe : hit sub (fun _ => true) e = true) by (unfold hit; cbn; apply mem_In; exact Hm).
      assert (Hrel : release sub (fun _ => true) (sp_live sp) =
                (fst (release sub (fun _ => true) (sp_live sp1)), let_go sub e ++ snd (release sub (fun _ => true) (sp_live sp1)))).
      { rewrite <- HL. unfold sp1. cbn [sp_live]. rewrite map_app. cbn [map snd].
        rewrite !release_app, release_cons, Hhe, (release_none _ _ (map snd L1) Hno1),
          (release_none _ _ (left_over sub e) Hno2). reflexivity. }
      rewrite Hrel. cbn [fst snd]. rewrite app_assoc. exists s', L'. split; [exact E2|]. split; [exact I2|].
      split; [exact HF|]. split; [congruence|]. split; [congruence|].
      intros b Hb. assert (Hba : b <> a).
      { intros ->. apply Hb. rewrite map_app, in_app_iff. right. left. reflexivity. }
      rewrite Hpk2; [apply Hpk, Hba|]. rewrite !map_app, !in_app_iff in *. cbn [map fst In] in Hb.
      intros [X|[X|X]]; [tauto| |tauto]. unfold left_overL in X. destruct (unclaimed _); [destruct X|].
      cbn in X. destruct X as [X|[]]. congruence.
Qed.

Lemma inv_unsubscribe s sp L Q sub : Inv s sp L Q -> In sub (sp_reg sp) ->
  exists s' L' fr, pub_reset_subscriber s sub = Ok (s', fr) /\
    spec_step sp (OpUnsubscribe sub) = (fst (spec_step sp (OpUnsubscribe sub)), OutFreed fr) /\
    Inv s' (fst (spec_step sp (OpUnsubscribe sub))) L' Q /\ p_queued s' = p_queued s /\ p_fresh s' = p_fresh s /\
    p_sinf s' sub = [] /\
    (forall b, ~ In b (map fst L) -> p_packs s' b = p_packs s b).
Proof.
  intros I Hin. cbn [spec_step].
  destruct (release sub (fun _ => true) (sp_live sp)) as [live fr] eqn:Er. cbn [fst].
  unfold pub_reset_subscriber.
  destruct (reset_loop_spec (length (filter (holds sub) L)) s sp L Q sub (length (p_sinf s sub)) [] I eq_refl)
    as (s1 & L' & E & I1 & HF & Hq & Hfr & Hpk).
  { rewrite (inv_sinf I), rev_length, map_length. lia. }
  rewrite Er in *. cbn [fst snd app] in *. rewrite E. cbn [bind fst snd].
  rewrite (i_subs _ _ _ _ I1). cbn [sp_reg].
  replace (mem sub (sp_reg sp)) with true by (symmetry; apply mem_In; exact Hin).
  exists (set_subs s1 (rm1 (Nat.eqb sub) (sp_reg sp))), L', fr. split; [reflexivity|]. split; [reflexivity|].
  split; [|split; [exact Hq|split; [exact Hfr|split; [|exact Hpk]]]].
  2:{ unfold set_subs. cbn. rewrite (inv_sinf I1), HF. reflexivity. }
  assert (Hnd := i_regnd _ _ _ _ I).
  split; unfold set_subs; cbn [sp_next sp_reg sp_ann sp_data sp_live p_next p_subs p_inflight p_queued p_packs p_fresh p_sinf];
    try (apply I1).
  - apply rm1_rm. exact Hnd.
  - apply rm_NoDup. exact Hnd.
  - rewrite rm_zlen by assumption. pose proof (i_regn _ _ _ _ I). lia.
  - intros e He. destruct (i_hold _ _ _ _ I1 e He) as [H1 H2]. split; [exact H1|].
    intros x Hx. apply In_rm. split; [exact (H2 x Hx)|]. intros ->.
    pose proof (i_L _ _ _ _ I1) as HL1. cbn [sp_live] in HL1. rewrite <- HL1 in He.
    apply in_map_iff in He. destruct He as ([a f] & <- & He). cbn in Hx.
    assert (X : In (a, f) (filter (holds sub) L')). { apply filter_In. split; [exact He|]. unfold holds. cbn. apply mem_In. exact Hx. }
    rewrite HF in X. destruct X.
Qed.

(** ** The refinement *)
Lemma inv_step s sp L Q o : Inv s sp L Q -> op_legal sp o ->
  exists s' L' Q', pub_step s o = Ok (s', snd (spec_step sp o)) /\ Inv s' (fst (spec_step sp o)) L' Q'.
Proof.
  intros I Hl. destruct o as [sub|sub|[[p len] u]|[[p len] u]|ts|sub pid]; cbn [pub_step].
  - destruct Hl. exists (pub_init_subscriber s sub), L, Q. split; [reflexivity|]. apply inv_subscribe; assumption.
  - destruct (inv_unsubscribe s sp L Q sub I Hl) as (s' & L' & fr & E & Es & I' & _). rewrite E, Es. cbn [bind fst snd].
    exists s', L', Q. auto.
  - destruct Hl. destruct (inv_queue s sp L Q p len u I H H0) as (s' & Q' & E & I' & _). rewrite E. cbn [bind fst snd].
    exists s', L, Q'. auto.
  - destruct (inv_announce s sp L Q p len u I Hl) as (s' & Q' & E & I' & _). rewrite E. cbn [bind fst snd].
    exists s', L, Q'. auto.
  - rewrite (next_queued_inv s sp L Q I). destruct Q as [|[a q] Q].
    + pose proof (i_Q _ _ _ _ I) as HQ. cbn in HQ. symmetry in HQ. apply app_eq_nil in HQ. destruct HQ as [H1 H2].
      apply map_eq_nil in H1. exists s, L, []. cbn [spec_step]. rewrite H1, H2. auto.
    + destruct (inv_sent s sp L a q Q ts I) as (s' & L' & E & I' & Es & _).
      unfold get_pack. rewrite (i_packQ _ _ _ _ I a q (or_introl eq_refl)). cbn [bind]. rewrite E. cbn [bind].
      exists s', L', Q. split; [|exact I']. rewrite Es. destruct q as [k [[x y] z]]. reflexivity.
  - destruct (inv_ack s sp L Q sub pid I) as (s' & L' & fr & E & Es & I' & _). rewrite E, Es. cbn [bind fst snd].
    exists s', L', Q. auto.
Qed.

Lemma inv_run ops : forall s sp L Q, Inv s sp L Q -> legal sp ops ->
  exists s' L' Q', pub_run s ops = Ok (s', snd (spec_run sp ops)) /\ Inv s' (fst (spec_run sp ops)) L' Q'.
Proof.
  induction ops as [|o ops IH]; intros s sp L Q I Hl; cbn [pub_run spec_run].
  - exists s, L, Q. auto.
  - destruct Hl as [H1 H2]. destruct (inv_step s sp L Q o I H1) as (s1 & L1 & Q1 & E1 & I1).
    destruct (spec_step sp o) as [sp1 x]. cbn [fst snd] in *.
    destruct (IH s1 sp1 L1 Q1 I1 H2) as (s2 & L2 & Q2 & E2 & I2). rewrite E1. cbn [bind fst snd]. rewrite E2. cbn [bind fst snd].
    destruct (spec_run sp1 ops) as [sp2 xs]. cbn [fst snd] in *. exists s2, L2, Q2. auto.
Qed.
