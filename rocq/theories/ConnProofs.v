(** ConnProofs.v — the connection table: slots, lookup, bookkeeping and poll registrations. *)
From Verif Require Import Base CircBuf Wire Conn SpecConn.

(** ** Slots *)
Lemma replace_length {X} n (x : X) l : length (replace n x l) = length l.
Proof. revert n; induction l as [|y l IH]; intros [|n]; simpl; auto. Qed.
Lemma nth_replace {X} n m (x : X) l :
  nth_error (replace n x l) m = if Nat.eqb m n then (if Nat.ltb n (length l) then Some x else None) else nth_error l m.
Proof.
  revert n m; induction l as [|y l IH]; intros n m; simpl.
  - destruct (Nat.eqb m n); [destruct n|]; destruct m; reflexivity.
  - destruct n as [|n], m as [|m]; simpl; try reflexivity. rewrite IH. reflexivity.
Qed.
Lemma size_put v i c : v_size (put_slot v i c) = v_size v.
Proof. unfold v_size, put_slot, zlen; simpl. rewrite replace_length. reflexivity. Qed.
Lemma slot_ok v i c : slot v i = Ok c <-> 0 <= i /\ nth_error (v_conns v) (Z.to_nat i) = Some c.
Proof.
  unfold slot. destruct (Z.leb_spec 0 i).
  - destruct (nth_error _ _) eqn:E; split; intros H'; try discriminate; try (split; [lia|]); try congruence;
      destruct H' as [_ H']; congruence.
  - split; [discriminate|lia].
Qed.
Lemma slot_range v i c : slot v i = Ok c -> 0 <= i < v_size v.
Proof.
  intros H. apply slot_ok in H. destruct H as [H0 H].
  assert (H1 : (Z.to_nat i < length (v_conns v))%nat) by (apply nth_error_Some; congruence).
  unfold v_size, zlen. lia.
Qed.
Lemma slot_ex v i : 0 <= i < v_size v -> exists c, slot v i = Ok c.
Proof.
  intros H. unfold v_size, zlen in H.
  destruct (nth_error (v_conns v) (Z.to_nat i)) eqn:E.
  - exists c. apply slot_ok. split; [lia|exact E].
  - apply nth_error_None in E. lia.
Qed.
Lemma slot_put_same v i c : 0 <= i < v_size v -> slot (put_slot v i c) i = Ok c.
Proof.
  intros H. apply slot_ok. split; [lia|]. unfold put_slot; simpl.
  rewrite nth_replace, Nat.eqb_refl.
  unfold v_size, zlen in H. destruct (Nat.ltb_spec (Z.to_nat i) (length (v_conns v))); [reflexivity|lia].
Qed.
Lemma slot_put_other v i c j : 0 <= i -> j <> i -> slot (put_slot v i c) j = slot v j.
Proof.
  intros H0 H. unfold slot, put_slot; simpl. destruct (Z.leb_spec 0 j); [|reflexivity].
  rewrite nth_replace. destruct (Nat.eqb_spec (Z.to_nat j) (Z.to_nat i)); [lia|reflexivity].
Qed.
Lemma slot_put v i c j c' : 0 <= i < v_size v -> slot (put_slot v i c) j = Ok c' ->
  (j = i /\ c' = c) \/ (j <> i /\ slot v j = Ok c').
Proof.
  intros H H'. destruct (Z.eq_dec j i) as [->|N].
  - rewrite slot_put_same in H' by exact H. left. split; congruence.
  - rewrite slot_put_other in H' by (lia || exact N). right; auto.
Qed.
Lemma slot_set_max v m i : slot (set_max v m) i = slot v i. Proof. reflexivity. Qed.
Lemma slot_set_active v m i : slot (set_active v m) i = slot v i. Proof. reflexivity. Qed.
Lemma slot_reset_max v i : slot (reset_max v) i = slot v i. Proof. reflexivity. Qed.

(** ** Counting open connections *)
Definition b_open (c : conn) : Z := if c_mode c =? CLOSED then 0 else 1.
Lemma count_replace l n c c' : nth_error l n = Some c ->
  zlen (filter (fun c => negb (c_mode c =? CLOSED)) (replace n c' l)) =
  zlen (filter (fun c => negb (c_mode c =? CLOSED)) l) - b_open c + b_open c'.
Proof.
  revert n; induction l as [|y l IH]; intros [|n] H; simpl in H; try discriminate.
  - injection H as ->. simpl. unfold b_open.
    destruct (c_mode c =? CLOSED), (c_mode c' =? CLOSED); cbn [negb]; rewrite ?zlen_cons; lia.
  - simpl. specialize (IH n H). destruct (negb (c_mode y =? CLOSED)); rewrite ?zlen_cons; lia.
Qed.
Lemma count_put v i c c' : slot v i = Ok c ->
  count_open (put_slot v i c') = count_open v - b_open c + b_open c'.
Proof.
  intros H. apply slot_ok in H. destruct H as [_ H]. unfold count_open, put_slot; simpl.
  apply count_replace. exact H.
Qed.
Lemma filter_le {X} (f : X -> bool) l : zlen (filter f l) <= zlen l.
Proof. induction l as [|x l IH]; simpl; [lia|]. destruct (f x); rewrite ?zlen_cons; lia. Qed.
Lemma count_range v : 0 <= count_open v <= v_size v.
Proof. unfold count_open, v_size. split; [apply zlen_nonneg|apply filter_le]. Qed.
Lemma count_pos v i c : is_open v i c -> 1 <= count_open v.
Proof.
  intros [H H']. apply slot_ok in H. destruct H as [_ H].
  unfold count_open. assert (Hin : In c (filter (fun c => negb (c_mode c =? CLOSED)) (v_conns v))).
  { apply filter_In. split; [eapply nth_error_In; exact H|]. destruct (Z.eqb_spec (c_mode c) CLOSED); [congruence|reflexivity]. }
  destruct (filter _ _); [destruct Hin|]. rewrite zlen_cons. pose proof (zlen_nonneg l). lia.
Qed.

(** ** Free slots and the maximal index *)
Lemma first_free_spec l ind : 0 <= ind -> ind + zlen l <= RMC_NIL_INDEX ->
  (first_free l ind = RMC_NIL_INDEX /\ forall n c, nth_error l n = Some c -> c_desc c <> -1)
  \/ (exists n c, first_free l ind = ind + Z.of_nat n /\ nth_error l n = Some c /\ c_desc c = -1 /\
      forall m c', (m < n)%nat -> nth_error l m = Some c' -> c_desc c' <> -1).
Proof.
  revert ind; induction l as [|y l IH]; intros ind H0 H; simpl.
  - left. split; [reflexivity|]. intros [|n] c E; discriminate.
  - rewrite zlen_cons in H. destruct (Z.eqb_spec (c_desc y) (-1)) as [E|E].
    + right. exists O, y. refine (conj _ (conj eq_refl (conj E _))); [lia|]. intros m c' Hm; lia.
    + destruct (IH (ind + 1)) as [[F A]|(n & c & F & A & B & C)]; [lia|lia| |].
      * left. split; [exact F|]. intros [|n] c En; simpl in En; [congruence|eauto].
      * right. exists (S n), c. refine (conj _ (conj A (conj B _))); [lia|].
        intros [|m] c' Hm Em; simpl in Em; [congruence|]. apply (C m); [lia|exact Em].
Qed.
Lemma free_slot_spec v : v_size v <= RMC_NIL_INDEX ->
  (fst (get_free_slot v) = RMC_NIL_INDEX /\ get_free_slot v = (RMC_NIL_INDEX, v) /\ forall i, ~ free_slot v i)
  \/ (exists i c, get_free_slot v = (i, if (v_max v <? i) || (v_max v =? RMC_NIL_INDEX) then set_max v i else v) /\
      i <> RMC_NIL_INDEX /\ lowest_free v i /\ slot v i = Ok c /\ c_desc c = -1 /\ 0 <= i < v_size v).
Proof.
  intros H. unfold get_free_slot.
  destruct (first_free_spec (v_conns v) 0) as [[F A]|(n & c & F & A & B & C)].
  { lia. } { unfold v_size in H. lia. }
  - left. rewrite F. simpl. refine (conj eq_refl (conj eq_refl _)).
    intros i (c & Hc & D). apply slot_ok in Hc. destruct Hc as [_ Hc]. exact (A _ _ Hc D).
  - right. assert (Hn : (n < length (v_conns v))%nat) by (apply nth_error_Some; congruence).
    unfold v_size, zlen in H.
    assert (Hs : slot v (Z.of_nat n) = Ok c) by (apply slot_ok; rewrite Nat2Z.id; split; [lia|exact A]).
    exists (Z.of_nat n), c. rewrite F. replace (0 + Z.of_nat n) with (Z.of_nat n) by lia.
    destruct (Z.eqb_spec (Z.of_nat n) RMC_NIL_INDEX) as [E|E]; [unfold RMC_NIL_INDEX in *; lia|].
    refine (conj eq_refl (conj E (conj _ (conj Hs (conj B _))))).
    + split; [exists c; auto|]. intros j Hj (c' & Hc' & D). apply slot_ok in Hc'. destruct Hc' as [_ Hc'].
      apply (C (Z.to_nat j) c'); [lia|exact Hc'|exact D].
    + unfold v_size, zlen. lia.
Qed.

Lemma last_used_spec l : forall ind best,
  (forall n c, nth_error l n = Some c -> c_desc c <> -1 ->
     exists m, last_used l ind best = ind + Z.of_nat m /\ (n <= m)%nat /\ (m < length l)%nat) /\
  ((forall n c, nth_error l n = Some c -> c_desc c = -1) -> last_used l ind best = best).
Proof.
  induction l as [|y l IH]; intros ind best; simpl.
  - split; [intros [|n] c E; discriminate|reflexivity].
  - destruct (IH (ind + 1) (if c_desc y =? -1 then best else ind)) as [A B]. split.
    + intros [|n] c E D.
      * simpl in E. injection E as ->. destruct (Z.eqb_spec (c_desc c) (-1)) as [X|X]; [congruence|].
        destruct (existsb (fun c => negb (c_desc c =? -1)) l) eqn:Ex.
        -- apply existsb_exists in Ex. destruct Ex as (c2 & I2 & D2).
           apply In_nth_error in I2. destruct I2 as [k Ek].
           destruct (A k c2 Ek) as (m & Hm & Hk & Hl).
           { destruct (Z.eqb_spec (c_desc c2) (-1)); [discriminate|assumption]. }
           exists (S m). split; [lia|]. split; lia.
        -- exists O. rewrite B; [split; [lia|split; lia]|].
           intros n c2 E2. destruct (Z.eqb_spec (c_desc c2) (-1)) as [Y|Y]; [exact Y|].
           exfalso. assert (existsb (fun c => negb (c_desc c =? -1)) l = true).
           { apply existsb_exists. exists c2. split; [eapply nth_error_In; exact E2|].
             destruct (Z.eqb_spec (c_desc c2) (-1)); [congruence|reflexivity]. }
           congruence.
      * simpl in E. destruct (A n c E D) as (m & Hm & Hk & Hl). exists (S m). split; [lia|]. split; lia.
    + intros H. rewrite B; [|intros n c E; exact (H (S n) c E)].
      specialize (H O y eq_refl). rewrite H. reflexivity.
Qed.

(** The table's maximal index bounds every slot whose descriptor is set. *)
Definition max_ok (v : cvec) : Prop :=
  (v_max v = RMC_NIL_INDEX \/ 0 <= v_max v < v_size v) /\
  forall i c, slot v i = Ok c -> c_desc c <> -1 -> v_max v <> RMC_NIL_INDEX /\ i <= v_max v.

Lemma last_used_nil l : forall ind best,
  last_used l ind best = best \/ exists m, last_used l ind best = ind + Z.of_nat m /\ (m < length l)%nat.
Proof.
  induction l as [|y l IH]; intros ind best; simpl; [left; reflexivity|].
  destruct (IH (ind + 1) (if c_desc y =? -1 then best else ind)) as [E|(m & E & L)].
  - destruct (c_desc y =? -1); [left; exact E|]. right. exists O. split; [lia|lia].
  - right. exists (S m). split; [lia|lia].
Qed.
Lemma reset_max_ok v : v_size v <= RMC_NIL_INDEX -> max_ok (reset_max v).
Proof.
  intros H. unfold max_ok. split.
  - unfold reset_max; simpl. destruct (last_used_nil (v_conns v) 0 RMC_NIL_INDEX) as [E|(m & E & L)].
    + left; exact E.
    + right. rewrite E. unfold v_size, zlen; simpl. lia.
  - intros i c Hs D. rewrite slot_reset_max in Hs. pose proof (slot_range _ _ _ Hs) as R.
    apply slot_ok in Hs. destruct Hs as [H0 Hs].
    destruct (proj1 (last_used_spec (v_conns v) 0 RMC_NIL_INDEX) _ _ Hs D) as (m & E & L & L').
    unfold reset_max; simpl. rewrite E. unfold v_size, zlen in *. lia.
Qed.
(** After a reset the maximal index is the index of a used slot. *)
Lemma reset_max_tight v : v_size v <= RMC_NIL_INDEX ->
  (v_max (reset_max v) = RMC_NIL_INDEX /\ forall i c, slot v i = Ok c -> c_desc c = -1) \/
  (exists c, slot v (v_max (reset_max v)) = Ok c /\ c_desc c <> -1).
Proof.
  intros H. destruct v as [l m0 a]. unfold reset_max; simpl.
  unfold v_size in H; simpl in H.
  assert (G : forall l ind best, (last_used l ind best = best /\ forall n c, nth_error l n = Some c -> c_desc c = -1)
     \/ exists m c, last_used l ind best = ind + Z.of_nat m /\ nth_error l m = Some c /\ c_desc c <> -1).
  { clear. induction l as [|y l IH]; intros ind best; simpl.
    - left. split; [reflexivity|]. intros [|n] c E; discriminate.
    - destruct (IH (ind + 1) (if c_desc y =? -1 then best else ind)) as [[E A]|(m & c & E & A & B)].
      + destruct (Z.eqb_spec (c_desc y) (-1)) as [X|X].
        * left. split; [exact E|]. intros [|n] c En; simpl in En; [congruence|eauto].
        * right. exists O, y. split; [lia|]. split; [reflexivity|exact X].
      + right. exists (S m), c. split; [lia|]. split; [exact A|exact B]. }
  destruct (G l 0 RMC_NIL_INDEX) as [[E A]|(m & c & E & A & B)].
  - left. split; [exact E|]. intros i c Hs. apply slot_ok in Hs. exact (A _ _ (proj2 Hs)).
  - right. exists c. split; [|exact B]. rewrite E. apply slot_ok. simpl. split; [lia|].
    replace (Z.to_nat (Z.of_nat m)) with m by lia. exact A.
Qed.

(** ** Lookup *)
Lemma find_from_spec v p : forall fuel ind, 0 <= ind -> ind + Z.of_nat fuel <= v_size v ->
  (exists i c, find_from v p ind fuel = Ok (Some i) /\ slot v i = Ok c /\ p c = true /\
     ind <= i < ind + Z.of_nat fuel /\ forall j c', ind <= j < i -> slot v j = Ok c' -> p c' = false) \/
  (find_from v p ind fuel = Ok None /\ forall j c', ind <= j < ind + Z.of_nat fuel -> slot v j = Ok c' -> p c' = false).
Proof.
  induction fuel as [|fuel IH]; intros ind H0 H; simpl.
  - right. split; [reflexivity|]. intros; lia.
  - destruct (slot_ex v ind) as [c Hc]; [lia|]. rewrite Hc. cbn [bind].
    destruct (p c) eqn:P.
    + left. exists ind, c. refine (conj eq_refl (conj Hc (conj P (conj _ _)))); [lia|]. intros; lia.
    + destruct (IH (ind + 1)) as [(i & c2 & A & B & C & D & F)|[A B]]; [lia|lia| |].
      * left. exists i, c2. refine (conj A (conj B (conj C (conj _ _)))); [lia|].
        intros j c' Hj Hs. destruct (Z.eq_dec j ind) as [->|]; [congruence|]. apply (F j); [lia|exact Hs].
      * right. split; [exact A|]. intros j c' Hj Hs.
        destruct (Z.eq_dec j ind) as [->|]; [congruence|]. apply (B j); [lia|exact Hs].
Qed.
(** A search for used slots finds the lowest one that satisfies the predicate. *)
Lemma find_conn_spec v p : max_ok v -> v_size v <= RMC_NIL_INDEX -> (forall c, p c = true -> c_desc c <> -1) ->
  (exists i c, find_conn v p = Ok (Some i) /\ slot v i = Ok c /\ p c = true /\
     forall j c', 0 <= j < i -> slot v j = Ok c' -> p c' = false) \/
  (find_conn v p = Ok None /\ forall j c', slot v j = Ok c' -> p c' = false).
Proof.
  intros [M1 M2] S P. unfold find_conn.
  destruct (Z.eqb_spec (v_max v) RMC_NIL_INDEX) as [E|E].
  - right. split; [reflexivity|]. intros j c' Hs. destruct (p c') eqn:X; [|reflexivity].
    destruct (M2 j c' Hs (P _ X)); congruence.
  - destruct M1 as [M1|M1]; [congruence|].
    destruct (find_from_spec v p (Z.to_nat (v_max v + 1)) 0) as [(i & c & A & B & C & D & F)|[A B]];
      [lia|lia| |].
    + left. exists i, c. auto.
    + right. split; [exact A|]. intros j c' Hs. destruct (p c') eqn:X; [|reflexivity].
      destruct (M2 j c' Hs (P _ X)) as [_ L]. pose proof (slot_range _ _ _ Hs).
      rewrite <- X. apply (B j c'); [lia|exact Hs].
Qed.

(** ** The poll set *)
Lemma poll_set_app b : forall l1 l2 R, poll_set b R (l1 ++ l2) =
  match poll_set b R l1 with Some R' => poll_set b R' l2 | None => None end.
Proof.
  induction l1 as [|e l1 IH]; intros l2 R; simpl; [reflexivity|].
  destruct (poll_ev b R e); [apply IH|reflexivity].
Qed.
Lemma opened_app l1 l2 : opened (l1 ++ l2) = fold_left open_ev l2 (opened l1).
Proof. unfold opened. apply fold_left_app. Qed.
Lemma has_in d R : has d R = true <-> exists i, In (d, i) R.
Proof.
  unfold has. rewrite existsb_exists. split.
  - intros ([d' i] & I & E). simpl in E. exists i. destruct (Z.eqb_spec d' d); [subst; exact I|discriminate].
  - intros [i I]. exists (d, i). split; [exact I|]. simpl. apply Z.eqb_refl.
Qed.
Lemma hasp_in d i R : hasp d i R = true <-> In (d, i) R.
Proof.
  unfold hasp. rewrite existsb_exists. split.
  - intros ([d' i'] & I & E). simpl in E. destruct (Z.eqb_spec d' d), (Z.eqb_spec i' i); try discriminate; subst; exact I.
  - intros I. exists (d, i). split; [exact I|]. simpl. rewrite !Z.eqb_refl. reflexivity.
Qed.
Lemma in_del d e i R : In (e, i) (del d R) <-> e <> d /\ In (e, i) R.
Proof.
  unfold del. rewrite filter_In. simpl. destruct (Z.eqb_spec e d); simpl; intuition congruence.
Qed.
Lemma in_rmz d e l : In e (rmz d l) <-> e <> d /\ In e l.
Proof.
  unfold rmz. split.
  - intros H. apply in_remove in H. tauto.
  - intros [N I]. apply in_in_remove; auto.
Qed.

(** ** The invariant of every history *)
Definition reg_ok (v : cvec) (R : list (Z * Z)) : Prop :=
  forall d i, In (d, i) R <-> exists c, is_open v i c /\ c_desc c = d.
Record CI (b : bool) (v : cvec) (log : list cev) : Prop := mkCI {
  ci_size : v_size v <= RMC_LISTEN_INDEX;
  ci_max : max_ok v;
  ci_active : v_active v = count_open v;
  ci_desc : forall i c, slot v i = Ok c -> -1 <= c_desc c /\ (c_mode c <> CLOSED -> 0 <= c_desc c);
  ci_open : forall i c, slot v i = Ok c -> c_desc c <> -1 -> In (c_desc c) (opened log);
  ci_dist : forall i j c c', slot v i = Ok c -> slot v j = Ok c' -> c_desc c = c_desc c' -> c_desc c <> -1 -> i = j;
  ci_poll : exists R, poll_set b [] log = Some R /\ reg_ok v R
}.
(** No descriptor is held outside the open connections. *)
Definition no_leak (v : cvec) (log : list cev) : Prop :=
  (forall i c, slot v i = Ok c -> (c_desc c = -1 <-> c_mode c = CLOSED)) /\
  (forall d, In d (opened log) -> exists i c, is_open v i c /\ c_desc c = d).

Lemma u16_count_pred v i c : v_size v <= RMC_LISTEN_INDEX -> is_open v i c ->
  u16 (count_open v - 1) = count_open v - 1.
Proof.
  intros S H. apply count_pos in H. pose proof (count_range v).
  apply u16_small. unfold is_u16, RMC_LISTEN_INDEX in *. lia.
Qed.
Lemma u16_count_succ v : v_size v <= RMC_LISTEN_INDEX -> u16 (count_open v + 1) = count_open v + 1.
Proof.
  intros S. pose proof (count_range v). apply u16_small. unfold is_u16, RMC_LISTEN_INDEX in *. lia.
Qed.

(** ** Closing *)
Lemma close_cases v i : 0 <= i ->
  (v_size v <= i /\ close_conn v i = Ok (EINVAL, v, [])) \/
  (exists c, slot v i = Ok c /\ c_mode c = CLOSED /\ close_conn v i = Ok (ENOTCONN, v, [])) \/
  (exists c, is_open v i c /\
    let v1 := put_slot v i (reset_conn c) in
    let v2 := if i =? v_max v then reset_max v1 else v1 in
    close_conn v i = Ok (0, set_active v2 (u16 (v_active v - 1)), [EvRem (c_desc c) i; EvClose (c_desc c)])).
Proof.
  intros H0. unfold close_conn. destruct (Z.leb_spec (v_size v) i) as [L|L]; [left; auto|right].
  destruct (slot_ex v i) as [c Hc]; [lia|]. rewrite Hc. cbn [bind].
  destruct (Z.eqb_spec (c_mode c) CLOSED) as [M|M].
  - left. exists c. auto.
  - right. exists c. split; [split; [exact Hc|exact M]|]. simpl.
    destruct (i =? v_max v); reflexivity.
Qed.
Lemma closed_slot v i c v2 j c' : 0 <= i < v_size v ->
  v2 = (if i =? v_max v then reset_max (put_slot v i (reset_conn c)) else put_slot v i (reset_conn c)) ->
  slot v2 j = Ok c' -> (j = i /\ c' = reset_conn c) \/ (j <> i /\ slot v j = Ok c').
Proof.
  intros H -> Hs. apply (slot_put v i (reset_conn c)); [exact H|]. destruct (i =? v_max v); exact Hs.
Qed.
Lemma closed_max v i c v2 : v_size v <= RMC_LISTEN_INDEX -> max_ok v -> 0 <= i < v_size v ->
  v2 = (if i =? v_max v then reset_max (put_slot v i (reset_conn c)) else put_slot v i (reset_conn c)) ->
  max_ok v2.
Proof.
  intros S [M1 M2] H ->. destruct (i =? v_max v).
  - apply reset_max_ok. rewrite size_put. unfold RMC_LISTEN_INDEX, RMC_NIL_INDEX in *. lia.
  - split.
    + rewrite size_put. exact M1.
    + intros j c' Hs D. destruct (slot_put v i (reset_conn c) j c' H Hs) as [[-> ->]|[N Hs']].
      * simpl in D. congruence.
      * exact (M2 j c' Hs' D).
Qed.

Section Step.
Variable b : bool.

Lemma close_inv v log i code v' evs : 0 <= i -> CI b v log ->
  close_conn v i = Ok (code, v', evs) -> CI b v' (log ++ evs).
Proof.
  intros H0 [S M A D O Di (R & PR & RR)] E. unfold reg_ok in *.
  destruct (close_cases v i H0) as [[L E']|[(c & Hc & Mc & E')|(c & [Hc Mc] & E')]]; rewrite E' in E.
  1,2: injection E as <- <- <-; rewrite app_nil_r; constructor; eauto.
  set (v2 := if i =? v_max v then reset_max (put_slot v i (reset_conn c)) else put_slot v i (reset_conn c)) in *.
  injection E as <- <- <-. pose proof (slot_range _ _ _ Hc) as Ri.
  assert (SL : forall j c', slot (set_active v2 (u16 (v_active v - 1))) j = Ok c' ->
               (j = i /\ c' = reset_conn c) \/ (j <> i /\ slot v j = Ok c')).
  { intros j c' Hs. rewrite slot_set_active in Hs. apply (closed_slot v i c v2 j c' Ri eq_refl Hs). }
  assert (Sz : v_size v2 = v_size v) by (unfold v2; destruct (i =? v_max v); apply size_put).
  assert (Cnt : count_open v2 = count_open v - 1).
  { transitivity (count_open (put_slot v i (reset_conn c))).
    - unfold v2; destruct (i =? v_max v); reflexivity.
    - rewrite count_put with (1 := Hc). unfold b_open at 1.
      destruct (Z.eqb_spec (c_mode c) CLOSED); [congruence|]. unfold b_open; simpl. lia. }
  constructor.
  - change (v_size v2 <= RMC_LISTEN_INDEX). lia.
  - exact (closed_max v i c v2 S M Ri eq_refl).
  - change (u16 (v_active v - 1) = count_open v2). rewrite A, Cnt.
    apply (u16_count_pred v i c S). split; assumption.
  - intros j c' Hs. destruct (SL j c' Hs) as [[-> ->]|[N Hs']]; [simpl; split; [lia|congruence]|eauto].
  - intros j c' Hs Dn. destruct (SL j c' Hs) as [[-> ->]|[N Hs']]; [simpl in Dn; congruence|].
    rewrite opened_app. simpl. apply in_rmz. split; [|eauto].
    intros Eq. apply N. symmetry. apply (Di i j c c' Hc Hs'); [congruence|].
    pose proof (proj2 (D i c Hc) Mc). lia.
  - intros j k c1 c2 H1 H2 Eq Dn.
    destruct (SL j c1 H1) as [[-> ->]|[N1 H1']]; [simpl in Dn; congruence|].
    destruct (SL k c2 H2) as [[-> ->]|[N2 H2']]; [simpl in Eq; congruence|].
    exact (Di j k c1 c2 H1' H2' Eq Dn).
  - assert (I : In (c_desc c, i) R) by (apply RR; exists c; split; [split; assumption|reflexivity]).
    exists (del (c_desc c) R). split.
    + rewrite poll_set_app, PR. simpl. apply hasp_in in I. rewrite I.
      destruct (has (c_desc c) (del (c_desc c) R)) eqn:Hh; [|reflexivity].
      apply has_in in Hh. destruct Hh as [k Hk]. apply in_del in Hk. destruct Hk; congruence.
    + intros d j. rewrite in_del, RR. split.
      * intros (N & c' & [Hs Ms] & Ed). exists c'. split; [|exact Ed]. split; [|exact Ms].
        assert (Nj : j <> i) by (intros ->; congruence).
        rewrite slot_set_active. unfold v2; destruct (i =? v_max v); rewrite ?slot_reset_max;
          rewrite slot_put_other by (lia || exact Nj); exact Hs.
      * intros (c' & [Hs Ms] & Ed). destruct (SL j c' Hs) as [[-> ->]|[N Hs']]; [simpl in Ms; congruence|].
        split; [|exists c'; split; [split; assumption|exact Ed]].
        intros ->. apply N. symmetry. apply (Di i j c c' Hc Hs'); [congruence|].
        pose proof (proj2 (D i c Hc) Mc). lia.
Qed.

(** Opening slot [i], which was free, as [c'] with descriptor [d]. *)
Lemma bump_max v i : max_ok v -> 0 <= i < v_size v -> v_size v <= RMC_LISTEN_INDEX ->
  let v1 := if (v_max v <? i) || (v_max v =? RMC_NIL_INDEX) then set_max v i else v in
  max_ok v1 /\ v_max v1 <> RMC_NIL_INDEX /\ i <= v_max v1.
Proof.
  intros [M1 M2] H S. unfold RMC_LISTEN_INDEX in S.
  destruct ((v_max v <? i) || (v_max v =? RMC_NIL_INDEX)) eqn:E; simpl.
  - split; [|unfold RMC_NIL_INDEX; lia]. split; [right; simpl; exact H|].
    intros j c Hs D. destruct (M2 j c Hs D) as [N L]. simpl. unfold RMC_NIL_INDEX in *.
    destruct (Z.ltb_spec (v_max v) i), (Z.eqb_spec (v_max v) 32767); simpl in E; try discriminate; try congruence; lia.
  - split; [split; assumption|]. unfold RMC_NIL_INDEX in *.
    destruct (Z.ltb_spec (v_max v) i), (Z.eqb_spec (v_max v) 32767); simpl in E; try discriminate. lia.
Qed.
Lemma max_put v i c : max_ok v -> 0 <= i < v_size v -> v_max v <> RMC_NIL_INDEX -> i <= v_max v ->
  max_ok (put_slot v i c).
Proof.
  intros [M1 M2] H N L. split.
  - rewrite size_put. exact M1.
  - intros j c' Hs D. simpl. destruct (slot_put v i c j c' H Hs) as [[-> ->]|[Nj Hs']]; [auto|eauto].
Qed.

Lemma open_inv v log i c c' act evs v1 : CI b v log -> slot v i = Ok c -> c_desc c = -1 ->
  v1 = (if (v_max v <? i) || (v_max v =? RMC_NIL_INDEX) then set_max v i else v) ->
  c_mode c' <> CLOSED -> 0 <= c_desc c' -> ~ In (c_desc c') (opened log) ->
  (evs = [] \/ exists l a o, evs = [EvMod l RMC_LISTEN_INDEX a o]) ->
  CI b (set_active (put_slot v1 i c') (u16 (v_active v + 1)))
     (log ++ [EvOpen (c_desc c'); EvAdd (c_desc c') i act] ++ evs).
Proof.
  intros [S M A D O Di (R & PR & RR)] Hc Dc Ev1 Mc' Dc' Fr Evs. unfold reg_ok in *.
  pose proof (slot_range _ _ _ Hc) as Ri.
  destruct (bump_max v i M Ri S) as (MV & NV & LV).
  rewrite <- Ev1 in MV, NV, LV.
  assert (Sz : v_size v1 = v_size v) by (rewrite Ev1; destruct (_ || _); reflexivity).
  assert (Act : v_active v1 = v_active v) by (rewrite Ev1; destruct (_ || _); reflexivity).
  assert (Sl : forall j, slot v1 j = slot v j) by (intros j; rewrite Ev1; destruct (_ || _); reflexivity).
  assert (Cn : count_open v1 = count_open v) by (rewrite Ev1; destruct (_ || _); reflexivity).
  assert (Ri1 : 0 <= i < v_size v1) by lia.
  assert (Mc : c_mode c = CLOSED).
  { destruct (Z.eq_dec (c_mode c) CLOSED) as [X|X]; [exact X|]. pose proof (proj2 (D i c Hc) X). lia. }
  assert (SL : forall j x, slot (set_active (put_slot v1 i c') (u16 (v_active v + 1))) j = Ok x ->
               (j = i /\ x = c') \/ (j <> i /\ slot v j = Ok x)).
  { intros j x Hs. rewrite slot_set_active in Hs.
    destruct (slot_put v1 i c' j x Ri1 Hs) as [[-> ->]|[N H']]; [left; auto|right]. rewrite Sl in H'. auto. }
  assert (OP : opened (log ++ [EvOpen (c_desc c'); EvAdd (c_desc c') i act] ++ evs) = c_desc c' :: opened log).
  { rewrite opened_app. destruct Evs as [->|(l & a & o & ->)]; reflexivity. }
  constructor.
  - change (v_size (put_slot v1 i c') <= RMC_LISTEN_INDEX). rewrite size_put. lia.
  - exact (max_put v1 i c' MV Ri1 NV LV).
  - change (u16 (v_active v + 1) = count_open (put_slot v1 i c')).
    assert (Hc1 : slot v1 i = Ok c) by (rewrite Sl; exact Hc).
    rewrite (count_put v1 i c c' Hc1), Cn. unfold b_open. rewrite Mc. simpl.
    destruct (Z.eqb_spec (c_mode c') CLOSED); [congruence|]. rewrite A, u16_count_succ by exact S. lia.
  - intros j x Hs. destruct (SL j x Hs) as [[-> ->]|[N Hs']]; [split; [lia|auto]|eauto].
  - intros j x Hs Dn. rewrite OP. destruct (SL j x Hs) as [[-> ->]|[N Hs']]; [left; reflexivity|right; eauto].
  - intros j k x y Hx Hy Eq Dn.
    destruct (SL j x Hx) as [[-> ->]|[Nj Hx']]; destruct (SL k y Hy) as [[-> ->]|[Nk Hy']].
    + reflexivity.
    + exfalso. apply Fr. rewrite Eq. apply (O k y Hy'). lia.
    + exfalso. apply Fr. rewrite <- Eq. apply (O j x Hx'). exact Dn.
    + exact (Di j k x y Hx' Hy' Eq Dn).
  - exists (R ++ [(c_desc c', i)]).
    assert (NH : has (c_desc c') R = false).
    { destruct (has (c_desc c') R) eqn:Hh; [|reflexivity]. exfalso.
      apply has_in in Hh. destruct Hh as [k Hk]. apply RR in Hk. destruct Hk as (x & [Hx Mx] & Ex).
      apply Fr. rewrite <- Ex. apply (O k x Hx). pose proof (proj2 (D k x Hx) Mx). lia. }
    split.
    + rewrite poll_set_app, PR. simpl. rewrite NH. destruct Evs as [->|(l & a & o & ->)]; reflexivity.
    + intros d j. rewrite in_app_iff. simpl. rewrite RR. split.
      * intros [(x & [Hx Mx] & Ex)|[Eq|[]]].
        -- exists x. split; [|exact Ex]. split; [|exact Mx].
           assert (Nj : j <> i) by (intros ->; congruence).
           rewrite slot_set_active, slot_put_other by (lia || exact Nj). rewrite Sl. exact Hx.
        -- injection Eq as <- <-. exists c'. split; [|reflexivity]. split; [|exact Mc'].
           rewrite slot_set_active. apply slot_put_same. exact Ri1.
      * intros (x & [Hx Mx] & Ex). destruct (SL j x Hx) as [[-> ->]|[N Hx']].
        -- right. left. congruence.
        -- left. exists x. split; [split; assumption|exact Ex].
Qed.

(** Changing a free slot without taking it, or an open one without moving it. *)
Lemma keep_inv v log i c c' v1 evs : CI b v log -> slot v i = Ok c -> c_desc c' = c_desc c ->
  (c_mode c' = CLOSED <-> c_mode c = CLOSED) ->
  v_conns v1 = v_conns (put_slot v i c') -> v_active v1 = v_active v -> max_ok v1 ->
  opened (log ++ evs) = opened log ->
  (forall R, reg_ok v R -> poll_set b R evs = Some R) ->
  CI b v1 (log ++ evs).
Proof.
  intros [S M A D O Di (R & PR & RR)] Hc De Mo Ec Ea MV Op Pl. unfold reg_ok in *.
  pose proof (slot_range _ _ _ Hc) as Ri.
  assert (Sl1 : forall j, slot v1 j = slot (put_slot v i c') j) by (intros j; unfold slot; rewrite Ec; reflexivity).
  assert (SL : forall j x, slot v1 j = Ok x -> (j = i /\ x = c') \/ (j <> i /\ slot v j = Ok x)).
  { intros j x Hs. rewrite Sl1 in Hs. apply slot_put; assumption. }
  assert (Bk : forall j x, slot v j = Ok x -> (j = i /\ x = c /\ slot v1 j = Ok c') \/ (j <> i /\ slot v1 j = Ok x)).
  { intros j x Hs. rewrite Sl1. destruct (Z.eq_dec j i) as [->|N].
    - left. refine (conj eq_refl (conj _ _)); [congruence|]. apply slot_put_same; exact Ri.
    - right. split; [exact N|]. rewrite slot_put_other by (lia || exact N). exact Hs. }
  constructor.
  - unfold v_size. rewrite Ec. fold (v_size (put_slot v i c')). rewrite size_put. exact S.
  - exact MV.
  - rewrite Ea, A. transitivity (count_open (put_slot v i c')).
    + rewrite (count_put v i c c' Hc). unfold b_open.
      destruct (Z.eqb_spec (c_mode c) CLOSED), (Z.eqb_spec (c_mode c') CLOSED); tauto || lia.
    + unfold count_open. rewrite Ec. reflexivity.
  - intros j x Hs. destruct (SL j x Hs) as [[-> ->]|[N Hs']]; [|eauto].
    rewrite De. destruct (D i c Hc) as [D1 D2]. split; [exact D1|]. tauto.
  - intros j x Hs Dn. rewrite Op. destruct (SL j x Hs) as [[-> ->]|[N Hs']]; [|eauto].
    rewrite De in *. eauto.
  - intros j k x y Hx Hy Eq Dn.
    assert (Q : forall j x, slot v1 j = Ok x -> exists x0, slot v j = Ok x0 /\ c_desc x0 = c_desc x).
    { intros j0 x0 H0. destruct (SL j0 x0 H0) as [[-> ->]|[N H1]]; eauto. }
    destruct (Q j x Hx) as (x0 & Hx0 & Ex0), (Q k y Hy) as (y0 & Hy0 & Ey0).
    apply (Di j k x0 y0 Hx0 Hy0); congruence.
  - exists R. split; [rewrite poll_set_app, PR; apply Pl; exact RR|].
    intros d j. rewrite RR. split.
    + intros (x & [Hx Mx] & Ex). destruct (Bk j x Hx) as [(-> & -> & H1)|[N H1]].
      * exists c'. split; [split; [exact H1|tauto]|congruence].
      * exists x. split; [split; assumption|exact Ex].
    + intros (x & [Hx Mx] & Ex). destruct (SL j x Hx) as [[-> ->]|[N Hx']].
      * exists c. split; [split; [exact Hc|tauto]|congruence].
      * exists x. split; [split; assumption|exact Ex].
Qed.

(** The slot that is left behind when setsockopt() fails after accept(). *)
Lemma leak_inv v log i c d v1 : CI b v log -> slot v i = Ok c -> c_desc c = -1 ->
  v1 = (if (v_max v <? i) || (v_max v =? RMC_NIL_INDEX) then set_max v i else v) ->
  0 <= d -> ~ In d (opened log) ->
  CI b (put_slot v1 i (set_desc c d)) (log ++ [EvOpen d]).
Proof.
  intros [S M A D O Di (R & PR & RR)] Hc Dc Ev1 Dp Fr. unfold reg_ok in *.
  pose proof (slot_range _ _ _ Hc) as Ri.
  destruct (bump_max v i M Ri S) as (MV & NV & LV). rewrite <- Ev1 in MV, NV, LV.
  assert (Sz : v_size v1 = v_size v) by (rewrite Ev1; destruct (_ || _); reflexivity).
  assert (Act : v_active v1 = v_active v) by (rewrite Ev1; destruct (_ || _); reflexivity).
  assert (Sl : forall j, slot v1 j = slot v j) by (intros j; rewrite Ev1; destruct (_ || _); reflexivity).
  assert (Cn : count_open v1 = count_open v) by (rewrite Ev1; destruct (_ || _); reflexivity).
  assert (Ri1 : 0 <= i < v_size v1) by lia.
  assert (Mc : c_mode c = CLOSED).
  { destruct (Z.eq_dec (c_mode c) CLOSED) as [X|X]; [exact X|]. pose proof (proj2 (D i c Hc) X). lia. }
  assert (SL : forall j x, slot (put_slot v1 i (set_desc c d)) j = Ok x ->
               (j = i /\ x = set_desc c d) \/ (j <> i /\ slot v j = Ok x)).
  { intros j x Hs. destruct (slot_put v1 i _ j x Ri1 Hs) as [[-> ->]|[N H']]; [left; auto|right].
    rewrite Sl in H'. auto. }
  assert (OP : opened (log ++ [EvOpen d]) = d :: opened log) by (rewrite opened_app; reflexivity).
  constructor.
  - rewrite size_put. lia.
  - exact (max_put v1 i _ MV Ri1 NV LV).
  - simpl. rewrite Act, A.
    assert (Hc1 : slot v1 i = Ok c) by (rewrite Sl; exact Hc).
    rewrite (count_put v1 i c _ Hc1), Cn. unfold b_open; simpl. lia.
  - intros j x Hs. destruct (SL j x Hs) as [[-> ->]|[N Hs']]; [simpl; split; [lia|auto]|eauto].
  - intros j x Hs Dn. rewrite OP. destruct (SL j x Hs) as [[-> ->]|[N Hs']]; [left; reflexivity|right; eauto].
  - intros j k x y Hx Hy Eq Dn.
    destruct (SL j x Hx) as [[-> ->]|[Nj Hx']]; destruct (SL k y Hy) as [[-> ->]|[Nk Hy']]; simpl in *.
    + reflexivity.
    + exfalso. apply Fr. rewrite Eq. apply (O k y Hy'). lia.
    + exfalso. apply Fr. rewrite <- Eq. apply (O j x Hx'). exact Dn.
    + exact (Di j k x y Hx' Hy' Eq Dn).
  - exists R. split; [rewrite poll_set_app, PR; reflexivity|].
    intros e j. rewrite RR. split.
    + intros (x & [Hx Mx] & Ex). exists x. split; [|exact Ex]. split; [|exact Mx].
      assert (Nj : j <> i) by (intros ->; congruence).
      rewrite slot_put_other by (lia || exact Nj). rewrite Sl. exact Hx.
    + intros (x & [Hx Mx] & Ex). destruct (SL j x Hx) as [[-> ->]|[N Hx']]; [simpl in Mx; congruence|].
      exists x. split; [split; assumption|exact Ex].
Qed.

End Step.

(** ** Steps *)
Lemma replace_replace {X} n (x y : X) l : replace n y (replace n x l) = replace n y l.
Proof. revert n; induction l as [|z l IH]; intros [|n]; simpl; [reflexivity..|]. rewrite IH. reflexivity. Qed.
Lemma put_put v i c c' : put_slot (put_slot v i c) i c' = put_slot v i c'.
Proof. unfold put_slot; simpl. rewrite replace_replace. reflexivity. Qed.
Lemma dup_rem d i l R : poll_set true R (EvRem d i :: EvRem d i :: l) = poll_set true R (EvRem d i :: l).
Proof.
  simpl. destruct (hasp d i R) eqn:E.
  - destruct (hasp d i (del d R)) eqn:E2; [|reflexivity].
    apply hasp_in, in_del in E2. destruct E2; congruence.
  - rewrite E. reflexivity.
Qed.
Definition bumped (v : cvec) (i : Z) : cvec :=
  if (v_max v <? i) || (v_max v =? RMC_NIL_INDEX) then set_max v i else v.
Lemma bumped_conns v i : v_conns (bumped v i) = v_conns v.
Proof. unfold bumped. destruct (_ || _); reflexivity. Qed.
Lemma bumped_active v i : v_active (bumped v i) = v_active v.
Proof. unfold bumped. destruct (_ || _); reflexivity. Qed.
Lemma bumped_slot v i j : slot (bumped v i) j = slot v j.
Proof. unfold bumped. destruct (_ || _); reflexivity. Qed.
Lemma bumped_size v i : v_size (bumped v i) = v_size v.
Proof. unfold bumped. destruct (_ || _); reflexivity. Qed.

(** What accept and connect do, case by case. *)
Lemma accept_cases listen v o : v_size v <= RMC_NIL_INDEX ->
  ((forall i, ~ free_slot v i) /\ process_accept listen v o = Ok (ENOMEM, None, v, [])) \/
  (exists i c, lowest_free v i /\ slot v i = Ok c /\ c_desc c = -1 /\
    match o with
    | AccErr e => process_accept listen v o = Ok (e, None, put_slot (bumped v i) i (set_desc c (-1)), [])
    | AccOk d addr nd =>
        (nd = 0 /\ process_accept listen v o =
           Ok (0, Some i, set_active (put_slot (bumped v i) i
                 (mkConn POLLREAD d (c_node c) (c_rbuf c) (c_wbuf c) CONNECTED (c_port c) addr)) (u16 (v_active v + 1)),
               [EvOpen d; EvAdd d i POLLREAD; EvMod listen RMC_LISTEN_INDEX POLLREAD POLLREAD])) \/
        (nd <> 0 /\ exists code v' evs,
           close_conn (put_slot (bumped v i) i (set_desc c d)) (u16 d) = Ok (code, v', evs) /\
           process_accept listen v o = Ok (nd, None, v', EvOpen d :: evs))
    end).
Proof.
  intros S. unfold process_accept.
  destruct (free_slot_spec v S) as [(F & E & A)|(i & c & E & N & L & Hc & Dc & Ri)].
  - left. split; [exact A|]. rewrite E. simpl. reflexivity.
  - right. exists i, c. refine (conj L (conj Hc (conj Dc _))). rewrite E. fold (bumped v i).
    destruct (Z.eqb_spec i RMC_NIL_INDEX) as [X|_]; [congruence|].
    rewrite bumped_slot, Hc. cbn [bind].
    destruct o as [e|d addr nd]; [reflexivity|].
    destruct (Z.eqb_spec nd 0) as [->|Nd]; cbn [negb].
    + left. split; [reflexivity|]. rewrite put_put.
      change (v_active (put_slot (bumped v i) i _)) with (v_active (bumped v i)). rewrite bumped_active. reflexivity.
    + right. split; [exact Nd|].
      destruct (close_cases (put_slot (bumped v i) i (set_desc c d)) (u16 d)) as [[_ Q]|[(x & _ & _ & Q)|(x & _ & Q)]];
        [pose proof (u16_range d) as U; unfold is_u16 in U; lia| | |]; cbn zeta in Q; rewrite Q; do 3 eexists; split; reflexivity.
Qed.
Lemma connect_cases v addr port node o : v_size v <= RMC_NIL_INDEX ->
  ((forall i, ~ free_slot v i) /\ connect_tcp v addr port node o = Ok (ENOMEM, None, v, [])) \/
  (exists i c, lowest_free v i /\ slot v i = Ok c /\ c_desc c = -1 /\
    match o with
    | SockErr e => connect_tcp v addr port node o = Ok (e, None, put_slot (bumped v i) i (set_desc c (-1)), [])
    | SockOk d ok errno =>
        (ok = false /\ errno <> EINPROGRESS /\ connect_tcp v addr port node o =
           Ok (0, None, reset_max (put_slot (bumped v i) i
                 (mkConn (c_action c) (-1) node (c_rbuf c) (c_wbuf c) (c_mode c) (c_port c) addr)),
               [EvOpen d; EvClose d])) \/
        ((ok = true \/ errno = EINPROGRESS) /\ connect_tcp v addr port node o =
           Ok (if errno =? EINPROGRESS then 0 else errno, Some i,
               set_active (put_slot (bumped v i) i
                 (mkConn POLLWRITE d node (c_rbuf c) (c_wbuf c) CONNECTING port addr)) (u16 (v_active v + 1)),
               [EvOpen d; EvAdd d i POLLWRITE]))
    end).
Proof.
  intros S. unfold connect_tcp.
  destruct (free_slot_spec v S) as [(F & E & A)|(i & c & E & N & L & Hc & Dc & Ri)].
  - left. split; [exact A|]. rewrite E. simpl. reflexivity.
  - right. exists i, c. refine (conj L (conj Hc (conj Dc _))). rewrite E. fold (bumped v i).
    destruct (Z.eqb_spec i RMC_NIL_INDEX) as [X|_]; [congruence|].
    rewrite bumped_slot, Hc. cbn [bind].
    destruct o as [e|d ok errno]; [reflexivity|].
    change (v_active (put_slot (bumped v i) i _)) with (v_active (bumped v i)). rewrite bumped_active.
    destruct ok; cbn [negb andb].
    + right. split; [left; reflexivity|reflexivity].
    + destruct (Z.eqb_spec errno EINPROGRESS) as [->|Ne]; cbn [negb].
      * right. split; [right; reflexivity|reflexivity].
      * left. refine (conj eq_refl (conj Ne eq_refl)).
Qed.

Lemma nil_listen v : v_size v <= RMC_LISTEN_INDEX -> v_size v <= RMC_NIL_INDEX.
Proof. unfold RMC_LISTEN_INDEX, RMC_NIL_INDEX. lia. Qed.
Lemma ci_closed b v log i c : CI b v log -> slot v i = Ok c -> c_desc c = -1 -> c_mode c = CLOSED.
Proof.
  intros H Hc D. destruct (Z.eq_dec (c_mode c) CLOSED) as [X|X]; [exact X|].
  pose proof (proj2 (ci_desc _ _ _ H i c Hc) X). lia.
Qed.
Lemma find_index_cases v i : 0 <= i ->
  (find_by_index v i = Ok None /\ forall c, ~ is_open v i c) \/
  (exists c, find_by_index v i = Ok (Some c) /\ is_open v i c).
Proof.
  intros H0. unfold find_by_index. destruct (Z.leb_spec (v_size v) i) as [L|L].
  - left. split; [reflexivity|]. intros c [Hc _]. apply slot_range in Hc. lia.
  - destruct (slot_ex v i) as [c Hc]; [lia|]. rewrite Hc. cbn [bind].
    destruct (Z.eqb_spec (c_mode c) CLOSED) as [M|M].
    + left. split; [reflexivity|]. intros c' [Hc' M']. congruence.
    + right. exists c. split; [reflexivity|split; assumption].
Qed.

Lemma step_inv b v log o : CI b v log -> op_ok log o -> (b = false -> complete_fails_late o = false) ->
  exists code v' evs, cstep v o = Ok (code, v', evs) /\ CI b v' (log ++ evs) /\ v_size v' = v_size v.
Proof.
  intros H Ok_o Late. pose proof (nil_listen v (ci_size _ _ _ H)) as SN.
  pose proof (ci_max _ _ _ H) as MO.
  destruct o as [listen r|addr port node r|i r|i|i act rb wb]; unfold cstep.
  - (* accept *)
    destruct (accept_cases listen v r SN) as [[_ E]|(i & c & L & Hc & Dc & E)].
    + rewrite E. cbn [bind]. do 3 eexists. split; [reflexivity|]. rewrite app_nil_r. auto.
    + pose proof (slot_range _ _ _ Hc) as Ri.
      destruct (bump_max v i MO Ri (ci_size _ _ _ H)) as (MV & NV & LV). fold (bumped v i) in MV, NV, LV.
      destruct r as [e|d addr nd].
      * rewrite E. cbn [bind]. do 3 eexists. split; [reflexivity|]. split; [|rewrite size_put, bumped_size; reflexivity].
        apply (keep_inv b v log i c (set_desc c (-1))); try assumption; try reflexivity; simpl.
        -- congruence.
        -- rewrite bumped_conns. reflexivity.
        -- apply bumped_active.
        -- apply max_put; try assumption. rewrite bumped_size. exact Ri.
        -- rewrite app_nil_r. reflexivity.
      * destruct Ok_o as [Dp Fr]. destruct E as [(-> & E)|(Nd & code & v' & evs & Q & E)]; rewrite E; cbn [bind].
        -- do 3 eexists. split; [reflexivity|]. split.
           ++ pose proof (open_inv b v log i c
                 (mkConn POLLREAD d (c_node c) (c_rbuf c) (c_wbuf c) CONNECTED (c_port c) addr)
                 POLLREAD [EvMod listen RMC_LISTEN_INDEX POLLREAD POLLREAD] (bumped v i) H Hc Dc eq_refl) as Q.
              simpl in Q. apply Q; [discriminate|exact Dp|exact Fr|right; eauto].
           ++ rewrite <- (bumped_size v i). apply size_put.
        -- do 3 eexists. split; [reflexivity|].
           pose proof (leak_inv b v log i c d (bumped v i) H Hc Dc eq_refl Dp Fr) as H1.
           pose proof (u16_range d) as U. unfold is_u16 in U.
           pose proof (close_inv b _ _ (u16 d) code v' evs ltac:(lia) H1 Q) as H2.
           split; [rewrite <- app_assoc in H2; exact H2|].
           destruct (close_cases (put_slot (bumped v i) i (set_desc c d)) (u16 d)) as [[_ Q']|[(x & _ & _ & Q')|(x & _ & Q')]];
             [lia| | |]; cbn zeta in Q'; rewrite Q in Q'; injection Q' as -> -> ->.
           1,2: rewrite size_put, bumped_size; reflexivity.
           destruct (_ =? _); unfold v_size; simpl; unfold zlen; rewrite !replace_length; rewrite bumped_conns; reflexivity.
  - (* connect *)
    destruct (connect_cases v addr port node r SN) as [[_ E]|(i & c & L & Hc & Dc & E)].
    + rewrite E. cbn [bind]. do 3 eexists. split; [reflexivity|]. rewrite app_nil_r. auto.
    + pose proof (slot_range _ _ _ Hc) as Ri.
      destruct (bump_max v i MO Ri (ci_size _ _ _ H)) as (MV & NV & LV). fold (bumped v i) in MV, NV, LV.
      destruct r as [e|d ok errno].
      * rewrite E. cbn [bind]. do 3 eexists. split; [reflexivity|]. split; [|rewrite size_put, bumped_size; reflexivity].
        apply (keep_inv b v log i c (set_desc c (-1))); try assumption; try reflexivity; simpl.
        -- congruence.
        -- rewrite bumped_conns. reflexivity.
        -- apply bumped_active.
        -- apply max_put; try assumption. rewrite bumped_size. exact Ri.
        -- rewrite app_nil_r. reflexivity.
      * destruct Ok_o as [Dp Fr]. destruct E as [(-> & Ne & E)|(_ & E)]; rewrite E; cbn [bind].
        -- do 3 eexists. split; [reflexivity|]. split; [|unfold reset_max; transitivity (v_size (bumped v i)); [apply size_put|apply bumped_size]].
           apply (keep_inv b v log i c
                    (mkConn (c_action c) (-1) node (c_rbuf c) (c_wbuf c) (c_mode c) (c_port c) addr));
             try assumption; try reflexivity; simpl.
           ++ congruence.
           ++ rewrite bumped_conns. reflexivity.
           ++ apply bumped_active.
           ++ apply reset_max_ok. rewrite size_put, bumped_size. exact SN.
           ++ rewrite opened_app. simpl. unfold rmz. destruct (Z.eq_dec d d); [|congruence].
              apply notin_remove. exact Fr.
           ++ intros R RR. destruct (has d R) eqn:Hh; [|reflexivity]. exfalso.
              apply has_in in Hh. destruct Hh as [k Hk]. apply RR in Hk. destruct Hk as (x & [Hx Mx] & Ex).
              apply Fr. rewrite <- Ex. apply (ci_open _ _ _ H k x Hx).
              pose proof (proj2 (ci_desc _ _ _ H k x Hx) Mx). lia.
        -- do 3 eexists. split; [reflexivity|]. split; [|rewrite <- (bumped_size v i); apply size_put].
           pose proof (open_inv b v log i c (mkConn POLLWRITE d node (c_rbuf c) (c_wbuf c) CONNECTING port addr)
                 POLLWRITE [] (bumped v i) H Hc Dc eq_refl) as Q. simpl in Q.
           apply Q; [discriminate|exact Dp|exact Fr|left; reflexivity].
  - (* complete *)
    simpl in Ok_o.
    destruct (find_index_cases v i (proj1 Ok_o)) as [[E _]|(c & E & Hc & Mc)]; rewrite E; cbn [bind].
    { do 3 eexists. split; [reflexivity|]. rewrite app_nil_r. auto. }
    destruct (c_mode c =? CONNECTING) eqn:EC.
    2: { do 3 eexists. split; [reflexivity|]. rewrite app_nil_r. auto. }
    unfold complete_conn. rewrite Hc. cbn [bind].
    destruct (close_cases v i (proj1 Ok_o)) as [[L _]|[(c2 & Hc2 & M2 & _)|(c2 & [Hc2 M2] & Q)]].
    { apply slot_range in Hc. lia. } { congruence. }
    assert (c2 = c) as -> by congruence. cbn zeta in Q.
    set (v' := set_active (if i =? v_max v then reset_max (put_slot v i (reset_conn c)) else put_slot v i (reset_conn c))
                 (u16 (v_active v - 1))) in *.
    pose proof (close_inv b v log i 0 v' _ (proj1 Ok_o) H Q) as HQ.
    assert (Sz : v_size v' = v_size v) by (unfold v'; destruct (i =? v_max v); apply size_put).
    assert (Fail : b = true -> CI b v' (log ++ [EvRem (c_desc c) i; EvRem (c_desc c) i; EvClose (c_desc c)])).
    { intros ->. destruct HQ as [A1 A2 A3 A4 A5 A6 (R & PR & RR)]. constructor; try assumption.
      - intros j x Hx Dx. specialize (A5 j x Hx Dx). rewrite opened_app in *. exact A5.
      - exists R. split; [|exact RR]. rewrite poll_set_app in *. destruct (poll_set true [] log); [|discriminate].
        rewrite dup_rem. exact PR. }
    destruct r as [e|so nd].
    + rewrite Q. cbn [bind]. do 3 eexists. split; [reflexivity|]. split; assumption.
    + destruct (so =? 0) eqn:Eso; cbn [negb].
      * destruct (nd =? 0) eqn:End; cbn [negb].
        -- do 3 eexists. split; [reflexivity|]. split; [|apply size_put].
           apply (keep_inv b v log i c (set_action (set_mode c CONNECTED) POLLREAD)); try assumption; try reflexivity; simpl.
           ++ split; [discriminate|congruence].
           ++ apply max_put; [exact MO|apply slot_range in Hc; exact Hc| |];
                destruct MO as [_ MO]; apply (MO i c Hc); pose proof (proj2 (ci_desc _ _ _ H i c Hc) Mc); lia.
           ++ rewrite opened_app. reflexivity.
           ++ intros R RR. assert (I : In (c_desc c, i) R) by (apply RR; exists c; split; [split; assumption|reflexivity]).
              apply hasp_in in I. rewrite I, orb_true_r. reflexivity.
        -- rewrite Q. cbn [bind]. do 3 eexists. split; [reflexivity|]. split; [|exact Sz].
           apply Fail. destruct b; [reflexivity|]. specialize (Late eq_refl). simpl in Late.
           rewrite Eso, End in Late. discriminate.
      * rewrite Q. cbn [bind]. do 3 eexists. split; [reflexivity|]. split; [|exact Sz].
        apply Fail. destruct b; [reflexivity|]. specialize (Late eq_refl). simpl in Late.
        rewrite Eso in Late. discriminate.
  - (* close *)
    simpl in Ok_o.
    destruct (close_cases v i (proj1 Ok_o)) as [[L E]|[(c & Hc & Mc & E)|(c & Hc & E)]].
    1,2: rewrite E; do 3 eexists; (split; [reflexivity|]); rewrite app_nil_r; auto.
    cbn zeta in E. rewrite E. do 3 eexists. split; [reflexivity|]. split.
    + exact (close_inv b v log i _ _ _ (proj1 Ok_o) H E).
    + destruct (i =? v_max v); apply size_put.
  - (* io *)
    simpl in Ok_o.
    destruct (find_index_cases v i (proj1 Ok_o)) as [[E _]|(c & E & Hc & Mc)]; rewrite E; cbn [bind].
    { do 3 eexists. split; [reflexivity|]. rewrite app_nil_r. auto. }
    do 3 eexists. split; [reflexivity|]. split; [|apply size_put].
    apply (keep_inv b v log i c (set_action (set_rbuf (set_wbuf c wb) rb) act)); try assumption; try reflexivity; simpl.
    + apply max_put; [exact MO|apply slot_range in Hc; exact Hc| |];
        destruct MO as [_ MO]; apply (MO i c Hc); pose proof (proj2 (ci_desc _ _ _ H i c Hc) Mc); lia.
    + rewrite opened_app. reflexivity.
    + intros R RR. assert (I : In (c_desc c, i) R) by (apply RR; exists c; split; [split; assumption|reflexivity]).
      apply hasp_in in I. rewrite I, orb_true_r. reflexivity.
Qed.

Lemma leak_close v log i code v' evs b : 0 <= i -> CI b v log -> no_leak v log ->
  close_conn v i = Ok (code, v', evs) -> no_leak v' (log ++ evs).
Proof.
  intros H0 H [N1 N2] E.
  destruct (close_cases v i H0) as [[L E']|[(c & Hc & Mc & E')|(c & [Hc Mc] & E')]]; rewrite E' in E.
  1,2: injection E as <- <- <-; rewrite app_nil_r; split; assumption.
  injection E as <- <- <-. pose proof (slot_range _ _ _ Hc) as Ri. split.
  - intros j x Hx. rewrite slot_set_active in Hx.
    destruct (closed_slot v i c _ j x Ri eq_refl Hx) as [[-> ->]|[N Hx']]; [simpl; split; reflexivity|eauto].
  - intros d. rewrite opened_app. simpl. rewrite in_rmz. intros [Nd I].
    destruct (N2 d I) as (j & x & [Hx Mx] & Ex). exists j, x. split; [|exact Ex]. split; [|exact Mx].
    assert (Nj : j <> i) by (intros ->; congruence).
    rewrite slot_set_active. destruct (i =? v_max v); rewrite ?slot_reset_max;
      rewrite slot_put_other by (lia || exact Nj); exact Hx.
Qed.
Lemma leak_keep v log i c c' v1 evs : no_leak v log -> slot v i = Ok c -> c_desc c' = c_desc c ->
  (c_mode c' = CLOSED <-> c_mode c = CLOSED) -> v_conns v1 = v_conns (put_slot v i c') ->
  opened (log ++ evs) = opened log -> no_leak v1 (log ++ evs).
Proof.
  intros [N1 N2] Hc De Mo Ec Op. pose proof (slot_range _ _ _ Hc) as Ri.
  assert (Sl1 : forall j, slot v1 j = slot (put_slot v i c') j) by (intros j; unfold slot; rewrite Ec; reflexivity).
  split.
  - intros j x Hx. rewrite Sl1 in Hx. destruct (slot_put v i c' j x Ri Hx) as [[-> ->]|[N Hx']]; [|eauto].
    rewrite De, Mo. eauto.
  - intros d I. rewrite Op in I. destruct (N2 d I) as (j & x & [Hx Mx] & Ex).
    destruct (Z.eq_dec j i) as [->|N].
    + exists i, c'. split; [|congruence]. split; [rewrite Sl1; apply slot_put_same; exact Ri|].
      intros X. apply Mo in X. congruence.
    + exists j, x. split; [|exact Ex]. split; [|exact Mx]. rewrite Sl1, slot_put_other by (lia || exact N). exact Hx.
Qed.
Lemma leak_open v log i c c' v1 evs : no_leak v log -> slot v i = Ok c -> c_desc c = -1 -> c_mode c' <> CLOSED ->
  0 <= c_desc c' -> v_conns v1 = v_conns (put_slot v i c') ->
  opened (log ++ evs) = c_desc c' :: opened log -> no_leak v1 (log ++ evs).
Proof.
  intros [N1 N2] Hc Dc Mo Dp Ec Op. pose proof (slot_range _ _ _ Hc) as Ri.
  assert (Sl1 : forall j, slot v1 j = slot (put_slot v i c') j) by (intros j; unfold slot; rewrite Ec; reflexivity).
  split.
  - intros j x Hx. rewrite Sl1 in Hx. destruct (slot_put v i c' j x Ri Hx) as [[-> ->]|[N Hx']]; [|eauto].
    split; intros; [lia|congruence].
  - intros d I. rewrite Op in I. destruct I as [<-|I].
    + exists i, c'. split; [|reflexivity]. split; [rewrite Sl1; apply slot_put_same; exact Ri|exact Mo].
    + destruct (N2 d I) as (j & x & [Hx Mx] & Ex).
      assert (Nj : j <> i). { intros ->. apply Mx. apply N1 with (1 := Hx). congruence. }
      exists j, x. split; [|exact Ex]. split; [|exact Mx]. rewrite Sl1, slot_put_other by (lia || exact Nj). exact Hx.
Qed.

Lemma step_leak b v log o code v' evs : CI b v log -> no_leak v log -> op_ok log o ->
  accept_nodelay_fails o = false -> cstep v o = Ok (code, v', evs) -> no_leak v' (log ++ evs).
Proof.
  intros H NL Ok_o NF. pose proof (nil_listen v (ci_size _ _ _ H)) as SN.
  destruct o as [listen r|addr port node r|i r|i|i act rb wb]; unfold cstep; intros St.
  - destruct (accept_cases listen v r SN) as [[_ E]|(i & c & L & Hc & Dc & E)].
    + rewrite E in St. injection St as <- <- <-. rewrite app_nil_r. exact NL.
    + destruct r as [e|d addr nd].
      * rewrite E in St. injection St as <- <- <-.
        apply (leak_keep v log i c (set_desc c (-1))); try assumption; try reflexivity; simpl.
        -- congruence.
        -- rewrite bumped_conns. reflexivity.
        -- rewrite app_nil_r. reflexivity.
      * destruct Ok_o as [Dp Fr]. destruct E as [(-> & E)|(Nd & code' & v2 & evs' & Q & E)]; rewrite E in St.
        -- injection St as <- <- <-.
           apply (leak_open v log i c (mkConn POLLREAD d (c_node c) (c_rbuf c) (c_wbuf c) CONNECTED (c_port c) addr));
             try assumption; try reflexivity; simpl; try discriminate.
           ++ rewrite bumped_conns. reflexivity.
           ++ rewrite opened_app. reflexivity.
        -- simpl in NF. destruct (Z.eqb_spec nd 0); [congruence|discriminate].
  - destruct (connect_cases v addr port node r SN) as [[_ E]|(i & c & L & Hc & Dc & E)].
    + rewrite E in St. injection St as <- <- <-. rewrite app_nil_r. exact NL.
    + destruct r as [e|d ok errno].
      * rewrite E in St. injection St as <- <- <-.
        apply (leak_keep v log i c (set_desc c (-1))); try assumption; try reflexivity; simpl.
        -- congruence.
        -- rewrite bumped_conns. reflexivity.
        -- rewrite app_nil_r. reflexivity.
      * destruct Ok_o as [Dp Fr]. destruct E as [(-> & Ne & E)|(_ & E)]; rewrite E in St; injection St as <- <- <-.
        -- apply (leak_keep v log i c
                    (mkConn (c_action c) (-1) node (c_rbuf c) (c_wbuf c) (c_mode c) (c_port c) addr));
             try assumption; try reflexivity; simpl.
           ++ congruence.
           ++ rewrite bumped_conns. reflexivity.
           ++ rewrite opened_app. simpl. unfold rmz. destruct (Z.eq_dec d d); [|congruence].
              apply notin_remove. exact Fr.
        -- apply (leak_open v log i c (mkConn POLLWRITE d node (c_rbuf c) (c_wbuf c) CONNECTING port addr));
             try assumption; try reflexivity; simpl; try discriminate.
           ++ rewrite bumped_conns. reflexivity.
           ++ rewrite opened_app. reflexivity.
  - simpl in Ok_o.
    destruct (find_index_cases v i (proj1 Ok_o)) as [[E _]|(c & E & Hc & Mc)]; rewrite E in St; cbn [bind] in St.
    { injection St as <- <- <-. rewrite app_nil_r. exact NL. }
    destruct (c_mode c =? CONNECTING) eqn:EC.
    2: { injection St as <- <- <-. rewrite app_nil_r. exact NL. }
    unfold complete_conn in St. rewrite Hc in St. cbn [bind] in St.
    destruct (close_conn v i) as [[[code1 v1] evs1]|u| |] eqn:Q; cbn [bind] in St.
    + pose proof (leak_close v log i code1 v1 evs1 b (proj1 Ok_o) H NL Q) as HQ.
      assert (Fail : no_leak v1 (log ++ EvRem (c_desc c) i :: evs1)).
      { destruct HQ as [A1 A2]. split; [exact A1|]. intros d. specialize (A2 d). rewrite opened_app in *. exact A2. }
      destruct r as [e|so nd]; [injection St as <- <- <-; exact HQ|].
      destruct (negb (so =? 0)); [injection St as <- <- <-; exact Fail|].
      destruct (negb (nd =? 0)); [injection St as <- <- <-; exact Fail|].
      injection St as <- <- <-.
      apply (leak_keep v log i c (set_action (set_mode c CONNECTED) POLLREAD)); try assumption; try reflexivity; simpl.
      * split; [discriminate|congruence].
      * rewrite opened_app. reflexivity.
    + destruct (close_cases v i (proj1 Ok_o)) as [[_ Q']|[(x & _ & _ & Q')|(x & _ & Q')]]; cbn zeta in Q'; congruence.
    + destruct (close_cases v i (proj1 Ok_o)) as [[_ Q']|[(x & _ & _ & Q')|(x & _ & Q')]]; cbn zeta in Q'; congruence.
    + destruct (close_cases v i (proj1 Ok_o)) as [[_ Q']|[(x & _ & _ & Q')|(x & _ & Q')]]; cbn zeta in Q'; congruence.
  - exact (leak_close v log i code v' evs b (proj1 Ok_o) H NL St).
  - simpl in Ok_o.
    destruct (find_index_cases v i (proj1 Ok_o)) as [[E _]|(c & E & Hc & Mc)]; rewrite E in St; cbn [bind] in St.
    { injection St as <- <- <-. rewrite app_nil_r. exact NL. }
    injection St as <- <- <-.
    apply (leak_keep v log i c (set_action (set_rbuf (set_wbuf c wb) rb) act)); try assumption; try reflexivity; simpl.
    rewrite opened_app. reflexivity.
Qed.

(** ** Histories *)
Lemma slot_init buf i c : slot (init_vec buf) i = Ok c -> c_desc c = -1 /\ c_mode c = CLOSED.
Proof.
  intros H. apply slot_ok in H. destruct H as [_ H]. simpl in H.
  apply nth_error_In, in_map_iff in H. destruct H as (c0 & <- & _). split; reflexivity.
Qed.
Lemma size_init buf : zlen buf <= RMC_LISTEN_INDEX -> v_size (init_vec buf) = zlen buf.
Proof.
  intros H. unfold init_vec, v_size; simpl. rewrite zlen_map. unfold RMC_LISTEN_INDEX in H.
  pose proof (zlen_nonneg buf). rewrite u16_small by (unfold is_u16; lia).
  unfold zlen in *. rewrite Nat2Z.id, firstn_all. reflexivity.
Qed.
Lemma init_inv b buf : zlen buf <= RMC_LISTEN_INDEX -> CI b (init_vec buf) [].
Proof.
  intros H. pose proof (size_init buf H) as S. constructor.
  - lia.
  - split; [left; reflexivity|]. intros i c Hs D. apply slot_init in Hs. tauto.
  - simpl. unfold count_open. simpl.
    assert (G : forall l, filter (fun c => negb (c_mode c =? CLOSED)) (map reset_conn l) = []).
    { induction l; [reflexivity|]. simpl. exact IHl. }
    rewrite G. reflexivity.
  - intros i c Hs. apply slot_init in Hs. destruct Hs as [-> ->]. split; [lia|congruence].
  - intros i c Hs D. apply slot_init in Hs. tauto.
  - intros i j c c' Hs _ _ D. apply slot_init in Hs. tauto.
  - exists []. split; [reflexivity|]. intros d i. split; [intros []|].
    intros (c & [Hs M] & _). apply slot_init in Hs. tauto.
Qed.
Lemma init_leak buf : no_leak (init_vec buf) [].
Proof.
  split; [|intros d []]. intros i c Hs. apply slot_init in Hs. tauto.
Qed.
Lemma hist_inv b : forall ops v log v' log', CI b v log -> hist v log ops v' log' ->
  (b = false -> forallb (fun o => negb (complete_fails_late o)) ops = true) -> CI b v' log' /\ v_size v' = v_size v.
Proof.
  induction ops as [|o ops IH]; intros v log v' log' H Hh L; simpl in Hh.
  - destruct Hh as [-> ->]. auto.
  - destruct Hh as (Ok_o & code & v1 & e1 & St & Hh).
    destruct (step_inv b v log o H Ok_o) as (code2 & v2 & e2 & St2 & H2 & S2).
    { intros Hb. specialize (L Hb). simpl in L. apply andb_prop in L. destruct (complete_fails_late o); [destruct L; discriminate|reflexivity]. }
    rewrite St in St2. injection St2 as <- <- <-.
    destruct (IH v1 _ v' log' H2 Hh) as [A B]; [|split; [exact A|congruence]].
    intros Hb. specialize (L Hb). simpl in L. apply andb_prop in L. tauto.
Qed.
Lemma hist_leak : forall ops v log v' log', CI true v log -> no_leak v log -> hist v log ops v' log' ->
  forallb (fun o => negb (accept_nodelay_fails o)) ops = true -> no_leak v' log'.
Proof.
  induction ops as [|o ops IH]; intros v log v' log' H NL Hh L; simpl in Hh, L.
  - destruct Hh as [-> ->]. exact NL.
  - destruct Hh as (Ok_o & code & v1 & e1 & St & Hh). apply andb_prop in L. destruct L as [L1 L2].
    destruct (step_inv true v log o H Ok_o) as (code2 & v2 & e2 & St2 & H2 & S2); [discriminate|].
    rewrite St in St2. injection St2 as <- <- <-.
    apply (IH v1 (log ++ e1)); try assumption.
    apply (step_leak true v log o code v1 e1); try assumption. destruct (accept_nodelay_fails o); [discriminate|reflexivity].
Qed.
(** Every history can go on: no call is undefined. *)
Lemma hist_total : forall ops v log, CI true v log ->
  (forall pre o post vm lm, ops = pre ++ o :: post -> hist v log pre vm lm -> op_ok lm o) ->
  exists v' log', hist v log ops v' log'.
Proof.
  induction ops as [|o ops IH]; intros v log H F.
  - exists v, log. split; reflexivity.
  - assert (Ok_o : op_ok log o) by (apply (F [] o ops v log); [reflexivity|split; reflexivity]).
    destruct (step_inv true v log o H Ok_o) as (code & v1 & e1 & St & H1 & S1); [discriminate|].
    destruct (IH v1 (log ++ e1) H1) as (v' & log' & Hh).
    { intros pre o' post vm lm -> Hp. apply (F (o :: pre) o' post vm lm); [reflexivity|].
      simpl. split; [exact Ok_o|]. exists code, v1, e1. split; assumption. }
    exists v', log'. simpl. split; [exact Ok_o|]. exists code, v1, e1. split; assumption.
Qed.

Lemma lowest_free_unique v i j : lowest_free v i -> lowest_free v j -> i = j.
Proof.
  intros [Fi Li] [Fj Lj].
  assert (Ri : 0 <= i) by (destruct Fi as (x & Hx & _); apply slot_range in Hx; lia).
  assert (Rj : 0 <= j) by (destruct Fj as (x & Hx & _); apply slot_range in Hx; lia).
  destruct (Z.lt_trichotomy i j) as [Q|[Q|Q]]; [|exact Q|].
  - exfalso. apply (Lj i); [lia|exact Fi].
  - exfalso. apply (Li j); [lia|exact Fj].
Qed.
Lemma same_put v i c n : 0 <= i -> same_but v (set_active (put_slot (bumped v i) i c) n) i.
Proof.
  intros H. split.
  - rewrite <- (bumped_size v i). apply size_put.
  - intros k Nk. rewrite slot_set_active, slot_put_other by (lia || exact Nk). apply bumped_slot.
Qed.
Lemma slot_put_bumped v i c n : 0 <= i < v_size v -> slot (set_active (put_slot (bumped v i) i c) n) i = Ok c.
Proof. intros H. rewrite slot_set_active. apply slot_put_same. rewrite bumped_size. exact H. Qed.

(** Slots that are not in use have empty rings. *)
Definition clean (v : cvec) : Prop := forall i c, slot v i = Ok c -> c_mode c = CLOSED -> fresh_rings c.
Lemma clean_put v i c' v1 : clean v -> 0 <= i < v_size v ->
  v_conns v1 = v_conns (put_slot v i c') -> (c_mode c' = CLOSED -> fresh_rings c') -> clean v1.
Proof.
  intros C Ri Ec F j x Hx Mx.
  assert (Hx' : slot (put_slot v i c') j = Ok x) by (unfold slot in *; rewrite <- Ec; exact Hx).
  destruct (slot_put v i c' j x Ri Hx') as [[-> ->]|[N Hx2]]; eauto.
Qed.
Lemma fresh_reset c : fresh_rings (reset_conn c).
Proof. unfold fresh_rings, reset_conn, circ_buf_init; simpl. unfold u32. auto 10. Qed.
Lemma clean_close v i code v' evs : 0 <= i -> clean v -> close_conn v i = Ok (code, v', evs) -> clean v'.
Proof.
  intros H0 C E. destruct (close_cases v i H0) as [[L E']|[(c & Hc & Mc & E')|(c & [Hc Mc] & E')]]; rewrite E' in E.
  1,2: injection E as <- <- <-; exact C.
  injection E as <- <- <-. apply (clean_put v i (reset_conn c)); [exact C|exact (slot_range _ _ _ Hc)| |].
  - destruct (i =? v_max v); reflexivity.
  - intros _. apply fresh_reset.
Qed.
Lemma clean_step b v log o code v' evs : CI b v log -> clean v -> op_ok log o ->
  cstep v o = Ok (code, v', evs) -> clean v'.
Proof.
  intros H C Ok_o. pose proof (nil_listen v (ci_size _ _ _ H)) as SN.
  destruct o as [listen r|addr port node r|i r|i|i act rb wb]; unfold cstep; intros St.
  - destruct (accept_cases listen v r SN) as [[_ E]|(i & c & L & Hc & Dc & E)].
    + rewrite E in St. injection St as <- <- <-. exact C.
    + pose proof (slot_range _ _ _ Hc) as Ri. pose proof (ci_closed _ _ _ _ _ H Hc Dc) as Mc.
      pose proof (C i c Hc Mc) as Fc.
      destruct r as [e|d addr nd].
      * rewrite E in St. injection St as <- <- <-.
        apply (clean_put v i (set_desc c (-1))); try assumption; [simpl; rewrite bumped_conns; reflexivity|].
        intros _. exact Fc.
      * destruct E as [(-> & E)|(Nd & code' & v2 & evs' & Q & E)]; rewrite E in St; injection St as <- <- <-.
        -- apply (clean_put v i (mkConn POLLREAD d (c_node c) (c_rbuf c) (c_wbuf c) CONNECTED (c_port c) addr));
             try assumption; [simpl; rewrite bumped_conns; reflexivity|simpl; discriminate].
        -- apply (clean_close _ _ _ _ _ (proj1 (u16_range d))) in Q; [exact Q|].
           apply (clean_put v i (set_desc c d)); try assumption; [simpl; rewrite bumped_conns; reflexivity|].
           intros _. exact Fc.
  - destruct (connect_cases v addr port node r SN) as [[_ E]|(i & c & L & Hc & Dc & E)].
    + rewrite E in St. injection St as <- <- <-. exact C.
    + pose proof (slot_range _ _ _ Hc) as Ri. pose proof (ci_closed _ _ _ _ _ H Hc Dc) as Mc.
      pose proof (C i c Hc Mc) as Fc.
      destruct r as [e|d ok errno].
      * rewrite E in St. injection St as <- <- <-.
        apply (clean_put v i (set_desc c (-1))); try assumption; [simpl; rewrite bumped_conns; reflexivity|].
        intros _. exact Fc.
      * destruct E as [(-> & Ne & E)|(_ & E)]; rewrite E in St; injection St as <- <- <-.
        -- apply (clean_put v i (mkConn (c_action c) (-1) node (c_rbuf c) (c_wbuf c) (c_mode c) (c_port c) addr));
             try assumption; [simpl; rewrite bumped_conns; reflexivity|]. intros _. exact Fc.
        -- apply (clean_put v i (mkConn POLLWRITE d node (c_rbuf c) (c_wbuf c) CONNECTING port addr));
             try assumption; [simpl; rewrite bumped_conns; reflexivity|simpl; discriminate].
  - simpl in Ok_o.
    destruct (find_index_cases v i (proj1 Ok_o)) as [[E _]|(c & E & Hc & Mc)]; rewrite E in St; cbn [bind] in St.
    { injection St as <- <- <-. exact C. }
    destruct (c_mode c =? CONNECTING) eqn:EC.
    2: { injection St as <- <- <-. exact C. }
    unfold complete_conn in St. rewrite Hc in St. cbn [bind] in St.
    destruct (close_conn v i) as [[[code1 v1] evs1]|u| |] eqn:Q; cbn [bind] in St.
    2,3,4: destruct (close_cases v i (proj1 Ok_o)) as [[_ Q']|[(x & _ & _ & Q')|(x & _ & Q')]]; cbn zeta in Q'; congruence.
    pose proof (clean_close v i code1 v1 evs1 (proj1 Ok_o) C Q) as HQ.
    destruct r as [e|so nd]; [injection St as <- <- <-; exact HQ|].
    destruct (negb (so =? 0)); [injection St as <- <- <-; exact HQ|].
    destruct (negb (nd =? 0)); [injection St as <- <- <-; exact HQ|].
    injection St as <- <- <-.
    apply (clean_put v i (set_action (set_mode c CONNECTED) POLLREAD)); try assumption; try reflexivity.
    + exact (slot_range _ _ _ Hc).
    + simpl. discriminate.
  - exact (clean_close v i code v' evs (proj1 Ok_o) C St).
  - simpl in Ok_o.
    destruct (find_index_cases v i (proj1 Ok_o)) as [[E _]|(c & E & Hc & Mc)]; rewrite E in St; cbn [bind] in St.
    { injection St as <- <- <-. exact C. }
    injection St as <- <- <-.
    apply (clean_put v i (set_action (set_rbuf (set_wbuf c wb) rb) act)); try assumption; try reflexivity.
    + exact (slot_range _ _ _ Hc).
    + simpl. congruence.
Qed.
Lemma hist_clean : forall ops v log v' log', CI true v log -> clean v -> hist v log ops v' log' -> clean v'.
Proof.
  induction ops as [|o ops IH]; intros v log v' log' H C Hh; simpl in Hh.
  - destruct Hh as [-> ->]. exact C.
  - destruct Hh as (Ok_o & code & v1 & e1 & St & Hh).
    destruct (step_inv true v log o H Ok_o) as (code2 & v2 & e2 & St2 & H2 & S2); [discriminate|].
    rewrite St in St2. injection St2 as <- <- <-.
    apply (IH v1 (log ++ e1) v' log' H2); [|exact Hh]. exact (clean_step true v log o code v1 e1 H C Ok_o St).
Qed.
Lemma init_clean buf : clean (init_vec buf).
Proof.
  intros i c Hs _. apply slot_ok in Hs. destruct Hs as [_ Hs]. simpl in Hs.
  apply nth_error_In, in_map_iff in Hs. destruct Hs as (c0 & <- & _). apply fresh_reset.
Qed.

(** A slot that was left behind is never released. *)
Lemma stuck_step v o code v' evs i c : v_size v <= RMC_NIL_INDEX -> slot v i = Ok c -> c_desc c <> -1 -> c_mode c = CLOSED ->
  (match o with OpComplete j _ | OpClose j | OpIO j _ _ _ => 0 <= j | _ => True end) ->
  cstep v o = Ok (code, v', evs) -> slot v' i = Ok c.
Proof.
  intros SN Hi Di Mi Ok_o.
  assert (Put : forall w j x, v_conns w = v_conns v -> j <> i -> 0 <= j -> slot (put_slot w j x) i = Ok c).
  { intros w j x E N P. rewrite slot_put_other by (lia || congruence). unfold slot in *. rewrite E. exact Hi. }
  assert (Cl : forall w j r, (forall k, slot w k = slot v k) \/ slot w i = Ok c -> 0 <= j -> close_conn w j = Ok r ->
               slot (snd (fst r)) i = Ok c).
  { intros w j r Hw P E. assert (Hwi : slot w i = Ok c) by (destruct Hw as [Hw|Hw]; [rewrite Hw|]; assumption).
    destruct (close_cases w j P) as [[_ E']|[(x & _ & _ & E')|(x & [Hx Mx] & E')]]; cbn zeta in E'; rewrite E' in E;
      injection E as <-; cbn [fst snd]; try exact Hwi.
    assert (N : j <> i) by (intros ->; congruence).
    rewrite slot_set_active. destruct (j =? v_max w); rewrite ?slot_reset_max;
      rewrite slot_put_other by (lia || congruence); exact Hwi. }
  destruct o as [listen r|addr port node r|j r|j|j act rb wb]; unfold cstep; intros St.
  - destruct (accept_cases listen v r SN) as [[_ E]|(j & x & L & Hx & Dx & E)].
    + rewrite E in St. injection St as <- <- <-. exact Hi.
    + assert (N : j <> i) by (intros ->; congruence). pose proof (slot_range _ _ _ Hx) as Rj.
      destruct r as [e|d addr nd].
      * rewrite E in St. injection St as <- <- <-. apply Put; [apply bumped_conns|exact N|lia].
      * destruct E as [(-> & E)|(Nd & code' & v2 & evs' & Q & E)]; rewrite E in St; injection St as <- <- <-.
        -- rewrite slot_set_active. apply Put; [apply bumped_conns|exact N|lia].
        -- change v2 with (snd (fst (code', v2, evs'))). eapply Cl; [right|exact (proj1 (u16_range d))|exact Q].
           apply Put; [apply bumped_conns|exact N|lia].
  - destruct (connect_cases v addr port node r SN) as [[_ E]|(j & x & L & Hx & Dx & E)].
    + rewrite E in St. injection St as <- <- <-. exact Hi.
    + assert (N : j <> i) by (intros ->; congruence). pose proof (slot_range _ _ _ Hx) as Rj.
      destruct r as [e|d ok errno].
      * rewrite E in St. injection St as <- <- <-. apply Put; [apply bumped_conns|exact N|lia].
      * destruct E as [(-> & Ne & E)|(_ & E)]; rewrite E in St; injection St as <- <- <-.
        -- rewrite slot_reset_max. apply Put; [apply bumped_conns|exact N|lia].
        -- rewrite slot_set_active. apply Put; [apply bumped_conns|exact N|lia].
  - destruct (find_index_cases v j Ok_o) as [[E _]|(x & E & Hx & Mx)]; rewrite E in St; cbn [bind] in St.
    { injection St as <- <- <-. exact Hi. }
    destruct (c_mode x =? CONNECTING) eqn:EC.
    2: { injection St as <- <- <-. exact Hi. }
    unfold complete_conn in St. rewrite Hx in St. cbn [bind] in St.
    destruct (close_conn v j) as [[[code1 v1] evs1]|u| |] eqn:Q; cbn [bind] in St.
    2,3,4: destruct (close_cases v j Ok_o) as [[_ Q']|[(y & _ & _ & Q')|(y & _ & Q')]]; cbn zeta in Q'; congruence.
    assert (HQ : slot v1 i = Ok c).
    { change v1 with (snd (fst (code1, v1, evs1))). eapply Cl; [left; reflexivity|exact Ok_o|exact Q]. }
    destruct r as [e|so nd]; [injection St as <- <- <-; exact HQ|].
    destruct (negb (so =? 0)); [injection St as <- <- <-; exact HQ|].
    destruct (negb (nd =? 0)); [injection St as <- <- <-; exact HQ|].
    injection St as <- <- <-. apply Put; [reflexivity|congruence|exact Ok_o].
  - change v' with (snd (fst (code, v', evs))). eapply Cl; [left; reflexivity|exact Ok_o|exact St].
  - destruct (find_index_cases v j Ok_o) as [[E _]|(x & E & Hx & Mx)]; rewrite E in St; cbn [bind] in St.
    { injection St as <- <- <-. exact Hi. }
    injection St as <- <- <-. apply Put; [reflexivity|congruence|exact Ok_o].
Qed.
Lemma hist_stuck : forall ops v log v' log' i c, CI true v log -> slot v i = Ok c -> c_desc c <> -1 ->
  c_mode c = CLOSED -> hist v log ops v' log' -> slot v' i = Ok c.
Proof.
  induction ops as [|o ops IH]; intros v log v' log' i c H Hs D M Hh; simpl in Hh.
  - destruct Hh as [-> ->]. exact Hs.
  - destruct Hh as (Ok_o & code & v1 & e1 & St & Hh).
    destruct (step_inv true v log o H Ok_o) as (code2 & v2 & e2 & St2 & H2 & S2); [discriminate|].
    rewrite St in St2. injection St2 as <- <- <-.
    apply (IH v1 (log ++ e1) v' log' i c H2); try assumption.
    apply (stuck_step v o code v1 e1 i c); try assumption.
    + apply nil_listen. exact (ci_size _ _ _ H).
    + destruct o; simpl in Ok_o; auto; lia.
Qed.
