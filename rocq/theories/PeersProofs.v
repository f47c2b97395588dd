(** PeersProofs.v — lemmas behind PropPeers.v. *)
From Verif Require Import Base Wire SpecSub TestPeers SpecPeers.

(** ** Numbered streams *)
Lemma upfrom_snoc : forall k f, upfrom f (S k) = upfrom f k ++ [f + Z.of_nat k].
Proof.
  induction k as [|k IH]; intros f; [cbn [upfrom app]; rewrite Z.add_0_r; reflexivity|].
  change (upfrom f (S (S k))) with (f :: upfrom (f + 1) (S k)). rewrite IH. cbn [upfrom app]. do 3 f_equal. lia.
Qed.
Lemma numbered_snoc n m k : numbered n m (S k) = numbered n m k ++ [mkSig n (1 + Z.of_nat k) m].
Proof. unfold numbered. rewrite upfrom_snoc, map_app. reflexivity. Qed.
Lemma numbered_length n m k : length (numbered n m k) = k.
Proof. unfold numbered. rewrite map_length. revert k. assert (H : forall k f, length (upfrom f k) = k) by (induction k; intros; cbn [upfrom length]; auto). intros k. apply H. Qed.
Lemma numbered_inj n m m' k k' : numbered n m k = numbered n m' k' -> k = k' /\ (k = O \/ m = m').
Proof.
  intros E. assert (k = k') as <- by (apply (f_equal (@length _)) in E; rewrite !numbered_length in E; exact E). split; [reflexivity|].
  destruct k as [|k]; [left; reflexivity|right]. rewrite !numbered_snoc in E. apply app_inj_tail in E. destruct E as [_ E]. congruence.
Qed.
Lemma snoc_inv n m k l s : l ++ [s] = numbered n m k -> exists j, k = S j /\ l = numbered n m j /\ s = mkSig n (1 + Z.of_nat j) m.
Proof.
  destruct k as [|j]; [intros E; destruct l; discriminate|]. rewrite numbered_snoc. intros E. apply app_inj_tail in E. destruct E as [-> ->]. exists j. auto.
Qed.
Lemma of_node_app n a b : of_node n (a ++ b) = of_node n a ++ of_node n b.
Proof. apply filter_app. Qed.
Lemma of_node_one n s : of_node n [s] = if sg_node s =? n then [s] else [].
Proof. unfold of_node. cbn [filter]. reflexivity. Qed.

Lemma numbered_prefix : forall b a n m k, a ++ b = numbered n m k -> exists j, (j <= k)%nat /\ a = numbered n m j.
Proof.
  induction b as [|s b IH] using rev_ind; intros a n m k E.
  - rewrite app_nil_r in E. exists k. auto.
  - rewrite app_assoc in E. apply snoc_inv in E. destruct E as (j & -> & E & _). destruct (IH _ _ _ _ E) as (i & Hi & ->). exists i. split; [lia|reflexivity].
Qed.
Lemma in_order_prefix map_ a b : in_order map_ (a ++ b) -> in_order map_ a.
Proof.
  intros H n. specialize (H n). rewrite of_node_app in H. destruct H as [H|(Hx & m & k & E & Hm)]; [left; apply app_eq_nil in H; tauto|].
  destruct (numbered_prefix _ _ _ _ _ E) as (j & Hj & Ej). right. split; [exact Hx|]. exists m, j. split; [exact Ej|lia].
Qed.
Lemma everything_no_more map_ a s : everything map_ a -> in_order map_ (a ++ [s]) -> False.
Proof.
  intros H O. destruct (O (sg_node s)) as [E|(Hx & m & k & E & Hm)]; rewrite of_node_app, of_node_one, Z.eqb_refl in E; [destruct (of_node (sg_node s) a); discriminate|].
  destruct (H _ Hx) as (m' & H1 & E'). rewrite E' in E. apply snoc_inv in E. destruct E as (j & -> & E & _). apply numbered_inj in E. lia.
Qed.
Lemma app_split {X} : forall (a b c d : list X), a ++ b = c ++ d -> (length a <= length c)%nat -> exists z, c = a ++ z /\ b = z ++ d.
Proof.
  induction a as [|x a IH]; intros b c d E H; [exists c; auto|]. destruct c as [|y c]; [cbn [length] in H; lia|]. cbn [app length] in *. injection E as -> E.
  destruct (IH _ _ _ E ltac:(lia)) as (z & -> & ->). exists z. auto.
Qed.
Lemma undecided_passes map_ sigs : undecided map_ sigs -> passes map_ sigs -> False.
Proof.
  intros (O & N) (pre & s & post & -> & O' & E). destruct post as [|t post]; [contradiction|].
  replace (pre ++ s :: t :: post) with (((pre ++ [s]) ++ [t]) ++ post) in O by (rewrite <- !app_assoc; reflexivity).
  apply in_order_prefix in O. exact (everything_no_more _ _ _ E O).
Qed.
Lemma undecided_fails map_ sigs : in_order map_ sigs -> fails map_ sigs -> False.
Proof.
  intros O (pre & s & post & -> & _ & N). apply N. replace (pre ++ s :: post) with ((pre ++ [s]) ++ post) in O by (rewrite <- app_assoc; reflexivity). exact (in_order_prefix _ _ _ O).
Qed.
Lemma passes_fails map_ sigs : passes map_ sigs -> fails map_ sigs -> False.
Proof.
  intros (p1 & s1 & r1 & E1 & O1 & F1) (p2 & s2 & r2 & E2 & U2 & N2). rewrite E1 in E2.
  destruct (Nat.le_gt_cases (length p2) (length p1)) as [L|L].
  - symmetry in E2. replace (p2 ++ s2 :: r2) with ((p2 ++ [s2]) ++ r2) in E2 by (rewrite <- app_assoc; reflexivity).
    replace (p1 ++ s1 :: r1) with ((p1 ++ [s1]) ++ r1) in E2 by (rewrite <- app_assoc; reflexivity).
    destruct (app_split _ _ _ _ E2) as (z & Ez & _); [rewrite !app_length; cbn [length]; lia|]. apply N2. rewrite Ez in O1. exact (in_order_prefix _ _ _ O1).
  - replace (p1 ++ s1 :: r1) with ((p1 ++ [s1]) ++ r1) in E2 by (rewrite <- app_assoc; reflexivity).
    destruct (app_split _ _ _ _ E2) as (z & -> & _); [rewrite !app_length; cbn [length]; lia|]. destruct U2 as [O N]. destruct z as [|t z].
    + apply N. rewrite app_nil_r. exact F1.
    + replace ((p1 ++ [s1]) ++ t :: z) with (((p1 ++ [s1]) ++ [t]) ++ z) in O by (rewrite <- !app_assoc; reflexivity).
      apply in_order_prefix in O. exact (everything_no_more _ _ _ F1 O).
Qed.

(** ** The checker's table *)
Lemma sum_loop_snoc : forall n i a, sum_loop (S n) i a = u64 (sum_loop n i a + (i + Z.of_nat n)).
Proof.
  induction n as [|n IH]; intros i a; [cbn [sum_loop]; f_equal; lia|].
  change (sum_loop (S (S n)) i a) with (sum_loop (S n) (i + 1) (u64 (a + i))). rewrite IH. cbn [sum_loop]. do 2 f_equal. lia.
Qed.
Inductive tracks (n : Z) : bool -> list signal -> expect -> Prop :=
| tr_off x : ex_st x = INACTIVE -> tracks n false [] x
| tr_new x : ex_st x = NOT_STARTED -> tracks n true [] x
| tr_run m k : 1 <= k -> k < 4294967296 -> 0 <= m -> (m = 0 \/ k < m) ->
    tracks n true (numbered n m (Z.to_nat k)) (mkEx IN_PROGRESS m k (sum_loop (Z.to_nat m) 1 0) (sum_loop (Z.to_nat k) 1 0))
| tr_end m x : 1 <= m -> ex_st x = COMPLETED -> tracks n true (numbered n m (Z.to_nat m)) x.
Record INV (map_ : list bool) (sigs : list signal) (e : list expect) : Prop := mkINV {
  in_len : length e = length map_;
  in_out : forall n, ~ (0 <= n < zlen map_) -> of_node n sigs = [];
  in_tab : forall i b x, nth_error map_ i = Some b -> nth_error e i = Some x -> tracks (Z.of_nat i) b (of_node (Z.of_nat i) sigs) x }.

Lemma INV_init map_ : INV map_ [] (expect_init map_).
Proof.
  constructor.
  - apply map_length.
  - reflexivity.
  - intros i b x Hb Hx. unfold expect_init in Hx. rewrite nth_error_map, Hb in Hx. cbn [option_map] in Hx. injection Hx as <-.
    destruct b; constructor; reflexivity.
Qed.
Lemma tracks_ok n b l x : tracks n b l x -> l = [] \/ b = true /\ exists m k, l = numbered n m k /\ (m = 0 \/ Z.of_nat k <= m).
Proof.
  intros [| |m k|m]; auto; right; (split; [reflexivity|]).
  - exists m, (Z.to_nat k). split; [reflexivity|lia].
  - exists m, (Z.to_nat m). split; [reflexivity|lia].
Qed.
Lemma INV_order map_ sigs e : INV map_ sigs e -> in_order map_ sigs.
Proof.
  intros [L O T] n. destruct (Z_lt_dec n 0) as [|N1]; [left; apply O; lia|]. destruct (Z_lt_dec n (zlen map_)) as [N2|]; [|left; apply O; lia].
  destruct (nth_error map_ (Z.to_nat n)) as [b|] eqn:Hb; [|apply nth_error_None in Hb; unfold zlen in N2; lia].
  destruct (nth_error e (Z.to_nat n)) as [x|] eqn:Hx; [|apply nth_error_None in Hx; unfold zlen in N2; lia].
  pose proof (T _ _ _ Hb Hx) as H. rewrite Z2Nat.id in H by lia. destruct (tracks_ok _ _ _ _ H) as [E|(-> & E)]; [left; exact E|].
  right. split; [split; [lia|exact Hb]|exact E].
Qed.
(** A node that is expected and not finished. *)
Lemma tracks_open n l x : tracks n true l x -> (ex_st x =? NOT_STARTED) || (ex_st x =? IN_PROGRESS) = true -> forall m, 1 <= m -> l <> numbered n m (Z.to_nat m).
Proof.
  intros H S m Hm E. destruct (Z.to_nat m) as [|j] eqn:Em; [lia|]. inversion H as [ | y Hy | m' k H1 H2 H3 H4 H5 | m' y H1 H2 H3 ].
  - rewrite E, numbered_snoc in *. destruct (numbered n m j); discriminate.
  - subst l. match goal with A : numbered _ _ _ = numbered _ _ _ |- _ => apply numbered_inj in A end. lia.
  - rewrite H2 in S. discriminate.
Qed.
Lemma INV_done map_ sigs e : INV map_ sigs e -> check_exit_condition e = true -> everything map_ sigs.
Proof.
  intros [L O T] C n (N1 & Hb). destruct (nth_error e (Z.to_nat n)) as [x|] eqn:Hx; [|apply nth_error_None in Hx; assert (nth_error map_ (Z.to_nat n) <> None) by congruence; apply nth_error_Some in H; lia].
  pose proof (T _ _ _ Hb Hx) as H. rewrite Z2Nat.id in H by lia. unfold check_exit_condition in C. rewrite forallb_forall in C. specialize (C _ (nth_error_In _ _ Hx)).
  inversion H; subst; try (match goal with A : ex_st x = _ |- _ => rewrite A in C; discriminate end); cbn [ex_st] in C; try discriminate.
  exists m. auto.
Qed.
Lemma INV_not_done map_ sigs e : INV map_ sigs e -> check_exit_condition e = false -> ~ everything map_ sigs.
Proof.
  intros [L O T] C H. unfold check_exit_condition in C.
  assert (exists x, In x e /\ (ex_st x =? NOT_STARTED) || (ex_st x =? IN_PROGRESS) = true) as (x & Hx & Sx).
  { clear -C. induction e as [|x e IH]; [discriminate|]. cbn [forallb] in C. destruct ((ex_st x =? NOT_STARTED) || (ex_st x =? IN_PROGRESS)) eqn:E; [exists x; split; [left; reflexivity|exact E]|].
    cbn [negb andb] in C. destruct (IH C) as (y & Hy & Ey). exists y. split; [right; exact Hy|exact Ey]. }
  apply In_nth_error in Hx. destruct Hx as [i Hx]. destruct (nth_error map_ i) as [b|] eqn:Hb; [|apply nth_error_None in Hb; assert (nth_error e i <> None) by congruence; apply nth_error_Some in H0; lia].
  pose proof (T _ _ _ Hb Hx) as K. assert (b = true) as ->.
  { inversion K; subst; try reflexivity. match goal with A : ex_st x = _ |- _ => rewrite A in Sx; discriminate end. }
  destruct (H (Z.of_nat i)) as (m & Hm & E); [split; [lia|rewrite Nat2Z.id; exact Hb]|]. exact (tracks_open _ _ _ K Sx m Hm E).
Qed.

Lemma set_nth_length e n v : (n < length e)%nat -> length (set_nth e n v) = length e.
Proof. intros H. unfold set_nth. rewrite app_length. cbn [length]. rewrite firstn_length, skipn_length. lia. Qed.
Lemma set_nth_same e n v : (n < length e)%nat -> nth_error (set_nth e n v) n = Some v.
Proof. intros H. unfold set_nth. rewrite nth_error_app2 by (rewrite firstn_length; lia). rewrite firstn_length, Nat.min_l by lia. rewrite Nat.sub_diag. reflexivity. Qed.
Lemma nth_error_firstn {X} : forall n i (l : list X), (i < n)%nat -> nth_error (firstn n l) i = nth_error l i.
Proof. induction n as [|n IH]; intros i l H; [lia|]. destruct l as [|a l]; [destruct i; reflexivity|]. destruct i; [reflexivity|]. cbn [firstn nth_error]. apply IH. lia. Qed.
Lemma nth_error_skipn {X} : forall n i (l : list X), nth_error (skipn n l) i = nth_error l (n + i).
Proof. induction n as [|n IH]; intros i l; [reflexivity|]. destruct l as [|a l]; [destruct i; reflexivity|]. cbn [skipn plus nth_error]. apply IH. Qed.
Lemma set_nth_other e n v i : (n < length e)%nat -> i <> n -> nth_error (set_nth e n v) i = nth_error e i.
Proof.
  intros Hn H. unfold set_nth. destruct (Nat.lt_ge_cases i n) as [L|L].
  - rewrite nth_error_app1 by (rewrite firstn_length; lia). apply nth_error_firstn. exact L.
  - rewrite nth_error_app2 by (rewrite firstn_length; lia). rewrite firstn_length, Nat.min_l by lia.
    destruct (i - n)%nat as [|j] eqn:E; [lia|]. cbn [nth_error]. rewrite nth_error_skipn. f_equal. lia.
Qed.

Lemma INV_set map_ sigs e s b v : INV map_ sigs e -> 0 <= sg_node s -> nth_error map_ (Z.to_nat (sg_node s)) = Some b ->
  tracks (sg_node s) b (of_node (sg_node s) sigs ++ [s]) v -> INV map_ (sigs ++ [s]) (set_nth e (Z.to_nat (sg_node s)) v).
Proof.
  intros [L O T] Hn Hb Ht. assert (Hlt : (Z.to_nat (sg_node s) < length e)%nat) by (rewrite L; apply nth_error_Some; congruence). constructor.
  - rewrite set_nth_length; assumption.
  - intros n N. rewrite of_node_app, of_node_one, (O n N). destruct (Z.eqb_spec (sg_node s) n) as [<-|]; [|reflexivity]. exfalso. apply N. unfold zlen. lia.
  - intros i b' x Hb' Hx. rewrite of_node_app, of_node_one. destruct (Z.eqb_spec (sg_node s) (Z.of_nat i)) as [E|N].
    + assert (i = Z.to_nat (sg_node s)) as -> by lia. rewrite set_nth_same in Hx by exact Hlt. injection Hx as <-. assert (b' = b) as -> by congruence. rewrite <- E. exact Ht.
    + rewrite app_nil_r. rewrite set_nth_other in Hx by (try exact Hlt; lia). exact (T _ _ _ Hb' Hx).
Qed.
(** In order means: the next number with the same highest number, not above it. *)
Lemma order_node map_ sigs s : in_order map_ (sigs ++ [s]) -> expected map_ (sg_node s) /\
  exists m k, of_node (sg_node s) sigs = numbered (sg_node s) m k /\ s = mkSig (sg_node s) (1 + Z.of_nat k) m /\ (m = 0 \/ Z.of_nat k < m).
Proof.
  intros H. specialize (H (sg_node s)). rewrite of_node_app, of_node_one, Z.eqb_refl in H. destruct H as [H|(Hx & m & k & E & Hm)]; [destruct (of_node _ sigs); discriminate|].
  split; [exact Hx|]. apply snoc_inv in E. destruct E as (j & -> & E1 & E2). exists m, j. split; [exact E1|]. split; [exact E2|lia].
Qed.

Definition good_verdict map_ sigs (v : verdict) : Prop :=
  match v with
  | Goes e => INV map_ sigs e /\ ~ everything map_ sigs
  | Passed => in_order map_ sigs /\ everything map_ sigs
  | Exits c => c = 255 /\ ~ in_order map_ sigs
  | Undef => False
  end.
Lemma step_verdict map_ sigs e s : INV map_ sigs e -> sig_ok s -> good_verdict map_ (sigs ++ [s]) (process_incoming_signal e s).
Proof.
  intros I (Hn & Hi & Hm). pose proof I as [L O T]. unfold is_u32 in *. unfold process_incoming_signal.
  destruct (Z.leb_spec (zlen e) (sg_node s)) as [N|N].
  { split; [reflexivity|]. intros H. apply order_node in H. destruct H as ((_ & H) & _). assert (nth_error map_ (Z.to_nat (sg_node s)) <> None) by congruence. apply nth_error_Some in H0. unfold zlen in N. lia. }
  destruct (nth_error e (Z.to_nat (sg_node s))) as [x|] eqn:Hx; [|apply nth_error_None in Hx; unfold zlen in N; lia].
  destruct (nth_error map_ (Z.to_nat (sg_node s))) as [b|] eqn:Hb; [|apply nth_error_None in Hb; unfold zlen in N; lia].
  pose proof (T _ _ _ Hb Hx) as Ht. rewrite Z2Nat.id in Ht by lia.
  remember (of_node (sg_node s) sigs) as l eqn:El.
  assert (Emk : mkSig (sg_node s) (sg_id s) (sg_max s) = s) by (destruct s; reflexivity).
  assert (Go : forall v k, b = true -> l = numbered (sg_node s) (sg_max s) (Z.to_nat k) -> 0 <= k -> sg_id s = k + 1 -> tracks (sg_node s) true (numbered (sg_node s) (sg_max s) (Z.to_nat (sg_id s))) v ->
    INV map_ (sigs ++ [s]) (set_nth e (Z.to_nat (sg_node s)) v)).
  { intros v k -> E0 Hk Ei Hv. apply (INV_set _ _ _ _ true); [exact I|lia|exact Hb|]. rewrite <- El, E0. rewrite Ei in Hv. replace (Z.to_nat (k + 1)) with (S (Z.to_nat k)) in Hv by lia.
    rewrite numbered_snoc in Hv. replace (1 + Z.of_nat (Z.to_nat k)) with (sg_id s) in Hv by lia. rewrite Emk in Hv. exact Hv. }
  assert (Sum : forall k, 0 <= k < 4294967296 -> u64 (sum_loop (Z.to_nat k) 1 0 + (k + 1)) = sum_loop (Z.to_nat (k + 1)) 1 0).
  { intros k Hk. replace (Z.to_nat (k + 1)) with (S (Z.to_nat k)) by lia. rewrite sum_loop_snoc. do 2 f_equal. lia. }
  (* the node is running: [k] signals so far *)
  assert (Run : forall k, b = true -> 0 <= k < 4294967296 -> l = numbered (sg_node s) (sg_max s) (Z.to_nat k) -> (sg_max s = 0 \/ k < sg_max s) ->
    good_verdict map_ (sigs ++ [s])
     (if negb (sg_id s =? u64 (k + 1)) then Exits 255
      else if sg_id s =? sg_max s
      then if negb (sum_loop (Z.to_nat (sg_max s)) 1 0 =? u64 (sum_loop (Z.to_nat k) 1 0 + sg_id s)) then Exits 0
           else let e' := set_nth e (Z.to_nat (sg_node s)) (mkEx COMPLETED (sg_max s) (sg_id s) (sum_loop (Z.to_nat (sg_max s)) 1 0) (u64 (sum_loop (Z.to_nat k) 1 0 + sg_id s))) in
                if check_exit_condition e' then Passed else Goes e'
      else Goes (set_nth e (Z.to_nat (sg_node s)) (mkEx IN_PROGRESS (sg_max s) (sg_id s) (sum_loop (Z.to_nat (sg_max s)) 1 0) (u64 (sum_loop (Z.to_nat k) 1 0 + sg_id s)))))).
  { intros k Eb Hk E0 Hm'. rewrite u64_small by (unfold is_u64; lia). destruct (Z.eqb_spec (sg_id s) (k + 1)) as [Ei|Ni]; cbn [negb].
    2:{ split; [reflexivity|]. intros H. apply order_node in H. destruct H as (_ & m & j & H1 & H2 & _). rewrite <- El, E0 in H1. apply numbered_inj in H1. rewrite H2 in Ni. cbn [sg_id] in Ni. lia. }
    assert (Es : u64 (sum_loop (Z.to_nat k) 1 0 + sg_id s) = sum_loop (Z.to_nat (sg_id s)) 1 0) by (rewrite Ei; apply Sum; lia). rewrite Es. clear Es. destruct (Z.eqb_spec (sg_id s) (sg_max s)) as [Em|Nm].
    - rewrite Em, Z.eqb_refl. cbn [negb]. cbv zeta. rewrite <- Em.
      assert (I' : INV map_ (sigs ++ [s]) (set_nth e (Z.to_nat (sg_node s)) (mkEx COMPLETED (sg_id s) (sg_id s) (sum_loop (Z.to_nat (sg_id s)) 1 0) (sum_loop (Z.to_nat (sg_id s)) 1 0)))).
      { apply (Go _ k Eb E0); [lia|exact Ei|]. rewrite <- Em. apply tr_end; [lia|reflexivity]. }
      match goal with |- context [check_exit_condition ?t] => destruct (check_exit_condition t) eqn:C end.
      + split; [exact (INV_order _ _ _ I')|exact (INV_done _ _ _ I' C)].
      + split; [exact I'|exact (INV_not_done _ _ _ I' C)].
    - assert (I' : INV map_ (sigs ++ [s]) (set_nth e (Z.to_nat (sg_node s)) (mkEx IN_PROGRESS (sg_max s) (sg_id s) (sum_loop (Z.to_nat (sg_max s)) 1 0) (sum_loop (Z.to_nat (sg_id s)) 1 0)))).
      { apply (Go _ k Eb E0); [lia|exact Ei|]. apply tr_run; lia. }
      split; [exact I'|]. apply (INV_not_done _ _ _ I').
      destruct (check_exit_condition _) eqn:C; [|reflexivity]. unfold check_exit_condition in C. rewrite forallb_forall in C.
      assert (Hlt : (Z.to_nat (sg_node s) < length e)%nat) by (unfold zlen in N; lia).
      specialize (C _ (nth_error_In _ _ (set_nth_same e _ _ Hlt))). cbn [ex_st] in C. discriminate. }
  inversion Ht as [y Hy| y Hy | m k Hk1 Hk2 Hm0 Hmk | m y Hm1 Hy].
  - rewrite Hy. change (INACTIVE =? INACTIVE) with true. cbv iota. split; [reflexivity|]. intros X. apply order_node in X. destruct X as ((_ & X) & _). congruence.
  - rewrite Hy. change (NOT_STARTED =? INACTIVE) with false. change (NOT_STARTED =? COMPLETED) with false. change (NOT_STARTED =? NOT_STARTED) with true. cbv iota.
    replace (INT_MAX <=? sg_max s) with false by (unfold INT_MAX; lia). cbn [andb]. cbv zeta. cbn [ex_max ex_rcv ex_sum ex_calc ex_st]. rewrite Z.eqb_refl. cbn [negb].
    apply (Run 0); [congruence|lia|symmetry; assumption|lia].
  - cbn [ex_st]. change (IN_PROGRESS =? INACTIVE) with false. change (IN_PROGRESS =? COMPLETED) with false. change (IN_PROGRESS =? NOT_STARTED) with false. cbn [andb]. cbv iota zeta. cbn [ex_max ex_rcv ex_sum ex_calc ex_st].
    destruct (Z.eqb_spec (sg_max s) m) as [<-|Nm]; cbn [negb].
    + apply Run; [congruence|lia|congruence|lia].
    + split; [reflexivity|]. intros X. apply order_node in X. destruct X as (_ & m' & j & X1 & X2 & _). rewrite X2 in Nm. cbn [sg_max] in Nm.
      assert (E : numbered (sg_node s) m (Z.to_nat k) = numbered (sg_node s) m' j) by congruence. apply numbered_inj in E. lia.
  - rewrite Hy. change (COMPLETED =? INACTIVE) with false. change (COMPLETED =? COMPLETED) with true. cbv iota. split; [reflexivity|]. intros X. apply order_node in X. destruct X as (_ & m' & j & X1 & X2 & X3).
    assert (E : numbered (sg_node s) m (Z.to_nat m) = numbered (sg_node s) m' j) by congruence. apply numbered_inj in E. lia.
Qed.

(** ** A whole stream *)
Fixpoint check (e : list expect) (sigs : list signal) : verdict :=
  match sigs with
  | [] => Goes e
  | s :: r => match process_incoming_signal e s with Goes e' => check e' r | v => v end
  end.
Lemma check_app e a b : check e (a ++ b) = match check e a with Goes e' => check e' b | v => v end.
Proof. revert e. induction a as [|s a IH]; intros e; cbn [app check]; [reflexivity|]. destruct (process_incoming_signal e s); auto. Qed.
Definition good_result map_ sigs (v : verdict) : Prop :=
  match v with
  | Goes e => undecided map_ sigs
  | Passed => passes map_ sigs
  | Exits c => c = 255 /\ fails map_ sigs
  | Undef => False
  end.
Lemma check_verdict map_ : forall sigs e pre, INV map_ pre e -> ~ everything map_ pre -> Forall sig_ok sigs ->
  good_result map_ (pre ++ sigs) (check e sigs).
Proof.
  induction sigs as [|s sigs IH]; intros e pre I N F.
  - cbn [check good_result]. rewrite app_nil_r. split; [exact (INV_order _ _ _ I)|exact N].
  - apply Forall_cons_iff in F. destruct F as [Fs F]. cbn [check]. pose proof (step_verdict map_ pre e s I Fs) as V.
    destruct (process_incoming_signal e s) as [e'| |c|]; cbn [good_verdict] in V.
    + destruct V as [I' N']. specialize (IH e' (pre ++ [s]) I' N' F). rewrite <- app_assoc in IH. exact IH.
    + exists pre, s, sigs. split; [reflexivity|exact V].
    + destruct V as [-> V]. split; [reflexivity|]. exists pre, s, sigs. split; [reflexivity|]. split; [|exact V]. split; [exact (INV_order _ _ _ I)|exact N].
    + contradiction.
Qed.

(** ** Payloads *)
Lemma enc_signal_zlen s : zlen (enc_signal s) = 20.
Proof. unfold enc_signal. rewrite !zlen_app. unfold zlen. rewrite !le_bytes_length. reflexivity. Qed.
Definition sig_u32 (s : signal) : Prop := is_u32 (sg_node s) /\ is_u32 (sg_id s) /\ is_u32 (sg_max s).
Lemma sig_ok_u32 s : sig_ok s -> sig_u32 s.
Proof. intros (H1 & H2 & H3). repeat split; unfold is_u32 in *; lia. Qed.
Lemma dec_enc_signal s r : sig_u32 s -> dec_signal (enc_signal s ++ r) = s.
Proof.
  intros (H1 & H2 & H3). unfold dec_signal, enc_signal. rewrite <- !app_assoc.
  rewrite (skipn_le 4 4), (skipn_le 8 4) by lia. cbn [Nat.sub]. rewrite (skipn_le 4 4) by lia. cbn [Nat.sub skipn]. rewrite !firstn_le.
  unfold is_u32 in *. rewrite !le_val_bytes by (cbn; lia). destruct s; reflexivity.
Qed.
Lemma zdrop_signal s r : zdrop signal_size (enc_signal s ++ r) = r.
Proof.
  unfold zdrop. change (Z.to_nat signal_size) with 20%nat. rewrite skipn_app. pose proof (enc_signal_zlen s) as H. unfold zlen in H.
  rewrite skipn_all2 by lia. replace (20 - length (enc_signal s))%nat with 0%nat by lia. reflexivity.
Qed.
Lemma packet_signals : forall sigs fuel e tail, Forall sig_u32 sigs -> (length sigs + length tail <= fuel)%nat ->
  packet_loop fuel e (payload_of sigs ++ tail) = match check e sigs with Goes e' => packet_loop (fuel - length sigs) e' tail | v => v end.
Proof.
  induction sigs as [|s sigs IH]; intros fuel e tail F Hf.
  - cbn [payload_of flat_map app check length]. rewrite Nat.sub_0_r. reflexivity.
  - apply Forall_cons_iff in F. destruct F as [Fs F]. cbn [length] in Hf. destruct fuel as [|fuel]; [lia|]. unfold payload_of. cbn [flat_map]. fold (payload_of sigs). rewrite <- app_assoc.
    cbn [packet_loop check length]. pose proof (enc_signal_zlen s) as Hz.
    destruct (enc_signal s ++ payload_of sigs ++ tail) as [|b r] eqn:E.
    { apply (f_equal zlen) in E. rewrite zlen_app, Hz, zlen_nil in E. pose proof (zlen_nonneg (payload_of sigs ++ tail)). lia. }
    rewrite <- E. rewrite zlen_app, Hz. pose proof (zlen_nonneg (payload_of sigs ++ tail)). replace (_ <? 12) with false by lia. rewrite dec_enc_signal by exact Fs.
    destruct (process_incoming_signal e s); try reflexivity. rewrite zdrop_signal. cbn [Nat.sub]. apply IH; [exact F|lia].
Qed.
Lemma payload_length sigs : (length sigs <= length (payload_of sigs))%nat.
Proof.
  induction sigs as [|s sigs IH]; [cbn; lia|]. unfold payload_of. cbn [flat_map length]. rewrite app_length. fold (payload_of sigs). pose proof (enc_signal_zlen s) as H. unfold zlen in H. lia.
Qed.
Lemma packet_check e sigs : Forall sig_u32 sigs -> process_incoming_packet e (payload_of sigs) = check e sigs.
Proof.
  intros F. unfold process_incoming_packet. pose proof (packet_signals sigs (length (payload_of sigs)) e [] F) as H. rewrite app_nil_r in H. rewrite H by (pose proof (payload_length sigs); cbn [length]; lia).
  destruct (check e sigs) as [e'| | |]; try reflexivity. destruct (_ - _)%nat; reflexivity.
Qed.
Lemma receive_check : forall packets e, Forall (Forall sig_u32) packets -> receive_loop e (map payload_of packets) = check e (concat packets).
Proof.
  induction packets as [|p packets IH]; intros e F; [reflexivity|]. apply Forall_cons_iff in F. destruct F as [Fp F]. cbn [map receive_loop concat]. rewrite packet_check by exact Fp. rewrite check_app.
  destruct (check e p); auto.
Qed.
