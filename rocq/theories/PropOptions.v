(** PropOptions.v — C99: the command line of rmc_test. *)
From Coq Require Import String Ascii.
From Verif Require Import Base TestPeers SpecPeers PropPeers Options.

(** ** Specification *)
(** The character codes of a text. *)
Definition text (s : string) : list Z := map (fun c => Z.of_N (N_of_ascii c)) (list_ascii_of_string s).
(** [v] is what the last option that [sel] picks out says, or [d] if there is none. *)
Definition last_given {A} (sel : gopt -> option A) (opts : list gopt) (d v : A) : Prop :=
  (exists pre o post, opts = pre ++ o :: post /\ sel o = Some v /\ forall p, In p post -> sel p = None) \/
  (v = d /\ forall o, In o opts -> sel o = None).
(** The strings fit. *)
Definition fits (o : gopt) : Prop := match o with G_M s | G_m s | G_l s => zlen s < 80 | _ => True end.
(** The option is accepted. *)
Definition accepted (o : gopt) : Prop := match o with G_E v | G_e v => 1 <= v < 1024 | G_n _ | G_bad => False | _ => True end.
(** The nodes named. *)
Definition named (opts : list gopt) (n : Z) : Prop := In (G_e n) opts \/ In (G_E n) opts.
Definition none_named (opts : list gopt) : Prop := forall n, ~ named opts n.

Definition sel_group o := match o with G_M s => Some s | _ => None end.
Definition sel_mif o := match o with G_m s => Some s | _ => None end.
Definition sel_lif o := match o with G_l s => Some s | _ => None end.
Definition sel_mport o := match o with G_P v => Some v | _ => None end.
Definition sel_lport o := match o with G_p v => Some v | _ => None end.
Definition sel_node o := match o with G_i v => Some (v mod 4294967296) | _ => None end.
Definition sel_count o := match o with G_c v => Some (v mod 18446744073709551616) | _ => None end.
Definition sel_seed o := match o with G_r v => Some v | _ => None end.
Definition sel_interval o := match o with G_s v => Some v | _ => None end.
Definition sel_jitter o := match o with G_j v => Some v | _ => None end.
Definition sel_drop o := match o with G_d v => Some v | _ => None end.
Definition sel_subs o := match o with G_E v => Some v | _ => None end.
Definition sel_level o := match o with G_L v => Some v | _ => None end.

(** ** Proofs *)
Lemma last_nil {A} (sel : gopt -> option A) d : last_given sel [] d d.
Proof. right. split; [reflexivity|]. intros o []. Qed.
Lemma last_cons {A} (sel : gopt -> option A) o opts d v : last_given sel opts (match sel o with Some w => w | None => d end) v -> last_given sel (o :: opts) d v.
Proof.
  intros [(pre & q & post & -> & H1 & H2)|[-> H]].
  - left. exists (o :: pre), q, post. auto.
  - destruct (sel o) as [w|] eqn:E; [left; exists [], o, opts; auto|right]. split; [reflexivity|]. intros q [<-|Hq]; auto.
Qed.
Lemma loop_last {A} (sel : gopt -> option A) (pr : settings -> A) :
  (forall s o s', option_step s o = Ok (Some s') -> pr s' = match sel o with Some w => w | None => pr s end) ->
  forall opts s s', option_loop s opts = Ok (Some s') -> last_given sel opts (pr s) (pr s').
Proof.
  intros H. induction opts as [|o opts IH]; intros s s'; cbn [option_loop].
  - intros E. injection E as <-. apply last_nil.
  - destruct (option_step s o) as [[t|]| | |] eqn:E; cbn [bind]; try discriminate. intros E2. apply last_cons. rewrite <- (H _ _ _ E). exact (IH _ _ E2).
Qed.
Ltac step_tac := let s0 := fresh in let o0 := fresh in let s1 := fresh in let E0 := fresh in intros s0 o0 s1 E0; destruct s0, o0; cbn [option_step] in E0; unfold expect_case, strcpy80 in E0;
  cbn [o_pub o_group o_mif o_lif o_lport o_mport o_seed o_count o_node o_drop o_interval o_jitter o_map o_subs o_given o_level] in E0;
  repeat match type of E0 with context [if ?b then _ else _] => destruct b end; cbn [bind] in E0; try discriminate E0; injection E0 as <-; reflexivity.

(** A step ends the program in only these ways. *)
Lemma step_out s o : match option_step s o with
  | Ok (Some s') => accepted o /\ fits o | Ok None => ~ accepted o /\ fits o | UB u => u = OutOfBounds /\ ~ fits o /\ accepted o | _ => False end.
Proof.
  destruct s, o; cbn [option_step]; unfold expect_case, strcpy80; cbn [accepted fits]; try tauto;
    repeat match goal with |- context [?a || ?b] => destruct (a || b) eqn:? | |- context [?a <=? 80] => destruct (a <=? 80) eqn:? end; cbn [bind]; try (split; [lia|exact I]); try (split; [exact I|lia]).
  all: split; [reflexivity|split; [lia|exact I]].
Qed.
Lemma loop_out : forall opts s, match option_loop s opts with
  | Ok (Some s') => Forall accepted opts /\ Forall fits opts
  | Ok None => exists pre o post, opts = pre ++ o :: post /\ Forall accepted pre /\ Forall fits pre /\ ~ accepted o /\ fits o
  | UB u => u = OutOfBounds /\ exists pre o post, opts = pre ++ o :: post /\ Forall accepted pre /\ Forall fits pre /\ ~ fits o
  | _ => False end.
Proof.
  induction opts as [|o opts IH]; intros s; cbn [option_loop]; [split; constructor|]. pose proof (step_out s o) as H.
  destruct (option_step s o) as [[t|]|u| |]; cbn [bind]; try contradiction.
  - destruct H as [A F]. specialize (IH t). destruct (option_loop t opts) as [[s'|]|u| |]; try contradiction.
    + split; constructor; tauto.
    + destruct IH as (pre & q & post & -> & H1 & H2 & H3 & H4). exists (o :: pre), q, post. split; [reflexivity|]. split; [constructor; assumption|]. split; [constructor; assumption|]. split; assumption.
    + destruct IH as (-> & pre & q & post & -> & H1 & H2 & H3). split; [reflexivity|]. exists (o :: pre), q, post. split; [reflexivity|]. split; [constructor; assumption|]. split; [constructor; assumption|]. exact H3.
  - exists [], o, opts. split; [reflexivity|]. split; [constructor|]. split; [constructor|]. tauto.
  - destruct H as (-> & F & _). split; [reflexivity|]. exists [], o, opts. split; [reflexivity|]. split; [constructor|]. split; [constructor|]. exact F.
Qed.
(** The expected nodes are those of TestPeers.v (C89), applied to the -e and -E among the options. *)
Definition arg_of (o : gopt) : list arg := match o with G_E v => [Big_E v] | G_e v => [Small_e v] | _ => [] end.
Lemma loop_map : forall opts s s', option_loop s opts = Ok (Some s') -> options (o_map s) (o_given s) (flat_map arg_of opts) = Some (o_map s', o_given s').
Proof.
  induction opts as [|o opts IH]; intros s s'; cbn [option_loop]; [intros E; injection E as <-; reflexivity|].
  destruct (option_step s o) as [[t|]| | |] eqn:E; cbn [bind]; try discriminate. intros E2. specialize (IH _ _ E2). cbn [flat_map]. rewrite <- IH.
  clear - E. destruct s as [q1 q2 q3 q4 q5 q6 q7 q8 q9 q10 q11 q12 q13 q14 q15 q16], o; cbn [option_step] in E; unfold expect_case, strcpy80 in E; cbn [o_map o_given] in *;
    repeat match type of E with context [if ?b then _ else _] => destruct b eqn:? end; cbn [bind] in E; try discriminate E; injection E as <-; cbn [arg_of app options o_map o_given]; try reflexivity.
  all: match goal with H : _ = false |- _ => rewrite H end; reflexivity.
Qed.
Lemma named_args opts n : In n (map arg_val (flat_map arg_of opts)) <-> named opts n.
Proof.
  unfold named. rewrite in_map_iff. split.
  - intros (a & <- & Ha). apply in_flat_map in Ha. destruct Ha as (o & Ho & Hi). destruct o; cbn in Hi; try contradiction; destruct Hi as [<-|[]]; cbn [arg_val]; auto.
  - intros [H|H]; [exists (Small_e n)|exists (Big_E n)]; (split; [reflexivity|apply in_flat_map; eexists; split; [exact H|left; reflexivity]]).
Qed.

(** ** C99 *)
(** Unless a string is too long, main ends in one of two ways: with the usage text iff some option is not
    accepted or the last log level is none of 0..6, else it starts a peer. *)
Theorem c99_usage : forall opts, Forall fits opts -> exists r, rmc_test_main opts = Ok r /\
  (r = Usage <-> (exists o, In o opts /\ ~ accepted o) \/ exists lv, last_given sel_level opts 0 lv /\ ~ 0 <= lv <= 6).
Proof.
  intros opts F. unfold rmc_test_main. pose proof (loop_out opts defaults) as H. destruct (option_loop defaults opts) as [[s|]|u| |] eqn:E; try contradiction; cbn [bind].
  - destruct H as [A _]. pose proof (loop_last sel_level o_level ltac:(step_tac) _ _ _ E) as L. cbn [defaults o_level] in L.
    assert (No : ~ exists o, In o opts /\ ~ accepted o) by (intros (o & Ho & Na); rewrite Forall_forall in A; exact (Na (A o Ho))).
    cbv zeta. destruct ((o_level s <? 0) || (6 <? o_level s)) eqn:B; [exists Usage; split; [reflexivity|]|].
    + split; [intros _; right; exists (o_level s); split; [exact L|lia]|reflexivity].
    + match goal with |- exists r, (if _ then Ok ?a else Ok ?b) = Ok r /\ _ => exists (if negb (o_pub s) then a else b); split; [destruct (negb (o_pub s)); reflexivity|] end.
      split; [destruct (negb (o_pub s)); discriminate|]. intros [Q|(lv & Q & N)]; [contradiction|]. exfalso. apply N. assert (lv = o_level s); [|lia]. clear - L Q.
      destruct L as [(p1 & o1 & q1 & E1 & S1 & N1)|[E1 N1]], Q as [(p2 & o2 & q2 & E2 & S2 & N2)|[E2 N2]].
      * rewrite E1 in E2. clear E1. revert p2 E2. induction p1 as [|a p1 IH]; intros [|b p2] E2; cbn [app] in E2; injection E2 as E0 E2.
        -- congruence.
        -- rewrite E2 in N1. specialize (N1 o2 ltac:(apply in_or_app; right; left; reflexivity)). congruence.
        -- rewrite <- E2 in N2. specialize (N2 o1 ltac:(apply in_or_app; right; left; reflexivity)). congruence.
        -- exact (IH _ E2).
      * specialize (N2 o1 ltac:(rewrite E1; apply in_or_app; right; left; reflexivity)). congruence.
      * specialize (N1 o2 ltac:(rewrite E2; apply in_or_app; right; left; reflexivity)). congruence.
      * congruence.
  - exists Usage. split; [reflexivity|]. split; [|reflexivity]. intros _. left. destruct H as (pre & o & post & -> & _ & _ & N & _). exists o. split; [apply in_or_app; right; left; reflexivity|exact N].
  - destruct H as (_ & pre & o & post & -> & _ & _ & N). exfalso. apply N. rewrite Forall_forall in F. apply F. apply in_or_app. right. left. reflexivity.
Qed.

Definition settings_of (opts : list gopt) (grp mif : list Z) (mport node : Z) : Prop :=
  last_given sel_group opts (text "239.0.0.1") grp /\ last_given sel_mif opts (text "0.0.0.0") mif /\ last_given sel_mport opts 4723 mport /\ last_given sel_node opts 1 node.
(** A subscriber is started iff -S is given; each argument is what the last option for it says, or its
    default; the nodes expected are those named by -e or -E, or node 1 if none is. *)
Theorem c99_subscriber_partial : forall opts grp mif mport node m, rmc_test_main opts = Ok (StartSub grp mif mport node m) ->
  In G_S opts /\ settings_of opts grp mif mport node /\ length m = 1024%nat /\
  forall n, expected m n <-> named opts n \/ none_named opts /\ n = 1.
Proof.
  intros opts grp mif mport node m. unfold rmc_test_main. destruct (option_loop defaults opts) as [[s|]| | |] eqn:E; cbn [bind]; try discriminate.
  destruct (_ || _); [discriminate|]. destruct (o_pub s) eqn:Ep; cbn [negb]; [discriminate|]. intros Q. injection Q as <- <- <- <- Qm.
  split.
  { assert (D : last_given (fun o => match o with G_S => Some false | _ => None end) opts (o_pub defaults) (o_pub s)) by (apply loop_last; [step_tac|exact E]).
    rewrite Ep in D. destruct D as [(pre & o & post & -> & S & _)|[D _]]; [|discriminate]. destruct o; try discriminate S. apply in_or_app. right. left. reflexivity. }
  split.
  { split; [exact (loop_last sel_group o_group ltac:(step_tac) _ _ _ E)|]. split; [exact (loop_last sel_mif o_mif ltac:(step_tac) _ _ _ E)|].
    split; [exact (loop_last sel_mport o_mport ltac:(step_tac) _ _ _ E)|exact (loop_last sel_node o_node ltac:(step_tac) _ _ _ E)]. }
  pose proof (loop_map _ _ _ E) as L. cbn [defaults o_map o_given] in L. pose proof (proj1 c89_options_refuted (flat_map arg_of opts)) as X. unfold expected_map in X. rewrite L in X. cbv zeta in Qm. rewrite Qm in X.
  destruct X as [X1 X2]. split; [exact X1|]. intros n. rewrite X2, named_args.
  assert (Z : flat_map arg_of opts = [] <-> none_named opts).
  { split; [intros Z k Hk; apply named_args in Hk; rewrite Z in Hk; destruct Hk|]. intros N. destruct (flat_map arg_of opts) as [|a l] eqn:Ea; [reflexivity|]. exfalso. apply (N (arg_val a)). apply named_args. rewrite Ea. left. reflexivity. }
  rewrite Z. reflexivity.
Qed.
Theorem c99_publisher : forall opts grp mif lif mport lport node count subs seed ivl jit drop,
  rmc_test_main opts = Ok (StartPub grp mif lif mport lport node count subs seed ivl jit drop) ->
  ~ In G_S opts /\ settings_of opts grp mif mport node /\ last_given sel_lif opts (text "0.0.0.0") lif /\ last_given sel_lport opts 0 lport /\
  last_given sel_count opts 1 count /\ last_given sel_subs opts 1 subs /\ last_given sel_seed opts 1 seed /\ last_given sel_interval opts 0 ivl /\
  last_given sel_jitter opts 0 jit /\ last_given sel_drop opts 0 drop.
Proof.
  intros opts grp mif lif mport lport node count subs seed ivl jit drop. unfold rmc_test_main. destruct (option_loop defaults opts) as [[s|]| | |] eqn:E; cbn [bind]; try discriminate.
  destruct (_ || _); [discriminate|]. destruct (o_pub s) eqn:Ep; cbn [negb]; [|discriminate]. intros Q. injection Q as <- <- <- <- <- <- <- <- <- <- <- <-.
  split.
  { intros Hs. assert (D : last_given (fun o => match o with G_S => Some false | _ => None end) opts (o_pub defaults) (o_pub s)) by (apply loop_last; [step_tac|exact E]).
    rewrite Ep in D. destruct D as [(pre & o & post & -> & S & _)|[_ D]]; [destruct o; discriminate S|]. specialize (D _ Hs). discriminate D. }
  split.
  { split; [exact (loop_last sel_group o_group ltac:(step_tac) _ _ _ E)|]. split; [exact (loop_last sel_mif o_mif ltac:(step_tac) _ _ _ E)|].
    split; [exact (loop_last sel_mport o_mport ltac:(step_tac) _ _ _ E)|exact (loop_last sel_node o_node ltac:(step_tac) _ _ _ E)]. }
  split; [exact (loop_last sel_lif o_lif ltac:(step_tac) _ _ _ E)|]. split; [exact (loop_last sel_lport o_lport ltac:(step_tac) _ _ _ E)|].
  split; [exact (loop_last sel_count o_count ltac:(step_tac) _ _ _ E)|]. split; [exact (loop_last sel_subs o_subs ltac:(step_tac) _ _ _ E)|].
  split; [exact (loop_last sel_seed o_seed ltac:(step_tac) _ _ _ E)|]. split; [exact (loop_last sel_interval o_interval ltac:(step_tac) _ _ _ E)|].
  split; [exact (loop_last sel_jitter o_jitter ltac:(step_tac) _ _ _ E)|exact (loop_last sel_drop o_drop ltac:(step_tac) _ _ _ E)].
Qed.
(** A string of 80 bytes or more, after accepted options, is written past the end of its array. *)
Theorem c99_overflow_refuted : forall pre o post, Forall accepted pre -> Forall fits pre -> ~ fits o -> rmc_test_main (pre ++ o :: post) = UB OutOfBounds.
Proof.
  intros pre o post A F N. unfold rmc_test_main. assert (E : option_loop defaults (pre ++ o :: post) = UB OutOfBounds); [|rewrite E; reflexivity].
  generalize defaults. induction pre as [|a pre IH]; intros s; cbn [app option_loop]; inversion A; inversion F; subst.
  - pose proof (step_out s o) as H. destruct (option_step s o) as [[t|]|u| |]; try tauto. destruct H as (-> & _). reflexivity.
  - pose proof (step_out s a) as H. destruct (option_step s a) as [[t|]|u| |]; cbn [bind]; try tauto. apply IH; assumption.
Qed.
(** The number of subscribers to wait for is taken for a node too: a publisher cannot be told to wait for
    none or for more than 1023, and a subscriber given -E expects that node, not node 1. *)
Theorem c99_subscribers_refuted :
  (forall v, ~ 1 <= v < 1024 -> rmc_test_main [G_E v] = Ok Usage) /\
  (forall v, 1 < v < 1024 -> exists grp mif mport node m, rmc_test_main [G_S; G_E v] = Ok (StartSub grp mif mport node m) /\ expected m v /\ ~ expected m 1).
Proof.
  split.
  - intros v H. unfold rmc_test_main, option_loop, option_step, defaults, expect_case. replace ((v <? 1) || (1024 <=? v)) with true by lia. reflexivity.
  - intros v H. destruct (c99_usage [G_S; G_E v]) as (r & E & U); [repeat constructor|]. 
    assert (Nr : r <> Usage). { intros Q. apply U in Q. destruct Q as [(o & [<-|[<-|[]]] & N)|(lv & [(pre & o & post & E1 & S & _)|[-> _]] & N)]; [exact (N I)|apply N; cbn; lia| |lia].
      assert (Ho : In o [G_S; G_E v]) by (rewrite E1; apply in_or_app; right; left; reflexivity). destruct Ho as [<-|[<-|[]]]; discriminate S. }
    destruct r as [|grp mif mport node m|grp mif lif mport lport node count subs seed ivl jit drop]; [contradiction| |].
    + exists grp, mif, mport, node, m. split; [exact E|]. destruct (c99_subscriber_partial _ _ _ _ _ _ E) as (_ & _ & _ & X). split.
      * apply X. left. right. right. left. reflexivity.
      * intros Q. apply X in Q. destruct Q as [[[Q|[Q|[]]]|[Q|[Q|[]]]]|[Q _]]; try discriminate Q; [injection Q as Q; lia|]. apply (Q v). right. right. left. reflexivity.
    + destruct (c99_publisher _ _ _ _ _ _ _ _ _ _ _ _ _ E) as (N & _). exfalso. apply N. left. reflexivity.
Qed.
(** The usage text allows the node ids 1 to 1000; every number is accepted, and 0 and multiples of 2^32 make
    the library choose an id. *)
Theorem c99_node_refuted : forall v, exists grp mif lif, rmc_test_main [G_i v] = Ok (StartPub grp mif lif 4723 0 (v mod 4294967296) 1 1 1 0 0 0).
Proof. intros v. do 3 eexists. reflexivity. Qed.

(** ** Concrete command lines *)
(** rmc_test -S -e1 -e2, and rmc_test -c 1000000 -i2 -L 9 -L 3. *)
Example c99_witness : (exists m, rmc_test_main [G_S; G_e 1; G_e 2] = Ok (StartSub group_addr any_addr 4723 1 m) /\ expected m 1 /\ expected m 2 /\ ~ expected m 3) /\
  rmc_test_main [G_c 1000000; G_i 2; G_L 9; G_L 3] = Ok (StartPub group_addr any_addr any_addr 4723 0 2 1000000 1 1 0 0 0) /\
  rmc_test_main [G_c 1000000; G_n [49]] = Ok Usage /\ rmc_test_main [G_L 9] = Ok Usage.
Proof.
  split; [|repeat split; vm_compute; reflexivity]. eexists. split; [vm_compute; reflexivity|]. split; [split; [lia|reflexivity]|]. split; [split; [lia|reflexivity]|]. intros [_ Q]. discriminate Q.
Qed.
Example c99_overflow_witness : Forall accepted [G_S] /\ Forall fits [G_S] /\ ~ fits (G_M (repeat 49 80)) /\ fits (G_M (repeat 49 79)).
Proof. split; [repeat constructor|]. split; [repeat constructor|]. split; [intros H; vm_compute in H; discriminate H|vm_compute; reflexivity]. Qed.
Print Assumptions c99_usage.
Print Assumptions c99_subscriber_partial.
Print Assumptions c99_publisher.
Print Assumptions c99_overflow_refuted.
Print Assumptions c99_subscribers_refuted.
Print Assumptions c99_node_refuted.
