(** PropAckOrder.v — C48 made exact: whom the acknowledgement timeout serves, and in which order
    publishers wait. *)
From Coq Require Import Sorting.Permutation.
From Verif Require Import Base CircBuf CircBufProofs Wire SeqList Sub SpecSub SubProofs SubTrace Proto SpecProto ProtoProofs
  Conn SpecConn ConnProofs SubCtx SpecSubCtx SubSteps SubMem SubDecomp SubInv PropSubCtx PropSubConn PropSubMem PropSubDeliver PropSubAck.

(** Publisher [i] does not stop a timeout at [now]: its acknowledgements are due or it has none. *)
Definition passes (x : sctx) (now i : Z) : Prop := due x now i \/ pending_acks x i = [].
Lemma passes_oldest x now i s : t_ato x <= now -> t_pubs x i = Some s -> (passes x now i <-> sub_oldest_unacked s + t_ato x <= now).
Proof.
  intros Ht Hs. unfold passes, due, pending_acks, sub_oldest_unacked. rewrite Hs. destruct (s_intv s) as [|iv r]; split; intros; try lia; auto. destruct H; [exact H|discriminate].
Qed.

Lemma served_spec now l : forall x log x' evs, t_ato x <= now -> BI x -> MI x log -> t_ack x = l -> timeout_loop x now l = Ok (0, x', evs) ->
  exists pre post, l = pre ++ post /\ t_ack x' = post /\ Forall (passes x now) pre /\
    match post with [] => True | i :: _ => ~ passes x now i end /\
    (forall i, In i pre -> pending_acks x' i = []) /\ (forall i, ~ In i pre -> pending_acks x' i = pending_acks x i).
Proof.
  induction l as [|i l IH]; intros x log x' evs Ht B M E H; cbn [timeout_loop] in H.
  - assert (x' = x) as -> by congruence. exists [], []. cbn. rewrite E. intuition.
  - assert (Hs : exists s, t_pubs x i = Some s).
    { pose proof (bi_ack x B i) as X. rewrite E in X. specialize (X (or_introl eq_refl)). destruct (t_pubs x i); [eauto|congruence]. }
    destruct Hs as [s Hs]. rewrite (get_spub_some x i s B Hs) in H. cbn [bind] in H. pose proof (passes_oldest x now i s Ht Hs) as Pi.
    destruct (Z.ltb_spec now (sub_oldest_unacked s + t_ato x)) as [L|L].
    + assert (x' = x) as -> by congruence. exists [], (i :: l). split; [reflexivity|]. split; [exact E|]. split; [constructor|]. split; [intros P; apply Pi in P; lia|]. split; [intros j []|auto].
    + destruct (ack_loop x i s (s_intv s)) as [[[code1 x1] evs1]|u| |] eqn:E1; cbn [bind] in H; try discriminate H.
      destruct (ack_loop_spec i _ x log s code1 x1 evs1 B M Hs eq_refl E1) as (O1 & A1 & T1 & C1).
      pose proof (ack_loop_dec (Some (-2)) (s_intv s) eq_refl x log i s B M Hs eq_refl) as D. rewrite E1 in D. cbn [ssafe fst snd] in D. destruct D as (U1 & _ & _ & P1).
      destruct C1 as [(-> & C2 & C3 & C4)|(-> & l1 & iv & l2 & C2 & C3 & C4 & C5)].
      2:{ change (negb (ENOMEM =? 0)) with true in H. cbv iota in H. discriminate H. }
      change (negb (0 =? 0)) with false in H. cbv iota in H. rewrite E in A1.
      assert (U2 : usteps (Some (-2)) log x evs1 (set_tack x1 l)).
      { replace evs1 with (evs1 ++ []) by apply app_nil_r. eapply us_then; [exact U1|]. exact (u_next (Some (-2)) _ x1 i l A1 (P1 eq_refl)). }
      destruct (steps_BMI (Some (-2)) log x evs1 _ B M U2) as [B2 M2].
      destruct (timeout_loop (set_tack x1 l) now l) as [[[code2 x2] evs2]|u| |] eqn:E2; cbn [bind] in H; try discriminate H.
      assert (code2 = 0 /\ x2 = x') as (-> & ->) by (repeat split; congruence).
      destruct (IH (set_tack x1 l) _ x' evs2 ltac:(cbn [set_tack t_ato]; lia) B2 M2 eq_refl E2) as (pre & post & I1 & I2 & I3 & I4 & I5 & I6).
      assert (Po : forall j, j <> i -> pending_acks (set_tack x1 l) j = pending_acks x j) by (intros j N; unfold pending_acks; cbn [set_tack t_pubs]; rewrite (proj1 (O1 j N)); reflexivity).
      assert (Pj : forall j, j <> i -> (passes (set_tack x1 l) now j <-> passes x now j)).
      { intros j N. unfold passes, due. rewrite (Po j N). change (t_ato (set_tack x1 l)) with (t_ato x1). rewrite T1. reflexivity. }
      assert (Px : passes x now i) by (apply Pi; lia).
      exists (i :: pre), post. split; [rewrite I1; reflexivity|]. split; [exact I2|]. split; [constructor; [exact Px|]|split; [|split]].
      * rewrite Forall_forall in *. intros j Hj. destruct (Z.eq_dec j i) as [->|N]; [exact Px|]. apply (Pj j N), I3, Hj.
      * destruct post as [|j post]; [exact Logic.I|]. destruct (Z.eq_dec j i) as [->|N]; [|rewrite <- (Pj j N); exact I4].
        exfalso. apply I4. right. exact C2.
      * intros j [<-|Hj]; [|exact (I5 j Hj)]. destruct (in_dec Z.eq_dec i pre) as [Hi|Hi]; [exact (I5 i Hi)|]. rewrite (I6 i Hi). exact C2.
      * intros j Hj. cbn [In] in Hj. rewrite (I6 j) by tauto. apply Po. intros ->. tauto.
Qed.

(** A timeout that returns 0 serves publishers in the order of the waiting list [t_ack], up to the
    first whose acknowledgements are not due, and nobody behind: it and all behind it wait on. *)
Theorem c48_served_exactly : forall t x log now x' evs, sreached t x log -> t_ato x <= now -> rmc_sub_timeout_process x now = Ok (0, x', evs) ->
  exists served blocked, t_ack x = served ++ blocked /\ t_ack x' = blocked /\
    Forall (passes x now) served /\ match blocked with [] => True | i :: _ => ~ passes x now i end /\
    (forall i, In i served -> pending_acks x' i = [] /\ sent_acks i evs = map (fun iv => (iv_first iv, iv_last iv)) (pending_acks x i)) /\
    (forall i, ~ In i served -> pending_acks x' i = pending_acks x i /\ sent_acks i evs = []).
Proof.
  intros t x log now x' evs R Ht E. destruct (sreached_inv t x log R) as (B & M & _).
  destruct (served_spec now (t_ack x) x log x' evs Ht B M eq_refl E) as (pre & post & H1 & H2 & H3 & H4 & H5 & H6).
  exists pre, post. repeat (split; [assumption|]). split; intros i Hi.
  - split; [exact (H5 i Hi)|]. destruct (c48_all_or_nothing t x log now x' evs i R E) as [(_ & _ & S)|[S1 S2]]; [exact S|]. rewrite (H5 i Hi) in S1. rewrite <- S1, S2. reflexivity.
  - split; [exact (H6 i Hi)|]. destruct (c48_all_or_nothing t x log now x' evs i R E) as [(D & P & S)|[S1 S2]]; [|exact S2]. rewrite (H6 i Hi) in P. unfold due in D. rewrite P in D. destruct D.
Qed.
(** So a publisher with acknowledgements pending waits exactly as long as it or somebody ahead of it
    is not due. *)
Theorem c48_waits_exactly : forall t x log now x' evs i, sreached t x log -> t_ato x <= now -> rmc_sub_timeout_process x now = Ok (0, x', evs) ->
  pending_acks x i <> [] ->
  (pending_acks x' i = [] <-> exists pre post, t_ack x = pre ++ i :: post /\ Forall (passes x now) (pre ++ [i])).
Proof.
  intros t x log now x' evs i R Ht E Hp. destruct (c48_served_exactly t x log now x' evs R Ht E) as (sv & bl & E1 & _ & F & Hb & I1 & I2). split.
  - intros P. destruct (in_dec Z.eq_dec i sv) as [Hi|Hi]; [|rewrite (proj1 (I2 i Hi)) in P; contradiction].
    apply in_split in Hi. destruct Hi as (a & b & ->). exists a, (b ++ bl). split; [rewrite E1, <- app_assoc; reflexivity|].
    apply Forall_app in F. destruct F as [F1 F2]. apply Forall_app. split; [exact F1|]. apply Forall_inv in F2. constructor; [exact F2|constructor].
  - intros (pre & post & E2 & F2). destruct (in_dec Z.eq_dec i sv) as [Hi|Hi]; [exact (proj1 (I1 i Hi))|exfalso].
    assert (L : exists r, pre ++ [i] = sv ++ r /\ bl = r ++ post).
    { replace (pre ++ i :: post) with ((pre ++ [i]) ++ post) in E2 by (rewrite <- app_assoc; reflexivity). rewrite E1 in E2. 
      clear -E2 Hi. revert pre Hi E2. induction sv as [|s sv IH]; intros pre Hi E2; [exists (pre ++ [i]); auto|].
      destruct pre as [|p pre]; cbn [app] in E2; injection E2 as <- E2; [destruct Hi; left; reflexivity|].
      destruct (IH pre) as (r & R1 & R2); [intros X; apply Hi; right; exact X|exact E2|]. exists r. split; [cbn [app]; rewrite R1; reflexivity|exact R2]. }
    destruct L as (r & L1 & L2). destruct r as [|j r].
    + rewrite app_nil_r in L1. apply Hi. rewrite <- L1. apply in_or_app. right. left. reflexivity.
    + rewrite L2 in Hb. cbn [app] in Hb. apply Hb. rewrite Forall_forall in F2. apply F2. rewrite L1. apply in_or_app. right. left. reflexivity.
Qed.

(** ** Where a publisher is put on the list *)
Lemma insert_rev_spec (cmp : Z -> Z -> Z) i : forall l, exists pre post, l = pre ++ post /\ seq_insert_sorted_rev cmp i l = pre ++ i :: post /\
  Forall (fun j => cmp i j < 0) post /\ (pre = [] \/ exists p j, pre = p ++ [j] /\ 0 <= cmp i j).
Proof.
  assert (G : forall r, exists pre post, rev r = pre ++ post /\ rev (seq_insert_sorted cmp i r) = pre ++ i :: post /\
    Forall (fun j => cmp i j < 0) post /\ (pre = [] \/ exists p j, pre = p ++ [j] /\ 0 <= cmp i j)).
  2:{ intros l. specialize (G (rev l)). rewrite rev_involutive in G. exact G. }
  induction r as [|y r (pre & post & H1 & H2 & H3 & H4)]; [exists [], []; cbn; auto|]. cbn [seq_insert_sorted rev]. destruct (Z.leb_spec 0 (cmp i y)) as [L|L].
  - exists (rev r ++ [y]), []. cbn [rev]. rewrite app_nil_r, <- !app_assoc. cbn [app]. split; [reflexivity|]. split; [reflexivity|]. split; [constructor|right; eauto].
  - exists pre, (post ++ [y]). cbn [rev]. rewrite H1, H2, <- !app_assoc. split; [reflexivity|]. split; [reflexivity|]. split; [apply Forall_app; split; [exact H3|repeat constructor; exact L]|exact H4].
Qed.
(** A multicast packet of a publisher with nothing pending puts it on the list, ahead of everyone
    with acknowledgements pending (clocks being positive) and behind the last who has none; that of a publisher with
    something pending leaves the list alone.  The publisher heard from last is served first. *)
Theorem c48_put_first : forall t x log i pid ptr len now x', sreached t x log -> rmc_sub_packet_received x i pid ptr len now = Ok x' ->
  (forall j iv, In iv (pending_acks x j) -> 0 < iv_ts iv) ->
  (pending_acks x i <> [] -> t_ack x' = t_ack x) /\
  (pending_acks x i = [] -> exists pre post, t_ack x = pre ++ post /\ t_ack x' = pre ++ i :: post /\
     Forall (fun j => pending_acks x j <> []) post /\ (pre = [] \/ exists p j, pre = p ++ [j] /\ pending_acks x j = [])).
Proof.
  intros t x log i pid ptr len now x' R E Hp. destruct (sreached_inv t x log R) as (B & _). unfold rmc_sub_packet_received in E.
  destruct (get_spub x i) as [s| | |] eqn:Hs; cbn [bind] in E; try discriminate E. 
  assert (Hs' : t_pubs x i = Some s). { unfold get_spub in Hs. destruct (_ && _); [|discriminate Hs]. destruct (t_pubs x i); [congruence|discriminate Hs]. }
  assert (O : forall j, (oldest_of x j <= 0 <-> pending_acks x j = [])).
  { intros j. specialize (Hp j). unfold oldest_of, pending_acks, sub_oldest_unacked in *. destruct (t_pubs x j) as [q|]; [|split; [reflexivity|lia]].
    destruct (s_intv q) as [|iv r]; [split; [reflexivity|lia]|]. specialize (Hp iv (or_introl eq_refl)). split; [lia|discriminate]. }
  assert (Oi : forall j, oldest_of x j = 0 \/ 0 < oldest_of x j).
  { intros j. specialize (Hp j). unfold oldest_of, pending_acks, sub_oldest_unacked in *. destruct (t_pubs x j) as [q|]; [|left; reflexivity].
    destruct (s_intv q) as [|iv r]; [left; reflexivity|right]. exact (Hp iv (or_introl eq_refl)). }
  assert (Os : sub_oldest_unacked s = oldest_of x i) by (unfold oldest_of; rewrite Hs'; reflexivity). rewrite Os in E.
  split; intros Hi.
  - destruct (Z.eqb_spec (oldest_of x i) 0) as [Z0|N0]; [destruct Hi; apply O; lia|]. assert (E1 := f_equal (fun r => match r with Ok y => t_ack y | _ => [] end) E). cbn in E1. symmetry. exact E1.
  - apply O in Hi. assert (Z0 : oldest_of x i = 0) by (destruct (Oi i); lia). rewrite Z0 in E. cbn [Z.eqb] in E.
    destruct (insert_rev_spec (ack_compare x) i (t_ack x)) as (pre & post & H1 & H2 & H3 & H4). exists pre, post. split; [exact H1|].
    split. { rewrite <- H2. assert (E1 := f_equal (fun r => match r with Ok y => t_ack y | _ => [] end) E). cbn in E1. symmetry. exact E1. }
    split.
    + eapply Forall_impl; [|exact H3]. cbn beta. intros j Hj Hn. apply O in Hn. unfold ack_compare in Hj. rewrite Z0 in Hj. destruct (Oi j); [|lia].
      replace (oldest_of x j) with 0 in Hj by lia. cbn in Hj. lia.
    + destruct H4 as [H4|(p & j & H4 & H5)]; [left; exact H4|right]. exists p, j. split; [exact H4|]. apply O. unfold ack_compare in H5. rewrite Z0 in H5.
      destruct (Z.ltb_spec 0 (oldest_of x j)); lia.
Qed.

(** In the history with two publishers of C48: the list is [1; 0] although packet 5 of publisher 0
    came first; at 52000 publisher 0 is due and blocked, at 90000 both are served. *)
Example c48_order_witness : exists x log x' evs y, sreached true x log /\ t_ack x = [1; 0] /\ t_ato x <= 52000 /\
  due x 52000 0 /\ ~ passes x 52000 1 /\ rmc_sub_timeout_process x 52000 = Ok (0, x, []) /\
  passes x 90000 1 /\ passes x 90000 0 /\ rmc_sub_timeout_process x 90000 = Ok (0, x', evs) /\
  (forall j iv, In iv (pending_acks x j) -> 0 < iv_ts iv) /\ rmc_sub_packet_received x 1 4 300 1 41000 = Ok y.
Proof.
  destruct (yrun sdemo0 [] two_ops) as [[x log]|] eqn:E1; [|vm_compute in E1; discriminate E1].
  pose proof (yrun_hist true sdemo0 _ sdemo0 [] [] x log (yh_nil _ _) E1) as H1. vm_compute in E1. injection E1 as <- <-.
  do 5 eexists. split; [exists sdemo0, two_ops; split; [exact sdemo0_fresh|exact H1]|]. split; [reflexivity|]. split; [vm_compute; discriminate|]. split; [vm_compute; discriminate|].
  split; [intros [P|P]; [vm_compute in P; apply P; reflexivity|discriminate P]|]. split; [reflexivity|].
  split; [left; vm_compute; discriminate|]. split; [left; vm_compute; discriminate|]. split; [vm_compute; reflexivity|].
  split; [|vm_compute; reflexivity]. intros j iv. unfold pending_acks. cbn [t_pubs].
  destruct j as [|[p|p|]|p]; cbn [s_intv In]; intros H; try contradiction; destruct H as [<-|[]]; reflexivity.
Qed.

Print Assumptions c48_served_exactly.
Print Assumptions c48_waits_exactly.
Print Assumptions c48_put_first.
