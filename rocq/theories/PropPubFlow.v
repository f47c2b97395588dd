(** PropPubFlow.v — throttling, timeouts, announces and the pending report: C41-C45, C47. *)
From Coq Require Import Sorting.Permutation Sorting.Sorted.
From Verif Require Import Base CircBuf CircBufProofs Wire ListHeap SeqList Pub SpecPub PubProofs PubTrace PropPub Proto SpecProto ProtoProofs
  Conn SpecConn ConnProofs Safe PubCtx SpecPubCtx PubCtxProofs PubCtxSteps PubCtxOwed PropPubCtx.

(** ** The in-flight count only goes down when packets are acknowledged *)
Definition cnt (x : pctx) : Z := zlen (flying x).
Lemma cnt_len x : cnt x = zlen (p_inflight (x_pub x)).
Proof. unfold cnt, flying, zlen. rewrite map_length. reflexivity. Qed.
Lemma count_cnt x : cnt x < 4294967296 -> pub_unacked_count (x_pub x) = cnt x.
Proof. intros H. unfold pub_unacked_count. rewrite <- cnt_len. apply u32_small. unfold is_u32, cnt, zlen in *. lia. Qed.
Lemma rm1_len {A} (f : A -> bool) : forall l, (length (rm1 f l) <= length l)%nat.
Proof. induction l as [|y l IH]; [cbn; lia|]. cbn [rm1]. destruct (f y); cbn [length]; lia. Qed.
Lemma unlink_cnt s a s' : unlink_parent s a = Ok s' -> zlen (p_inflight s') <= zlen (p_inflight s).
Proof.
  unfold unlink_parent. destruct (mem a (p_queued s)); [intros E; injection E as <-; cbn; lia|]. destruct (mem a (p_inflight s)); [|discriminate].
  intros E. injection E as <-. cbn [set_inflight p_inflight]. unfold zlen. pose proof (rm1_len (Nat.eqb a) (p_inflight s)). lia.
Qed.
Lemma ack_cnt s sub pid s' fr : pub_packet_ack s sub pid = Ok (s', fr) -> zlen (p_inflight s') <= zlen (p_inflight s).
Proof.
  unfold pub_packet_ack. destruct (check_live s (p_sinf s sub)) as [[]| | |]; cbn [bind]; [|discriminate..].
  destruct (find _ _) as [a|]; [|intros E; injection E as <- <-; lia].
  match goal with |- context [set_sinf s sub ?l'] => set (s1 := set_sinf s sub l') end.
  destruct (get_pack s1 a) as [p| | |]; cbn [bind]; [|discriminate..].
  match goal with |- (if ?b then _ else _) = _ -> _ => destruct b end.
  - match goal with |- context [unlink_parent ?z a] => destruct (unlink_parent z a) as [s3| | |] eqn:Eu end; cbn [bind]; [|discriminate..].
    intros E. injection E as <- <-. apply unlink_cnt in Eu. exact Eu.
  - intros E. injection E as <- <-. apply Z.le_refl.
Qed.

(** Only resumption, and that only at or below the resume threshold. *)
Definition SW (x x' : pctx) : Prop :=
  cnt x' <= cnt x /\ x_rthr x' = x_rthr x /\ x_sthr x' = x_sthr x /\ (x_susp x' = true -> x_susp x = true) /\
  (cnt x < 4294967296 -> x_susp x = true -> x_susp x' = false -> cnt x' <= x_rthr x).
Lemma SW_refl x : SW x x.
Proof. unfold SW. split; [lia|]. split; [reflexivity|]. split; [reflexivity|]. split; [auto|congruence]. Qed.
Lemma SW_trans x y z : SW x y -> SW y z -> SW x z.
Proof.
  intros (A1 & A2 & A3 & A4 & A5) (B1 & B2 & B3 & B4 & B5). unfold SW. split; [lia|]. split; [congruence|]. split; [congruence|]. split; [auto|].
  intros H0 H1 H2. destruct (x_susp y) eqn:Ey; [rewrite <- A2; exact (B5 ltac:(lia) eq_refl H2)|]. specialize (A5 H0 H1 eq_refl). lia.
Qed.
Lemma SW_same x x' : p_inflight (x_pub x') = p_inflight (x_pub x) -> x_susp x' = x_susp x -> x_rthr x' = x_rthr x -> x_sthr x' = x_sthr x -> SW x x'.
Proof. intros H1 H2 H3 H4. unfold SW. rewrite !cnt_len, H1, H2. split; [lia|]. split; [exact H3|]. split; [exact H4|]. split; [auto|congruence]. Qed.
(** The same without disconnects: what stays suspended keeps something in flight. *)
Definition SX (x x' : pctx) : Prop := SW x x' /\ (0 <= x_rthr x -> x_susp x' = true -> 0 < cnt x -> 0 < cnt x').
Lemma SX_refl x : SX x x.
Proof. split; [apply SW_refl|auto]. Qed.
Lemma SX_trans x y z : SX x y -> SX y z -> SX x z.
Proof.
  intros [A A'] [B B']. split; [exact (SW_trans _ _ _ A B)|]. destruct A as (_ & A2 & _). destruct B as (_ & _ & _ & B4 & _). rewrite A2 in B'.
  intros H1 H2 H3. apply (B' H1 H2). apply (A' H1 (B4 H2) H3).
Qed.
Lemma SX_same x x' : p_inflight (x_pub x') = p_inflight (x_pub x) -> x_susp x' = x_susp x -> x_rthr x' = x_rthr x -> x_sthr x' = x_sthr x -> SX x x'.
Proof. intros H1 H2 H3 H4. split; [apply SW_same; assumption|]. rewrite !cnt_len, H1. auto. Qed.
Lemma SX_bool x x' : SW x x' -> x_susp x' = x_susp x && negb (u32 (cnt x') <=? x_rthr x) -> SX x x'.
Proof.
  intros H U. split; [exact H|]. intros Hr Hs _. rewrite U in Hs. apply andb_prop in Hs. destruct Hs as [_ Hs]. apply negb_true_iff in Hs.
  assert (cnt x' <> 0); [|unfold cnt, zlen in *; lia]. intros E. rewrite E in Hs. change (u32 0) with 0 in Hs. lia.
Qed.
Lemma ack_sw x i pid x' evs : rmc_pub_packet_ack x i pid = Ok (x', evs) ->
  SX x x' /\ x_susp x' = x_susp x && negb (u32 (cnt x') <=? x_rthr x).
Proof.
  unfold rmc_pub_packet_ack. destruct (pub_packet_ack (x_pub x) (Z.to_nat i) pid) as [[s' fr]| | |] eqn:Ea; cbn [bind fst snd]; [|discriminate..].
  destruct (release_all (x_mem x) fr) as [[m ev]| | |]; cbn [bind fst snd]; [|discriminate..].
  set (x1 := set_mem (set_pub x s') m). intros E. apply ack_cnt in Ea.
  match type of E with Ok (?a, _) = _ => assert (E0 : a = x') by congruence end. clear E. rename E0 into E. assert (H1 : cnt x1 <= cnt x) by (rewrite !cnt_len; exact Ea).
  assert (Eu : pub_unacked_count (x_pub x1) = u32 (cnt x1)) by (unfold pub_unacked_count; rewrite cnt_len; reflexivity). rewrite Eu in E.
  change (x_susp x1) with (x_susp x) in E. change (x_rthr x1) with (x_rthr x) in E.
  assert (Hcnt : cnt x' = cnt x1) by (rewrite <- E; destruct (_ && _); reflexivity).
  assert (Hr : x_rthr x' = x_rthr x) by (rewrite <- E; destruct (_ && _); reflexivity).
  assert (Hs : x_sthr x' = x_sthr x) by (rewrite <- E; destruct (_ && _); reflexivity).
  assert (Hsu : x_susp x' = x_susp x && negb (u32 (cnt x') <=? x_rthr x)).
  { rewrite Hcnt, <- E. destruct (x_susp x) eqn:Ex; cbn [andb]; [|exact Ex]. destruct (u32 (cnt x1) <=? x_rthr x); [reflexivity|exact Ex]. }
  split; [|exact Hsu]. apply SX_bool; [|exact Hsu]. unfold SW. split; [lia|]. split; [exact Hr|]. split; [exact Hs|]. rewrite Hsu.
  destruct (x_susp x); cbn [andb]; [|split; [discriminate|discriminate]]. split; [reflexivity|]. intros Hc _ H. rewrite u32_small in H; [lia|]. unfold is_u32, cnt, zlen in *. lia.
Qed.
Lemma rounds_sw i : forall n x pid x' evs, ack_rounds n x i pid = Ok (x', evs) ->
  SX x x' /\ (n <> O -> cnt x < 4294967296 -> x_susp x' = x_susp x && negb (cnt x' <=? x_rthr x)).
Proof.
  induction n as [|n IH]; intros x pid x' evs; cbn [ack_rounds]; [intros E; injection E as <- <-; split; [apply SX_refl|congruence]|].
  destruct (rmc_pub_packet_ack x i pid) as [[x1 e1]| | |] eqn:E1; cbn [bind fst snd]; [|discriminate..].
  destruct (ack_rounds n x1 i (pid + 1)) as [[x2 e2]| | |] eqn:E2; cbn [bind fst snd]; [|discriminate..]. intros E. injection E as <- <-.
  destruct (ack_sw _ _ _ _ _ E1) as [S1 U1]. destruct (IH x1 _ _ _ E2) as [S2 U2]. split; [exact (SX_trans _ _ _ S1 S2)|]. intros _ Hc.
  destruct S1 as [(C1 & R1 & _) _]. destruct S2 as [(C2 & _) _]. rewrite u32_small in U1 by (unfold is_u32, cnt, zlen in *; lia).
  destruct n as [|n].
  - cbn [ack_rounds] in E2. injection E2 as <- <-. exact U1.
  - rewrite (U2 ltac:(discriminate) ltac:(lia)), U1, R1.
    destruct (x_susp x); cbn [andb]; [|reflexivity]. destruct (Z.leb_spec (cnt x1) (x_rthr x)); cbn [negb andb]; [|reflexivity].
    destruct (Z.leb_spec (cnt x2) (x_rthr x)); [reflexivity|lia].
Qed.
Lemma eff_ack_sw i st iv st' : eff_ack i st iv = Ok st' -> SX (fst st) (fst st').
Proof.
  unfold eff_ack, ack_interval. match goal with |- context [if ?b then _ else _] => destruct b end; cbn [bind]; [discriminate|].
  destruct (ack_rounds _ _ _ _) as [[x' evs]| | |] eqn:E; cbn [bind fst snd]; [|discriminate..]. intros H. injection H as <-. cbn [fst].
  exact (proj1 (rounds_sw _ _ _ _ _ _ E)).
Qed.
Lemma eff_ctrl_sw i st p st' : eff_ctrl i st p = Ok st' -> SX (fst st) (fst st').
Proof.
  unfold eff_ctrl. destruct (x_ccb (fst st)); [discriminate|intros E; injection E as <-; apply SX_refl|].
  destruct (slot _ _) as [c| | |]; cbn [bind]; [|discriminate..]. intros E. injection E as <-. apply SX_refl.
Qed.
Lemma close_cnt x i code x' evs : rmc_pub_close_connection x i = Ok (code, x', evs) ->
  cnt x' <= cnt x /\ x_susp x' = x_susp x /\ x_rthr x' = x_rthr x /\ x_sthr x' = x_sthr x.
Proof.
  unfold rmc_pub_close_connection. destruct (find_by_index (x_vec x) i) as [[c|]| | |]; cbn [bind]; try discriminate; [|intros E; injection E as <- <- <-; repeat split; lia].
  destruct (close_conn _ _) as [[[cd v] ev]| | |]; cbn [bind]; [|discriminate..].
  destruct (pub_reset_subscriber (x_pub x) (Z.to_nat i)) as [[s fr]| | |] eqn:Er; cbn [bind fst snd]; [|discriminate..].
  destruct (release_all _ _) as [[m fe]| | |]; cbn [bind fst snd]; [|discriminate..]. intros E. injection E as <- <- <-. rewrite !cnt_len.
  split; [|auto]. cbn [set_mem set_pub set_vec x_pub]. unfold pub_reset_subscriber in Er.
  assert (G : forall fuel s0 fr0 r, reset_loop fuel s0 (Z.to_nat i) fr0 = Ok r -> zlen (p_inflight (fst r)) <= zlen (p_inflight s0)).
  { clear. induction fuel as [|fuel IH]; intros s0 fr0 r; cbn [reset_loop]; destruct (last_opt _) as [a|]; try discriminate; try (intros E; injection E as <-; cbn; lia).
    destruct (get_pack s0 a) as [p| | |]; cbn [bind]; [|discriminate..].
    destruct (pub_packet_ack s0 (Z.to_nat i) (pk_pid p)) as [[s1 f1]| | |] eqn:Ea; cbn [bind fst snd]; [|discriminate..].
    intros E. apply IH in E. apply ack_cnt in Ea. lia. }
  destruct (reset_loop _ _ _ _) as [[s1 f1]| | |] eqn:El; cbn [bind fst snd] in Er; [|discriminate..]. specialize (G _ _ _ _ El). cbn [fst] in G.
  destruct (mem _ _); [|discriminate]. injection Er as <- <-. exact G.
Qed.
Lemma close_sw x i code x' evs : rmc_pub_close_connection x i = Ok (code, x', evs) -> SW x x'.
Proof. intros E. destruct (close_cnt _ _ _ _ _ E) as (H1 & H2 & H3 & H4). unfold SW. rewrite H2. split; [exact H1|]. split; [exact H3|]. split; [exact H4|]. split; [auto|congruence]. Qed.

Lemma sent_timeout_sw x i a code x' evs : process_sent_packet_timeout x i a = Ok (code, x', evs) -> SX x x'.
Proof.
  unfold process_sent_packet_timeout. destruct (slot _ _) as [c| | |]; cbn [bind]; [|discriminate..]. destruct (get_pack _ _) as [p| | |]; cbn [bind]; [|discriminate..].
  destruct (negb _).
  - destruct (rmc_pub_packet_ack _ _ _) as [[x1 e1]| | |] eqn:E1; cbn [bind fst snd]; [|discriminate..]. intros E. injection E as _ <- _. exact (proj1 (ack_sw _ _ _ _ _ E1)).
  - destruct (rmc_pub_resend_packet _ _ _) as [[[cd x1] e1]| | |] eqn:E1; cbn [bind]; [|discriminate..].
    assert (S1 : SX x x1).
    { unfold rmc_pub_resend_packet in E1. destruct (slot _ _) as [c1| | |]; cbn [bind] in E1; [|discriminate..]. destruct (get_pack _ _) as [p1| | |]; cbn [bind] in E1; [|discriminate..].
      match type of E1 with bind ?h _ = _ => destruct h as [w| | |] end; cbn [bind] in E1; [|discriminate..].
      destruct (_ =? 0); injection E1 as _ <- _; apply SX_same; reflexivity. }
    destruct (cd =? 0); [|intros E; injection E as _ <- _; exact S1].
    destruct (rmc_pub_packet_ack _ _ _) as [[x2 e2]| | |] eqn:E2; cbn [bind fst snd]; [|discriminate..]. intros E. injection E as _ <- _.
    apply (SX_trans _ _ _ S1). exact (proj1 (ack_sw _ _ _ _ _ E2)).
Qed.
Lemma resend_loop_sw i : forall packs x code x' evs, resend_loop x i packs = Ok (code, x', evs) -> SX x x'.
Proof.
  induction packs as [|a packs IH]; intros x code x' evs; cbn [resend_loop]; [intros E; injection E as _ <- _; apply SX_refl|].
  destruct (process_sent_packet_timeout x i a) as [[[cd x1] e1]| | |] eqn:E1; cbn [bind]; [|discriminate..].
  destruct (negb _); [intros E; injection E as _ <- _; exact (sent_timeout_sw _ _ _ _ _ _ E1)|].
  destruct (resend_loop x1 i packs) as [[[cd2 x2] e2]| | |] eqn:E2; cbn [bind]; [|discriminate..]. intros E. injection E as _ <- _.
  pose proof (sent_timeout_sw _ _ _ _ _ _ E1) as S1. apply (SX_trans _ _ _ S1). apply (IH _ _ _ _ E2).
Qed.
Lemma subs_loop_sw now : forall subs x code x' evs, subs_loop x now subs = Ok (code, x', evs) -> SX x x'.
Proof.
  induction subs as [|n subs IH]; intros x code x' evs; cbn [subs_loop]; [intros E; injection E as _ <- _; apply SX_refl|].
  destruct (process_subscriber_timeout x n now) as [[[cd x1] e1]| | |] eqn:E1; cbn [bind]; [|discriminate..].
  assert (S1 : SX x x1).
  { unfold process_subscriber_timeout in E1. destruct (pub_get_timed_out_packets _ _ _ _) as [packs| | |]; cbn [bind] in E1; [|discriminate..]. exact (resend_loop_sw _ _ _ _ _ _ E1). }
  destruct (negb _); [intros E; injection E as _ <- _; exact S1|].
  destruct (subs_loop x1 now subs) as [[[cd2 x2] e2]| | |] eqn:E2; cbn [bind]; [|discriminate..]. intros E. injection E as _ <- _.
  apply (SX_trans _ _ _ S1). apply (IH _ _ _ _ E2).
Qed.
Lemma close_loop_sw : forall n x ind r, close_loop n x ind = Ok r -> SW x (fst r).
Proof.
  induction n as [|n IH]; intros x ind r; cbn [close_loop]; [intros E; injection E as <-; apply SW_refl|].
  destruct (find_by_index _ _) as [[c|]| | |]; cbn [bind]; try discriminate; [|apply IH].
  destruct (rmc_pub_close_connection x ind) as [[[cd x1] e1]| | |] eqn:E1; cbn [bind]; [|discriminate..].
  destruct (close_loop n x1 (ind + 1)) as [r2| | |] eqn:E2; cbn [bind]; [|discriminate..]. intros E. injection E as <-. cbn [fst].
  exact (SW_trans _ _ _ (close_sw _ _ _ _ _ E1) (IH _ _ _ E2)).
Qed.
Lemma close_leave x i code x' evs : rmc_pub_close_connection x i = Ok (code, x', evs) -> (code = EINVAL /\ x' = x /\ evs = []) \/ exists a p, In (PvLeave a p) evs.
Proof.
  unfold rmc_pub_close_connection. destruct (find_by_index (x_vec x) i) as [[c|]| | |]; cbn [bind]; try discriminate; [|intros E; injection E as <- <- <-; auto].
  destruct (close_conn _ _) as [[[cd v] ev]| | |]; cbn [bind]; [|discriminate..]. destruct (pub_reset_subscriber _ _) as [[s fr]| | |]; cbn [bind fst snd]; [|discriminate..].
  destruct (release_all _ _) as [[m fe]| | |]; cbn [bind fst snd]; [|discriminate..]. intros E. injection E as <- <- <-. right. do 2 eexists. left. reflexivity.
Qed.
Lemma read_sw x g log i o code op x' evs : XInv false x g log -> xok x g (XRead i o) ->
  rmc_pub_read x i o = Ok (code, op, x', evs) -> SW x x' /\ (x_susp x' = x_susp x \/ exists t, o = RdTcp t) /\ (SX x x' \/ exists a p, In (PvLeave a p) evs).
Proof.
  intros XV Hok. destruct o as [a cb|err|tr]; cbn [rmc_pub_read].
  - destruct (process_accept (x_listen x) (x_vec x) a) as [[[[cd ind] v] ev]| | |]; cbn [bind]; [|discriminate..].
    destruct (negb _); [intros E; injection E as _ _ <- <-; split; [apply SW_same; reflexivity|split; [left; reflexivity|left; apply SX_same; reflexivity]]|].
    destruct ind as [j|]; [|discriminate]. destruct (find_by_index v j) as [[c|]| | |]; cbn [bind]; try discriminate.
    set (x1 := set_pub (set_vec x v) (pub_init_subscriber (x_pub x) (Z.to_nat j))).
    assert (S1 : SW x x1) by (apply SW_same; reflexivity).
    destruct cb as [[|]|].
    + intros E; injection E as _ _ <- <-; split; [exact S1|split; [left; reflexivity|left; apply SX_same; reflexivity]].
    + destruct (rmc_pub_close_connection x1 j) as [[[cd2 x2] e2]| | |] eqn:E2; cbn [bind]; [|discriminate..]. intros E. injection E as _ _ <- <-.
      split; [exact (SW_trans _ _ _ S1 (close_sw _ _ _ _ _ E2))|]. destruct (close_cnt _ _ _ _ _ E2) as (_ & -> & _). split; [left; reflexivity|].
      destruct (close_leave _ _ _ _ _ E2) as [(_ & -> & _)|(a1 & p1 & Hl)]; [left; apply SX_same; reflexivity|right; exists a1, p1; apply in_or_app; right; right; exact Hl].
    + intros E; injection E as _ _ <- <-; split; [exact S1|split; [left; reflexivity|left; apply SX_same; reflexivity]].
  - destruct (x_mcast x =? -1); [intros E; injection E as _ _ <- <-; split; [apply SW_refl|split; [left; reflexivity|left; apply SX_refl]]|].
    destruct err; intros E; injection E as _ _ <- <-; (split; [apply SW_refl|split; [left; reflexivity|left; apply SX_refl]]).
  - cbn in Hok. destruct (find_index_cases (x_vec x) i (proj1 Hok)) as [[-> _]|(c & -> & Ho)]; cbn [bind].
    + intros E; injection E as _ _ <- <-; split; [apply SW_refl|split; [left; reflexivity|left; apply SX_refl]].
    + destruct (negb _); [intros E; injection E as _ _ <- <-; split; [apply SW_refl|split; [left; reflexivity|left; apply SX_refl]]|].
      assert (R : safe false (tcp_read (pub_dispatch (eff_ack i) (ccb_set x) (eff_ctrl i)) (x, []) (c_rbuf c) tr) (fun r => HP false g log x (r_st r) /\ SX x (fst (r_st r)))).
      { apply (tcp_read_safe (pub_dispatch (eff_ack i) (ccb_set x) (eff_ctrl i)) false (fun st : hst => HP false g log x st /\ SX x (fst st))).
        - apply (pub_dispatch_safe (eff_ack i) (ccb_set x) (eff_ctrl i) false (fun st : hst => HP false g log x st /\ SX x (fst st))).
          + intros st iv [H1 H2]. eapply safe_imp; [apply (eff_ack_safe false g log x i st iv (proj1 Hok) H1)|].
            intros st' E H. split; [exact H|]. apply (SX_trans _ _ _ H2). apply (eff_ack_sw _ _ _ _ E).
          + intros st p [H1 H2]. eapply safe_imp; [apply (eff_ctrl_safe false g log x i st p H1)|].
            intros st' E H. split; [exact H|]. apply (SX_trans _ _ _ H2). exact (eff_ctrl_sw _ _ _ _ E).
        - split; [|apply SX_refl]. split; [|apply sbp_refl]. cbn [fst snd]. rewrite g_unlend_nil, app_nil_r. exact XV. }
      destruct (tcp_read _ _ _ _) as [r| | |] eqn:Et; cbn [bind]; [|discriminate..]. cbn [safe] in R. destruct R as [_ R].
      destruct (r_code r =? EPIPE).
      * destruct (rmc_pub_close_connection _ i) as [[[cd2 x2] e2]| | |] eqn:E2; cbn [bind]; [|discriminate..]. intros E. injection E as _ _ <- <-.
        split; [apply (SW_trans _ _ _ (proj1 R)); refine (SW_trans _ _ _ _ (close_sw _ _ _ _ _ E2)); apply SW_same; reflexivity|]. split; [right; eauto|].
        destruct (close_leave _ _ _ _ _ E2) as [(_ & -> & ->)|(a1 & p1 & Hl)]; [left; apply (SX_trans _ _ _ R); apply SX_same; reflexivity|right; exists a1, p1; apply in_or_app; right; exact Hl].
      * intros E. injection E as _ _ <- <-. split; [apply (SW_trans _ _ _ (proj1 R)); apply SW_same; reflexivity|]. split; [right; eauto|left]. apply (SX_trans _ _ _ R). apply SX_same; reflexivity.
Qed.

(** ** C41. Throttling *)
(** A packet is refused with EBUSY exactly while traffic is suspended. *)
Theorem c41_ebusy_iff_suspended : forall x g log ptr len announce code x' evs, reached x g log ->
  rmc_pub_queue_packet x ptr len announce = Ok (code, x', evs) -> ptr <> 0 -> len <= RMC_MAX_PAYLOAD ->
  (code = EBUSY <-> rmc_pub_traffic_suspended x = EBUSY) /\ (code = EBUSY \/ code = 0).
Proof.
  intros x g log ptr len announce code x' evs _. unfold rmc_pub_queue_packet, rmc_pub_traffic_suspended. intros E H0 Hl.
  replace (ptr =? 0) with false in E by lia. replace (RMC_MAX_PAYLOAD <? len) with false in E by lia. destruct (x_susp x).
  - injection E as <- _ _. split; [tauto|auto].
  - match type of E with bind ?h _ = _ => destruct h as [[[s' pd] nd]| | |] end; cbn [bind] in E; [|discriminate..]. injection E as <- _ _. split; [|auto]. split; discriminate.
Qed.
(** After a packet was accepted, traffic is suspended iff a threshold is set and the number
    of packets in flight has reached it. *)
Theorem c41_suspended_by_queueing : forall x g log ptr len announce x' evs, reached x g log -> cnt x < 4294967296 ->
  rmc_pub_queue_packet x ptr len announce = Ok (0, x', evs) ->
  flying x' = flying x /\ (rmc_pub_traffic_suspended x' = EBUSY <-> 0 < x_sthr x /\ x_sthr x <= zlen (flying x')).
Proof.
  intros x g log ptr len announce x' evs H Hc E. apply reached_inv in H. destruct H as (sp & L & Q & X).
  unfold rmc_pub_queue_packet in E. destruct (ptr =? 0); [discriminate|]. destruct (RMC_MAX_PAYLOAD <? len); [discriminate|]. destruct (x_susp x); [discriminate|].
  match type of E with bind ?h _ = _ => destruct h as [[[s' pd] nd]| | |] eqn:Eq end; cbn [bind fst] in E; [|discriminate..].
  set (x1 := set_pub (set_susp x false) s') in *.
  match type of E with Ok (_, ?a, _) = _ => assert (E0 : a = x') by congruence end. clear E. rename E0 into E.
  assert (Fl : flying x1 = flying x).
  { unfold flying. cbn [x1 set_pub x_pub]. 
    assert (Gen : forall s0 pid r, pub_queue_with_pid s0 pid ptr len 0 = Ok r -> p_packs s0 = p_packs (x_pub x) -> p_fresh s0 = p_fresh (x_pub x) -> p_inflight s0 = p_inflight (x_pub x) ->
       p_inflight (fst (fst r)) = p_inflight (x_pub x) /\ forall a, (a <> p_fresh (x_pub x))%nat -> p_packs (fst (fst r)) a = p_packs (x_pub x) a).
    { clear. intros s0 pid r. unfold pub_queue_with_pid. intros E E1 E2 E3. 
      destruct (ptr =? 0); [discriminate|]. destruct (check_live s0 (p_queued s0)) as [[]| | |]; cbn [bind] in E; [|discriminate..].
      injection E as <-. cbn. split; [exact E3|]. intros a Ha. unfold upd. rewrite E1, E2. destruct (Nat.eqb_spec a (p_fresh (x_pub x))); [contradiction|reflexivity]. }
    assert (G : p_inflight s' = p_inflight (x_pub x) /\ forall a, (a <> p_fresh (x_pub x))%nat -> p_packs s' a = p_packs (x_pub x) a).
    { destruct announce; unfold pub_queue_no_ack, pub_queue_packet in Eq; exact (Gen _ _ _ Eq eq_refl eq_refl eq_refl). }
    destruct G as [G1 G2]. rewrite G1. apply map_ext_in. intros a Ha. rewrite G2; [reflexivity|]. intros ->.
    pose proof (xi_pub _ _ _ _ _ _ _ X) as I. rewrite (inv_infl I), <- in_rev in Ha. pose proof (i_fresh _ _ _ _ I _ (in_or_app _ _ _ (or_intror Ha))). lia. }
  assert (Fl2 : flying x' = flying x) by (rewrite <- E; destruct (_ && _); exact Fl).
  split; [exact Fl2|]. rewrite Fl2. fold (cnt x). 
  assert (Ec : pub_unacked_count (x_pub x1) = cnt x) by (rewrite count_cnt; unfold cnt in *; rewrite Fl; [reflexivity|exact Hc]).
  rewrite Ec in E. change (x_sthr x1) with (x_sthr x) in E. unfold rmc_pub_traffic_suspended. rewrite <- E.
  destruct (Z.ltb_spec 0 (x_sthr x)), (Z.leb_spec (x_sthr x) (cnt x)); cbn [andb set_susp x_susp x1 set_pub]; (split; [try discriminate; auto|intros [? ?]; try lia; reflexivity]).
Qed.
(** An acknowledged interval resumes traffic iff it leaves at most the resume threshold in flight. *)
Theorem c41_resumed_by_ack : forall x g log i a b x' evs, reached x g log -> zlen (flying x) < 4294967296 -> a <= b ->
  ack_interval x i a b = Ok (x', evs) ->
  (rmc_pub_traffic_suspended x' = EBUSY <-> rmc_pub_traffic_suspended x = EBUSY /\ x_rthr x < zlen (flying x')).
Proof.
  intros x g log i a b x' evs _ Hc Hab. unfold ack_interval. match goal with |- context [if ?b then _ else _] => destruct b end; [discriminate|]. intros E.
  destruct (rounds_sw _ _ _ _ _ _ E) as [_ U]. specialize (U ltac:(lia) Hc). unfold rmc_pub_traffic_suspended. rewrite U. unfold cnt.
  destruct (x_susp x); cbn [andb]; [|split; [discriminate|intros [? _]; discriminate]].
  destruct (Z.leb_spec (zlen (flying x')) (x_rthr x)); cbn [negb]; (split; [try discriminate; auto|intros [_ ?]; try lia; reflexivity]).
Qed.
Lemma mcast_susp : forall outs x code x' evs, process_multicast_write x outs = Ok (code, x', evs) -> x_susp x' = x_susp x.
Proof.
  assert (S : forall x a o code x' evs, send_single_multicast_packet x a o = Ok (code, x', evs) -> x_susp x' = x_susp x).
  { intros x a o code x' evs. unfold send_single_multicast_packet. destruct (_ =? -1); [intros E; injection E as _ <- _; reflexivity|].
    destruct (get_pack _ _) as [p| | |]; cbn [bind]; [|discriminate..]. destruct (_ <? _); [intros E; injection E as _ <- _; reflexivity|].
    destruct (load _ _ _) as [pl| | |]; cbn [bind]; [|discriminate..]. destruct o as [e|ts]; [destruct (_ =? _); intros E; injection E as _ <- _; reflexivity|].
    destruct (pub_packet_sent _ _ _) as [s| | |]; cbn [bind]; [|discriminate..]. intros E; injection E as _ <- _; reflexivity. }
  induction outs as [|o outs IH]; intros x code x' evs; cbn [process_multicast_write].
  - destruct (pub_next_queued _); [apply S|intros E; injection E as _ <- _; reflexivity].
  - destruct (pub_next_queued _) as [a|]; [|intros E; injection E as _ <- _; reflexivity].
    destruct (send_single_multicast_packet x a o) as [[[cd x1] e1]| | |] eqn:E1; cbn [bind]; [|discriminate..]. apply S in E1.
    destruct (negb _); [intros E; injection E as _ <- _; exact E1|].
    destruct (process_multicast_write x1 outs) as [[[cd2 x2] e2]| | |] eqn:E2; cbn [bind]; [|discriminate..]. apply IH in E2. intros E; injection E as _ <- _. congruence.
Qed.
Lemma queue_up x ptr len announce code x' evs : rmc_pub_queue_packet x ptr len announce = Ok (code, x', evs) -> zlen (p_inflight (x_pub x)) < 4294967296 ->
  x_rthr x' = x_rthr x /\ x_sthr x' = x_sthr x /\ zlen (p_inflight (x_pub x')) = zlen (p_inflight (x_pub x)) /\ (x_susp x = true -> x_susp x' = true) /\
  (x_susp x = false -> x_susp x' = true -> code = 0 /\ 0 < x_sthr x <= zlen (p_inflight (x_pub x'))).
Proof.
  unfold rmc_pub_queue_packet. intros E Hc.
  destruct (ptr =? 0); [injection E as <- <- _; repeat split; auto; congruence|]. destruct (_ <? len); [injection E as <- <- _; repeat split; auto; congruence|].
  destruct (x_susp x) eqn:Es; [injection E as <- <- _; repeat split; auto; congruence|].
  match type of E with bind ?h _ = _ => destruct h as [[[s' pd] nd]| | |] eqn:Eq end; cbn [bind fst] in E; [|discriminate..].
  assert (G : p_inflight s' = p_inflight (x_pub x)).
  { assert (Gen : forall s0 pid r, pub_queue_with_pid s0 pid ptr len 0 = Ok r -> p_inflight (fst (fst r)) = p_inflight s0).
    { clear. intros s0 pid r. unfold pub_queue_with_pid. intros E. destruct (ptr =? 0); [discriminate|].
      destruct (check_live s0 (p_queued s0)) as [[]| | |]; cbn [bind] in E; [|discriminate..]. injection E as <-. reflexivity. }
    destruct announce; unfold pub_queue_no_ack, pub_queue_packet in Eq; apply Gen in Eq; exact Eq. }
  set (x1 := set_pub (set_susp x false) s') in *.
  match type of E with Ok (_, ?a, _) = _ => assert (E0 : a = x') by congruence; assert (Ec : 0 = code) by congruence end. clear E.
  assert (Eu : pub_unacked_count (x_pub x1) = zlen (p_inflight s')) by (apply u32_small; cbn [x1 set_pub x_pub]; rewrite G; unfold is_u32, zlen in *; lia).
  rewrite Eu in E0. change (x_sthr x1) with (x_sthr x) in E0.
  rewrite <- E0. destruct (Z.ltb_spec 0 (x_sthr x)), (Z.leb_spec (x_sthr x) (zlen (p_inflight s'))); cbn [andb set_susp x_susp x_pub x_rthr x_sthr x1 set_pub];
    rewrite G in *; (split; [reflexivity|]; split; [reflexivity|]; split; [reflexivity|]; split; [try discriminate; congruence|]); intros _ H'; try discriminate H'; (split; [congruence|lia]).
Qed.
(** Nothing else suspends or resumes traffic. *)
Theorem c41_only_queueing_and_acks : forall x g log o code x' evs, reached x g log -> zlen (flying x) < 4294967296 -> xok x g o -> xstep x o = Ok (code, x', evs) ->
  (rmc_pub_traffic_suspended x = 0 -> rmc_pub_traffic_suspended x' = EBUSY ->
     ((exists ptr len ann, o = XQueue ptr len ann /\ code = 0) \/ exists now buf a, o = XTimeout now buf a /\ announce_due x now = true) /\
     0 < x_sthr x <= zlen (flying x')) /\
  (rmc_pub_traffic_suspended x = EBUSY -> rmc_pub_traffic_suspended x' = 0 ->
     ((exists i t, o = XRead i (RdTcp t)) \/ exists now buf a, o = XTimeout now buf a /\ announce_due x now = false) /\
     zlen (flying x') <= x_rthr x).
Proof.
  intros x g log o code x' evs H Hc Hok E. apply reached_inv in H. unfold rmc_pub_traffic_suspended.
  fold (cnt x') in *. fold (cnt x) in Hc. pose proof Hc as Hc'. rewrite cnt_len in Hc'.
  assert (Same : x_susp x' = x_susp x -> (( (if x_susp x then EBUSY else 0) = 0 -> (if x_susp x' then EBUSY else 0) = EBUSY -> False) /\
                                        ((if x_susp x then EBUSY else 0) = EBUSY -> (if x_susp x' then EBUSY else 0) = 0 -> False))).
  { intros ->. destruct (x_susp x); split; discriminate. }
  destruct o as [ptr bs|ptr|ptr len ann|i o|i o|now buf o|i|iv now|s r|b|o|]; cbn [xstep] in E.
  - injection E as _ <- _. destruct (Same eq_refl) as [S1 S2]. split; intros A B; exfalso; eauto.
  - injection E as _ <- _. destruct (Same eq_refl) as [S1 S2]. split; intros A B; exfalso; eauto.
  - destruct (queue_up _ _ _ _ _ _ _ E Hc') as (Q1 & Q2 & Q3 & Q4 & Q5). rewrite cnt_len. destruct (x_susp x).
    + rewrite (Q4 eq_refl). split; discriminate.
    + split; [|discriminate]. intros _ B. destruct (x_susp x'); [|discriminate]. destruct (Q5 eq_refl eq_refl) as [C1 C2]. split; [|exact C2]. eauto 6.
  - destruct (rmc_pub_read x i o) as [[[[cd op] y] ev]| | |] eqn:Er; cbn [bind] in E; [|discriminate..]. injection E as _ <- _.
    destruct (read_sw _ _ _ _ _ _ _ _ _ H Hok Er) as [(S1 & S2 & S3 & S4 & S5) [D _]]. destruct (x_susp x) eqn:Ex, (x_susp y) eqn:Ey; try (specialize (S4 eq_refl)); try (split; discriminate).
    split; [discriminate|]. intros _ _. split; [|exact (S5 Hc eq_refl eq_refl)]. destruct D as [D|[t ->]]; [discriminate|]. eauto.
  - destruct (rmc_pub_write x i o) as [[[[cd op] y] ev]| | |] eqn:Er; cbn [bind] in E; [|discriminate..]. injection E as _ <- _.
    assert (Ey : x_susp y = x_susp x).
    { destruct o as [outs|w]; cbn [rmc_pub_write] in Er.
      - destruct (process_multicast_write x outs) as [[[cd2 y2] e2]| | |] eqn:Em; cbn [bind] in Er; [|discriminate..]. injection Er as _ _ <- _. exact (mcast_susp _ _ _ _ _ Em).
      - destruct (_ <=? i); [injection Er as _ _ <- _; reflexivity|]. destruct (find_by_index _ _) as [[c|]| | |]; cbn [bind] in Er; try discriminate; [|injection Er as _ _ <- _; reflexivity].
        destruct (negb _); [injection Er as _ _ <- _; reflexivity|]. destruct (_ =? 0); [injection Er as _ _ <- _; reflexivity|].
        destruct (tcp_write _ _) as [r| | |]; cbn [bind] in Er; [|discriminate..]. injection Er as _ _ <- _. reflexivity. }
    destruct (Same Ey) as [S1 S2]. split; intros A B; exfalso; eauto.
  - destruct (announce_due x now) eqn:Ea.
    + unfold rmc_pub_timeout_process in E. rewrite Ea in E.
      destruct o as [| |bs len]; cbn [bind fst snd] in E; match type of E with context [set_mem x ?m] => set (x1 := set_mem x m) in E end; try (injection E as _ <- _; destruct (Same eq_refl) as [S1 S2]; split; intros A B; exfalso; eauto; fail).
      all: match type of E with context [rmc_pub_queue_packet ?z ?bf ?l true] => destruct (rmc_pub_queue_packet z bf l true) as [[[cd y] ev]| | |] eqn:Eq end; cbn [bind] in E; [|discriminate..].
      all: match type of E with Ok (_, ?a, _) = Ok (_, ?b, _) => assert (E0 : a = b) by congruence end; clear E.
      all: destruct (queue_up _ _ _ _ _ _ _ Eq Hc') as (Q1 & Q2 & Q3 & Q4 & Q5).
      all: assert (Es : x_susp x' = x_susp y) by (rewrite <- E0; reflexivity); assert (Ei : cnt x' = cnt y) by (rewrite <- E0; reflexivity); rewrite Es, Ei, cnt_len.
      all: change (x_susp x1) with (x_susp x) in *; destruct (x_susp x); [rewrite (Q4 eq_refl); split; discriminate|].
      all: split; [|discriminate]; intros _ B; destruct (x_susp y); [|discriminate]; destruct (Q5 eq_refl eq_refl) as [C1 C2]; split; [|exact C2]; right; eauto 6.
    + unfold rmc_pub_timeout_process in E. rewrite Ea in E. destruct (pub_get_timed_out_subscribers _ _ _) as [subs| | |]; cbn [bind] in E; [|discriminate..].
      destruct (subs_loop_sw _ _ _ _ _ _ E) as [(S1 & S2 & S3 & S4 & S5) _]. destruct (x_susp x) eqn:Ex, (x_susp x') eqn:Ey; try (specialize (S4 eq_refl)); try (split; discriminate).
      split; [discriminate|]. intros _ _. split; [|exact (S5 Hc eq_refl eq_refl)]. right. eauto 6.
  - destruct (close_cnt _ _ _ _ _ E) as (_ & S & _). destruct (Same S) as [S1 S2]. split; intros A B; exfalso; eauto.
  - injection E as _ <- _. destruct (Same eq_refl) as [S1 S2]. split; intros A B; exfalso; eauto.
  - unfold rmc_pub_throttling in E. destruct (s <? r); injection E as _ <- _; destruct (Same eq_refl) as [S1 S2]; split; intros A B; exfalso; eauto.
  - injection E as _ <- _. destruct (Same eq_refl) as [S1 S2]. split; intros A B; exfalso; eauto.
  - assert (S : x_susp x' = x_susp x).
    { unfold rmc_pub_activate_context in E. destruct o; try (injection E as _ <- _; reflexivity). match type of E with context [if ?b then _ else _] => destruct b end; injection E as _ <- _; reflexivity. }
    destruct (Same S) as [S1 S2]. split; intros A B; exfalso; eauto.
  - unfold rmc_pub_deactivate_context in E. match type of E with bind ?h _ = _ => destruct h as [r| | |] eqn:Er end; cbn [bind] in E; [|discriminate..]. injection E as _ <- _.
    assert (S : x_susp (fst r) = x_susp x).
    { destruct (_ =? RMC_NIL_INDEX); [injection Er as <-; reflexivity|]. revert Er. generalize (Z.to_nat (get_max_index_in_use (x_vec x) + 1)). clear. intros n. generalize 0. revert x r.
      induction n as [|n IH]; intros x r ind; cbn [close_loop]; [intros E; injection E as <-; reflexivity|].
      destruct (find_by_index _ _) as [[c|]| | |]; cbn [bind]; try discriminate; [|apply IH].
      destruct (rmc_pub_close_connection x ind) as [[[cd x1] e1]| | |] eqn:E1; cbn [bind]; [|discriminate..]. destruct (close_cnt _ _ _ _ _ E1) as (_ & S & _).
      destruct (close_loop n x1 (ind + 1)) as [r2| | |] eqn:E2; cbn [bind]; [|discriminate..]. intros E. injection E as <-. cbn [fst]. apply IH in E2. congruence. }
    destruct (Same S) as [S1 S2]. split; intros A B; exfalso; eauto.
Qed.

(** ** C42. Suspension ends *)
Lemma sent_loop_infl : forall subs s a s', sent_loop s a subs = Ok s' -> p_inflight s' = p_inflight s.
Proof.
  induction subs as [|n subs IH]; intros s a s'; cbn [sent_loop]; [intros E; injection E as <-; reflexivity|].
  destruct (check_live _ _) as [[]| | |]; cbn [bind]; [|discriminate..]. destruct (get_pack _ _) as [p| | |]; cbn [bind]; [|discriminate..]. intros E. apply IH in E. exact E.
Qed.
Lemma insert_len (cmp : nat -> nat -> Z) a : forall l, (length l <= length (seq_insert_sorted cmp a l))%nat.
Proof. induction l as [|y l IH]; cbn [seq_insert_sorted length]; [lia|]. destruct (_ <=? _); cbn [length]; lia. Qed.
Lemma sent_cnt s a ts s' : pub_packet_sent s a ts = Ok s' -> In a (p_queued s) -> zlen (p_inflight s) <= zlen (p_inflight s').
Proof.
  unfold pub_packet_sent. destruct (get_pack s a) as [p| | |]; cbn [bind]; [|discriminate..]. intros E Ha. apply mem_In in Ha.
  unfold unlink_parent in E. cbn [set_pack p_queued] in E. rewrite Ha in E. cbn [bind] in E. destruct (_ =? 0); [injection E as <-; cbn; lia|].
  destruct (check_live _ _) as [[]| | |]; cbn [bind] in E; [|discriminate..]. apply sent_loop_infl in E. rewrite E. cbn [set_inflight p_inflight set_queued set_pack].
  unfold zlen. match goal with |- context [seq_insert_sorted ?c a ?l] => pose proof (insert_len c a l) end. lia.
Qed.
Lemma mcast_cnt : forall outs x code x' evs, process_multicast_write x outs = Ok (code, x', evs) -> cnt x <= cnt x' /\ x_rthr x' = x_rthr x.
Proof.
  assert (S : forall x a o code x' evs, In a (p_queued (x_pub x)) -> send_single_multicast_packet x a o = Ok (code, x', evs) -> cnt x <= cnt x' /\ x_rthr x' = x_rthr x).
  { intros x a o code x' evs Ha. unfold send_single_multicast_packet. destruct (_ =? -1); [intros E; injection E as _ <- _; split; [lia|reflexivity]|].
    destruct (get_pack _ _) as [p| | |]; cbn [bind]; [|discriminate..]. destruct (_ <? _); [intros E; injection E as _ <- _; split; [lia|reflexivity]|].
    destruct (load _ _ _) as [pl| | |]; cbn [bind]; [|discriminate..]. destruct o as [e|ts]; [destruct (_ =? _); intros E; injection E as _ <- _; (split; [lia|reflexivity])|].
    destruct (pub_packet_sent _ _ _) as [s| | |] eqn:Ep; cbn [bind]; [|discriminate..]. intros E; injection E as _ <- _. split; [|reflexivity]. rewrite !cnt_len. exact (sent_cnt _ _ _ _ Ep Ha). }
  assert (Hq : forall x a, pub_next_queued (x_pub x) = Some a -> In a (p_queued (x_pub x))).
  { intros x a. unfold pub_next_queued, last_opt. destruct (rev _) as [|b r] eqn:Er; [discriminate|]. intros E. injection E as ->. apply in_rev. rewrite Er. left. reflexivity. }
  induction outs as [|o outs IH]; intros x code x' evs; cbn [process_multicast_write].
  - destruct (pub_next_queued _) as [a|] eqn:Eq; [apply S, Hq, Eq|intros E; injection E as _ <- _; split; [lia|reflexivity]].
  - destruct (pub_next_queued _) as [a|] eqn:Eq; [|intros E; injection E as _ <- _; split; [lia|reflexivity]].
    destruct (send_single_multicast_packet x a o) as [[[cd x1] e1]| | |] eqn:E1; cbn [bind]; [|discriminate..]. apply (S _ _ _ _ _ _ (Hq _ _ Eq)) in E1. destruct E1 as [E1 R1].
    destruct (negb _); [intros E; injection E as _ <- _; auto|].
    destruct (process_multicast_write x1 outs) as [[[cd2 x2] e2]| | |] eqn:E2; cbn [bind]; [|discriminate..]. apply IH in E2. destruct E2. intros E; injection E as _ <- _. split; [lia|congruence].
Qed.
Lemma queue_live x ptr len announce code x' evs : rmc_pub_queue_packet x ptr len announce = Ok (code, x', evs) ->
  x_rthr x' = x_rthr x /\ cnt x' = cnt x /\ (x_susp x' = true -> x_susp x = true \/ 0 < cnt x).
Proof.
  unfold rmc_pub_queue_packet. intros E.
  destruct (ptr =? 0); [injection E as <- <- _; auto|]. destruct (_ <? len); [injection E as <- <- _; auto|].
  destruct (x_susp x) eqn:Es; [injection E as <- <- _; auto|].
  match type of E with bind ?h _ = _ => destruct h as [[[s' pd] nd]| | |] eqn:Eq end; cbn [bind fst] in E; [|discriminate..].
  assert (G : p_inflight s' = p_inflight (x_pub x)).
  { assert (Gen : forall s0 pid r, pub_queue_with_pid s0 pid ptr len 0 = Ok r -> p_inflight (fst (fst r)) = p_inflight s0).
    { clear. intros s0 pid r. unfold pub_queue_with_pid. intros E. destruct (ptr =? 0); [discriminate|].
      destruct (check_live s0 (p_queued s0)) as [[]| | |]; cbn [bind] in E; [|discriminate..]. injection E as <-. reflexivity. }
    destruct announce; unfold pub_queue_no_ack, pub_queue_packet in Eq; apply Gen in Eq; exact Eq. }
  set (x1 := set_pub (set_susp x false) s') in *.
  match type of E with Ok (_, ?a, _) = _ => assert (E0 : a = x') by congruence end. clear E.
  assert (Eu : pub_unacked_count (x_pub x1) = u32 (cnt x)) by (unfold pub_unacked_count; rewrite cnt_len; cbn [x1 set_pub x_pub]; rewrite G; reflexivity).
  rewrite Eu in E0. change (x_sthr x1) with (x_sthr x) in E0. rewrite <- E0.
  split; [destruct (_ && _); reflexivity|]. split; [destruct (_ && _); rewrite !cnt_len; exact (f_equal zlen G)|].
  destruct (Z.eq_dec (cnt x) 0) as [E|]; [|intros _; right; unfold cnt, zlen in *; lia]. rewrite E. change (u32 0) with 0.
  destruct (Z.ltb_spec 0 (x_sthr x)), (Z.leb_spec (x_sthr x) 0); cbn [andb]; try lia; discriminate.
Qed.
Definition LV (x : pctx) : Prop := 0 <= x_rthr x /\ (x_susp x = true -> 0 < cnt x).
Lemma SX_LV x x' : SX x x' -> LV x -> LV x'.
Proof. intros [(_ & S2 & _ & S4 & _) S6] [L1 L2]. split; [congruence|]. intros H. apply (S6 L1 H), L2, S4, H. Qed.
Lemma live_step x g log o code x' evs : XInv false x g log -> xok x g o -> xstep x o = Ok (code, x', evs) -> (forall a p, ~ In (PvLeave a p) evs) -> LV x -> LV x'.
Proof.
  intros H Hok E NL HL.
  assert (Same : x_rthr x' = x_rthr x -> x_susp x' = x_susp x -> cnt x <= cnt x' -> LV x') by (intros E1 E2 E3; destruct HL as [L1 L2]; split; [congruence|]; rewrite E2; intros A; specialize (L2 A); lia).
  destruct o as [ptr bs|ptr|ptr len ann|i o|i o|now buf o|i|iv now|s r|b|o|]; cbn [xstep] in E.
  - injection E as _ <- _. apply Same; auto. apply Z.le_refl.
  - injection E as _ <- _. apply Same; auto. apply Z.le_refl.
  - destruct (queue_live _ _ _ _ _ _ _ E) as (Q1 & Q2 & Q3). destruct HL as [L1 L2]. split; [congruence|]. rewrite Q2. intros A. destruct (Q3 A); auto.
  - destruct (rmc_pub_read x i o) as [[[[cd op] y] ev]| | |] eqn:Er; cbn [bind] in E; [|discriminate..]. injection E as _ <- <-.
    destruct (read_sw _ _ _ _ _ _ _ _ _ H Hok Er) as (_ & _ & [S|(a & p & B)]); [exact (SX_LV _ _ S HL)|destruct (NL a p B)].
  - destruct (rmc_pub_write x i o) as [[[[cd op] y] ev]| | |] eqn:Er; cbn [bind] in E; [|discriminate..]. injection E as _ <- _.
    destruct o as [outs|w]; cbn [rmc_pub_write] in Er.
    + destruct (process_multicast_write x outs) as [[[cd2 y2] e2]| | |] eqn:Em; cbn [bind] in Er; [|discriminate..]. injection Er as _ _ <- _.
      destruct (mcast_cnt _ _ _ _ _ Em). apply Same; [assumption|exact (mcast_susp _ _ _ _ _ Em)|assumption].
    + destruct (_ <=? i); [injection Er as _ _ <- _; exact HL|]. destruct (find_by_index _ _) as [[c|]| | |]; cbn [bind] in Er; try discriminate; [|injection Er as _ _ <- _; exact HL].
      destruct (negb _); [injection Er as _ _ <- _; exact HL|]. destruct (_ =? 0); [injection Er as _ _ <- _; exact HL|].
      destruct (tcp_write _ _) as [r| | |]; cbn [bind] in Er; [|discriminate..]. injection Er as _ _ <- _. apply Same; auto. apply Z.le_refl.
  - destruct (announce_due x now) eqn:Ea; unfold rmc_pub_timeout_process in E; rewrite Ea in E.
    + destruct o as [| |bs len]; cbn [bind fst snd] in E; try (injection E as _ <- _; apply Same; auto; apply Z.le_refl; fail).
      all: match type of E with context [rmc_pub_queue_packet ?z ?bf ?l true] => set (x1 := z) in E; destruct (rmc_pub_queue_packet x1 bf l true) as [[[cd y] ev]| | |] eqn:Eq end; cbn [bind] in E; [|discriminate..].
      all: destruct (queue_live _ _ _ _ _ _ _ Eq) as (Q1 & Q2 & Q3); match type of E with Ok (_, ?a, _) = Ok (_, ?b, _) => assert (E0 : a = b) by congruence end; clear E; rewrite <- E0; destruct HL as [L1 L2].
      all: split; [exact (eq_ind_r (fun z => 0 <= z) L1 Q1)|]; intros A; match goal with |- 0 < cnt ?z => change (cnt z) with (cnt y) end; rewrite Q2; change (cnt x1) with (cnt x); destruct (Q3 A); auto.
    + destruct (pub_get_timed_out_subscribers _ _ _) as [subs| | |]; cbn [bind] in E; [|discriminate..]. exact (SX_LV _ _ (subs_loop_sw _ _ _ _ _ _ E) HL).
  - destruct (close_leave _ _ _ _ _ E) as [(_ & -> & _)|(a & p & B)]; [exact HL|destruct (NL a p B)].
  - injection E as _ <- _. apply Same; auto. apply Z.le_refl.
  - unfold rmc_pub_throttling in E. destruct (s <? r); injection E as _ <- _; [exact HL|]. cbn in Hok. destruct HL as [L1 L2]. split; [cbn; unfold is_u32 in *; lia|exact L2].
  - injection E as _ <- _. apply Same; auto. apply Z.le_refl.
  - unfold rmc_pub_activate_context in E. destruct o; [|destruct (_ =? 0)]; injection E as _ <- _; (apply Same; auto; apply Z.le_refl).
  - unfold rmc_pub_deactivate_context in E. match type of E with bind ?h _ = _ => destruct h as [r| | |] eqn:Er end; cbn [bind] in E; [|discriminate..]. injection E as _ <- <-.
    assert (S : fst r = x).
    { destruct (_ =? RMC_NIL_INDEX); [injection Er as <-; reflexivity|]. assert (NL' : forall a p, ~ In (PvLeave a p) (snd r)) by (intros a p B; apply (NL a p); right; right; apply in_or_app; left; exact B).
      revert Er NL'. generalize (Z.to_nat (get_max_index_in_use (x_vec x) + 1)). clear. intros n. generalize 0. revert x r.
      induction n as [|n IH]; intros x r ind; cbn [close_loop]; [intros E _; injection E as <-; reflexivity|].
      destruct (find_by_index _ _) as [[c|]| | |]; cbn [bind]; try discriminate; [|apply IH].
      destruct (rmc_pub_close_connection x ind) as [[[cd x1] e1]| | |] eqn:E1; cbn [bind]; [|discriminate..].
      destruct (close_loop n x1 (ind + 1)) as [r2| | |] eqn:E2; cbn [bind]; [|discriminate..]. intros E. injection E as <-. cbn [fst snd]. intros NL.
      destruct (close_leave _ _ _ _ _ E1) as [(_ & -> & ->)|(a & p & B)]; [|destruct (NL a p); apply in_or_app; left; exact B]. exact (IH _ _ _ E2 NL). }
    rewrite S in Same |- *. apply Same; auto. apply Z.le_refl.
Qed.
(** As long as no subscriber has disconnected, a publisher with nothing in flight accepts packets. *)
Theorem c42_no_disconnect_partial : forall x0 ops x g log, fresh_ctx x0 -> xhist x0 ops x g log -> (forall a p, ~ In (PvLeave a p) log) ->
  flying x = [] -> rmc_pub_traffic_suspended x = 0 /\
  forall ptr len announce code x' evs, ptr <> 0 -> len <= RMC_MAX_PAYLOAD -> rmc_pub_queue_packet x ptr len announce = Ok (code, x', evs) -> code = 0.
Proof.
  intros x0 ops x g log F H NL Hf.
  assert (HL : LV x).
  { clear Hf. induction H as [|ops x g log o code x' evs H IH Hok E].
    - destruct F as (node & lip & lport & buf & m & -> & _). split; [cbn; lia|discriminate].
    - apply (live_step x g log o code x' evs); [exact (hist_inv_x false x0 ops x g log F ltac:(discriminate) H)|exact Hok|exact E| |apply IH].
      + intros a p B. apply (NL a p), in_or_app. right. exact B.
      + intros a p B. apply (NL a p), in_or_app. left. exact B. }
  assert (S : x_susp x = false) by (destruct HL as [_ L2]; destruct (x_susp x); [|reflexivity]; specialize (L2 eq_refl); unfold cnt in L2; rewrite Hf in L2; cbn in L2; lia).
  split; [unfold rmc_pub_traffic_suspended; rewrite S; reflexivity|]. intros ptr len ann code x' evs H0 Hl E.
  assert (R : reached x g log) by (exists x0, ops; auto).
  destruct (c41_ebusy_iff_suspended x g log ptr len ann code x' evs R E H0 Hl) as [A [B|B]]; [|exact B]. exfalso. apply A in B. unfold rmc_pub_traffic_suspended in B. rewrite S in B. discriminate.
Qed.
(** After a disconnect the claim fails: nothing is in flight, and every packet is refused. *)
Definition c42_ops : list xop :=
  [XActivate (ActOk 3 4 0); XRead RMC_LISTEN_INDEX (RdAccept (AccOk 5 1 0) None); XThrottle 1 0;
   XAlloc 100 [10; 11]; XAlloc 200 [20; 21; 22]; XQueue 100 2 false; XWrite 0 (WrMcast [SndOk 1000]); XQueue 200 3 false; XClose 0].
Theorem c42_refuted : exists x g log, xhist demo0 c42_ops x g log /\ flying x = [] /\
  forall ptr len announce, ptr <> 0 -> len <= RMC_MAX_PAYLOAD -> rmc_pub_queue_packet x ptr len announce = Ok (EBUSY, x, []).
Proof.
  destruct (xcheck_hist demo0 c42_ops (fun x g log => Nat.eqb (length (flying x)) 0 && x_susp x)) as (x & g & log & H & E); [vm_compute; reflexivity|].
  apply andb_prop in E. destruct E as [E1 E2]. exists x, g, log. split; [exact H|]. split; [destruct (flying x); [reflexivity|discriminate]|].
  intros ptr len ann H0 Hl. unfold rmc_pub_queue_packet. replace (ptr =? 0) with false by lia. replace (RMC_MAX_PAYLOAD <? len) with false by lia. rewrite E2. reflexivity.
Qed.
(** Traffic is suspended by a queued packet and resumed by an ack. *)
Definition c41_ops : list xop :=
  [XActivate (ActOk 3 4 0); XRead RMC_LISTEN_INDEX (RdAccept (AccOk 5 1 0) None); XThrottle 1 0;
   XAlloc 100 [10; 11]; XAlloc 200 [20; 21; 22]; XQueue 100 2 false; XWrite 0 (WrMcast [SndOk 1000]); XQueue 200 3 false].
Example c41_witness : exists x g log x' evs, xhist demo0 c41_ops x g log /\ zlen (flying x) = 1 /\ rmc_pub_traffic_suspended x = EBUSY /\
  ack_interval x 0 1 1 = Ok (x', evs) /\ rmc_pub_traffic_suspended x' = 0.
Proof.
  destruct (xcheck_hist demo0 c41_ops (fun x g log => (zlen (flying x) =? 1) && x_susp x &&
    match ack_interval x 0 1 1 with Ok (x', _) => negb (x_susp x') | _ => false end)) as (x & g & log & H & E); [vm_compute; reflexivity|].
  apply andb_prop in E. destruct E as [E E3]. apply andb_prop in E. destruct E as [E1 E2].
  destruct (ack_interval x 0 1 1) as [[x' evs]| | |] eqn:Ea; try discriminate E3. exists x, g, log, x', evs.
  unfold rmc_pub_traffic_suspended. rewrite E2. apply negb_true_iff in E3. rewrite E3. repeat split; auto. lia.
Qed.
Print Assumptions c41_only_queueing_and_acks. Print Assumptions c42_no_disconnect_partial. Print Assumptions c42_refuted.
