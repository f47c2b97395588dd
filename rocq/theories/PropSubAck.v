(** PropSubAck.v — theorems about the acknowledgement timeout of a subscriber context: C48, C49. *)
From Coq Require Import Sorting.Permutation.
From Verif Require Import Base CircBuf CircBufProofs Wire SeqList Sub SpecSub SubProofs SubTrace Proto SpecProto ProtoProofs
  Conn SpecConn ConnProofs SubCtx SpecSubCtx SubSteps SubMem SubDecomp SubInv PropSubCtx PropSubConn PropSubMem PropSubDeliver.

(** The ack intervals of connection [i] that were put into its TCP ring, and those forgotten. *)
Definition sent_acks (i : Z) (evs : list sev) : list (Z * Z) :=
  flat_map (fun e => match e with SvAck j a b => if j =? i then [(a, b)] else [] | _ => [] end) evs.
Definition lost_acks (i : Z) (evs : list sev) : list (Z * Z) :=
  flat_map (fun e => match e with SvLost j a b => if j =? i then [(a, b)] else [] | _ => [] end) evs.
Lemma sent_app i a b : sent_acks i (a ++ b) = sent_acks i a ++ sent_acks i b.
Proof. apply flat_map_app. Qed.
Lemma lost_app i a b : lost_acks i (a ++ b) = lost_acks i a ++ lost_acks i b.
Proof. apply flat_map_app. Qed.
(** The acknowledgements pending on connection [i] are due at time [now]: the ack timeout has
    passed since the receive time of the first interval. *)
Definition due (x : sctx) (now i : Z) : Prop :=
  match pending_acks x i with [] => False | iv :: _ => iv_ts iv + t_ato x <= now end.

(** What may happen to the acknowledgements pending on connection [i]. *)
Inductive outcome (x : sctx) (now code : Z) (x' : sctx) (evs : list sev) (i : Z) : Prop :=
| oc_none : pending_acks x' i = pending_acks x i -> sent_acks i evs = [] -> lost_acks i evs = [] -> outcome x now code x' evs i
| oc_all : due x now i -> pending_acks x' i = [] -> sent_acks i evs = map iv_pair (pending_acks x i) -> lost_acks i evs = [] ->
    outcome x now code x' evs i
| oc_lost l1 iv l2 : due x now i -> code = ENOMEM -> pending_acks x i = l1 ++ iv :: l2 -> pending_acks x' i = l2 ->
    sent_acks i evs = map iv_pair l1 -> lost_acks i evs = [iv_pair iv] -> outcome x now code x' evs i.

Lemma ack_loop_spec i l : forall x log s code x' evs, BI x -> MI x log -> t_pubs x i = Some s -> s_intv s = l ->
  ack_loop x i s l = Ok (code, x', evs) ->
  (forall j, j <> i -> t_pubs x' j = t_pubs x j /\ sent_acks j evs = [] /\ lost_acks j evs = []) /\ t_ack x' = t_ack x /\ t_ato x' = t_ato x /\
  ((code = 0 /\ pending_acks x' i = [] /\ sent_acks i evs = map iv_pair l /\ lost_acks i evs = []) \/
   (code = ENOMEM /\ exists l1 iv l2, l = l1 ++ iv :: l2 /\ pending_acks x' i = l2 /\ sent_acks i evs = map iv_pair l1 /\ lost_acks i evs = [iv_pair iv])).
Proof.
  induction l as [|iv l IH]; intros x log s code x' evs B M Hs Hl E; cbn [ack_loop] in E.
  - assert (code = 0 /\ x' = x /\ evs = []) as (-> & -> & ->) by (repeat split; congruence). split; [auto|]. split; [reflexivity|]. split; [reflexivity|].
    left. split; [reflexivity|]. split; [unfold pending_acks; rewrite Hs; exact Hl|]. split; reflexivity.
  - assert (Hc : exists c, sconnected x i c).
    { pose proof (bi_range x B i s Hs) as R. destruct (slot_ex (t_vec x) i R) as [c Hc]. exists c. split; [exact Hc|].
      destruct (Z.eq_dec (c_mode c) CONNECTED) as [Hm|Hm]; [exact Hm|]. exfalso.
      destruct (bi_idle x B i s Hs) as [_ Hi]; [|rewrite Hl in Hi; discriminate]. intros d [Hd Hmd]. congruence. }
    destruct Hc as [c Hc]. set (s1 := mkSP (s_ready s) (s_maxrecv s) (s_recv s) l) in *.
    unfold rmc_sub_packet_interval_acknowledged in E. change (t_vec (put_spub x i s1)) with (t_vec x) in E. rewrite (proj1 Hc) in E. cbn [bind] in E.
    rewrite (proj2 Hc) in E. cbn [negb Z.eqb CONNECTED Pos.eqb] in E. unfold write_interval_ack in E. change (t_vec (put_spub x i s1)) with (t_vec x) in E. rewrite (proj1 Hc) in E. cbn [bind] in E.
    rewrite (proj2 Hc) in E. cbn [negb Z.eqb CONNECTED Pos.eqb] in E.
    destruct (tv_ring _ (bi_vec x B) i c (proj1 Hc)) as [W1 W2].
    destruct (write_ack_spec (c_wbuf c) (iv_first iv) (iv_last iv) W1) as (A1 & A2 & A3).
    destruct (Z_lt_ge_dec (circ_buf_available (c_wbuf c)) 17) as [L|L].
    + rewrite (A1 L) in E. cbn [bind fst snd] in E. change (negb (ENOMEM =? 0)) with true in E. cbv iota in E. cbn [bind] in E. change (negb (ENOMEM =? 0)) with true in E. cbv iota in E. cbn [app] in E.
      assert (code = ENOMEM /\ x' = put_spub x i s1 /\ evs = [SvLost i (iv_first iv) (iv_last iv)]) as (-> & -> & ->) by (repeat split; congruence).
      split. { intros j N. unfold put_spub, set_tpubs. cbn [t_pubs]. rewrite tupd_other by exact N. cbn. destruct (Z.eqb_spec i j); [congruence|]. auto. }
      split; [reflexivity|]. split; [reflexivity|]. right. split; [reflexivity|]. exists [], iv, l. split; [reflexivity|].
      unfold pending_acks, put_spub, set_tpubs. cbn [t_pubs]. rewrite tupd_same. cbn. rewrite Z.eqb_refl. auto.
    + destruct (Z.eq_dec (cb_stop (c_wbuf c)) (cb_size (c_wbuf c))) as [Es|Es]; [rewrite A3 in E by (lia || exact Es); discriminate E|].
      destruct A2 as (wb & Ew & X1 & X2 & _ & X3); [lia|destruct W1; unfold cb_wf in *; lia|]. rewrite Ew in E. cbn [bind fst snd] in E.
      change (negb (0 =? 0)) with false in E. cbv iota in E. cbn [bind] in E. change (negb (0 =? 0)) with false in E. cbv iota in E.
      set (x1 := set_tvec _ _) in E.
      assert (U : ustep (Some (-2)) log x [SvAck i (iv_first iv) (iv_last iv); SvConn (EvMod (c_desc c) i (c_action c) (Z.lor (c_action c) POLLWRITE))] x1).
      { refine (u_ack (Some (-2)) log x i c s iv l wb _ Hc Hs Hl X1 _ X3 eq_refl). congruence. }
      pose proof (step_BI _ _ _ _ _ B U) as B1. pose proof (step_MI _ _ _ _ _ B M U) as M1.
      destruct (ack_loop x1 i s1 l) as [[[code2 x2] evs2]|u| |] eqn:E2; cbn [bind] in E; try discriminate E.
      assert (code2 = code /\ x2 = x' /\ evs = [SvAck i (iv_first iv) (iv_last iv); SvConn (EvMod (c_desc c) i (c_action c) (Z.lor (c_action c) POLLWRITE))] ++ evs2)
        as (-> & -> & ->) by (repeat split; congruence).
      destruct (IH x1 _ s1 code x' evs2 B1 M1) as (I1 & I2 & I3 & I4); [cbn; apply tupd_same|reflexivity|exact E2|].
      split. { intros j N. destruct (I1 j N) as (J1 & J2 & J3). rewrite sent_app, lost_app, J2, J3, J1. unfold x1, set_tvec, put_spub, set_tpubs. cbn [t_pubs]. rewrite tupd_other by exact N.
               cbn. destruct (Z.eqb_spec i j); [congruence|]. auto. }
      split; [exact I2|]. split; [exact I3|]. rewrite sent_app, lost_app. cbn [sent_acks lost_acks flat_map app]. rewrite Z.eqb_refl. cbn [app].
      fold (sent_acks i evs2) (lost_acks i evs2). destruct I4 as [(C1 & C2 & C3 & C4)|(C1 & l1 & jv & l2 & C2 & C3 & C4 & C5)].
      * left. rewrite C3, C4. auto.
      * right. split; [exact C1|]. exists (iv :: l1), jv, l2. rewrite C2, C4, C5. auto.
Qed.
Lemma timeout_spec now l : forall x log code x' evs, BI x -> MI x log -> t_ack x = l -> timeout_loop x now l = Ok (code, x', evs) ->
  (forall i, outcome x now code x' evs i) /\ t_ato x' = t_ato x /\
  (code = 0 \/ (code = ENOMEM /\ exists i, lost_acks i evs <> [] /\ forall j, lost_acks j evs <> [] -> j = i)) /\
  (code = 0 -> (forall i, lost_acks i evs = []) /\ match t_ack x' with [] => True | i :: _ => now < oldest_of x' i + t_ato x end).
Proof.
  induction l as [|i l IH]; intros x log code x' evs B M E H; cbn [timeout_loop] in H.
  - assert (code = 0 /\ x' = x /\ evs = []) as (-> & -> & ->) by (repeat split; congruence). split; [intros i; apply oc_none; reflexivity|].
    split; [reflexivity|]. split; [auto|]. intros _. split; [reflexivity|]. rewrite E. exact Logic.I.
  - assert (Hs : exists s, t_pubs x i = Some s).
    { pose proof (bi_ack x B i) as X. rewrite E in X. specialize (X (or_introl eq_refl)). destruct (t_pubs x i); [eauto|congruence]. }
    destruct Hs as [s Hs]. rewrite (get_spub_some x i s B Hs) in H. cbn [bind] in H. destruct (Z.ltb_spec now (sub_oldest_unacked s + t_ato x)) as [L|L].
    + assert (code = 0 /\ x' = x /\ evs = []) as (-> & -> & ->) by (repeat split; congruence). split; [intros j; apply oc_none; reflexivity|].
      split; [reflexivity|]. split; [auto|]. intros _. split; [reflexivity|]. rewrite E. unfold oldest_of. rewrite Hs. exact L.
    + destruct (ack_loop x i s (s_intv s)) as [[[code1 x1] evs1]|u| |] eqn:E1; cbn [bind] in H; try discriminate H.
      destruct (ack_loop_spec i _ x log s code1 x1 evs1 B M Hs eq_refl E1) as (O1 & A1 & T1 & C1).
      pose proof (ack_loop_dec (Some (-2)) (s_intv s) eq_refl x log i s B M Hs eq_refl) as D. rewrite E1 in D. cbn [ssafe fst snd] in D. destruct D as (U1 & _ & _ & P1).
      assert (Pi : pending_acks x i = s_intv s) by (unfold pending_acks; rewrite Hs; reflexivity).
      assert (Po : forall j, j <> i -> pending_acks x1 j = pending_acks x j) by (intros j N; unfold pending_acks; rewrite (proj1 (O1 j N)); reflexivity).
      assert (Du : s_intv s <> [] -> due x now i).
      { intros N. unfold due. rewrite Pi. unfold sub_oldest_unacked in L. destruct (s_intv s) as [|iv r]; [congruence|]. exact L. }
      destruct C1 as [(-> & C2 & C3 & C4)|(-> & l1 & iv & l2 & C2 & C3 & C4 & C5)].
      * change (negb (0 =? 0)) with false in H. cbv iota in H. rewrite E in A1.
        assert (U2 : usteps (Some (-2)) log x evs1 (set_tack x1 l)).
        { replace evs1 with (evs1 ++ []) by apply app_nil_r. eapply us_then; [exact U1|]. exact (u_next (Some (-2)) _ x1 i l A1 (P1 eq_refl)). }
        destruct (steps_BMI (Some (-2)) log x evs1 _ B M U2) as [B2 M2].
        destruct (timeout_loop (set_tack x1 l) now l) as [[[code2 x2] evs2]|u| |] eqn:E2; cbn [bind] in H; try discriminate H.
        assert (code2 = code /\ x2 = x' /\ evs = evs1 ++ evs2) as (-> & -> & ->) by (repeat split; congruence).
        destruct (IH (set_tack x1 l) _ code x' evs2 B2 M2 eq_refl E2) as (I1 & I2 & I3 & I4).
        change (t_ato (set_tack x1 l)) with (t_ato x1) in *. rewrite T1 in *.
        assert (Ds : forall j, j <> i -> due (set_tack x1 l) now j -> due x now j).
        { intros j N. unfold due. change (pending_acks (set_tack x1 l) j) with (pending_acks x1 j). rewrite (Po j N). change (t_ato (set_tack x1 l)) with (t_ato x1). rewrite T1. auto. }
        assert (Nd : ~ due (set_tack x1 l) now i).
        { unfold due. change (pending_acks (set_tack x1 l) i) with (pending_acks x1 i). rewrite C2. auto. }
        assert (Lj : forall j, lost_acks j evs1 = []) by (intros j; destruct (Z.eq_dec j i) as [->|N]; [exact C4|apply (O1 j N)]).
        split; [|split; [exact I2|split]].
        -- intros j. destruct (Z.eq_dec j i) as [->|N].
           ++ destruct (I1 i) as [J1 J2 J3|J0 _ _ _|? ? ? J0 _ _ _ _ _]; try contradiction.
              change (pending_acks (set_tack x1 l) i) with (pending_acks x1 i) in J1.
              destruct (s_intv s) as [|iv r] eqn:Ei.
              ** apply oc_none; [rewrite J1, C2, Pi; reflexivity|rewrite sent_app, C3, J2; reflexivity|rewrite lost_app, C4, J3; reflexivity].
              ** apply oc_all; [apply Du; discriminate|rewrite J1; exact C2|rewrite sent_app, C3, J2, app_nil_r, Pi; reflexivity|rewrite lost_app, C4, J3; reflexivity].
           ++ destruct (O1 j N) as (K1 & K2 & K3). destruct (I1 j) as [J1 J2 J3|J0 J1 J2 J3|l1 jv l2 J0 J1 J2 J3 J4 J5].
              ** apply oc_none; [rewrite J1; exact (Po j N)|rewrite sent_app, K2, J2; reflexivity|rewrite lost_app, K3, J3; reflexivity].
              ** apply oc_all; [auto|exact J1|rewrite sent_app, K2, J2; cbn [app]; f_equal; exact (Po j N)|rewrite lost_app, K3, J3; reflexivity].
              ** apply (oc_lost _ _ _ _ _ _ l1 jv l2); auto; [rewrite <- (Po j N); exact J2|rewrite sent_app, K2, J4; reflexivity|rewrite lost_app, K3, J5; reflexivity].
        -- destruct I3 as [I3|(I3 & j & J1 & J2)]; [left; exact I3|right; split; [exact I3|]]. exists j. rewrite lost_app, Lj. split; [exact J1|].
           intros k. rewrite lost_app, Lj. apply J2.
        -- intros Hc. destruct (I4 Hc) as [J1 J2]. split; [|exact J2]. intros j. rewrite lost_app, Lj, J1. reflexivity.
      * change (negb (ENOMEM =? 0)) with true in H. cbv iota in H.
        assert (code = ENOMEM /\ x' = x1 /\ evs = evs1) as (-> & -> & ->) by (repeat split; congruence).
        split; [|split; [exact T1|split]].
        -- intros j. destruct (Z.eq_dec j i) as [->|N].
           ++ apply (oc_lost _ _ _ _ _ _ l1 iv l2); auto; [apply Du; rewrite C2; destruct l1; discriminate|rewrite Pi; exact C2].
           ++ destruct (O1 j N) as (K1 & K2 & K3). apply oc_none; auto.
        -- right. split; [reflexivity|]. exists i. split; [rewrite C5; discriminate|]. intros j Hj. destruct (Z.eq_dec j i) as [->|N]; [reflexivity|].
           exfalso. apply Hj. apply (O1 j N).
        -- intros X. discriminate X.
Qed.

(** ** C48. Acknowledgements are sent when due *)
Lemma timeout_facts t x log now code x' evs : sreached t x log -> rmc_sub_timeout_process x now = Ok (code, x', evs) ->
  (forall i, outcome x now code x' evs i) /\ t_ato x' = t_ato x /\
  (code = 0 \/ (code = ENOMEM /\ exists i, lost_acks i evs <> [] /\ forall j, lost_acks j evs <> [] -> j = i)) /\
  (code = 0 -> (forall i, lost_acks i evs = []) /\ match t_ack x' with [] => True | i :: _ => now < oldest_of x' i + t_ato x end).
Proof. intros R E. destruct (sreached_inv t x log R) as (B & M & _). exact (timeout_spec now (t_ack x) x log code x' evs B M eq_refl E). Qed.
(** A call that returns 0 acknowledges all that is pending on a connection, in order, or nothing;
    and nothing on a connection where nothing is due. *)
Theorem c48_all_or_nothing : forall t x log now x' evs i, sreached t x log -> rmc_sub_timeout_process x now = Ok (0, x', evs) ->
  (due x now i /\ pending_acks x' i = [] /\ sent_acks i evs = map (fun iv => (iv_first iv, iv_last iv)) (pending_acks x i)) \/
  (pending_acks x' i = pending_acks x i /\ sent_acks i evs = []).
Proof.
  intros t x log now x' evs i R E. destruct (timeout_facts t x log now 0 x' evs R E) as (O & _). destruct (O i) as [J1 J2 J3|J0 J1 J2 J3|l1 jv l2 J0 J1 J2 J3 J4 J5]; [auto|auto|discriminate J1].
Qed.
(** Nothing is acknowledged before it is due, whatever the call returns. *)
Theorem c48_not_early : forall t x log now code x' evs i, sreached t x log -> rmc_sub_timeout_process x now = Ok (code, x', evs) ->
  ~ due x now i -> pending_acks x' i = pending_acks x i /\ sent_acks i evs = [] /\ lost_acks i evs = [].
Proof.
  intros t x log now code x' evs i R E N. destruct (timeout_facts t x log now code x' evs R E) as (O & _).
  destruct (O i) as [J1 J2 J3|J0 J1 J2 J3|l1 jv l2 J0 J1 J2 J3 J4 J5]; [auto|contradiction|contradiction].
Qed.
(** If all that is pending is due, it is all acknowledged (the clock having passed the timeout
    value itself, 50 ms).  With one publisher this is the property. *)
Theorem c48_all_due_partial : forall t x log now x' evs, sreached t x log -> rmc_sub_timeout_process x now = Ok (0, x', evs) ->
  t_ato x <= now -> (forall i, pending_acks x i <> [] -> due x now i) ->
  forall i, pending_acks x' i = [] /\ sent_acks i evs = map (fun iv => (iv_first iv, iv_last iv)) (pending_acks x i).
Proof.
  intros t x log now x' evs R E Ht Hd. destruct (timeout_facts t x log now 0 x' evs R E) as (O & _ & _ & Hh). destruct (Hh eq_refl) as [_ Hh'].
  destruct (sreached_inv t x log R) as (B & M & _). destruct (step_bmi x log (YTimeout now) 0 x' evs B M Logic.I E) as (_ & B' & _).
  assert (En : t_ack x' = []).
  { destruct (t_ack x') as [|i l]; [reflexivity|exfalso]. assert (Ho : oldest_of x' i = match pending_acks x' i with [] => 0 | iv :: _ => iv_ts iv end).
    { unfold oldest_of, pending_acks. destruct (t_pubs x' i); reflexivity. }
    rewrite Ho in Hh'. destruct (O i) as [J1 J2 J3|J0 J1 J2 J3|l1 jv l2 J0 J1 J2 J3 J4 J5]; [|rewrite J1 in Hh'; lia|discriminate J1].
    rewrite J1 in Hh'. specialize (Hd i). unfold due in Hd. destruct (pending_acks x i) as [|iv r]; [lia|]. specialize (Hd ltac:(discriminate)). lia. }
  intros i. assert (Pi : pending_acks x' i = []).
  { destruct (pending_acks x' i) as [|iv r] eqn:Ep; [reflexivity|exfalso]. pose proof (bi_pend x' B' i) as Hp. rewrite Ep, En in Hp. apply Hp. discriminate. }
  split; [exact Pi|]. destruct (O i) as [J1 J2 J3|J0 J1 J2 J3|l1 jv l2 J0 J1 J2 J3 J4 J5]; [|exact J2|discriminate J1].
  rewrite <- J1, Pi, J2. reflexivity.
Qed.
(** rmc_sub_timeout_get_next: -1 exactly if no publisher is on the list, and then nothing is
    pending; otherwise the due time of one of the publishers, or, for a publisher that stayed on
    the list although it has nothing pending, a time in the past. *)
Theorem c48_get_next_partial : forall t x log, sreached t x log ->
  exists r, rmc_sub_timeout_get_next x = Ok r /\
    ((r = -1 /\ forall i, pending_acks x i = []) \/
     (exists i iv rest, pending_acks x i = iv :: rest /\ r = iv_ts iv + t_ato x) \/
     (r = t_ato x /\ t_ack x <> [])).
Proof.
  intros t x log R. destruct (sreached_inv t x log R) as (B & M & _). unfold rmc_sub_timeout_get_next.
  destruct (t_ack x) as [|i l] eqn:Ea.
  - exists (-1). split; [reflexivity|]. left. split; [reflexivity|]. intros i. destruct (pending_acks x i) as [|iv r] eqn:Ep; [reflexivity|exfalso].
    pose proof (bi_pend x B i) as Hp. rewrite Ep, Ea in Hp. apply Hp. discriminate.
  - pose proof (bi_ack x B i) as X. rewrite Ea in X. specialize (X (or_introl eq_refl)). destruct (t_pubs x i) as [s|] eqn:Hs; [|congruence].
    rewrite (get_spub_some x i s B Hs). cbn [bind]. eexists. split; [reflexivity|]. right. unfold sub_oldest_unacked. destruct (s_intv s) as [|iv r] eqn:Ei.
    + right. split; [lia|discriminate].
    + left. exists i, iv, r. split; [unfold pending_acks; rewrite Hs; exact Ei|reflexivity].
Qed.
(** With a single publisher, on the list once as [publishers_once] says, it is the due time. *)
Theorem c48_get_next_single : forall t x log i iv rest, sreached t x log -> t_ack x = [i] -> pending_acks x i = iv :: rest ->
  rmc_sub_timeout_get_next x = Ok (iv_ts iv + t_ato x) /\ forall j, j <> i -> pending_acks x j = [].
Proof.
  intros t x log i iv rest R Ea Ep. destruct (sreached_inv t x log R) as (B & M & _). unfold rmc_sub_timeout_get_next. rewrite Ea.
  unfold pending_acks in Ep. destruct (t_pubs x i) as [s|] eqn:Hs; [|discriminate]. rewrite (get_spub_some x i s B Hs). cbn [bind]. unfold sub_oldest_unacked. rewrite Ep.
  split; [reflexivity|]. intros j N. destruct (pending_acks x j) as [|jv r] eqn:Ej; [reflexivity|exfalso]. pose proof (bi_pend x B j) as Hp. rewrite Ej, Ea in Hp.
  destruct Hp as [Hp|[]]; [discriminate|congruence].
Qed.
(** The property fails with two publishers: as long as the publisher that was put on the list last
    is not due, no other one is served, however late it is. *)
Theorem c48_blocked_refuted : forall t x log now i l iv rest, sreached t x log -> t_ack x = i :: l -> pending_acks x i = iv :: rest ->
  ~ due x now i -> rmc_sub_timeout_process x now = Ok (0, x, []).
Proof.
  intros t x log now i l iv rest R Ea Ep N. destruct (sreached_inv t x log R) as (B & M & _). unfold rmc_sub_timeout_process. rewrite Ea. cbn [timeout_loop].
  unfold due in N. rewrite Ep in N. unfold pending_acks in Ep. destruct (t_pubs x i) as [s|] eqn:Hs; [|discriminate]. rewrite (get_spub_some x i s B Hs). cbn [bind]. unfold sub_oldest_unacked. rewrite Ep.
  destruct (Z.ltb_spec now (iv_ts iv + t_ato x)); [reflexivity|lia].
Qed.
(** The publisher whose packet came last is put first. *)
Definition dgram2 (pid : Z) (bs : list Z) : list Z := enc_header (Wire.mkHdr pid 8 (zlen bs) 0 4712) ++ bs.
Definition two_ops : list yop :=
  [YActivate (SaOk 3); mcast_in [ann 4]; establish 0;
   mcast_in [McData 77 (dgram2 0 [66]) (mkMi true (SockOk 5 false EINPROGRESS) no_acc)]; establish 1;
   mcast_in [data 5 [50] 100 1000 []]; mcast_in [McData 77 (dgram2 3 [30]) (mkMi true (SockErr 1) (mkAi 200 40000 []))]].
Example c48_two_publishers : exists x log, yhist true sdemo0 two_ops x log /\ t_ack x = [1; 0] /\
  due x 52000 0 /\ map iv_pair (pending_acks x 0) = [(5, 5)] /\ ~ due x 52000 1 /\ map iv_pair (pending_acks x 1) = [(3, 3)] /\
  rmc_sub_timeout_process x 52000 = Ok (0, x, []) /\ rmc_sub_timeout_get_next x = Ok 90000.
Proof.
  destruct (yrun sdemo0 [] two_ops) as [[x log]|] eqn:E1; [|vm_compute in E1; discriminate E1].
  pose proof (yrun_hist true sdemo0 _ sdemo0 [] [] x log (yh_nil _ _) E1) as H1. vm_compute in E1. injection E1 as <- <-.
  do 2 eexists. split; [exact H1|]. split; [reflexivity|]. split; [vm_compute; discriminate|]. split; [reflexivity|]. split; [vm_compute; intros X; apply X; reflexivity|].
  split; [reflexivity|]. split; vm_compute; reflexivity.
Qed.
(** All due: both are served. *)
Example c48_all_due_witness : exists x log x' evs, yhist true sdemo0 two_ops x log /\ rmc_sub_timeout_process x 90000 = Ok (0, x', evs) /\
  due x 90000 0 /\ due x 90000 1 /\ sent_acks 0 evs = [(5, 5)] /\ sent_acks 1 evs = [(3, 3)] /\ t_ack x' = [].
Proof.
  destruct (yrun sdemo0 [] two_ops) as [[x log]|] eqn:E1; [|vm_compute in E1; discriminate E1].
  pose proof (yrun_hist true sdemo0 _ sdemo0 [] [] x log (yh_nil _ _) E1) as H1. vm_compute in E1. injection E1 as <- <-.
  do 4 eexists. split; [exact H1|]. split; [vm_compute; reflexivity|]. split; [vm_compute; discriminate|]. split; [vm_compute; discriminate|]. repeat split; reflexivity.
Qed.

(** ** C49. No acknowledgement is lost *)
(** Acknowledgements are written, or lost, in rmc_sub_timeout_process only. *)
Lemma step_acks r log x evs x' : r <> Some (-2) -> ustep r log x evs x' -> forall i, sent_acks i evs = [] /\ lost_acks i evs = [].
Proof.
  intros N Hu i. assert (P : forall m j l, sent_acks i (put_evs m j l) = [] /\ lost_acks i (put_evs m j l) = []) by (intros m j l; induction l; auto).
  assert (F : forall l, sent_acks i (free_evs l) = [] /\ lost_acks i (free_evs l) = []) by (intros l; induction l; auto).
  destruct Hu; try contradiction; try (split; reflexivity); auto.
  - destruct e as [[]| | | | | | | | | | | | | | |]; cbn in H; try contradiction; split; reflexivity.
  - rewrite sent_app, lost_app. cbn. fold (sent_acks i (put_evs m i0 out)) (lost_acks i (put_evs m i0 out)). destruct (P m i0 out) as [-> ->]. destruct src; split; reflexivity.
  - match goal with X : _ \/ _ |- _ => rename X into HX end. destruct HX as [->|(d & _ & ->)]; split; reflexivity.
  - rewrite sent_app, lost_app. destruct (F (s_recv s)) as [-> ->]. split; reflexivity.
Qed.
Lemma steps_acks r log x evs x' : r <> Some (-2) -> usteps r log x evs x' -> forall i, sent_acks i evs = [] /\ lost_acks i evs = [].
Proof.
  intros N Hu i. induction Hu as [|e1 x1 e2 x2 Hu [I1 I2] Hs]; [split; reflexivity|]. destruct (step_acks _ _ _ _ _ N Hs i) as [S1 S2].
  rewrite sent_app, lost_app, I1, I2, S1, S2. split; reflexivity.
Qed.
Theorem c49_acks_only_in_timeout : forall t x log o code x' evs i, sreached t x log -> yok x log o -> ystep x o = Ok (code, x', evs) ->
  (forall now, o <> YTimeout now) -> sent_acks i evs = [] /\ lost_acks i evs = [].
Proof.
  intros t x log o code x' evs i R Hok E N. destruct (sreached_inv t x log R) as (B & M & _). destruct (step_bmi x log o code x' evs B M Hok E) as (U & _).
  revert i. apply (steps_acks (reads o) log x evs x'); [|exact U]. destruct o as [j [ins|o ins]| | | | | | | | | | |]; cbn [reads]; try discriminate; [|exfalso; eapply N; reflexivity].
  destruct Hok as [Hj _]. intros X. injection X as X. lia.
Qed.
(** A timeout loses an acknowledgement exactly if it returns ENOMEM, and then one interval of one
    connection; those before it were written, those after it wait. *)
Theorem c49_lost_exactly_on_enomem : forall t x log now code x' evs, sreached t x log -> rmc_sub_timeout_process x now = Ok (code, x', evs) ->
  (code = 0 /\ forall i, lost_acks i evs = []) \/
  (code = ENOMEM /\ exists i l1 iv l2, pending_acks x i = l1 ++ iv :: l2 /\ sent_acks i evs = map (fun iv => (iv_first iv, iv_last iv)) l1 /\
     lost_acks i evs = [(iv_first iv, iv_last iv)] /\ pending_acks x' i = l2 /\ forall j, j <> i -> lost_acks j evs = []).
Proof.
  intros t x log now code x' evs R E. destruct (timeout_facts t x log now code x' evs R E) as (O & _ & [C|(C & i & C1 & C2)] & Hh).
  - left. split; [exact C|]. apply Hh. exact C.
  - right. split; [exact C|]. exists i. destruct (O i) as [J1 J2 J3|J0 J1 J2 J3|l1 jv l2 J0 J1 J2 J3 J4 J5]; [contradiction|contradiction|].
    exists l1, jv, l2. repeat (split; [assumption|]). intros j N. destruct (lost_acks j evs) eqn:El; [reflexivity|exfalso]. apply N, C2. rewrite El. discriminate.
Qed.
(** The property fails whenever the TCP ring has less than 17 bytes left: the interval is
    forgotten. *)
Theorem c49_full_ring_refuted : forall t x log now i l iv rest c, sreached t x log -> t_ack x = i :: l -> pending_acks x i = iv :: rest -> due x now i ->
  sconnected x i c -> circ_buf_available (c_wbuf c) < 17 ->
  exists x', rmc_sub_timeout_process x now = Ok (ENOMEM, x', [SvLost i (iv_first iv) (iv_last iv)]) /\ pending_acks x' i = rest.
Proof.
  intros t x log now i l iv rest c R Ea Ep D Hc L. destruct (sreached_inv t x log R) as (B & M & _). unfold rmc_sub_timeout_process. rewrite Ea. cbn [timeout_loop].
  unfold due in D. rewrite Ep in D. unfold pending_acks in Ep. destruct (t_pubs x i) as [s|] eqn:Hs; [|discriminate]. rewrite (get_spub_some x i s B Hs). cbn [bind].
  unfold sub_oldest_unacked. rewrite Ep. destruct (Z.ltb_spec now (iv_ts iv + t_ato x)); [lia|]. cbn [ack_loop].
  set (s1 := mkSP (s_ready s) (s_maxrecv s) (s_recv s) rest).
  unfold rmc_sub_packet_interval_acknowledged. change (t_vec (put_spub x i s1)) with (t_vec x). rewrite (proj1 Hc). cbn [bind].
  rewrite (proj2 Hc). cbn [negb Z.eqb CONNECTED Pos.eqb]. unfold write_interval_ack. change (t_vec (put_spub x i s1)) with (t_vec x). rewrite (proj1 Hc). cbn [bind].
  rewrite (proj2 Hc). cbn [negb Z.eqb CONNECTED Pos.eqb]. destruct (tv_ring _ (bi_vec x B) i c (proj1 Hc)) as [W1 W2].
  destruct (write_ack_spec (c_wbuf c) (iv_first iv) (iv_last iv) W1) as (A1 & _). rewrite (A1 L). cbn [bind fst snd]. change (negb (ENOMEM =? 0)) with true. cbv iota. cbn [bind].
  change (negb (ENOMEM =? 0)) with true. cbv iota. cbn [app bind]. change (negb (ENOMEM =? 0)) with true. cbv iota.
  eexists. split; [reflexivity|]. unfold pending_acks, put_spub, set_tpubs. cbn [t_pubs]. rewrite tupd_same. reflexivity.
Qed.
(** And an acknowledgement that was lost is never sent while the connection lasts. *)
Theorem c49_lost_for_good_refuted : forall t x log i c a b k, sreached t x log -> good_ids log -> sconnected x i c ->
  In (a, b) (ts_lost (ts_open i log)) -> a <= k <= b ->
  (exists bs, In (k, true, bs) (ts_got (ts_open i log))) /\
  (forall a' b', In (a', b') (ts_acks (ts_open i log)) -> ~ a' <= k <= b') /\ ~ covered k (pending_acks x i).
Proof.
  intros t x log i c a b k R Gd Hc Hi Hk. destruct (c73_exact t x log i c k R Gd Hc) as [N1 N2]. cbv zeta in N1, N2.
  assert (Pos : forall u v l, In (u, v) l -> u <= k <= v -> (0 < times k l)%nat).
  { intros u v m Hm Hu. unfold times. apply in_split in Hm. destruct Hm as (m1 & m2 & ->). rewrite filter_app, app_length. cbn [filter fst snd].
    replace ((u <=? k) && (k <=? v)) with true by lia. cbn [length]. lia. }
  pose proof (Pos _ _ _ Hi Hk) as P. split; [apply N2; lia|]. split.
  - intros a' b' Ha Hk'. pose proof (Pos _ _ _ Ha Hk'). lia.
  - intros X. apply times_covered in X. change (map iv_pair) with (map (fun iv : intv => (iv_first iv, iv_last iv))) in X. lia.
Qed.
(** A control message fills the ring up to 16 bytes or less; the acknowledgement of packet 5 is
    lost, that of packet 7 is not. *)
Definition full_ops : list yop := sdemo_ops ++ [YCtrl 0 (repeat 7 (Z.to_nat 65380)) 8; YTimeout 200000].
Definition full_ok (x : sctx) (log : list sev) : bool :=
  match ts_lost (ts_open 0 log), pending_acks x 0, t_ack x, slot (t_vec x) 0 with
  | [(a, b)], [iv], [0], Ok c => (a =? 5) && (b =? 5) && (iv_first iv =? 7) && (circ_buf_available (c_wbuf c) <? 17) && (c_mode c =? CONNECTED) && (iv_ts iv + t_ato x <=? 200000)
  | _, _, _, _ => false
  end.
Example c49_witness : exists x log c iv, yhist true sdemo0 full_ops x log /\ ts_lost (ts_open 0 log) = [(5, 5)] /\
  pending_acks x 0 = [iv] /\ iv_first iv = 7 /\ due x 200000 0 /\ t_ack x = [0] /\ sconnected x 0 c /\ circ_buf_available (c_wbuf c) < 17.
Proof.
  destruct (ycheck_hist true sdemo0 full_ops full_ok) as (x & log & H & E); [vm_compute; reflexivity|]. unfold full_ok in E.
  destruct (ts_lost (ts_open 0 log)) as [|[a b] [|]] eqn:El; try discriminate E. destruct (pending_acks x 0) as [|iv [|]] eqn:Ep; try discriminate E.
  destruct (t_ack x) as [|[| |] [|]] eqn:Ea; try discriminate E. destruct (slot (t_vec x) 0) as [c|u| |] eqn:Es; try discriminate E.
  exists x, log, c, iv. split; [exact H|]. unfold due, sconnected. rewrite Ep, Es. bsplit. repeat split; auto; try lia. rewrite ?El. f_equal. f_equal; lia.
Qed.
Print Assumptions c48_all_due_partial.
Print Assumptions c48_blocked_refuted.
Print Assumptions c49_lost_exactly_on_enomem.
Print Assumptions c49_lost_for_good_refuted.
