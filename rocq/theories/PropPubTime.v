(** PropPubTime.v — timeouts, announces and the pending report: C43-C45, C47. *)
From Coq Require Import Sorting.Permutation Sorting.Sorted.
From Verif Require Import Base CircBuf CircBufProofs Wire ListHeap SeqList Pub SpecPub PubProofs PubTrace PropPub Proto SpecProto ProtoProofs
  Conn SpecConn ConnProofs Safe PubCtx SpecPubCtx PubCtxProofs PubCtxSteps PubCtxOwed PropPubCtx PropPubFlow.

Lemma timeout_tr t x g log now buf o code x' evs : XInv t x g log -> announce_due x now = false ->
  rmc_pub_timeout_process x now buf o = Ok (code, x', evs) -> TR t x g log (code, x', evs).
Proof.
  intros XV Ha. unfold rmc_pub_timeout_process. rewrite Ha. pose proof XV as (sp & L & Q & X). unfold pub_get_timed_out_subscribers.
  destruct (timed_out_subs_ok _ now (x_resend x) _ _ _ (xi_pub _ _ _ _ _ _ _ X) (p_subs (x_pub x))) as (subs & -> & Hi). cbn [bind]. intros E.
  assert (S : safe t (subs_loop x now subs) (TR t x g log)).
  { apply (subs_loop_inv t now subs x g log XV). intros n Hn'. apply (vi_reg _ _ (xi_vec _ _ _ _ _ _ _ X)). rewrite <- (i_subs _ _ _ _ (xi_pub _ _ _ _ _ _ _ X)). exact (Hi n Hn'). }
  rewrite E in S. exact S.
Qed.

(** The clock never goes back, and is not negative: the times of the datagrams on the log. *)
Definition clock_ok (log : list pev) : Prop := StronglySorted Z.le (0 :: flat_map cast_ts log).

Lemma clock_pops : forall pops t, StronglySorted Z.le (t :: flat_map time_of pops) -> clock_from t pops.
Proof.
  induction pops as [|o pops IH]; intros t S; [exact Logic.I|]. destruct o as [s|s|q|q|ts|s k]; cbn [clock_from flat_map time_of app] in *; try (apply IH; exact S).
  inversion S as [|? ? S1 S2]; subst. split; [inversion S2; assumption|apply IH; exact S1].
Qed.
Lemma ctx_run x g log : XInv false x g log -> clock_ok log -> exists pops outs, after pops (x_pub x) outs /\ clock_from 0 pops.
Proof.
  intros (sp & L & Q & X) C. destruct (xi_his _ _ _ _ _ _ _ X) as (pops & outs & H1 & H2 & _ & _ & _ & Ht). exists pops, outs. split; [split; assumption|].
  apply clock_pops. rewrite Ht. exact C.
Qed.
(** With such a clock what was sent later is owed since a later time. *)
Lemma owed_order x g log i k k' ts ts' : XInv false x g log -> clock_ok log -> owed x i k ts -> owed x i k' ts' -> k <= k' -> ts <= ts'.
Proof.
  intros (sp & L & Q & X) C H H' Hk. pose proof (xi_pub _ _ _ _ _ _ _ X) as I. apply (owed_inv _ _ _ _ _ _ _ I) in H, H'.
  destruct (xi_his _ _ _ _ _ _ _ X) as (pops & outs & H1 & H2 & H3 & _ & _ & Ht).
  assert (Cf : clock_from 0 pops) by (apply clock_pops; rewrite Ht; exact C).
  destruct (clock_run pops spec_init 0) as (t' & _ & [S1 _]); [split; constructor|exact Cf|]. rewrite H3 in S1. cbn [fst] in S1.
  destruct H as (e & He & E1 & E2 & _), H' as (e' & He' & E1' & E2' & _).
  pose proof (SSapp_l _ _ _ (i_sort _ _ _ _ I)) as S0. clear - He He' E1 E1' E2 E2' S0 S1 Hk. subst.
  induction (sp_live sp) as [|y l IH]; [destruct He|]. cbn [map] in *. inversion S0 as [|? ? A1 A2]; inversion S1 as [|? ? B1 B2]; subst.
  rewrite Forall_map, Forall_forall in A2, B2. destruct He as [->|He], He' as [->|He']; [lia|apply B2; assumption| |auto]. specialize (A2 e He). cbn in A2. lia.
Qed.

(** ** C43. Timeouts *)
(** The reported time is the earliest deadline; -1 exactly when there is none. *)
Theorem c43_next_timeout_exact : forall x g log, reached x g log -> clock_ok log -> 0 <= x_resend x -> 0 <= x_anext x ->
  exists m, rmc_pub_timeout_get_next x = Ok m /\
    (m = -1 <-> x_anext x = 0 /\ forall i k ts, 0 <= i -> ~ owed x i k ts) /\
    (m <> -1 -> (m = x_anext x /\ x_anext x <> 0) \/ exists i k ts, 0 <= i /\ owed x i k ts /\ m = ts + x_resend x) /\
    (x_anext x <> 0 -> m <= x_anext x) /\ (forall i k ts, 0 <= i -> owed x i k ts -> m <= ts + x_resend x).
Proof.
  intros x g log H C Hr Ha. apply reached_inv in H. pose proof H as (sp & L & Q & X). pose proof (xi_pub _ _ _ _ _ _ _ X) as I.
  destruct (ctx_run _ _ _ H C) as (pops & outs & Af & Cf). destruct (c21_oldest_unacked _ _ _ Af Cf) as (m & E & Hm).
  assert (F : forall z, In z (map v_ts (all_flight (x_pub x))) <-> exists i k, 0 <= i /\ owed x i k z).
  { intros z. rewrite in_map_iff. unfold all_flight. split.
    - intros (v & <- & Hv). apply in_flat_map in Hv. destruct Hv as (n & Hn & Hv). unfold flight in Hv. apply in_map_iff in Hv. destruct Hv as (a & <- & Hv).
      exists (Z.of_nat n), (pid_of (x_pub x) a). split; [lia|]. apply owed_at. rewrite Nat2Z.id. exists a. split; [exact Hv|]. split; [reflexivity|].
      unfold ts_of, view_at. destruct (p_packs (x_pub x) a); reflexivity.
    - intros (i & k & Hi & Ho). pose proof Ho as Ho'. apply (owed_inv _ _ _ _ _ _ _ I) in Ho'. apply owed_at in Ho. destruct Ho as (a & Hin & _ & <-).
      exists (view_at (x_pub x) a). split; [unfold ts_of, view_at; destruct (p_packs (x_pub x) a); reflexivity|]. apply in_flat_map. exists (Z.to_nat i). split.
      + rewrite (i_subs _ _ _ _ I). exact (proj2 (claim_pid_range _ _ _ _ _ _ _ I Ho')).
      + apply in_map. exact Hin. }
  unfold rmc_pub_timeout_get_next. rewrite E. cbn [bind]. destruct (all_flight (x_pub x)) as [|v l] eqn:Ef.
  - subst m. cbn [map] in F. assert (N : forall i k ts, 0 <= i -> ~ owed x i k ts) by (intros i k ts Hi Ho; apply (F ts); eauto).
    change (-1 =? -1) with true. cbn [andb negb]. destruct (Z.eqb_spec (x_anext x) 0) as [E0|E0]; cbn [andb].
    + exists (-1). split; [reflexivity|]. split; [tauto|]. split; [congruence|]. split; [congruence|]. intros i k ts Hi Ho. destruct (N _ _ _ Hi Ho).
    + replace (x_anext x =? -1) with false by lia. cbn [andb negb]. exists (x_anext x). split; [reflexivity|]. split; [split; [lia|tauto]|]. split; [auto|]. split; [lia|].
      intros i k ts Hi Ho. destruct (N _ _ _ Hi Ho).
  - destruct Hm as (Hm0 & Hmi & Hml). assert (Hmi2 := Hmi). apply F in Hmi2. destruct Hmi2 as (i0 & k0 & Hi0 & Ho0).
    assert (Hl : forall i k ts, 0 <= i -> owed x i k ts -> m <= ts).
    { intros i k ts Hi Ho. assert (In ts (map v_ts (v :: l))) as Hin by (apply F; eauto). apply in_map_iff in Hin. destruct Hin as (w & <- & Hw). exact (Hml w Hw). }
    replace (m =? -1) with false by lia. replace (m + x_resend x =? -1) with false by lia. cbn [andb negb]. rewrite !andb_false_r, ?andb_true_r.
    destruct (Z.eqb_spec (x_anext x) 0) as [E0|E0].
    + change (-1 =? -1) with true. exists (m + x_resend x). split; [reflexivity|]. split; [split; [lia|intros [_ N]; destruct (N _ _ _ Hi0 Ho0)]|].
      split; [right; eauto 6|]. split; [congruence|]. intros i k ts Hi Ho. specialize (Hl _ _ _ Hi Ho). lia.
    + replace (x_anext x =? -1) with false by lia. destruct (Z.ltb_spec (m + x_resend x) (x_anext x)).
      * exists (m + x_resend x). split; [reflexivity|]. split; [split; [lia|tauto]|]. split; [right; eauto 6|]. split; [lia|]. intros i k ts Hi Ho. specialize (Hl _ _ _ Hi Ho). lia.
      * exists (x_anext x). split; [reflexivity|]. split; [split; [lia|tauto]|]. split; [auto|]. split; [lia|]. intros i k ts Hi Ho. specialize (Hl _ _ _ Hi Ho). lia.
Qed.

(** Subscriber [i] owes something, and all of it is due. *)
Definition all_due (x : pctx) (now i : Z) : Prop := forall k ts, owed x i k ts -> ts + x_resend x <= now.
Lemma resendable_due x g log now i k : XInv false x g log -> clock_ok log -> resendable x now i k <-> owes x i k /\ all_due x now i.
Proof.
  intros XV C. rewrite owes_owed. unfold resendable, all_due. split.
  - intros ((ts & Ho) & Hn & _). split; [eauto|]. intros k' ts' Ho'. destruct (Z.le_gt_cases k k') as [Hk|Hk]; [exact (Hn _ _ Ho' Hk)|].
    specialize (Hn _ _ Ho (Z.le_refl k)). assert (ts' <= ts) by (apply (owed_order x g log i k' k ts' ts XV C Ho' Ho); lia). lia.
  - intros [(ts & Ho) Hd]. split; [eauto|]. split; [eauto|]. destruct XV as (sp & L & Q & X). pose proof (xi_pub _ _ _ _ _ _ _ X) as I.
    pose proof (sinf_sorted _ _ _ _ (Z.to_nat i) I) as SS. destruct (last_opt (p_sinf (x_pub x) (Z.to_nat i))) as [a|] eqn:El.
    + destruct (SS_gt_min _ _ _ SS El) as [Hia Hma]. exists (pid_of (x_pub x) a), (ts_of (x_pub x) a). assert (Ha : owed x i (pid_of (x_pub x) a) (ts_of (x_pub x) a)) by (apply owed_at; eauto).
      split; [exact Ha|]. split; [|exact (Hd _ _ Ha)]. intros k' Hk. unfold owes in Hk. apply in_map_iff in Hk. destruct Hk as (b & <- & Hb). exact (Hma b Hb).
    + unfold last_opt in El. destruct (rev (p_sinf (x_pub x) (Z.to_nat i))) eqn:Er; [|discriminate El].
      apply owed_at in Ho. destruct Ho as (b & Hb & _). apply in_rev in Hb. rewrite Er in Hb. destruct Hb.
Qed.
(** What processing does when no announce is due: it handles the subscribers all of whose
    packets are due, all of them unless some ring is full, and touches nothing else. *)
Theorem c43_processing_exact_partial : forall x g log now buf o code x' evs, reached x g log -> clock_ok log -> announce_due x now = false ->
  rmc_pub_timeout_process x now buf o = Ok (code, x', evs) ->
  (forall i k ts, 0 <= i -> owed x' i k ts -> owed x i k ts) /\
  (forall i k ts, 0 <= i -> owed x i k ts -> owed x' i k ts \/ all_due x now i) /\
  (code = 0 -> forall i, 0 <= i -> all_due x now i -> forall k ts, ~ owed x' i k ts) /\
  (code = 0 \/ code = EAGAIN /\ exists i k ts, 0 <= i /\ all_due x now i /\ owed x' i k ts).
Proof.
  intros x g log now buf o code x' evs H C Ha E. apply reached_inv in H. destruct (timeout_pr _ _ _ _ _ _ _ _ _ _ H Ha E) as (d & (P1 & P2 & P3) & _ & R & Cd).
  split; [intros i k ts Hi Ho; apply P3 in Ho; tauto|]. split; [|split].
  - intros i k ts Hi Ho. destruct (in_dec Z.eq_dec k (ids (d i))) as [Hin|Hin]; [right; apply (resendable_due x g log now i k H C); apply R; assumption|left; apply P3; auto].
  - intros -> i Hi Hd k ts Ho. apply P3 in Ho; [|exact Hi]. destruct Ho as [Ho N]. destruct Cd as [[_ Cd]|[? _]]; [|discriminate]. apply N, Cd; [exact Hi|].
    apply (resendable_due x g log now i k H C). split; [|exact Hd]. apply owes_owed. eauto.
  - destruct Cd as [[-> _]|[-> (i & k & Hi & Hr & N)]]; [left; reflexivity|right]. split; [reflexivity|]. apply (resendable_due x g log now i k H C) in Hr.
    destruct Hr as [Ho Hd]. apply owes_owed in Ho. destruct Ho as [ts Ho]. exists i, k, ts. split; [exact Hi|]. split; [exact Hd|]. apply P3; auto.
Qed.
(** So one packet that is not yet due keeps every older one from being resent: at the reported
    time nothing happens, and the same time is reported again. *)
Definition owedb (x : pctx) (i k ts : Z) : bool :=
  existsb (fun a => (pid_of (x_pub x) a =? k) && (ts_of (x_pub x) a =? ts)) (p_sinf (x_pub x) (Z.to_nat i)).
Lemma owedb_owed x i k ts : owedb x i k ts = true -> owed x i k ts.
Proof. unfold owedb. rewrite existsb_exists. intros (a & Ha & E). apply owed_at. exists a. split; [exact Ha|]. lia. Qed.
Definition c43_ops : list xop :=
  [XActivate (ActOk 3 4 0); XRead RMC_LISTEN_INDEX (RdAccept (AccOk 5 1 0) None);
   XAlloc 100 [10; 11]; XAlloc 200 [20; 21; 22]; XQueue 100 2 false; XWrite 0 (WrMcast [SndOk 1000]); XQueue 200 3 false; XWrite 0 (WrMcast [SndOk 60000])].
Definition is_ok (r : res Z) (m : Z) : bool := match r with Ok z => z =? m | _ => false end.
Lemma is_ok_eq r m : is_ok r m = true -> r = Ok m.
Proof. destruct r; cbn; try discriminate. intros H. f_equal. lia. Qed.
Definition listb (a b : list Z) : bool := if list_eq_dec Z.eq_dec a b then true else false.
Lemma listb_eq a b : listb a b = true -> a = b.
Proof. unfold listb. destruct (list_eq_dec Z.eq_dec a b); [auto|discriminate]. Qed.
Theorem c43_progress_refuted : exists x g log, xhist demo0 c43_ops x g log /\ clock_ok log /\ owed x 0 1 1000 /\
  rmc_pub_timeout_get_next x = Ok 101000 /\
  (exists x', rmc_pub_timeout_process x 101000 900 AnnNone = Ok (0, x', []) /\ rmc_pub_timeout_get_next x' = Ok 101000) /\
  (forall now buf o code x' evs, now < 160000 -> rmc_pub_timeout_process x now buf o = Ok (code, x', evs) -> owed x' 0 1 1000).
Proof.
  destruct (xcheck_hist demo0 c43_ops (fun x g log => owedb x 0 1 1000 && owedb x 0 2 60000 && (x_aint x =? 0) && (x_resend x =? 100000) &&
    listb (flat_map cast_ts log) [1000; 60000] && is_ok (rmc_pub_timeout_get_next x) 101000 &&
    (match rmc_pub_timeout_process x 101000 900 AnnNone with Ok (0, x', []) => is_ok (rmc_pub_timeout_get_next x') 101000 | _ => false end))) as (x & g & log & H & E); [vm_compute; reflexivity|].
  exists x, g, log. bool_split.
  repeat match goal with H : listb _ _ = true |- _ => apply listb_eq in H | H : owedb _ _ _ _ = true |- _ => apply owedb_owed in H | H : is_ok _ _ = true |- _ => apply is_ok_eq in H end.
  split; [exact H|]. assert (C : clock_ok log) by (unfold clock_ok; replace (flat_map cast_ts log) with [1000; 60000]; repeat constructor; lia).
  split; [exact C|]. split; [assumption|]. split; [assumption|]. split.
  { destruct (rmc_pub_timeout_process x 101000 900 AnnNone) as [[[[|?|?] y] [|? ?]]| | |]; try discriminate. exists y. split; [reflexivity|]. apply is_ok_eq. assumption. }
  intros now buf o code x' evs Hn Ep. assert (Ha : announce_due x now = false) by (unfold announce_due; replace (x_aint x =? 0) with true by lia; reflexivity).
  assert (R : reached x g log) by (exists demo0, c43_ops; split; [exact demo0_fresh|exact H]).
  destruct (c43_processing_exact_partial x g log now buf o code x' evs R C Ha Ep) as (_ & K & _).
  match goal with H1 : owed x 0 1 1000, H2 : owed x 0 2 60000 |- _ => destruct (K 0 1 1000 ltac:(lia) H1) as [K1|K1]; [exact K1|specialize (K1 _ _ H2); lia] end.
Qed.

(** ** C44. Announces *)
Lemma queued_spec x sp L Q : Inv (x_pub x) sp L Q -> queued x = rev (map (fun q => (fst q, pl2 (snd q))) (map (fun p => (0, p)) (sp_ann sp) ++ sp_data sp)).
Proof. intros I. rewrite (queued_inv _ _ _ _ I), <- (i_Q _ _ _ _ I), map_map. reflexivity. Qed.
(** The application's choice: the payload length of the announce; [None]: no announce. *)
Definition announced (o : ann_res) : option Z :=
  match o with AnnNone => Some 0 | AnnNo => None | AnnYes _ len => Some (Z.min len RMC_MAX_PAYLOAD) end.
(** When the announce time has come: one announce is queued unless the callback refuses or
    traffic is suspended; the next one is scheduled one interval later in any case; nothing
    else changes. *)
Theorem c44_announce_due : forall x g log now buf o code x' evs, reached x g log -> xok x g (XTimeout now buf o) ->
  x_aint x <> 0 -> x_anext x <> 0 -> x_anext x <= now ->
  rmc_pub_timeout_process x now buf o = Ok (code, x', evs) ->
  code = 0 /\ x_aint x' = x_aint x /\ x_anext x' = now + x_aint x /\
  flying x' = flying x /\ x_vec x' = x_vec x /\ (forall p, x_mem x' p = x_mem x p) /\ (forall i k ts, owed x' i k ts <-> owed x i k ts) /\
  match announced o with
  | Some len => if rmc_pub_traffic_suspended x =? 0 then Permutation (queued x') ((0, (buf, len)) :: queued x) else queued x' = queued x
  | None => queued x' = queued x
  end.
Proof.
  intros x g log now buf o code x' evs H Hok H1 H2 H3. apply reached_inv in H. destruct H as (sp & L & Q & X). pose proof (xi_pub _ _ _ _ _ _ _ X) as I.
  destruct Hok as (Hb & Hmb & Ho). unfold rmc_pub_timeout_process, announce_due.
  replace (x_aint x =? 0) with false by lia. replace (x_anext x =? 0) with false by lia. replace (x_anext x - now <=? 0) with true by lia. cbn [negb andb].
  assert (Hmem : forall bs p, updz (updz (x_mem x) buf (Some bs)) buf None p = x_mem x p).
  { intros bs p. destruct (Z.eq_dec p buf) as [->|N]; [rewrite updz_same; auto|]. rewrite !updz_other by exact N. reflexivity. }
  assert (Go : forall bs len1, 0 <= len1 <= RMC_MAX_PAYLOAD ->
      (do r <- rmc_pub_queue_packet (set_mem x (updz (x_mem x) buf (Some bs))) buf len1 true;
       let '(_, x2, evs) := r in
       Ok (0, set_mem (set_ann x2 (x_aint x2) (if negb (x_aint x2 =? 0) then now + x_aint x2 else 0))
                (updz (x_mem (set_ann x2 (x_aint x2) (if negb (x_aint x2 =? 0) then now + x_aint x2 else 0))) buf None), evs)) = Ok (code, x', evs) ->
      code = 0 /\ x_aint x' = x_aint x /\ x_anext x' = now + x_aint x /\ flying x' = flying x /\ x_vec x' = x_vec x /\ (forall p, x_mem x' p = x_mem x p) /\
      (forall i k ts, owed x' i k ts <-> owed x i k ts) /\
      if rmc_pub_traffic_suspended x =? 0 then Permutation (queued x') ((0, (buf, len1)) :: queued x) else queued x' = queued x).
  { intros bs len1 Hl E. unfold rmc_pub_traffic_suspended. destruct (x_susp x) eqn:Es.
    - unfold rmc_pub_queue_packet in E. cbn [set_mem x_susp] in E. replace (buf =? 0) with false in E by lia. replace (RMC_MAX_PAYLOAD <? len1) with false in E by lia.
      rewrite Es in E. cbn [bind] in E. injection E as <- <- <-. cbn [set_mem set_ann x_aint x_anext x_vec x_mem]. replace (x_aint x =? 0) with false by lia. cbn [negb].
      change (EBUSY =? 0) with false. cbv iota. do 5 (split; [reflexivity|]). split; [apply Hmem|]. split; [reflexivity|reflexivity].
    - destruct (queue_ann_xi false x g log sp L Q buf len1 (g_pin g) (updz (x_mem x) buf (Some bs)) X Hb Hl Es ltac:(auto) ltac:(apply incl_refl) ltac:(discriminate))
        as (x2 & Q' & ev & E2 & _ & X2 & _ & _ & Em & _ & S).
      rewrite E2 in E. cbn [bind] in E. injection E as <- <- <-. cbn [set_mem set_ann x_aint x_anext x_vec x_mem]. destruct S as (S1 & _ & _ & _ & _ & S6 & _).
      rewrite S6, Em. replace (x_aint x =? 0) with false by lia. cbn [negb]. change (0 =? 0) with true. cbv iota.
      pose proof (xi_pub _ _ _ _ _ _ _ X2) as I2. cbn [set_mem x_pub] in I2.
      match goal with |- context [flying ?z] => set (y := z) end. assert (Iy : Inv (x_pub y) (fst (spec_step sp (OpAnnounce (buf, len1, 0)))) L Q') by exact I2.
      do 3 (split; [reflexivity|]). split; [rewrite (flying_inv _ _ _ _ Iy), (flying_inv _ _ _ _ I); reflexivity|]. split; [exact S1|]. split; [apply Hmem|].
      split; [intros i k ts; rewrite (owed_inv _ _ _ _ _ _ _ Iy), (owed_inv _ _ _ _ _ _ _ I); reflexivity|].
      rewrite (queued_spec _ _ _ _ Iy), (queued_spec _ _ _ _ I). cbn [spec_step fst sp_ann sp_data]. rewrite <- !Permutation_rev, !map_app. cbn [map app fst snd pl2 ptr_of len_of].
      rewrite <- app_assoc. symmetry. apply Permutation_middle. }
  destruct o as [| |bs len]; cbn [announced].
  - cbv zeta. change (RMC_MAX_PAYLOAD <? 0) with false. apply (Go [] 0). unfold RMC_MAX_PAYLOAD; lia.
  - cbn [bind]. intros E. injection E as <- <- <-. cbn [set_mem set_ann x_aint x_anext x_vec x_mem]. replace (x_aint x =? 0) with false by lia. cbn [negb].
    do 5 (split; [reflexivity|]). split; [apply Hmem|]. split; reflexivity.
  - cbn in Ho. unfold is_u16 in Ho. cbv zeta. replace (if RMC_MAX_PAYLOAD <? len then RMC_MAX_PAYLOAD else len) with (Z.min len RMC_MAX_PAYLOAD) by (destruct (Z.ltb_spec RMC_MAX_PAYLOAD len); lia).
    apply Go. unfold RMC_MAX_PAYLOAD; lia.
Qed.
(** Before that time, and with interval 0, none is queued and the schedule stays. *)
Theorem c44_not_due : forall x g log now buf o code x' evs, reached x g log ->
  (x_aint x = 0 \/ x_anext x = 0 \/ now < x_anext x) ->
  rmc_pub_timeout_process x now buf o = Ok (code, x', evs) ->
  queued x' = queued x /\ x_aint x' = x_aint x /\ x_anext x' = x_anext x.
Proof.
  intros x g log now buf o code x' evs H Hd E. apply reached_inv in H.
  assert (Ha : announce_due x now = false) by (unfold announce_due; destruct (Z.eqb_spec (x_aint x) 0), (Z.eqb_spec (x_anext x) 0), (Z.leb_spec (x_anext x - now) 0); cbn [negb andb]; try reflexivity; lia).
  destruct (timeout_tr _ _ _ _ _ _ _ _ _ _ H Ha E) as (_ & (_ & _ & _ & _ & Ei & En & _) & _ & _ & _ & Eq). auto.
Qed.
(** Setting the interval: 0 switches announces off; otherwise the first one is due one
    interval from now unless one is scheduled already. *)
Theorem c44_set_interval : forall x interval now,
  let x' := rmc_pub_set_announce_interval x interval now in
  x_aint x' = interval /\
  (interval = 0 -> forall t buf o, announce_due x' t = false /\ rmc_pub_timeout_process x' t buf o = rmc_pub_timeout_process x' t buf AnnNo) /\
  (interval <> 0 -> x_anext x' = if x_anext x =? 0 then now + interval else x_anext x).
Proof.
  intros x interval now. unfold rmc_pub_set_announce_interval. cbn [set_ann x_aint x_anext]. split; [reflexivity|]. split.
  - intros -> t buf o. assert (A : forall y, announce_due (set_ann x 0 y) t = false) by (intros y; reflexivity). split; [apply A|]. unfold rmc_pub_timeout_process. rewrite !A. reflexivity.
  - intros Hi. replace (interval =? 0) with false by lia. cbn [negb andb]. reflexivity.
Qed.
Definition c44_ops : list xop := demo_ops ++ [XInterval 500 1000].
Example c44_witness : exists x g log, xhist demo0 c44_ops x g log /\ x_aint x = 500 /\ x_anext x = 1500 /\ xok x g (XTimeout 1600 900 (AnnYes [1] 1)) /\
  exists x' evs, rmc_pub_timeout_process x 1600 900 (AnnYes [1] 1) = Ok (0, x', evs) /\ x_anext x' = 2100 /\ queued x' = [(3, (300, 1)); (0, (900, 1))].
Proof.
  destruct (xcheck_hist demo0 c44_ops (fun x g log => (x_aint x =? 500) && (x_anext x =? 1500) && xokb x g (XTimeout 1600 900 (AnnYes [1] 1)) &&
    (match rmc_pub_timeout_process x 1600 900 (AnnYes [1] 1) with Ok (code, x', evs) => (code =? 0) && (x_anext x' =? 2100) &&
       listb (map fst (queued x')) [3; 0] && listb (map (fun q => fst (snd q)) (queued x')) [300; 900] && listb (map (fun q => snd (snd q)) (queued x')) [1; 1] | _ => false end))) as (x & g & log & H & E); [vm_compute; reflexivity|].
  bool_split. destruct (rmc_pub_timeout_process x 1600 900 (AnnYes [1] 1)) as [[[code x'] evs]| | |] eqn:Ep; try discriminate. bool_split.
  exists x, g, log. split; [exact H|]. split; [lia|]. split; [lia|]. split; [apply xokb_ok; assumption|]. exists x', evs. split; [rewrite Ep; replace code with 0 by lia; reflexivity|]. split; [lia|].
  repeat match goal with H : listb _ _ = true |- _ => apply listb_eq in H end.
  destruct (queued x') as [|[? [? ?]] [|[? [? ?]] [|]]]; cbn [map fst snd] in *; try discriminate. congruence.
Qed.

(** ** C47. Dropped only after it was put on TCP *)
(** Whatever timeout processing does: for every open connection the packets that are no longer
    owed are exactly the packet commands appended, in order, to the unsent bytes of that
    connection's stream, newest first and each once; each carries the id and bytes of the packet. *)
Lemma cmds_ids node lip data l : Forall (fun m => exists k, packet_cmd node lip data k m) l -> Forall2 (packet_cmd node lip data) (ids l) l.
Proof.
  induction 1 as [|m l (k & p & port & -> & H1 & H2 & H3) _ IH]; [constructor|]. unfold ids. cbn [flat_map app]. constructor; [|exact IH]. cbn [h_pid]. exists p, port. auto.
Qed.
Theorem c47_dropped_only_after_resend : forall x g log now buf o code x' evs i c, reached x g log -> xok x g (XTimeout now buf o) ->
  rmc_pub_timeout_process x now buf o = Ok (code, x', evs) -> slot (x_vec x) i = Ok c -> c_mode c = CONNECTED ->
  exists c' ks cmds, slot (x_vec x') i = Ok c' /\ c_mode c' = CONNECTED /\ since_open i (log ++ evs) = since_open i log /\
    contents (c_wbuf c') = contents (c_wbuf c) ++ flat_map wire cmds /\
    Forall2 (packet_cmd (x_node x) (x_lip x) (g_data g)) ks cmds /\ StronglySorted Z.gt ks /\
    (forall k, In k ks -> owes x i k) /\ (forall k, owes x' i k <-> owes x i k /\ ~ In k ks).
Proof.
  intros x g log now buf o code x' evs i c H Hok E Hs Hm. pose proof H as XV. apply reached_inv in XV.
  assert (Hi : 0 <= i) by exact (proj1 (slot_range _ _ _ Hs)). destruct (announce_due x now) eqn:Ha.
  - pose proof Ha as Ha'. unfold announce_due in Ha'. bool_split.
    destruct (c44_announce_due x g log now buf o code x' evs H Hok ltac:(lia) ltac:(lia) ltac:(lia) E) as (_ & _ & _ & _ & Ev & _ & Ow & _).
    exists c, [], []. rewrite Ev. cbn [flat_map]. rewrite app_nil_r. split; [exact Hs|]. split; [exact Hm|]. split.
    + unfold rmc_pub_timeout_process in E. rewrite Ha in E. assert (Q : Forall (quiet i) evs); [|apply since_quiet; exact Q].
      assert (Qu : forall z p l b cd y e, rmc_pub_queue_packet z p l b = Ok (cd, y, e) -> Forall (quiet i) e).
      { clear. intros z p l b cd y e. unfold rmc_pub_queue_packet. destruct (p =? 0); [intros E; injection E as _ _ <-; constructor|]. destruct (_ <? l); [intros E; injection E as _ _ <-; constructor|].
        destruct (x_susp z); [intros E; injection E as _ _ <-; constructor|]. match goal with |- bind ?h _ = _ -> _ => destruct h as [[[s' pd] nd]| | |] end; cbn [bind]; try discriminate.
        intros E. injection E as _ _ <-. apply quiet_mod. }
      destruct o as [| |bs len]; cbn [bind] in E; [|injection E as _ _ <-; constructor|];
        match type of E with context [rmc_pub_queue_packet ?z ?bf ?l true] => destruct (rmc_pub_queue_packet z bf l true) as [[[cd y] ev]| | |] eqn:Eq end; cbn [bind] in E; try discriminate; injection E as _ _ <-; exact (Qu _ _ _ _ _ _ _ Eq).
    + split; [reflexivity|]. split; [constructor|]. split; [constructor|]. split; [intros k []|]. intros k. rewrite !owes_owed. split; [intros (ts & Ho); split; [exists ts; apply Ow; exact Ho|intros []]|intros [(ts & Ho) _]; exists ts; apply Ow; exact Ho].
  - destruct (timeout_pr _ _ _ _ _ _ _ _ _ _ XV Ha E) as (d & (P1 & P2 & P3) & G & R & _).
    destruct (P1 i c) as (c' & [Hs' Ho'] & Ec). { split; [exact Hs|rewrite Hm; discriminate]. }
    pose proof (timeout_tr _ _ _ _ _ _ _ _ _ _ XV Ha E) as ((sp' & L' & Q' & X') & _).
    exists c', (ids (d i)), (d i). split; [exact Hs'|]. split.
    { destruct (vi_mode _ _ (xi_vec _ _ _ _ _ _ _ X') i c' Hs') as (_ & _ & [M|M]); [contradiction|exact M]. }
    split; [apply since_quiet, calm_quiet; exact (timeout_calm _ _ _ _ _ _ _ Ha E)|].
    split; [exact Ec|]. split; [apply cmds_ids, P2|]. split; [exact (G i Hi)|]. split; [intros k Hk; apply owes_owed; exact (proj1 (R i k Hi Hk))|].
    intros k. rewrite !owes_owed. split; [intros (ts & Ho); apply P3 in Ho; [|exact Hi]; destruct Ho; split; [eauto|assumption]|intros [(ts & Ho) N]; exists ts; apply P3; auto].
Qed.
Example c47_witness : exists x g log, xhist demo0 demo_ops x g log /\ owes x 0 1 /\ owes x 0 2 /\ connected x 0 /\
  exists x' evs, xok x g (XTimeout 200000 900 AnnNone) /\ rmc_pub_timeout_process x 200000 900 AnnNone = Ok (0, x', evs) /\ p_sinf (x_pub x') 0 = [] /\
    exists c, slot (x_vec x') 0 = Ok c /\ zlen (contents (c_wbuf c)) = 47.
Proof.
  destruct (xcheck_hist demo0 demo_ops (fun x g log => owedb x 0 1 1000 && owedb x 0 2 2000 && (match slot (x_vec x) 0 with Ok c => c_mode c =? CONNECTED | _ => false end) &&
    xokb x g (XTimeout 200000 900 AnnNone) &&
    (match rmc_pub_timeout_process x 200000 900 AnnNone with Ok (code, x', evs) => (code =? 0) && Nat.eqb (length (p_sinf (x_pub x') 0)) 0 &&
       (match slot (x_vec x') 0 with Ok c => zlen (contents (c_wbuf c)) =? 47 | _ => false end) | _ => false end))) as (x & g & log & H & E); [vm_compute; reflexivity|].
  bool_split. destruct (rmc_pub_timeout_process x 200000 900 AnnNone) as [[[code x'] evs]| | |] eqn:Ep; try discriminate. bool_split.
  exists x, g, log. split; [exact H|]. split; [apply owes_owed; exists 1000; apply owedb_owed; assumption|]. split; [apply owes_owed; exists 2000; apply owedb_owed; assumption|].
  destruct (slot (x_vec x) 0) as [c| | |] eqn:Es; try discriminate. split; [exists c; split; [exact Es|lia]|].
  exists x', evs. split; [apply xokb_ok; assumption|]. split; [rewrite Ep; replace code with 0 by lia; reflexivity|].
  split; [destruct (p_sinf (x_pub x') 0); [reflexivity|discriminate]|]. destruct (slot (x_vec x') 0) as [c'| | |]; try discriminate. exists c'. split; [reflexivity|lia].
Qed.

(** ** C45. The pending report *)
Fixpoint total (f : Z -> Z) (n : nat) : Z := match n with O => 0 | S n => total f n + f (Z.of_nat n) end.
(** Packets connection [i] has still to acknowledge, and bytes not yet handed to its socket. *)
Definition unacked_at (x : pctx) (i : Z) : Z :=
  match slot (x_vec x) i with Ok c => if c_mode c =? CLOSED then 0 else zlen (p_sinf (x_pub x) (Z.to_nat i)) | _ => 0 end.
Definition unsent_at (x : pctx) (i : Z) : Z :=
  match slot (x_vec x) i with Ok c => if c_mode c =? CLOSED then 0 else zlen (contents (c_wbuf c)) | _ => 0 end.
Lemma zlen_nn {A} (l : list A) : 0 <= zlen l. Proof. unfold zlen. lia. Qed.
Lemma pending_loop_spec x g log : XInv false x g log -> forall n ind b a y, 0 <= ind -> is_u32 a -> is_u32 y -> exists b',
  pending_loop n x ind (b, a, y) = Ok (b', u32 (a + total (fun j => unacked_at x (ind + j)) n), u32 (y + total (fun j => unsent_at x (ind + j)) n)) /\
  (b' = true <-> b = true \/ exists j, ind <= j < ind + Z.of_nat n /\ (0 < unacked_at x j \/ 0 < unsent_at x j)).
Proof.
  intros (sp & L & Q & X). assert (Sh : forall f m, total f (S m) = f 0 + total (fun j => f (1 + j)) m).
  { intros f m. induction m as [|m IH]; [cbn; lia|]. change (total f (S (S m))) with (total f (S m) + f (Z.of_nat (S m))). rewrite IH.
    change (total (fun j => f (1 + j)) (S m)) with (total (fun j => f (1 + j)) m + f (1 + Z.of_nat m)). replace (Z.of_nat (S m)) with (1 + Z.of_nat m) by lia. lia. }
  induction n as [|n IH]; intros ind b a y Hi Ha Hy; cbn [pending_loop].
  - exists b. cbn [total]. rewrite !Z.add_0_r, !u32_small by assumption. split; [reflexivity|]. split; [auto|]. intros [H|(j & Hj & _)]; [exact H|lia].
  - assert (Rec : forall f, total (fun j => f (ind + j)) (S n) = f ind + total (fun j => f (ind + 1 + j)) n).
    { intros f. rewrite Sh. rewrite Z.add_0_r. f_equal. induction n as [|m IHm]; [reflexivity|]. cbn [total].
      assert (E : forall m, total (fun j => f (ind + (1 + j))) m = total (fun j => f (ind + 1 + j)) m) by (clear; intros m; induction m as [|m IH]; [reflexivity|cbn [total]; rewrite IH, Z.add_assoc; reflexivity]).
      rewrite E, Z.add_assoc. reflexivity. }
    rewrite (Rec (unacked_at x)), (Rec (unsent_at x)).
    destruct (find_index_cases (x_vec x) ind Hi) as [[-> Hn]|(c & -> & Hs & Hm)]; cbn [bind].
    + assert (U : unacked_at x ind = 0 /\ unsent_at x ind = 0).
      { unfold unacked_at, unsent_at. destruct (slot (x_vec x) ind) as [c| | |] eqn:Es; auto. destruct (Z.eqb_spec (c_mode c) CLOSED); [auto|]. destruct (Hn c). split; assumption. }
      destruct U as [U1 U2]. rewrite U1, U2. destruct (IH (ind + 1) b a y ltac:(lia) Ha Hy) as (b' & E & Hb). exists b'. split; [exact E|]. rewrite Hb.
      split; (intros [H|(j & Hj & H)]; [auto|]); right; exists j; (split; [|exact H]).
      * lia.
      * destruct (Z.eq_dec j ind) as [->|]; [rewrite U1, U2 in H; lia|lia].
    + destruct (vi_ring _ _ (xi_vec _ _ _ _ _ _ _ X) ind c Hs) as [Hw Hz].
      assert (Ep : pending_send c = zlen (contents (c_wbuf c))).
      { unfold pending_send. rewrite (contents_len _ Hw). apply u16_small. pose proof (in_use_bounds _ Hw). rewrite Hz in *. unfold RMC_MAX_PACKET, is_u16 in *. lia. }
      assert (Hcl : (c_mode c =? CLOSED) = false) by lia.
      assert (U1 : unacked_at x ind = zlen (p_sinf (x_pub x) (Z.to_nat ind))) by (unfold unacked_at; rewrite Hs, Hcl; reflexivity).
      assert (U2 : unsent_at x ind = zlen (contents (c_wbuf c))) by (unfold unsent_at; rewrite Hs, Hcl; reflexivity).
      rewrite Ep, <- U1, <- U2.
      match goal with |- context [pending_loop n x (ind + 1) (?bb, _, _)] => destruct (IH (ind + 1) bb (u32 (a + unacked_at x ind)) (u32 (y + unsent_at x ind)) ltac:(lia) (u32_range _) (u32_range _)) as (b' & E & Hb) end.
      exists b'. split.
      * rewrite E. unfold u32. rewrite !Zplus_mod_idemp_l, !Z.add_assoc. reflexivity.
      * rewrite Hb, !orb_true_iff, !negb_true_iff. pose proof (zlen_nn (p_sinf (x_pub x) (Z.to_nat ind))) as Z1. pose proof (zlen_nn (contents (c_wbuf c))) as Z2. split.
        -- intros [[[H|H]|H]|(j & Hj & H)]; [auto| | |]; right; [exists ind; lia|exists ind; lia|exists j; split; [lia|exact H]].
        -- intros [H|(j & Hj & H)]; [auto|]. destruct (Z.eq_dec j ind) as [->|]; [left|right; exists j; split; [lia|exact H]]. destruct H; [left; right|right]; lia.
Qed.
Theorem c45_pending_exact : forall x g log, reached x g log -> zlen (queued x) < 4294967296 ->
  exists code, rmc_pub_context_get_pending x =
      Ok (code, zlen (queued x), u32 (total (unacked_at x) (length (v_conns (x_vec x)))), u32 (total (unsent_at x) (length (v_conns (x_vec x))))) /\
    (code = EBUSY \/ code = 0) /\
    (code = EBUSY <-> queued x <> [] \/
       exists i c, slot (x_vec x) i = Ok c /\ c_mode c = CONNECTED /\ ((exists k, owes x i k) \/ contents (c_wbuf c) <> [])).
Proof.
  intros x g log H Hq. apply reached_inv in H. pose proof H as (sp & L & Q & X). pose proof (xi_vec _ _ _ _ _ _ _ X) as V.
  assert (Eq : pub_queue_size (x_pub x) = zlen (queued x)).
  { unfold pub_queue_size. replace (zlen (queued x)) with (zlen (p_queued (x_pub x))) in * by (unfold queued, zlen; rewrite map_length; reflexivity). apply u32_small. unfold is_u32, zlen in *. lia. }
  assert (Op : forall j, (0 < unacked_at x j \/ 0 < unsent_at x j) <-> exists c, slot (x_vec x) j = Ok c /\ c_mode c = CONNECTED /\ ((exists k, owes x j k) \/ contents (c_wbuf c) <> [])).
  { intros j. unfold unacked_at, unsent_at. destruct (slot (x_vec x) j) as [c| | |] eqn:Es; try (split; [lia|intros (c & ? & _); discriminate]).
    destruct (vi_mode _ _ V j c Es) as (_ & _ & Hm). split.
    - destruct (Z.eqb_spec (c_mode c) CLOSED); [lia|]. destruct Hm as [Hm|Hm]; [contradiction|]. intros Hp. exists c. split; [reflexivity|]. split; [exact Hm|].
      destruct Hp as [Hp|Hp]; [left|right; intros E; rewrite E in Hp; change (zlen (@nil Z)) with 0 in Hp; lia].
      unfold owes. destruct (p_sinf (x_pub x) (Z.to_nat j)) as [|a l]; [unfold zlen in Hp; cbn in Hp; lia|]. eexists. left. reflexivity.
    - intros (c' & E & Hm' & Hp). injection E as <-. rewrite Hm'. change (CONNECTED =? CLOSED) with false. cbv iota. destruct Hp as [(k & Hk)|Hp].
      + left. unfold owes in Hk. destruct (p_sinf (x_pub x) (Z.to_nat j)); [destruct Hk|unfold zlen; cbn; lia].
      + right. destruct (contents (c_wbuf c)); [congruence|unfold zlen; cbn; lia]. }
  assert (Hb : (0 <? zlen (queued x)) = true <-> queued x <> []).
  { destruct (queued x); unfold zlen; cbn; [split; [discriminate|congruence]|split; [discriminate|intros _; reflexivity]]. }
  (* closed beyond the maximum *)
  assert (Tot : forall f m n, (m <= n)%nat -> (forall j, Z.of_nat m <= j -> f j = 0) -> total f n = total f m).
  { intros f m n Hmn Hf. induction Hmn as [|n Hmn IH]; [reflexivity|]. cbn [total]. rewrite IH, Hf by lia. lia. }
  assert (Z0 : forall j, (v_max (x_vec x) = RMC_NIL_INDEX \/ v_max (x_vec x) < j) -> unacked_at x j = 0 /\ unsent_at x j = 0).
  { intros j Hj. unfold unacked_at, unsent_at. destruct (slot (x_vec x) j) as [c| | |] eqn:Es; auto. destruct (Z.eqb_spec (c_mode c) CLOSED) as [|N]; [auto|exfalso].
    destruct (vi_mode _ _ V j c Es) as (D & _). destruct (vi_max _ _ V) as [_ M]. destruct (M j c Es) as [M1 M2]; [rewrite D; exact N|]. destruct Hj; [contradiction|lia]. }
  unfold rmc_pub_context_get_pending, get_max_index_in_use. rewrite Eq. destruct (Z.eqb_spec (v_max (x_vec x)) RMC_NIL_INDEX) as [Em|Em]; cbn [bind].
  - rewrite (Tot (unacked_at x) O _ ltac:(lia) (fun j _ => proj1 (Z0 j (or_introl Em)))), (Tot (unsent_at x) O _ ltac:(lia) (fun j _ => proj2 (Z0 j (or_introl Em)))). cbn [total]. change (u32 0) with 0.
    eexists. split; [reflexivity|]. split; [destruct (_ <? _); auto|].
    assert (N : ~ exists i c, slot (x_vec x) i = Ok c /\ c_mode c = CONNECTED /\ ((exists k, owes x i k) \/ contents (c_wbuf c) <> [])).
    { intros (i & Hx). apply Op in Hx. destruct (Z0 i (or_introl Em)) as [E1 E2]. rewrite E1, E2 in Hx. lia. }
    destruct (0 <? zlen (queued x)); [split; [intros _; left; apply Hb; reflexivity|auto]|]. split; [discriminate|]. intros [Hx|Hx]; [apply Hb in Hx; discriminate|contradiction].
  - destruct (vi_max _ _ V) as [[M|M] _]; [contradiction|].
    destruct (pending_loop_spec x g log H (Z.to_nat (v_max (x_vec x) + 1)) 0 (0 <? zlen (queued x)) 0 0 ltac:(lia) ltac:(unfold is_u32; lia) ltac:(unfold is_u32; lia)) as (b' & E & Hb').
    rewrite E. cbn [bind]. rewrite !Z.add_0_l. change (fun j => unacked_at x (0 + j)) with (unacked_at x). change (fun j => unsent_at x (0 + j)) with (unsent_at x).
    assert (Hn : (Z.to_nat (v_max (x_vec x) + 1) <= length (v_conns (x_vec x)))%nat) by (unfold v_size, zlen in M; lia).
    rewrite (Tot (unacked_at x) _ _ Hn) by (intros j Hj; apply Z0; right; lia). rewrite (Tot (unsent_at x) _ _ Hn) by (intros j Hj; apply Z0; right; lia).
    eexists. split; [reflexivity|]. split; [destruct b'; auto|].
    transitivity (b' = true); [destruct b'; split; auto; discriminate|]. rewrite Hb', Hb. split; (intros [Hx|Hx]; [auto|right]).
    + destruct Hx as (j & _ & Hx). apply Op in Hx. eauto.
    + destruct Hx as (i & Hx). apply Op in Hx. exists i. split; [|exact Hx].
      assert (0 <= i). { apply Op in Hx. destruct Hx as (c & Es & _). exact (proj1 (slot_range _ _ _ Es)). }
      destruct (Z.le_gt_cases i (v_max (x_vec x))); [lia|]. destruct (Z0 i) as [E1 E2]; [right; lia|]. rewrite E1, E2 in Hx. lia.
Qed.
Example c45_witness : exists x g log, xhist demo0 demo_ops x g log /\ rmc_pub_context_get_pending x = Ok (EBUSY, 1, 4, 0).
Proof.
  destruct (xcheck_hist demo0 demo_ops (fun x g log => match rmc_pub_context_get_pending x with Ok (c, q, a, b) => listb [c; q; a; b] [EBUSY; 1; 4; 0] | _ => false end)) as (x & g & log & H & E); [vm_compute; reflexivity|].
  exists x, g, log. split; [exact H|]. destruct (rmc_pub_context_get_pending x) as [[[[c q] a] b]| | |]; try discriminate. apply listb_eq in E. congruence.
Qed.
