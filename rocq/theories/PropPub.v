(** PropPub.v — properties C12..C22 (pub.c). *)
From Coq Require Import Sorting.Sorted.
From Verif Require Import Base ListHeap SeqList Pub SpecPub PubProofs PubTrace.

(** [s] is the publisher state, [outs] the observable results, after the calls [ops]. *)
Definition after (ops : list pub_op) (s : pub) (outs : list pub_out) : Prop :=
  legal spec_init ops /\ pub_run pub_init ops = Ok (s, outs).

Lemma after_inv ops s outs : after ops s outs ->
  exists L Q, Inv s (fst (spec_run spec_init ops)) L Q /\ outs = snd (spec_run spec_init ops).
Proof.
  intros [Hl Hr]. destruct (inv_reach ops Hl) as (s' & L & Q & E & I). rewrite E in Hr. injection Hr as <- <-.
  exists L, Q. auto.
Qed.

(** Any legal history runs without undefined behaviour, failed assert or endless loop, and
    its observable results are those of the specification machine of SpecPub.v. *)
Theorem c12_c18_pub_refines_spec : forall ops, legal spec_init ops ->
  exists s, pub_run pub_init ops = Ok (s, snd (spec_run spec_init ops)).
Proof. intros ops H. destruct (inv_reach ops H) as (s & L & Q & E & _). exists s. exact E. Qed.

Definition demo : list pub_op :=
  [OpSubscribe 7; OpSubscribe 8; OpQueue (100, 3, 0); OpQueue (101, 4, 0); OpAnnounce (102, 0, 0);
   OpSend 10; OpSend 11; OpSend 12; OpAck 7 1; OpSend 13; OpAck 9 1; OpAck 8 1; OpUnsubscribe 8;
   OpQueue (103, 5, 0); OpSend 20; OpUnsubscribe 7].
Lemma demo_legal : legal spec_init demo.
Proof. vm_compute. repeat split; intuition congruence. Qed.
Definition demo_outs : list pub_out :=
  [OutNone; OutNone; OutPid 1; OutPid 2; OutPid 0; OutSent (Some (0, (102, 0, 0)));
   OutSent (Some (1, (100, 3, 0))); OutSent (Some (2, (101, 4, 0))); OutFreed []; OutSent None;
   OutFreed []; OutFreed [(100, 3, 0)]; OutFreed []; OutPid 3; OutSent (Some (3, (103, 5, 0)));
   OutFreed [(101, 4, 0); (103, 5, 0)]].
Example c12_c18_nonvacuous : legal spec_init demo /\ exists s, pub_run pub_init demo = Ok (s, demo_outs).
Proof. split; [exact demo_legal|]. exact (c12_c18_pub_refines_spec demo demo_legal). Qed.

(** C12. The k-th data packet gets id k; announces get id 0 and consume no id. *)
Theorem c12_ids_consecutive : forall ops1 o ops2 s outs, after (ops1 ++ o :: ops2) s outs ->
  match o with
  | OpQueue _ => nth_error outs (length ops1) = Some (OutPid (1 + zlen (queued_data ops1)))
  | OpAnnounce _ => nth_error outs (length ops1) = Some (OutPid 0)
  | _ => True
  end.
Proof.
  intros ops1 o ops2 s outs H. destruct (after_inv _ _ _ H) as (L & Q & _ & ->).
  rewrite spec_run_app, spec_run_cons. cbn [snd].
  rewrite <- (spec_run_len ops1 spec_init).
  destruct o; auto; rewrite nth_error_app2, Nat.sub_diag by lia; cbn [nth_error spec_step snd]; [|reflexivity].
  rewrite next_run. reflexivity.
Qed.
Example c12_nonvacuous : exists s outs, after (firstn 3 demo ++ OpQueue (101, 4, 0) :: skipn 4 demo) s outs /\
  zlen (queued_data (firstn 3 demo)) = 1.
Proof. destruct (c12_c18_pub_refines_spec demo demo_legal) as [s E]. exists s, (snd (spec_run spec_init demo)). split; [split; [exact demo_legal|exact E]|reflexivity]. Qed.

(** C12, the end of the id space: the id counter is 64 bits wide and wraps to 0, so data
    packet number 2^64 would be queued with the announce id 0. *)
Theorem c12_id_counter_wraps : forall s p len u, p_next s = 18446744073709551615 -> p <> 0 ->
  (forall a, In a (p_queued s) -> p_packs s a <> None) ->
  exists s' a, pub_queue_packet s p len u = Ok (s', 18446744073709551615, a) /\ p_next s' = 0.
Proof.
  intros s p len u Hn Hp Hq. unfold pub_queue_packet, pub_queue_with_pid. cbn [p_queued p_packs].
  replace (p =? 0) with false by lia. rewrite check_live_ok by exact Hq. cbn [bind]. rewrite Hn.
  eexists. eexists. split; [reflexivity|]. reflexivity.
Qed.
Example c12_wrap_nonvacuous : p_next (mkPub (fun _ => None) 0 [] [] [] (fun _ => []) 18446744073709551615) = 18446744073709551615.
Proof. reflexivity. Qed.

(** C13. Packets leave in queueing order, each once, announces first. *)
Theorem c13_sent_in_order : forall ops s outs, after ops s outs ->
  exists waiting_data waiting_ann,
    number 1 (queued_data ops) = sent_data outs ++ waiting_data /\
    queued_ann ops = sent_ann outs ++ waiting_ann /\
    pub_queue_size s = u32 (zlen waiting_data + zlen waiting_ann) /\
    forall ts, exists s', pub_step s (OpSend ts) = Ok (s',
      OutSent (match waiting_ann, waiting_data with
               | p :: _, _ => Some (0, p)
               | [], q :: _ => Some q
               | [], [] => None
               end)).
Proof.
  intros ops s outs H. destruct (after_inv _ _ _ H) as (L & Q & I & ->).
  destruct (fifo_run ops spec_init pos_init) as [F1 F2]. cbn [spec_init sp_data sp_ann sp_next app] in F1, F2.
  exists (sp_data (fst (spec_run spec_init ops))), (sp_ann (fst (spec_run spec_init ops))).
  split; [exact F1|]. split; [exact F2|]. split.
  - unfold pub_queue_size. f_equal. rewrite (inv_queued I). unfold zlen. rewrite rev_length, map_length.
    rewrite <- (map_length snd Q), (i_Q _ _ _ _ I), app_length, map_length. lia.
  - intros ts. destruct (inv_step s _ L Q (OpSend ts) I Logic.I) as (s' & L' & Q' & E & _).
    exists s'. rewrite E. cbn [spec_step].
    destruct (sp_ann _) as [|a r]; [|reflexivity]. destruct (sp_data _) as [|[k p] r]; reflexivity.
Qed.
Example c13_nonvacuous : exists s outs, after (firstn 6 demo) s outs /\
  sent_data outs = [] /\ sent_ann outs = [(102, 0, 0)] /\ number 1 (queued_data (firstn 6 demo)) = [(1, (100,3,0)); (2, (101,4,0))].
Proof.
  assert (Hl : legal spec_init (firstn 6 demo)) by (vm_compute; repeat split; intuition congruence).
  destruct (c12_c18_pub_refines_spec _ Hl) as [s E]. exists s, (snd (spec_run spec_init (firstn 6 demo))).
  split; [split; [exact Hl|exact E]|]. vm_compute. auto.
Qed.

(** C14. *)
Theorem c14_refcount_is_number_of_holders : forall ops s outs, after ops s outs ->
  forall a, In a (p_inflight s) ->
  exists p, p_packs s a = Some p /\
    pk_ref p = zlen (filter (fun sub => mem a (p_sinf s sub)) (p_subs s)) /\
    forall sub, In a (p_sinf s sub) -> In sub (p_subs s) /\ 1 <= pk_ref p.
Proof.
  intros ops s outs H a Ha. destruct (after_inv _ _ _ H) as (L & Q & I & _).
  rewrite (inv_infl I), <- in_rev in Ha. apply in_map_fst in Ha. destruct Ha as [e He].
  assert (Hiff : forall sub, mem a (p_sinf s sub) = mem sub (e_hold e)).
  { intros sub. destruct (mem sub (e_hold e)) eqn:Em.
    - apply mem_In. rewrite (inv_sinf I), <- in_rev. apply (map_fst_in _ a e). apply filter_In. split; [exact He|exact Em].
    - apply mem_nIn. intros X. rewrite (inv_sinf I), <- in_rev in X. apply in_map_fst in X. destruct X as [f Hf].
      apply filter_In in Hf. destruct Hf as [Hf Hm]. rewrite (fst_inj L a f e (inv_ndL I) Hf He) in Hm.
      unfold holds in Hm. cbn in Hm. congruence. }
  destruct (i_hold _ _ _ _ I e (inv_entry_in I _ _ He)) as [Hnd Hinc].
  exists (pk_entry e). split; [exact (i_packL _ _ _ _ I _ _ He)|].
  assert (Hcount : zlen (filter (fun sub => mem a (p_sinf s sub)) (p_subs s)) = zlen (e_hold e)).
  { rewrite (filter_ext _ (fun sub => mem sub (e_hold e)) Hiff), (i_subs _ _ _ _ I).
    unfold zlen. f_equal. apply Nat.le_antisymm.
    - apply NoDup_incl_length; [apply NoDup_filter, (i_regnd _ _ _ _ I)|]. intros x Hx. apply filter_In in Hx. apply mem_In. tauto.
    - apply NoDup_incl_length; [exact Hnd|]. intros x Hx. apply filter_In. split; [exact (Hinc x Hx)|apply mem_In; exact Hx]. }
  split; [rewrite Hcount; reflexivity|].
  intros sub Hsub. apply mem_In in Hsub. rewrite Hiff in Hsub. apply mem_In in Hsub.
  split; [rewrite (i_subs _ _ _ _ I); exact (Hinc sub Hsub)|]. cbn.
  destruct (e_hold e); [destruct Hsub|]. rewrite zlen_cons. pose proof (zlen_nonneg l). lia.
Qed.
Example c14_nonvacuous : exists s outs, after (firstn 9 demo) s outs /\ p_inflight s = [1%nat; 0%nat] /\
  p_sinf s 7%nat = [1%nat] /\ p_sinf s 8%nat = [1%nat; 0%nat].
Proof.
  eexists. eexists. split; [split|].
  - vm_compute. repeat split; intuition congruence.
  - vm_compute. reflexivity.
  - vm_compute. auto.
Qed.

(** C15/C16. The fate of a data packet's payload: it is released exactly once, and at the
    moment when the last of the subscribers registered when it was sent has acknowledged it
    or left; if nobody was registered it is never released.  Since this holds for every
    history it holds for every prefix, which fixes the moment. *)
Definition all_gave_up (k : Z) (ops : list pub_op) (subs : list nat) : bool :=
  forallb (fun s => gave_up s k ops) subs.
Lemma still_nil k ops H : still k ops H = [] <-> all_gave_up k ops H = true.
Proof.
  unfold still, all_gave_up. induction H as [|x H IH]; cbn [filter forallb]; [tauto|].
  destruct (gave_up x k ops); cbn [negb andb]; [exact IH|]. split; discriminate.
Qed.
Lemma cnt_pos p l : In p l <-> (1 <= cnt p l)%nat.
Proof. unfold cnt. rewrite (count_occ_In pl_eq_dec). lia. Qed.

Theorem c15_c16_release_exactly_when_all_gave_up :
  forall ops1 ts ops2 s outs k p, after (ops1 ++ OpSend ts :: ops2) s outs ->
  nth_error outs (length ops1) = Some (OutSent (Some (k, p))) -> k <> 0 ->
  cnt p (queued_data (ops1 ++ OpSend ts :: ops2)) = 1%nat ->
  cnt p (frees outs) =
    if all_gave_up k ops2 (registered ops1) && negb (Nat.eqb (length (registered ops1)) 0) then 1%nat else 0%nat.
Proof.
  intros ops1 ts ops2 s outs k p H Hn Hk Hc. destruct (after_inv _ _ _ H) as (L & Q & _ & ->).
  pose proof (conserve_run (ops1 ++ OpSend ts :: ops2) p spec_init) as Hcons. rewrite Hc in Hcons.
  change (in_system p spec_init) with O in Hcons. cbn [plus] in Hcons.
  set (F := frees (snd (spec_run spec_init (ops1 ++ OpSend ts :: ops2)))) in *.
  assert (Hsp : snd (spec_step (fst (spec_run spec_init ops1)) (OpSend ts)) = OutSent (Some (k, p))).
  { rewrite spec_run_app, spec_run_cons in Hn. cbn [snd] in Hn.
    rewrite nth_error_app2, spec_run_len, Nat.sub_diag in Hn by (rewrite spec_run_len; lia). cbn [nth_error] in Hn. injection Hn as Hn. exact Hn. }
  pose proof (send_step _ ts k p (pos_run ops1 _ pos_init) Hsp Hk) as Hin.
  rewrite reg_run in Hin. change (registered_from (sp_reg spec_init) ops1) with (registered ops1) in Hin.
  assert (Hfin : fst (spec_run spec_init (ops1 ++ OpSend ts :: ops2)) =
                 fst (spec_run (fst (spec_step (fst (spec_run spec_init ops1)) (OpSend ts))) ops2)).
  { rewrite spec_run_app, spec_run_cons. reflexivity. }
  assert (Hlive : forall e, In e (sp_live (fst (spec_run spec_init (ops1 ++ OpSend ts :: ops2)))) -> e_pl e = p -> cnt p F = 0%nat).
  { intros e He Hp. assert (1 <= in_system p (fst (spec_run spec_init (ops1 ++ OpSend ts :: ops2))))%nat; [|lia].
    unfold in_system. assert (1 <= cnt p (map e_pl (sp_live (fst (spec_run spec_init (ops1 ++ OpSend ts :: ops2))))))%nat; [|lia].
    apply cnt_pos. apply in_map_iff. exists e. auto. }
  destruct (registered ops1) as [|r0 rs] eqn:Er.
  - cbn [length Nat.eqb negb]. rewrite andb_false_r. apply (Hlive (mkE k p ts [])); [|reflexivity].
    rewrite Hfin. apply track_nobody. exact Hin.
  - cbn [length Nat.eqb negb]. rewrite andb_true_r.
    destruct (track_run ops2 _ k p ts (r0 :: rs) Hin ltac:(discriminate)) as [T1 T2].
    destruct (all_gave_up k ops2 (r0 :: rs)) eqn:Eg.
    + apply still_nil in Eg. specialize (T2 Eg).
      assert (1 <= cnt p F)%nat; [|lia]. apply cnt_pos. unfold F. rewrite spec_run_app, spec_run_cons. cbn [snd].
      unfold frees. rewrite flat_map_app. cbn [flat_map]. apply in_or_app. right. apply in_or_app. right. exact T2.
    + assert (Hs : still k ops2 (r0 :: rs) <> []). { intros X. apply still_nil in X. congruence. }
      apply (Hlive _ (eq_ind_r (fun x => In _ (sp_live x)) (T1 Hs) Hfin)). reflexivity.
Qed.

Lemma number_in p l : In p l -> forall n, exists k, In (k, p) (number n l).
Proof.
  induction l as [|q l IH]; intros H n; [destruct H|]. cbn [number]. destruct H as [->|H].
  - exists n. left. reflexivity.
  - destruct (IH H (n + 1)) as [k Hk]. exists k. right. exact Hk.
Qed.

(** The payload of a data packet that was not handed to the network is not released. *)
Theorem c15_not_before_sent : forall ops s outs p, after ops s outs ->
  cnt p (queued_data ops) = 1%nat -> (forall k, ~ In (k, p) (sent_data outs)) -> cnt p (frees outs) = 0%nat.
Proof.
  intros ops s outs p H Hc Hn. destruct (after_inv _ _ _ H) as (L & Q & _ & ->).
  pose proof (conserve_run ops p spec_init) as Hcons. rewrite Hc in Hcons.
  change (in_system p spec_init) with O in Hcons. cbn [plus] in Hcons.
  destruct (fifo_run ops spec_init pos_init) as [F1 _]. cbn [spec_init sp_data sp_next app] in F1.
  assert (Hin : In p (queued_data ops)) by (apply cnt_pos; lia).
  destruct (number_in p _ Hin 1) as [k Hk]. rewrite F1 in Hk. apply in_app_or in Hk. destruct Hk as [Hk|Hk]; [exfalso; exact (Hn k Hk)|].
  assert (1 <= in_system p (fst (spec_run spec_init ops)))%nat; [|lia]. unfold in_system.
  assert (1 <= cnt p (map snd (sp_data (fst (spec_run spec_init ops)))))%nat; [|lia].
  apply cnt_pos. apply in_map_iff. exists (k, p). auto.
Qed.

(** Also when the same payload is queued several times: never more releases than data
    packets queued with it. *)
Theorem c15_at_most_once : forall ops s outs p, after ops s outs ->
  (cnt p (frees outs) <= cnt p (queued_data ops))%nat.
Proof.
  intros ops s outs p H. destruct (after_inv _ _ _ H) as (L & Q & _ & ->).
  pose proof (conserve_run ops p spec_init) as Hcons. change (in_system p spec_init) with O in Hcons. lia.
Qed.
Lemma demo_after n : legal spec_init (firstn n demo) -> exists s, after (firstn n demo) s (snd (spec_run spec_init (firstn n demo))).
Proof. intros H. destruct (c12_c18_pub_refines_spec _ H) as [s E]. exists s. split; assumption. Qed.
Example c15_c16_nonvacuous : exists s,
  after (firstn 6 demo ++ OpSend 11 :: skipn 7 demo) s demo_outs /\
  nth_error demo_outs 6 = Some (OutSent (Some (1, (100, 3, 0)))) /\
  cnt (100, 3, 0) (queued_data demo) = 1%nat /\ cnt (100, 3, 0) (frees demo_outs) = 1%nat /\
  all_gave_up 1 (skipn 7 demo) (registered (firstn 6 demo)) = true /\ registered (firstn 6 demo) = [7%nat; 8%nat].
Proof.
  destruct (c12_c18_pub_refines_spec demo demo_legal) as [s E]. exists s. split; [split; [exact demo_legal|exact E]|].
  vm_compute. repeat split.
Qed.

(** C16 refuted for the empty subscriber set: a data packet sent while nobody is registered
    is in flight for nobody, and yet its payload is never released, whatever happens later,
    and it counts as unacknowledged for ever. *)
Theorem c16_no_subscriber_never_released_refuted : forall ops1 ts ops2 s outs k p,
  after (ops1 ++ OpSend ts :: ops2) s outs ->
  nth_error outs (length ops1) = Some (OutSent (Some (k, p))) -> k <> 0 ->
  cnt p (queued_data (ops1 ++ OpSend ts :: ops2)) = 1%nat -> registered ops1 = [] ->
  cnt p (frees outs) = 0%nat /\ exists a q, In a (p_inflight s) /\ p_packs s a = Some q /\ pk_pid q = k /\
    pk_ref q = 0 /\ forall sub, ~ In a (p_sinf s sub).
Proof.
  intros ops1 ts ops2 s outs k p H Hn Hk Hc Hr. split.
  - rewrite (c15_c16_release_exactly_when_all_gave_up _ _ _ _ _ _ _ H Hn Hk Hc), Hr. cbn [length Nat.eqb negb].
    rewrite andb_false_r. reflexivity.
  - destruct (after_inv _ _ _ H) as (L & Q & I & ->).
    assert (Hsp : snd (spec_step (fst (spec_run spec_init ops1)) (OpSend ts)) = OutSent (Some (k, p))).
    { rewrite spec_run_app, spec_run_cons in Hn. cbn [snd] in Hn.
      rewrite nth_error_app2, spec_run_len, Nat.sub_diag in Hn by (rewrite spec_run_len; lia).
      cbn [nth_error] in Hn. injection Hn as Hn. exact Hn. }
    pose proof (send_step _ ts k p (pos_run ops1 _ pos_init) Hsp Hk) as Hin.
    rewrite reg_run in Hin. change (registered_from (sp_reg spec_init) ops1) with (registered ops1) in Hin.
    rewrite Hr in Hin. apply (track_nobody ops2) in Hin.
    rewrite spec_run_app, spec_run_cons in I. cbn [fst] in I.
    rewrite <- (i_L _ _ _ _ I) in Hin. apply in_map_iff in Hin. destruct Hin as ([a e] & He & Ha). cbn [snd] in He. subst e.
    exists a. eexists. split; [|split; [exact (i_packL _ _ _ _ I _ _ Ha)|split; [reflexivity|split; [reflexivity|]]]].
    + rewrite (inv_infl I), <- in_rev. exact (map_fst_in _ _ _ Ha).
    + intros sub X. rewrite (inv_sinf I), <- in_rev in X. apply in_map_fst in X. destruct X as [f Hf].
      apply filter_In in Hf. destruct Hf as [Hf Hm]. rewrite (fst_inj L a f _ (inv_ndL I) Hf Ha) in Hm. discriminate.
Qed.
Example c16_refuted_witness : exists s outs,
  after ([OpQueue (100, 3, 0)] ++ OpSend 5 :: [OpSubscribe 7; OpAck 7 1; OpUnsubscribe 7]) s outs /\
  nth_error outs 1 = Some (OutSent (Some (1, (100, 3, 0)))) /\ frees outs = [] /\ pub_unacked_count s = 1.
Proof.
  eexists. eexists. split; [split|].
  - vm_compute. intuition congruence.
  - vm_compute. reflexivity.
  - vm_compute. auto.
Qed.

(** What is in flight for a subscriber, newest first: id, payload, send time. *)
Definition view_at (s : pub) (a : nat) : Z * pl * Z :=
  match p_packs s a with
  | Some q => (pk_pid q, (pk_payload q, pk_len q, pk_user q), pk_ts q)
  | None => (0, (0, 0, 0), 0)
  end.
Definition flight (s : pub) (sub : nat) : list (Z * pl * Z) := map (view_at s) (p_sinf s sub).
Definition v_pid (x : Z * pl * Z) : Z := fst (fst x).
Definition v_pl (x : Z * pl * Z) : pl := snd (fst x).
Definition v_ts (x : Z * pl * Z) : Z := snd x.
(** [sub] is the only registered subscriber for which the packet with that id is in flight. *)
Definition only_holder (s : pub) (sub : nat) (x : Z * pl * Z) : bool :=
  forallb (fun o => Nat.eqb o sub || negb (existsb (fun y => v_pid y =? v_pid x) (flight s o))) (p_subs s).

Definition e_view (e : entry) : Z * pl * Z := (e_pid e, e_pl e, e_ts e).
Lemma flight_inv s sp L Q sub : Inv s sp L Q ->
  flight s sub = rev (map e_view (filter (fun e => mem sub (e_hold e)) (sp_live sp))).
Proof.
  intros I. unfold flight. rewrite (inv_sinf I), map_rev, map_map. f_equal. rewrite <- (i_L _ _ _ _ I).
  pose proof (i_packL _ _ _ _ I) as HP. revert HP. clear I. induction L as [|[a e] L IH]; intros HP; [reflexivity|].
  cbn [map filter snd]. unfold holds at 1. cbn [snd].
  specialize (IH (fun b f H => HP b f (or_intror H))).
  destruct (mem sub (e_hold e)); cbn [map fst]; [|exact IH]. rewrite IH. f_equal.
  unfold view_at. rewrite (HP a e (or_introl eq_refl)). destruct (e_pl e) as [[x y] z] eqn:E. unfold e_view, pk_entry. cbn. rewrite E. reflexivity.
Qed.
Lemma pid_inj s sp L Q e f : Inv s sp L Q -> In e (sp_live sp) -> In f (sp_live sp) -> e_pid e = e_pid f -> e = f.
Proof.
  intros I. pose proof (SSapp_l _ _ _ (i_sort _ _ _ _ I)) as HS. revert HS. clear I.
  induction (sp_live sp) as [|g l IH]; [intros _ []|]. cbn [map]. intros HS. inversion HS as [|? ? H1 H2]; subst.
  rewrite Forall_forall in H2.
  intros [->|He] [->|Hf] E; auto.
  - specialize (H2 (e_pid f) (in_map _ _ _ Hf)). lia.
  - specialize (H2 (e_pid e) (in_map _ _ _ He)). lia.
Qed.
Lemma only_holder_inv s sp L Q sub e : Inv s sp L Q -> In e (sp_live sp) ->
  only_holder s sub (e_view e) = unclaimed (drop_claim sub e).
Proof.
  intros I He. unfold only_holder, unclaimed. cbn [drop_claim e_hold]. rewrite (i_subs _ _ _ _ I).
  assert (Hx : forall o, existsb (fun y => v_pid y =? v_pid (e_view e)) (flight s o) = mem o (e_hold e)).
  { intros o. rewrite (flight_inv _ _ _ _ o I). apply eq_true_iff_eq. rewrite existsb_exists, mem_In. split.
    - intros (y & Hy & E). rewrite <- in_rev in Hy. apply in_map_iff in Hy. destruct Hy as (f & <- & Hf).
      apply filter_In in Hf. destruct Hf as [Hf Hm]. rewrite (pid_inj _ _ _ _ e f I He Hf); [apply mem_In; exact Hm|].
      unfold v_pid, e_view in E. cbn in E. lia.
    - intros Hm. exists (e_view e). split; [|apply Z.eqb_refl]. rewrite <- in_rev. apply in_map. apply filter_In.
      split; [exact He|apply mem_In; exact Hm]. }
  destruct (rm sub (e_hold e)) as [|o r] eqn:Er.
  - apply forallb_forall. intros o _. rewrite Hx. destruct (Nat.eqb_spec o sub) as [->|Hne]; [reflexivity|]. cbn [orb].
    apply negb_true_iff, mem_nIn. intros Hin. assert (X : In o (rm sub (e_hold e))) by (apply In_rm; auto).
    rewrite Er in X. destruct X.
  - apply not_true_iff_false. intros F. rewrite forallb_forall in F.
    assert (X : In o (rm sub (e_hold e))) by (rewrite Er; left; reflexivity). apply In_rm in X. destruct X as [X1 X2].
    specialize (F o (proj2 (i_hold _ _ _ _ I e He) o X1)). rewrite Hx in F.
    replace (Nat.eqb o sub) with false in F by (symmetry; apply Nat.eqb_neq; exact X2).
    replace (mem o (e_hold e)) with true in F by (symmetry; apply mem_In; exact X1). discriminate.
Qed.

Lemma release_flight_other sub o sel live : o <> sub ->
  map e_view (filter (fun e => mem o (e_hold e)) (fst (release sub sel live))) =
  map e_view (filter (fun e => mem o (e_hold e)) live).
Proof.
  intros Hne. induction live as [|e live IH]; [reflexivity|]. rewrite release_cons. cbn [fst filter].
  rewrite filter_app, map_app, IH. destruct (hit sub sel e); cbn [app filter map].
  - unfold left_over, unclaimed. cbn [drop_claim e_hold].
    assert (E : mem o (rm sub (e_hold e)) = mem o (e_hold e)) by (apply mem_rm_ne; exact Hne).
    destruct (rm sub (e_hold e)) as [|y r] eqn:Er.
    + cbn in E. rewrite <- E. reflexivity.
    + cbn [filter drop_claim e_hold]. rewrite Er, E. destruct (mem o (e_hold e)); reflexivity.
  - destruct (mem o (e_hold e)); reflexivity.
Qed.
Lemma release_flight_self sub sel live :
  map e_view (filter (fun e => mem sub (e_hold e)) (fst (release sub sel live))) =
  map e_view (filter (fun e => mem sub (e_hold e) && negb (sel e)) live).
Proof.
  induction live as [|e live IH]; [reflexivity|]. rewrite release_cons. cbn [fst filter].
  rewrite filter_app, map_app, IH. unfold hit. destruct (sel e); cbn [andb negb].
  - rewrite andb_false_r. destruct (mem sub (e_hold e)) eqn:Em; cbn [filter map app]; rewrite ?Em; cbn [map app]; [|reflexivity].
    unfold left_over, unclaimed. cbn [drop_claim e_hold]. destruct (rm sub (e_hold e)) as [|y r] eqn:Er; [reflexivity|].
    cbn [filter drop_claim e_hold]. rewrite mem_rm_eq. reflexivity.
  - rewrite andb_true_r. cbn [filter map app]. destruct (mem sub (e_hold e)); reflexivity.
Qed.
Lemma release_frees s sp L Q sub sel vsel : Inv s sp L Q -> (forall e, sel e = vsel (e_view e)) ->
  snd (release sub sel (sp_live sp)) = map v_pl (filter (only_holder s sub) (filter vsel (rev (flight s sub)))).
Proof.
  intros I Hs. rewrite (flight_inv _ _ _ _ sub I), rev_involutive.
  assert (HO : forall e, In e (sp_live sp) -> only_holder s sub (e_view e) = unclaimed (drop_claim sub e))
    by (intros; eapply only_holder_inv; eassumption).
  clear I L Q. induction (sp_live sp) as [|e live IH]; [reflexivity|]. rewrite release_cons. cbn [snd filter].
  rewrite IH by (intros; apply HO; right; assumption). unfold hit. rewrite Hs.
  specialize (HO e (or_introl eq_refl)).
  destruct (mem sub (e_hold e)); cbn [map filter]; destruct (vsel (e_view e)); cbn [andb filter app]; try reflexivity.
  rewrite HO. unfold let_go. destruct (unclaimed (drop_claim sub e)); reflexivity.
Qed.

Lemma filter_rev_ {X} (f : X -> bool) l : filter f (rev l) = rev (filter f l).
Proof. induction l as [|x l IH]; [reflexivity|]. cbn [rev filter]. rewrite filter_app, IH. cbn [filter]. destruct (f x); [reflexivity|apply app_nil_r]. Qed.
Lemma filter_view (g : Z * pl * Z -> bool) sub live :
  map e_view (filter (fun e => mem sub (e_hold e) && g (e_view e)) live) =
  filter g (map e_view (filter (fun e => mem sub (e_hold e)) live)).
Proof.
  induction live as [|e live IH]; [reflexivity|]. cbn [filter]. destruct (mem sub (e_hold e)); cbn [andb map filter].
  - destruct (g (e_view e)); cbn [map]; rewrite IH; reflexivity.
  - exact IH.
Qed.

(** C17. [k] is in flight for [sub] according to the history. *)
Definition in_flight_for (ops : list pub_op) (outs : list pub_out) (sub : nat) (k : Z) : Prop :=
  exists h1 ts h2 p, ops = h1 ++ OpSend ts :: h2 /\
    nth_error outs (length h1) = Some (OutSent (Some (k, p))) /\ k <> 0 /\
    In sub (registered h1) /\ gave_up sub k h2 = false.
Theorem c17_unknown_ack_harmless : forall ops s outs sub k, after ops s outs ->
  ~ in_flight_for ops outs sub k -> pub_packet_ack s sub k = Ok (s, []).
Proof.
  intros ops s outs sub k H Hn. destruct (after_inv _ _ _ H) as (L & Q & I & ->).
  apply (inv_ack_miss _ _ _ _ _ _ I). intros e He Hk Hs. apply Hn.
  destruct (holder_inv ops e sub He Hs) as (h1 & ts & h2 & H1 & H2 & H3 & H4).
  exists h1, ts, h2, (e_pl e). rewrite <- Hk. split; [exact H1|]. split; [exact H2|]. split; [|split; assumption].
  pose proof (i_pidr _ _ _ _ I) as HP. apply Forall_app in HP. destruct HP as [HP _]. rewrite Forall_forall in HP.
  specialize (HP (e_pid e) (in_map _ _ _ He)). lia.
Qed.
Example c17_nonvacuous : exists s outs, after (firstn 8 demo) s outs /\ length (p_inflight s) = 2%nat /\
  ~ in_flight_for (firstn 8 demo) outs 9 1 /\ in_flight_for (firstn 8 demo) outs 7 1.
Proof.
  assert (Hl : legal spec_init (firstn 8 demo)) by (vm_compute; intuition congruence).
  destruct (pub_run pub_init (firstn 8 demo)) as [[s outs]| | |] eqn:E; try (vm_compute in E; discriminate).
  exists s, outs. split; [split; [exact Hl|exact E]|]. vm_compute in E. injection E as <- <-. split; [reflexivity|]. split.
  - intros (h1 & ts & h2 & p & E1 & _ & _ & E2 & _). 
    assert (X : forall x, In x (registered h1) -> In (OpSubscribe x) (firstn 8 demo)).
    { rewrite E1. intros x Hx. apply in_or_app. left. clear -Hx. unfold registered in Hx.
      assert (G : forall r, In x (registered_from r h1) -> In x r \/ In (OpSubscribe x) h1).
      { clear Hx. induction h1 as [|o h IH]; intros r Hx; [left; exact Hx|]. cbn in Hx.
        destruct o; try (destruct (IH _ Hx) as [Y|Y]; [|right; right; exact Y]; auto).
        - apply in_app_or in Y. destruct Y as [Y|[->|[]]]; [auto|right; left; reflexivity].
        - apply In_rm in Y. tauto. }
      destruct (G [] Hx) as [[]|Y]. exact Y. }
    specialize (X _ E2). cbn in X. intuition congruence.
  - exists (firstn 6 demo), 11, [OpSend 12], (100, 3, 0). vm_compute. intuition congruence.
Qed.

(** What an acknowledgement does: the packet stops being in flight for that subscriber, nothing
    changes for any other subscriber, and its payload is released iff nobody else holds it. *)
Theorem c17_ack_effect : forall ops s outs sub k, after ops s outs ->
  exists s' fr, pub_packet_ack s sub k = Ok (s', fr) /\
    flight s' sub = filter (fun x => negb (v_pid x =? k)) (flight s sub) /\
    (forall o, o <> sub -> flight s' o = flight s o) /\
    p_subs s' = p_subs s /\ p_queued s' = p_queued s /\ p_next s' = p_next s /\
    fr = map v_pl (filter (only_holder s sub) (filter (fun x => v_pid x =? k) (rev (flight s sub)))).
Proof.
  intros ops s outs sub k H. destruct (after_inv _ _ _ H) as (L & Q & I & _).
  set (sp := fst (spec_run spec_init ops)) in *.
  destruct (inv_ack s sp L Q sub k I) as (s' & L' & fr & E & Es & I' & Hq & _ & _).
  exists s', fr. split; [exact E|]. revert Es I'. cbn [spec_step].
  pose proof (release_frees s sp L Q sub (fun e => e_pid e =? k) (fun x => v_pid x =? k) I (fun _ => eq_refl)) as HF.
  pose proof (release_flight_self sub (fun e => e_pid e =? k) (sp_live sp)) as HS.
  pose proof (fun o => release_flight_other sub o (fun e => e_pid e =? k) (sp_live sp)) as HO.
  destruct (release sub _ _) as [live fr'] eqn:Er. cbn [fst snd] in *. intros Es I'. injection Es as <-.
  split; [|split; [|split; [|split; [exact Hq|split]]]].
  - rewrite (flight_inv _ _ _ _ sub I'), (flight_inv _ _ _ _ sub I). cbn [sp_live]. rewrite HS.
    rewrite filter_rev_. f_equal. exact (filter_view (fun x => negb (v_pid x =? k)) sub (sp_live sp)).
  - intros o Ho. rewrite (flight_inv _ _ _ _ o I'), (flight_inv _ _ _ _ o I). cbn [sp_live]. rewrite (HO o Ho). reflexivity.
  - rewrite (i_subs _ _ _ _ I'), (i_subs _ _ _ _ I). reflexivity.
  - rewrite (i_next _ _ _ _ I'), (i_next _ _ _ _ I). reflexivity.
  - exact HF.
Qed.
Example c17_effect_nonvacuous : exists s outs, after (firstn 9 demo) s outs /\
  flight s 8 = [(2, (101, 4, 0), 12); (1, (100, 3, 0), 11)] /\ flight s 7 = [(2, (101, 4, 0), 12)] /\
  exists s', pub_packet_ack s 8 1 = Ok (s', [(100, 3, 0)]).
Proof.
  eexists. eexists. split; [split|].
  - vm_compute. repeat split; intuition congruence.
  - vm_compute. reflexivity.
  - vm_compute. split; [reflexivity|]. split; [reflexivity|]. eexists. reflexivity.
Qed.

(** C18. *)
Theorem c18_reset_releases_exactly_its_claims : forall ops s outs sub, after ops s outs ->
  In sub (p_subs s) ->
  exists s' fr, pub_reset_subscriber s sub = Ok (s', fr) /\
    flight s' sub = [] /\ ~ In sub (p_subs s') /\
    p_subs s' = remove Nat.eq_dec sub (p_subs s) /\
    (forall o, o <> sub -> flight s' o = flight s o) /\
    p_queued s' = p_queued s /\ p_next s' = p_next s /\
    fr = map v_pl (filter (only_holder s sub) (rev (flight s sub))).
Proof.
  intros ops s outs sub H Hin. destruct (after_inv _ _ _ H) as (L & Q & I & _).
  set (sp := fst (spec_run spec_init ops)) in *. rewrite (i_subs _ _ _ _ I) in Hin.
  destruct (inv_unsubscribe s sp L Q sub I Hin) as (s' & L' & fr & E & Es & I' & Hq & _ & Hs & _).
  exists s', fr. split; [exact E|]. revert Es I'. cbn [spec_step].
  pose proof (release_frees s sp L Q sub (fun e => true) (fun x => true) I (fun _ => eq_refl)) as HF.
  pose proof (fun o => release_flight_other sub o (fun e => true) (sp_live sp)) as HO.
  destruct (release sub _ _) as [live fr'] eqn:Er. cbn [fst snd] in *. intros Es I'. injection Es as <-.
  split; [unfold flight; rewrite Hs; reflexivity|].
  split; [rewrite (i_subs _ _ _ _ I'); cbn [sp_reg]; rewrite In_rm; tauto|].
  split; [rewrite (i_subs _ _ _ _ I'), (i_subs _ _ _ _ I); reflexivity|].
  split; [|split; [exact Hq|split]].
  - intros o Ho. rewrite (flight_inv _ _ _ _ o I'), (flight_inv _ _ _ _ o I). cbn [sp_live]. rewrite (HO o Ho). reflexivity.
  - rewrite (i_next _ _ _ _ I'), (i_next _ _ _ _ I). reflexivity.
  - rewrite HF. f_equal. f_equal. apply filter_all. reflexivity.
Qed.
Example c18_nonvacuous : exists s outs, after (firstn 9 demo) s outs /\ In 8%nat (p_subs s) /\
  flight s 8 = [(2, (101, 4, 0), 12); (1, (100, 3, 0), 11)] /\
  exists s', pub_reset_subscriber s 8 = Ok (s', [(100, 3, 0)]).
Proof.
  eexists. eexists. split; [split|].
  - vm_compute. repeat split; intuition congruence.
  - vm_compute. reflexivity.
  - vm_compute. split; [auto|]. split; [reflexivity|]. eexists. reflexivity.
Qed.

(** ** Timeouts *)
Lemma clock_reach ops t0 : clock_from t0 ops ->
  StronglySorted Z.le (map e_ts (sp_live (fst (spec_run spec_init ops)))).
Proof.
  intros H. destruct (clock_run ops spec_init t0) as (t' & _ & T & _); [split; constructor|exact H|exact T].
Qed.
Lemma SS_map_filter (f : entry -> bool) l : StronglySorted Z.le (map e_ts l) -> StronglySorted Z.le (map e_ts (filter f l)).
Proof.
  induction l as [|e l IH]; intros H; [constructor|]. cbn [map] in H. inversion H as [|? ? H1 H2]; subst. cbn [filter].
  destruct (f e); [|auto]. cbn [map]. constructor; [auto|]. apply Forall_forall. intros x Hx. apply in_map_iff in Hx.
  destruct Hx as (y & <- & Hy). apply filter_In in Hy. rewrite Forall_forall in H2. apply H2. apply in_map. tauto.
Qed.
(** With a clock that does not run backwards, what is in flight is ordered by send time. *)
Lemma flight_sorted ops s outs t0 sub : after ops s outs -> clock_from t0 ops ->
  StronglySorted Z.le (map v_ts (rev (flight s sub))).
Proof.
  intros H HC. destruct (after_inv _ _ _ H) as (L & Q & I & _).
  rewrite (flight_inv _ _ _ _ sub I), rev_involutive, map_map. apply (SS_map_filter _ _ (clock_reach _ _ HC)).
Qed.
Lemma flight_last s sp L Q sub : Inv s sp L Q ->
  match last_opt (p_sinf s sub), rev (flight s sub) with
  | None, [] => True
  | Some a, x :: _ => exists p, get_pack s a = Ok p /\ pk_ts p = v_ts x
  | _, _ => False
  end.
Proof.
  intros I. unfold last_opt, flight. rewrite <- map_rev. destruct (rev (p_sinf s sub)) as [|a r] eqn:E; cbn [map]; [exact Logic.I|].
  assert (Ha : In a (p_sinf s sub)) by (rewrite in_rev, E; left; reflexivity).
  apply (sinf_incl I), in_map_fst in Ha. destruct Ha as [e He].
  unfold get_pack, view_at, v_ts. rewrite (i_packL _ _ _ _ I _ _ He). eexists. split; reflexivity.
Qed.

Definition timed_out (now timeout : Z) (x : Z * pl * Z) : bool := v_ts x <=? now - timeout.

(** C19. *)
Theorem c19_timed_out_subscribers_exact : forall ops s outs t0 now timeout, after ops s outs -> clock_from t0 ops ->
  pub_get_timed_out_subscribers s now timeout =
  Ok (filter (fun sub => existsb (timed_out now timeout) (flight s sub)) (p_subs s)).
Proof.
  intros ops s outs t0 now timeout H HC. destruct (after_inv _ _ _ H) as (L & Q & I & _).
  unfold pub_get_timed_out_subscribers. induction (p_subs s) as [|sub subs IH]; [reflexivity|].
  cbn [timed_out_subs filter]. pose proof (flight_last _ _ _ _ sub I) as HL. pose proof (flight_sorted _ _ _ _ sub H HC) as HS.
  assert (Hx : existsb (timed_out now timeout) (flight s sub) = existsb (timed_out now timeout) (rev (flight s sub))).
  { apply eq_true_iff_eq. rewrite !existsb_exists. split; intros (x & Hx & Ht); exists x; split; auto; [rewrite <- in_rev|rewrite in_rev]; auto. }
  rewrite Hx. destruct (last_opt (p_sinf s sub)) as [a|], (rev (flight s sub)) as [|x r]; try tauto.
  - destruct HL as (p & -> & Hp). cbn [bind]. rewrite IH. cbn [bind].
    replace (existsb (timed_out now timeout) (x :: r)) with (pk_ts p + timeout <=? now); [reflexivity|].
    cbn [map] in HS. inversion HS as [|? ? _ HF]; subst. rewrite Forall_forall in HF.
    apply eq_true_iff_eq. rewrite existsb_exists. unfold timed_out. split.
    + intros E. exists x. split; [left; reflexivity|lia].
    + intros (y & [->|Hy] & E); [lia|]. specialize (HF _ (in_map v_ts _ _ Hy)). lia.
  - cbn [bind existsb]. rewrite IH. reflexivity.
Qed.
Lemma demo_clock : clock_from 0 demo. Proof. cbn. lia. Qed.
Example c19_nonvacuous : exists s outs, after (firstn 9 demo) s outs /\ clock_from 0 (firstn 9 demo) /\
  pub_get_timed_out_subscribers s 111 100 = Ok [8%nat] /\ pub_get_timed_out_subscribers s 110 100 = Ok [] /\
  pub_get_timed_out_subscribers s 112 100 = Ok [7%nat; 8%nat].
Proof.
  eexists. eexists. split; [split|].
  - vm_compute. repeat split; intuition congruence.
  - vm_compute. reflexivity.
  - split; [cbn; lia|]. vm_compute. auto.
Qed.

(** C20. Exactly what get_timed_out_packets returns: the longest run of timed-out packets
    starting from the NEWEST one, newest first. *)
Fixpoint take_while {X} (f : X -> bool) (l : list X) : list X :=
  match l with [] => [] | x :: r => if f x then x :: take_while f r else [] end.
Theorem c20_timed_out_packets_exact : forall ops s outs sub now timeout, after ops s outs ->
  exists l, pub_get_timed_out_packets s sub now timeout = Ok l /\
    map (view_at s) l = take_while (timed_out now timeout) (flight s sub).
Proof.
  intros ops s outs sub now timeout H. destruct (after_inv _ _ _ H) as (L & Q & I & _).
  unfold pub_get_timed_out_packets, flight.
  assert (HL : forall a, In a (p_sinf s sub) -> exists p, p_packs s a = Some p).
  { intros a Ha. apply (sinf_incl I), (inv_liveL I) in Ha. destruct (p_packs s a); [eauto|congruence]. }
  induction (p_sinf s sub) as [|a l IH]; [exists []; split; reflexivity|].
  destruct (HL a (or_introl eq_refl)) as [p Hp]. destruct (IH (fun b Hb => HL b (or_intror Hb))) as (l' & E & El).
  cbn [timed_out_packs map take_while]. unfold get_pack. rewrite Hp. cbn [bind].
  assert (Et : timed_out now timeout (view_at s a) = (pk_ts p + timeout <=? now)).
  { unfold timed_out, view_at, v_ts. rewrite Hp. cbn [snd]. lia. }
  rewrite Et. destruct (pk_ts p + timeout <=? now).
  - rewrite E. cbn [bind]. exists (a :: l'). split; [reflexivity|]. cbn [map]. rewrite El. reflexivity.
  - exists []. split; reflexivity.
Qed.
(** With a clock that does not run backwards it therefore returns every in-flight packet of
    the subscriber if even the newest has timed out, and otherwise nothing at all. *)
Theorem c20_all_or_nothing : forall ops s outs t0 sub now timeout, after ops s outs -> clock_from t0 ops ->
  exists l, pub_get_timed_out_packets s sub now timeout = Ok l /\
    map (view_at s) l = if forallb (timed_out now timeout) (flight s sub) then flight s sub else [].
Proof.
  intros ops s outs t0 sub now timeout H HC. destruct (c20_timed_out_packets_exact ops s outs sub now timeout H) as (l & E & El).
  exists l. split; [exact E|]. rewrite El. clear E El l.
  pose proof (flight_sorted _ _ _ _ sub H HC) as HS. rewrite map_rev in HS.
  destruct (flight s sub) as [|x r]; [reflexivity|]. cbn [take_while forallb].
  destruct (timed_out now timeout x) eqn:Ex; [|reflexivity]. cbn [andb].
  assert (HA : forall y, In y r -> timed_out now timeout y = true).
  { intros y Hy. cbn [map rev] in HS. pose proof (SSapp_lt _ _ _ (v_ts y) (v_ts x) HS) as K.
    assert (v_ts y <= v_ts x). { apply K; [rewrite <- in_rev; apply in_map; exact Hy|left; reflexivity]. }
    unfold timed_out in *. lia. }
  replace (forallb (timed_out now timeout) r) with true by (symmetry; apply forallb_forall; exact HA).
  f_equal. clear -HA. induction r as [|y r IH]; [reflexivity|]. cbn [take_while].
  rewrite (HA y (or_introl eq_refl)). f_equal. apply IH. intros z Hz. apply HA. right. exact Hz.
Qed.
(** The property as stated is false: a packet that timed out is not reported as long as a
    newer one has not, and those reported are newest first. *)
Theorem c20_timed_out_packets_refuted :
  exists ops s outs, after ops s outs /\ clock_from 0 ops /\
    flight s 7 = [(2, (101, 4, 0), 12); (1, (100, 3, 0), 11)] /\
    pub_get_timed_out_packets s 7 111 100 = Ok [] /\
    (exists l, pub_get_timed_out_packets s 7 112 100 = Ok l /\ map v_pid (map (view_at s) l) = [2; 1]).
Proof.
  exists (firstn 8 demo). eexists. eexists. split; [split|].
  - vm_compute. repeat split; intuition congruence.
  - vm_compute. reflexivity.
  - split; [cbn; lia|]. split; [reflexivity|]. split; [reflexivity|]. eexists. split; reflexivity.
Qed.

(** C21. All packets in flight, of all registered subscribers. *)
Definition all_flight (s : pub) : list (Z * pl * Z) := flat_map (flight s) (p_subs s).
Theorem c21_oldest_unacked : forall ops s outs, after ops s outs -> clock_from 0 ops ->
  exists m, pub_oldest_unacked s = Ok m /\
    match all_flight s with
    | [] => m = -1
    | _ => 0 <= m /\ In m (map v_ts (all_flight s)) /\ forall x, In x (all_flight s) -> m <= v_ts x
    end.
Proof.
  intros ops s outs H HC. destruct (after_inv _ _ _ H) as (L & Q & I & _).
  assert (HP : forall sub x, In x (flight s sub) -> 0 <= v_ts x).
  { intros sub x Hx. rewrite (flight_inv _ _ _ _ sub I), <- in_rev in Hx. apply in_map_iff in Hx.
    destruct Hx as (e & <- & He). apply filter_In in He. destruct He as [He _].
    assert (G : forall ops sp, Forall (fun t => 0 <= t) (map e_ts (sp_live sp)) -> forall t, 0 <= t -> clock_from t ops ->
        Forall (fun t => 0 <= t) (map e_ts (sp_live (fst (spec_run sp ops))))).
    { clear. induction ops as [|o ops IH]; intros sp HF t Ht HC; [exact HF|]. rewrite spec_run_cons. cbn [fst].
      assert (HR : forall s sel, Forall (fun t => 0 <= t) (map e_ts (fst (release s sel (sp_live sp))))).
      { intros s sel. apply Forall_forall. intros y Hy. apply in_map_iff in Hy. destruct Hy as (f & <- & Hf).
        apply release_sub_in in Hf. destruct Hf as (g & Hg & [[_ ->]|[_ [-> _]]]); rewrite Forall_forall in HF;
          apply HF, (in_map e_ts _ _ Hg). }
      destruct o as [x|x|q|q|ts|x k]; cbn [clock_from spec_step] in *.
      - refine (IH _ _ t Ht HC); exact HF.
      - specialize (HR x (fun _ => true)). destruct (release x _ _). refine (IH _ _ t Ht HC); exact HR.
      - refine (IH _ _ t Ht HC); exact HF.
      - refine (IH _ _ t Ht HC); exact HF.
      - destruct HC as [Hts HC]. apply (fun X => IH _ X ts ltac:(lia) HC).
        destruct (sp_ann sp) as [|a0 r0], (sp_data sp) as [|[k p] r]; cbn [fst sp_live]; auto.
        rewrite map_app. apply Forall_app. split; [exact HF|]. repeat constructor. cbn. lia.
      - specialize (HR x (fun e => e_pid e =? k)). destruct (release x _ _). refine (IH _ _ t Ht HC); exact HR. }
    specialize (G ops spec_init ltac:(constructor) 0 ltac:(lia) HC). rewrite Forall_forall in G.
    exact (G _ (in_map e_ts _ _ He)). }
  unfold pub_oldest_unacked, all_flight.
  assert (G : forall subs m0, (m0 = -1 \/ 0 <= m0) -> exists m, oldest_loop s m0 subs = Ok m /\
    ((m = m0 /\ (m0 <> -1 -> forall x, In x (flat_map (flight s) subs) -> m <= v_ts x) /\ (m0 = -1 -> flat_map (flight s) subs = [])) \/
     (0 <= m /\ (m0 = -1 \/ m <= m0) /\ In m (map v_ts (flat_map (flight s) subs)) /\ forall x, In x (flat_map (flight s) subs) -> m <= v_ts x))).
  { induction subs as [|sub subs IH]; intros m0 Hm0.
    - exists m0. split; [reflexivity|]. left. split; [reflexivity|]. split; [intros _ x []|reflexivity].
    - cbn [oldest_loop flat_map]. pose proof (flight_last _ _ _ _ sub I) as HL. pose proof (flight_sorted _ _ _ _ sub H HC) as HS.
      assert (HR : forall x, In x (flight s sub) <-> In x (rev (flight s sub))) by (intros; apply in_rev).
      destruct (last_opt (p_sinf s sub)) as [a|].
      + destruct (rev (flight s sub)) as [|y r] eqn:Er; [tauto|]. destruct HL as (p & -> & Hp). cbn [bind].
        cbn [map] in HS. inversion HS as [|? ? _ HF]; subst. rewrite Forall_forall in HF.
        assert (Hy0 : 0 <= v_ts y) by (apply (HP sub), HR; left; reflexivity).
        assert (Hmin : forall x, In x (flight s sub) -> v_ts y <= v_ts x).
        { intros x Hx. apply HR in Hx. destruct Hx as [->|Hx]; [lia|]. exact (HF _ (in_map v_ts _ _ Hx)). }
        assert (Hyin : In (v_ts y) (map v_ts (flight s sub))) by (apply in_map, HR; left; reflexivity).
        set (m1 := if (m0 =? -1) || (pk_ts p <? m0) then pk_ts p else m0).
        assert (Hm1 : (m1 = v_ts y \/ m1 = m0 /\ m0 <> -1) /\ m1 <= v_ts y /\ 0 <= m1 /\ (m0 = -1 \/ m1 <= m0)).
        { unfold m1. rewrite Hp. destruct (m0 =? -1) eqn:E1, (v_ts y <? m0) eqn:E2; cbn [orb]; lia. }
        destruct Hm1 as (A1 & A2 & A3 & A4).
        destruct (IH m1 (or_intror A3)) as (m & E & [(-> & B1 & B2)|(B0 & B1 & B2 & B3)]); exists m || exists m1; (split; [exact E|]).
        * destruct A1 as [A1|[A1 A1']].
          -- right. split; [exact A3|]. split; [exact A4|]. split; [rewrite map_app; apply in_or_app; left; rewrite A1; exact Hyin|].
             intros x Hx. apply in_app_or in Hx. destruct Hx as [Hx|Hx]; [specialize (Hmin x Hx); lia|]. apply B1; [lia|exact Hx].
          -- left. split; [exact A1|]. split; [|congruence]. intros _ x Hx. apply in_app_or in Hx.
             destruct Hx as [Hx|Hx]; [specialize (Hmin x Hx); lia|apply B1; [lia|exact Hx]].
        * right. split; [exact B0|]. split; [lia|]. split; [rewrite map_app; apply in_or_app; right; exact B2|].
          intros x Hx. apply in_app_or in Hx. destruct Hx as [Hx|Hx]; [specialize (Hmin x Hx); lia|exact (B3 x Hx)].
      + destruct (rev (flight s sub)) as [|y r] eqn:Er; [|tauto].
        replace (flight s sub) with (@nil (Z * pl * Z)) by (destruct (flight s sub); [reflexivity|exfalso; apply (proj1 (HR p)); left; reflexivity]).
        exact (IH m0 Hm0). }
  destruct (G (p_subs s) (-1) (or_introl eq_refl)) as (m & E & [(-> & _ & B)|(B0 & _ & B2 & B3)]).
  - exists (-1). split; [exact E|]. rewrite (B eq_refl). reflexivity.
  - exists m. split; [exact E|]. destruct (flat_map (flight s) (p_subs s)); [destruct B2|]. auto.
Qed.
Example c21_nonvacuous : exists s outs, after (firstn 9 demo) s outs /\ clock_from 0 (firstn 9 demo) /\
  pub_oldest_unacked s = Ok 11 /\ length (all_flight s) = 3%nat.
Proof.
  eexists. eexists. split; [split|].
  - vm_compute. repeat split; intuition congruence.
  - vm_compute. reflexivity.
  - split; [cbn; lia|]. vm_compute. auto.
Qed.

(** C22 refuted: the payload of an announce is never released, whatever happens. *)
Theorem c22_announce_never_released_refuted : forall ops s outs p, after ops s outs ->
  ~ In p (queued_data ops) -> ~ In p (frees outs).
Proof.
  intros ops s outs p H Hn Hf. pose proof (c15_at_most_once ops s outs p H) as HC.
  apply cnt_pos in Hf. assert (1 <= cnt p (queued_data ops))%nat by lia. apply Hn, cnt_pos. assumption.
Qed.
(** ... and its descriptor stays allocated although no list refers to it any more. *)
Example c22_refuted_witness : exists s outs,
  after [OpSubscribe 7; OpAnnounce (100, 3, 0); OpSend 5; OpUnsubscribe 7] s outs /\
  sent_ann outs = [(100, 3, 0)] /\ frees outs = [] /\
  p_packs s 0%nat <> None /\ p_queued s = [] /\ p_inflight s = [].
Proof.
  eexists. eexists. split; [split|].
  - vm_compute. repeat split; intuition congruence.
  - vm_compute. reflexivity.
  - vm_compute. repeat split; congruence.
Qed.

Print Assumptions c12_c18_pub_refines_spec.
Print Assumptions c15_c16_release_exactly_when_all_gave_up.
Print Assumptions c18_reset_releases_exactly_its_claims.
Print Assumptions c19_timed_out_subscribers_exact.
Print Assumptions c20_timed_out_packets_exact.
Print Assumptions c21_oldest_unacked.
