(** PubTrace.v — reading off histories of publisher calls; facts about SpecPub.v used for
    the trace-level theorems of PropPub.v. *)
From Coq Require Import Sorting.Sorted.
From Verif Require Import Base ListHeap SeqList Pub SpecPub PubProofs.

(** ** Vocabulary on histories, independent of model and specification *)
(** Subscribers registered after the calls [ops]. *)
Fixpoint registered_from (r : list nat) (ops : list pub_op) : list nat :=
  match ops with
  | [] => r
  | OpSubscribe s :: rest => registered_from (r ++ [s]) rest
  | OpUnsubscribe s :: rest => registered_from (rm s r) rest
  | _ :: rest => registered_from r rest
  end.
Definition registered (ops : list pub_op) : list nat := registered_from [] ops.
(** Subscriber s acknowledged packet k, or left, during [ops]. *)
Definition gives_up (s : nat) (k : Z) (o : pub_op) : bool :=
  match o with
  | OpAck s' k' => Nat.eqb s' s && (k' =? k)
  | OpUnsubscribe s' => Nat.eqb s' s
  | _ => false
  end.
Definition gave_up (s : nat) (k : Z) (ops : list pub_op) : bool := existsb (gives_up s k) ops.
(** Payloads queued as data packets / as announces, in order. *)
Definition data_of (o : pub_op) : list pl := match o with OpQueue p => [p] | _ => [] end.
Definition ann_of (o : pub_op) : list pl := match o with OpAnnounce p => [p] | _ => [] end.
Definition queued_data (ops : list pub_op) : list pl := flat_map data_of ops.
Definition queued_ann (ops : list pub_op) : list pl := flat_map ann_of ops.
(** Payloads handed to the network, and payload_free calls. *)
Definition sdata_of (o : pub_out) : list (Z * pl) :=
  match o with OutSent (Some (k, p)) => if k =? 0 then [] else [(k, p)] | _ => [] end.
Definition sann_of (o : pub_out) : list pl :=
  match o with OutSent (Some (k, p)) => if k =? 0 then [p] else [] | _ => [] end.
Definition freed_of (o : pub_out) : list pl := match o with OutFreed l => l | _ => [] end.
Definition sent_data (outs : list pub_out) : list (Z * pl) := flat_map sdata_of outs.
Definition sent_ann (outs : list pub_out) : list pl := flat_map sann_of outs.
Definition frees (outs : list pub_out) : list pl := flat_map freed_of outs.
Definition pl_eq_dec (p q : pl) : {p = q} + {p <> q}.
Proof. decide equality; [apply Z.eq_dec|decide equality; apply Z.eq_dec]. Defined.
Definition cnt (p : pl) (l : list pl) : nat := count_occ pl_eq_dec l p.

(** Send times do not decrease. *)
Fixpoint clock_from (t : Z) (ops : list pub_op) : Prop :=
  match ops with
  | [] => True
  | OpSend ts :: rest => t <= ts /\ clock_from ts rest
  | _ :: rest => clock_from t rest
  end.

(** ** Runs and concatenation *)
Lemma spec_run_app ops1 ops2 sp : spec_run sp (ops1 ++ ops2) =
  (fst (spec_run (fst (spec_run sp ops1)) ops2),
   snd (spec_run sp ops1) ++ snd (spec_run (fst (spec_run sp ops1)) ops2)).
Proof.
  revert sp. induction ops1 as [|o ops1 IH]; intros sp; cbn [app spec_run].
  - cbn [fst snd app]. destruct (spec_run sp ops2); reflexivity.
  - destruct (spec_step sp o) as [sp1 x]. rewrite IH. destruct (spec_run sp1 ops1) as [sp2 xs]. reflexivity.
Qed.
Lemma spec_run_cons o ops sp : spec_run sp (o :: ops) =
  (fst (spec_run (fst (spec_step sp o)) ops), snd (spec_step sp o) :: snd (spec_run (fst (spec_step sp o)) ops)).
Proof. cbn [spec_run]. destruct (spec_step sp o) as [sp1 x]. cbn [fst snd]. destruct (spec_run sp1 ops); reflexivity. Qed.
Lemma spec_run_len ops : forall sp, length (snd (spec_run sp ops)) = length ops.
Proof.
  induction ops as [|o ops IH]; intros sp; [reflexivity|]. rewrite spec_run_cons. cbn [snd length]. rewrite IH. reflexivity.
Qed.
Lemma legal_app ops1 ops2 sp : legal sp (ops1 ++ ops2) <-> legal sp ops1 /\ legal (fst (spec_run sp ops1)) ops2.
Proof.
  revert sp. induction ops1 as [|o ops1 IH]; intros sp; cbn [app legal].
  - cbn. tauto.
  - rewrite IH, spec_run_cons. cbn [fst]. tauto.
Qed.

Lemma inv_reach ops : legal spec_init ops ->
  exists s L Q, pub_run pub_init ops = Ok (s, snd (spec_run spec_init ops)) /\ Inv s (fst (spec_run spec_init ops)) L Q.
Proof. intros H. exact (inv_run ops _ _ _ _ inv_init H). Qed.

(** ** Registration *)
Lemma reg_step sp o : sp_reg (fst (spec_step sp o)) = registered_from (sp_reg sp) [o].
Proof.
  destruct o as [s|s|p|p|ts|s k]; cbn [spec_step registered_from]; try reflexivity.
  destruct (sp_ann sp) as [|a0 r0], (sp_data sp) as [|[k p] r]; reflexivity.
Qed.
Lemma registered_cons r o ops : registered_from r (o :: ops) = registered_from (registered_from r [o]) ops.
Proof. destruct o; reflexivity. Qed.
Lemma reg_run ops : forall sp, sp_reg (fst (spec_run sp ops)) = registered_from (sp_reg sp) ops.
Proof.
  induction ops as [|o ops IH]; intros sp; [reflexivity|].
  rewrite spec_run_cons, registered_cons. cbn [fst]. rewrite IH, reg_step. reflexivity.
Qed.

(** ** Queue contents *)
Definition nq (ops : list pub_op) : Z := zlen (queued_data ops).
Lemma next_step sp o : sp_next (fst (spec_step sp o)) = sp_next sp + zlen (data_of o).
Proof.
  destruct o as [s|s|p|p|ts|s k]; cbn [spec_step data_of]; unfold zlen; cbn [length]; try (cbn; lia).
  destruct (sp_ann sp) as [|a0 r0], (sp_data sp) as [|[k p] r]; cbn; lia.
Qed.
Lemma next_run ops : forall sp, sp_next (fst (spec_run sp ops)) = sp_next sp + nq ops.
Proof.
  induction ops as [|o ops IH]; intros sp; [cbn; lia|]. rewrite spec_run_cons. cbn [fst]. rewrite IH, next_step.
  unfold nq, queued_data. cbn [flat_map]. rewrite zlen_app. lia.
Qed.

(** Ids paired with payloads, in queueing order, starting at id n. *)
Fixpoint number (n : Z) (l : list pl) : list (Z * pl) :=
  match l with [] => [] | p :: r => (n, p) :: number (n + 1) r end.
Lemma number_app n l1 l2 : number n (l1 ++ l2) = number n l1 ++ number (n + zlen l1) l2.
Proof.
  revert n. induction l1 as [|p l1 IH]; intros n; cbn [app number].
  - f_equal. unfold zlen. cbn. lia.
  - rewrite IH, zlen_cons. do 2 f_equal. f_equal. lia.
Qed.

(** Positive ids in the queue (part of Inv, needed on its own for the pid <> 0 tests). *)
Definition pos_data (sp : spec) : Prop := Forall (fun q => 1 <= fst q) (sp_data sp) /\ 1 <= sp_next sp.
Lemma pos_step sp o : pos_data sp -> pos_data (fst (spec_step sp o)).
Proof.
  intros [H1 H2]. destruct o as [s|s|p|p|ts|s k]; cbn [spec_step]; try (split; assumption).
  - split; cbn; [|lia]. apply Forall_app. split; [exact H1|]. repeat constructor. exact H2.
  - destruct (sp_ann sp) as [|a0 r0], (sp_data sp) as [|[k p] r] eqn:Ed; split; cbn [fst sp_data sp_next]; try assumption.
    + rewrite Ed. constructor.
    + inversion H1; assumption.
Qed.
Lemma pos_run ops : forall sp, pos_data sp -> pos_data (fst (spec_run sp ops)).
Proof. induction ops as [|o ops IH]; intros sp H; [exact H|]. rewrite spec_run_cons. cbn [fst]. apply IH, pos_step, H. Qed.
Lemma pos_init : pos_data spec_init.
Proof. split; [constructor|cbn; lia]. Qed.

Lemma fifo_step sp o : pos_data sp ->
  sp_data sp ++ number (sp_next sp) (data_of o) = sdata_of (snd (spec_step sp o)) ++ sp_data (fst (spec_step sp o)) /\
  sp_ann sp ++ ann_of o = sann_of (snd (spec_step sp o)) ++ sp_ann (fst (spec_step sp o)).
Proof.
  intros [H1 H2]. destruct o as [s|s|p|p|ts|s k]; cbn [spec_step data_of ann_of number]; rewrite ?app_nil_r; try (split; reflexivity).
  - destruct (sp_ann sp) as [|a r] eqn:Ea, (sp_data sp) as [|[k p] r'] eqn:Ed; cbn; rewrite ?Ea, ?Ed; auto.
    + inversion H1; subst. cbn in *. replace (k =? 0) with false by lia. auto.
Qed.
Lemma fifo_run ops : forall sp, pos_data sp ->
  sp_data sp ++ number (sp_next sp) (queued_data ops) =
    sent_data (snd (spec_run sp ops)) ++ sp_data (fst (spec_run sp ops)) /\
  sp_ann sp ++ queued_ann ops = sent_ann (snd (spec_run sp ops)) ++ sp_ann (fst (spec_run sp ops)).
Proof.
  induction ops as [|o ops IH]; intros sp H; [cbn; rewrite !app_nil_r; auto|].
  rewrite spec_run_cons. unfold queued_data, queued_ann, sent_data, sent_ann. cbn [flat_map fst snd].
  fold (queued_data ops) (queued_ann ops) (sent_data (snd (spec_run (fst (spec_step sp o)) ops)))
       (sent_ann (snd (spec_run (fst (spec_step sp o)) ops))).
  destruct (fifo_step sp o H) as [F1 F2]. destruct (IH _ (pos_step sp o H)) as [G1 G2].
  rewrite number_app, !app_assoc, F1, F2, <- !app_assoc, <- G1, <- G2.
  rewrite next_step. auto.
Qed.

(** ** Holders *)
Lemma release_sub_in s sel live e : In e (fst (release s sel live)) ->
  exists f, In f live /\ ((hit s sel f = false /\ e = f) \/ (hit s sel f = true /\ e = drop_claim s f /\ e_hold e <> [])).
Proof.
  induction live as [|f live IH]; [intros []|]. rewrite release_cons. cbn [fst]. rewrite in_app_iff. intros [H|H].
  - exists f. split; [left; reflexivity|]. destruct (hit s sel f) eqn:E; [|destruct H as [<-|[]]; auto].
    right. unfold left_over in H. destruct (unclaimed (drop_claim s f)) eqn:U; [destruct H|].
    destruct H as [<-|[]]. split; [reflexivity|]. split; [reflexivity|]. unfold unclaimed in U. destruct (e_hold _); congruence.
  - destruct (IH H) as (g & Hg & Hc). exists g. split; [right; exact Hg|exact Hc].
Qed.
Lemma release_keep s sel live f : In f live -> hit s sel f = false -> In f (fst (release s sel live)).
Proof.
  induction live as [|g live IH]; [intros []|]. rewrite release_cons. cbn [fst]. intros [<-|H] E; apply in_or_app.
  - left. rewrite E. left. reflexivity.
  - right. auto.
Qed.
Lemma release_drop s sel live f : In f live -> hit s sel f = true -> rm s (e_hold f) <> [] ->
  In (drop_claim s f) (fst (release s sel live)).
Proof.
  induction live as [|g live IH]; [intros []|]. rewrite release_cons. cbn [fst]. intros [<-|H] E N; apply in_or_app.
  - left. rewrite E. unfold left_over, unclaimed. cbn [drop_claim e_hold].
    destruct (rm s (e_hold g)) eqn:Er; [congruence|]. left. reflexivity.
  - right. auto.
Qed.
Lemma release_free_iff s sel live p : In p (snd (release s sel live)) <->
  exists f, In f live /\ hit s sel f = true /\ rm s (e_hold f) = [] /\ e_pl f = p.
Proof.
  induction live as [|g live IH]; [split; [intros []|intros (f & [] & _)]|]. rewrite release_cons. cbn [snd]. rewrite in_app_iff, IH. split.
  - intros [H|(f & Hf & Hc)]; [|exists f; split; [right; exact Hf|exact Hc]].
    destruct (hit s sel g) eqn:E; [|destruct H]. unfold let_go, unclaimed in H. cbn [drop_claim e_hold] in H.
    destruct (rm s (e_hold g)) eqn:Er; [|destruct H]. destruct H as [<-|[]]. exists g.
    split; [left; reflexivity|]. auto.
  - intros (f & [<-|Hf] & E & Er & Ep); [left|right; exists f; auto].
    rewrite E. unfold let_go, unclaimed. cbn [drop_claim e_hold]. rewrite Er, Ep. left. reflexivity.
Qed.

(** Payload conservation: nothing is released that was not in flight. *)
Lemma cnt_app p l1 l2 : cnt p (l1 ++ l2) = (cnt p l1 + cnt p l2)%nat.
Proof. apply count_occ_app. Qed.
Lemma release_cnt s sel live p :
  cnt p (map e_pl live) = (cnt p (map e_pl (fst (release s sel live))) + cnt p (snd (release s sel live)))%nat.
Proof.
  induction live as [|g live IH]; [reflexivity|]. rewrite release_cons. cbn [fst snd map]. rewrite map_app, !cnt_app.
  change (e_pl g :: map e_pl live) with ([e_pl g] ++ map e_pl live). rewrite cnt_app, IH.
  assert (X : cnt p [e_pl g] = (cnt p (map e_pl (if hit s sel g then left_over s g else [g])) +
                                cnt p (if hit s sel g then let_go s g else []))%nat).
  { destruct (hit s sel g); [|cbn; lia]. unfold left_over, let_go. destruct (unclaimed _); cbn; lia. }
  lia.
Qed.
Definition in_system (p : pl) (sp : spec) : nat :=
  (cnt p (map snd (sp_data sp)) + cnt p (map e_pl (sp_live sp)))%nat.
Lemma conserve_step sp o p :
  (in_system p sp + cnt p (data_of o) = in_system p (fst (spec_step sp o)) + cnt p (freed_of (snd (spec_step sp o))))%nat.
Proof.
  unfold in_system. destruct o as [s|s|q|q|ts|s k]; cbn [spec_step data_of].
  - cbn [fst snd sp_data sp_live freed_of]. unfold cnt. cbn [count_occ]. lia.
  - pose proof (release_cnt s (fun _ => true) (sp_live sp) p) as X. destruct (release s _ _) as [l fr].
    cbn [fst snd sp_data sp_live freed_of] in *. change (cnt p []) with O. lia.
  - cbn [fst snd sp_data sp_live freed_of]. rewrite map_app, cnt_app. cbn [map snd]. change (cnt p []) with O. lia.
  - cbn [fst snd sp_data sp_live freed_of]. unfold cnt. cbn [count_occ]. lia.
  - destruct (sp_ann sp) as [|a0 r0], (sp_data sp) as [|[k q] r] eqn:Ed; cbn [fst snd sp_data sp_live freed_of map]; rewrite ?Ed; cbn [map snd]; try (change (cnt p []) with O; lia).
    change (q :: map snd r) with ([q] ++ map snd r). rewrite map_app, !cnt_app. cbn [map e_pl]. change (cnt p []) with O. lia.
  - pose proof (release_cnt s (fun e => e_pid e =? k) (sp_live sp) p) as X. destruct (release s _ _) as [l fr].
    cbn [fst snd sp_data sp_live freed_of] in *. change (cnt p []) with O. lia.
Qed.
Lemma conserve_run ops p : forall sp,
  (in_system p sp + cnt p (queued_data ops) =
   in_system p (fst (spec_run sp ops)) + cnt p (frees (snd (spec_run sp ops))))%nat.
Proof.
  induction ops as [|o ops IH]; intros sp; [cbn; lia|]. rewrite spec_run_cons.
  unfold queued_data, frees. cbn [flat_map fst snd]. rewrite !cnt_app.
  fold (queued_data ops) (frees (snd (spec_run (fst (spec_step sp o)) ops))).
  pose proof (conserve_step sp o p). pose proof (IH (fst (spec_step sp o))). lia.
Qed.

(** ** Following one sent packet through a history *)
Definition still (k : Z) (ops : list pub_op) (H : list nat) : list nat :=
  filter (fun s => negb (gave_up s k ops)) H.

Lemma filter_all {X} (f : X -> bool) l : (forall x, In x l -> f x = true) -> filter f l = l.
Proof.
  induction l as [|x l IH]; intros H; cbn; [reflexivity|]. rewrite (H x (or_introl eq_refl)), IH; [reflexivity|].
  intros y Hy. apply H. right. exact Hy.
Qed.
Lemma filter_rm s H : filter (fun x => negb (Nat.eqb s x)) H = rm s H.
Proof.
  unfold rm. induction H as [|x H IH]; cbn [filter remove]; [reflexivity|].
  destruct (Nat.eq_dec s x) as [<-|Hne].
  - rewrite Nat.eqb_refl. exact IH.
  - apply Nat.eqb_neq in Hne. rewrite Hne. cbn. rewrite IH. reflexivity.
Qed.
Lemma still_cons k o ops H : still k (o :: ops) H = still k ops (still k [o] H).
Proof.
  unfold still. rewrite <- (filter_ext (fun s => negb (gave_up s k ops) && negb (gave_up s k [o]))).
  - induction H as [|x H IH]; cbn [filter]; [reflexivity|]. destruct (gave_up x k [o]); cbn [negb].
    + rewrite andb_false_r. exact IH.
    + rewrite andb_true_r. cbn [filter]. destruct (gave_up x k ops); cbn [negb]; rewrite IH; reflexivity.
  - intros s. unfold gave_up. cbn [existsb]. rewrite orb_false_r, negb_orb. apply andb_comm.
Qed.

Lemma still_hit k s H : still k [OpUnsubscribe s] H = rm s H.
Proof.
  unfold still. rewrite <- filter_rm. apply filter_ext. intros x. unfold gave_up. cbn. rewrite orb_false_r. reflexivity.
Qed.
Lemma still_ack k s H : still k [OpAck s k] H = rm s H.
Proof.
  unfold still. rewrite <- filter_rm. apply filter_ext. intros x. unfold gave_up. cbn. rewrite orb_false_r, Z.eqb_refl, andb_true_r. reflexivity.
Qed.
Lemma still_none k o H : (forall x, In x H -> gives_up x k o = false) -> still k [o] H = H.
Proof.
  intros Hn. unfold still. apply filter_all. intros x Hx. unfold gave_up. cbn. rewrite (Hn x Hx). reflexivity.
Qed.

Lemma track_step sp o k p ts H : In (mkE k p ts H) (sp_live sp) -> H <> [] ->
  (still k [o] H <> [] -> In (mkE k p ts (still k [o] H)) (sp_live (fst (spec_step sp o)))) /\
  (still k [o] H = [] -> In p (freed_of (snd (spec_step sp o)))).
Proof.
  intros Hin Hne.
  assert (Hrel : forall s sel, hit s sel (mkE k p ts H) = true -> rm s H = still k [o] H ->
            (still k [o] H <> [] -> In (mkE k p ts (still k [o] H)) (fst (release s sel (sp_live sp)))) /\
            (still k [o] H = [] -> In p (snd (release s sel (sp_live sp))))).
  { intros s sel Hh Hrm. rewrite <- Hrm. split; intros X.
    - exact (release_drop s sel _ _ Hin Hh X).
    - apply release_free_iff. exists (mkE k p ts H). auto. }
  assert (Hkeep : still k [o] H = H -> In (mkE k p ts H) (sp_live (fst (spec_step sp o))) ->
            (still k [o] H <> [] -> In (mkE k p ts (still k [o] H)) (sp_live (fst (spec_step sp o)))) /\
            (still k [o] H = [] -> In p (freed_of (snd (spec_step sp o))))).
  { intros E X. rewrite E. split; [auto|congruence]. }
  destruct o as [s|s|q|q|t|s k'].
  - apply Hkeep; [apply still_none; reflexivity|exact Hin].
  - cbn [spec_step]. destruct (mem s H) eqn:Em.
    + specialize (Hrel s (fun _ => true)). destruct (release s _ _) as [l fr]. cbn [fst snd sp_live freed_of] in *.
      apply Hrel; [exact Em|]. symmetry. apply still_hit.
    + apply mem_nIn in Em. specialize (Hkeep). cbn [spec_step] in Hkeep.
      pose proof (release_keep s (fun _ => true) _ _ Hin) as K. destruct (release s _ _) as [l fr].
      apply Hkeep; [rewrite still_hit; apply rm_notin; exact Em|]. cbn [fst sp_live]. apply K.
      unfold hit. cbn. apply mem_nIn. exact Em.
  - apply Hkeep; [apply still_none; reflexivity|exact Hin].
  - apply Hkeep; [apply still_none; reflexivity|exact Hin].
  - apply Hkeep; [apply still_none; reflexivity|]. cbn [spec_step].
    destruct (sp_ann sp) as [|a0 r0], (sp_data sp) as [|[k0 p0] r]; cbn [fst sp_live]; auto.
    apply in_or_app. left. exact Hin.
  - cbn [spec_step]. destruct (Z.eqb_spec k' k) as [->|Hk].
    + destruct (mem s H) eqn:Em.
      * specialize (Hrel s (fun e => e_pid e =? k)). destruct (release s _ _) as [l fr]. cbn [fst snd sp_live freed_of] in *.
        apply Hrel; [|symmetry; apply still_ack]. unfold hit. cbn. rewrite Z.eqb_refl. exact Em.
      * apply mem_nIn in Em. cbn [spec_step] in Hkeep.
        pose proof (release_keep s (fun e => e_pid e =? k) _ _ Hin) as K. destruct (release s _ _) as [l fr].
        apply Hkeep; [rewrite still_ack; apply rm_notin; exact Em|]. cbn [fst sp_live]. apply K.
        unfold hit. cbn. rewrite Z.eqb_refl. apply mem_nIn. exact Em.
    + cbn [spec_step] in Hkeep.
      pose proof (release_keep s (fun e => e_pid e =? k') _ _ Hin) as K. destruct (release s _ _) as [l fr].
      apply Hkeep.
      * apply still_none. intros x _. cbn. replace (k' =? k) with false by lia. apply andb_false_r.
      * cbn [fst sp_live]. apply K. unfold hit. cbn. replace (k =? k') with false by lia. reflexivity.
Qed.

Lemma track_run ops : forall sp k p ts H, In (mkE k p ts H) (sp_live sp) -> H <> [] ->
  (still k ops H <> [] -> In (mkE k p ts (still k ops H)) (sp_live (fst (spec_run sp ops)))) /\
  (still k ops H = [] -> In p (frees (snd (spec_run sp ops)))).
Proof.
  induction ops as [|o ops IH]; intros sp k p ts H Hin Hne.
  - assert (E : still k [] H = H) by (apply filter_all; reflexivity). rewrite E. cbn. split; [auto|congruence].
  - rewrite spec_run_cons, still_cons. cbn [fst snd]. unfold frees. cbn [flat_map].
    fold (frees (snd (spec_run (fst (spec_step sp o)) ops))).
    destruct (track_step sp o k p ts H Hin Hne) as [T1 T2].
    destruct (still k [o] H) as [|y H1] eqn:E.
    + assert (E2 : still k ops [] = []) by reflexivity. rewrite E2. split; [congruence|].
      intros _. apply in_or_app. left. apply T2. reflexivity.
    + destruct (IH (fst (spec_step sp o)) k p ts (y :: H1) (T1 ltac:(discriminate)) ltac:(discriminate)) as [A B].
      split; [exact A|]. intros X. apply in_or_app. right. exact (B X).
Qed.

Lemma track_nobody ops : forall sp k p ts, In (mkE k p ts []) (sp_live sp) ->
  In (mkE k p ts []) (sp_live (fst (spec_run sp ops))).
Proof.
  induction ops as [|o ops IH]; intros sp k p ts Hin; [exact Hin|].
  rewrite spec_run_cons. cbn [fst]. apply IH. destruct o as [s|s|q|q|t|s k']; cbn [spec_step]; try exact Hin.
  - pose proof (release_keep s (fun _ => true) _ _ Hin eq_refl) as K. destruct (release s _ _). exact K.
  - destruct (sp_ann sp) as [|a0 r0], (sp_data sp) as [|[k0 p0] r]; cbn [fst sp_live]; auto.
    apply in_or_app. left. exact Hin.
  - assert (Hh : hit s (fun e => e_pid e =? k') (mkE k p ts []) = false) by (unfold hit; cbn; apply andb_false_r).
    pose proof (release_keep s (fun e => e_pid e =? k') _ _ Hin Hh) as K. destruct (release s _ _). exact K.
Qed.

(** The step that sends a data packet puts it in flight for the registered subscribers. *)
Lemma send_step sp ts k p : pos_data sp -> snd (spec_step sp (OpSend ts)) = OutSent (Some (k, p)) -> k <> 0 ->
  In (mkE k p ts (sp_reg sp)) (sp_live (fst (spec_step sp (OpSend ts)))).
Proof.
  intros HP. cbn [spec_step]. destruct (sp_ann sp) as [|a0 r0].
  - destruct (sp_data sp) as [|[k0 p0] r]; cbn; [discriminate|]. intros E _. injection E as -> ->.
    apply in_or_app. right. left. reflexivity.
  - cbn. intros E Hk. injection E as <- _. congruence.
Qed.

(** Who holds what, read off the history. *)
Lemma holder_inv ops e s : In e (sp_live (fst (spec_run spec_init ops))) -> In s (e_hold e) ->
  exists h1 ts h2, ops = h1 ++ OpSend ts :: h2 /\
    nth_error (snd (spec_run spec_init ops)) (length h1) = Some (OutSent (Some (e_pid e, e_pl e))) /\
    In s (registered h1) /\ gave_up s (e_pid e) h2 = false.
Proof.
  revert e. induction ops as [|o ops IH] using rev_ind; intros e He Hs; [destruct He|].
  rewrite spec_run_app in *. cbn [fst snd] in *. rewrite spec_run_cons in *. cbn [fst snd spec_run] in *.
  set (sp := fst (spec_run spec_init ops)) in *. set (outs := snd (spec_run spec_init ops)) in *.
  assert (Hlen : length outs = length ops) by apply spec_run_len.
  (* the entry was there before, with s holding it, and o is not a give-up of s *)
  assert (Hold : (exists f, In f (sp_live sp) /\ e_pid f = e_pid e /\ e_pl f = e_pl e /\ In s (e_hold f) /\
                            gives_up s (e_pid e) o = false) ->
     exists h1 ts h2, ops ++ [o] = h1 ++ OpSend ts :: h2 /\
       nth_error (outs ++ [snd (spec_step sp o)]) (length h1) = Some (OutSent (Some (e_pid e, e_pl e))) /\
       In s (registered h1) /\ gave_up s (e_pid e) h2 = false).
  { intros (f & Hf & E1 & E2 & Hsf & Hg). destruct (IH f Hf Hsf) as (h1 & ts & h2 & -> & Hn & Hr & Hgu).
    exists h1, ts, (h2 ++ [o]). rewrite <- app_assoc. split; [reflexivity|]. split; [|split; [exact Hr|]].
    - rewrite nth_error_app1; [rewrite E1, E2 in Hn; exact Hn|]. rewrite Hlen, app_length. cbn. lia.
    - unfold gave_up in *. rewrite existsb_app. cbn. rewrite <- E1, Hgu, E1, Hg. reflexivity. }
  destruct o as [x|x|q|q|t|x k']; cbn [spec_step] in He.
  - apply Hold. exists e. auto.
  - destruct (release x (fun _ => true) (sp_live sp)) as [l fr] eqn:Er. cbn [fst sp_live] in He.
    assert (He' : In e (fst (release x (fun _ => true) (sp_live sp)))) by (rewrite Er; exact He).
    apply release_sub_in in He'. destruct He' as (f & Hf & [[Hh ->]|[Hh [-> Hd]]]); apply Hold; exists f.
    + split; [exact Hf|]. split; [reflexivity|]. split; [reflexivity|]. split; [exact Hs|]. cbn.
      unfold hit in Hh. cbn in Hh. apply mem_nIn in Hh. apply Nat.eqb_neq. intros ->. tauto.
    + cbn [drop_claim e_hold e_pid e_pl] in *. apply In_rm in Hs. destruct Hs as [Hs Hne].
      split; [exact Hf|]. split; [reflexivity|]. split; [reflexivity|]. split; [exact Hs|]. cbn.
      apply Nat.eqb_neq. congruence.
  - apply Hold. exists e. auto.
  - apply Hold. exists e. auto.
  - destruct (sp_ann sp) as [|a0 r0] eqn:Ea; [|apply Hold; exists e; auto].
    destruct (sp_data sp) as [|[k0 p0] r] eqn:Ed; [apply Hold; exists e; auto|]. cbn [fst sp_live] in He.
    apply in_app_or in He. destruct He as [He|[<-|[]]]; [apply Hold; exists e; auto|].
    exists ops, t, []. split; [reflexivity|]. split; [|split; [|reflexivity]].
    + rewrite nth_error_app2, <- Hlen, Nat.sub_diag by lia. cbn [nth_error spec_step]. rewrite Ea, Ed. reflexivity.
    + cbn [e_hold] in Hs. unfold sp in Hs. rewrite reg_run in Hs. exact Hs.
  - destruct (release x (fun e => e_pid e =? k') (sp_live sp)) as [l fr] eqn:Er. cbn [fst sp_live] in He.
    assert (He' : In e (fst (release x (fun e => e_pid e =? k') (sp_live sp)))) by (rewrite Er; exact He).
    apply release_sub_in in He'. destruct He' as (f & Hf & [[Hh ->]|[Hh [-> Hd]]]); apply Hold; exists f.
    + split; [exact Hf|]. split; [reflexivity|]. split; [reflexivity|]. split; [exact Hs|]. cbn.
      unfold hit in Hh. destruct (Nat.eqb_spec x s) as [->|]; [|reflexivity].
      destruct (Z.eqb_spec k' (e_pid f)) as [->|]; [|reflexivity]. rewrite Z.eqb_refl in Hh. cbn in Hh.
      apply mem_nIn in Hh. tauto.
    + cbn [drop_claim e_hold e_pid e_pl] in *. apply In_rm in Hs. destruct Hs as [Hs Hne].
      split; [exact Hf|]. split; [reflexivity|]. split; [reflexivity|]. split; [exact Hs|]. cbn.
      replace (Nat.eqb x s) with false; [reflexivity|]. symmetry. apply Nat.eqb_neq. congruence.
Qed.

(** ** Send times *)
Definition ts_sorted (t : Z) (l : list entry) : Prop :=
  StronglySorted Z.le (map e_ts l) /\ Forall (fun x => x <= t) (map e_ts l).
Lemma SS_flat_le (g : entry -> list entry) l : (forall e f, In f (g e) -> e_ts f = e_ts e) ->
  (forall e, (length (g e) <= 1)%nat) ->
  StronglySorted Z.le (map e_ts l) -> StronglySorted Z.le (map e_ts (flat_map g l)) /\
  (forall P : Z -> Prop, Forall P (map e_ts l) -> Forall P (map e_ts (flat_map g l))).
Proof.
  intros Hg Hl. induction l as [|e l IH]; intros HS; [split; [constructor|intros; constructor]|].
  cbn [map] in HS. inversion HS as [|? ? HS' HF]; subst. destruct (IH HS') as [I1 I2].
  cbn [flat_map]. rewrite map_app. specialize (Hl e). pose proof (Hg e) as He.
  destruct (g e) as [|f [|f' r]]; cbn [map app]; [| |cbn in Hl; lia].
  - split; [exact I1|]. intros P HP. inversion HP; subst. auto.
  - rewrite (He f (or_introl eq_refl)). split; [constructor; [exact I1|apply I2; exact HF]|].
    intros P HP. inversion HP; subst. constructor; auto.
Qed.
Lemma release_ts s sel live t : ts_sorted t live -> ts_sorted t (fst (release s sel live)).
Proof.
  intros [H1 H2]. unfold release. cbn [fst].
  match goal with |- ts_sorted _ (flat_map ?g _) => destruct (SS_flat_le g live) as [A B] end.
  - intros e f. destruct (_ && _); [destruct (unclaimed _); [intros []|]|]; intros [<-|[]]; reflexivity.
  - intros e. destruct (_ && _); [destruct (unclaimed _)|]; cbn; lia.
  - exact H1.
  - split; [exact A|apply B; exact H2].
Qed.
Lemma clock_run ops : forall sp t, ts_sorted t (sp_live sp) -> clock_from t ops ->
  exists t', t <= t' /\ ts_sorted t' (sp_live (fst (spec_run sp ops))).
Proof.
  induction ops as [|o ops IH]; intros sp t HT HC; [exists t; split; [lia|exact HT]|].
  rewrite spec_run_cons. cbn [fst].
  destruct o as [s|s|q|q|ts|s k]; cbn [clock_from spec_step] in *.
  - apply (IH _ t); [exact HT|exact HC].
  - pose proof (release_ts s (fun _ => true) _ _ HT) as K. destruct (release s _ _). apply (IH _ t); [exact K|exact HC].
  - apply (IH _ t); [exact HT|exact HC].
  - apply (IH _ t); [exact HT|exact HC].
  - destruct HC as [Hts HC].
    assert (Hup : ts_sorted ts (sp_live sp)).
    { destruct HT as [A B]. split; [exact A|]. eapply Forall_impl; [|exact B]. cbn. intros; lia. }
    assert (Hnew : ts_sorted ts (sp_live (fst (spec_step sp (OpSend ts))))).
    { cbn [spec_step]. destruct (sp_ann sp) as [|a0 r0], (sp_data sp) as [|[k p] r]; cbn [fst sp_live]; auto.
      destruct Hup as [A B]. unfold ts_sorted. rewrite map_app. split.
      - apply SSsnoc; assumption.
      - apply Forall_app. split; [exact B|]. repeat constructor. cbn. lia. }
    destruct (IH _ ts Hnew HC) as (t' & T1 & T2). exists t'. split; [lia|exact T2].
  - pose proof (release_ts s (fun e => e_pid e =? k) _ _ HT) as K. destruct (release s _ _). apply (IH _ t); [exact K|exact HC].
Qed.
