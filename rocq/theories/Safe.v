(** Safe.v — a logic for the outcome of calls, and the parts of the control channel that never
    use freed memory nor fail an assert. *)
From Verif Require Import Base CircBuf Wire Proto ProtoProofs.

(** ** A logic for outcomes: [Ok] results satisfy [P], no assert fails, and freed memory is
    not used (unless [t] is false). *)
Definition safe {A} (t : bool) (r : res A) (P : A -> Prop) : Prop :=
  match r with
  | Ok a => P a
  | UB UseAfterFree => t = false
  | UB _ => True
  | Abort => False
  | Hang => True
  end.
Lemma safe_bind {A B} t (m : res A) (f : A -> res B) (P : A -> Prop) (Q : B -> Prop) :
  safe t m P -> (forall a, m = Ok a -> P a -> safe t (f a) Q) -> safe t (bind m f) Q.
Proof. destruct m as [a|u| |]; cbn; auto. Qed.
Lemma safe_imp {A} t (m : res A) (P Q : A -> Prop) : safe t m P -> (forall a, m = Ok a -> P a -> Q a) -> safe t m Q.
Proof. destruct m as [a|u| |]; cbn; auto. Qed.
Lemma safe_ok {A} t (m : res A) (P : A -> Prop) a : safe t m P -> m = Ok a -> P a.
Proof. intros H ->. exact H. Qed.


(** The ring operations: no use of freed memory, no failed assert. *)
Lemma safe_true {A} t (r : res A) : safe true r (fun _ => True) -> safe t r (fun _ => True).
Proof. destruct r as [a|[]| |]; cbn; auto. discriminate. Qed.
Lemma safe_load t cb off n : safe t (cb_load cb off n) (fun _ => True).
Proof. unfold cb_load. destruct (_ && _); exact Logic.I. Qed.
Lemma safe_store t cb off bs : safe t (cb_store cb off bs) (fun _ => True).
Proof. unfold cb_store. destruct (_ && _); exact Logic.I. Qed.
Lemma safe_seg_store t cb p bs : safe t (seg_store cb p bs) (fun _ => True).
Proof. destruct p; [apply safe_store|]. destruct bs; exact Logic.I. Qed.
Lemma safe_seg_load t cb p n : safe t (seg_load cb p n) (fun _ => True).
Proof. destruct p; [apply safe_load|]. unfold seg_load. destruct (n =? 0); exact Logic.I. Qed.
Lemma safe_segs_store t cb s bs : safe t (segs_store cb s bs) (fun _ => True).
Proof. unfold segs_store. apply (safe_bind t _ _ (fun _ => True)); [apply safe_seg_store|]. intros. apply safe_seg_store. Qed.
Lemma safe_trim t cb n : safe t (circ_buf_trim cb n) (fun _ => True).
Proof. unfold circ_buf_trim. destruct (_ <=? _); [exact Logic.I|]. destruct (_ <? _); [exact Logic.I|]. destruct (_ =? _); exact Logic.I. Qed.
Lemma safe_free t cb n : safe t (circ_buf_free cb n) (fun _ => True).
Proof. unfold circ_buf_free. destruct (_ =? _); [exact Logic.I|]. destruct (_ <=? _); [exact Logic.I|]. destruct (_ =? _); exact Logic.I. Qed.
Lemma safe_read_offset t cb o n : safe t (circ_buf_read_offset cb o n) (fun _ => True).
Proof.
  unfold circ_buf_read_offset. destruct (_ <? _); [exact Logic.I|]. destruct (_ =? _); [exact Logic.I|]. destruct (_ <=? _).
  - apply (safe_bind t _ _ (fun _ => True)); [apply safe_load|]. intros. exact Logic.I.
  - apply (safe_bind t _ _ (fun _ => True)); [apply safe_load|]. intros. destruct (_ =? _); [exact Logic.I|].
    apply (safe_bind t _ _ (fun _ => True)); [apply safe_load|]. intros. exact Logic.I.
Qed.
Lemma safe_read_exact t cb o n : safe t (read_exact cb o n) (fun _ => True).
Proof.
  unfold read_exact. apply (safe_bind t _ _ (fun _ => True)); [apply safe_read_offset|]. intros. destruct (_ =? _); exact Logic.I.
Qed.
Lemma safe_fill t rb o : safe t (tcp_fill rb o) (fun _ => True).
Proof.
  unfold tcp_fill. destruct (_ =? 0); [exact Logic.I|]. destruct (circ_buf_alloc rb _) as [e|[rb1 s]]; [exact Logic.I|].
  destruct o as [|[|b bs]].
  - apply (safe_bind t _ _ (fun _ => True)); [apply safe_trim|]. intros. exact Logic.I.
  - apply (safe_bind t _ _ (fun _ => True)); [apply safe_trim|]. intros. exact Logic.I.
  - apply (safe_bind t _ _ (fun _ => True)); [apply safe_segs_store|]. intros rb2 _ _.
    apply (safe_bind t _ _ (fun _ => True)); [apply safe_trim|]. intros. exact Logic.I.
Qed.

Section Read.
Context {St : Type} (dispatch : Z -> option (St -> cbuf -> res (Z * St * cbuf))) (t : bool) (P : St -> Prop).
Hypothesis handler : forall cmd h st rb, dispatch cmd = Some h -> P st -> safe t (h st rb) (fun r => P (snd (fst r))).
Lemma round_safe st rb prev : P st ->
  match read_round dispatch (st, rb, prev) with
  | inl x => P (fst (fst x))
  | inr r => safe t r (fun o => P (r_st o))
  end.
Proof.
  intros H. unfold read_round. assert (S : safe t (read_cmd rb prev) (fun _ => True)).
  { unfold read_cmd, circ_buf_read. apply (safe_bind t _ _ (fun _ => True)); [apply safe_read_offset|]. intros. exact Logic.I. }
  destruct (read_cmd rb prev) as [[e cmd]|u| |]; [|exact S|exact S|exact S].
  destruct (negb (e =? 0)); [exact H|]. destruct (dispatch cmd) as [h|] eqn:Ed; [|exact H].
  specialize (handler cmd h st rb Ed H). destruct (h st rb) as [[[code st'] rb']|u| |]; [|exact handler|exact handler|exact handler].
  cbn [safe fst snd] in handler. destruct (negb (code =? 0)); [exact handler|]. destruct (_ =? 0); exact handler.
Qed.
Lemma rounds_safe n : forall st rb prev, P st ->
  match iter_nat n (read_round dispatch) (st, rb, prev) with
  | inl x => P (fst (fst x))
  | inr r => safe t r (fun o => P (r_st o))
  end.
Proof.
  induction n as [|n IH]; intros st rb prev H; cbn [iter_nat]; [exact H|]. pose proof (round_safe st rb prev H) as R.
  destruct (read_round dispatch (st, rb, prev)) as [[[st' rb'] prev']|r]; [|exact R]. apply IH. exact R.
Qed.
Lemma tcp_read_safe st rb o : P st -> safe t (tcp_read dispatch st rb o) (fun r => P (r_st r)).
Proof.
  intros H. unfold tcp_read. apply (safe_bind t _ _ (fun _ => True)); [apply safe_fill|]. intros [[code op] rb1] _ _.
  destruct (code =? 0); [|exact H]. unfold process_tcp_read. rewrite iterate_nat.
  pose proof (rounds_safe (Pos.to_nat 4294967296) st rb1 0 H) as R. destruct (iter_nat _ _ _) as [x|r]; [exact Logic.I|exact R].
Qed.
End Read.

(** The publisher's handlers. *)
Lemma pub_dispatch_safe {St} (ea : St -> Z * Z -> res St) (has : bool) (ec : St -> option (list Z) -> res St) t (P : St -> Prop) :
  (forall st iv, P st -> safe t (ea st iv) P) -> (forall st p, P st -> safe t (ec st p) P) ->
  forall cmd h st rb, pub_dispatch ea has ec cmd = Some h -> P st -> safe t (h st rb) (fun r => P (snd (fst r))).
Proof.
  intros Ha Hc cmd h st rb E HP. unfold pub_dispatch in E. destruct (cmd =? RMC_CMD_ACK_INTERVAL).
  - injection E as <-. apply (safe_bind t _ _ (fun _ => True)).
    + unfold parse_ack. destruct (_ <? _); [exact Logic.I|]. apply (safe_bind t _ _ (fun _ => True)); [apply safe_read_exact|]. intros d _ _.
      apply (safe_bind t _ _ (fun _ => True)); [apply safe_free|]. intros. exact Logic.I.
    + intros [e|[a rb']] _ _; [exact HP|]. apply (safe_bind t _ _ P); [apply Ha; exact HP|]. intros st' _ H. exact H.
  - destruct (cmd =? RMC_CMD_CONTROL_MESSAGE); [|discriminate]. injection E as <-. apply (safe_bind t _ _ (fun _ => True)).
    + unfold parse_ctrl. destruct (_ <? _); [exact Logic.I|]. apply (safe_bind t _ _ (fun _ => True)); [apply safe_read_exact|]. intros d _ _. cbv zeta.
      destruct (_ <? _); [exact Logic.I|]. apply (safe_bind t _ _ (fun _ => True)).
      * destruct has; [|exact Logic.I]. apply (safe_bind t _ _ (fun _ => True)); [apply safe_read_exact|]. intros. exact Logic.I.
      * intros p _ _. apply (safe_bind t _ _ (fun _ => True)); [apply safe_free|]. intros. exact Logic.I.
    + intros [e|[p rb']] _ _; [exact HP|]. apply (safe_bind t _ _ P); [apply Hc; exact HP|]. intros st' _ H. exact H.
Qed.
