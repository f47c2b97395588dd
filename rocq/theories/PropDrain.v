(** PropDrain.v — C82: getting rid of what is owed.  A publisher that empties its send buffers
    before it processes timeouts never crashes there and has everything owed on TCP after at most
    one call per debt; one whose calls are an announce interval apart never resends anything. *)
From Coq Require Import Sorting.Permutation Sorting.Sorted.
From Verif Require Import Base CircBuf CircBufProofs Wire ListHeap SeqList Pub SpecPub PubProofs PubTrace PropPub Proto SpecProto ProtoProofs ProtoRead
  Conn SpecConn ConnProofs Safe PubCtx SpecPubCtx PubCtxProofs PubCtxSteps PubCtxOwed PropPubCtx PropPubFlow PropPubTime PropPubMem
  SpecPubRecv PubRecv PropPubRecv PropCall PropTotal.
From Verif Require ListHeapProofs PollSub Desc PropGuests.

(** ** Vocabulary *)
(** Nothing waits to be written to any subscriber's socket. *)
Definition flushed (x : pctx) : Prop := forall i c, slot (x_vec x) i = Ok c -> c_mode c = CONNECTED -> contents (c_wbuf c) = [].
(** Nobody owes an acknowledgement. *)
Definition drained (x : pctx) : Prop := forall i k, 0 <= i -> ~ owes x i k.
(** [l] lists the debts: who owes the acknowledgement of which packet. *)
Definition debts (x : pctx) (l : list (Z * Z)) : Prop := NoDup l /\ forall i k, In (i, k) l <-> 0 <= i /\ owes x i k.
(** Everything owed is due at [now]. *)
Definition due (x : pctx) (now : Z) : Prop := forall i, 0 <= i -> all_due x now i.

(** ** Empty send rings start at 0 *)
Definition neat (r : cbuf) : Prop := cb_wf r /\ cb_size r = RMC_MAX_PACKET /\ (cb_start r = cb_stop r -> cb_start r = 0).
Definition N (x : pctx) : Prop := Forall (fun c => neat (c_wbuf c)) (v_conns (x_vec x)).
Definition NT (x x' : pctx) : Prop := N x -> N x'.
Lemma NT_refl x : NT x x. Proof. exact (fun h => h). Qed.
Lemma NT_trans x y z : NT x y -> NT y z -> NT x z. Proof. exact (fun a b h => b (a h)). Qed.
Lemma NT_vec x x' : x_vec x' = x_vec x -> NT x x'. Proof. unfold NT, N. intros ->. exact (fun h => h). Qed.
Lemma contents_empty r : cb_wf r -> contents r = [] <-> cb_start r = cb_stop r.
Proof.
  intros W. pose proof (contents_len r W) as H. pose proof (in_use_val r W) as V. unfold cb_wf in W. split; intros E.
  - rewrite E in H. change (zlen (@nil Z)) with 0 in H. destruct (Z.leb_spec (cb_start r) (cb_stop r)); lia.
  - replace (cb_start r <=? cb_stop r) with true in V by lia. destruct (contents r) as [|b l]; [reflexivity|]. rewrite zlen_cons in H. pose proof (zlen_nonneg l). lia.
Qed.
Lemma N_slot x i c : N x -> slot (x_vec x) i = Ok c -> neat (c_wbuf c).
Proof. intros H Hs. destruct (PropGuests.slot_split _ _ _ Hs) as (l1 & l2 & A & _). unfold N in H. rewrite A in H. apply Forall_app in H. destruct H as [_ H]. inversion H. assumption. Qed.
Lemma N_conns x x' l1 c c' l2 : v_conns (x_vec x) = l1 ++ c :: l2 -> v_conns (x_vec x') = l1 ++ c' :: l2 -> (neat (c_wbuf c) -> neat (c_wbuf c')) -> NT x x'.
Proof.
  unfold NT, N. intros -> -> Hn H. apply Forall_app in H. destruct H as [H1 H2]. inversion H2; subst. apply Forall_app. split; [exact H1|]. constructor; auto.
Qed.
Lemma NT_put x i c c' : slot (x_vec x) i = Ok c -> (neat (c_wbuf c) -> neat (c_wbuf c')) -> NT x (set_vec x (put_slot (x_vec x) i c')).
Proof. intros Hs Hn. destruct (PropGuests.slot_split _ _ _ Hs) as (l1 & l2 & A & B). exact (N_conns x (set_vec x (put_slot (x_vec x) i c')) l1 c c' l2 A (B c') Hn). Qed.
Lemma neat_init m : neat (circ_buf_init RMC_MAX_PACKET m).
Proof. unfold neat, circ_buf_init, cb_wf, cb_max. cbn [cb_size cb_start cb_stop]. rewrite u32_small; unfold RMC_MAX_PACKET, is_u32; lia. Qed.
Lemma neat_write wb h p r : neat wb -> write_packet wb h p = Ok r -> neat (snd r).
Proof.
  intros (W & Z & S) E. destruct (write_packet_spec wb h p W) as (W1 & W2 & W3).
  destruct (Z.lt_ge_cases (circ_buf_available wb) (21 + zlen p)) as [A|A].
  - rewrite (W1 A) in E. assert (r = (EAGAIN, wb)) as -> by congruence. split; [exact W|auto].
  - pose proof (cb_wf_stop _ W). destruct (Z.eq_dec (cb_stop wb) (cb_size wb)) as [Q|Q]; [rewrite (W3 A Q) in E; discriminate|].
    destruct (W2 A ltac:(lia)) as (wb' & E' & W' & Z' & _ & C & _). rewrite E' in E. assert (r = (0, wb')) as -> by congruence. cbn [snd].
    split; [exact W'|]. split; [congruence|]. intros K. apply (contents_empty _ W') in K. rewrite C in K. apply app_eq_nil in K. destruct K as [_ K]. discriminate K.
Qed.
Lemma neat_tcp wb o r : neat wb -> match o with WOk n => is_u32 n | WErr _ => True end -> tcp_write wb o = Ok r -> neat (w_buf r).
Proof.
  intros (W & Z & S) Ho E. destruct (tcp_write_spec wb o W ltac:(lia) Ho) as (wb' & E' & W' & Z' & C & P). rewrite E' in E.
  match type of E with Ok ?a = _ => assert (r = a) as -> by congruence end. cbn [w_buf]. split; [exact W'|]. split; [congruence|].
  intros K. assert (K' := K). apply (contents_empty _ W') in K'. unfold tcp_write in E'. destruct (_ =? 0); [assert (wb' = wb) as -> by congruence; auto|].
  destruct (segs_load _ _) as [d| | |]; cbn [bind] in E'; [|discriminate E'..]. destruct o as [e|n]; [assert (wb' = wb) as -> by congruence; auto|].
  destruct (n =? 0) eqn:En; [assert (wb' = wb) as -> by congruence; auto|]. destruct (circ_buf_free wb n) as [[f q]| | |] eqn:Ef; cbn [bind fst snd] in E'; [|discriminate E'..].
  assert (f = wb') as -> by congruence. unfold circ_buf_free in Ef. rewrite En in Ef. destruct (Z.leb_spec (circ_buf_in_use wb) n) as [L|L].
  - assert (wb' = mkCB (cb_size wb) 0 0 (cb_mem wb)) as -> by congruence. reflexivity.
  - exfalso. rewrite C in K'. pose proof (contents_len _ W) as CL. assert (Hz : zlen (zdrop n (contents wb)) = 0) by (rewrite K'; reflexivity).
    unfold is_u32 in Ho. rewrite zlen_zdrop in Hz; lia.
Qed.

(** ** Every call keeps this; no call but the application's makes memory valid *)
Definition MS (x x' : pctx) : Prop := forall p, x_mem x p = None -> x_mem x' p = None.
Lemma MS_trans x y z : MS x y -> MS y z -> MS x z. Proof. exact (fun a b p h => b p (a p h)). Qed.
Lemma release_MS : forall fr m m' evs, release_all m fr = Ok (m', evs) -> forall p, m p = None -> m' p = None.
Proof.
  induction fr as [|[[q l] u] fr IH]; intros m m' evs E p Hp; cbn [release_all] in E; [congruence|].
  destruct (m q); [|discriminate E]. destruct (release_all (updz m q None) fr) as [[m1 e1]| | |] eqn:E1; cbn [bind fst snd] in E; [|discriminate E..].
  assert (m' = m1) as -> by congruence. apply (IH _ _ _ E1). destruct (Z.eq_dec p q) as [->|D]; [apply updz_same|rewrite updz_other by exact D; exact Hp].
Qed.
Lemma ack_MS x i k x' evs : rmc_pub_packet_ack x i k = Ok (x', evs) -> MS x x'.
Proof.
  unfold rmc_pub_packet_ack. destruct (pub_packet_ack _ _ _) as [[s fr]| | |]; cbn [bind fst snd]; [|discriminate..].
  destruct (release_all (x_mem x) fr) as [[m e]| | |] eqn:E1; cbn [bind fst snd]; [|discriminate..]. intros E p Hp.
  match goal with E : Ok (?y, _) = _ |- _ => assert (x' = y) as -> by congruence end. pose proof (release_MS _ _ _ _ E1 p Hp). destruct (_ && _); assumption.
Qed.
Lemma ack_NT x i k x' evs : rmc_pub_packet_ack x i k = Ok (x', evs) -> NT x x'.
Proof. intros E. apply NT_vec. exact (proj1 (ack_frame _ _ _ _ _ E)). Qed.
Lemma rounds_NT i : forall n x k x' evs, ack_rounds n x i k = Ok (x', evs) -> NT x x'.
Proof. intros n x k x' evs E. apply NT_vec. exact (proj1 (rounds_frame _ _ _ _ _ _ E)). Qed.
Lemma resend_NM x i a code x' evs : rmc_pub_resend_packet x i a = Ok (code, x', evs) -> NT x x' /\ MS x x'.
Proof.
  unfold rmc_pub_resend_packet. destruct (slot (x_vec x) i) as [c| | |] eqn:Hs; cbn [bind]; [|discriminate..]. destruct (get_pack _ _) as [p| | |]; cbn [bind]; [|discriminate..].
  set (w := if _ <? _ then _ else _). assert (Hw : forall r, w = Ok r -> neat (c_wbuf c) -> neat (snd r)).
  { intros r E Hn. unfold w in E. destruct (_ <? _); [assert (r = (EAGAIN, c_wbuf c)) as -> by congruence; exact Hn|]. destruct (load _ _ _) as [bs| | |]; cbn [bind] in E; [|discriminate E..]. exact (neat_write _ _ _ _ Hn E). }
  destruct w as [r| | |]; cbn [bind]; [|discriminate..]. specialize (Hw r eq_refl).
  destruct (_ =? 0); intros E; injection E as _ <- _; (split; [apply (NT_put x i c); auto|exact (fun p h => h)]).
Qed.
Lemma sent_NM x i a code x' evs : process_sent_packet_timeout x i a = Ok (code, x', evs) -> NT x x' /\ MS x x'.
Proof.
  unfold process_sent_packet_timeout. destruct (slot (x_vec x) i) as [c| | |]; cbn [bind]; [|discriminate..]. destruct (get_pack _ _) as [p| | |]; cbn [bind]; [|discriminate..].
  destruct (negb _).
  - destruct (rmc_pub_packet_ack x i _) as [[x1 e1]| | |] eqn:E1; cbn [bind fst snd]; [|discriminate..]. intros E. assert (x' = x1) as -> by congruence. split; [exact (ack_NT _ _ _ _ _ E1)|exact (ack_MS _ _ _ _ _ E1)].
  - destruct (rmc_pub_resend_packet x i a) as [[[cd x1] e1]| | |] eqn:E1; cbn [bind]; [|discriminate..]. destruct (resend_NM _ _ _ _ _ _ E1) as [A B]. destruct (cd =? 0).
    + destruct (rmc_pub_packet_ack x1 i _) as [[x2 e2]| | |] eqn:E2; cbn [bind fst snd]; [|discriminate..]. intros E. assert (x' = x2) as -> by congruence.
      split; [exact (NT_trans _ _ _ A (ack_NT _ _ _ _ _ E2))|exact (MS_trans _ _ _ B (ack_MS _ _ _ _ _ E2))].
    + intros E. assert (x' = x1) as -> by congruence. auto.
Qed.
Lemma loop_NM i : forall packs x code x' evs, resend_loop x i packs = Ok (code, x', evs) -> NT x x' /\ MS x x'.
Proof.
  induction packs as [|a packs IH]; intros x code x' evs; cbn [resend_loop]; [intros E; injection E as _ <- _; split; exact (fun h => h) || exact (fun p h => h)|].
  destruct (process_sent_packet_timeout x i a) as [[[cd x1] e1]| | |] eqn:E1; cbn [bind]; [|discriminate..]. destruct (sent_NM _ _ _ _ _ _ E1) as [A B].
  destruct (negb _); [intros E; injection E as _ <- _; auto|]. destruct (resend_loop x1 i packs) as [[[cd2 x2] e2]| | |] eqn:E2; cbn [bind]; [|discriminate..].
  destruct (IH _ _ _ _ E2) as [A2 B2]. intros E. injection E as _ <- _. split; [exact (NT_trans _ _ _ A A2)|exact (MS_trans _ _ _ B B2)].
Qed.
Lemma subs_NM now : forall subs x code x' evs, subs_loop x now subs = Ok (code, x', evs) -> NT x x' /\ MS x x'.
Proof.
  induction subs as [|n subs IH]; intros x code x' evs; cbn [subs_loop]; [intros E; injection E as _ <- _; split; exact (fun h => h) || exact (fun p h => h)|].
  unfold process_subscriber_timeout. destruct (pub_get_timed_out_packets _ _ _ _) as [packs| | |]; cbn [bind]; [|discriminate..].
  destruct (resend_loop x (Z.of_nat n) packs) as [[[cd x1] e1]| | |] eqn:E1; cbn [bind]; [|discriminate..]. destruct (loop_NM _ _ _ _ _ _ E1) as [A B].
  destruct (negb _); [intros E; injection E as _ <- _; auto|]. destruct (subs_loop x1 now subs) as [[[cd2 x2] e2]| | |] eqn:E2; cbn [bind]; [|discriminate..].
  destruct (IH _ _ _ _ E2) as [A2 B2]. intros E. injection E as _ <- _. split; [exact (NT_trans _ _ _ A A2)|exact (MS_trans _ _ _ B B2)].
Qed.
Lemma queue_vec x p l a code x' evs : rmc_pub_queue_packet x p l a = Ok (code, x', evs) -> x_vec x' = x_vec x.
Proof.
  unfold rmc_pub_queue_packet. destruct (_ =? _); [intros E; injection E as _ <- _; reflexivity|]. destruct (_ <? _); [intros E; injection E as _ <- _; reflexivity|].
  destruct (x_susp x); [intros E; injection E as _ <- _; reflexivity|]. match goal with |- context [bind ?h _] => destruct h as [w| | |] end; cbn [bind]; [|discriminate..].
  cbv zeta. intros E. injection E as _ <- _. destruct (_ && _); reflexivity.
Qed.
Lemma timeout_NT x now buf o code x' evs : rmc_pub_timeout_process x now buf o = Ok (code, x', evs) -> NT x x'.
Proof.
  unfold rmc_pub_timeout_process. destruct (announce_due x now).
  - destruct (match o with AnnNone => _ | AnnNo => _ | AnnYes bs len => _ end) as [[bs len] send].
    match goal with |- context [bind ?h _] => destruct h as [[[cd x2] e2]| | |] eqn:E2 end; cbn [bind]; [|discriminate..].
    assert (K : x_vec x2 = x_vec x). { destruct send; [rewrite (queue_vec _ _ _ _ _ _ _ E2); reflexivity|]. injection E2 as _ <- _. reflexivity. }
    intros E. injection E as _ <- _. apply NT_vec. exact K.
  - destruct (pub_get_timed_out_subscribers _ _ _) as [subs| | |]; cbn [bind]; [|discriminate..]. intros E. exact (proj1 (subs_NM _ _ _ _ _ _ E)).
Qed.
Lemma send_vec x a o code x' evs : send_single_multicast_packet x a o = Ok (code, x', evs) -> x_vec x' = x_vec x.
Proof.
  unfold send_single_multicast_packet. destruct (_ =? _); [intros E; injection E as _ <- _; reflexivity|]. destruct (get_pack _ _) as [p| | |]; cbn [bind]; [|discriminate..].
  destruct (_ <? _); [intros E; injection E as _ <- _; reflexivity|]. destruct (load _ _ _) as [bs| | |]; cbn [bind]; [|discriminate..]. destruct o as [e|ts].
  - destruct (_ =? _); intros E; injection E as _ <- _; reflexivity.
  - destruct (pub_packet_sent _ _ _) as [s| | |]; cbn [bind]; [|discriminate..]. intros E. injection E as _ <- _. reflexivity.
Qed.
Lemma mcast_vec : forall outs x code x' evs, process_multicast_write x outs = Ok (code, x', evs) -> x_vec x' = x_vec x.
Proof.
  induction outs as [|o outs IH]; intros x code x' evs; cbn [process_multicast_write]; (destruct (pub_next_queued (x_pub x)) as [a|]; [|intros E; injection E as _ <- _; reflexivity]).
  - apply send_vec.
  - destruct (send_single_multicast_packet x a o) as [[[cd x1] e1]| | |] eqn:E1; cbn [bind]; [|discriminate..]. pose proof (send_vec _ _ _ _ _ _ E1) as K1.
    destruct (negb _); [intros E; injection E as _ <- _; exact K1|]. destruct (process_multicast_write x1 outs) as [[[cd2 x2] e2]| | |] eqn:E2; cbn [bind]; [|discriminate..].
    intros E. injection E as _ <- _. rewrite (IH _ _ _ _ E2). exact K1.
Qed.
Lemma close_NT x i code x' evs : 0 <= i -> rmc_pub_close_connection x i = Ok (code, x', evs) -> NT x x'.
Proof.
  intros Hi. unfold rmc_pub_close_connection. destruct (find_index_cases (x_vec x) i Hi) as [[-> _]|(c & -> & Ho)]; cbn [bind]; [intros E; injection E as _ <- _; apply NT_refl|].
  destruct (close_cases (x_vec x) i Hi) as [[L _]|[(c0 & Hs & Hm & _)|(c0 & Ho' & Ec)]].
  - pose proof (slot_range _ _ _ (proj1 Ho)). unfold v_size in *. lia.
  - destruct Ho as [A B]. congruence.
  - assert (c0 = c) as -> by (destruct Ho, Ho'; congruence). cbv zeta in Ec. rewrite Ec. cbn [bind]. destruct (pub_reset_subscriber _ _) as [[s fr]| | |]; cbn [bind fst snd]; [|discriminate..].
    destruct (release_all _ _) as [[m e]| | |]; cbn [bind fst snd]; [|discriminate..]. intros E. injection E as _ <- _.
    destruct (PropGuests.slot_split _ _ _ (proj1 Ho)) as (l1 & l2 & A & B). specialize (B (reset_conn c)).
    apply (N_conns x _ l1 c (reset_conn c) l2 A).
    + cbn [set_mem set_pub set_vec x_vec]. unfold set_active. cbn [v_conns]. destruct (i =? _); rewrite ?PropGuests.conns_reset_max, B; reflexivity.
    + intros _. apply neat_init.
Qed.
Lemma close_loop_NT : forall n x ind x' evs, 0 <= ind -> close_loop n x ind = Ok (x', evs) -> NT x x'.
Proof.
  induction n as [|n IH]; intros x ind x' evs Hi; cbn [close_loop]; [intros E; injection E as <- _; apply NT_refl|].
  destruct (find_by_index _ _) as [[c|]| | |]; cbn [bind]; [| |discriminate..]; [|apply IH; lia].
  destruct (rmc_pub_close_connection x ind) as [[[cd x1] e1]| | |] eqn:E1; cbn [bind]; [|discriminate..]. destruct (close_loop n x1 (ind + 1)) as [[x2 e2]| | |] eqn:E2; cbn [bind fst snd]; [|discriminate..].
  intros E. injection E as <- _. exact (NT_trans _ _ _ (close_NT _ _ _ _ _ Hi E1) (IH x1 (ind + 1) x2 e2 ltac:(lia) E2)).
Qed.
Lemma deactivate_NT x code x' evs : rmc_pub_deactivate_context x = Ok (code, x', evs) -> NT x x'.
Proof.
  unfold rmc_pub_deactivate_context. match goal with |- context [bind ?h _] => destruct h as [[x2 e2]| | |] eqn:E2 end; cbn [bind fst snd]; [|discriminate..].
  assert (P : NT x x2). { destruct (_ =? _); [injection E2 as <- _; apply NT_refl|exact (close_loop_NT _ _ 0 _ _ ltac:(lia) E2)]. }
  intros E. injection E as _ <- _. exact P.
Qed.
Lemma eff_ack_vec x i st iv st' : x_vec (fst st) = x_vec x -> eff_ack i st iv = Ok st' -> x_vec (fst st') = x_vec x.
Proof.
  intros V. unfold eff_ack, ack_interval. destruct (_ && _); [discriminate|]. destruct (ack_rounds _ _ _ _) as [[x1 e1]| | |] eqn:E1; cbn [bind fst snd]; [|discriminate..]. intros E. injection E as <-. cbn [fst].
  rewrite <- V. exact (proj1 (rounds_frame _ _ _ _ _ _ E1)).
Qed.
Lemma eff_ctrl_vec x i st p st' : x_vec (fst st) = x_vec x -> eff_ctrl i st p = Ok st' -> x_vec (fst st') = x_vec x.
Proof.
  intros V. unfold eff_ctrl. destruct (x_ccb _); [discriminate|intros E; injection E as <-; auto|]. destruct (slot _ _) as [c| | |]; cbn [bind]; [|discriminate..]. intros E. injection E as <-. exact V.
Qed.
Lemma read_tcp_NT x i t code op x' evs : 0 <= i -> rmc_pub_read x i (RdTcp t) = Ok (code, op, x', evs) -> NT x x'.
Proof.
  intros Hi. cbn [rmc_pub_read]. destruct (find_index_cases (x_vec x) i Hi) as [[-> _]|(c & -> & Ho)]; cbn [bind]; [intros E; injection E as _ _ <- _; apply NT_refl|].
  destruct (negb (c_mode c =? CONNECTED)); [intros E; injection E as _ _ <- _; apply NT_refl|].
  destruct (tcp_read _ _ (c_rbuf c) t) as [r| | |] eqn:Er; cbn [bind]; [|discriminate..].
  pose proof (PollSub.tcp_read_ok (pub_dispatch (eff_ack i) (ccb_set x) (eff_ctrl i)) (fun st => x_vec (fst st) = x_vec x)
    (Desc.pub_dispatch_ok _ _ _ _ (fun st iv st' => eff_ack_vec x i st iv st') (fun st p st' => eff_ctrl_vec x i st p st')) (x, []) (c_rbuf c) t r eq_refl Er) as V.
  destruct (r_st r) as [x1 e1]. cbn [fst snd] in *. assert (Hs1 : slot (x_vec x1) i = Ok c) by (rewrite V; apply Ho).
  assert (K : NT x (set_vec x1 (put_slot (x_vec x1) i (set_rbuf c (r_buf r))))) by (apply (NT_trans _ x1); [apply NT_vec; exact V|apply (NT_put x1 i c); auto]).
  destruct (r_code r =? EPIPE).
  - destruct (rmc_pub_close_connection _ i) as [[[cd x2] e2]| | |] eqn:E2; cbn [bind]; [|discriminate..]. intros E. injection E as _ _ <- _. exact (NT_trans _ _ _ K (close_NT _ _ _ _ _ Hi E2)).
  - intros E. injection E as _ _ <- _. refine (NT_trans _ _ _ (NT_trans x x1 _ (NT_vec _ _ V) (NT_put x1 i c _ Hs1 _)) (NT_refl _)). exact (fun h => h).
Qed.
Lemma accept_NT x i a cb code op x' evs : v_size (x_vec x) <= RMC_NIL_INDEX -> match a with AccOk _ _ nd => nd = 0 | AccErr e => e <> 0 end ->
  rmc_pub_read x i (RdAccept a cb) = Ok (code, op, x', evs) -> NT x x'.
Proof.
  intros Hz Hn. cbn [rmc_pub_read]. destruct (accept_cases (x_listen x) (x_vec x) a Hz) as [[_ Ec]|(j & c & _ & Hs & Hd & Ec)].
  - rewrite Ec. cbn [bind]. change (ENOMEM =? 0) with false. cbn [negb]. intros E. injection E as _ _ <- _. apply NT_vec. reflexivity.
  - destruct (PropGuests.slot_split _ _ _ Hs) as (l1 & l2 & A & B). destruct a as [e|d addr nd].
    + rewrite Ec. cbn [bind]. replace (e =? 0) with false by lia. cbn [negb]. intros E. injection E as _ _ <- _. specialize (B (set_desc c (-1))).
      apply (N_conns x _ l1 c (set_desc c (-1)) l2 A); [|auto]. unfold put_slot in *. cbn [set_vec x_vec v_conns] in *. rewrite PropGuests.conns_bumped. exact B.
    + destruct Ec as [[_ Ec]|[Q _]]; [|contradiction]. rewrite Ec. cbn [bind negb Z.eqb].
      set (c' := mkConn POLLREAD d (c_node c) (c_rbuf c) (c_wbuf c) CONNECTED (c_port c) addr). set (v' := set_active (put_slot (bumped (x_vec x) j) j c') (u16 (v_active (x_vec x) + 1))).
      assert (K : forall s, NT x (set_pub (set_vec x v') s)).
      { intros s. specialize (B c'). apply (N_conns x _ l1 c c' l2 A); [|auto]. unfold v', put_slot, set_active in *. cbn [set_pub set_vec x_vec v_conns] in *. rewrite PropGuests.conns_bumped. exact B. }
      destruct (find_by_index v' j) as [[c0|]| | |]; cbn [bind]; [|discriminate..]. set (X1 := set_pub (set_vec x v') _). assert (K1 : NT x X1) by apply K.
      destruct cb as [[|]|].
      * intros E. injection E as _ _ <- _. exact K1.
      * destruct (rmc_pub_close_connection X1 j) as [[[cd2 x2] e2]| | |] eqn:E2; cbn [bind]; [|discriminate..]. intros E. injection E as _ _ <- _.
        exact (NT_trans _ _ _ K1 (close_NT _ j _ _ _ (proj1 (slot_range _ _ _ Hs)) E2)).
      * intros E. injection E as _ _ <- _. exact K1.
Qed.
Lemma step_NT x g log o code x' evs : XInv false x g log -> xok x g o -> xstep x o = Ok (code, x', evs) -> NT x x'.
Proof.
  intros XV Hok E. assert (Hz : v_size (x_vec x) <= RMC_LISTEN_INDEX) by (destruct XV as (sp & L & Q & X); exact (vi_size _ _ (xi_vec _ _ _ _ _ _ _ X))).
  destruct o as [ptr bs|ptr|ptr len ann|i [a cb|err|t]|i [outs|w]|now buf o|i|interval now|s r|bb|o|]; cbn [xstep] in E.
  - injection E as _ <- _. apply NT_vec. reflexivity.
  - injection E as _ <- _. apply NT_vec. reflexivity.
  - apply NT_vec. exact (queue_vec _ _ _ _ _ _ _ E).
  - destruct (rmc_pub_read x i (RdAccept a cb)) as [[[[cd op] x1] e1]| | |] eqn:Ed; cbn [bind] in E; [|discriminate E..]. injection E as _ <- _.
    refine (accept_NT _ _ _ _ _ _ _ _ _ _ Ed); [unfold RMC_NIL_INDEX, RMC_LISTEN_INDEX in *; lia|destruct a; cbn in Hok; tauto].
  - cbn [rmc_pub_read] in E. destruct (x_mcast x =? -1) eqn:Em; [cbn [bind] in E; injection E as _ <- _; apply NT_refl|].
    destruct err; cbn [bind] in E; injection E as _ <- _; apply NT_vec; reflexivity.
  - destruct (rmc_pub_read x i (RdTcp t)) as [[[[cd op] x1] e1]| | |] eqn:Ed; cbn [bind] in E; [|discriminate E..]. injection E as _ <- _. cbn in Hok. exact (read_tcp_NT _ _ _ _ _ _ _ (proj1 Hok) Ed).
  - cbn [rmc_pub_write] in E. destruct (process_multicast_write x outs) as [[[cd x1] e1]| | |] eqn:Ed; cbn [bind] in E; [|discriminate E..]. injection E as _ <- _. apply NT_vec. exact (mcast_vec _ _ _ _ _ Ed).
  - cbn [rmc_pub_write] in E. destruct (_ <=? i); [cbn [bind] in E; injection E as _ <- _; apply NT_refl|].
    assert (Hi : 0 <= i) by (destruct w; cbn in Hok; lia). destruct (find_index_cases (x_vec x) i Hi) as [[Ef _]|(c & Ef & Ho)]; rewrite Ef in E; cbn [bind] in E; [injection E as _ <- _; apply NT_refl|].
    destruct (negb (c_mode c =? CONNECTED)); [cbn [bind] in E; injection E as _ <- _; apply NT_refl|]. destruct (circ_buf_in_use (c_wbuf c) =? 0); [cbn [bind] in E; injection E as _ <- _; apply NT_refl|].
    destruct (tcp_write (c_wbuf c) w) as [r| | |] eqn:Ew; cbn [bind] in E; [|discriminate E..]. injection E as _ <- _. apply (NT_put x i c); [apply Ho|]. intros Hn.
    refine (neat_tcp _ w r Hn _ Ew). destruct w; [exact Logic.I|cbn in Hok; tauto].
  - exact (timeout_NT _ _ _ _ _ _ _ E).
  - exact (close_NT _ _ _ _ _ (proj1 Hok) E).
  - injection E as _ <- _. apply NT_vec. reflexivity.
  - unfold rmc_pub_throttling in E. destruct (s <? r); injection E as _ <- _; apply NT_vec; reflexivity.
  - injection E as _ <- _. apply NT_vec. reflexivity.
  - unfold rmc_pub_activate_context in E. destruct o as [e ds ea|m l port]; injection E as _ <- _; apply NT_vec; [reflexivity|destruct (x_lport x =? 0); reflexivity].
  - exact (deactivate_NT _ _ _ _ E).
Qed.
Lemma reached_N x g log : reached x g log -> N x.
Proof.
  intros (x0 & ops & F & H). induction H as [|ops x g log o code x' evs H IH Hok E].
  - destruct F as (node & lip & lport & buf & m & -> & _). unfold N. cbn [rmc_pub_init_context x_vec init_vec v_conns]. generalize (firstn (Z.to_nat (u16 (zlen buf))) buf). induction l as [|c l IH]; [constructor|constructor; [apply neat_init|exact IH]].
  - exact (step_NT _ _ _ _ _ _ _ (reached_inv x g log (ex_intro _ x0 (ex_intro _ ops (conj F H)))) Hok E IH).
Qed.

(** ** C82. Draining *)
(** A publisher that has emptied its send buffers can process timeouts without danger: the store
    behind the end of a ring that c77 describes cannot happen. *)
Theorem c82_flushed_never_crashes : forall x g log now buf o, reached x g log -> flushed x -> xok x g (XTimeout now buf o) ->
  returns (rmc_pub_timeout_process x now buf o).
Proof.
  intros x g log now buf o R Fl Hok. destruct (c77_pub_timeout x g log now buf o R Hok) as [H|(_ & _ & i & _ & c & ks & k & Hs & Hm & _ & _ & _ & Hlt)]; [exact H|exfalso].
  destruct (N_slot _ _ _ (reached_N _ _ _ R) Hs) as (W & _ & S). pose proof (proj1 (contents_empty _ W) (Fl i c Hs Hm)) as E. rewrite (S E) in Hlt.
  unfold resend_size in Hlt. pose proof (zlen_nonneg (nth (Z.to_nat (k - 1)) (g_data g) [])). lia.
Qed.

(** The first packet of an empty ring always fits. *)
Lemma first_fits t x g log i c a ps code x' evs : XInv t x g log -> is_open (x_vec x) i c -> contents (c_wbuf c) = [] -> NoDup (a :: ps) ->
  incl (a :: ps) (p_sinf (x_pub x) (Z.to_nat i)) -> resend_loop x i (a :: ps) = Ok (code, x', evs) -> ~ owes x' i (pid_of (x_pub x) a).
Proof.
  intros XV Ho Hc ND Hi E. pose proof (proj1 (slot_range _ _ _ (proj1 Ho))) as Hi0. cbn [resend_loop] in E. destruct XV as (sp & L & Q & X). pose proof (xi_pub _ _ _ _ _ _ _ X) as I.
  destruct (sinf_entry _ _ _ _ _ a I (Hi a (or_introl eq_refl))) as (e & He & Hh). inversion ND as [|? ? N1 N2]; subst.
  destruct (process_sent_packet_timeout x i a) as [[[cd x1] ev1]| | |] eqn:E1; cbn [bind] in E; [|discriminate E..].
  pose proof (sent_timeout_xi t x g log sp L Q i c a e X Ho He Hh) as S. rewrite E1 in S. cbn [safe] in S.
  destruct S as (sp' & L' & X1 & Cf & Ko & _ & _ & Cc & Hk).
  destruct (sent_timeout_pr t x g log sp L Q i c a e _ _ _ X Ho He Hh E1) as (l & (_ & _ & P1) & Hcd).
  pose proof (inv_pidL I a e He) as Epid.
  assert (Hn : ~ owes x1 i (pid_of (x_pub x) a)).
  { destruct Hcd as [(_ & El & _)|(_ & _ & Hav)].
    - intros H. apply owes_owed in H. destruct H as [ts H]. apply P1 in H; [|exact Hi0]. apply (proj2 H). unfold only. rewrite Z.eqb_refl, El, Epid. left. reflexivity.
    - exfalso. destruct (live_facts _ _ _ _ _ _ _ a e X He) as (_ & _ & Hl & _). destruct (vi_ring _ _ (xi_vec _ _ _ _ _ _ _ X) i c (proj1 Ho)) as [Hw Hz].
      rewrite available_val in Hav by exact Hw. rewrite <- contents_len, Hc in Hav by exact Hw. unfold RMC_MAX_PACKET, RMC_MAX_PAYLOAD in *. change (zlen (@nil Z)) with 0 in Hav. lia. }
  destruct (negb (cd =? 0)); [injection E as _ <- _; exact Hn|].
  destruct (resend_loop x1 i ps) as [[[cd2 x2] ev2]| | |] eqn:E2; cbn [bind] in E; [|discriminate E..]. injection E as _ <- _.
  destruct (proj2 Ko i c Ho) as (c1 & Ho1 & _).
  assert (Hi1 : incl ps (p_sinf (x_pub x1) (Z.to_nat i))).
  { intros b Hb. apply Hk; [apply Hi; right; exact Hb|].
    destruct (sinf_entry _ _ _ _ _ b I (Hi b (or_intror Hb))) as (f & Hf & _). rewrite (inv_pidL I b f Hf).
    intros E. apply N1. rewrite (live_pid_inj _ _ _ _ _ _ _ _ I He Hf (eq_sym E)). exact Hb. }
  destruct (resend_loop_pr t i ps x1 (g_unlend g ev1) (log ++ ev1) c1 _ _ _ (ex_intro _ sp' (ex_intro _ L' (ex_intro _ Q X1))) Ho1 N2 Hi1 E2) as (l2 & _ & _ & (_ & _ & P2) & _).
  intros H. apply Hn. apply owes_owed in H. apply owes_owed. destruct H as [ts H]. exists ts. apply P2 in H; [exact (proj1 H)|exact Hi0].
Qed.
Lemma owes_reg x g log i k : XInv false x g log -> owes x i k -> In (Z.to_nat i) (p_subs (x_pub x)).
Proof.
  intros (sp & L & Q & X) H. pose proof (xi_pub _ _ _ _ _ _ _ X) as I. apply owes_owed in H. destruct H as [ts H]. apply (owed_inv _ _ _ _ _ _ _ I) in H. rewrite (i_subs _ _ _ _ I). exact (proj2 (claim_pid_range _ _ _ _ _ _ _ I H)).
Qed.
Lemma last_opt_some {A} (l : list A) b : In b l -> exists a, last_opt l = Some a /\ In a l.
Proof.
  intros H. unfold last_opt. destruct (rev l) as [|a r] eqn:E; [apply in_rev in H; rewrite E in H; destruct H|]. exists a. split; [reflexivity|]. apply in_rev. rewrite E. left. reflexivity.
Qed.
(** One call on empty rings settles at least one debt, if there is any. *)
Lemma one_settled x g log now buf o code x' evs i0 k0 : reached x g log -> flushed x -> due x now -> announce_due x now = false -> 0 <= i0 -> owes x i0 k0 ->
  rmc_pub_timeout_process x now buf o = Ok (code, x', evs) -> exists i k, 0 <= i /\ owes x i k /\ ~ owes x' i k.
Proof.
  intros R Fl Du Ha Hi0 Hk0 E. pose proof (reached_inv _ _ _ R) as XV. pose proof XV as (sp & L & Q & X). pose proof (xi_pub _ _ _ _ _ _ _ X) as I.
  unfold rmc_pub_timeout_process in E. rewrite Ha in E. unfold pub_get_timed_out_subscribers in E.
  destruct (timed_out_subs (x_pub x) now (x_resend x) (p_subs (x_pub x))) as [subs| | |] eqn:Es; cbn [bind] in E; [|discriminate E..].
  pose proof (timed_out_subs_sel _ _ _ _ _ Es) as Sel.
  assert (Hd : forall n a, In a (p_sinf (x_pub x) n) -> ts_of (x_pub x) a + x_resend x <= now).
  { intros n a Hin. apply (Du (Z.of_nat n) ltac:(lia) (pid_of (x_pub x) a)). apply owed_at. exists a. rewrite Nat2Z.id. auto. }
  assert (Hn0 : In (Z.to_nat i0) subs).
  { apply Sel. split; [exact (owes_reg _ _ _ _ _ XV Hk0)|]. unfold owes in Hk0. apply in_map_iff in Hk0. destruct Hk0 as (b & _ & Hb). destruct (last_opt_some _ _ Hb) as (a & El & Hia). exists a. split; [exact El|exact (Hd _ _ Hia)]. }
  assert (ND : NoDup subs) by (eapply timed_out_subs_nd; [|exact Es]; rewrite (i_subs _ _ _ _ I); exact (i_regnd _ _ _ _ I)).
  destruct subs as [|n rest]; [destruct Hn0|]. inversion ND as [|? ? N1 N2]; subst.
  assert (Hop : forall m, In m (n :: rest) -> exists c, is_open (x_vec x) (Z.of_nat m) c).
  { intros m Hm. apply (vi_reg _ _ (xi_vec _ _ _ _ _ _ _ X)). apply Sel in Hm. rewrite <- (i_subs _ _ _ _ I). tauto. }
  destruct (proj1 (Sel n) (or_introl eq_refl)) as [_ (a0 & El & _)]. assert (Ha0 : In a0 (p_sinf (x_pub x) n)) by exact (proj1 (SS_gt_min _ _ _ (sinf_sorted _ _ _ _ n I) El)).
  cbn [subs_loop] in E. destruct (process_subscriber_timeout x n now) as [[[cd x1] ev1]| | |] eqn:E1; cbn [bind] in E; [|discriminate E..].
  pose proof (sub_timeout_inv false x g log n now XV (Hop n (or_introl eq_refl))) as S. rewrite E1 in S. cbn [safe] in S. destruct S as (XV1 & Cf & Ko & _).
  destruct (Hop n (or_introl eq_refl)) as (c & Ho).
  assert (Hmo : c_mode c = CONNECTED) by (destruct (vi_mode _ _ (xi_vec _ _ _ _ _ _ _ X) _ c (proj1 Ho)) as (_ & _ & [M|M]); [destruct (proj2 Ho M)|exact M]).
  assert (First : exists k, owes x (Z.of_nat n) k /\ ~ owes x1 (Z.of_nat n) k).
  { unfold process_subscriber_timeout, pub_get_timed_out_packets in E1.
    destruct (timed_out_packs (x_pub x) now (x_resend x) (p_sinf (x_pub x) n)) as [packs| | |] eqn:Ep; cbn [bind] in E1; [|discriminate E1..].
    destruct (timed_out_packs_sub _ _ _ _ _ Ep) as (tl & Etl). pose proof (sinf_sorted _ _ _ _ n I) as Srt.
    assert (Hp : In (pid_of (x_pub x) a0) (map (pid_of (x_pub x)) packs)).
    { apply (timed_out_packs_sel _ _ _ _ _ Srt Ep). split; [apply in_map; exact Ha0|]. intros b Hb _. exact (Hd _ _ Hb). }
    destruct packs as [|a ps]; [destruct Hp|]. exists (pid_of (x_pub x) a). split.
    - unfold owes. rewrite Nat2Z.id, Etl. apply in_map. left. reflexivity.
    - apply (first_fits false x g log (Z.of_nat n) c a ps cd x1 ev1 XV Ho (Fl _ _ (proj1 Ho) Hmo)); [|rewrite Nat2Z.id, Etl; apply incl_appl, incl_refl|exact E1].
      apply (NoDup_app_l _ tl). rewrite <- Etl. apply (NoDup_map_inv (pid_of (x_pub x))). clear - Srt. revert Srt. generalize (map (pid_of (x_pub x)) (p_sinf (x_pub x) n)). clear.
      induction l as [|z l IH]; intros S; [constructor|]. inversion S as [|? ? S1 S2]; subst. constructor; [|exact (IH S1)]. intros H. rewrite Forall_forall in S2. specialize (S2 _ H). lia. }
  destruct First as (k & K1 & K2). exists (Z.of_nat n), k. split; [lia|]. split; [exact K1|].
  destruct (negb (cd =? 0)); [injection E as _ <- _; exact K2|].
  destruct (subs_loop x1 now rest) as [[[cd2 x2] ev2]| | |] eqn:E2; cbn [bind] in E; [|discriminate E..]. injection E as _ <- _.
  destruct (subs_loop_pr false now rest x1 (g_unlend g ev1) (log ++ ev1) cd2 x2 ev2 XV1 N2) as (d & (_ & _ & P3) & _).
  { intros m Hm. destruct (Hop m (or_intror Hm)) as [c0 Hc0]. destruct (proj2 Ko _ c0 Hc0) as (c' & Hc' & _). eauto. }
  { exact E2. }
  intros H. apply K2. apply owes_owed in H. destruct H as [ts H]. apply owes_owed. exists ts. apply P3 in H; [exact (proj1 H)|lia].
Qed.

Definition owesb (x : pctx) (p : Z * Z) : bool := if in_dec Z.eq_dec (snd p) (map (pid_of (x_pub x)) (p_sinf (x_pub x) (Z.to_nat (fst p)))) then true else false.
Lemma owesb_iff x i k : owesb x (i, k) = true <-> owes x i k.
Proof. unfold owesb, owes. cbn [fst snd]. destruct (in_dec _ _ _); split; intros; congruence || assumption || contradiction. Qed.
Lemma filter_le {A} (f : A -> bool) l : (length (filter f l) <= length l)%nat.
Proof. induction l as [|b l IH]; [constructor|]. cbn [filter length]. destruct (f b); cbn [length]; lia. Qed.
Lemma filter_lt {A} (f : A -> bool) l a : In a l -> f a = false -> (length (filter f l) < length l)%nat.
Proof.
  induction l as [|b l IH]; [intros []|]. intros [->|H] E; cbn [filter length].
  - rewrite E. pose proof (filter_le f l). lia.
  - specialize (IH H E). destruct (f b); cbn [length]; lia.
Qed.
Lemma debts_shrink x x' l : debts x l -> (forall i k, 0 <= i -> owes x' i k -> owes x i k) ->
  debts x' (filter (owesb x') l) /\ (forall i k, 0 <= i -> owes x i k -> ~ owes x' i k -> (length (filter (owesb x') l) < length l)%nat).
Proof.
  intros [ND D] M. split; [split; [apply NoDup_filter; exact ND|]|].
  - intros i k. rewrite filter_In, owesb_iff, D. split; [tauto|]. intros [Hi Ho]. auto.
  - intros i k Hi Ho Hn. apply (filter_lt _ l (i, k)); [apply D; auto|]. destruct (owesb x' (i, k)) eqn:E; [apply owesb_iff in E; contradiction|reflexivity].
Qed.
(** With empty send buffers, no announce due and every debt due, a call of
    rmc_pub_timeout_process that returns 0 leaves no debt, and one that returns EAGAIN leaves
    fewer than before. *)
Theorem c82_round : forall x g log now buf o code x' evs l, reached x g log -> clock_ok log -> flushed x -> due x now -> announce_due x now = false ->
  rmc_pub_timeout_process x now buf o = Ok (code, x', evs) -> debts x l ->
  exists l', debts x' l' /\ incl l' l /\ ((code = 0 /\ l' = []) \/ (code = EAGAIN /\ (length l' < length l)%nat)).
Proof.
  intros x g log now buf o code x' evs l R C Fl Du Ha E D. destruct (c43_processing_exact_partial x g log now buf o code x' evs R C Ha E) as (A1 & A2 & A3 & A4).
  assert (M : forall i k, 0 <= i -> owes x' i k -> owes x i k) by (intros i k Hi H; apply owes_owed in H; destruct H as [ts H]; apply owes_owed; exists ts; apply A1; assumption).
  destruct (debts_shrink x x' l D M) as [D' Lt]. exists (filter (owesb x') l). split; [exact D'|]. split; [apply incl_filter|].
  destruct A4 as [->|(-> & i & k & ts & Hi & Hd & Ho)]; [left|right]; (split; [reflexivity|]).
  - destruct (filter (owesb x') l) as [|[i k] r] eqn:Ef; [reflexivity|exfalso]. destruct (proj1 (proj2 D' i k) (or_introl eq_refl)) as [Hi Ho].
    apply owes_owed in Ho. destruct Ho as [ts Ho]. exact (A3 eq_refl i Hi (Du i Hi) k ts Ho).
  - assert (Ho0 : owes x i k) by (apply owes_owed; exists ts; apply A1; assumption).
    destruct (one_settled x g log now buf o _ x' evs i k R Fl Du Ha Hi Ho0 E) as (i1 & k1 & H1 & H2 & H3). exact (Lt i1 k1 H1 H2 H3).
Qed.

(** ** Runs *)
(** The bytes of connection [i]'s stream so far, written or still to be written. *)
Definition stream (x : pctx) (log : list pev) (i : Z) : list Z :=
  s_sent (since_open i log) ++ match slot (x_vec x) i with Ok c => contents (c_wbuf c) | _ => [] end.
(** A run in which the application writes to subscribers' sockets, as much at a time as they
    take, and processes timeouts [n] times, each time with empty send buffers, everything owed
    due and no announce due. *)
Inductive retry (x : pctx) (g : ghost) (log : list pev) : nat -> pctx -> ghost -> list pev -> Prop :=
| retry_none : retry x g log 0 x g log
| retry_write n x1 g1 log1 i o code x2 evs : retry x g log n x1 g1 log1 ->
    xok x1 g1 (XWrite i (WrTcp o)) -> xstep x1 (XWrite i (WrTcp o)) = Ok (code, x2, evs) ->
    retry x g log n x2 (g_next g1 x1 (XWrite i (WrTcp o)) code evs) (log1 ++ evs)
| retry_timeout n x1 g1 log1 now buf o code x2 evs : retry x g log n x1 g1 log1 ->
    flushed x1 -> due x1 now -> announce_due x1 now = false ->
    xok x1 g1 (XTimeout now buf o) -> xstep x1 (XTimeout now buf o) = Ok (code, x2, evs) ->
    retry x g log (S n) x2 (g_next g1 x1 (XTimeout now buf o) code evs) (log1 ++ evs).
(** What such a run does: every connection stays open, what it no longer owes was put on its
    stream as packet commands, each packet once, and nothing else was put there; nobody owes
    anything new. *)
Definition settles (x : pctx) (g : ghost) (log : list pev) (x' : pctx) (log' : list pev) : Prop :=
  (forall i k ts, 0 <= i -> owed x' i k ts -> owed x i k ts) /\
  (forall i, connected x i -> connected x' i /\
     exists ks cmds, stream x' log' i = stream x log i ++ flat_map wire cmds /\
       Forall2 (packet_cmd (x_node x) (x_lip x) (g_data g)) ks cmds /\ NoDup ks /\
       (forall k, In k ks -> owes x i k) /\ (forall k, owes x' i k <-> owes x i k /\ ~ In k ks)).
Definition PG (x : pctx) (g : ghost) (log : list pev) (x' : pctx) (g' : ghost) (log' : list pev) : Prop :=
  same_cfg x x' /\ g_data g' = g_data g /\ MS x x' /\ flat_map cast_ts log' = flat_map cast_ts log /\ settles x g log x' log'.
Lemma PG_refl x g log : PG x g log x g log.
Proof.
  split; [apply cfg_refl|]. split; [reflexivity|]. split; [exact (fun p h => h)|]. split; [reflexivity|]. split; [auto|]. intros i Hc. split; [exact Hc|]. exists [], []. cbn [flat_map]. rewrite app_nil_r.
  split; [reflexivity|]. split; [constructor|]. split; [constructor|]. split; [intros k []|]. intros k. split; [intros H; split; [exact H|intros []]|tauto].
Qed.
Lemma PG_trans x g log y g1 l1 z g2 l2 : PG x g log y g1 l1 -> PG y g1 l1 z g2 l2 -> PG x g log z g2 l2.
Proof.
  intros (A1 & A2 & A3 & A4 & A5 & A6) (B1 & B2 & B3 & B4 & B5 & B6). split; [exact (cfg_trans _ _ _ A1 B1)|]. split; [congruence|]. split; [exact (MS_trans _ _ _ A3 B3)|]. split; [congruence|]. split; [auto|].
  intros i Hc. destruct (A6 i Hc) as (Hc1 & ks1 & cm1 & S1 & F1 & N1 & I1 & O1). destruct (B6 i Hc1) as (Hc2 & ks2 & cm2 & S2 & F2 & N2 & I2 & O2). split; [exact Hc2|].
  exists (ks1 ++ ks2), (cm1 ++ cm2). rewrite flat_map_app, app_assoc, <- S1. split; [exact S2|]. split.
  { apply Forall2_app; [exact F1|]. destruct A1 as (_ & _ & _ & _ & _ & _ & _ & _ & En & El & _). rewrite En, El, A2 in F2. exact F2. }
  split; [|split].
  - apply ListHeapProofs.NoDup_app_intro; [exact N1|exact N2|]. intros k Hk Hk2. apply I2, O1 in Hk2. exact (proj2 Hk2 Hk).
  - intros k Hk. apply in_app_or in Hk. destruct Hk as [Hk|Hk]; [exact (I1 k Hk)|apply I2, O1 in Hk; tauto].
  - intros k. rewrite O2, O1, in_app_iff. tauto.
Qed.

Lemma stream_slot x log i c : slot (x_vec x) i = Ok c -> stream x log i = s_sent (since_open i log) ++ contents (c_wbuf c).
Proof. intros H. unfold stream. rewrite H. reflexivity. Qed.
Lemma SSgt_NoDup l : StronglySorted Z.gt l -> NoDup l.
Proof. induction 1 as [|a l S IH F]; constructor; [|exact IH]. intros H. rewrite Forall_forall in F. specialize (F _ H). lia. Qed.
Lemma timeout_PG x g log now buf o code x' evs : reached x g log -> announce_due x now = false -> xok x g (XTimeout now buf o) ->
  rmc_pub_timeout_process x now buf o = Ok (code, x', evs) -> PG x g log x' (g_next g x (XTimeout now buf o) code evs) (log ++ evs).
Proof.
  intros R Ha Hok E. pose proof (reached_inv _ _ _ R) as XV. destruct (timeout_tr _ _ _ _ _ _ _ _ _ _ XV Ha E) as (_ & Cf & _).
  split; [exact Cf|]. split; [reflexivity|]. split; [unfold rmc_pub_timeout_process in E; rewrite Ha in E; destruct (pub_get_timed_out_subscribers _ _ _) as [subs| | |]; cbn [bind] in E; [|discriminate E..]; exact (proj2 (subs_NM _ _ _ _ _ _ E))|].
  split; [rewrite flat_map_app; pose proof (timeout_calm _ _ _ _ _ _ _ Ha E) as K; replace (flat_map cast_ts evs) with (@nil Z); [apply app_nil_r|]; clear - K; induction K as [|e l H _ IH]; [reflexivity|]; cbn [flat_map]; rewrite <- IH; destruct e; try reflexivity; destruct H|].
  split.
  - destruct (timeout_pr _ _ _ _ _ _ _ _ _ _ XV Ha E) as (d & (_ & _ & P3) & _). intros i k ts Hi Ho. apply P3 in Ho; [exact (proj1 Ho)|exact Hi].
  - intros i (c & Hs & Hm). destruct (c47_dropped_only_after_resend x g log now buf o code x' evs i c R Hok E Hs Hm) as (c' & ks & cmds & Hs' & Hm' & Sc & Ct & F & So & Hin & Ho).
    split; [exists c'; auto|]. exists ks, cmds. rewrite (stream_slot _ _ _ _ Hs), (stream_slot _ _ _ _ Hs'), Sc, Ct, app_assoc. split; [reflexivity|]. split; [exact F|]. split; [exact (SSgt_NoDup _ So)|]. auto.
Qed.
Lemma write_facts x g log i o code x' evs : reached x g log -> xok x g (XWrite i (WrTcp o)) -> xstep x (XWrite i (WrTcp o)) = Ok (code, x', evs) ->
  x_pub x' = x_pub x /\ v_size (x_vec x') = v_size (x_vec x) /\ PG x g log x' (g_next g x (XWrite i (WrTcp o)) code evs) (log ++ evs) /\
  (forall j, 0 <= j -> j <> i -> slot (x_vec x') j = slot (x_vec x) j) /\
  (forall c c', slot (x_vec x) i = Ok c -> c_mode c = CONNECTED -> slot (x_vec x') i = Ok c' -> match o with WOk n => zlen (contents (c_wbuf c)) <= n | WErr _ => False end -> contents (c_wbuf c') = []).
Proof.
  intros R Hok E. pose proof (reached_inv _ _ _ R) as XV. pose proof XV as (sp & L & Q & X). cbn [xstep rmc_pub_write] in E.
  assert (Hi : 0 <= i) by (destruct o; cbn in Hok; lia).
  assert (Same : forall cd, (forall c, slot (x_vec x) i = Ok c -> c_mode c = CONNECTED -> contents (c_wbuf c) = []) -> Ok (cd, x, []) = Ok (code, x', evs) ->
    x_pub x' = x_pub x /\ v_size (x_vec x') = v_size (x_vec x) /\ PG x g log x' (g_next g x (XWrite i (WrTcp o)) code evs) (log ++ evs) /\
    (forall j, 0 <= j -> j <> i -> slot (x_vec x') j = slot (x_vec x) j) /\
    (forall c c', slot (x_vec x) i = Ok c -> c_mode c = CONNECTED -> slot (x_vec x') i = Ok c' -> match o with WOk n => zlen (contents (c_wbuf c)) <= n | WErr _ => False end -> contents (c_wbuf c') = [])).
  { intros cd Hc E0. injection E0 as _ <- <-. rewrite app_nil_r. split; [reflexivity|]. split; [reflexivity|]. split; [|split; [reflexivity|]].
    - destruct (PG_refl x g log) as (A1 & A2 & A3 & A4 & A5). exact (conj A1 (conj A2 (conj A3 (conj A4 A5)))).
    - intros c c' Hs Hm Hs' _. assert (c' = c) as -> by congruence. exact (Hc c Hs Hm). }
  destruct (Z.leb_spec (rmc_pub_get_max_subscriber_count x) i) as [Lm|Lm].
  { cbn [bind] in E. refine (Same _ _ E). intros c Hs _. pose proof (slot_range _ _ _ Hs). pose proof (vi_size _ _ (xi_vec _ _ _ _ _ _ _ X)). unfold rmc_pub_get_max_subscriber_count, get_vector_size in Lm. unfold RMC_LISTEN_INDEX in *. rewrite ?u16_small in Lm by (unfold is_u16; lia). exfalso. lia. }
  destruct (find_index_cases (x_vec x) i Hi) as [[Ef Hcl]|(c & Ef & Ho)]; rewrite Ef in E; cbn [bind] in E.
  { refine (Same _ _ E). intros c Hs Hm. exfalso. eapply Hcl. split; [exact Hs|]. rewrite Hm. discriminate. }
  destruct (vi_mode _ _ (xi_vec _ _ _ _ _ _ _ X) i c (proj1 Ho)) as (_ & _ & [M|M]); [destruct (proj2 Ho M)|].
  rewrite M in E. change (CONNECTED =? CONNECTED) with true in E. cbn [negb] in E. destruct (vi_ring _ _ (xi_vec _ _ _ _ _ _ _ X) i c (proj1 Ho)) as [Hw Hz].
  destruct (circ_buf_in_use (c_wbuf c) =? 0) eqn:Eu.
  { cbn [bind] in E. refine (Same _ _ E). intros c0 Hs _. assert (c0 = c) as -> by (destruct Ho; congruence). pose proof (contents_len _ Hw) as CL. destruct (contents (c_wbuf c)) as [|b q]; [reflexivity|]. rewrite zlen_cons in CL. pose proof (zlen_nonneg q). lia. }
  destruct (tcp_write_spec (c_wbuf c) o Hw ltac:(unfold RMC_MAX_PACKET in *; lia)) as (wb' & Et & Hw' & Hz' & Hc' & _); [destruct o; [exact Logic.I|cbn in Hok; tauto]|].
  rewrite Et in E. cbn [bind w_code w_left w_sent w_buf] in E. pose proof (slot_range _ _ _ (proj1 Ho)) as Rg.
  match type of E with Ok (_, set_vec x (put_slot _ _ ?c0), _) = _ => set (c1 := c0) in E end. injection E as _ <- <-.
  assert (Hs1 : slot (put_slot (x_vec x) i c1) i = Ok c1) by (apply slot_put_same; exact Rg).
  assert (Ow : forall j k ts, owed (set_vec x (put_slot (x_vec x) i c1)) j k ts <-> owed x j k ts) by reflexivity.
  assert (Osl : forall j, 0 <= j -> j <> i -> slot (put_slot (x_vec x) i c1) j = slot (x_vec x) j) by (intros j Hj Nj; apply slot_put_other; [exact Hi|exact Nj]).
  split; [reflexivity|]. split; [cbn [set_vec x_vec]; apply size_put|]. split; [|split; [exact Osl|]].
  - split; [unfold same_cfg; repeat (split; [reflexivity|]); reflexivity|]. split; [reflexivity|]. split; [exact (fun p h => h)|]. split; [rewrite flat_map_app; cbn [flat_map cast_ts app]; apply app_nil_r|]. split; [intros j k ts _; apply Ow|].
    intros j (d & Hd & Hdm). assert (Hj : 0 <= j) by exact (proj1 (slot_range _ _ _ Hd)).
    assert (G : connected (set_vec x (put_slot (x_vec x) i c1)) j /\ stream (set_vec x (put_slot (x_vec x) i c1)) (log ++ [PvTcp i match o with WErr _ => [] | WOk n => ztake n (contents (c_wbuf c)) end; PvConn (EvMod (c_desc c) i (c_action c) (c_action c1))]) j = stream x log j).
    { destruct (Z.eq_dec j i) as [->|Nj].
      - assert (d = c) as -> by (destruct Ho; congruence). split; [exists c1; split; [exact Hs1|exact M]|].
        rewrite (stream_slot _ _ _ _ Hd), (stream_slot (set_vec x (put_slot (x_vec x) i c1)) _ i c1 Hs1). rewrite since_app. cbn [fold_left since_ev]. rewrite Z.eqb_refl. cbn [s_sent]. unfold c1. cbn [set_action set_wbuf c_wbuf]. rewrite Hc'.
        destruct o as [er|n]; [rewrite app_nil_r; reflexivity|]. rewrite <- app_assoc, ztake_zdrop. reflexivity.
      - assert (Hd1 : slot (put_slot (x_vec x) i c1) j = Ok d) by (rewrite Osl by assumption; exact Hd). split; [exists d; auto|].
        rewrite (stream_slot _ _ _ _ Hd), (stream_slot (set_vec x (put_slot (x_vec x) i c1)) _ j d Hd1). rewrite since_app. cbn [fold_left since_ev]. replace (i =? j) with false by lia. reflexivity. }
    destruct G as [G1 G2]. split; [exact G1|]. exists [], []. cbn [flat_map]. rewrite app_nil_r. split; [exact G2|]. split; [constructor|]. split; [constructor|]. split; [intros k []|]. intros k. split; [intros H; split; [exact H|intros []]|tauto].
  - intros d d' Hd _ Hd' Hn. assert (d = c) as -> by (destruct Ho; congruence). cbn [set_vec x_vec] in Hd'. rewrite Hs1 in Hd'. injection Hd' as <-. unfold c1. cbn [set_action set_wbuf c_wbuf]. rewrite Hc'.
    destruct o as [er|n]; [destruct Hn|]. apply zdrop_all. exact Hn.
Qed.

Lemma retry_reached x g log n x' g' log' : reached x g log -> retry x g log n x' g' log' -> reached x' g' log'.
Proof. intros R H. induction H as [|n x1 g1 log1 i o code x2 evs H IH Hok E|n x1 g1 log1 now buf o code x2 evs H IH Fl Du Ha Hok E]; [exact R| |]; exact (reached_step _ _ _ _ _ _ _ IH Hok E). Qed.
Lemma retry_PG x g log n x' g' log' : reached x g log -> retry x g log n x' g' log' -> PG x g log x' g' log'.
Proof.
  intros R H. induction H as [|n x1 g1 log1 i o code x2 evs H IH Hok E|n x1 g1 log1 now buf o code x2 evs H IH Fl Du Ha Hok E]; [apply PG_refl| |];
    pose proof (retry_reached _ _ _ _ _ _ _ R H) as R1; refine (PG_trans _ _ _ _ _ _ _ _ _ IH _).
  - destruct (write_facts _ _ _ _ _ _ _ _ R1 Hok E) as (_ & _ & P & _). exact P.
  - exact (timeout_PG _ _ _ _ _ _ _ _ _ R1 Ha Hok E).
Qed.
(** Whatever the sockets take: in a run with more timeouts than there were debts every debt is
    gone, and everything that was owed is on the stream of the connection that owed it. *)
Theorem c82_drains : forall x g log l n x' g' log', reached x g log -> clock_ok log -> debts x l -> retry x g log n x' g' log' ->
  settles x g log x' log' /\ exists l', debts x' l' /\ incl l' l /\ (l' = [] \/ (length l' + n <= length l)%nat).
Proof.
  intros x g log l n x' g' log' R C D H. split; [destruct (retry_PG _ _ _ _ _ _ _ R H) as (_ & _ & _ & _ & P); exact P|].
  induction H as [|n x1 g1 log1 i o code x2 evs H IH Hok E|n x1 g1 log1 now buf o code x2 evs H IH Fl Du Ha Hok E].
  - exists l. split; [exact D|]. split; [apply incl_refl|]. right. lia.
  - destruct IH as (l1 & D1 & I1 & B1). destruct (write_facts _ _ _ _ _ _ _ _ (retry_reached _ _ _ _ _ _ _ R H) Hok E) as (Ep & _).
    exists l1. split; [|auto]. destruct D1 as [ND D1]. split; [exact ND|]. intros j k. rewrite D1. unfold owes. rewrite Ep. reflexivity.
  - destruct IH as (l1 & D1 & I1 & B1). pose proof (retry_reached _ _ _ _ _ _ _ R H) as R1. destruct (retry_PG _ _ _ _ _ _ _ R H) as (_ & _ & _ & Ct & _).
    assert (C1 : clock_ok log1) by (unfold clock_ok; rewrite Ct; exact C).
    destruct (c82_round x1 g1 log1 now buf o code x2 evs l1 R1 C1 Fl Du Ha E D1) as (l2 & D2 & I2 & B2). exists l2. split; [exact D2|]. split; [exact (incl_tran I2 I1)|].
    destruct B2 as [[_ ->]|[_ B2]]; [left; reflexivity|right]. destruct B1 as [->|B1]; [cbn in B2; lia|lia].
Qed.
(** And such a run always exists: with no announce due and everything due at [now], the
    application can get all debts onto TCP with one more call than there are debts. *)
Lemma retry_trans x g log n y g1 l1 m z g2 l2 : retry x g log n y g1 l1 -> retry y g1 l1 m z g2 l2 -> retry x g log (n + m) z g2 l2.
Proof.
  intros A B. induction B as [|m x1 g' log1 i o code x2 evs H IH Hok E|m x1 g' log1 now buf o code x2 evs H IH Fl Du Ha Hok E].
  - rewrite Nat.add_0_r. exact A.
  - apply retry_write; assumption.
  - rewrite Nat.add_succ_r. apply retry_timeout; assumption.
Qed.
Lemma flush_run : forall m x g log, reached x g log -> exists x' g' log', retry x g log 0 x' g' log' /\ x_pub x' = x_pub x /\ v_size (x_vec x') = v_size (x_vec x) /\
  (forall i c, slot (x_vec x') i = Ok c -> i < Z.of_nat m -> c_mode c = CONNECTED -> contents (c_wbuf c) = []).
Proof.
  induction m as [|m IH]; intros x g log R.
  - exists x, g, log. split; [constructor|]. split; [reflexivity|]. split; [reflexivity|]. intros i c Hs Hi. pose proof (slot_range _ _ _ Hs). lia.
  - destruct (IH x g log R) as (x1 & g1 & log1 & T & Ep & Ez & Fl). pose proof (retry_reached _ _ _ _ _ _ _ R T) as R1. pose proof (reached_inv _ _ _ R1) as (sp & L & Q & X).
    assert (Skip : (forall c, slot (x_vec x1) (Z.of_nat m) = Ok c -> c_mode c = CONNECTED -> contents (c_wbuf c) = []) -> exists x' g' log', retry x g log 0 x' g' log' /\ x_pub x' = x_pub x /\ v_size (x_vec x') = v_size (x_vec x) /\
      (forall i c, slot (x_vec x') i = Ok c -> i < Z.of_nat (S m) -> c_mode c = CONNECTED -> contents (c_wbuf c) = [])).
    { intros Hm. exists x1, g1, log1. split; [exact T|]. split; [exact Ep|]. split; [exact Ez|]. intros i c Hs Hi Hc. destruct (Z.eq_dec i (Z.of_nat m)) as [->|Ni]; [exact (Hm c Hs Hc)|exact (Fl i c Hs ltac:(lia) Hc)]. }
    destruct (slot (x_vec x1) (Z.of_nat m)) as [c| | |] eqn:Hs; [|apply Skip; discriminate..].
    destruct (Z.eq_dec (c_mode c) CONNECTED) as [Hm|Hm]; [|apply Skip; intros c0 E0; congruence].
    pose proof (slot_range _ _ _ Hs) as Rg. pose proof (vi_size _ _ (xi_vec _ _ _ _ _ _ _ X)) as Hv. destruct (vi_ring _ _ (xi_vec _ _ _ _ _ _ _ X) _ c Hs) as [Hw Hz].
    pose proof (contents_len _ Hw) as CL. pose proof (in_use_bounds _ Hw) as IB.
    set (o := XWrite (Z.of_nat m) (WrTcp (WOk (zlen (contents (c_wbuf c)))))).
    assert (Hok : xok x1 g1 o) by (cbn; unfold is_u32, RMC_LISTEN_INDEX, RMC_MAX_PACKET in *; lia).
    destruct (c77_pub_other x1 g1 log1 o R1 Hok Logic.I) as [[[code x2] evs] E]. destruct (write_facts _ _ _ _ _ _ _ _ R1 Hok E) as (Ep2 & Ez2 & _ & Ho & Hf).
    exists x2, (g_next g1 x1 o code evs), (log1 ++ evs). split; [exact (retry_write _ _ _ _ _ _ _ _ _ _ _ _ T Hok E)|]. split; [congruence|]. split; [congruence|].
    intros i d Hd Hi Hdm. destruct (Z.eq_dec i (Z.of_nat m)) as [->|Ni]; [refine (Hf c d Hs Hm Hd _); lia|].
    pose proof (slot_range _ _ _ Hd). rewrite Ho in Hd by lia. exact (Fl i d Hd ltac:(lia) Hdm).
Qed.
Lemma flush_all x g log : reached x g log -> exists x' g' log', retry x g log 0 x' g' log' /\ x_pub x' = x_pub x /\ flushed x'.
Proof.
  intros R. destruct (flush_run (Z.to_nat (v_size (x_vec x))) x g log R) as (x' & g' & log' & T & Ep & Ez & Fl). exists x', g', log'. split; [exact T|]. split; [exact Ep|].
  intros i c Hs Hm. refine (Fl i c Hs _ Hm). pose proof (slot_range _ _ _ Hs). lia.
Qed.
Lemma debts_exist x g log : reached x g log -> exists l, debts x l.
Proof.
  intros R. pose proof (reached_inv _ _ _ R) as XV. pose proof XV as (sp & L & Q & X). pose proof (xi_pub _ _ _ _ _ _ _ X) as I.
  assert (ND : NoDup (p_subs (x_pub x))) by (rewrite (i_subs _ _ _ _ I); exact (i_regnd _ _ _ _ I)).
  exists (flat_map (fun n => map (fun a => (Z.of_nat n, pid_of (x_pub x) a)) (p_sinf (x_pub x) n)) (p_subs (x_pub x))). split.
  - clear XV. induction (p_subs (x_pub x)) as [|n l IH]; [constructor|]. inversion ND as [|? ? N1 N2]; subst. cbn [flat_map]. apply ListHeapProofs.NoDup_app_intro; [|exact (IH N2)|].
    + rewrite <- (map_map (pid_of (x_pub x)) (fun k => (Z.of_nat n, k))). apply FinFun.Injective_map_NoDup; [intros a b E; congruence|]. exact (SSgt_NoDup _ (sinf_sorted _ _ _ _ n I)).
    + intros p Hp Hq. apply in_map_iff in Hp. destruct Hp as (a & <- & _). apply in_flat_map in Hq. destruct Hq as (m & Hm & Hq). apply in_map_iff in Hq. destruct Hq as (b & Hb & _).
      assert (Z.of_nat m = Z.of_nat n) by congruence. apply N1. replace n with m by lia. exact Hm.
  - intros i k. rewrite in_flat_map. split.
    + intros (n & Hn & H). apply in_map_iff in H. destruct H as (a & E & Ha). injection E as <- <-. split; [lia|]. unfold owes. rewrite Nat2Z.id. apply in_map. exact Ha.
    + intros [Hi Ho]. exists (Z.to_nat i). split; [exact (owes_reg _ _ _ _ _ XV Ho)|]. unfold owes in Ho. apply in_map_iff in Ho. destruct Ho as (a & <- & Ha). apply in_map_iff. exists a. rewrite Z2Nat.id by exact Hi. auto.
Qed.
Theorem c82_can_always_drain : forall x g log now buf, reached x g log -> clock_ok log -> due x now -> announce_due x now = false -> buf <> 0 -> x_mem x buf = None ->
  exists l n x' g' log', debts x l /\ (n <= S (length l))%nat /\ retry x g log n x' g' log' /\ drained x' /\ flushed x'.
Proof.
  intros x g log now buf R C Du Ha Hb Hm. destruct (debts_exist x g log R) as [l D].
  assert (Go : forall b y g1 l1 n, (length b <= n)%nat -> debts y b -> reached y g1 l1 -> clock_ok l1 -> due y now -> announce_due y now = false -> x_mem y buf = None ->
    exists n' x' g' log', (n' <= S n)%nat /\ retry y g1 l1 n' x' g' log' /\ drained x').
  { intros b y g1 l1 n. revert b y g1 l1. induction n as [|n IH]; intros b y g1 l1 Hn Db Ry Cy Dy Ay My.
    - destruct b; [|cbn in Hn; lia]. exists 0%nat, y, g1, l1. split; [lia|]. split; [constructor|]. intros i k Hi Ho. destruct (proj2 (proj2 Db i k) (conj Hi Ho)).
    - destruct (flush_all y g1 l1 Ry) as (y1 & g2 & l2 & T & Ep & Fl). pose proof (retry_reached _ _ _ _ _ _ _ Ry T) as R1. destruct (retry_PG _ _ _ _ _ _ _ Ry T) as (Cf & _ & MM & Ct & _).
      destruct Cf as (_ & _ & _ & _ & Ea & En & _ & Er & _).
      assert (A1 : announce_due y1 now = false) by (unfold announce_due in *; rewrite Ea, En; exact Ay).
      assert (D1 : due y1 now) by (intros i Hi k ts Ho; rewrite Er; apply (Dy i Hi k ts); unfold owed in *; rewrite <- Ep; exact Ho).
      assert (C1 : clock_ok l2) by (unfold clock_ok; rewrite Ct; exact Cy).
      assert (Db1 : debts y1 b) by (destruct Db as [ND Db]; split; [exact ND|]; intros i k; rewrite Db; unfold owes; rewrite Ep; reflexivity).
      assert (Hok : xok y1 g2 (XTimeout now buf AnnNone)) by (cbn; auto).
      destruct (c82_flushed_never_crashes y1 g2 l2 now buf AnnNone R1 Fl Hok) as [[[code y2] evs] E].
      pose proof (timeout_PG _ _ _ _ _ _ _ _ _ R1 A1 Hok E) as (Cf2 & _ & MM2 & Ct2 & Mo & _).
      pose proof (retry_timeout _ _ _ _ _ _ _ now buf AnnNone code y2 evs T Fl D1 A1 Hok E) as T2.
      destruct (c82_round y1 g2 l2 now buf AnnNone code y2 evs b R1 C1 Fl D1 A1 E Db1) as (b2 & Db2 & _ & [[_ ->]|[_ Hlt]]).
      + exists 1%nat, y2, (g_next g2 y1 (XTimeout now buf AnnNone) code evs), (l2 ++ evs). split; [lia|]. split; [exact T2|]. intros i k Hi Ho. destruct (proj2 (proj2 Db2 i k) (conj Hi Ho)).
      + destruct Cf2 as (_ & _ & _ & _ & Ea2 & En2 & _ & Er2 & _).
        destruct (IH b2 y2 (g_next g2 y1 (XTimeout now buf AnnNone) code evs) (l2 ++ evs)) as (n' & x' & g' & log' & Hn' & T' & Dr).
        * lia.
        * exact Db2.
        * exact (reached_step _ _ _ (XTimeout now buf AnnNone) _ _ _ R1 Hok E).
        * unfold clock_ok. rewrite Ct2. exact C1.
        * intros i Hi k ts Ho. rewrite Er2. apply (D1 i Hi k ts). exact (Mo i k ts Hi Ho).
        * unfold announce_due in *. rewrite Ea2, En2. exact A1.
        * auto.
        * exists (1 + n')%nat, x', g', log'. split; [lia|]. split; [exact (retry_trans _ _ _ _ _ _ _ _ _ _ _ T2 T')|exact Dr]. }
  destruct (Go l x g log (length l) (le_n _) D R C Du Ha Hm) as (n & x1 & g1 & log1 & Hn & T & Dr). pose proof (retry_reached _ _ _ _ _ _ _ R T) as R1.
  destruct (flush_all x1 g1 log1 R1) as (x2 & g2 & log2 & T2 & Ep & Fl). exists l, n, x2, g2, log2. split; [exact D|]. split; [exact Hn|]. split.
  - rewrite <- (Nat.add_0_r n). exact (retry_trans _ _ _ _ _ _ _ _ _ _ _ T T2).
  - split; [|exact Fl]. intros i k Hi Ho. apply (Dr i k Hi). unfold owes in *. rewrite <- Ep. exact Ho.
Qed.

(** ** Starving *)
(** A run in which the application processes timeouts [n] times: first not before the announce
    is due, then each time at least one announce interval after the time before; [t]: the time
    from which the next call is allowed. *)
Inductive rare (x : pctx) (g : ghost) (log : list pev) : nat -> Z -> pctx -> ghost -> list pev -> Prop :=
| rare_none : rare x g log 0 (x_anext x) x g log
| rare_call n t x1 g1 log1 now buf o code x2 evs : rare x g log n t x1 g1 log1 -> t <= now ->
    xok x1 g1 (XTimeout now buf o) -> xstep x1 (XTimeout now buf o) = Ok (code, x2, evs) ->
    rare x g log (S n) (now + x_aint x) x2 (g_next g1 x1 (XTimeout now buf o) code evs) (log1 ++ evs).
Lemma rare_reached x g log n t x' g' log' : reached x g log -> rare x g log n t x' g' log' -> reached x' g' log'.
Proof. intros R H. induction H as [|n t x1 g1 log1 now buf o code x2 evs H IH Ht Hok E]; [exact R|]. exact (reached_step _ _ _ _ _ _ _ IH Hok E). Qed.
Lemma rare_facts x g log n t x' g' log' : reached x g log -> 0 < x_aint x -> 0 < x_anext x -> rare x g log n t x' g' log' ->
  x_aint x' = x_aint x /\ x_anext x' = t /\ 0 < t /\ x_vec x' = x_vec x /\ (forall p, x_mem x' p = x_mem x p) /\ forall i k ts, owed x' i k ts <-> owed x i k ts.
Proof.
  intros R Ha Hn H. induction H as [|n t x1 g1 log1 now buf o code x2 evs H IH Ht Hok E].
  - repeat (split; [reflexivity || exact Hn|]). reflexivity.
  - destruct IH as (I1 & I2 & I3 & I4 & I5 & I6). cbn [xstep] in E.
    destruct (c44_announce_due x1 g1 log1 now buf o code x2 evs (rare_reached _ _ _ _ _ _ _ _ R H) Hok ltac:(lia) ltac:(lia) ltac:(lia) E) as (_ & A1 & A2 & _ & A3 & A4 & A5 & _).
    split; [congruence|]. split; [congruence|]. split; [lia|]. split; [congruence|]. split; [intros p; rewrite A4; apply I5|]. intros i k ts. rewrite A5. apply I6.
Qed.
(** In such a run nothing is ever resent: the streams and the debts stay as they were, however
    long ago they were due. *)
Theorem c82_starved : forall x g log n t x' g' log', reached x g log -> 0 < x_aint x -> 0 < x_anext x -> rare x g log n t x' g' log' ->
  x_vec x' = x_vec x /\ forall i k ts, owed x' i k ts <-> owed x i k ts.
Proof. intros x g log n t x' g' log' R Ha Hn H. destruct (rare_facts _ _ _ _ _ _ _ _ R Ha Hn H) as (_ & _ & _ & A & _ & B). auto. Qed.
(** And it can go on for ever: the promise that what is due is resent sooner or later, or that
    the debts of a publisher which processes its timeouts again and again go away, is false. *)
Theorem c82_retry_refuted : forall x g log i k ts buf, reached x g log -> 0 < x_aint x -> 0 < x_anext x -> owed x i k ts -> buf <> 0 -> x_mem x buf = None ->
  forall n bound, exists t x' g' log', rare x g log n t x' g' log' /\ owed x' i k ts /\
    (forall now, bound <= now -> t <= now -> exists x'' evs, rmc_pub_timeout_process x' now buf AnnNo = Ok (0, x'', evs) /\ owed x'' i k ts).
Proof.
  intros x g log i k ts buf R Ha Hn Ho Hb Hm n bound.
  assert (Run : forall n, exists t x' g' log', rare x g log n t x' g' log').
  { clear n. induction n as [|n (t & x1 & g1 & log1 & H)]; [exists (x_anext x), x, g, log; constructor|].
    destruct (rare_facts _ _ _ _ _ _ _ _ R Ha Hn H) as (I1 & I2 & I3 & I4 & I5 & I6). assert (Hok : xok x1 g1 (XTimeout t buf AnnNo)) by (cbn; rewrite I5; auto).
    assert (E : exists x2 evs, xstep x1 (XTimeout t buf AnnNo) = Ok (0, x2, evs)).
    { cbn [xstep]. unfold rmc_pub_timeout_process, announce_due. replace (x_aint x1 =? 0) with false by lia. replace (x_anext x1 =? 0) with false by lia. replace (x_anext x1 - t <=? 0) with true by lia. cbn [negb andb bind]. eauto. }
    destruct E as (x2 & evs & E). do 4 eexists. exact (rare_call _ _ _ _ _ _ _ _ t buf AnnNo _ _ _ H (Z.le_refl t) Hok E). }
  destruct (Run n) as (t & x' & g' & log' & H). exists t, x', g', log'. split; [exact H|]. destruct (rare_facts _ _ _ _ _ _ _ _ R Ha Hn H) as (I1 & I2 & I3 & I4 & I5 & I6). split; [apply I6; exact Ho|].
  intros now _ Ht. assert (Hok : xok x' g' (XTimeout now buf AnnNo)) by (cbn; rewrite I5; auto).
  assert (E : exists x2 evs, rmc_pub_timeout_process x' now buf AnnNo = Ok (0, x2, evs)).
  { unfold rmc_pub_timeout_process, announce_due. replace (x_aint x' =? 0) with false by lia. replace (x_anext x' =? 0) with false by lia. replace (x_anext x' - now <=? 0) with true by lia. cbn [negb andb bind]. eauto. }
  destruct E as (x2 & evs & E). exists x2, evs. split; [exact E|].
  destruct (c44_announce_due x' g' log' now buf AnnNo 0 x2 evs (rare_reached _ _ _ _ _ _ _ _ R H) Hok ltac:(lia) ltac:(lia) ltac:(lia) E) as (_ & _ & _ & _ & _ & _ & A5 & _). apply A5, I6. exact Ho.
Qed.
(** What helps: a second call at the same time.  After an announce none is due until one interval
    later, so the resends are looked at. *)
Theorem c82_call_again : forall x g log now buf o code x' evs, reached x g log -> xok x g (XTimeout now buf o) -> 0 < x_aint x -> 0 < x_anext x -> x_anext x <= now ->
  rmc_pub_timeout_process x now buf o = Ok (code, x', evs) -> (forall t, t < now + x_aint x -> announce_due x' t = false) /\ forall i k ts, owed x' i k ts <-> owed x i k ts.
Proof.
  intros x g log now buf o code x' evs R Hok Ha Hn Hd E. destruct (c44_announce_due x g log now buf o code x' evs R Hok ltac:(lia) ltac:(lia) Hd E) as (_ & A1 & A2 & _ & _ & _ & A5 & _).
  split; [|exact A5]. intros t Ht. unfold announce_due. rewrite A1, A2. replace (now + x_aint x - t <=? 0) with false by lia. apply andb_false_r.
Qed.

(** ** Witnesses *)
Lemma dueb x now : forallb (fun n => forallb (fun a => ts_of (x_pub x) a + x_resend x <=? now) (p_sinf (x_pub x) n)) (seq 0 (length (v_conns (x_vec x)))) = true ->
  (forall n, (length (v_conns (x_vec x)) <= n)%nat -> p_sinf (x_pub x) n = []) -> due x now.
Proof.
  intros H Hn i Hi k ts Ho. apply owed_at in Ho. destruct Ho as (a & Ha & _ & <-). destruct (Nat.lt_ge_cases (Z.to_nat i) (length (v_conns (x_vec x)))) as [L|L]; [|rewrite (Hn _ L) in Ha; destruct Ha].
  rewrite forallb_forall in H. specialize (H (Z.to_nat i)). rewrite in_seq in H. specialize (H ltac:(lia)). rewrite forallb_forall in H. specialize (H a Ha). lia.
Qed.
Lemma sinf_beyond x g log : reached x g log -> forall n, (length (v_conns (x_vec x)) <= n)%nat -> p_sinf (x_pub x) n = [].
Proof.
  intros R n Hn. destruct (p_sinf (x_pub x) n) as [|a l] eqn:E; [reflexivity|exfalso]. pose proof (reached_inv _ _ _ R) as XV. pose proof XV as (sp & L & Q & X).
  assert (Ho : owes x (Z.of_nat n) (pid_of (x_pub x) a)) by (unfold owes; rewrite Nat2Z.id, E; left; reflexivity). apply (owes_reg _ _ _ _ _ XV) in Ho. rewrite Nat2Z.id, (i_subs _ _ _ _ (xi_pub _ _ _ _ _ _ _ X)) in Ho.
  apply (vi_reg _ _ (xi_vec _ _ _ _ _ _ _ X)) in Ho. destruct Ho as (c & Hs & _). pose proof (slot_range _ _ _ Hs) as Rg. unfold v_size, zlen in Rg. lia.
Qed.
Example c82_drain_witness : exists x g log, xhist demo0 demo_ops x g log /\ clock_ok log /\ owes x 0 1 /\ owes x 0 2 /\ due x 200000 /\ announce_due x 200000 = false /\ x_mem x 900 = None /\
  exists l n x' g' log', debts x l /\ l <> [] /\ (n <= S (length l))%nat /\ retry x g log n x' g' log' /\ drained x' /\ flushed x'.
Proof.
  destruct (xcheck_hist demo0 demo_ops (fun x g log => owedb x 0 1 1000 && owedb x 0 2 2000 && negb (announce_due x 200000) && match x_mem x 900 with None => true | _ => false end &&
    listb (flat_map cast_ts log) [1000; 2000] && forallb (fun n => forallb (fun a => ts_of (x_pub x) a + x_resend x <=? 200000) (p_sinf (x_pub x) n)) (seq 0 (length (v_conns (x_vec x)))))) as (x & g & log & H & E); [vm_compute; reflexivity|].
  bool_split. assert (R : reached x g log) by (exists demo0, demo_ops; split; [exact demo0_fresh|exact H]).
  assert (C : clock_ok log) by (match goal with L : listb _ _ = true |- _ => apply listb_eq in L; unfold clock_ok; rewrite L end; repeat constructor; lia).
  assert (O1 : owes x 0 1) by (apply owes_owed; exists 1000; apply owedb_owed; assumption). assert (O2 : owes x 0 2) by (apply owes_owed; exists 2000; apply owedb_owed; assumption).
  assert (D : due x 200000) by (apply dueb; [assumption|exact (sinf_beyond _ _ _ R)]).
  assert (A : announce_due x 200000 = false) by assumption. assert (M : x_mem x 900 = None) by (destruct (x_mem x 900); [discriminate|reflexivity]).
  exists x, g, log. split; [exact H|]. split; [exact C|]. split; [exact O1|]. split; [exact O2|]. split; [exact D|]. split; [exact A|]. split; [exact M|].
  destruct (c82_can_always_drain x g log 200000 900 R C D A ltac:(discriminate) M) as (l & n & x' & g' & log' & B1 & B2 & B3 & B4 & B5).
  exists l, n, x', g', log'. split; [exact B1|]. split; [|auto]. intros ->. destruct (proj2 (proj2 B1 0 1)). split; [lia|exact O1].
Qed.
Definition c82_ops : list xop := demo_ops ++ [XInterval 500 3000].
Example c82_starve_witness : exists x g log, xhist demo0 c82_ops x g log /\ owed x 0 1 1000 /\ x_resend x = 100000 /\ x_aint x = 500 /\ x_anext x = 3500 /\ x_mem x 900 = None /\
  forall n bound, exists t x' g' log', rare x g log n t x' g' log' /\ owed x' 0 1 1000 /\
    (forall now, bound <= now -> t <= now -> exists x'' evs, rmc_pub_timeout_process x' now 900 AnnNo = Ok (0, x'', evs) /\ owed x'' 0 1 1000).
Proof.
  destruct (xcheck_hist demo0 c82_ops (fun x g log => owedb x 0 1 1000 && (x_resend x =? 100000) && (x_aint x =? 500) && (x_anext x =? 3500) && match x_mem x 900 with None => true | _ => false end)) as (x & g & log & H & E); [vm_compute; reflexivity|].
  bool_split. assert (R : reached x g log) by (exists demo0, c82_ops; split; [exact demo0_fresh|exact H]).
  assert (M : x_mem x 900 = None) by (destruct (x_mem x 900); [discriminate|reflexivity]). assert (O : owed x 0 1 1000) by (apply owedb_owed; assumption).
  exists x, g, log. split; [exact H|]. split; [exact O|]. split; [lia|]. split; [lia|]. split; [lia|]. split; [exact M|].
  apply (c82_retry_refuted x g log 0 1 1000 900 R); lia || assumption.
Qed.

Print Assumptions c82_flushed_never_crashes.
Print Assumptions c82_round.
Print Assumptions c82_drains.
Print Assumptions c82_can_always_drain.
Print Assumptions c82_starved.
Print Assumptions c82_retry_refuted.
Print Assumptions c82_call_again.
