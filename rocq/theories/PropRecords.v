(** PropRecords.v — the packet records the library allocates for itself (C90).
    A publisher allocates one pub_packet_t for every packet queued (pub.c:20-27, 120) and frees it
    when the last subscriber has acknowledged the packet (pub.c:290).  A subscriber allocates one
    sub_packet_t for every packet accepted (sub.c:20-28, 100) and frees it when the connection is
    closed while the packet still waits for its predecessors (sub.c:177-181). *)
From Coq Require Import Sorting.Permutation.
From Verif Require Import Base CircBuf CircBufProofs Wire SeqList Pub SpecPub PubProofs PubTrace Sub SpecSub SubProofs Proto SpecProto ProtoProofs
  Conn SpecConn ConnProofs Safe PubCtx SpecPubCtx PubCtxProofs PubCtxSteps PropPubCtx SubCtx.
From Verif Require SpecSubCtx SubSteps SubMem SubInv PropSubCtx.

(** ** Publisher *)
(** The records allocated and not freed. *)
Definition pub_records (x : pctx) : list nat := filter (is_live (x_pub x)) (seq 0 (p_fresh (x_pub x))).
(** The announce packets multicast so far: the datagrams whose packet id is 0. *)
Definition announces_cast (log : list pev) : list (list Z) := filter (fun d => h_pid (dec_header d) =? 0) (flat_map cast_ev log).

Definition cnt (s : pub) : Z := zlen (filter (is_live s) (seq 0 (p_fresh s))).
Definition low (s : pub) : Prop := forall a, p_packs s a <> None -> (a < p_fresh s)%nat.
Lemma live_iff s a : is_live s a = true <-> p_packs s a <> None.
Proof. unfold is_live. destruct (p_packs s a); split; congruence. Qed.
Lemma cnt_ext s s' : p_fresh s' = p_fresh s -> (forall a, is_live s' a = is_live s a) -> cnt s' = cnt s.
Proof. intros E H. unfold cnt. rewrite E. f_equal. apply filter_ext. exact H. Qed.
Lemma low_ext s s' : p_fresh s' = p_fresh s -> (forall a, is_live s' a = is_live s a) -> low s -> low s'.
Proof. intros E H L a Ha. rewrite E. apply L. apply live_iff. rewrite <- H. apply live_iff. exact Ha. Qed.
Lemma filter_less {X} (f g : X -> bool) a l : NoDup l -> In a l -> f a = true -> g a = false -> (forall b, b <> a -> g b = f b) ->
  zlen (filter f l) = zlen (filter g l) + 1.
Proof.
  intros N Hi Ha Hg E. apply in_split in Hi. destruct Hi as (l1 & l2 & ->). pose proof (NoDup_remove_2 _ _ _ N) as Nn.
  rewrite !filter_app. cbn [filter]. rewrite Ha, Hg.
  assert (G : forall l, ~ In a l -> filter g l = filter f l).
  { induction l as [|b l IH]; intros H; [reflexivity|]. cbn [filter]. rewrite (E b), IH; [reflexivity|firstorder|]. intros ->. apply H. left. reflexivity. }
  rewrite !G by (intros H; apply Nn, in_or_app; auto). rewrite !zlen_app, zlen_cons. lia.
Qed.
Lemma cnt_free s a p : low s -> p_packs s a = Some p -> cnt s = cnt (set_pack s a None) + 1 /\ low (set_pack s a None).
Proof.
  intros L Hp. split.
  - unfold cnt. cbn [set_pack p_fresh]. apply (filter_less _ _ a).
    + apply seq_NoDup.
    + apply in_seq. pose proof (L a ltac:(congruence)). lia.
    + apply live_iff. congruence.
    + unfold is_live. cbn [set_pack p_packs]. rewrite upd_same. reflexivity.
    + intros b N. unfold is_live. cbn [set_pack p_packs]. rewrite upd_other by exact N. reflexivity.
  - intros b Hb. cbn [set_pack p_fresh p_packs] in *. apply L. destruct (Nat.eq_dec b a) as [->|N]; [congruence|]. rewrite upd_other in Hb by exact N. exact Hb.
Qed.
Lemma live_set s a p q : p_packs s a = Some p -> forall b, is_live (set_pack s a (Some q)) b = is_live s b.
Proof.
  intros Hp b. unfold is_live. cbn [set_pack p_packs]. destruct (Nat.eq_dec b a) as [->|N].
  - rewrite upd_same, Hp. reflexivity.
  - rewrite upd_other by exact N. reflexivity.
Qed.
Definition same_recs (s s' : pub) : Prop := p_fresh s' = p_fresh s /\ forall b, is_live s' b = is_live s b.
Lemma sr_refl s : same_recs s s. Proof. split; auto. Qed.
Lemma sr_trans s t u : same_recs s t -> same_recs t u -> same_recs s u.
Proof. intros [A B] [C D]. split; [congruence|]. intros b. rewrite D. apply B. Qed.
Lemma unlink_recs s a s' : unlink_parent s a = Ok s' -> same_recs s s'.
Proof. unfold unlink_parent. destruct (mem a (p_queued s)); [intros E; injection E as <-; split; reflexivity|]. destruct (mem a (p_inflight s)); [|discriminate]. intros E; injection E as <-. split; reflexivity. Qed.
Lemma unlink_packs s a s' : unlink_parent s a = Ok s' -> p_packs s' = p_packs s.
Proof. unfold unlink_parent. destruct (mem a (p_queued s)); [intros E; injection E as <-; reflexivity|]. destruct (mem a (p_inflight s)); [|discriminate]. intros E; injection E as <-. reflexivity. Qed.
Lemma sent_loop_recs a subs : forall s s', sent_loop s a subs = Ok s' -> same_recs s s'.
Proof.
  induction subs as [|n subs IH]; intros s s'; cbn [sent_loop]; [intros E; injection E as <-; apply sr_refl|].
  destruct (check_live s (p_sinf s n)) as [[]| | |]; try discriminate. cbn [bind].
  unfold get_pack. cbn [set_sinf p_packs]. destruct (p_packs s a) as [p|] eqn:Ep; [|discriminate]. cbn [bind]. intros E.
  eapply sr_trans; [|exact (IH _ _ E)]. split; [reflexivity|]. intros b. apply (live_set (set_sinf s n _) a p). exact Ep.
Qed.
Lemma sent_recs s a ts s' : pub_packet_sent s a ts = Ok s' -> same_recs s s'.
Proof.
  unfold pub_packet_sent, get_pack. destruct (p_packs s a) as [p|] eqn:Ep; [|discriminate]. cbn [bind].
  set (s1 := set_pack s a _). assert (S1 : same_recs s s1) by (split; [reflexivity|exact (live_set s a p _ Ep)]).
  destruct (unlink_parent s1 a) as [s2| | |] eqn:Eu; try discriminate. cbn [bind]. pose proof (sr_trans _ _ _ S1 (unlink_recs _ _ _ Eu)) as S2.
  destruct (pk_pid p =? 0); [intros E; injection E as <-; exact S2|].
  destruct (check_live s2 (p_inflight s2)) as [[]| | |]; try discriminate. cbn [bind]. intros E.
  eapply sr_trans; [exact S2|]. exact (sent_loop_recs _ _ _ _ E).
Qed.
Lemma cnt_same s s' : same_recs s s' -> low s -> cnt s' = cnt s /\ low s'.
Proof. intros [A B] L. split; [apply cnt_ext; assumption|apply (low_ext s); assumption]. Qed.
Lemma ack_recs s sub pid s' fr : low s -> pub_packet_ack s sub pid = Ok (s', fr) -> cnt s = cnt s' + zlen fr /\ low s'.
Proof.
  intros L. unfold pub_packet_ack. destruct (check_live s (p_sinf s sub)) as [[]| | |]; try discriminate. cbn [bind].
  destruct (find _ _) as [a|]; [|intros E; injection E as <- <-; split; [unfold zlen; cbn [length]; lia|exact L]].
  set (s1 := set_sinf s sub _). unfold get_pack. destruct (p_packs s1 a) as [p|] eqn:Ep; [|discriminate]. cbn [bind].
  set (p' := mkPacket _ _ _ _ _ _). set (s2 := set_pack s1 a (Some p')).
  assert (S2 : same_recs s s2) by (split; [reflexivity|intros b; exact (live_set s1 a p _ Ep b)]).
  destruct (cnt_same _ _ S2 L) as [C2 L2].
  destruct (pk_ref p' =? 0).
  - destruct (unlink_parent s2 a) as [s3| | |] eqn:Eu; try discriminate. cbn [bind].
    intros E. assert (E1 : s' = set_pack s3 a None) by congruence. assert (E2 : fr = [(pk_payload p', pk_len p', pk_user p')]) by congruence. subst s' fr.
    destruct (cnt_same _ _ (unlink_recs _ _ _ Eu) L2) as [C3 L3].
    assert (P3 : p_packs s3 a = Some p') by (rewrite (unlink_packs _ _ _ Eu); unfold s2; cbn [set_pack p_packs]; apply upd_same).
    destruct (cnt_free s3 a p' L3 P3) as [C4 L4]. split; [|exact L4]. change (zlen [(pk_payload p', pk_len p', pk_user p')]) with 1. lia.
  - intros E. injection E as <- <-. split; [unfold zlen; cbn [length]; lia|exact L2].
Qed.
Lemma reset_recs sub : forall fuel s fr s' fr', low s -> reset_loop fuel s sub fr = Ok (s', fr') -> cnt s + zlen fr = cnt s' + zlen fr' /\ low s'.
Proof.
  induction fuel as [|fuel IH]; intros s fr s' fr' L; cbn [reset_loop]; destruct (last_opt (p_sinf s sub)) as [a|].
  - discriminate.
  - intros E. injection E as <- <-. auto.
  - unfold get_pack. destruct (p_packs s a) as [p|]; [|discriminate]. cbn [bind].
    destruct (pub_packet_ack s sub (pk_pid p)) as [[s1 f1]| | |] eqn:Ea; try discriminate. cbn [bind fst snd]. intros E.
    destruct (ack_recs _ _ _ _ _ L Ea) as [C1 L1]. destruct (IH _ _ _ _ L1 E) as [C2 L2]. rewrite zlen_app in C2. unfold freed, pl in *; split; [lia|exact L2].
  - intros E. injection E as <- <-. auto.
Qed.
Lemma queue_recs s pid p len u s' k a : low s -> pub_queue_with_pid s pid p len u = Ok (s', k, a) -> cnt s' = cnt s + 1 /\ low s'.
Proof.
  intros L. unfold pub_queue_with_pid. destruct (p =? 0); [discriminate|]. destruct (check_live s (p_queued s)) as [[]| | |]; try discriminate. cbn [bind].
  set (s1 := mkPub _ _ _ _ _ _ _). intros E. assert (E1 : s' = set_queued s1 (seq_insert_sorted (compare_pid s1) (p_fresh s) (p_queued s1))) by congruence.
  assert (Hl : forall b, is_live s' b = if Nat.eqb b (p_fresh s) then true else is_live s b).
  { intros b. rewrite E1. unfold is_live, s1. cbn [set_queued p_packs]. destruct (Nat.eqb_spec b (p_fresh s)) as [->|N]; [rewrite upd_same; reflexivity|].
    rewrite upd_other by exact N. reflexivity. }
  assert (Ef : p_fresh s' = S (p_fresh s)) by (rewrite E1; reflexivity). split.
  - unfold cnt. rewrite Ef, seq_S, filter_app, zlen_app. cbn [plus filter]. rewrite Hl, Nat.eqb_refl. change (zlen [p_fresh s]) with 1.
    f_equal. f_equal. apply filter_ext_in. intros b Hb. apply in_seq in Hb. rewrite Hl. destruct (Nat.eqb_spec b (p_fresh s)); [lia|reflexivity].
  - intros b Hb. apply live_iff in Hb. rewrite Hl in Hb. rewrite Ef. destruct (Nat.eqb_spec b (p_fresh s)); [lia|]. apply live_iff in Hb. pose proof (L b Hb). lia.
Qed.
Definition made (o : pub_out) : Z := match o with OutPid _ => 1 | _ => 0 end.
Definition gone (o : pub_out) : Z := match o with OutFreed l => zlen l | _ => 0 end.
Definition sent0 (o : pub_out) : Z := match o with OutSent (Some (k, _)) => if k =? 0 then 1 else 0 | _ => 0 end.
Definition zsum (f : pub_out -> Z) (l : list pub_out) : Z := fold_right Z.add 0 (map f l).
Lemma step_recs s o s' out : low s -> pub_step s o = Ok (s', out) -> cnt s' + gone out = cnt s + made out /\ low s'.
Proof.
  intros L. destruct o as [sub|sub|[[p len] u]|[[p len] u]|ts|sub pid]; cbn [pub_step].
  - intros E. injection E as <- <-. cbn [gone made]. destruct (cnt_same s (pub_init_subscriber s sub)) as [C1 L1]; [split; reflexivity|exact L|]. unfold freed, pl in *; split; [lia|exact L1].
  - unfold pub_reset_subscriber. destruct (reset_loop _ s sub []) as [[s1 fr]| | |] eqn:Er; try discriminate. cbn [bind fst snd].
    destruct (mem sub (p_subs s1)); [|discriminate]. cbn [bind fst snd]. intros E. assert (E1 : s' = set_subs s1 (rm1 (Nat.eqb sub) (p_subs s1))) by congruence.
    assert (E2 : out = OutFreed fr) by congruence. subst s' out. destruct (reset_recs _ _ _ _ _ _ L Er) as [C1 L1]. cbn [gone made].
    assert (N0 : zlen (@nil freed) = 0) by reflexivity; rewrite N0 in C1. destruct (cnt_same s1 (set_subs s1 (rm1 (Nat.eqb sub) (p_subs s1)))) as [C2 L2]; [split; reflexivity|exact L1|]. unfold freed, pl in *; split; [lia|exact L2].
  - unfold pub_queue_packet. set (s0 := mkPub _ _ _ _ _ _ _). destruct (pub_queue_with_pid s0 _ p len u) as [[[s1 k] a]| | |] eqn:Eq; try discriminate. cbn [bind fst snd].
    intros E. injection E as <- <-. destruct (cnt_same s s0) as [C1 L1]; [split; reflexivity|exact L|]. destruct (queue_recs _ _ _ _ _ _ _ _ L1 Eq) as [C2 L2]. cbn [gone made]. unfold freed, pl in *; split; [lia|exact L2].
  - unfold pub_queue_no_ack. destruct (pub_queue_with_pid s 0 p len u) as [[[s1 k] a]| | |] eqn:Eq; try discriminate. cbn [bind fst snd].
    intros E. injection E as <- <-. destruct (queue_recs _ _ _ _ _ _ _ _ L Eq) as [C2 L2]. cbn [gone made]. unfold freed, pl in *; split; [lia|exact L2].
  - destruct (pub_next_queued s) as [a|]; [|intros E; injection E as <- <-; cbn [gone made]; split; [lia|exact L]].
    unfold get_pack. destruct (p_packs s a) as [p|]; [|discriminate]. cbn [bind]. destruct (pub_packet_sent s a ts) as [s1| | |] eqn:Es; try discriminate. cbn [bind].
    intros E. injection E as <- <-. destruct (cnt_same _ _ (sent_recs _ _ _ _ Es) L) as [C1 L1]. cbn [gone made]. unfold freed, pl in *; split; [lia|exact L1].
  - destruct (pub_packet_ack s sub pid) as [[s1 fr]| | |] eqn:Ea; try discriminate. cbn [bind fst snd]. intros E. injection E as <- <-.
    destruct (ack_recs _ _ _ _ _ L Ea) as [C1 L1]. cbn [gone made]. unfold freed, pl in *; split; [lia|exact L1].
Qed.
Lemma run_recs ops : forall s s' outs, low s -> pub_run s ops = Ok (s', outs) -> cnt s' + zsum gone outs = cnt s + zsum made outs /\ low s'.
Proof.
  induction ops as [|o ops IH]; intros s s' outs L; cbn [pub_run].
  - intros E. injection E as <- <-. unfold zsum. cbn. split; [lia|exact L].
  - destruct (pub_step s o) as [[s1 out]| | |] eqn:Es; try discriminate. cbn [bind fst snd].
    destruct (pub_run s1 ops) as [[s2 outs2]| | |] eqn:Er; try discriminate. cbn [bind fst snd]. intros E. injection E as <- <-.
    destruct (step_recs _ _ _ _ L Es) as [C1 L1]. destruct (IH _ _ _ L1 Er) as [C2 L2]. unfold zsum in *. cbn [map fold_right]. unfold freed, pl in *; split; [lia|exact L2].
Qed.
Lemma release_count sub sel live : zlen (fst (release sub sel live)) + zlen (snd (release sub sel live)) = zlen live.
Proof.
  unfold release. cbn [fst snd]. induction live as [|e live IH]; [reflexivity|]. cbn [flat_map]. rewrite !zlen_app, zlen_cons.
  destruct (sel e && mem sub (e_hold e)); cbn [andb]; [destruct (unclaimed (drop_claim sub e))|]; rewrite ?zlen_cons; change (zlen (@nil entry)) with 0; change (zlen (@nil pl)) with 0; lia.
Qed.
Definition pending (sp : spec) : Z := zlen (sp_ann sp) + zlen (sp_data sp) + zlen (sp_live sp).
Lemma spec_step_count sp o : Forall (fun kp => 1 <= fst kp) (sp_data sp) ->
  pending (fst (spec_step sp o)) + gone (snd (spec_step sp o)) + sent0 (snd (spec_step sp o)) = pending sp + made (snd (spec_step sp o)).
Proof.
  intros F. unfold pending. destruct o as [sub|sub|p|p|ts|sub pid]; cbn [spec_step].
  - cbn. lia.
  - pose proof (release_count sub (fun _ => true) (sp_live sp)). destruct (release _ _ _) as [l f]. cbn in *. lia.
  - cbn [fst snd gone made sent0 sp_ann sp_data sp_live]. rewrite zlen_app. change (zlen [(sp_next sp, p)]) with 1. lia.
  - cbn [fst snd gone made sent0 sp_ann sp_data sp_live]. rewrite zlen_app. change (zlen [p]) with 1. lia.
  - destruct (sp_ann sp) as [|p rest] eqn:Ea; [destruct (sp_data sp) as [|[k p] rest] eqn:Ed|]; cbn [fst snd gone made sent0 sp_ann sp_data sp_live]; rewrite ?Ea, ?Ed.
    + lia.
    + inversion F as [|? ? F1 _]; subst. cbn in F1. replace (k =? 0) with false by lia. rewrite zlen_app, !zlen_cons. repeat rewrite zlen_nil. unfold pl in *. rewrite (@zlen_nil entry). lia.
    + rewrite !zlen_cons. change (0 =? 0) with true. cbn match. lia.
  - pose proof (release_count sub (fun e => e_pid e =? pid) (sp_live sp)). destruct (release _ _ _) as [l f]. cbn in *. lia.
Qed.
Lemma spec_step_data sp o : 1 <= sp_next sp -> Forall (fun kp => 1 <= fst kp) (sp_data sp) ->
  1 <= sp_next (fst (spec_step sp o)) /\ Forall (fun kp => 1 <= fst kp) (sp_data (fst (spec_step sp o))).
Proof.
  intros N F. destruct o as [sub|sub|p|p|ts|sub pid]; cbn [spec_step]; try destruct (release _ _ _); cbn [fst sp_next sp_data]; auto.
  - split; [lia|]. apply Forall_app. split; [exact F|]. constructor; [exact N|constructor].
  - destruct (sp_ann sp); [destruct (sp_data sp) as [|[k p] rest] eqn:Ed|]; cbn [fst sp_next sp_data]; rewrite ?Ed; auto. inversion F; auto.
Qed.
Lemma spec_run_count ops : forall sp sp' outs, 1 <= sp_next sp -> Forall (fun kp => 1 <= fst kp) (sp_data sp) -> spec_run sp ops = (sp', outs) ->
  pending sp' + zsum gone outs + zsum sent0 outs = pending sp + zsum made outs.
Proof.
  induction ops as [|o ops IH]; intros sp sp' outs N F; cbn [spec_run].
  - intros E. injection E as <- <-. unfold zsum. cbn. lia.
  - pose proof (spec_step_count sp o F) as C. destruct (spec_step_data sp o N F) as [N1 F1]. destruct (spec_step sp o) as [sp1 out]. cbn [fst snd] in *.
    destruct (spec_run sp1 ops) as [sp2 outs2] eqn:Er. intros E. injection E as <- <-. pose proof (IH _ _ _ N1 F1 Er) as C2. unfold zsum in *. cbn [map fold_right]. lia.
Qed.
Lemma sent0_cast node lip data : forall outs ds, Forall2 (dgram node lip data) (flat_map sent_of outs) ds ->
  zsum sent0 outs = zlen (filter (fun d => h_pid (dec_header d) =? 0) ds).
Proof.
  induction outs as [|o outs IH]; intros ds H; cbn [flat_map] in H.
  - inversion H. reflexivity.
  - assert (G : zsum sent0 (o :: outs) = sent0 o + zsum sent0 outs) by reflexivity. rewrite G.
    destruct o as [| |[[k p]|]|]; cbn [sent_of app] in H; try (rewrite (IH _ H); cbn [sent0]; lia).
    inversion H as [|? d ? ds' Hd Ht]; subst. rewrite (IH _ Ht). cbn [filter sent0].
    destruct Hd as (bs & port & -> & _ & Hh & _). cbn [fst snd] in *. rewrite dec_enc_header by exact Hh. cbn [h_pid].
    destruct (k =? 0); rewrite ?zlen_cons; lia.
Qed.

(** The records allocated number exactly the packets queued, the packets in flight, and the
    announces multicast so far: the record of an announce is never freed. *)
Theorem c90_pub_records : forall x g log, reached x g log ->
  zlen (pub_records x) = zlen (queued x) + zlen (flying x) + zlen (announces_cast log) /\
  forall a, In a (pub_records x) <-> p_packs (x_pub x) a <> None.
Proof.
  intros x g log H. destruct (reached_inv x g log H) as (sp & L & Q & X).
  pose proof (xi_pub _ _ _ _ _ _ _ X) as I. destruct (xi_his _ _ _ _ _ _ _ X) as (pops & outs & Er & _ & Es & _ & Hc & _).
  assert (L0 : low pub_init) by (intros a Ha; exfalso; apply Ha; reflexivity).
  destruct (run_recs _ _ _ _ L0 Er) as [C1 Lw].
  pose proof (spec_run_count pops spec_init sp outs ltac:(cbn; lia) ltac:(constructor) Es) as C2.
  rewrite (sent0_cast _ _ _ _ _ Hc) in C2. fold (announces_cast log) in C2.
  change (cnt pub_init) with 0 in C1. change (pending spec_init) with 0 in C2.
  assert (Eq : zlen (queued x) = zlen (sp_ann sp) + zlen (sp_data sp)).
  { rewrite (queued_inv _ _ _ _ I). unfold zlen. rewrite rev_length, map_length, <- (map_length snd Q), (i_Q _ _ _ _ I), app_length, map_length. lia. }
  assert (Ef : zlen (flying x) = zlen (sp_live sp)).
  { unfold flying, zlen. rewrite map_length, (inv_infl I), rev_length, map_length, <- (i_L _ _ _ _ I), map_length. reflexivity. }
  split.
  - change (zlen (pub_records x)) with (cnt (x_pub x)). unfold pending in C2. lia.
  - intros a. unfold pub_records. rewrite filter_In, live_iff, in_seq. split; [tauto|]. intros Ha. split; [|exact Ha]. pose proof (Lw a Ha). lia.
Qed.
(** The property one would want - with no packet queued or in flight no record is left - is false:
    one record is lost for every announce. *)
Definition c90_ops : list xop :=
  [XActivate (ActOk 3 4 0); XInterval 500 1000; XTimeout 1600 900 (AnnYes [1] 0); XWrite 0 (WrMcast [SndOk 1601]);
   XTimeout 2600 900 (AnnYes [1] 0); XWrite 0 (WrMcast [SndOk 2601]); XDeactivate].
Theorem c90_pub_refuted : exists x g log, reached x g log /\ queued x = [] /\ flying x = [] /\ x_mcast x = -1 /\ zlen (pub_records x) = 2.
Proof.
  destruct (xcheck_hist demo0 c90_ops (fun x g log => (zlen (queued x) =? 0) && (zlen (flying x) =? 0) && (x_mcast x =? -1) && (zlen (pub_records x) =? 2)))
    as (x & g & log & H & E); [vm_compute; reflexivity|]. bool_split. exists x, g, log.
  split; [exists demo0, c90_ops; split; [exact demo0_fresh|exact H]|].
  assert (Z0 : forall A (l : list A), zlen l =? 0 = true -> l = []) by (intros A [|a l]; [reflexivity|]; rewrite zlen_cons; pose proof (zlen_nonneg l); lia).
  repeat match goal with |- _ /\ _ => split end; try (apply Z0; lia); lia.
Qed.

(** ** Subscriber *)
Import SpecSubCtx SubSteps SubMem SubInv PropSubCtx.
(** The records allocated and not freed, read off the log.  A record is allocated for every packet
    accepted.  payload_free is called either for a packet the application is done with - the record
    stays (rmc_sub_packet.c:105-122) - or by sub_reset_publisher, which frees the record too. *)
Definition rec_ev (s : Z * list Z) (e : sev) : Z * list Z :=
  (match e with
   | SvGot _ _ _ _ => fst s + 1
   | SvFree q _ => if in_dec Z.eq_dec q (snd s) then fst s else fst s - 1
   | _ => fst s
   end, kept_ev (snd s) e).
Definition sub_records (log : list sev) : Z := fst (fold_left rec_ev log (0, [])).
(** The packets that became ready to be handed to the application. *)
Definition handed (log : list sev) : list (Z * Z) := flat_map (fun e => match e with SvPut i k _ => [(i, k)] | _ => [] end) log.
(** The packets that wait for their predecessors. *)
Definition all_waiting (x : sctx) : list spacket := flat_map (waiting x) (indices x).

Lemma rec_snd log : forall n k, snd (fold_left rec_ev log (n, k)) = fold_left kept_ev log k.
Proof. induction log as [|e log IH]; intros n k; [reflexivity|]. cbn [fold_left]. unfold rec_ev at 2. cbn [snd]. apply IH. Qed.
Lemma rec_shift log : forall n k, fst (fold_left rec_ev log (n, k)) = n + fst (fold_left rec_ev log (0, k)).
Proof.
  induction log as [|e log IH]; intros n k; [cbn; lia|]. cbn [fold_left]. unfold rec_ev at 2 4. cbn [fst snd]. rewrite IH, (IH (match e with SvGot _ _ _ _ => _ | SvFree _ _ => _ | _ => _ end)).
  destruct e; try lia. destruct (in_dec _ _ _); lia.
Qed.
Definition rec_delta (k : list Z) (evs : list sev) : Z := fst (fold_left rec_ev evs (0, k)).
Lemma sub_records_app log evs : sub_records (log ++ evs) = sub_records log + rec_delta (kept log) evs.
Proof.
  unfold sub_records, rec_delta. rewrite fold_left_app. destruct (fold_left rec_ev log (0, [])) as [n k] eqn:E.
  assert (Ek : k = kept log) by (unfold kept; rewrite <- (rec_snd log 0 []), E; reflexivity). rewrite rec_shift, Ek. reflexivity.
Qed.
Lemma delta_app k a b : rec_delta k (a ++ b) = rec_delta k a + rec_delta (fold_left kept_ev a k) b.
Proof.
  unfold rec_delta. rewrite fold_left_app. destruct (fold_left rec_ev a (0, k)) as [n k'] eqn:E.
  assert (Ek : k' = fold_left kept_ev a k) by (rewrite <- (rec_snd a 0 k), E; reflexivity). rewrite rec_shift, Ek. reflexivity.
Qed.
Lemma delta_memless evs : Forall memless evs -> forall k, rec_delta k evs = 0.
Proof.
  induction 1 as [|e evs H _ IH]; intros k; [reflexivity|]. change (e :: evs) with ([e] ++ evs). rewrite delta_app, IH.
  destruct e; cbn in *; try contradiction; reflexivity.
Qed.
Lemma delta_frees L : forall k, (forall q, In q (ptrs L) -> ~ In q k) -> rec_delta k (free_evs L) = - zlen L.
Proof.
  induction L as [|p L IH]; intros k H; [reflexivity|]. cbn [free_evs map]. fold (free_evs L).
  change (SvFree (sk_payload p) (sk_len p) :: free_evs L) with ([SvFree (sk_payload p) (sk_len p)] ++ free_evs L).
  rewrite delta_app. cbn [fold_left kept_ev]. rewrite (notin_remove Z.eq_dec k (sk_payload p)) by (apply H; left; reflexivity).
  rewrite IH by (intros q Hq; apply H; right; exact Hq). unfold rec_delta. cbn [fold_left rec_ev fst snd].
  destruct (in_dec Z.eq_dec (sk_payload p) k) as [X|X]; [exfalso; exact (H _ (or_introl eq_refl) X)|]. rewrite zlen_cons. lia.
Qed.
Lemma handed_app a b : handed (a ++ b) = handed a ++ handed b.
Proof. apply flat_map_app. Qed.
Lemma handed_puts m i out : zlen (handed (put_evs m i out)) = zlen out.
Proof. unfold put_evs. induction out as [|p out IH]; [reflexivity|]. cbn [map]. unfold handed in *. cbn [flat_map app]. rewrite !zlen_cons, IH. reflexivity. Qed.
Lemma handed_frees L : handed (free_evs L) = [].
Proof. induction L as [|p L IH]; [reflexivity|exact IH]. Qed.
Lemma perm_zlen {X} (a b : list X) : Permutation a b -> zlen a = zlen b.
Proof. intros P. unfold zlen. rewrite (Permutation_length P). reflexivity. Qed.
Definition RI (x : sctx) (log : list sev) : Prop := sub_records log = zlen (all_waiting x) + zlen (handed log).
Lemma RI_keep x x' log evs : RI x log -> rec_delta (kept log) evs = 0 -> handed evs = [] -> v_size (t_vec x') = v_size (t_vec x) ->
  (forall j, waiting x' j = waiting x j) -> RI x' (log ++ evs).
Proof.
  unfold RI. intros R D H Sz W. rewrite sub_records_app, D, handed_app, H, app_nil_r. unfold all_waiting, indices. rewrite Sz, (flat_ext _ (waiting x)) by auto.
  unfold all_waiting, indices in R. lia.
Qed.
Lemma RI_move x x' log evs i w : RI x log -> 0 <= i < v_size (t_vec x) -> v_size (t_vec x') = v_size (t_vec x) ->
  (forall j, j <> i -> waiting x' j = waiting x j) -> waiting x' i = w ->
  rec_delta (kept log) evs + zlen (waiting x i) = zlen w + zlen (handed evs) -> RI x' (log ++ evs).
Proof.
  unfold RI. intros R Hi Sz W E D. rewrite sub_records_app, handed_app, zlen_app, R. unfold all_waiting, indices in *. rewrite Sz.
  destruct (index_split (Z.to_nat (v_size (t_vec x))) i) as (l1 & l2 & El & N1 & N2); [lia|]. rewrite El, !flat_map_app. cbn [flat_map].
  rewrite (flat_ext (waiting x') (waiting x) l1), (flat_ext (waiting x') (waiting x) l2); try (intros j Hj; apply W; intros ->; contradiction).
  rewrite !zlen_app, E. lia.
Qed.
Lemma calm_handed x r e : calm_ev x r e -> handed [e] = [].
Proof. destruct e as [[]| | | | | | | | | | | | | | |]; cbn; tauto. Qed.
Lemma step_RI r log x evs x' : BI x -> MI x log -> RI x log -> ustep r log x evs x' -> RI x' (log ++ evs).
Proof.
  intros B M R0 Hu. destruct Hu.
  - apply (RI_keep x); auto; [apply delta_memless; constructor; [exact (calm_memless _ _ _ H)|constructor]|exact (calm_handed _ _ _ H)].
  - apply (RI_keep x); auto; [rewrite H0; reflexivity|intros j; unfold waiting; rewrite H; reflexivity].
  - pose proof (slot_range _ _ _ (proj1 H)) as R. set (pk := new_packet x i pid ptr (zlen bs)) in *.
    assert (Ep : forall j, t_pubs x' j = tupd (t_pubs x) i (Some s') j) by (intros j; rewrite H6; apply tupd_twice).
    destruct (waiting_upd x i s' x' Ep) as [W1 W2].
    assert (Ww : waiting x i = s_recv s) by (unfold waiting; rewrite H0; reflexivity).
    pose proof (sub_process_split _ _ _ H5) as Sp. cbn [sub_received s_recv] in Sp.
    assert (Pr : Permutation (out ++ s_recv s') (pk :: s_recv s)) by (rewrite <- Sp; symmetry; apply insert_perm).
    apply perm_zlen in Pr. rewrite zlen_app, zlen_cons in Pr.
    apply (RI_move x x' log _ i (s_recv s')); auto; [rewrite H6; reflexivity|].
    rewrite delta_app, delta_memless by (destruct src; memless_tac). rewrite Ww.
    change (SvAlloc ptr (zlen bs) :: SvGot i pid mc bs :: put_evs m i out) with ([SvAlloc ptr (zlen bs); SvGot i pid mc bs] ++ put_evs m i out).
    rewrite delta_app, (delta_memless (put_evs m i out)) by apply put_memless. rewrite !handed_app, !zlen_app, handed_puts.
    unfold rec_delta. cbn [fold_left rec_ev fst snd].
    assert (Hs : zlen (handed match src with Some sd => [SvDgram (fst sd) (snd sd)] | None => [] end) = 0) by (destruct src; reflexivity).
    rewrite Hs. unfold handed at 1, zlen at 3. cbn [flat_map app length]. lia.
  - pose proof (slot_range _ _ _ (proj1 H)) as R. set (x' := set_tready (put_spub x i s') (t_ready x ++ out)).
    destruct (waiting_upd x i s' x' (fun _ => eq_refl)) as [W1 W2].
    assert (Ww : waiting x i = s_recv s) by (unfold waiting; rewrite H0; reflexivity).
    pose proof (sub_process_split _ _ _ H1) as Sp. apply (f_equal zlen) in Sp. rewrite zlen_app in Sp.
    apply (RI_move x x' log _ i (s_recv s')); auto. rewrite delta_memless by apply put_memless. rewrite handed_puts, Ww. lia.
  - apply (RI_keep x); auto.
  - apply (RI_keep x); auto. unfold rec_delta. cbn [fold_left rec_ev fst snd kept_ev].
    destruct (in_dec Z.eq_dec (sk_payload p) (sk_payload p :: kept log)) as [X|X]; [reflexivity|]. exfalso. apply X. left. reflexivity.
  - apply (RI_keep x); auto.
  - apply (RI_keep x); auto; [apply put_size|]. intros j. apply (waiting_recv x i s (mkSP (s_ready s) (s_maxrecv s) (s_recv s) rest)); auto.
  - apply (RI_keep x); auto. intros j. apply (waiting_recv x i s (mkSP (s_ready s) (s_maxrecv s) (s_recv s) rest)); auto.
  - apply (RI_keep x); auto.
  - apply (RI_keep x); auto.
  - apply (RI_keep x); auto; apply put_size.
  - apply (RI_keep x); auto; apply put_size.
  - apply (RI_keep x); auto; apply put_size.
  - apply (RI_keep x); auto. apply (TV_connect (t_vec x) i c d addr port node POLLWRITE (bi_vec x B) H0 H1 H2).
  - apply (RI_keep x); auto.
    + apply delta_memless. destruct H8 as [->|(d & _ & ->)]; memless_tac.
    + destruct H8 as [->|(d & _ & ->)]; reflexivity.
    + cbn [set_tvec t_vec]. unfold v_size. rewrite H5. apply size_put.
  - apply (RI_keep x); auto; []. destruct (t_pubs x i) as [s|] eqn:Es.
    + destruct (bi_idle x B i s Es H0) as [Hr _]. intros j. apply (waiting_recv x i s sub_init); auto.
    + intros j. destruct (waiting_upd x i sub_init (put_spub x i sub_init) (fun _ => eq_refl)) as [W1 W2]. destruct (Z.eq_dec j i) as [->|N]; [|exact (W2 j N)].
      rewrite W1. unfold waiting. rewrite Es. reflexivity.
  - apply (RI_keep x); auto; []. destruct (bi_idle x B i s H H0) as [Hr _].
    intros j. apply (waiting_recv x i s (mkSP (s_ready s) (s_maxrecv s) [] [])); auto.
  - apply (RI_keep x); auto; apply put_size.
  - destruct (TV_close (t_vec x) i c v (bi_vec x B) H ltac:(rewrite H0; discriminate) H1) as (_ & Sz & _).
    apply (RI_keep x); auto.
  - pose proof (slot_range _ _ _ (proj1 H)) as R.
    destruct (TV_close (t_vec x) i c v (bi_vec x B) (proj1 H) (connected_mode x i c H) H1) as (_ & Sz & _).
    set (x' := set_tmem _ _).
    destruct (waiting_upd x i (mkSP (s_ready s) (s_maxrecv s) [] []) x' (fun _ => eq_refl)) as [W1 W2].
    assert (Ww : waiting x i = s_recv s) by (unfold waiting; rewrite H0; reflexivity).
    apply (RI_move x x' log _ i []); auto.
    assert (Hn : forall q, In q (ptrs (s_recv s)) -> ~ In q (kept log)).
    { intros q Hq Hk. pose proof (mi_owned _ _ M) as N. unfold owned in N. apply (nd_app_disj _ _ q N); [|apply in_or_app; auto].
      unfold ptrs in *. apply in_map_iff in Hq. destruct Hq as (p & <- & Hp). apply in_map. apply in_held. left. exists i. rewrite Ww. auto. }
    rewrite delta_app, (delta_memless [_; _]) by memless_tac. cbn [fold_left kept_ev]. rewrite (delta_frees _ _ Hn), handed_app, handed_frees, Ww.
    unfold handed, zlen. cbn [flat_map app length]. lia.
  - apply (RI_keep x); auto.
Qed.
Lemma steps_RI r log x evs x' : BI x -> MI x log -> RI x log -> usteps r log x evs x' -> RI x' (log ++ evs).
Proof.
  intros B M R Hu. induction Hu as [|e1 x1 e2 x2 Hu IH Hs]; [rewrite app_nil_r; exact R|].
  destruct (steps_BMI _ _ _ _ _ B M Hu) as [B1 M1]. rewrite app_assoc. exact (step_RI _ _ _ _ _ B1 M1 IH Hs).
Qed.
(** The records allocated number exactly the packets that wait for their predecessors and all the
    packets ever made ready: the record of a packet handed to the application is never freed. *)
Theorem c90_sub_records : forall t x log, sreached t x log ->
  sub_records log = zlen (all_waiting x) + zlen (handed log).
Proof.
  intros t x log (x0 & ops & F & Hh). pose proof (fresh_inv x0 F) as (B0 & M0 & _).
  induction Hh as [|ops x log o code x' evs Hh IH Hok Hr E].
  - assert (Hw : all_waiting x0 = []).
    { destruct (all_waiting x0) as [|p l] eqn:Ew; [reflexivity|]. exfalso.
      assert (Hp : In p (held x0)) by (unfold held; fold (all_waiting x0); rewrite Ew; left; reflexivity).
      destruct (mi_held _ _ M0 p Hp) as (H1 & _). rewrite (mi_fresh _ _ M0) in H1. cbn in H1. lia. }
    rewrite Hw. reflexivity.
  - destruct (hist_inv_y t x0 ops x log F Hh) as (B & M & _). destruct (step_bmi x log o code x' evs B M Hok E) as (U & _).
    exact (steps_RI _ _ _ _ _ B M IH U).
Qed.
(** It is false that nothing is left when no packet is held and no payload is allocated any more. *)
Definition c90_sops : list yop := sdemo_ops ++ [mcast_in [data 6 [60] 300 1200 []]; YTake 0 false; YTake 2 false; YTake 1 false; YDeactivate].
Theorem c90_sub_refuted : exists x log, sreached true x log /\ held x = [] /\ outstanding log = [] /\ t_mcast x = -1 /\ sub_records log = 3.
Proof.
  destruct (ycheck_hist true sdemo0 c90_sops (fun x log => (zlen (held x) =? 0) && (zlen (outstanding log) =? 0) && (t_mcast x =? -1) && (sub_records log =? 3)))
    as (x & log & H & E); [vm_compute; reflexivity|]. bool_split. exists x, log.
  split; [exists sdemo0, c90_sops; split; [exact sdemo0_fresh|exact H]|].
  assert (Z0 : forall A (l : list A), zlen l =? 0 = true -> l = []) by (intros A [|a l]; [reflexivity|]; rewrite zlen_cons; pose proof (zlen_nonneg l); lia).
  repeat match goal with |- _ /\ _ => split end; try (apply Z0; lia); lia.
Qed.
(** Non-vacuity: a publisher with a packet in flight, one queued and an announce sent; a subscriber
    whose connection is closed while a packet waits (its record is freed) and another one is ready. *)
Example c90_pub_witness : exists x g log, reached x g log /\ zlen (queued x) = 1 /\ zlen (flying x) = 2 /\ zlen (announces_cast log) = 1 /\ zlen (pub_records x) = 4.
Proof.
  destruct (xcheck_hist demo0 ([XInterval 500 1000; XTimeout 1600 900 (AnnYes [1] 0); XActivate (ActOk 3 4 0); XWrite 0 (WrMcast [SndOk 1601])] ++ skipn 1 demo_ops)
    (fun x g log => (zlen (queued x) =? 1) && (zlen (flying x) =? 2) && (zlen (announces_cast log) =? 1) && (zlen (pub_records x) =? 4)))
    as (x & g & log & H & E); [vm_compute; reflexivity|]. bool_split. exists x, g, log.
  split; [eexists demo0, _; split; [exact demo0_fresh|exact H]|]. repeat match goal with |- _ /\ _ => split end; lia.
Qed.
Example c90_sub_witness : exists x log x' log', sreached true x log /\ zlen (all_waiting x) = 1 /\ sub_records log = 2 /\
  sreached true x' log' /\ zlen (all_waiting x') = 0 /\ sub_records log' = 1.
Proof.
  destruct (ycheck_hist true sdemo0 sdemo_ops (fun x log => (zlen (all_waiting x) =? 1) && (sub_records log =? 2))) as (x & log & H & E); [vm_compute; reflexivity|].
  destruct (ycheck_hist true sdemo0 (sdemo_ops ++ [YClose 0]) (fun x log => (zlen (all_waiting x) =? 0) && (sub_records log =? 1))) as (x' & log' & H' & E'); [vm_compute; reflexivity|].
  bool_split. exists x, log, x', log'. split; [eexists sdemo0, _; split; [exact sdemo0_fresh|exact H]|]. split; [lia|]. split; [lia|].
  split; [eexists sdemo0, _; split; [exact sdemo0_fresh|exact H']|]. lia.
Qed.

Print Assumptions c90_pub_records.
Print Assumptions c90_pub_refuted.
Print Assumptions c90_sub_records.
Print Assumptions c90_sub_refuted.
