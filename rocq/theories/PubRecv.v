(** PubRecv.v — what a publisher has received on a control channel and what it made of it. *)
From Verif Require Import Base CircBuf CircBufProofs Wire SeqList Pub Proto SpecProto ProtoProofs ProtoRead
  Conn SpecConn ConnProofs PubCtx SpecPubCtx PubCtxProofs PubCtxSteps PropPubCtx SpecPubRecv.

Lemma rhist_xhist x0 ops x g log f : rhist x0 ops x g log f -> xhist x0 ops x g log.
Proof. induction 1; econstructor; eassumption. Qed.
Lemma preached_reached x g log f : preached x g log f -> reached x g log.
Proof. intros (x0 & ops & F & H). exists x0, ops. split; [exact F|]. exact (rhist_xhist _ _ _ _ _ _ H). Qed.

(** ** Steps that do not read the connection *)
Definition pq (j : Z) (e : pev) : Prop :=
  match e with PvConn (EvAdd _ k _) => k <> j | PvAck k _ _ => k <> j | _ => True end.
Lemma pq_acks j log evs : Forall (pq j) evs -> s_acks (since_open j (log ++ evs)) = s_acks (since_open j log).
Proof.
  rewrite since_app. generalize (since_open j log). intros s H. revert s. induction H as [|e l H _ IH]; intros s; [reflexivity|].
  cbn [fold_left]. rewrite IH. destruct e as [[]| | | | | | |]; cbn [since_ev pq] in *; try reflexivity; destruct (Z.eqb_spec i j); try contradiction; reflexivity.
Qed.
Lemma pq_opens j evs : Forall (pq j) evs -> existsb (opens_at j) evs = false.
Proof.
  induction 1 as [|e l H _ IH]; [reflexivity|]. cbn [existsb]. rewrite IH, orb_false_r.
  destruct e as [[]| | | | | | |]; cbn in *; try reflexivity. apply Z.eqb_neq. exact H.
Qed.
(** Connection [j] of [x'] was open before with the same receive ring, or was opened. *)
Definition pkept (x x' : pctx) (evs : list pev) (j : Z) (c' : conn) : Prop :=
  exists c, slot (x_vec x) j = Ok c /\ c_mode c = CONNECTED /\ c_rbuf c' = c_rbuf c /\ Forall (pq j) evs.
Definition rnew (rb : cbuf) : Prop := cb_size rb = RMC_MAX_PACKET /\ cb_start rb = 0 /\ cb_stop rb = 0.
Definition popened (evs : list pev) (j : Z) (c' : conn) : Prop :=
  rnew (c_rbuf c') /\ exists evs1 d a evs2, evs = evs1 ++ PvConn (EvAdd d j a) :: evs2 /\ Forall (pq j) evs2.
Definition pframe (r : option Z) (x x' : pctx) (evs : list pev) : Prop :=
  forall j c', slot (x_vec x') j = Ok c' -> c_mode c' = CONNECTED -> r <> Some j -> pkept x x' evs j c' \/ popened evs j c'.
Lemma pframe_trans r x y z e1 e2 : pframe r x y e1 -> pframe r y z e2 -> pframe r x z (e1 ++ e2).
Proof.
  intros A B j c' H1 H2 Hr. destruct (B j c' H1 H2 Hr) as [(c & B1 & B2 & B3 & B4)|(B1 & a1 & d & a & a2 & -> & B2)].
  - destruct (A j c B1 B2 Hr) as [(d & A1 & A2 & A3 & A4)|(A1 & a1 & d & a & a2 & -> & A2)].
    + left. exists d. split; [exact A1|]. split; [exact A2|]. split; [congruence|]. apply Forall_app. auto.
    + right. split; [rewrite B3; exact A1|]. exists a1, d, a, (a2 ++ e2). split; [rewrite <- app_assoc; reflexivity|]. apply Forall_app. auto.
  - right. split; [exact B1|]. exists (e1 ++ a1), d, a, a2. split; [rewrite app_assoc; reflexivity|exact B2].
Qed.
Lemma pframe_vec r x x' evs : x_vec x' = x_vec x -> (forall j c, slot (x_vec x) j = Ok c -> r <> Some j -> Forall (pq j) evs) -> pframe r x x' evs.
Proof. intros E H j c' H1 H2 Hr. rewrite E in H1. left. exists c'. split; [exact H1|]. split; [exact H2|]. split; [reflexivity|]. exact (H j c' H1 Hr). Qed.
(** One connection changes, but neither its mode nor its receive ring. *)
Lemma pframe_put r x x' i c d evs : slot (x_vec x) i = Ok c -> (forall k, slot (x_vec x') k = slot (put_slot (x_vec x) i d) k) -> c_mode d = c_mode c ->
  (r <> Some i -> c_rbuf d = c_rbuf c) -> (forall j, r <> Some j -> Forall (pq j) evs) -> pframe r x x' evs.
Proof.
  intros Hc E Em Er H j c' H1 H2 Hr. rewrite E in H1. left.
  destruct (slot_put (x_vec x) i d j c' (slot_range _ _ _ Hc) H1) as [[-> ->]|[N H1']].
  - exists c. split; [exact Hc|]. split; [congruence|]. auto.
  - exists c'. auto.
Qed.

Definition is_free_ev (e : pev) : Prop := match e with PvFree _ _ => True | _ => False end.
Lemma free_pq j evs : Forall is_free_ev evs -> Forall (pq j) evs.
Proof. apply Forall_impl. intros e. destruct e; cbn; tauto. Qed.
Lemma release_free : forall fr m m' evs, release_all m fr = Ok (m', evs) -> Forall is_free_ev evs.
Proof.
  induction fr as [|[[p l] u] fr IH]; intros m m' evs E; cbn [release_all] in E; [assert (evs = []) as -> by congruence; constructor|].
  destruct (m p); [|discriminate E]. destruct (release_all (updz m p None) fr) as [[m1 e1]| | |] eqn:E1; cbn [bind fst snd] in E; [|discriminate E..].
  assert (evs = PvFree p l :: e1) as -> by congruence. constructor; [exact Logic.I|exact (IH _ _ _ E1)].
Qed.
Lemma ack_frame x i k x' evs : rmc_pub_packet_ack x i k = Ok (x', evs) -> x_vec x' = x_vec x /\ Forall is_free_ev evs.
Proof.
  unfold rmc_pub_packet_ack. destruct (pub_packet_ack _ _ _) as [[s fr]| | |]; cbn [bind fst snd]; [|discriminate..].
  destruct (release_all (x_mem x) fr) as [[m e]| | |] eqn:E1; cbn [bind fst snd]; [|discriminate..]. intros E.
  assert (evs = e) as -> by congruence. split; [|exact (release_free _ _ _ _ E1)].
  match goal with E : Ok (?y, _) = _ |- _ => assert (x' = y) as -> by congruence end. destruct (_ && _); reflexivity.
Qed.
Lemma rounds_frame i : forall n x k x' evs, ack_rounds n x i k = Ok (x', evs) -> x_vec x' = x_vec x /\ Forall is_free_ev evs.
Proof.
  induction n as [|n IH]; intros x k x' evs E; cbn [ack_rounds] in E; [assert (x' = x /\ evs = []) as [-> ->] by (split; congruence); auto|].
  destruct (rmc_pub_packet_ack x i k) as [[x1 e1]| | |] eqn:E1; cbn [bind fst snd] in E; [|discriminate E..].
  destruct (ack_rounds n x1 i (k + 1)) as [[x2 e2]| | |] eqn:E2; cbn [bind fst snd] in E; [|discriminate E..].
  assert (x' = x2 /\ evs = e1 ++ e2) as [-> ->] by (split; congruence).
  destruct (ack_frame _ _ _ _ _ E1) as [V1 F1]. destruct (IH _ _ _ _ E2) as [V2 F2]. split; [congruence|]. apply Forall_app. auto.
Qed.
(** The commands of one read. *)
Definition ack_here (i : Z) (e : pev) : list (Z * Z) := match e with PvAck j a b => if j =? i then [(a, b)] else [] | _ => [] end.
Definition of_read (i : Z) (e : pev) : Prop :=
  match e with PvFree _ _ | PvCtrl _ _ _ _ => True | PvAck k _ _ => k = i | _ => False end.
Lemma run_frame i cb : forall cmds x evs x' evs', run_cmds (pub_eff (eff_ack i) cb (eff_ctrl i)) (x, evs) cmds = Ok (x', evs') ->
  x_vec x' = x_vec x /\ exists more, evs' = evs ++ more /\ Forall (of_read i) more /\ flat_map (ack_here i) more = acks_in cmds.
Proof.
  induction cmds as [|c cmds IH]; intros x evs x' evs' E; cbn [run_cmds] in E.
  - assert (x' = x /\ evs' = evs) as [-> ->] by (split; congruence). split; [reflexivity|]. exists []. rewrite app_nil_r. auto.
  - destruct (pub_eff (eff_ack i) cb (eff_ctrl i) (x, evs) c) as [[x1 e1]| | |] eqn:E1; cbn [bind] in E; [|discriminate E..].
    destruct (IH _ _ _ _ E) as (V2 & more2 & -> & M2 & A2).
    assert (Hc : x_vec x1 = x_vec x /\ exists more, e1 = evs ++ more /\ Forall (of_read i) more /\ flat_map (ack_here i) more = acks_in [c]).
    { destruct c as [h p|a b|p]; cbn [pub_eff] in E1.
      - discriminate E1 || (assert (x1 = x /\ e1 = evs) as [-> ->] by (split; congruence); split; [reflexivity|]; exists []; rewrite app_nil_r; auto).
      - unfold eff_ack in E1. cbn [fst snd] in E1. destruct (ack_interval x i a b) as [[x3 e3]| | |] eqn:E3; cbn [bind fst snd] in E1; [|discriminate E1..].
        assert (x1 = x3 /\ e1 = evs ++ PvAck i a b :: e3) as [-> ->] by (split; congruence).
        unfold ack_interval in E3. destruct (_ && _); [discriminate E3|]. destruct (rounds_frame _ _ _ _ _ _ E3) as [V3 F3].
        split; [exact V3|]. exists (PvAck i a b :: e3). split; [reflexivity|]. split.
        + constructor; [reflexivity|]. eapply Forall_impl; [|exact F3]. intros e. destruct e; cbn; tauto.
        + cbn [flat_map ack_here acks_in]. rewrite Z.eqb_refl. cbn [app]. f_equal. clear - F3. induction F3 as [|e l H _ IH]; [reflexivity|]. cbn [flat_map]. rewrite IH. destruct e; cbn in *; tauto.
      - unfold eff_ctrl in E1. cbn [fst snd] in E1. destruct (x_ccb x); [discriminate E1| |].
        + assert (x1 = x /\ e1 = evs) as [-> ->] by (split; congruence). split; [reflexivity|]. exists []. rewrite app_nil_r. auto.
        + destruct (slot (x_vec x) i) as [d| | |]; cbn [bind] in E1; [|discriminate E1..]. 
          match goal with E : Ok (_, evs ++ ?y) = _ |- _ => assert (x1 = x /\ e1 = evs ++ y) as [-> ->] by (split; congruence) end.
          split; [reflexivity|]. eexists. split; [reflexivity|]. split; [repeat constructor|reflexivity]. }
    destruct Hc as (V1 & more1 & -> & M1 & A1). split; [congruence|]. exists (more1 ++ more2). split; [rewrite app_assoc; reflexivity|].
    split; [apply Forall_app; auto|]. rewrite flat_map_app, A1, A2. unfold acks_in. cbn [flat_map]. rewrite app_nil_r. reflexivity.
Qed.
Lemma close_frame r x i code x' evs : 0 <= i -> rmc_pub_close_connection x i = Ok (code, x', evs) ->
  pframe r x x' evs /\ (forall c, is_open (x_vec x) i c -> exists d, slot (x_vec x') i = Ok d /\ c_mode d = CLOSED) /\ v_size (x_vec x') = v_size (x_vec x).
Proof.
  intros Hi. unfold rmc_pub_close_connection.
  destruct (find_index_cases (x_vec x) i Hi) as [[-> N]|(c & -> & Ho)]; cbn [bind].
  { intros E. assert (x' = x /\ evs = []) as [-> ->] by (split; congruence). split; [|split; [intros c H; destruct (N c H)|reflexivity]].
    apply pframe_vec; [reflexivity|constructor]. }
  destruct (close_cases (x_vec x) i Hi) as [[H _]|[(c1 & H1 & H2 & _)|(c1 & Ho1 & E1)]].
  { destruct Ho as [Hs _]. apply slot_range in Hs. lia. } { destruct Ho. congruence. }
  assert (c1 = c) by (destruct Ho, Ho1; congruence). subst c1. cbv zeta in E1. rewrite E1. cbn [bind].
  destruct (pub_reset_subscriber _ _) as [[s fr]| | |]; cbn [bind fst snd]; [|discriminate..].
  destruct (release_all (x_mem x) fr) as [[m e]| | |] eqn:Er; cbn [bind fst snd]; [|discriminate..]. intros E.
  set (v1 := if i =? v_max (x_vec x) then _ else _) in *.
  assert (Ev : x_vec x' = set_active v1 (u16 (v_active (x_vec x) - 1)) /\ evs = PvLeave (c_addr c) (c_port c) :: map PvConn [EvRem (c_desc c) i; EvClose (c_desc c)] ++ e) by (split; [|congruence]; inversion E; reflexivity).
  destruct Ev as [Ev ->]. pose proof (slot_range _ _ _ (proj1 Ho)) as R.
  assert (Sl : forall j, slot (x_vec x') j = slot (put_slot (x_vec x) i (reset_conn c)) j) by (intros j; rewrite Ev; unfold v1; destruct (i =? v_max (x_vec x)); reflexivity).
  split; [|split].
  - intros j c' Hj Hm Hr. rewrite Sl in Hj. destruct (slot_put (x_vec x) i (reset_conn c) j c' R Hj) as [[-> ->]|[Nj Hj']]; [discriminate Hm|].
    left. exists c'. split; [exact Hj'|]. split; [exact Hm|]. split; [reflexivity|]. cbn [map app]. repeat (constructor; [exact Logic.I|]). apply free_pq. exact (release_free _ _ _ _ Er).
  - intros _ _. exists (reset_conn c). split; [rewrite Sl; apply slot_put_same; exact R|reflexivity].
  - rewrite Ev. unfold v1. destruct (i =? v_max (x_vec x)); cbn; apply size_put.
Qed.

Definition own_evs (evs : list pev) : Prop := forall j, 0 <= j < RMC_LISTEN_INDEX -> Forall (pq j) evs.
Definition held_open (x x' : pctx) (evs : list pev) : Prop :=
  v_size (x_vec x') = v_size (x_vec x) /\ (forall j, Forall (pq j) evs) /\ pframe None x x' evs.
Lemma ho_refl x : held_open x x [].
Proof. split; [reflexivity|]. split; [constructor|]. apply pframe_vec; [reflexivity|constructor]. Qed.
Lemma ho_trans x y z e1 e2 : held_open x y e1 -> held_open y z e2 -> held_open x z (e1 ++ e2).
Proof.
  intros (A1 & A2 & A3) (B1 & B2 & B3). split; [congruence|]. split; [intros j; apply Forall_app; auto|]. exact (pframe_trans _ _ _ _ _ _ A3 B3).
Qed.
Lemma ho_vec x x' evs : x_vec x' = x_vec x -> (forall j, Forall (pq j) evs) -> held_open x x' evs.
Proof. intros E H. split; [congruence|]. split; [exact H|]. apply pframe_vec; [exact E|intros; apply H]. Qed.
Lemma ho_frees x x' evs : x_vec x' = x_vec x -> Forall is_free_ev evs -> held_open x x' evs.
Proof. intros E H. apply ho_vec; [exact E|]. intros j. apply free_pq. exact H. Qed.

Lemma queue_ho x p l a code x' evs : rmc_pub_queue_packet x p l a = Ok (code, x', evs) -> held_open x x' evs.
Proof.
  unfold rmc_pub_queue_packet. destruct (_ =? _); [intros E; assert (x' = x /\ evs = []) as [-> ->] by (split; congruence); apply ho_refl|].
  destruct (_ <? _); [intros E; assert (x' = x /\ evs = []) as [-> ->] by (split; congruence); apply ho_refl|].
  destruct (x_susp x); [intros E; assert (x' = x /\ evs = []) as [-> ->] by (split; congruence); apply ho_refl|].
  match goal with |- context [bind ?h _] => destruct h as [[[s' pd] nd]| | |] end; cbn [bind fst snd]; [|discriminate..].
  intros E. injection E as _ <- <-. apply ho_vec; [destruct (_ && _); reflexivity|]. intros j. repeat constructor.
Qed.
Lemma send_ho x a o code x' evs : send_single_multicast_packet x a o = Ok (code, x', evs) -> held_open x x' evs.
Proof.
  unfold send_single_multicast_packet. destruct (_ =? _); [intros E; assert (x' = x /\ evs = []) as [-> ->] by (split; congruence); apply ho_refl|].
  destruct (get_pack _ _) as [p| | |]; cbn [bind]; [|discriminate..].
  destruct (_ <? _); [intros E; assert (x' = x /\ evs = []) as [-> ->] by (split; congruence); apply ho_refl|].
  destruct (load _ _ _) as [bs| | |]; cbn [bind]; [|discriminate..]. destruct o as [e|ts].
  - destruct (_ =? _); intros E; injection E as _ <- <-; apply ho_vec; auto; intros j; repeat constructor.
  - destruct (pub_packet_sent _ _ _) as [s| | |]; cbn [bind]; [|discriminate..]. intros E. injection E as _ <- <-. apply ho_vec; [reflexivity|]. intros j. repeat constructor.
Qed.
Lemma mcast_ho : forall outs x code x' evs, process_multicast_write x outs = Ok (code, x', evs) -> held_open x x' evs.
Proof.
  induction outs as [|o outs IH]; intros x code x' evs E; cbn [process_multicast_write] in E;
  (destruct (pub_next_queued (x_pub x)) as [a|]; [|assert (x' = x /\ evs = []) as [-> ->] by (split; congruence); apply ho_refl]).
  - exact (send_ho _ _ _ _ _ _ E).
  - destruct (send_single_multicast_packet x a o) as [[[cd x1] e1]| | |] eqn:E1; cbn [bind] in E; [|discriminate E..].
    pose proof (send_ho _ _ _ _ _ _ E1) as H1. destruct (negb (cd =? 0)); [assert (x' = x1 /\ evs = e1) as [-> ->] by (split; congruence); exact H1|].
    destruct (process_multicast_write x1 outs) as [[[cd2 x2] e2]| | |] eqn:E2; cbn [bind] in E; [|discriminate E..].
    assert (x' = x2 /\ evs = e1 ++ e2) as [-> ->] by (split; congruence). exact (ho_trans _ _ _ _ _ H1 (IH _ _ _ _ E2)).
Qed.
Lemma resend_ho x i a code x' evs : rmc_pub_resend_packet x i a = Ok (code, x', evs) -> held_open x x' evs.
Proof.
  unfold rmc_pub_resend_packet. destruct (slot (x_vec x) i) as [c| | |] eqn:Es; cbn [bind]; [|discriminate..].
  destruct (get_pack _ _) as [p| | |]; cbn [bind]; [|discriminate..].
  match goal with |- context [bind ?h _] => destruct h as [w| | |] end; cbn [bind]; [|discriminate..].
  destruct (_ =? 0); intros E; injection E as _ <- <-; (split; [apply size_put|]); (split; [intros j; repeat constructor|]);
  (eapply (pframe_put None x _ i c); [exact Es|reflexivity|reflexivity|reflexivity|]; intros; repeat constructor).
Qed.
Lemma timeout1_ho x i a code x' evs : process_sent_packet_timeout x i a = Ok (code, x', evs) -> held_open x x' evs.
Proof.
  unfold process_sent_packet_timeout. destruct (slot (x_vec x) i) as [c| | |] eqn:Es; cbn [bind]; [|discriminate..].
  destruct (get_pack _ _) as [p| | |]; cbn [bind]; [|discriminate..]. destruct (negb _).
  - destruct (rmc_pub_packet_ack x i (pk_pid p)) as [[x1 e1]| | |] eqn:E1; cbn [bind fst snd]; [|discriminate..]. intros E.
    assert (x' = x1 /\ evs = e1) as [-> ->] by (split; congruence). destruct (ack_frame _ _ _ _ _ E1). apply ho_frees; assumption.
  - destruct (rmc_pub_resend_packet x i a) as [[[cd x1] e1]| | |] eqn:E1; cbn [bind]; [|discriminate..]. pose proof (resend_ho _ _ _ _ _ _ E1) as H1.
    destruct (cd =? 0).
    + destruct (rmc_pub_packet_ack x1 i (pk_pid p)) as [[x2 e2]| | |] eqn:E2; cbn [bind fst snd]; [|discriminate..]. intros E.
      assert (x' = x2 /\ evs = e1 ++ e2) as [-> ->] by (split; congruence). destruct (ack_frame _ _ _ _ _ E2).
      eapply ho_trans; [exact H1|]. apply ho_frees; assumption.
    + intros E. assert (x' = x1 /\ evs = e1) as [-> ->] by (split; congruence). exact H1.
Qed.
Lemma resends_ho i : forall packs x code x' evs, resend_loop x i packs = Ok (code, x', evs) -> held_open x x' evs.
Proof.
  induction packs as [|a packs IH]; intros x code x' evs E; cbn [resend_loop] in E; [assert (x' = x /\ evs = []) as [-> ->] by (split; congruence); apply ho_refl|].
  destruct (process_sent_packet_timeout x i a) as [[[cd x1] e1]| | |] eqn:E1; cbn [bind] in E; [|discriminate E..].
  pose proof (timeout1_ho _ _ _ _ _ _ E1) as H1. destruct (negb (cd =? 0)); [assert (x' = x1 /\ evs = e1) as [-> ->] by (split; congruence); exact H1|].
  destruct (resend_loop x1 i packs) as [[[cd2 x2] e2]| | |] eqn:E2; cbn [bind] in E; [|discriminate E..].
  assert (x' = x2 /\ evs = e1 ++ e2) as [-> ->] by (split; congruence). exact (ho_trans _ _ _ _ _ H1 (IH _ _ _ _ E2)).
Qed.
Lemma subs_ho now : forall subs x code x' evs, subs_loop x now subs = Ok (code, x', evs) -> held_open x x' evs.
Proof.
  induction subs as [|s subs IH]; intros x code x' evs E; cbn [subs_loop] in E; [assert (x' = x /\ evs = []) as [-> ->] by (split; congruence); apply ho_refl|].
  unfold process_subscriber_timeout in E. destruct (pub_get_timed_out_packets _ _ _ _) as [packs| | |]; cbn [bind] in E; [|discriminate E..].
  destruct (resend_loop x (Z.of_nat s) packs) as [[[cd x1] e1]| | |] eqn:E1; cbn [bind] in E; [|discriminate E..].
  pose proof (resends_ho _ _ _ _ _ _ E1) as H1. destruct (negb (cd =? 0)); [assert (x' = x1 /\ evs = e1) as [-> ->] by (split; congruence); exact H1|].
  destruct (subs_loop x1 now subs) as [[[cd2 x2] e2]| | |] eqn:E2; cbn [bind] in E; [|discriminate E..].
  assert (x' = x2 /\ evs = e1 ++ e2) as [-> ->] by (split; congruence). exact (ho_trans _ _ _ _ _ H1 (IH _ _ _ _ E2)).
Qed.
Lemma timeout_ho x now buf o code x' evs : rmc_pub_timeout_process x now buf o = Ok (code, x', evs) -> held_open x x' evs.
Proof.
  unfold rmc_pub_timeout_process. destruct (announce_due x now).
  - destruct (match o with AnnNone => _ | AnnNo => _ | AnnYes bs len => _ end) as [[bs len] send].
    match goal with |- context [bind ?h _] => destruct h as [[[cd x2] e2]| | |] eqn:E2 end; cbn [bind]; [|discriminate..].
    intros E. assert (evs = e2) as -> by congruence.
    assert (H : held_open (set_mem x (updz (x_mem x) buf (Some bs))) x2 e2).
    { destruct send; [exact (queue_ho _ _ _ _ _ _ _ E2)|]. assert (x2 = set_mem x (updz (x_mem x) buf (Some bs)) /\ e2 = []) as [-> ->] by (split; congruence). apply ho_refl. }
    injection E as _ <-. exact H.
  - destruct (pub_get_timed_out_subscribers _ _ _) as [subs| | |]; cbn [bind]; [|discriminate..]. apply subs_ho.
Qed.
Lemma close_loop_frame r : forall n x ind x' evs, 0 <= ind -> close_loop n x ind = Ok (x', evs) -> pframe r x x' evs /\ v_size (x_vec x') = v_size (x_vec x).
Proof.
  induction n as [|n IH]; intros x ind x' evs Hi E; cbn [close_loop] in E.
  { assert (x' = x /\ evs = []) as [-> ->] by (split; congruence). split; [|reflexivity]. apply pframe_vec; [reflexivity|constructor]. }
  destruct (find_by_index (x_vec x) ind) as [[c|]| | |]; cbn [bind] in E; [| |discriminate E..].
  - destruct (rmc_pub_close_connection x ind) as [[[cd x1] e1]| | |] eqn:E1; cbn [bind] in E; [|discriminate E..].
    destruct (close_loop n x1 (ind + 1)) as [[x2 e2]| | |] eqn:E2; cbn [bind fst snd] in E; [|discriminate E..].
    assert (x' = x2 /\ evs = e1 ++ e2) as [-> ->] by (split; congruence).
    destruct (close_frame r _ _ _ _ _ Hi E1) as (F1 & _ & S1). destruct (IH x1 (ind + 1) _ _ ltac:(lia) E2) as [F2 S2]. split; [exact (pframe_trans _ _ _ _ _ _ F1 F2)|congruence].
  - apply (IH x (ind + 1)); [lia|exact E].
Qed.
Lemma deactivate_frame r x code x' evs : rmc_pub_deactivate_context x = Ok (code, x', evs) -> pframe r x x' evs.
Proof.
  unfold rmc_pub_deactivate_context. match goal with |- context [bind ?h _] => destruct h as [[x1 e1]| | |] eqn:E1 end; cbn [bind fst snd]; [|discriminate..].
  intros E. set (pre := [_; _]) in E. set (post := [_; _]) in E. injection E as _ <- <-.
  assert (F : pframe r x x1 e1).
  { destruct (_ =? _); [assert (x1 = x /\ e1 = []) as [-> ->] by (split; congruence); apply pframe_vec; [reflexivity|constructor]|].
    exact (proj1 (close_loop_frame r _ _ 0 _ _ (Z.le_refl 0) E1)). }
  apply (pframe_trans r x x _ pre (e1 ++ post)); [apply (pframe_vec r x x); [reflexivity|intros; repeat constructor]|].
  eapply pframe_trans; [exact F|]. apply pframe_vec; [reflexivity|intros; repeat constructor].
Qed.
Lemma accept_frame r x k a cb code op x' evs : v_size (x_vec x) <= RMC_LISTEN_INDEX -> clean (x_vec x) ->
  (forall i c, slot (x_vec x) i = Ok c -> c_desc c = -1 -> c_mode c = CLOSED) ->
  match a with AccOk d _ nd => nd = 0 | AccErr e => e <> 0 end ->
  rmc_pub_read x k (RdAccept a cb) = Ok (code, op, x', evs) -> pframe r x x' evs.
Proof.
  intros Sz Cl Md Ha. cbn [rmc_pub_read].
  destruct (accept_cases (x_listen x) (x_vec x) a ltac:(unfold RMC_LISTEN_INDEX, RMC_NIL_INDEX in *; lia)) as [[_ ->]|(i & c & Lf & Hs & Hd & E)]; cbn [bind].
  { change (negb (ENOMEM =? 0)) with true. cbv iota. intros E. injection E as _ _ <- <-. apply pframe_vec; [reflexivity|constructor]. }
  pose proof (slot_range _ _ _ Hs) as R. destruct a as [e|d addr nd]; cbn in Ha.
  - rewrite E. cbn [bind]. replace (negb (e =? 0)) with true by lia. cbv iota. intros E1. injection E1 as _ _ <- <-. cbn [map].
    apply (pframe_put r x _ i c (set_desc c (-1))); auto. cbn [set_vec x_vec]. intros k0.
    destruct (Z.eq_dec k0 i) as [->|N]; [rewrite !slot_put_same by (rewrite ?bumped_size; exact R); reflexivity|].
    rewrite !slot_put_other by (lia || exact N). apply bumped_slot.
  - destruct E as [[_ E]|[H _]]; [|contradiction]. rewrite E. cbn [bind]. change (negb (0 =? 0)) with false. cbv iota.
    set (c1 := mkConn _ _ _ _ _ _ _ _). set (v1 := set_active _ _). 
    assert (S1 : slot v1 i = Ok c1) by (apply slot_put_bumped; exact R).
    assert (Sz1 : v_size v1 = v_size (x_vec x)) by (unfold v1; rewrite <- (bumped_size (x_vec x) i); apply size_put).
    assert (Fi : find_by_index v1 i = Ok (Some c1)).
    { destruct (find_index_cases v1 i ltac:(lia)) as [[_ N]|(c2 & Hf & Ho)]; [destruct (N c1); split; [exact S1|discriminate]|]. rewrite Hf. destruct Ho. congruence. }
    rewrite Fi. cbn [bind]. set (x1 := set_pub _ _). set (e1 := [EvOpen d; _; _]).
    assert (F1 : pframe r x x1 (map PvConn e1)).
    { intros j c' Hj Hm _. change (x_vec x1) with v1 in Hj. destruct (Z.eq_dec j i) as [->|N].
      - right. assert (c' = c1) as -> by congruence. split; [exact (proj1 (Cl i c Hs (Md i c Hs Hd)))|].
        exists [PvConn (EvOpen d)], d, POLLREAD, [PvConn (EvMod (x_listen x) RMC_LISTEN_INDEX POLLREAD POLLREAD)]. split; [reflexivity|]. repeat constructor.
      - left. exists c'. split; [|split; [exact Hm|split; [reflexivity|]]].
        + rewrite <- Hj. unfold v1. rewrite slot_set_active, slot_put_other by (lia || exact N). symmetry. apply bumped_slot.
        + repeat constructor. cbn. congruence. }
    destruct cb as [[|]|].
    + intros E1. injection E1 as _ _ <- <-. apply (pframe_trans r x x1 x1 (map PvConn e1) [PvJoin (c_addr c1) (c_port c1)]); [exact F1|].
      apply pframe_vec; [reflexivity|intros; repeat constructor].
    + destruct (rmc_pub_close_connection x1 i) as [[[cd x2] e2]| | |] eqn:Ec; cbn [bind]; [|discriminate..]. intros E1. injection E1 as _ _ <- <-.
      apply (pframe_trans r x x1 x2 (map PvConn e1) (PvJoin (c_addr c1) (c_port c1) :: e2)); [exact F1|]. apply (pframe_trans r _ x1 _ [PvJoin (c_addr c1) (c_port c1)]); [apply pframe_vec; [reflexivity|intros; repeat constructor]|].
      exact (proj1 (close_frame r x1 i cd x2 e2 (proj1 R) Ec)).
    + intros E1. injection E1 as _ _ <- <-. exact F1.
Qed.

(** ** One read of the control channel *)
Lemma pub_read_cases {St} (ea : St -> Z * Z -> res St) cb (ec : St -> option (list Z) -> res St) st rb o q :
  cb_wf rb -> bytes_ok (contents rb) ->
  match o with RData bs => bs <> [] -> let got := ztake (circ_buf_available rb) bs in bytes_ok bs /\ read_ok (cb_size rb) (cb_start rb) (circ_buf_in_use rb + zlen got) /\
     (cb = true -> forall cmds r, parses for_pub (contents rb ++ got) cmds r -> ctrls_ok (cb_size rb) (cb_start rb) cmds) | RErr => True end ->
  tcp_read (pub_dispatch ea cb ec) st rb o = Ok q ->
  (q = mkR ENOMEM RMC_ERROR st rb /\ circ_buf_available rb = 0) \/
  (r_code q = EPIPE /\ r_st q = st /\ (o = RErr \/ o = RData [])) \/
  exists bs cmds l, o = RData bs /\ bs <> [] /\ parses for_pub (contents rb ++ ztake (circ_buf_available rb) bs) cmds l /\
    run_cmds (pub_eff ea cb ec) st cmds = Ok (r_st q) /\ r_code q = left_code pub_next l /\ r_op q = left_op pub_next l /\
    cb_wf (r_buf q) /\ cb_size (r_buf q) = cb_size rb /\ contents (r_buf q) = l.
Proof.
  intros W Hb Ho E. destruct (Z.eq_dec (circ_buf_available rb) 0) as [Ea|Ea].
  - left. rewrite (tcp_read_full _ st rb o Ea) in E. split; [congruence|exact Ea].
  - right. pose proof (available_val rb W) as Av. pose proof (in_use_bounds rb W) as Ib.
    assert (Pipe : o = RErr \/ o = RData [] -> r_code q = EPIPE /\ r_st q = st).
    { intros Hoo. unfold tcp_read, tcp_fill in E. apply Z.eqb_neq in Ea. rewrite Ea in E.
      destruct (alloc_cases rb (circ_buf_available rb) W) as (rb1 & s & Eal & _); [lia|lia|]. rewrite Eal in E.
      assert (E' : (do rb2 <- circ_buf_trim rb1 (circ_buf_available rb); Ok (mkR EPIPE RMC_READ_DISCONNECT st rb2)) = Ok q).
      { rewrite <- E. destruct Hoo as [-> | ->]; destruct (circ_buf_trim rb1 (circ_buf_available rb)); reflexivity. }
      clear E. destruct (circ_buf_trim rb1 (circ_buf_available rb)) as [rb2| | |]; cbn [bind] in E'; [|discriminate E'..]. assert (q = mkR EPIPE RMC_READ_DISCONNECT st rb2) as -> by congruence. auto. }
    destruct o as [|bs]; [left; destruct Pipe; auto|]. destruct (list_eq_dec Z.eq_dec bs []) as [->|Hne]; [left; destruct Pipe; auto|].
    right. destruct (Ho Hne) as (Hbs & Hro & Hct). set (c := ztake (circ_buf_available rb) bs) in *.
    assert (Hcb : bytes_ok (contents rb ++ c)).
    { apply Forall_app. split; [exact Hb|]. unfold c. apply bytes_take. exact Hbs. }
    destruct (parses_exists for_pub pub_next pub_next_sound pub_next_complete (S (length (contents rb ++ c))) (contents rb ++ c)) as (cmds & l & P); [lia|exact Hcb|].
    pose proof (tcp_read_total (pub_dispatch ea cb ec) (pub_eff ea cb ec) for_pub pub_next cb pub_next_sound pub_next_complete
      (pub_handler_cmd ea cb ec) (pub_handler_more ea cb ec) (pub_handler_bad ea cb ec) st rb bs cmds l
      W Hb Hbs Hne Ea Hro P (fun T => Hct T cmds l P)) as Tt. exists bs, cmds, l. split; [reflexivity|]. split; [exact Hne|]. split; [exact P|].
    destruct (run_cmds (pub_eff ea cb ec) st cmds) as [st'| | |]; [|congruence..].
    destruct Tt as (rb' & E1 & W' & Z' & C' & S0'). rewrite E1 in E. assert (q = mkR (left_code pub_next l) (left_op pub_next l) st' rb') as -> by congruence.
    cbn [r_st r_code r_op r_buf]. auto 10.
Qed.

(** The receive ring holds what is left of the stream after the commands in it, and the acks
    in these are the ones seen. *)
Record PC (acks : list (Z * Z)) (got : list Z) (rb : cbuf) : Prop := mkPC {
  pc_wf : cb_wf rb; pc_size : cb_size rb = RMC_MAX_PACKET; pc_bytes : bytes_ok got;
  pc_cmds : exists cmds, parses for_pub got cmds (contents rb) /\ acks_in cmds = acks
}.
Definition PRI (x : pctx) (log : list pev) (f : Z -> list Z) : Prop :=
  forall j c, slot (x_vec x) j = Ok c -> c_mode c = CONNECTED -> PC (s_acks (since_open j log)) (f j) (c_rbuf c).
Lemma PC_new rb : rnew rb -> PC [] [] rb.
Proof.
  intros (H1 & H2 & H3). assert (W : cb_wf rb) by (unfold cb_wf, cb_max; rewrite H1, H2, H3; unfold RMC_MAX_PACKET; lia).
  assert (C : contents rb = []).
  { apply zlen_zero. rewrite contents_len by exact W. unfold circ_buf_in_use. rewrite H2, H3. reflexivity. }
  constructor; auto; [constructor|]. exists []. rewrite C. split; [|reflexivity]. split; [reflexivity|]. split; [constructor|].
  intros c0 rest _ _ E. pose proof (wire_len c0) as L. destruct (wire c0); [change (zlen (@nil Z)) with 0 in L; lia|discriminate E].
Qed.
Lemma pc_left acks got rb : PC acks got rb -> bytes_ok (contents rb).
Proof. intros [_ _ Hb (cmds & (E & _) & _)]. rewrite E in Hb. apply Forall_app in Hb. exact (proj2 Hb). Qed.
Lemma opened_acks j log evs1 d a evs2 : Forall (pq j) evs2 -> s_acks (since_open j (log ++ evs1 ++ PvConn (EvAdd d j a) :: evs2)) = [].
Proof.
  intros H. change (PvConn (EvAdd d j a) :: evs2) with ([PvConn (EvAdd d j a)] ++ evs2). rewrite !app_assoc. rewrite pq_acks by exact H.
  rewrite since_app. cbn [fold_left since_ev]. rewrite Z.eqb_refl. reflexivity.
Qed.
Definition preads (o : xop) : option Z := match o with XRead i (RdTcp _) => Some i | _ => None end.
Lemma frame_PC x x' log f o evs j c' : PRI x log f -> pframe (preads o) x x' evs -> preads o <> Some j ->
  slot (x_vec x') j = Ok c' -> c_mode c' = CONNECTED -> PC (s_acks (since_open j (log ++ evs))) (rcv_next f x o evs j) (c_rbuf c').
Proof.
  intros P F Hr Hs Hm. destruct (F j c' Hs Hm Hr) as [(c & H1 & H2 & H3 & H4)|(H1 & e1 & d & a & e2 & -> & H2)].
  - rewrite (pq_acks j log evs H4), H3. unfold rcv_next. rewrite (pq_opens j evs H4).
    assert (Et : taken x o j = []).
    { destruct o as [| | |i [|? |[|bs]]| | | | | | | |]; try reflexivity. cbn [taken preads] in *. destruct (Z.eqb_spec i j); [congruence|reflexivity]. }
    rewrite Et, app_nil_r. exact (P j c H1 H2).
  - rewrite opened_acks by exact H2. unfold rcv_next. rewrite existsb_app. cbn [existsb opens_at]. rewrite Z.eqb_refl, orb_true_r. apply PC_new. exact H1.
Qed.
Lemma acks_many i evs : forall s, Forall (of_read i) evs -> s_acks (fold_left (since_ev i) evs s) = s_acks s ++ flat_map (ack_here i) evs.
Proof.
  induction evs as [|e evs IH]; intros s H; [symmetry; apply app_nil_r|]. inversion H as [|? ? H1 H2]; subst. cbn [fold_left flat_map]. rewrite (IH _ H2).
  destruct e; cbn in H1; try contradiction; cbn [since_ev ack_here]; try reflexivity. subst. rewrite Z.eqb_refl. cbn [s_acks app]. rewrite <- app_assoc. reflexivity.
Qed.
Lemma of_read_pq i j e : of_read i e -> j <> i -> pq j e.
Proof. destruct e as [[]| | | | | | |]; cbn; intros; try contradiction; try exact Logic.I. congruence. Qed.
Lemma of_read_opens i j e : of_read i e -> opens_at j e = false.
Proof. destruct e; cbn; intros; try contradiction; reflexivity. Qed.
Lemma left_not_pipe l : left_code pub_next l <> EPIPE.
Proof. unfold left_code. destruct l; [discriminate|]. destruct (pub_next _); discriminate. Qed.

Lemma read_step x log f i t code op x' evs : PRI x log f -> 0 <= i -> pread_good x (XRead i (RdTcp t)) ->
  rmc_pub_read x i (RdTcp t) = Ok (code, op, x', evs) ->
  pframe (Some i) x x' evs /\
  forall c', slot (x_vec x') i = Ok c' -> c_mode c' = CONNECTED ->
    PC (s_acks (since_open i (log ++ evs))) (rcv_next f x (XRead i (RdTcp t)) evs i) (c_rbuf c').
Proof.
  intros P Hi Hg E. cbn [rmc_pub_read] in E.
  assert (Same : x' = x -> evs = [] -> (forall c, slot (x_vec x) i = Ok c -> c_mode c <> CONNECTED) -> pframe (Some i) x x' evs /\
    forall c', slot (x_vec x') i = Ok c' -> c_mode c' = CONNECTED ->
    PC (s_acks (since_open i (log ++ evs))) (rcv_next f x (XRead i (RdTcp t)) evs i) (c_rbuf c')).
  { intros -> -> N. split; [apply pframe_vec; [reflexivity|constructor]|]. intros c' H1 H2. destruct (N c' H1 H2). }
  destruct (find_index_cases (x_vec x) i Hi) as [[Ef Hn]|(c & Ef & Hs & Ho)]; rewrite Ef in E; cbn [bind] in E.
  { apply Same; [congruence|congruence|]. intros c H1 H2. apply (Hn c). split; [exact H1|rewrite H2; discriminate]. }
  destruct (Z.eqb_spec (c_mode c) CONNECTED) as [Hm|Hm]; cbn [negb] in E.
  2:{ apply Same; [congruence|congruence|]. intros c0 H1 H2. congruence. }
  clear Same. pose proof (P i c Hs Hm) as Pc. pose proof (slot_range _ _ _ Hs) as R.
  destruct (tcp_read _ _ (c_rbuf c) t) as [q| | |] eqn:Et; cbn [bind] in E; [|discriminate E..].
  assert (Hro : match t with RData bs => bs <> [] -> let got := ztake (circ_buf_available (c_rbuf c)) bs in bytes_ok bs /\ read_ok (cb_size (c_rbuf c)) (cb_start (c_rbuf c)) (circ_buf_in_use (c_rbuf c) + zlen got) /\
     (ccb_set x = true -> forall cmds r, parses for_pub (contents (c_rbuf c) ++ got) cmds r -> ctrls_ok (cb_size (c_rbuf c)) (cb_start (c_rbuf c)) cmds) | RErr => True end).
  { destruct t as [|bs]; [exact Logic.I|]. intros Hne. rewrite (pc_size _ _ _ Pc). exact (Hg c Hs Hm Hne). }
  destruct (pub_read_cases _ _ _ _ (c_rbuf c) t q (pc_wf _ _ _ Pc) (pc_left _ _ _ Pc) Hro Et) as [[-> Eav]|[(Ec & Est & Eo)|(bs & cmds & l & Eo & Hne & Pp & Run & Ec & _ & W' & Z' & C')]].
  - cbn [r_st r_code r_op r_buf fst snd] in E. change (ENOMEM =? EPIPE) with false in E. cbv iota in E. set (act := Z.lor _ _) in E. cbn [app] in E.
    assert (x' = set_vec x (put_slot (x_vec x) i (set_action (set_rbuf c (c_rbuf c)) act)) /\ evs = [PvConn (EvMod (c_desc c) i (c_action c) act)]) as [-> ->] by (split; congruence).
    split; [apply (pframe_put (Some i) x _ i c (set_action (set_rbuf c (c_rbuf c)) act)); auto; intros; repeat constructor|].
    intros c' H1 H2. cbn [set_vec x_vec] in H1. rewrite slot_put_same in H1 by exact R. assert (c' = set_action (set_rbuf c (c_rbuf c)) act) as -> by congruence.
    cbn [set_action set_rbuf c_rbuf]. rewrite pq_acks by (repeat constructor). unfold rcv_next. cbn [existsb opens_at orb].
    assert (Tk : taken x (XRead i (RdTcp t)) i = []). { cbn [taken]. destruct t as [|bs]; [reflexivity|]. rewrite Z.eqb_refl, Hs, Hm, Eav. reflexivity. }
    rewrite Tk, app_nil_r. exact Pc.
  - rewrite Est, Ec in E. cbn [fst snd] in E. change (EPIPE =? EPIPE) with true in E. cbv iota in E.
    set (x1 := set_vec x _) in E. destruct (rmc_pub_close_connection x1 i) as [[[cd x2] e2]| | |] eqn:E2; cbn [bind app] in E; [|discriminate E..].
    assert (x' = x2 /\ evs = e2) as [-> ->] by (split; congruence).
    destruct (close_frame (Some i) x1 i cd x2 e2 Hi E2) as (F & Cl & _).
    split.
    + apply (pframe_trans (Some i) x x1 x2 [] e2); [|exact F]. apply (pframe_put (Some i) x _ i c (set_rbuf c (r_buf q))); auto. intros. contradiction.
    + intros c' H1 H2. exfalso. destruct (Cl (set_rbuf c (r_buf q))) as (d & D1 & D2); [|congruence].
      split; [unfold x1; cbn [set_vec x_vec]; apply slot_put_same; exact R|exact Ho].
  - destruct (r_st q) as [x1 e1] eqn:Est. cbn [fst snd] in E. pose proof (left_not_pipe l) as Nl. rewrite <- Ec in Nl. apply Z.eqb_neq in Nl. rewrite Nl in E.
    destruct (run_frame _ _ _ _ _ _ _ Run) as (V1 & more & E1 & M1 & A1). cbn [app] in E1. subst e1.
    set (act := Z.lor _ _) in E. set (c1 := set_action (set_rbuf c (r_buf q)) act) in E.
    assert (x' = set_vec x1 (put_slot (x_vec x1) i c1) /\ evs = more ++ [PvConn (EvMod (c_desc c) i (c_action c) act)]) as [-> ->] by (split; congruence).
    split.
    + apply (pframe_put (Some i) x _ i c c1); auto.
      * intros k. cbn [set_vec x_vec]. rewrite V1. reflexivity.
      * intros; contradiction.
      * intros j Hj. apply Forall_app. split; [|repeat constructor]. eapply Forall_impl; [|exact M1]. intros e He. apply (of_read_pq i); [exact He|congruence].
    + intros c' H1 H2. cbn [set_vec x_vec] in H1. rewrite slot_put_same in H1 by (rewrite V1; exact R). assert (c' = c1) as -> by congruence. cbn [c1 set_action set_rbuf c_rbuf].
      rewrite app_assoc, pq_acks by (repeat constructor). rewrite since_app, acks_many by exact M1. rewrite A1.
      unfold rcv_next. rewrite existsb_app. cbn [existsb opens_at orb].
      assert (Ex : existsb (opens_at i) more = false). { clear - M1. induction M1 as [|e l H _ IH]; [reflexivity|]. cbn [existsb]. rewrite IH, (of_read_opens i i e H). reflexivity. }
      rewrite Ex. cbn [orb]. rewrite Eo. cbn [taken]. rewrite Z.eqb_refl, Hs, Hm. change (CONNECTED =? CONNECTED) with true. cbv iota.
      destruct Pc as [Pw Pz Pb (cmds0 & P0 & A0)]. constructor.
      * exact W'.
      * congruence.
      * apply Forall_app. split; [exact Pb|]. rewrite Eo in Hro. destruct (Hro Hne) as (Hbs & _). apply bytes_take. exact Hbs.
      * exists (cmds0 ++ cmds). rewrite C'. split; [exact (parses_app for_pub _ _ _ _ _ _ P0 Pp)|].
        unfold acks_in in *. rewrite flat_map_app, A0. reflexivity.
Qed.
(** Every call keeps the connections it does not read. *)
Lemma step_pframe x g log f o code x' evs : XInv false x g log -> PRI x log f -> xok x g o -> pread_good x o -> xstep x o = Ok (code, x', evs) ->
  pframe (preads o) x x' evs.
Proof.
    intros XV IH Hok Hr E. destruct XV as (sp & L & Q & X). pose proof (xi_vec _ _ _ _ _ _ _ X) as V.
    assert (Ho : forall e : list pev, held_open x x' e -> evs = e -> pframe None x x' evs) by (intros e (_ & _ & He) ->; exact He).
    assert (Fin : preads o = None -> pframe None x x' evs -> pframe (preads o) x x' evs) by (intros -> Fr; exact Fr).
    assert (Keep : x_vec x' = x_vec x -> evs = [] -> pframe None x x' evs) by (intros Ev ->; apply pframe_vec; [exact Ev|constructor]).
    destruct o as [ptr bs|ptr|ptr len ann|i [a cb|err|t]|i [outs|w]|now buf o|i|interval now|s r|b|o|]; cbn [xstep] in E.
    + apply Fin; [reflexivity|]. injection E as _ <- <-. apply Keep; reflexivity.
    + apply Fin; [reflexivity|]. injection E as _ <- <-. apply Keep; reflexivity.
    + apply Fin; [reflexivity|]. exact (Ho _ (queue_ho _ _ _ _ _ _ _ E) eq_refl).
    + apply Fin; [reflexivity|]. destruct (rmc_pub_read x i (RdAccept a cb)) as [[[[cd op] x1] e1]| | |] eqn:Ed; cbn [bind] in E; [|discriminate E..]. injection E as _ <- <-.
      apply (accept_frame None x i a cb cd op x1 e1); auto; [exact (vi_size _ _ V)|exact (vi_clean _ _ V)| |].
      * intros k c H1 H2. apply (vi_mode _ _ V k c H1). exact H2.
      * destruct a as [e|d addr nd]; cbn in Hok; [exact Hok|tauto].
    + apply Fin; [reflexivity|]. cbn [rmc_pub_read] in E. destruct (x_mcast x =? -1); [|destruct err]; cbn [bind] in E; injection E as _ <- <-; apply pframe_vec; auto; intros; repeat constructor.
    + destruct (rmc_pub_read x i (RdTcp t)) as [[[[cd op] x1] e1]| | |] eqn:Ed; cbn [bind] in E; [|discriminate E..].
      assert (x' = x1 /\ evs = e1) as [-> ->] by (split; congruence). cbn [xok] in Hok.
      exact (proj1 (read_step x log f i t cd op x1 e1 IH ltac:(lia) Hr Ed)).
    + apply Fin; [reflexivity|]. cbn [rmc_pub_write] in E. destruct (process_multicast_write x outs) as [[[cd x1] e1]| | |] eqn:Ed; cbn [bind] in E; [|discriminate E..].
      injection E as _ <- <-. exact (proj2 (proj2 (mcast_ho _ _ _ _ _ Ed))).
    + apply Fin; [reflexivity|]. cbn [rmc_pub_write] in E. destruct (_ <=? i); cbn [bind] in E; [injection E as _ <- <-; apply Keep; reflexivity|].
      destruct (find_index_cases (x_vec x) i) as [[Ef _]|(c & Ef & Hs & _)]; [destruct w; cbn in Hok; lia| |]; rewrite Ef in E; cbn [bind] in E; [injection E as _ <- <-; apply Keep; reflexivity|].
      destruct (negb _); cbn [bind] in E; [injection E as _ <- <-; apply Keep; reflexivity|].
      destruct (_ =? 0); cbn [bind] in E; [injection E as _ <- <-; apply Keep; reflexivity|].
      destruct (tcp_write (c_wbuf c) w) as [rr| | |]; cbn [bind] in E; [|discriminate E..]. injection E as _ <- <-.
      eapply (pframe_put None x _ i c); [exact Hs|reflexivity|reflexivity|reflexivity|]. intros. repeat constructor.
    + apply Fin; [reflexivity|]. exact (Ho _ (timeout_ho _ _ _ _ _ _ _ E) eq_refl).
    + apply Fin; [reflexivity|]. cbn in Hok. exact (proj1 (close_frame None x i code x' evs (proj1 Hok) E)).
    + apply Fin; [reflexivity|]. injection E as _ <- <-. apply Keep; reflexivity.
    + apply Fin; [reflexivity|]. unfold rmc_pub_throttling in E. destruct (s <? r); injection E as _ <- <-; apply Keep; reflexivity.
    + apply Fin; [reflexivity|]. injection E as _ <- <-. apply Keep; reflexivity.
    + apply Fin; [reflexivity|]. pose proof (vi_size _ _ V) as Vs. unfold rmc_pub_activate_context in E. destruct o as [e ds ea|m l port].
      * injection E as _ <- <-. apply pframe_vec; [reflexivity|]. intros j c _ _. apply Forall_app. split; apply Forall_map, Forall_forall; intros; exact Logic.I.
      * injection E as _ <- <-. apply pframe_vec; [destruct (_ =? 0); reflexivity|]. intros j c Hj _. apply slot_range in Hj.
        unfold RMC_LISTEN_INDEX in Vs. repeat constructor; cbn; unfold RMC_MULTICAST_INDEX, RMC_LISTEN_INDEX; lia.
    + apply Fin; [reflexivity|]. exact (deactivate_frame None _ _ _ _ E).
Qed.
Lemma step_PRI x g log f o code x' evs : XInv false x g log -> PRI x log f -> xok x g o -> pread_good x o -> xstep x o = Ok (code, x', evs) ->
  PRI x' (log ++ evs) (rcv_next f x o evs).
Proof.
  intros XV IH Hok Hr E. pose proof (step_pframe x g log f o code x' evs XV IH Hok Hr E) as Fr.
  assert (Fin : preads o = None -> PRI x' (log ++ evs) (rcv_next f x o evs)).
  { intros Er j c Hs Hm. apply (frame_PC x x' log f o evs j c IH); auto; rewrite Er; discriminate. }
  destruct o as [ptr bs|ptr|ptr len ann|i [a cb|err|t]|i w|now buf o|i|interval now|s r|b|o|]; try (apply Fin; reflexivity).
  cbn [xstep] in E. destruct (rmc_pub_read x i (RdTcp t)) as [[[[cd op] x1] e1]| | |] eqn:Ed; cbn [bind] in E; [|discriminate E..].
  assert (x' = x1 /\ evs = e1) as [-> ->] by (split; congruence). cbn [xok] in Hok.
  destruct (read_step x log f i t cd op x1 e1 IH ltac:(lia) Hr Ed) as [_ Rd]. intros j c Hs Hm. destruct (Z.eq_dec j i) as [->|N]; [exact (Rd c Hs Hm)|].
  apply (frame_PC x x1 log f (XRead i (RdTcp t)) e1 j c IH); auto. cbn [preads]. congruence.
Qed.
Lemma preached_PRI x g log f : preached x g log f -> PRI x log f.
Proof.
  intros (x0 & ops & F & H). pose proof F as F0. induction H as [|ops x g log f o code x' evs Hh IH Hok Hr E].
  - destruct F as (node & lip & lport & buf & m & -> & _). intros j c Hs Hm. apply slot_init in Hs. destruct Hs as [_ Hs]. rewrite Hs in Hm. discriminate.
  - assert (XV : XInv false x g log) by (apply (hist_inv_x false x0 ops); [exact F|discriminate|exact (rhist_xhist _ _ _ _ _ _ Hh)]).
    exact (step_PRI x g log f o code x' evs XV IH Hok Hr E).
Qed.
