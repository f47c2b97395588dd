(** PropPoll.v — C68 for the publisher: what the library asks its user to poll for. *)
From Verif Require Import Base CircBuf CircBufProofs Wire SeqList Pub SpecPub PubProofs Proto SpecProto ProtoProofs Safe
  Conn SpecConn ConnProofs PubCtx SpecPubCtx PubCtxProofs PubCtxSteps PropPubCtx PropPubTime SpecPubRecv PubRecv SpecPoll PollPub PollMcast.

(** ** C68. Connections *)
(** In every reachable state a free slot is not polled, and a connection is polled, under its
    own descriptor, for input and — exactly when bytes wait in its output buffer — for room. *)
Theorem c68_pub_connection : forall x g log i c, reached x g log -> slot (x_vec x) i = Ok c ->
  asked i (pub_polls log) = if c_mode c =? CLOSED then None else Some (c_desc c, wants (contents (c_wbuf c))).
Proof.
  intros x g log i c H Hs. pose proof (reached_poll _ _ _ H) as P. destruct (P i c Hs) as [P1 P2]. rewrite P1.
  destruct (Z.eqb_spec (c_mode c) CLOSED) as [E|N]; [reflexivity|]. rewrite (P2 N). f_equal. f_equal.
  apply reached_inv in H. destruct H as (sp & L & Q & X). destruct (vi_ring _ _ (xi_vec _ _ _ _ _ _ _ X) i c Hs) as [Hw _].
  unfold want, wants. rewrite (in_use_contents _ Hw). destruct (contents (c_wbuf c)); reflexivity.
Qed.
(** ** C68. The listening socket *)
Theorem c68_pub_listen : forall x g log, reached x g log -> x_listen x <> -1 ->
  asked RMC_LISTEN_INDEX (pub_polls log) = Some (x_listen x, POLLREAD).
Proof. intros x g log H. exact (m_listen _ _ _ (reached_MInv _ _ _ H)). Qed.
(** ** C68. The multicast socket *)
(** While the context is active the socket is polled; room for output is asked for only while
    packets are queued. *)
Theorem c68_pub_mcast_polled : forall x g log, reached x g log -> x_mcast x <> -1 ->
  exists act, asked RMC_MULTICAST_INDEX (pub_polls log) = Some (x_mcast x, act) /\ (for_output act = true -> queued x <> []).
Proof.
  intros x g log H Hm. pose proof (reached_MInv _ _ _ H) as M. destruct (m_polled _ _ _ M Hm) as (act & E). exists act. split; [exact E|].
  exact (m_none _ _ _ M _ _ E).
Qed.
(** It is asked for while packets are queued, provided no datagram was read from the
    multicast socket and the context was not activated while packets were waiting. *)
Theorem c68_pub_mcast_partial : forall x g log, reached_drained x g log -> x_mcast x <> -1 ->
  exists act, asked RMC_MULTICAST_INDEX (pub_polls log) = Some (x_mcast x, act) /\ (for_output act = true <-> queued x <> []).
Proof.
  intros x g log H Hm. pose proof (drained_MInv _ _ _ H) as M. destruct (m_polled _ _ _ M Hm) as (act & E). exists act. split; [exact E|].
  split; [exact (m_none _ _ _ M _ _ E)|]. intros Hq. rewrite (m_some _ _ _ M eq_refl Hm Hq) in E. injection E as <-. reflexivity.
Qed.
Definition askedb (o : option (Z * Z)) (d act : Z) : bool := match o with Some (d', a) => (d' =? d) && (a =? act) | None => false end.
Lemma askedb_eq o d act : askedb o d act = true -> o = Some (d, act).
Proof. unfold askedb. destruct o as [[? ?]|]; [|discriminate]. intros H. apply andb_prop in H. f_equal. f_equal; lia. Qed.
(** The two exceptions.  A datagram read while a packet is queued withdraws the request for
    room: the packet stays queued and nothing is polled for that would send it. *)
Definition c68_read_ops : list xop := [XActivate (ActOk 3 4 0); XAlloc 100 [10; 11]; XQueue 100 2 false; XRead RMC_MULTICAST_INDEX (RdMcast None)].
Theorem c68_pub_mcast_read_refuted : exists x g log, xhist demo0 c68_read_ops x g log /\ x_mcast x = 3 /\ queued x = [(1, (100, 2))] /\
  asked RMC_MULTICAST_INDEX (pub_polls log) = Some (3, POLLREAD).
Proof.
  destruct (xcheck_hist demo0 c68_read_ops (fun x g log => (x_mcast x =? 3) && askedb (asked RMC_MULTICAST_INDEX (pub_polls log)) 3 POLLREAD &&
    listb (map fst (queued x)) [1] && listb (map (fun q => fst (snd q)) (queued x)) [100] && listb (map (fun q => snd (snd q)) (queued x)) [2])) as (x & g & log & H & E); [vm_compute; reflexivity|].
  bool_split. exists x, g, log. split; [exact H|]. split; [lia|]. split; [|apply askedb_eq; assumption].
  repeat match goal with H : listb _ _ = true |- _ => apply listb_eq in H end.
  destruct (queued x) as [|[? [? ?]] [|]]; cbn [map fst snd] in *; try discriminate. congruence.
Qed.
(** A packet queued before the context is activated is asked for on descriptor -1; activation
    then asks for input only. *)
Definition c68_early_ops : list xop := [XAlloc 100 [10; 11]; XQueue 100 2 false; XActivate (ActOk 3 4 0)].
Theorem c68_pub_mcast_early_refuted : exists x g log, xhist demo0 c68_early_ops x g log /\ x_mcast x = 3 /\ queued x = [(1, (100, 2))] /\
  asked RMC_MULTICAST_INDEX (pub_polls log) = Some (3, POLLREAD) /\
  In (EvMod (-1) RMC_MULTICAST_INDEX 0 POLLWRITE) (pub_polls log).
Proof.
  destruct (xcheck_hist demo0 c68_early_ops (fun x g log => (x_mcast x =? 3) && askedb (asked RMC_MULTICAST_INDEX (pub_polls log)) 3 POLLREAD &&
    listb (map fst (queued x)) [1] && listb (map (fun q => fst (snd q)) (queued x)) [100] && listb (map (fun q => snd (snd q)) (queued x)) [2] &&
    existsb (fun e => match e with EvMod d i o n => (d =? -1) && (i =? RMC_MULTICAST_INDEX) && (o =? 0) && (n =? POLLWRITE) | _ => false end) (pub_polls log))) as (x & g & log & H & E); [vm_compute; reflexivity|].
  bool_split. exists x, g, log. split; [exact H|]. split; [lia|]. split; [|split; [apply askedb_eq; assumption|]].
  - repeat match goal with H : listb _ _ = true |- _ => apply listb_eq in H end.
    destruct (queued x) as [|[? [? ?]] [|]]; cbn [map fst snd] in *; try discriminate. congruence.
  - match goal with H : existsb _ _ = true |- _ => apply existsb_exists in H; destruct H as (e & He & Hb) end.
    destruct e as [| | |d j old act|]; try discriminate Hb. bool_split. replace (-1) with d by lia. replace RMC_MULTICAST_INDEX with j by lia.
    replace 0 with old by lia. replace POLLWRITE with act by lia. exact He.
Qed.
(** Two connections, packet 2 resent to both: both are polled for room, and the multicast
    socket is polled for room because packet 3 is queued. *)
Definition c68_ops : list xop := demo_ops ++ [XTimeout 10000000000 900 AnnNo].
Lemma c68_drained : exists x g log, xhist demo0 c68_ops x g log /\ reached_drained x g log /\ x_mcast x = 3 /\ queued x <> [] /\
  asked 0 (pub_polls log) = Some (5, POLLREAD + POLLWRITE) /\ asked 1 (pub_polls log) = Some (6, POLLREAD + POLLWRITE) /\
  asked RMC_MULTICAST_INDEX (pub_polls log) = Some (3, POLLWRITE).
Proof.
  destruct (xcheck_hist demo0 c68_ops (fun x g log => (x_mcast x =? 3) && askedb (asked RMC_MULTICAST_INDEX (pub_polls log)) 3 POLLWRITE &&
    askedb (asked 0 (pub_polls log)) 5 (POLLREAD + POLLWRITE) && askedb (asked 1 (pub_polls log)) 6 (POLLREAD + POLLWRITE) &&
    (0 <? zlen (queued x)))) as (x & g & log & H & E); [vm_compute; reflexivity|].
  bool_split. exists x, g, log. split; [exact H|]. split.
  - exists demo0, c68_ops. split; [exact demo0_fresh|]. split; [exact H|].
    intros pre o post x1 g1 log1 Eo Hp. destruct pre as [|o1 pre].
    + injection Eo as <- _. inversion Hp as [|ops ? ? ? o2 ? ? ? ? ? ? Eo2]; [reflexivity|]. symmetry in Eo2. destruct ops; discriminate.
    + assert (HI : In o (tl c68_ops)) by (rewrite Eo; cbn [tl app]; apply in_or_app; right; left; reflexivity).
      clear - HI. cbn [c68_ops demo_ops app tl In] in HI. repeat destruct HI as [HI|HI]; subst; try exact Logic.I; contradiction.
  - split; [lia|]. split; [intros E0; rewrite E0 in *; cbn in *; discriminate|]. repeat split; apply askedb_eq; assumption.
Qed.
Example c68_witness : exists x g log, reached_drained x g log /\ reached x g log /\ x_mcast x <> -1 /\ queued x <> [] /\ asked 0 (pub_polls log) <> None.
Proof.
  destruct c68_drained as (x & g & log & H & D & Em & Q & A & _). exists x, g, log. split; [exact D|]. split; [exists demo0, c68_ops; split; [exact demo0_fresh|exact H]|].
  split; [rewrite Em; discriminate|]. split; [exact Q|]. rewrite A. discriminate.
Qed.

(** ** C44. Switching announces off and on again *)
(** A non-zero interval set after interval 0 schedules the first announce one interval from
    the later call, whatever was scheduled before. *)
Theorem c44_restart : forall x t0 iv t1 now, iv <> 0 -> t1 + iv <> 0 ->
  let x' := rmc_pub_set_announce_interval (rmc_pub_set_announce_interval x 0 t0) iv t1 in
  x_anext x' = t1 + iv /\ (announce_due x' now = true <-> t1 + iv <= now).
Proof.
  intros x t0 iv t1 now Hi Hn. unfold rmc_pub_set_announce_interval, announce_due. cbn [set_ann x_aint x_anext]. change (0 =? 0) with true. cbn [negb andb].
  change (0 =? 0) with true. rewrite (proj2 (Z.eqb_neq _ _) Hi). cbn [negb andb]. split; [reflexivity|]. rewrite (proj2 (Z.eqb_neq _ _) Hn). cbn [negb andb]. rewrite Z.leb_le. lia.
Qed.
Example c44_restart_witness : exists x, x_anext x <> 0 /\ x_anext (rmc_pub_set_announce_interval (rmc_pub_set_announce_interval x 0 1200) 500 9000) = 9500.
Proof. exists (rmc_pub_set_announce_interval demo0 500 1000). split; [discriminate|reflexivity]. Qed.

Print Assumptions c68_pub_connection.
Print Assumptions c68_pub_mcast_partial.
Print Assumptions c68_pub_mcast_early_refuted.
Print Assumptions c44_restart.
