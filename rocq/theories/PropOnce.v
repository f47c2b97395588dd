(** PropOnce.v — C94: what is resent to a subscriber over TCP was multicast after the publisher
    accepted its connection, and no packet is resent to it twice. *)
From Verif Require Import Base CircBuf CircBufProofs Wire SeqList Pub SpecPub PubProofs Sub SpecSub SubTrace Proto SpecProto ProtoProofs
  Conn SpecConn ConnProofs PubCtx SpecPubCtx PubCtxProofs PubCtxOwed PropPubCtx PropPubTime PropPubMem SpecPubRecv PubRecv PropPubRecv
  SubCtx SpecSubCtx SubSteps SubInv PropSubCtx PropSubDeliver SubRecv PropSubRecv SpecSys SysProofs PropSys PropSysRun.

(** ** Specification *)
(** Of these commands no two carry the same packet. *)
Definition carried_once (cmds : list cmd) : Prop :=
  forall n m h p h' p', nth_error cmds n = Some (CmdPacket h p) -> nth_error cmds m = Some (CmdPacket h' p') -> h_pid h = h_pid h' -> n = m.

Lemma ids_once cmds : NoDup (ids cmds) -> carried_once cmds.
Proof.
  unfold carried_once. induction cmds as [|c cmds IH]; intros N n m h p h' p' H1 H2 E; [destruct n; discriminate|].
  assert (N2 : NoDup (ids cmds)) by (destruct c; cbn in N; [inversion N; assumption|exact N..]).
  assert (X : forall k h0 p0 h1, c = CmdPacket h1 p0 -> forall q, nth_error cmds k = Some (CmdPacket h0 q) -> h_pid h1 <> h_pid h0).
  { intros k h0 p0 h1 -> q Hq Eq. cbn in N. inversion N as [|? ? Hn _]. apply Hn. apply carries_ids. exists h0, q. split; [exact (nth_error_In _ _ Hq)|auto]. }
  destruct n as [|n], m as [|m]; cbn [nth_error] in *; [reflexivity| | |f_equal; exact (IH N2 n m h p h' p' H1 H2 E)].
  - injection H1 as ->. destruct (X m h' p h eq_refl p' H2). exact E.
  - injection H2 as ->. destruct (X n h p' h' eq_refl p H1). auto.
Qed.
Lemma once_app a b : carried_once (a ++ b) -> carried_once a.
Proof. intros H n m h p h' p' H1 H2. apply (H n m h p h' p'); rewrite nth_error_app1; auto; apply nth_error_Some; congruence. Qed.

(** ** The publisher *)
(** A subscriber owes only packets multicast since its connection was opened. *)
Theorem c94_owes_no_history : forall x g log i k, reached x g log -> connected x i -> owes x i k -> In k (s_cast (since_open i log)).
Proof.
  intros x g log i k H (c & Hs & Hm) Ho. apply reached_inv in H. destruct H as (sp & L & Q & X).
  assert (Hop : is_open (x_vec x) i c) by (split; [exact Hs|rewrite Hm; discriminate]).
  destruct (xi_str _ _ _ _ _ _ _ X i c Hop) as (cmds & _ & _ & _ & G1 & _). apply G1. left.
  apply owes_owed in Ho. destruct Ho as [ts Ho]. rewrite (owed_inv _ _ _ _ _ _ _ (xi_pub _ _ _ _ _ _ _ X)) in Ho. destruct Ho as (e & He & Hk & _ & Hh). exists e. auto.
Qed.
(** The stream of a connection, sent or still in the ring, carries only packets multicast since the
    connection was opened, none that is still owed, and none of them twice. *)
Theorem c94_stream : forall x g log i, reached x g log -> connected x i ->
  exists cmds, stream_is x log i cmds /\ carried_once cmds /\
    Forall (fun c => exists k, packet_cmd (x_node x) (x_lip x) (g_data g) k c /\ In k (s_cast (since_open i log)) /\ ~ owes x i k) cmds.
Proof.
  intros x g log i H (c & Hs & Hm). apply reached_inv in H. destruct H as (sp & L & Q & X).
  assert (Hop : is_open (x_vec x) i c) by (split; [exact Hs|rewrite Hm; discriminate]).
  destruct (xi_str _ _ _ _ _ _ _ X i c Hop) as (cmds & E & F & _ & G1 & G2 & G3 & _). exists cmds. split; [exists c; auto|]. split; [apply ids_once; exact G2|].
  rewrite Forall_forall in *. intros cm Hc. destruct (F cm Hc) as (k & Hk). exists k. split; [exact Hk|]. destruct Hk as (p & port & -> & _).
  assert (Ca : carries cmds k) by (eexists _, p; split; [exact Hc|reflexivity]). split; [apply G1; auto|]. intros Ho.
  apply owes_owed in Ho. destruct Ho as [ts Ho]. rewrite (owed_inv _ _ _ _ _ _ _ (xi_pub _ _ _ _ _ _ _ X)) in Ho. destruct Ho as (e & He & Hk & _ & Hh).
  discriminate (G3 k (ex_intro _ e (conj He (conj Hk Hh))) Ca).
Qed.
(** Packet 1 is multicast, a second subscriber joins, packet 2 is multicast, both time out: the
    second subscriber is sent packet 2 only, the first one both. *)
Definition late_join_ops : list xop :=
  [XActivate (ActOk 3 4 0); XRead RMC_LISTEN_INDEX (RdAccept (AccOk 5 1 0) None); XAlloc 100 [10; 11]; XQueue 100 2 false; XWrite 0 (WrMcast [SndOk 1000]);
   XRead RMC_LISTEN_INDEX (RdAccept (AccOk 6 2 0) (Some true)); XAlloc 200 [20; 21; 22]; XQueue 200 3 false; XWrite 0 (WrMcast [SndOk 2000]);
   XTimeout 900000 900 AnnNone].
Definition ring_of (x : pctx) (i : Z) : list Z := match slot (x_vec x) i with Ok c => if c_mode c =? CONNECTED then contents (c_wbuf c) else [] | _ => [] end.
Example c94_witness : exists x g log, reached x g log /\ connected x 0 /\ connected x 1 /\
  s_cast (since_open 0 log) = [1; 2] /\ s_cast (since_open 1 log) = [2] /\
  ring_of x 0 = wire (CmdPacket (Wire.mkHdr 2 (x_node x) 3 (x_lip x) (x_lport x)) [20; 21; 22]) ++ wire (CmdPacket (Wire.mkHdr 1 (x_node x) 2 (x_lip x) (x_lport x)) [10; 11]) /\
  ring_of x 1 = wire (CmdPacket (Wire.mkHdr 2 (x_node x) 3 (x_lip x) (x_lport x)) [20; 21; 22]).
Proof.
  destruct (xcheck_hist demo0 late_join_ops (fun x g log => listb (s_cast (since_open 0 log)) [1; 2] && listb (s_cast (since_open 1 log)) [2] &&
    is_connected x 0 && is_connected x 1 &&
    listb (ring_of x 0) (wire (CmdPacket (Wire.mkHdr 2 (x_node x) 3 (x_lip x) (x_lport x)) [20; 21; 22]) ++ wire (CmdPacket (Wire.mkHdr 1 (x_node x) 2 (x_lip x) (x_lport x)) [10; 11])) &&
    listb (ring_of x 1) (wire (CmdPacket (Wire.mkHdr 2 (x_node x) 3 (x_lip x) (x_lport x)) [20; 21; 22])))) as (x & g & log & H & E); [vm_compute; reflexivity|].
  repeat match goal with H : _ && _ = true |- _ => apply andb_prop in H; destruct H end. repeat match goal with H : listb _ _ = true |- _ => apply listb_eq in H end.
  assert (C : forall j, is_connected x j = true -> connected x j).
  { intros j. unfold is_connected, connected. destruct (slot (x_vec x) j) as [c| | |]; try discriminate. intros Hc. exists c. split; [reflexivity|lia]. }
  exists x, g, log. split; [exists demo0, late_join_ops; split; [exact demo0_fresh|exact H]|]. auto 10.
Qed.

(** ** The system *)
Section Theorems.
Variable own : Z * Z -> bool.
Lemma down_cmds y s i k c cmds r : SysI own y -> In (s, i, k) (sy_links y) -> sconnected (sy_sub y s) i c -> own (c_addr c, c_port c) = true ->
  parses for_sub (ts_recv (ts_open i (sy_slog y s))) cmds r ->
  carried_once cmds /\ Forall (fun c => exists n, packet_cmd (x_node (sy_pub y)) (x_lip (sy_pub y)) (queued_payloads y) n c /\ In n (cast_since y k)) cmds.
Proof.
  intros I Hl Hc Ho (E & F & _). destruct (si_recv _ _ I s i c Hc Ho) as [w Ew]. destruct (si_link _ _ I s i k Hl) as (Hcn & Ed & _).
  destruct (c94_stream _ _ _ k (preached_reached _ _ _ _ (si_pub _ _ I)) Hcn) as (all & (pc & Ps & Es) & On & Fa).
  rewrite <- Ed, Ew, E in Es. rewrite <- !app_assoc in Es.
  assert (Fg : Forall (fun c => cmd_ok c /\ for_sub c) all).
  { eapply Forall_impl; [|exact Fa]. intros cm (n & (p & port & -> & _ & _ & H) & _). split; [exact H|exact Logic.I]. }
  destruct (stream_prefix cmds all r (w ++ contents (c_wbuf pc)) F Fg Es) as (more & -> & _). split; [exact (once_app _ _ On)|].
  apply Forall_app in Fa. eapply Forall_impl; [|exact (proj1 Fa)]. intros cm (n & Hp & Hn & _). exists n. split; [exact Hp|].
  unfold cast_since. apply filter_In. split; [exact Hn|]. destruct Hp as (p & port & _ & H1 & _). lia.
Qed.
(** Whatever a subscriber accepts on a connection to the publisher came in a datagram received since
    the subscriber opened the connection, or was multicast after the publisher accepted it. *)
Theorem c94_no_history : forall y s i k n bs, sys_reached own y -> good_ids (sy_slog y s) -> at_publisher own y s i ->
  In (s, i, k) (sy_links y) -> In (n, bs) (accepted_at y s i) ->
  In n (cast_since y k) \/
  exists c sd, sconnected (sy_sub y s) i c /\ In sd (ts_dgram (ts_open i (sy_slog y s))) /\ carries_packet (c_addr c) (c_port c) n bs sd.
Proof.
  intros y s i k n bs R Gd (c & Hc & Ho) Hl Hi. apply reached_SysI in R. pose proof (si_sub _ _ R s) as Rs.
  unfold accepted_at in Hi. apply in_map_iff in Hi. destruct Hi as ([[n0 mc] bs'] & E & Hi). cbn [fst snd] in E. injection E as -> ->.
  destruct mc.
  - right. destruct (connected_facts true _ _ i c Rs Gd Hc) as (sp & ops & cm & [F1 F2 F3 F4 F5]).
    destruct (tc_dgram _ _ _ _ _ _ F2 n bs Hi) as (sd & H1 & H2 & _). exists c, sd. auto.
  - left. destruct (sreached_RI _ _ Rs Gd i c Hc) as [_ _ _ _ (cmds & P & _ & Hf)]. destruct (Hf n bs Hi) as (h & Hh & <-).
    destruct (down_cmds y s i k c cmds _ R Hl Hc Ho P) as [_ Fc]. rewrite Forall_forall in Fc. destruct (Fc _ Hh) as (m & (p & port & E' & _) & Hm).
    injection E' as -> ->. exact Hm.
Qed.
(** The packets a subscriber has received over TCP on the connection: none twice, all multicast
    after the publisher accepted the connection. *)
Theorem c94_tcp_once : forall y s i k cmds r, sys_reached own y -> at_publisher own y s i -> In (s, i, k) (sy_links y) ->
  parses for_sub (ts_recv (ts_open i (sy_slog y s))) cmds r ->
  carried_once cmds /\ Forall (fun c => exists n, packet_cmd (x_node (sy_pub y)) (x_lip (sy_pub y)) (queued_payloads y) n c /\ In n (cast_since y k)) cmds.
Proof. intros y s i k cmds r R (c & Hc & Ho) Hl P. apply reached_SysI in R. exact (down_cmds y s i k c cmds r R Hl Hc Ho P). Qed.
End Theorems.

(** In [gap_ops] packet 1 came in a datagram although it was multicast before the publisher accepted
    the connection, packet 3 was multicast after, and packet 2 came in no way. *)
Example c94_gap_witness : exists y, sys_reached own77 y /\ good_ids (sy_slog y 0%nat) /\ at_publisher own77 y 0 0 /\ In (0%nat, 0, 0) (sy_links y) /\
  cast_since y 0 = [3] /\ accepted_at y 0 0 = [(1, [10; 11]); (3, [30])] /\ length (queued_payloads y) = 3%nat.
Proof.
  destruct (reaches_reached gap_ops (fun y => quietb y 0 0 = true /\ cast_since y 0 = [3] /\ accepted_at y 0 0 = [(1, [10; 11]); (3, [30])] /\ length (queued_payloads y) = 3%nat))
    as (y & R & Q & H2 & H3 & H4); [vm_compute; auto|].
  apply quietb_ok in Q. destruct Q as (Q1 & Q2 & Q3 & Q4 & Q5). exists y. auto 8.
Qed.
(** In [sys_ops] packets 3 and 2 come over TCP. *)
Example c94_tcp_witness : exists y, sys_reached own77 y /\ at_publisher own77 y 0 0 /\ In (0%nat, 0, 0) (sy_links y) /\
  parses for_sub (ts_recv (ts_open 0 (sy_slog y 0%nat))) [pcmd 3 [30]; pcmd 2 [20; 21; 22]] [].
Proof.
  destruct (reaches_reached sys_ops (fun y => quietb y 0 0 = true /\ ts_recv (ts_open 0 (sy_slog y 0%nat)) = flat_map wire [pcmd 3 [30]; pcmd 2 [20; 21; 22]])) as (y & R & Q & H1); [vm_compute; auto|].
  apply quietb_ok in Q. destruct Q as (Q1 & Q2 & Q3 & Q4 & Q5). exists y. split; [exact R|]. split; [exact Q2|]. split; [exact Q3|].
  split; [rewrite H1, app_nil_r; reflexivity|]. split.
  - repeat apply Forall_cons; try apply Forall_nil; (split; [|exact Logic.I]); vm_compute; repeat split; try discriminate; repeat constructor; vm_compute; try discriminate.
  - intros c0 rest _ _ E. apply (f_equal zlen) in E. rewrite zlen_app in E. change (zlen (@nil Z)) with 0 in E. pose proof (wire_len c0). pose proof (zlen_nonneg rest). lia.
Qed.

Print Assumptions c94_owes_no_history.
Print Assumptions c94_stream.
Print Assumptions c94_no_history.
Print Assumptions c94_tcp_once.
