(** PropSubRecv.v — C74: what a subscriber makes of the bytes received on a control channel. *)
From Verif Require Import Base CircBuf CircBufProofs Wire SeqList Sub SpecSub Proto SpecProto ProtoProofs
  Conn SpecConn ConnProofs SubCtx SpecSubCtx SubSteps SubInv PropSubCtx SubRecv.

(** Let the bytes received since the connection was opened split into the commands [cmds] and an
    incomplete rest.  Every packet accepted by TCP is one of these commands, byte for byte. *)
Theorem c74_accepted_from_stream : forall x log i c cmds r k bs, sreached true x log -> good_ids log -> sconnected x i c ->
  parses for_sub (ts_recv (ts_open i log)) cmds r -> In (k, false, bs) (ts_got (ts_open i log)) ->
  exists h, In (CmdPacket h bs) cmds /\ h_pid h = k.
Proof.
  intros x log i c cmds r k bs R G Hc P Hg. destruct (sreached_RI x log R G i c Hc) as [_ _ _ _ (cmds0 & P0 & _ & F)].
  destruct (parses_unique for_sub sub_next sub_next_complete _ _ _ _ _ P0 P) as [<- _]. exact (F k bs Hg).
Qed.
(** Every packet that was received completely was accepted, by TCP now or before by either way,
    unless it is older than the first packet handed out. *)
Theorem c74_every_packet_accounted : forall x log i c cmds r h p, sreached true x log -> good_ids log -> sconnected x i c ->
  parses for_sub (ts_recv (ts_open i log)) cmds r -> In (CmdPacket h p) cmds ->
  (exists mc bs, In (h_pid h, mc, bs) (ts_got (ts_open i log))) \/
  (exists f bs rest, ts_put (ts_open i log) = (f, bs) :: rest /\ h_pid h < f).
Proof.
  intros x log i c cmds r h p R G Hc P Hin. destruct (sreached_RI x log R G i c Hc) as [_ _ _ _ (cmds0 & P0 & A & _)].
  destruct (parses_unique for_sub sub_next sub_next_complete _ _ _ _ _ P0 P) as [<- _]. destruct (A h p Hin) as [H|H]; [left|right; exact H].
  apply in_map_iff in H. destruct H as ([[k mc] bs] & <- & H). eauto.
Qed.
(** What is kept for the next read is exactly the incomplete rest; it is empty or the beginning
    of a packet command (after anything else the connection is closed). *)
Theorem c74_rest_kept : forall x log i c cmds r, sreached true x log -> good_ids log -> sconnected x i c ->
  parses for_sub (ts_recv (ts_open i log)) cmds r -> contents (c_rbuf c) = r /\ (r = [] \/ exists r', r = 1 :: r').
Proof.
  intros x log i c cmds r R G Hc P. destruct (sreached_RI x log R G i c Hc) as [W _ B N (cmds0 & P0 & _)].
  destruct (parses_unique for_sub sub_next sub_next_complete _ _ _ _ _ P0 P) as [_ <-]. split; [reflexivity|].
  destruct (contents (c_rbuf c)) as [|b l]; [auto|]. right. cbn [sub_next] in N. destruct (Z.eqb_spec b 1) as [->|Hb]; [eauto|contradiction].
Qed.
(** The ring the next read goes to is in order, so the conditions of c36 are about the chunk
    sizes only. *)
Theorem c74_ring_intact : forall x log i c, sreached true x log -> good_ids log -> sconnected x i c ->
  cb_wf (c_rbuf c) /\ cb_size (c_rbuf c) = RMC_MAX_PACKET /\ bytes_ok (ts_recv (ts_open i log)).
Proof. intros x log i c R G Hc. destruct (sreached_RI x log R G i c Hc) as [W Sz B _ _]. auto. Qed.

(** Packet 6 comes by TCP in two pieces after 5 and 7 by multicast, then 3 (too old), 7 (known) and
    the beginning of another packet. *)
Definition pcmd (k : Z) (bs : list Z) : cmd := CmdPacket (Wire.mkHdr k 7 (zlen bs) 0 4711) bs.
Definition recv_ops : list yop :=
  sdemo_ops ++ [YRead 0 (SrTcp (RData (ztake 9 (wire (pcmd 6 [60; 61])))) []);
                YRead 0 (SrTcp (RData (zdrop 9 (wire (pcmd 6 [60; 61])) ++ wire (pcmd 3 [30]) ++ wire (pcmd 7 [70]) ++ [1; 8])) [mkAi 300 1200 []])].
Example c74_witness : exists x log, yhist true sdemo0 recv_ops x log /\ good_ids log /\
  ts_got (ts_open 0 log) = [(5, true, [50; 51]); (7, true, [70]); (6, false, [60; 61])] /\
  map fst (ts_put (ts_open 0 log)) = [5; 6; 7] /\
  parses for_sub (ts_recv (ts_open 0 log)) [pcmd 6 [60; 61]; pcmd 3 [30]; pcmd 7 [70]] [1; 8] /\
  exists c, sconnected x 0 c.
Proof.
  destruct (yrun sdemo0 [] recv_ops) as [[x log]|] eqn:E1; [|vm_compute in E1; discriminate E1].
  pose proof (yrun_hist true sdemo0 _ sdemo0 [] [] x log (yh_nil _ _) E1) as H1.
  assert (Hl : forallb (fun e => match e with SvGot _ pid _ _ => (1 <=? pid) && (pid <? 18446744073709551615) | _ => true end) log = true /\
     ts_got (ts_open 0 log) = [(5, true, [50; 51]); (7, true, [70]); (6, false, [60; 61])] /\ map fst (ts_put (ts_open 0 log)) = [5; 6; 7] /\
     ts_recv (ts_open 0 log) = flat_map wire [pcmd 6 [60; 61]; pcmd 3 [30]; pcmd 7 [70]] ++ [1; 8] /\
     match slot (t_vec x) 0 with Ok c => c_mode c = CONNECTED | _ => False end).
  { vm_compute in E1. injection E1 as <- <-. vm_compute. auto. }
  destruct Hl as (L1 & L2 & L3 & L4 & L5). exists x, log. split; [exact H1|]. split.
  { apply Forall_forall. intros e He. rewrite forallb_forall in L1. specialize (L1 e He). destruct e; cbn; auto. unfold good_pid. lia. }
  split; [exact L2|]. split; [exact L3|]. split.
  - split; [exact L4|]. split.
    + repeat constructor; cbn; try (unfold is_u64, is_u32, is_u16, is_u8; lia).
    + intros d rest Hok Hf E. pose proof (wire_len d) as Ln. destruct d as [h p| |]; try destruct Hf. destruct Hok as (_ & _ & _).
      assert (Ll : zlen [1; 8] = zlen (wire (CmdPacket h p) ++ rest)) by congruence. rewrite zlen_app in Ll.
      change (wire (CmdPacket h p)) with ([1] ++ (enc_header h ++ p)) in Ll. rewrite !zlen_app, enc_header_zlen in Ll. change (zlen [1]) with 1 in Ll.
      pose proof (zlen_nonneg p). pose proof (zlen_nonneg rest). change (zlen [1; 8]) with 2 in Ll. lia.
  - destruct (slot (t_vec x) 0) as [c| | |] eqn:Es; try contradiction. exists c. split; assumption.
Qed.

Print Assumptions c74_accepted_from_stream.
Print Assumptions c74_every_packet_accounted.
Print Assumptions c74_rest_kept.
Print Assumptions c74_ring_intact.
