(** PropDoc.v — C98: the control channel and PROTOCOL.md. *)
From Verif Require Import Base CircBuf CircBufProofs Wire ListHeap SeqList Pub SpecPub Sub SpecSub Proto SpecProto ProtoProofs ProtoRead
  Conn SpecConn ConnProofs PubCtx SpecPubCtx PropPubCtx PropPubMem SpecPubRecv PubRecv PropPubRecv SubCtx SpecSubCtx PropSubCtx PropSubDeliver PropTotalSub PropRead PropSysRun SpecDoc.

Lemma net_length n : forall x, length (net n x) = n.
Proof. induction n as [|n IH]; intros x; cbn [net]; [reflexivity|]. rewrite app_length, IH. cbn. lia. Qed.

(** ** What is sent is not what is documented *)
(** Nothing a subscriber ever puts on a control channel is the beginning of a documented stream. *)
Theorem c98_subscriber_refuted : forall t x log i c, sreached t x log -> good_ids log -> sconnected x i c ->
  let s := ts_sent (ts_open i log) ++ contents (c_wbuf c) in s <> [] -> ~ doc_from_sub s.
Proof.
  intros t x log i c R G Hc s Hne (ver & acks & more & E). destruct (c73_wire t x log i c R G Hc) as (cmds & F & W & _). fold s in W. rewrite W in E, Hne.
  destruct cmds as [|m cmds]; [destruct (Hne eq_refl)|]. inversion F as [|? ? [_ A] F2]; subst. destruct m; [destruct A| |]; cbn in E; discriminate E.
Qed.
(** Nor is anything a publisher sends, unless the second byte of its node id is 2: that is where the
    first PACKET command has to be after a reply to INIT. *)
Theorem c98_publisher_refuted : forall x g log i c, reached x g log -> slot (x_vec x) i = Ok c -> c_mode c = CONNECTED ->
  let s := s_sent (since_open i log) ++ contents (c_wbuf c) in
  s <> [] -> (x_node x / 256) mod 256 <> 2 -> ~ doc_from_pub s.
Proof.
  intros x g log i c R Hs Hm s Hne Hn (last & packets & more & E).
  destruct (c64_nothing_forgotten x g log i R (ex_intro _ c (conj Hs Hm))) as (cmds & (c' & Hs' & W) & F & _). assert (c' = c) as -> by congruence. fold s in W. rewrite W in E, Hne.
  destruct cmds as [|m cmds]; [destruct (Hne eq_refl)|]. inversion F as [|? ? (k & p & port & -> & _) F2]; subst. cbn [flat_map] in E. apply (f_equal (fun l => nth_error l 10)) in E.
  cbn [wire app] in E. unfold enc_header in E. cbn [h_pid h_node h_len h_ip h_port le_bytes app nth_error] in E.
  destruct packets as [|[pid pl] packets]; cbn in E; [discriminate E|]. injection E as E. exact (Hn E).
Qed.
(** ** What is documented is not understood *)
(** A publisher that receives what PROTOCOL.md has a subscriber send first reports an error, does nothing of
    it, and has the bytes still before it: nothing the subscriber sends later will be understood. *)
Theorem c98_init_refuted : forall x g log f i c ver more code op x' evs, preached x g log f -> 0 <= i -> slot (x_vec x) i = Ok c -> c_mode c = CONNECTED ->
  contents (c_rbuf c) = [] ->
  let bs := doc_wire (InitRequest ver) ++ more in
  pread_good x (XRead i (RdTcp (RData bs))) -> rmc_pub_read x i (RdTcp (RData bs)) = Ok (code, op, x', evs) ->
  code = EPROTO /\ op = Some RMC_ERROR /\ (forall j k, owes x' j k <-> owes x j k) /\ flat_map freed_ev evs = [] /\ flat_map ctrl_ev evs = [] /\
  exists c', slot (x_vec x') i = Ok c' /\ c_mode c' = CONNECTED /\ contents (c_rbuf c') = ztake (RMC_MAX_PACKET - 1) bs.
Proof.
  intros x g log f i c ver more code op x' evs R Hi Hs Hm Hc bs Hg E.
  assert (Z0 : zlen (contents (c_rbuf c)) = 0) by (rewrite Hc; reflexivity).
  set (got := ztake (RMC_MAX_PACKET - 1) bs). assert (Eg : exists tl, got = 0 :: tl).
  { unfold got, bs, ztake. change (Z.to_nat (RMC_MAX_PACKET - 1)) with (S (Z.to_nat (RMC_MAX_PACKET - 2))). cbn [doc_wire app firstn]. eauto. }
  assert (P : parses for_pub (contents (c_rbuf c) ++ ztake (RMC_MAX_PACKET - 1 - zlen (contents (c_rbuf c))) bs) [] got).
  { rewrite Z0, Hc, Z.sub_0_r. cbn [app]. fold got. split; [reflexivity|]. split; [constructor|]. intros m r _ A. destruct Eg as [tl ->]. destruct m; [destruct A| |]; discriminate. }
  destruct (c80_pub_data x g log f i c bs [] got code op x' evs R Hi Hs Hm ltac:(rewrite Z0; unfold RMC_MAX_PACKET; lia) ltac:(discriminate) Hg P E) as ((_ & _ & C) & O & rb & act & S1 & S2 & _ & _ & N).
  destruct (N eq_refl) as (N1 & _ & ->). destruct Eg as [tl Eg]. assert (code = EPROTO) as -> by (apply (C 0 tl Eg); cbn; lia). split; [reflexivity|]. split; [exact O|].
  split; [intros j k; unfold owes; rewrite N1; reflexivity|]. split; [reflexivity|]. split; [reflexivity|]. eexists. split; [exact S1|]. split; [exact Hm|exact S2].
Qed.
(** A subscriber that receives the PACKET command of PROTOCOL.md reports an error and closes the connection. *)
Theorem c98_packet_refuted : forall x log i c pid p more ins code op x' evs, sreached true x log -> sconnected x i c -> contents (c_rbuf c) = [] ->
  let bs := doc_wire (DocPacket pid p) ++ more in bytes_ok bs ->
  read_good x (YRead i (SrTcp (RData bs) ins)) -> rmc_sub_read x i (SrTcp (RData bs) ins) = Ok (code, op, x', evs) ->
  code = EPROTO /\ op = RMC_ERROR /\ exists c', slot (t_vec x') i = Ok c' /\ c_mode c' = CLOSED.
Proof.
  intros x log i c pid p more ins code op x' evs R Hc Hr bs Hb Hg E.
  assert (Z0 : zlen (contents (c_rbuf c)) = 0) by (rewrite Hr; reflexivity).
  set (got := ztake (RMC_MAX_PACKET - 1) bs). assert (Eg : exists tl, got = 2 :: tl).
  { unfold got, bs, ztake. change (Z.to_nat (RMC_MAX_PACKET - 1)) with (S (Z.to_nat (RMC_MAX_PACKET - 2))). cbn [doc_wire app firstn]. eauto. }
  assert (P : parses for_sub (contents (c_rbuf c) ++ ztake (RMC_MAX_PACKET - 1 - zlen (contents (c_rbuf c))) bs) [] got).
  { rewrite Z0, Hr, Z.sub_0_r. cbn [app]. fold got. split; [reflexivity|]. split; [constructor|]. intros m r _ A. destruct Eg as [tl ->]. destruct m; [discriminate|destruct A|destruct A]. }
  destruct (c80_sub_data x log i c bs ins [] got code op x' evs R Hc ltac:(rewrite Z0; unfold RMC_MAX_PACKET; lia) Hb ltac:(discriminate) Hg P E) as ((_ & _ & C) & O & d & S1 & _ & S2).
  destruct Eg as [tl Eg]. assert (code = EPROTO) as -> by (apply (C 2 tl Eg); cbn; lia). split; [reflexivity|]. split; [exact O|]. exists d. split; [exact S1|exact (S2 eq_refl)].
Qed.

(** A publisher that receives the documented acknowledgement of one packet takes it for the beginning of a
    longer message: it waits for more, and the packet stays unacknowledged. *)
Theorem c98_ack_refuted : forall x g log f i c pid code op x' evs, preached x g log f -> 0 <= i -> slot (x_vec x) i = Ok c -> c_mode c = CONNECTED ->
  contents (c_rbuf c) = [] ->
  let bs := doc_wire (DocAck [BlockSingle pid]) in
  pread_good x (XRead i (RdTcp (RData bs))) -> rmc_pub_read x i (RdTcp (RData bs)) = Ok (code, op, x', evs) ->
  code = EAGAIN /\ (forall j k, owes x' j k <-> owes x j k) /\ flat_map freed_ev evs = [] /\ flat_map ctrl_ev evs = [] /\
  exists c', slot (x_vec x') i = Ok c' /\ c_mode c' = CONNECTED /\ contents (c_rbuf c') = bs.
Proof.
  intros x g log f i c pid code op x' evs R Hi Hs Hm Hc bs Hg E.
  assert (Z0 : zlen (contents (c_rbuf c)) = 0) by (rewrite Hc; reflexivity).
  assert (Eb : bs = 3 :: 0 :: 9 :: 0 :: net 8 pid) by reflexivity.
  assert (Lb : length bs = 12%nat) by (rewrite Eb; cbn [length]; rewrite net_length; reflexivity).
  assert (Et : ztake (RMC_MAX_PACKET - 1) bs = bs) by (unfold ztake; apply firstn_all2; rewrite Lb; unfold RMC_MAX_PACKET; lia).
  assert (P : parses for_pub (contents (c_rbuf c) ++ ztake (RMC_MAX_PACKET - 1 - zlen (contents (c_rbuf c))) bs) [] bs).
  { rewrite Z0, Hc, Z.sub_0_r, Et. cbn [app]. split; [reflexivity|]. split; [constructor|]. intros m r K A. destruct m as [h q|a b|q]; [destruct A|rewrite Eb; discriminate|].
    intros Q. destruct K as [[K1 K2] _]. pose proof (f_equal (@length Z) Q) as Ql. rewrite Lb in Ql. rewrite Eb in Q. cbn [wire enc_ctrl app] in Q. unfold enc_ctrl in Q. cbn [le_bytes app] in Q. injection Q as Q1 Q2 _.
    cbn [wire enc_ctrl app length] in Ql. rewrite !app_length in Ql. unfold zlen in *. lia. }
  destruct (c80_pub_data x g log f i c bs [] bs code op x' evs R Hi Hs Hm ltac:(rewrite Z0; unfold RMC_MAX_PACKET; lia) ltac:(discriminate) Hg P E) as ((_ & C & _) & O & rb & act & S1 & S2 & _ & _ & N).
  destruct (N eq_refl) as (N1 & _ & ->). split; [apply (C 3 _ Eb); cbn; auto|]. split; [intros j k; unfold owes; rewrite N1; reflexivity|]. split; [reflexivity|]. split; [reflexivity|]. eexists. split; [exact S1|]. split; [exact Hm|exact S2].
Qed.

(** ** The hypotheses are met *)
Example c98_publisher_witness : exists x g log c, reached x g log /\ slot (x_vec x) 0 = Ok c /\ c_mode c = CONNECTED /\
  s_sent (since_open 0 log) ++ contents (c_wbuf c) <> [] /\ (x_node x / 256) mod 256 <> 2.
Proof.
  destruct (xcheck_hist demo0 c64_ops (fun x g log => match slot (x_vec x) 0 with Ok c => (c_mode c =? CONNECTED) && (zlen (contents (c_wbuf c)) =? 24) && negb ((x_node x / 256) mod 256 =? 2) | _ => false end)) as (x & g & log & H & E); [vm_compute; reflexivity|].
  destruct (slot (x_vec x) 0) as [c| | |] eqn:Es; try discriminate E. apply andb_prop in E. destruct E as [E E3]. apply andb_prop in E. destruct E as [E1 E2]. apply negb_true_iff, Z.eqb_neq in E3.
  exists x, g, log, c. split; [exists demo0, c64_ops; split; [exact demo0_fresh|exact H]|]. split; [exact Es|]. split; [lia|]. split; [|exact E3].
  intros Q. apply app_eq_nil in Q. destruct Q as [_ Q]. rewrite Q in E2. discriminate E2.
Qed.
Example c98_subscriber_witness : exists x log c, sreached true x log /\ good_ids log /\ sconnected x 0 c /\ ts_sent (ts_open 0 log) ++ contents (c_wbuf c) <> [].
Proof.
  destruct (ycheck_hist true sdemo0 (sdemo_ops ++ [YTimeout 1000000]) (fun x log => goodidsb log && match slot (t_vec x) 0 with Ok c => (c_mode c =? CONNECTED) && negb (zlen (contents (c_wbuf c)) =? 0) | _ => false end)) as (x & log & H & E); [vm_compute; reflexivity|].
  apply andb_prop in E. destruct E as [E1 E2]. destruct (slot (t_vec x) 0) as [c| | |] eqn:Es; try discriminate E2. apply andb_prop in E2. destruct E2 as [E2 E3].
  exists x, log, c. split; [exists sdemo0, (sdemo_ops ++ [YTimeout 1000000]); split; [exact sdemo0_fresh|exact H]|]. split; [exact (goodidsb_ok _ E1)|]. split; [split; [exact Es|lia]|].
  intros Q. apply app_eq_nil in Q. destruct Q as [_ Q]. rewrite Q in E3. discriminate E3.
Qed.
Example c98_pub_read_witness : exists x g log f c, preached x g log f /\ slot (x_vec x) 0 = Ok c /\ c_mode c = CONNECTED /\ contents (c_rbuf c) = [] /\
  (forall bs code op, In (bs, (code, op)) [(doc_wire (InitRequest 1), (EPROTO, RMC_ERROR)); (doc_wire (DocAck [BlockSingle 1]), (EAGAIN, RMC_READ_TCP))] ->
     pread_good x (XRead 0 (RdTcp (RData bs))) /\ exists x' evs, rmc_pub_read x 0 (RdTcp (RData bs)) = Ok (code, Some op, x', evs)).
Proof.
  destruct (pcheck_reached demo_ops (fun x => at_most x 0 && (reads_as x (doc_wire (InitRequest 1)) EPROTO RMC_ERROR && reads_as x (doc_wire (DocAck [BlockSingle 1])) EAGAIN RMC_READ_TCP)))
    as (x & g & log & f & R & H); [vm_compute; reflexivity|].
  apply andb_prop in H. destruct H as [H0 H]. apply andb_prop in H. destruct H as [H1 H2].
  destruct (at_most_ok _ _ H0) as (c & A1 & A2 & A3). exists x, g, log, f, c. split; [exact R|]. split; [exact A1|]. split; [exact A2|]. split.
  { destruct (contents (c_rbuf c)); [reflexivity|]. rewrite zlen_cons in A3. pose proof (zlen_nonneg l). lia. }
  intros bs code op [E|[E|[]]]; inversion E; subst; apply reads_as_ok; assumption.
Qed.
Example c98_packet_witness : exists x log c, sreached true x log /\ sconnected x 0 c /\ contents (c_rbuf c) = [] /\
  bytes_ok (doc_wire (DocPacket 6 [60; 61])) /\ read_good x (YRead 0 (SrTcp (RData (doc_wire (DocPacket 6 [60; 61]))) c80_ins)) /\
  exists x' evs, rmc_sub_read x 0 (SrTcp (RData (doc_wire (DocPacket 6 [60; 61]))) c80_ins) = Ok (EPROTO, RMC_ERROR, x', evs).
Proof.
  destruct (ycheck_hist true sdemo0 sdemo_ops (fun x log => match slot (t_vec x) 0 with
      | Ok c => (c_mode c =? CONNECTED) && (circ_buf_in_use (c_rbuf c) =? 0) && (cb_start (c_rbuf c) =? 0) | _ => false end &&
      match rmc_sub_read x 0 (SrTcp (RData (doc_wire (DocPacket 6 [60; 61]))) c80_ins) with Ok (code, op, _, _) => (code =? EPROTO) && (op =? RMC_ERROR) | _ => false end))
   as (x & log & H & E); [vm_compute; reflexivity|].
  apply andb_prop in E. destruct E as [E1 E2]. destruct (slot (t_vec x) 0) as [c| | |] eqn:Es; try discriminate E1. bool_split.
  assert (R : sreached true x log) by (exists sdemo0, sdemo_ops; split; [exact sdemo0_fresh|exact H]).
  exists x, log, c. split; [exact R|]. split; [split; [exact Es|lia]|]. pose proof (sreached_RW x log R 0 c Es) as (W & _). split.
  { pose proof (contents_len _ W) as Cl. destruct (contents (c_rbuf c)); [reflexivity|]. rewrite zlen_cons in Cl. pose proof (zlen_nonneg l). lia. }
  split; [cbn; repeat constructor; lia|]. split.
  { intros d Hd _ _. assert (d = c) as -> by congruence. cbv zeta. left. pose proof (in_use_bounds _ W). match goal with |- context [zlen ?q] => pose proof (zlen_nonneg q) end. lia. }
  destruct (rmc_sub_read _ _ _) as [[[[k o] x'] evs]| | |]; try discriminate E2. apply andb_prop in E2. destruct E2 as [A B]. apply Z.eqb_eq in A, B. subst. eauto.
Qed.
Print Assumptions c98_subscriber_refuted.
Print Assumptions c98_publisher_refuted.
Print Assumptions c98_init_refuted.
Print Assumptions c98_packet_refuted.
Print Assumptions c98_ack_refuted.
