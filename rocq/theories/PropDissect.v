(** PropDissect.v — C85: the Wireshark plugin shows what is on the wire. *)
From Verif Require Import Base Wire SpecProto PubCtx SpecPubCtx PropPubMem Dissect.

(** * Specification *)

(** An IPv4 address as people write it: most significant byte first. *)
Definition dotted (ip : Z) : list Z := [ip / 16777216; ip / 65536 mod 256; ip / 256 mod 256; ip mod 256].

(** The tree items that show a packet's header and payload. *)
Definition packet_items (h : header) (p : list Z) : list item :=
  [INum FPid (h_pid h); INum FNode (h_node h); INum FLen (h_len h); IAddr (dotted (h_ip h));
   INum FPort (h_port h); IBytes FPayload p].
(** The tree items that show a command. *)
Definition items_of (c : cmd) : list item :=
  match c with
  | CmdPacket h p => INum FCommand 1 :: packet_items h p
  | CmdAck a b => [INum FCommand 2; INum FFirst a; INum FLast b]
  | CmdCtrl p => [INum FCommand 3; INum FCtlLen (zlen p); IBytes FCtlPayload p]
  end.
(** What the info column says about an acknowledgement or a control message. *)
Definition pieces_of (c : cmd) : list piece :=
  match c with CmdPacket _ _ => [] | CmdAck a b => [PAck a b] | CmdCtrl p => [PCtl (zlen p)] end.
(** An announcement (packet id 0) makes its port a control port. *)
Definition learn (h : header) (ports : list Z) : list Z :=
  if h_pid h =? 0 then if existsb (Z.eqb (h_port h)) ports then ports else h_port h :: ports else ports.
Definition learn_cmd (ports : list Z) (c : cmd) : list Z :=
  match c with CmdPacket h _ => learn h ports | _ => ports end.

(** The ids of the last acknowledgement among [cmds], 0-0 if there is none. *)
Definition last_ack (cmds : list cmd) : Z * Z :=
  fold_left (fun acc c => match c with CmdAck a b => (a, b) | _ => acc end) cmds (0, 0).

(** * Access lemmas *)

Lemma grab_at pre mid post tvb off n : tvb = pre ++ mid ++ post -> off = zlen pre -> n = zlen mid ->
  grab tvb off n = Some mid.
Proof.
  intros -> -> ->. unfold grab. rewrite !zlen_app. pose proof (zlen_nonneg pre). pose proof (zlen_nonneg post).
  pose proof (zlen_nonneg mid).
  replace ((0 <=? zlen pre) && (zlen pre + zlen mid <=? zlen pre + (zlen mid + zlen post))) with true by lia.
  rewrite zdrop_app_exact by reflexivity. rewrite ztake_app_exact by reflexivity. reflexivity.
Qed.

Lemma grab_some tvb off n : 0 <= off -> 0 <= n -> off + n <= zlen tvb ->
  exists l, grab tvb off n = Some l /\ zlen l = n /\ (bytes_ok tvb -> bytes_ok l).
Proof.
  intros H0 Hn H. unfold grab. replace ((0 <=? off) && (off + n <=? zlen tvb)) with true by lia.
  eexists. split; [reflexivity|]. split.
  - unfold ztake, zdrop, zlen in *. rewrite firstn_length, skipn_length. lia.
  - intros B. unfold ztake. assert (B' := bytes_skip (Z.to_nat off) _ B).
    rewrite <- (firstn_skipn (Z.to_nat n) (skipn (Z.to_nat off) tvb)) in B'. apply Forall_app in B'. apply B'.
Qed.

Lemma le_zlen n x : zlen (le_bytes n x) = Z.of_nat n.
Proof. unfold zlen. now rewrite le_bytes_length. Qed.

Lemma le4_rev ip : is_u32 ip -> rev (le_bytes 4 ip) = dotted ip.
Proof.
  intros H. unfold is_u32 in H. unfold dotted. cbn [le_bytes rev app].
  rewrite !Z.div_div by lia. change (256 * 256) with 65536. change (65536 * 256) with 16777216.
  rewrite (Z.mod_small (ip / 16777216)); [reflexivity|].
  split; [apply Z.div_pos; lia|apply Z.div_lt_upper_bound; lia].
Qed.

(** One packet anywhere in a buffer. *)
Lemma packet_at pre h p post tvb off d : hdr_ok h -> h_len h = zlen p ->
  tvb = pre ++ enc_header h ++ p ++ post -> off = zlen pre ->
  dissect_packet_offset tvb off d =
    Some (off + 20, mkD (d_tree d ++ packet_items h p)
                        [PPub (h_node h) (if h_ip h =? 0 then None else Some (le_bytes 4 (h_ip h)))
                              (h_port h) (h_len h) (h_pid h)]
                        (learn h (d_ports d))).
Proof.
  intros (H1 & H2 & H3 & H4 & H5) HL -> ->. unfold is_u64, is_u16 in *.
  assert (V1 : le_val (le_bytes 8 (h_pid h)) = h_pid h) by (apply le_val_bytes; cbn; lia).
  assert (V2 : le_val (le_bytes 4 (h_node h)) = h_node h) by (apply le_val_bytes; unfold is_u32 in *; cbn; lia).
  assert (V3 : le_val (le_bytes 2 (h_len h)) = h_len h) by (apply le_val_bytes; cbn; lia).
  assert (V4 : le_val (le_bytes 4 (h_ip h)) = h_ip h) by (apply le_val_bytes; unfold is_u32 in *; cbn; lia).
  assert (V5 : le_val (le_bytes 2 (h_port h)) = h_port h) by (apply le_val_bytes; cbn; lia).
  unfold dissect_packet_offset, enc_header.
  set (A := le_bytes 8 (h_pid h)) in *. set (B := le_bytes 4 (h_node h)) in *. set (C := le_bytes 2 (h_len h)) in *.
  set (D := le_bytes 4 (h_ip h)) in *. set (E := le_bytes 2 (h_port h)) in *.
  assert (LA : zlen A = 8) by apply le_zlen. assert (LB : zlen B = 4) by apply le_zlen.
  assert (LC : zlen C = 2) by apply le_zlen. assert (LD : zlen D = 4) by apply le_zlen. assert (LE : zlen E = 2) by apply le_zlen.
  set (T := pre ++ (A ++ B ++ C ++ D ++ E) ++ p ++ post).
  rewrite (grab_at pre A (B ++ C ++ D ++ E ++ p ++ post) T) by (subst T; rewrite ?zlen_app, <- ?app_assoc; solve [reflexivity|lia]).
  cbn [obind].
  rewrite (grab_at (pre ++ A) B (C ++ D ++ E ++ p ++ post) T) by (subst T; rewrite ?zlen_app, <- ?app_assoc; solve [reflexivity|lia]).
  cbn [obind].
  rewrite (grab_at (pre ++ A ++ B) C (D ++ E ++ p ++ post) T) by (subst T; rewrite ?zlen_app, <- ?app_assoc; solve [reflexivity|lia]).
  cbn [obind].
  rewrite (grab_at (pre ++ A ++ B ++ C) D (E ++ p ++ post) T) by (subst T; rewrite ?zlen_app, <- ?app_assoc; solve [reflexivity|lia]).
  cbn [obind].
  rewrite (grab_at (pre ++ A ++ B ++ C ++ D) E (p ++ post) T) by (subst T; rewrite ?zlen_app, <- ?app_assoc; solve [reflexivity|lia]).
  cbn [obind].
  rewrite (grab_at (pre ++ A ++ B ++ C ++ D ++ E) p post T) by (subst T; rewrite ?zlen_app, <- ?app_assoc, ?V3; solve [reflexivity|lia]).
  cbn [obind]. rewrite V1, V2, V3, V4, V5.
  unfold add_item, col_add. cbn [d_tree d_col d_ports].
  assert (RD : rev D = dotted (h_ip h)) by (apply le4_rev; exact H4). rewrite RD.
  replace (zlen pre + 8 + 4 + 2 + 4 + 2) with (zlen pre + 20) by lia.
  unfold learn, packet_items. rewrite <- !app_assoc. cbn [app].
  destruct (h_pid h =? 0); [|reflexivity]. destruct (existsb _ _); reflexivity.
Qed.

(** C85 (datagrams). A multicast datagram is shown as the packet it is; an announcement
    makes its port a control port. *)
Theorem c85_multicast : forall h p d, hdr_ok h -> h_len h = zlen p ->
  exists d', dissect_packet_multicast (enc_header h ++ p) d = Some (20, d') /\
    d_tree d' = d_tree d ++ packet_items h p /\ d_ports d' = learn h (d_ports d).
Proof.
  intros h p d H L. unfold dissect_packet_multicast.
  rewrite (packet_at [] h p [] _ 0 d H L) by (rewrite ?app_nil_r; reflexivity). eauto.
Qed.

(** C85 (the address in the info column). The column shows the listen address with its
    bytes reversed (or the source of the frame if there is none): the tree is right, the
    column is wrong for every address that is not a palindrome. *)
Theorem c85_column_address_refuted : forall h p d, hdr_ok h -> h_len h = zlen p -> h_ip h <> 0 ->
  exists d' a, dissect_packet_multicast (enc_header h ++ p) d = Some (20, d') /\
    d_col d' = [PPub (h_node h) (Some a) (h_port h) (h_len h) (h_pid h)] /\
    a = rev (dotted (h_ip h)) /\
    (a = dotted (h_ip h) <-> h_ip h / 16777216 = h_ip h mod 256 /\ h_ip h / 65536 mod 256 = h_ip h / 256 mod 256).
Proof.
  intros h p d H L N. unfold dissect_packet_multicast.
  rewrite (packet_at [] h p [] _ 0 d H L) by (rewrite ?app_nil_r; reflexivity).
  replace (h_ip h =? 0) with false by lia. do 2 eexists. split; [reflexivity|]. split; [reflexivity|].
  destruct H as (_ & _ & _ & H4 & _).
  assert (E : le_bytes 4 (h_ip h) = rev (dotted (h_ip h))) by (rewrite <- (le4_rev _ H4), rev_involutive; reflexivity).
  rewrite E. split; [reflexivity|]. unfold dotted. cbn [rev app]. split.
  - intros Q. injection Q as Q1 Q2 Q3 Q4. auto.
  - intros [-> ->]. reflexivity.
Qed.

(** * Streams *)

Lemma remaining_at pre post off : off = zlen pre -> remaining (pre ++ post) off = zlen post.
Proof.
  intros ->. unfold remaining. rewrite zlen_app. pose proof (zlen_nonneg post).
  replace (zlen pre + zlen post <? zlen pre) with false by lia. lia.
Qed.

(** The length of the packet command that starts the buffer's tail. *)
Lemma packet_len_at pre h p post k r r' : hdr_ok h -> wire (CmdPacket h p) ++ post = r ++ r' -> 15 <= zlen r -> k = zlen pre ->
  get_rmc_packet_len (pre ++ r) k = Some (h_len h + 21).
Proof.
  intros (_ & _ & H3 & _) E L ->. unfold get_rmc_packet_len.
  destruct (grab_some (pre ++ r) (zlen pre + 13) 2) as (l & G & Ll & _);
    [pose proof (zlen_nonneg pre); lia|lia|rewrite zlen_app; lia|].
  rewrite G. cbn [obind]. enough (l = le_bytes 2 (h_len h)) as ->.
  { rewrite le_val_bytes by (unfold is_u16 in H3; cbn; lia). reflexivity. }
  unfold grab in G. destruct (_ && _); [|discriminate]. injection G as <-.
  rewrite zdrop_app_r by lia. replace (zlen pre + 13 - zlen pre) with 13 by lia.
  assert (Q : ztake 2 (zdrop 13 (r ++ r')) = ztake 2 (zdrop 13 r)).
  { rewrite zdrop_app_l by lia. apply ztake_app_l. unfold zlen, zdrop in *. rewrite skipn_length. lia. }
  rewrite <- Q, <- E. cbn [wire]. unfold enc_header.
  change (1 :: (le_bytes 8 (h_pid h) ++ le_bytes 4 (h_node h) ++ le_bytes 2 (h_len h) ++ le_bytes 4 (h_ip h) ++ le_bytes 2 (h_port h)) ++ p)
    with ((1 :: (le_bytes 8 (h_pid h) ++ le_bytes 4 (h_node h) ++ le_bytes 2 (h_len h) ++ le_bytes 4 (h_ip h) ++ le_bytes 2 (h_port h))) ++ p).
  rewrite <- !app_comm_cons, <- !app_assoc.
  replace (1 :: le_bytes 8 (h_pid h) ++ le_bytes 4 (h_node h) ++ le_bytes 2 (h_len h) ++ le_bytes 4 (h_ip h) ++ le_bytes 2 (h_port h) ++ p ++ post)
    with ((1 :: le_bytes 8 (h_pid h) ++ le_bytes 4 (h_node h)) ++ le_bytes 2 (h_len h) ++ le_bytes 4 (h_ip h) ++ le_bytes 2 (h_port h) ++ p ++ post)
    by (rewrite <- app_comm_cons, <- app_assoc; reflexivity).
  rewrite zdrop_app_exact by (rewrite zlen_cons, zlen_app, !le_zlen; reflexivity).
  rewrite ztake_app_exact by (rewrite le_zlen; reflexivity). reflexivity.
Qed.

Lemma wire_packet_zlen h p : zlen (wire (CmdPacket h p)) = 21 + zlen p.
Proof. cbn [wire]. rewrite zlen_cons, zlen_app, enc_header_zlen. lia. Qed.

Lemma pdus_at cmds : forall fuel pre r n d tvb off h p r',
  Forall (fun c => cmd_ok c /\ for_sub c) cmds ->
  hdr_ok h -> h_len h = zlen p -> wire (CmdPacket h p) = r ++ r' -> r' <> [] ->
  tvb = pre ++ flat_map wire cmds ++ r -> off = zlen pre -> (length cmds < fuel)%nat ->
  exists col,
    tcp_dissect_pdus fuel tvb off n d =
      Some (off + zlen (flat_map wire cmds), n + zlen cmds,
            mkD (d_tree d ++ flat_map items_of cmds) col (fold_left learn_cmd cmds (d_ports d))).
Proof.
  induction cmds as [|c cmds IH]; intros fuel pre r n d tvb off h p r' F H L E N -> -> Hf;
    (destruct fuel as [|fuel]; [cbn in Hf; lia|]); cbn [tcp_dissect_pdus].
  - cbn [flat_map app]. rewrite remaining_at by reflexivity. exists (d_col d).
    change (zlen (@nil Z)) with 0. change (zlen (@nil cmd)) with 0. rewrite app_nil_r, !Z.add_0_r. cbn [fold_left].
    assert (Ed : mkD (d_tree d) (d_col d) (d_ports d) = d) by (destruct d; reflexivity). rewrite Ed.
    destruct (zlen r <? 1); [reflexivity|]. destruct (zlen r <? 15) eqn:L15; [reflexivity|].
    rewrite (packet_len_at pre h p [] (zlen pre) r r') by (rewrite ?app_nil_r; auto; lia). cbn [obind].
    assert (zlen (wire (CmdPacket h p)) = zlen r + zlen r') by (rewrite E, zlen_app; reflexivity).
    rewrite wire_packet_zlen in *. destruct r' as [|b r']; [contradiction|]. rewrite zlen_cons in *. pose proof (zlen_nonneg r').
    replace (zlen r <? h_len h + 21) with true by lia. reflexivity.
  - inversion F as [|? ? [Hc Sc] F']; subst. destruct c as [h1 p1| |]; try destruct Sc. destruct Hc as (H1 & L1 & _).
    cbn [flat_map]. rewrite <- app_assoc.
    assert (W := wire_packet_zlen h1 p1). pose proof (zlen_nonneg p1). pose proof (zlen_nonneg (flat_map wire cmds ++ r)).
    rewrite remaining_at by reflexivity. rewrite zlen_app, W.
    replace (21 + zlen p1 + zlen (flat_map wire cmds ++ r) <? 1) with false by lia.
    replace (21 + zlen p1 + zlen (flat_map wire cmds ++ r) <? 15) with false by lia.
    rewrite (packet_len_at pre h1 p1 (flat_map wire cmds ++ r) (zlen pre) (wire (CmdPacket h1 p1) ++ flat_map wire cmds ++ r) [] H1)
      by (rewrite ?app_nil_r; solve [reflexivity|rewrite zlen_app, W; lia]). cbn [obind].
    replace (21 + zlen p1 + zlen (flat_map wire cmds ++ r) <? h_len h1 + 21) with false by lia.
    rewrite (grab_at pre (wire (CmdPacket h1 p1)) (flat_map wire cmds ++ r)) by (solve [reflexivity|rewrite W; lia]). cbn [obind].
    unfold dissect_rmc_packet. cbn [wire]. rewrite (grab_at [] [1] (enc_header h1 ++ p1)) by reflexivity. cbn [obind].
    rewrite (packet_at [1] h1 p1 []) by (rewrite ?app_nil_r; auto). cbn [obind fst snd].
    destruct (IH fuel (pre ++ wire (CmdPacket h1 p1)) r (n + 1)
      (mkD (d_tree (add_item d (INum FCommand (le_val [1]))) ++ packet_items h1 p1)
           [PPub (h_node h1) (if h_ip h1 =? 0 then None else Some (le_bytes 4 (h_ip h1))) (h_port h1) (h_len h1) (h_pid h1)]
           (learn h1 (d_ports (add_item d (INum FCommand (le_val [1]))))))
      _ (zlen pre + (h_len h1 + 21)) h p r' F' H L E N eq_refl) as (col & Q).
    { rewrite zlen_app, W. lia. } { cbn in Hf. lia. }
    rewrite <- app_assoc in Q. cbn [wire] in Q. rewrite Q. exists col. cbn [add_item d_tree d_ports fold_left learn_cmd items_of le_val].
    change (1 + 256 * 0) with 1. rewrite zlen_cons, <- !app_assoc. cbn [app]. f_equal. f_equal. f_equal; [|lia].
    rewrite zlen_cons, !zlen_app, enc_header_zlen. lia.
Qed.

(** A fresh view of a frame: nothing shown yet. *)
Definition blank (ports : list Z) : dst := mkD [] [] ports.

(** C85 (publisher to subscriber). A segment that holds any number of resent packets and the
    beginning [r] of a further one is shown as exactly these packets, their number is given
    in the info column, and the beginning is kept for reassembly, from its first byte. *)
Theorem c85_pub_stream : forall cmds h p r r' ports,
  Forall (fun c => cmd_ok c /\ for_sub c) cmds ->
  hdr_ok h -> h_len h = zlen p -> wire (CmdPacket h p) = r ++ r' -> r' <> [] ->
  flat_map wire cmds ++ r <> [] ->
  exists col, dissect_rmc_tcp (flat_map wire cmds ++ r) (blank ports) =
    RDone (zlen (flat_map wire cmds ++ r))
          (mkD (flat_map items_of cmds) col (fold_left learn_cmd cmds ports))
          (match r with [] => None | _ => Some (zlen (flat_map wire cmds)) end) /\
    (cmds <> [] -> col = [PResend (zlen cmds)]).
Proof.
  intros cmds h p r r' ports F H L E N NE. unfold dissect_rmc_tcp, blank. cbn [d_tree d_ports].
  set (tvb := flat_map wire cmds ++ r) in *.
  assert (B : exists t, tvb = 1 :: t).
  { subst tvb. destruct cmds as [|[h1 p1|a b|q] cmds].
    2:{ eexists. reflexivity. }
    2, 3: inversion F as [|? ? [_ S] _]; destruct S.
    cbn [flat_map app] in *. destruct r as [|b r]; [contradiction|]. cbn [wire app] in E. injection E as E1 _. subst b. eauto. }
  destruct B as [t Et]. cbn [tcp_loop]. change tvb with ([] ++ tvb) at 1. rewrite remaining_at by reflexivity.
  replace (zlen tvb <? 1) with false by (rewrite Et, zlen_cons; pose proof (zlen_nonneg t); lia).
  rewrite (grab_at [] [1] t) by (auto; rewrite Et; reflexivity). cbn [le_val].
  change (1 + 256 * 0 =? RMC_CMD_ACK_INTERVAL) with false. change (1 + 256 * 0 =? RMC_CMD_PACKET) with true. cbv iota.
  assert (LC : (length cmds <= length (flat_map wire cmds))%nat).
  { clear. induction cmds as [|c l IH]; cbn [flat_map length]; [lia|]. rewrite app_length. destruct c; cbn [wire length]; lia. }
  destruct (pdus_at cmds (S (length tvb)) [] r 0 (mkD [] [] ports) tvb 0 h p r' F H L E N eq_refl eq_refl) as (col & Q).
  { subst tvb. rewrite app_length. lia. }
  rewrite Q. cbn [fst snd]. rewrite Z.eqb_refl. unfold tcp_end. cbn [d_tree d_ports app]. rewrite !Z.add_0_l.
  assert (W : (if zlen (flat_map wire cmds) <? zlen tvb then Some (zlen (flat_map wire cmds)) else None)
              = match r with [] => None | _ => Some (zlen (flat_map wire cmds)) end).
  { subst tvb. rewrite zlen_app. destruct r as [|b r]; [change (zlen (@nil Z)) with 0|rewrite zlen_cons; pose proof (zlen_nonneg r)].
    - replace (_ <? _) with false by lia. reflexivity.
    - replace (_ <? _) with true by lia. reflexivity. }
  rewrite W. destruct cmds as [|c cmds].
  - eexists. split; [reflexivity|]. intros X; destruct (X eq_refl).
  - rewrite zlen_cons. pose proof (zlen_nonneg cmds). replace (1 + zlen cmds =? 0) with false by lia. cbv iota.
    eexists. split; [reflexivity|]. intros _. reflexivity.
Qed.

(** The acknowledgement and the control message anywhere in a buffer. *)
Lemma ack_at pre a b post tvb off pids d : is_u64 a -> is_u64 b -> tvb = pre ++ enc_ack a b ++ post -> off = zlen pre ->
  dissect_rmc_ack_interval tvb off pids d =
    Some (16, (a, b), mkD (d_tree d ++ [INum FFirst a; INum FLast b]) (d_col d) (d_ports d)).
Proof.
  intros Ha Hb -> ->. unfold dissect_rmc_ack_interval. rewrite remaining_at by reflexivity.
  rewrite zlen_app, enc_ack_zlen. pose proof (zlen_nonneg post). replace (_ <? 16) with false by lia.
  unfold enc_ack. rewrite <- app_assoc.
  rewrite (grab_at pre (le_bytes 8 a) (le_bytes 8 b ++ post)) by (rewrite ?le_zlen; auto). cbn [obind].
  rewrite (grab_at (pre ++ le_bytes 8 a) (le_bytes 8 b) post) by (rewrite ?zlen_app, ?le_zlen, <- ?app_assoc; auto). cbn [obind].
  unfold is_u64 in *. rewrite !le_val_bytes by (cbn; lia). unfold add_item. cbn [d_tree d_col d_ports]. rewrite <- app_assoc. reflexivity.
Qed.

Lemma ctl_at pre p post tvb off d : is_u16 (zlen p) -> tvb = pre ++ (enc_ctrl (zlen p) ++ p) ++ post -> off = zlen pre ->
  dissect_rmc_ctl_msg tvb off d =
    Some (2 + zlen p, zlen p, mkD (d_tree d ++ [INum FCtlLen (zlen p); IBytes FCtlPayload p]) (d_col d) (d_ports d)).
Proof.
  intros Hp -> ->. unfold dissect_rmc_ctl_msg. rewrite remaining_at by reflexivity.
  rewrite !zlen_app, enc_ctrl_zlen. pose proof (zlen_nonneg post). pose proof (zlen_nonneg p). replace (_ <? 2) with false by lia.
  rewrite <- app_assoc.
  rewrite (grab_at pre (enc_ctrl (zlen p)) (p ++ post)) by (rewrite ?enc_ctrl_zlen; auto). cbn [obind].
  assert (V : le_val (enc_ctrl (zlen p)) = zlen p) by (unfold enc_ctrl, is_u16 in *; apply le_val_bytes; cbn; lia). rewrite V.
  replace (pre ++ enc_ctrl (zlen p) ++ p ++ post) with ((pre ++ enc_ctrl (zlen p)) ++ p ++ post) by (rewrite <- app_assoc; reflexivity).
  rewrite remaining_at by (rewrite zlen_app, enc_ctrl_zlen; reflexivity). rewrite zlen_app. replace (_ <? _) with false by lia.
  rewrite (grab_at (pre ++ enc_ctrl (zlen p)) p post) by (rewrite ?zlen_app, ?enc_ctrl_zlen; auto). cbn [obind].
  unfold add_item. cbn [d_tree d_col d_ports]. rewrite <- app_assoc. reflexivity.
Qed.

Lemma col_more_col d p : d_tree (col_more d p) = d_tree d /\ d_ports (col_more d p) = d_ports d /\ d_col (col_more d p) = d_col d ++ [p].
Proof. unfold col_more. destruct d as [t [|x c] q]; cbn; auto. Qed.

Lemma dst_eq d t c q : d_tree d = t -> d_ports d = q -> d_col d = c -> d = mkD t c q.
Proof. destruct d; cbn; intros; subst; reflexivity. Qed.

(** The loop over whole commands, in front of anything. *)
Lemma loop_at cmds : forall fuel pre post res pids want d tvb off,
  Forall (fun c => cmd_ok c /\ for_pub c) cmds ->
  tvb = pre ++ flat_map wire cmds ++ post -> off = zlen pre -> (length cmds <= fuel)%nat ->
  exists res', tcp_loop fuel tvb off res pids 0 want d =
    tcp_loop (fuel - length cmds) tvb (off + zlen (flat_map wire cmds)) res'
      (fold_left (fun acc c => match c with CmdAck a b => (a, b) | _ => acc end) cmds pids) 0 want
      (mkD (d_tree d ++ flat_map items_of cmds) (d_col d ++ flat_map pieces_of cmds) (d_ports d)).
Proof.
  induction cmds as [|c cmds IH]; intros fuel pre post res pids want d tvb off F -> -> Hf.
  - exists res. cbn [flat_map length fold_left]. rewrite Nat.sub_0_r, !app_nil_r. change (zlen (@nil Z)) with 0. rewrite Z.add_0_r.
    destruct d; reflexivity.
  - inversion F as [|? ? [Hc Pc] F']; subst. destruct fuel as [|fuel]; [cbn in Hf; lia|]. cbn [length Nat.sub]. cbn in Hf.
    cbn [tcp_loop flat_map]. rewrite <- app_assoc.
    assert (LW : 1 <= zlen (wire c)) by (destruct c; cbn [wire]; rewrite zlen_cons; match goal with |- context [1 + zlen ?l] => pose proof (zlen_nonneg l) end; lia).
    pose proof (zlen_nonneg (flat_map wire cmds ++ post)).
    rewrite remaining_at by reflexivity. rewrite zlen_app. replace (_ <? 1) with false by lia.
    destruct c as [h p|a b|p]; [destruct Pc|..].
    + destruct Hc as [Ha Hb]. cbn [wire].
      rewrite (grab_at pre [2] (enc_ack a b ++ flat_map wire cmds ++ post)) by reflexivity. cbn [le_val].
      change (2 + 256 * 0 =? RMC_CMD_ACK_INTERVAL) with true. cbv iota.
      rewrite (ack_at (pre ++ [2]) a b (flat_map wire cmds ++ post)) by (rewrite <- ?app_assoc, ?zlen_app; auto).
      change (16 =? 0) with false. cbv iota. cbn [fst snd].
      match goal with |- context [col_more ?dd ?pp] => set (d1 := col_more dd pp); pose proof (col_more_col dd pp) as (T1 & T2 & T3); fold d1 in T1, T2, T3 end.
      destruct (IH fuel (pre ++ wire (CmdAck a b)) post 16 (a, b) want d1 _ (zlen pre + 1 + 16) F' eq_refl) as (res' & Q).
      { rewrite zlen_app. cbn [wire]. rewrite zlen_cons, enc_ack_zlen. lia. } { lia. }
      rewrite <- app_assoc in Q. cbn [wire] in Q. rewrite Q. exists res'. cbn [fold_left].
      replace (zlen (2 :: enc_ack a b)) with 17 by (rewrite zlen_cons, enc_ack_zlen; reflexivity).
      replace (zlen pre + 1 + 16 + zlen (flat_map wire cmds)) with (zlen pre + (17 + zlen (flat_map wire cmds))) by lia. rewrite ?(zlen_app (2 :: enc_ack a b)), ?(zlen_cons 2), ?enc_ack_zlen.
      replace (1 + 16 + zlen (flat_map wire cmds)) with (17 + zlen (flat_map wire cmds)) by lia.
      f_equal. rewrite T1, T2, T3. cbn [d_tree d_col d_ports add_item]. cbn [items_of pieces_of]. rewrite <- !app_assoc. reflexivity.
    + destruct Hc as [Hp _]. cbn [wire].
      rewrite (grab_at pre [3] ((enc_ctrl (zlen p) ++ p) ++ flat_map wire cmds ++ post)) by reflexivity. cbn [le_val].
      change (3 + 256 * 0 =? RMC_CMD_ACK_INTERVAL) with false. change (3 + 256 * 0 =? RMC_CMD_PACKET) with false. change (3 + 256 * 0 =? RMC_CMD_CONTROL_MESSAGE) with true. cbv iota.
      rewrite (ctl_at (pre ++ [3]) p (flat_map wire cmds ++ post)) by (rewrite <- ?app_assoc, ?zlen_app; auto).
      pose proof (zlen_nonneg p). replace (2 + zlen p =? 0) with false by lia. cbv iota. cbn [fst snd].
      match goal with |- context [col_more ?dd ?pp] => set (d1 := col_more dd pp); pose proof (col_more_col dd pp) as (T1 & T2 & T3); fold d1 in T1, T2, T3 end.
      assert (ZW : zlen (wire (CmdCtrl p)) = 3 + zlen p) by (cbn [wire]; rewrite zlen_cons, zlen_app, enc_ctrl_zlen; lia).
      destruct (IH fuel (pre ++ wire (CmdCtrl p)) post (2 + zlen p) pids want d1 _ (zlen pre + 1 + (2 + zlen p)) F' eq_refl) as (res' & Q).
      { rewrite zlen_app, ZW. lia. } { lia. }
      rewrite <- app_assoc in Q. cbn [wire] in Q. rewrite Q. exists res'. cbn [fold_left].
      change (3 :: enc_ctrl (zlen p) ++ p) with (wire (CmdCtrl p)). rewrite (zlen_app (wire (CmdCtrl p))), ZW.
      replace (zlen pre + (3 + zlen p + zlen (flat_map wire cmds))) with (zlen pre + 1 + (2 + zlen p) + zlen (flat_map wire cmds)) by lia.
      f_equal. rewrite T1, T2, T3. cbn [d_tree d_col d_ports add_item]. cbn [items_of pieces_of]. rewrite <- !app_assoc. reflexivity.
Qed.

Lemma cmds_length cmds : (length cmds <= length (flat_map wire cmds))%nat.
Proof. induction cmds as [|c l IH]; cbn [flat_map length]; [lia|]. rewrite app_length. destruct c; cbn [wire length]; lia. Qed.

(** C85 (subscriber to publisher). A segment of whole acknowledgements and control messages
    is shown as exactly these, in order, in the tree and in the info column. *)
Theorem c85_sub_stream : forall cmds ports,
  Forall (fun c => cmd_ok c /\ for_pub c) cmds ->
  dissect_rmc_tcp (flat_map wire cmds) (blank ports) =
    RDone (zlen (flat_map wire cmds)) (mkD (flat_map items_of cmds) (flat_map pieces_of cmds) ports) None.
Proof.
  intros cmds ports F. unfold dissect_rmc_tcp, blank. cbn [d_tree d_ports].
  pose proof (cmds_length cmds) as LC.
  destruct (loop_at cmds (S (S (length (flat_map wire cmds)))) [] [] 0 (0, 0) None (mkD [] [] ports) (flat_map wire cmds) 0 F) as (res' & Q);
    [rewrite app_nil_r; reflexivity|reflexivity|lia|].
  rewrite Q. replace (S (S (length (flat_map wire cmds))) - length cmds)%nat with (S (S (length (flat_map wire cmds)) - length cmds))%nat by lia.
  cbn [tcp_loop]. unfold remaining. rewrite Z.add_0_l. replace (zlen (flat_map wire cmds) <? zlen (flat_map wire cmds)) with false by lia.
  rewrite Z.sub_diag. reflexivity.
Qed.

(** C85 (cut acknowledgements). If a segment ends inside an acknowledgement, the plugin shows
    the previous acknowledgement of that segment again (0-0 if there was none) in its place
    and does not ask for the rest, whatever the ids really are. *)
Theorem c85_cut_ack_refuted : forall cmds a b k ports,
  Forall (fun c => cmd_ok c /\ for_pub c) cmds -> 1 <= k < 17 ->
  dissect_rmc_tcp (flat_map wire cmds ++ ztake k (wire (CmdAck a b))) (blank ports) =
    RDone (zlen (flat_map wire cmds) + k)
          (mkD (flat_map items_of cmds ++ [INum FCommand 2])
               (flat_map pieces_of cmds ++ [PAck (fst (last_ack cmds)) (snd (last_ack cmds))]) ports) None.
Proof.
  intros cmds a b k ports F Hk. unfold dissect_rmc_tcp, blank. cbn [d_tree d_ports].
  pose proof (cmds_length cmds) as LC.
  assert (ZK : zlen (ztake k (wire (CmdAck a b))) = k).
  { assert (ZA : zlen (wire (CmdAck a b)) = 17) by (cbn [wire]; rewrite zlen_cons, enc_ack_zlen; reflexivity).
    unfold ztake, zlen in *. rewrite firstn_length. lia. }
  assert (EK : exists t, ztake k (wire (CmdAck a b)) = 2 :: t /\ zlen t = k - 1).
  { unfold ztake in *. replace (Z.to_nat k) with (S (Z.to_nat (k - 1))) in * by lia. cbn [wire firstn] in *. eexists. split; [reflexivity|].
    rewrite zlen_cons in ZK. lia. }
  destruct EK as (t & EK & ZT). rewrite EK in *. set (tvb := flat_map wire cmds ++ 2 :: t) in *.
  assert (LT : length tvb = (length (flat_map wire cmds) + S (length t))%nat) by (subst tvb; rewrite app_length; reflexivity).
  destruct (loop_at cmds (S (S (length tvb))) [] (2 :: t) 0 (0, 0) None (mkD [] [] ports) tvb 0 F eq_refl eq_refl ltac:(lia)) as (res' & Q).
  rewrite Q. replace (S (S (length tvb)) - length cmds)%nat with (S (S (length tvb) - length cmds))%nat by lia.
  cbn [tcp_loop]. rewrite Z.add_0_l. unfold tvb at 1. rewrite remaining_at by reflexivity.
  replace (zlen (2 :: t) <? 1) with false by (rewrite zlen_cons; lia).
  rewrite (grab_at (flat_map wire cmds) [2] t) by reflexivity. cbn [le_val].
  change (2 + 256 * 0 =? RMC_CMD_ACK_INTERVAL) with true. cbv iota.
  unfold dissect_rmc_ack_interval. replace tvb with ((flat_map wire cmds ++ [2]) ++ t) by (subst tvb; rewrite <- app_assoc; reflexivity).
  rewrite remaining_at by (rewrite zlen_app; reflexivity). replace (zlen t <? 16) with true by lia.
  rewrite Z.eqb_refl. unfold tcp_end. rewrite Z.eqb_refl. cbn [fst snd d_tree d_col d_ports add_item app].
  fold (last_ack cmds).
  match goal with |- context [col_more ?dd ?pp] => pose proof (col_more_col dd pp) as (T1 & T2 & T3); rewrite (dst_eq (col_more dd pp) _ _ _ T1 T2 T3) end.
  cbn [d_tree d_col d_ports]. f_equal. rewrite !zlen_app, ?zlen_cons. change (zlen (@nil Z)) with 0. rewrite zlen_cons in ZK. lia.
Qed.

(** C85 (cut control messages). If a segment ends inside a control message, the plugin shows a
    control message of length 0 in its place and does not ask for the rest, whatever the
    message really holds. *)
Theorem c85_cut_control_refuted : forall cmds p k ports,
  Forall (fun c => cmd_ok c /\ for_pub c) cmds -> is_u16 (zlen p) -> 1 <= k < 3 + zlen p ->
  dissect_rmc_tcp (flat_map wire cmds ++ ztake k (wire (CmdCtrl p))) (blank ports) =
    RDone (zlen (flat_map wire cmds) + k)
          (mkD (flat_map items_of cmds ++ [INum FCommand 3]) (flat_map pieces_of cmds ++ [PCtl 0]) ports) None.
Proof.
  intros cmds p k ports F Hp Hk. unfold dissect_rmc_tcp, blank. cbn [d_tree d_ports].
  pose proof (cmds_length cmds) as LC. pose proof (zlen_nonneg p) as NP.
  assert (ZC : zlen (enc_ctrl (zlen p) ++ p) = 2 + zlen p) by (rewrite zlen_app, enc_ctrl_zlen; reflexivity).
  set (w := enc_ctrl (zlen p) ++ p) in *.
  assert (EK : ztake k (wire (CmdCtrl p)) = 3 :: ztake (k - 1) w).
  { unfold ztake. replace (Z.to_nat k) with (S (Z.to_nat (k - 1))) by lia. reflexivity. }
  set (t := ztake (k - 1) w) in *.
  assert (ZT : zlen t = k - 1). { unfold t, ztake, zlen in *. rewrite firstn_length. lia. }
  rewrite EK. set (tvb := flat_map wire cmds ++ 3 :: t) in *.
  assert (LT : length tvb = (length (flat_map wire cmds) + S (length t))%nat) by (subst tvb; rewrite app_length; reflexivity).
  destruct (loop_at cmds (S (S (length tvb))) [] (3 :: t) 0 (0, 0) None (mkD [] [] ports) tvb 0 F eq_refl eq_refl ltac:(lia)) as (res' & Q).
  rewrite Q. replace (S (S (length tvb)) - length cmds)%nat with (S (S (length tvb) - length cmds))%nat by lia.
  cbn [tcp_loop]. rewrite Z.add_0_l. unfold tvb at 1. rewrite remaining_at by reflexivity.
  replace (zlen (3 :: t) <? 1) with false by (rewrite zlen_cons; lia).
  rewrite (grab_at (flat_map wire cmds) [3] t) by reflexivity. cbn [le_val].
  change (3 + 256 * 0 =? RMC_CMD_ACK_INTERVAL) with false. change (3 + 256 * 0 =? RMC_CMD_PACKET) with false.
  change (3 + 256 * 0 =? RMC_CMD_CONTROL_MESSAGE) with true. cbv iota.
  assert (C : forall d, dissect_rmc_ctl_msg tvb (zlen (flat_map wire cmds) + 1) d = Some (0, 0, d)).
  { intros d. unfold dissect_rmc_ctl_msg. replace tvb with ((flat_map wire cmds ++ [3]) ++ t) by (subst tvb; rewrite <- app_assoc; reflexivity).
    rewrite remaining_at by (rewrite zlen_app; reflexivity). destruct (Z.ltb_spec (zlen t) 2) as [L|L]; [reflexivity|].
    assert (ET : t = enc_ctrl (zlen p) ++ ztake (k - 3) p).
    { unfold t, ztake. unfold w. rewrite firstn_app. assert (length (enc_ctrl (zlen p)) = 2%nat) as LE by (pose proof (enc_ctrl_zlen (zlen p)); unfold zlen in *; lia).
      rewrite LE. rewrite firstn_all2 by lia. f_equal. f_equal. lia. }
    rewrite (grab_at (flat_map wire cmds ++ [3]) (enc_ctrl (zlen p)) (ztake (k - 3) p)); [|rewrite ET; reflexivity|rewrite zlen_app; reflexivity|rewrite enc_ctrl_zlen; reflexivity].
    cbn [obind]. assert (V : le_val (enc_ctrl (zlen p)) = zlen p) by (unfold enc_ctrl, is_u16 in *; apply le_val_bytes; cbn; lia). rewrite V.
    rewrite ET, app_assoc. rewrite remaining_at by (rewrite !zlen_app, enc_ctrl_zlen; change (zlen [3]) with 1; lia).
    replace (zlen (ztake (k - 3) p) <? zlen p) with true; [reflexivity|]. symmetry. apply Z.ltb_lt. unfold ztake, zlen in *. rewrite firstn_length. lia. }
  rewrite C. rewrite Z.eqb_refl. unfold tcp_end. rewrite Z.eqb_refl. cbn [d_tree d_col d_ports add_item app].
  match goal with |- context [col_more ?dd ?pp] => pose proof (col_more_col dd pp) as (T1 & T2 & T3); rewrite (dst_eq (col_more dd pp) _ _ _ T1 T2 T3) end.
  cbn [d_tree d_col d_ports]. f_equal. subst tvb. rewrite zlen_app, zlen_cons. lia.
Qed.
Example c85_cut_control_witness :
  dissect_rmc_tcp (wire (CmdAck 5 9) ++ ztake 4 (wire (CmdCtrl [65; 66]))) (blank []) = RDone 21 (mkD [INum FCommand 2; INum FFirst 5; INum FLast 9; INum FCommand 3] [PAck 5 9; PCtl 0] []) None /\
  dissect_rmc_tcp (ztake 2 (wire (CmdCtrl [65; 66]))) (blank []) = RDone 2 (mkD [INum FCommand 3] [PCtl 0] []) None.
Proof. vm_compute. split; reflexivity. Qed.

(** C85 (unknown bytes). A segment of whole acknowledgements and control messages followed by
    a byte that is no command is refused (0 is returned, so that another dissector may take
    it), what came before the byte being shown. *)
Theorem c85_unknown_byte : forall cmds b t ports,
  Forall (fun c => cmd_ok c /\ for_pub c) cmds -> b <> 1 -> b <> 2 -> b <> 3 ->
  dissect_rmc_tcp (flat_map wire cmds ++ b :: t) (blank ports) =
    RDone 0 (mkD (flat_map items_of cmds) (flat_map pieces_of cmds) ports) None.
Proof.
  intros cmds b t ports F N1 N2 N3. unfold dissect_rmc_tcp, blank. cbn [d_tree d_ports].
  pose proof (cmds_length cmds) as LC. set (tvb := flat_map wire cmds ++ b :: t) in *.
  assert (LT : length tvb = (length (flat_map wire cmds) + S (length t))%nat) by (subst tvb; rewrite app_length; reflexivity).
  destruct (loop_at cmds (S (S (length tvb))) [] (b :: t) 0 (0, 0) None (mkD [] [] ports) tvb 0 F eq_refl eq_refl ltac:(lia)) as (res' & Q).
  rewrite Q. replace (S (S (length tvb)) - length cmds)%nat with (S (S (length tvb) - length cmds))%nat by lia.
  cbn [tcp_loop]. rewrite Z.add_0_l. unfold tvb at 1. rewrite remaining_at by reflexivity.
  replace (zlen (b :: t) <? 1) with false by (rewrite zlen_cons; pose proof (zlen_nonneg t); lia).
  rewrite (grab_at (flat_map wire cmds) [b] t) by reflexivity. cbn [le_val].
  change RMC_CMD_ACK_INTERVAL with 2. change RMC_CMD_PACKET with 1. change RMC_CMD_CONTROL_MESSAGE with 3.
  replace (b + 256 * 0 =? 2) with false by lia. replace (b + 256 * 0 =? 1) with false by lia. replace (b + 256 * 0 =? 3) with false by lia.
  reflexivity.
Qed.
Example c85_unknown_byte_witness :
  dissect_rmc_tcp (wire (CmdAck 5 9) ++ [77; 2; 0]) (blank []) = RDone 0 (mkD (items_of (CmdAck 5 9)) [PAck 5 9] []) None.
Proof. reflexivity. Qed.

(** * Any input *)

Lemma rem_pos tvb off : 0 <= off -> 1 <= remaining tvb off -> off + remaining tvb off = zlen tvb.
Proof. intros H0 H. unfold remaining in *. destruct (zlen tvb <? off); lia. Qed.

Lemma le_val_nonneg l : bytes_ok l -> 0 <= le_val l.
Proof. intros B. pose proof (le_val_range l B). lia. Qed.

Lemma dissect_any tvb off d len : bytes_ok tvb -> 0 <= off -> grab tvb (off + 12) 2 = Some len -> off + 20 + le_val len <= zlen tvb ->
  exists r, dissect_packet_offset tvb off d = Some r.
Proof.
  intros B H0 G L. assert (BL : bytes_ok len).
  { pose proof (zlen_nonneg tvb). unfold grab in G. destruct (_ && _) eqn:C; [|discriminate].
    destruct (grab_some tvb (off + 12) 2) as (l & E & _ & Bl); [lia|lia|lia|]. unfold grab in E. rewrite C in E.
    assert (len = l) as -> by congruence. auto. }
  pose proof (le_val_nonneg _ BL). unfold dissect_packet_offset.
  destruct (grab_some tvb off 8) as (a & -> & _); [lia|lia|lia|]. cbn [obind].
  destruct (grab_some tvb (off + 8) 4) as (b & -> & _); [lia|lia|lia|]. cbn [obind].
  replace (off + 8 + 4) with (off + 12) by lia. rewrite G. cbn [obind].
  destruct (grab_some tvb (off + 12 + 2) 4) as (c & -> & _); [lia|lia|lia|]. cbn [obind].
  destruct (grab_some tvb (off + 12 + 2 + 4) 2) as (e & -> & _); [lia|lia|lia|]. cbn [obind].
  destruct (grab_some tvb (off + 12 + 2 + 4 + 2) (le_val len)) as (p & -> & _); [lia|lia|lia|]. cbn [obind].
  eexists; reflexivity.
Qed.

Lemma pdus_any fuel : forall tvb off n d, bytes_ok tvb -> 0 <= off -> zlen tvb - off < Z.of_nat fuel -> (0 < fuel)%nat ->
  exists r, tcp_dissect_pdus fuel tvb off n d = Some r.
Proof.
  induction fuel as [|fuel IH]; intros tvb off n d B H0 Hf Hp; [lia|]. cbn [tcp_dissect_pdus].
  destruct (remaining tvb off <? 1) eqn:R1; [eexists; reflexivity|].
  pose proof (rem_pos tvb off H0 ltac:(lia)) as RR.
  destruct (remaining tvb off <? 15) eqn:R15; [eexists; reflexivity|]. unfold get_rmc_packet_len.
  destruct (grab_some tvb (off + 13) 2) as (l & G & Ll & Bl); [lia|lia|lia|]. rewrite G. cbn [obind].
  pose proof (le_val_nonneg l (Bl B)) as Pl.
  destruct (remaining tvb off <? le_val l + 21) eqn:RL; [eexists; reflexivity|].
  destruct (grab_some tvb off (le_val l + 21)) as (pdu & Gp & Lp & Bp); [lia|lia|lia|]. rewrite Gp. cbn [obind].
  unfold dissect_rmc_packet. destruct (grab_some pdu 0 1) as (c & -> & _); [lia|lia|lia|]. cbn [obind].
  assert (G13 : grab pdu (1 + 12) 2 = Some l).
  { unfold grab in Gp, G |- *. destruct ((0 <=? off) && (off + (le_val l + 21) <=? zlen tvb)); [|discriminate].
    destruct ((0 <=? off + 13) && (off + 13 + 2 <=? zlen tvb)); [|discriminate]. injection Gp as <-. injection G as <-.
    replace ((0 <=? 1 + 12) && (1 + 12 + 2 <=? zlen (ztake (le_val (ztake 2 (zdrop (off + 13) tvb)) + 21) (zdrop off tvb)))) with true by lia.
    f_equal. set (m := le_val _ + 21) in *. assert (15 <= m) by lia. change (1 + 12) with 13.
    replace (zdrop (off + 13) tvb) with (zdrop 13 (zdrop off tvb)) by (apply zdrop_zdrop; lia).
    unfold ztake, zdrop. rewrite skipn_firstn_comm, firstn_firstn.
    replace (Nat.min (Z.to_nat 2) (Z.to_nat m - Z.to_nat 13)) with (Z.to_nat 2) by lia. reflexivity. }
  destruct (dissect_any pdu 1 (add_item d (INum FCommand (le_val c))) l (Bp B) ltac:(lia) G13 ltac:(lia)) as ([o d'] & ->).
  cbn [obind fst snd]. apply IH; auto; lia.
Qed.

Lemma ack_any tvb off pids d : bytes_ok tvb -> 0 <= off ->
  exists r p d', dissect_rmc_ack_interval tvb off pids d = Some (r, p, d') /\ 0 <= r.
Proof.
  intros B H0. unfold dissect_rmc_ack_interval. destruct (remaining tvb off <? 16) eqn:R; [do 3 eexists; split; [reflexivity|lia]|].
  pose proof (rem_pos tvb off H0 ltac:(lia)).
  destruct (grab_some tvb off 8) as (a & -> & _); [lia|lia|lia|]. cbn [obind].
  destruct (grab_some tvb (off + 8) 8) as (b & -> & _); [lia|lia|lia|]. cbn [obind].
  do 3 eexists. split; [reflexivity|lia].
Qed.

Lemma ctl_any tvb off d : bytes_ok tvb -> 0 <= off ->
  exists r l d', dissect_rmc_ctl_msg tvb off d = Some (r, l, d') /\ 0 <= r.
Proof.
  intros B H0. unfold dissect_rmc_ctl_msg. destruct (remaining tvb off <? 2) eqn:R; [do 3 eexists; split; [reflexivity|lia]|].
  pose proof (rem_pos tvb off H0 ltac:(lia)).
  destruct (grab_some tvb off 2) as (a & -> & _ & Ba); [lia|lia|lia|]. cbn [obind]. pose proof (le_val_nonneg a (Ba B)).
  destruct (remaining tvb (off + 2) <? le_val a) eqn:R2; [do 3 eexists; split; [reflexivity|lia]|].
  assert (off + 2 + le_val a <= zlen tvb) by (unfold remaining in R2; destruct (zlen tvb <? off + 2); lia).
  destruct (grab_some tvb (off + 2) (le_val a)) as (p & -> & _); [lia|lia|lia|]. cbn [obind].
  do 3 eexists. split; [reflexivity|lia].
Qed.

(** C85 (any bytes). Whatever a captured segment contains, its dissection ends, without an
    exception. *)
Theorem c85_total : forall tvb d, bytes_ok tvb -> exists ret d' want, dissect_rmc_tcp tvb d = RDone ret d' want.
Proof.
  intros tvb d B. unfold dissect_rmc_tcp.
  assert (G : forall fuel off res pids n want d, 0 <= off -> 0 <= res -> zlen tvb - off < Z.of_nat fuel -> (0 < fuel)%nat ->
    exists ret d' w, tcp_loop fuel tvb off res pids n want d = RDone ret d' w).
  { induction fuel as [|fuel IH]; intros off res pids n want d0 H0 Hr Hf Hp; [lia|]. cbn [tcp_loop].
    destruct (remaining tvb off <? 1) eqn:R1; [do 3 eexists; reflexivity|].
    pose proof (rem_pos tvb off H0 ltac:(lia)) as RR.
    destruct (grab_some tvb off 1) as (c & -> & _); [lia|lia|lia|].
    assert (K : forall res' pids' n' want' d1, 0 <= res' -> exists ret d' w,
      (if res' =? 0 then tcp_end tvb n' d1 want' else tcp_loop fuel tvb (off + 1 + res') res' pids' n' want' d1) = RDone ret d' w).
    { intros res' pids' n' want' d1 H1. destruct (Z.eqb_spec res' 0); [do 3 eexists; reflexivity|]. apply IH; lia. }
    destruct (_ =? RMC_CMD_ACK_INTERVAL).
    { destruct (ack_any tvb (off + 1) pids (add_item d0 (INum FCommand (le_val c))) B ltac:(lia)) as (r & p & d' & -> & Hr'). apply K, Hr'. }
    destruct (_ =? RMC_CMD_PACKET).
    { destruct (pdus_any (S (length tvb)) tvb 0 n d0 B ltac:(lia)) as ([[w n'] d'] & ->); [unfold zlen; lia|lia|]. apply K, Hr. }
    destruct (_ =? RMC_CMD_CONTROL_MESSAGE).
    { destruct (ctl_any tvb (off + 1) (add_item d0 (INum FCommand (le_val c))) B ltac:(lia)) as (r & p & d' & -> & Hr'). apply K, Hr'. }
    do 3 eexists; reflexivity. }
  apply G; unfold zlen; lia.
Qed.

(** * With the library *)

Lemma dec_header_prefix h r : hdr_ok (dec_header (enc_header h ++ r)).
Proof.
  enough (E : dec_header (enc_header h ++ r) = dec_header (enc_header h)).
  { rewrite E. apply dec_header_ok. unfold enc_header, bytes_ok. rewrite !Forall_app. repeat match goal with |- _ /\ _ => split end; apply le_bytes_ok. }
  reflexivity.
Qed.

(** C85 (what a publisher multicasts). Every datagram a publisher ever multicasts is shown
    with the publisher's node id and address and the very payload that was queued. *)
Theorem c85_publisher : forall x g log dg d, reached x g log -> In dg (flat_map cast_ev log) ->
  exists k port bs d',
    dissect_packet_multicast dg d = Some (20, d') /\
    d_tree d' = d_tree d ++ packet_items (Wire.mkHdr k (x_node x) (zlen bs) (x_lip x) port) bs /\
    d_ports d' = learn (Wire.mkHdr k (x_node x) (zlen bs) (x_lip x) port) (d_ports d) /\
    (k <> 0 -> 1 <= k /\ nth_error (g_data g) (Z.to_nat (k - 1)) = Some bs).
Proof.
  intros x g log dg d H Hd. destruct (c62_multicast_content x g log dg H Hd) as (k & port & bs & E & D & N).
  assert (O : hdr_ok (Wire.mkHdr k (x_node x) (zlen bs) (x_lip x) port)) by (rewrite <- D, E; apply dec_header_prefix).
  destruct (c85_multicast _ bs d O eq_refl) as (d' & Q & T & P). rewrite <- E in Q. exists k, port, bs, d'. auto.
Qed.

(** * Witnesses *)

Definition w_hdr : header := Wire.mkHdr 0 77 3 167772161 4723.       (* announcement from 10.0.0.1 *)
Definition w_hdr2 : header := Wire.mkHdr 300 77 2 167772161 4723.

Example c85_multicast_witness :
  dissect_packet_multicast (enc_header w_hdr ++ [1; 2; 3]) (blank []) =
    Some (20, mkD [INum FPid 0; INum FNode 77; INum FLen 3; IAddr [10; 0; 0; 1]; INum FPort 4723; IBytes FPayload [1; 2; 3]]
                  [PPub 77 (Some [1; 0; 0; 10]) 4723 3 0] [4723]).
Proof. vm_compute. reflexivity. Qed.

(** Two resent packets and the first 16 bytes of a third. *)
Example c85_pub_stream_witness :
  let c := CmdPacket w_hdr2 [8; 9] in
  dissect_rmc_tcp (flat_map wire [c; c] ++ firstn 16 (wire c)) (blank []) =
    RDone 62 (mkD (items_of c ++ items_of c) [PResend 2] []) (Some 46).
Proof. vm_compute. reflexivity. Qed.

Example c85_sub_stream_witness :
  dissect_rmc_tcp (flat_map wire [CmdAck 5 9; CmdCtrl [65; 66]; CmdAck 12 12]) (blank []) =
    RDone 39 (mkD [INum FCommand 2; INum FFirst 5; INum FLast 9; INum FCommand 3; INum FCtlLen 2; IBytes FCtlPayload [65; 66];
                   INum FCommand 2; INum FFirst 12; INum FLast 12] [PAck 5 9; PCtl 2; PAck 12 12] []) None.
Proof. vm_compute. reflexivity. Qed.

(** The acknowledgement 5-256 cut after ten bytes: shown as 0-0, and the second part, which
    starts with byte 1 of the last id's eight bytes, as the beginning of a resend. *)
Example c85_cut_witness :
  let w := wire (CmdAck 5 256) in
  dissect_rmc_tcp (firstn 10 w) (blank []) = RDone 10 (mkD [INum FCommand 2] [PAck 0 0] []) None /\
  dissect_rmc_tcp (skipn 10 w) (blank []) = RDone 7 (mkD [] [] []) (Some 0).
Proof. vm_compute. split; reflexivity. Qed.

Print Assumptions c85_pub_stream.
Print Assumptions c85_total.
Print Assumptions c85_publisher.
Print Assumptions c85_unknown_byte.
Print Assumptions c85_cut_control_refuted.
