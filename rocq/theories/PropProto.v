(** PropProto.v — properties C10, C36, C37, C39, C40 (wire format and TCP control channel). *)
From Verif Require Import Base CircBuf CircBufProofs Wire Proto SpecProto ProtoProofs.

(** * C10: the wire format round trips *)

Definition hdr_ex : header := mkHdr 4294967301 77 3 3232235777 4723.
Example hdr_ex_ok : hdr_ok hdr_ex.
Proof. unfold hdr_ok, is_u64, is_u32, is_u16; vm_compute. intuition discriminate. Qed.

Theorem c10_header_round_trip : forall h rest, hdr_ok h ->
  zlen (enc_header h) = 20 /\ dec_header (enc_header h ++ rest) = h /\ zdrop 20 (enc_header h ++ rest) = rest.
Proof.
  intros h rest H. split; [apply enc_header_zlen|]. split; [apply dec_enc_header; exact H|].
  apply zdrop_app_exact. rewrite enc_header_zlen. reflexivity.
Qed.
(** Every 20 bytes are the image of exactly one header. *)
Theorem c10_header_onto : forall bs, bytes_ok bs -> zlen bs = 20 -> hdr_ok (dec_header bs) /\ enc_header (dec_header bs) = bs.
Proof.
  intros bs H Hl. split; [apply dec_header_ok; exact H|]. rewrite enc_dec_header by (auto; lia).
  apply firstn_all2. unfold zlen in Hl. lia.
Qed.
Theorem c10_ack_round_trip : forall first last rest, is_u64 first -> is_u64 last ->
  zlen (enc_ack first last) = 16 /\ dec_ack (enc_ack first last ++ rest) = (first, last) /\
  zdrop 16 (enc_ack first last ++ rest) = rest.
Proof.
  intros a b rest Ha Hb. split; [apply enc_ack_zlen|]. split; [apply dec_enc_ack; assumption|].
  apply zdrop_app_exact. rewrite enc_ack_zlen. reflexivity.
Qed.
Theorem c10_ctrl_round_trip : forall payload rest, is_u16 (zlen payload) ->
  let s := enc_ctrl (zlen payload) ++ payload ++ rest in
  dec_ctrl s = zlen payload /\ ztake (dec_ctrl s) (zdrop 2 s) = payload /\ zdrop (2 + dec_ctrl s) s = rest.
Proof.
  intros p rest H s. assert (E : dec_ctrl s = zlen p) by (unfold s; apply dec_enc_ctrl; exact H).
  split; [exact E|]. rewrite E. unfold s. split.
  - rewrite zdrop_app_exact by (rewrite enc_ctrl_zlen; reflexivity). apply ztake_app_exact. reflexivity.
  - rewrite app_assoc. apply zdrop_app_exact. rewrite zlen_app, enc_ctrl_zlen. reflexivity.
Qed.
(** A stream of commands can be cut into commands in one way only. *)
Theorem c10_streams_decode_uniquely : forall s c1 r1 c2 r2,
  (parses for_pub s c1 r1 -> parses for_pub s c2 r2 -> c1 = c2 /\ r1 = r2) /\
  (parses for_sub s c1 r1 -> parses for_sub s c2 r2 -> c1 = c2 /\ r1 = r2).
Proof.
  intros. split.
  - apply (parses_unique for_pub pub_next pub_next_complete).
  - apply (parses_unique for_sub sub_next sub_next_complete).
Qed.
(** Little-endian byte order, as the peers expect it. *)
Theorem c10_little_endian : forall n x i, (i < n)%nat -> nth i (le_bytes n x) 0 = (x / 256 ^ Z.of_nat i) mod 256.
Proof.
  induction n as [|n IH]; intros x i Hi; [lia|]. cbn [le_bytes]. destruct i as [|i].
  - cbn [nth]. change (Z.of_nat 0) with 0. rewrite Z.pow_0_r, Z.div_1_r. reflexivity.
  - cbn [nth]. rewrite IH by lia. rewrite Nat2Z.inj_succ, Z.pow_succ_r by lia. rewrite Z.div_div by lia. reflexivity.
Qed.
Example c10_layout : enc_header hdr_ex = [5;0;0;0;1;0;0;0; 77;0;0;0; 3;0; 1;1;168;192; 115;18].
Proof. reflexivity. Qed.

(** * C36: command parsing and TCP segmentation *)

(** Every byte stream splits into commands and a remainder. *)
Theorem c36_every_stream_parses : forall s, bytes_ok s ->
  (exists cmds r, parses for_pub s cmds r) /\ (exists cmds r, parses for_sub s cmds r).
Proof.
  intros s H. split.
  - apply (parses_exists for_pub pub_next pub_next_sound pub_next_complete (S (length s)) s); [lia|exact H].
  - apply (parses_exists for_sub sub_next sub_next_sound sub_next_complete (S (length s)) s); [lia|exact H].
Qed.

Lemma parses_nil allowed : parses allowed [] [] [].
Proof.
  split; [reflexivity|]. split; [constructor|]. intros c rest _ _ A. pose proof (wire_len c) as W.
  symmetry in A. apply app_eq_nil in A. destruct A as (A & _). rewrite A in W. change (zlen (@nil Z)) with 0 in W. lia.
Qed.

(** The publisher's end: for every benign segmentation of the stream, exactly the commands
    of the stream are processed, in order and each once, and the bytes of an incomplete last
    command stay queued. *)
Theorem c36_pub_benign_reads_parse_the_stream :
  forall (St : Type) (eff_ack : St -> Z * Z -> res St) has_cb eff_ctrl size mem st cs cmds r st',
  1 <= size <= cb_max -> benign for_pub has_cb size 0 [] cs ->
  parses for_pub (concat cs) cmds r ->
  run_cmds (fun st c => match c with
                        | CmdAck a b => eff_ack st (a, b)
                        | CmdCtrl p => eff_ctrl st (if has_cb then Some p else None)
                        | CmdPacket _ _ => Ok st end) st cmds = Ok st' ->
  exists codes rb, feed (pub_dispatch eff_ack has_cb eff_ctrl) st (circ_buf_init size mem) cs = Ok (codes, st', rb) /\
    cb_wf rb /\ contents rb = r.
Proof.
  intros St ea has_cb ec size mem st cs cmds r st' Hs Hbn Hp Hr.
  destruct (init_wf size mem Hs) as (Hw & Hc & Hz).
  destruct (feed_spec (pub_dispatch ea has_cb ec) (pub_eff ea has_cb ec) for_pub pub_next has_cb pub_next_sound pub_next_complete
              (pub_handler_cmd ea has_cb ec) (pub_handler_more ea has_cb ec) (pub_handler_bad ea has_cb ec)
              size 0 [] cs Hbn st (circ_buf_init size mem) cmds r st')
    as (codes & rb & Ef & Hw' & Hc' & _); auto; [constructor|apply parses_nil|].
  exists codes, rb. auto.
Qed.
(** The subscriber's end. *)
Theorem c36_sub_benign_reads_parse_the_stream :
  forall (St : Type) (dup : St -> Z -> bool) (eff : St -> header * list Z -> res St) size mem st cs cmds r st',
  1 <= size <= cb_max -> benign for_sub false size 0 [] cs ->
  parses for_sub (concat cs) cmds r ->
  run_cmds (fun st c => match c with
                        | CmdPacket h p => if dup st (h_pid h) then Ok st else eff st (h, p)
                        | _ => Ok st end) st cmds = Ok st' ->
  exists codes rb, feed (sub_dispatch dup eff) st (circ_buf_init size mem) cs = Ok (codes, st', rb) /\
    cb_wf rb /\ contents rb = r.
Proof.
  intros St dup eff size mem st cs cmds r st' Hs Hbn Hp Hr.
  destruct (init_wf size mem Hs) as (Hw & Hc & Hz).
  destruct (feed_spec (sub_dispatch dup eff) (sub_eff dup eff) for_sub sub_next false sub_next_sound sub_next_complete
              (fun st rb c rest a b d _ => sub_handler_cmd dup eff st rb c rest a b d) (sub_handler_more dup eff) (sub_handler_bad dup eff)
              size 0 [] cs Hbn st (circ_buf_init size mem) cmds r st')
    as (codes & rb & Ef & Hw' & Hc' & _); auto; [constructor|apply parses_nil|].
  exists codes, rb. auto.
Qed.

(** Two benign segmentations of the same stream are indistinguishable. *)
Theorem c36_benign_segmentations_agree_partial :
  forall (St : Type) (eff_ack : St -> Z * Z -> res St) has_cb eff_ctrl size mem1 mem2 st cs1 cs2 codes1 st1 rb1,
  1 <= size <= cb_max -> benign for_pub has_cb size 0 [] cs1 -> benign for_pub has_cb size 0 [] cs2 ->
  concat cs1 = concat cs2 ->
  (forall st a, exists st', eff_ack st a = Ok st') -> (forall st p, exists st', eff_ctrl st p = Ok st') ->
  feed (pub_dispatch eff_ack has_cb eff_ctrl) st (circ_buf_init size mem1) cs1 = Ok (codes1, st1, rb1) ->
  exists codes2 rb2, feed (pub_dispatch eff_ack has_cb eff_ctrl) st (circ_buf_init size mem2) cs2 = Ok (codes2, st1, rb2) /\
    contents rb2 = contents rb1.
Proof.
  intros St ea has_cb ec size mem1 mem2 st cs1 cs2 codes1 st1 rb1 Hs B1 B2 Hcat Ta Tc Hf.
  destruct (c36_every_stream_parses (concat cs1) (benign_bytes _ _ _ _ _ _ B1)) as ((cmds & r & Hp) & _).
  set (eff := fun (st : St) c => match c with
                        | CmdAck a b => ea st (a, b)
                        | CmdCtrl p => ec st (if has_cb then Some p else None)
                        | CmdPacket _ _ => Ok st end).
  assert (T : forall cmds st, exists st', run_cmds eff st cmds = Ok st').
  { induction cmds0 as [|c cmds0 IH]; intros s0; cbn [run_cmds]; [eauto|].
    assert (Z1 : exists s1, eff s0 c = Ok s1) by (destruct c; cbn; [eauto|apply Ta|apply Tc]).
    destruct Z1 as (s1 & ->). cbn [bind]. apply IH. }
  destruct (T cmds st) as (st' & Hr).
  destruct (c36_pub_benign_reads_parse_the_stream St ea has_cb ec size mem1 st cs1 cmds r st' Hs B1 Hp Hr) as (k1 & b1 & F1 & _ & C1).
  rewrite Hcat in Hp.
  destruct (c36_pub_benign_reads_parse_the_stream St ea has_cb ec size mem2 st cs2 cmds r st' Hs B2 Hp Hr) as (k2 & b2 & F2 & _ & C2).
  rewrite Hf in F1. injection F1 as -> -> ->. exists k2, b2. split; [exact F2|congruence].
Qed.

(** Reads that do not straddle: a read that completes a command ends with it. *)
Inductive unstraddled (allowed : cmd -> Prop) (size : Z) : list Z -> list (list Z) -> Prop :=
| un_nil left : unstraddled allowed size left []
| un_cons left c cs cmds r :
    c <> [] -> bytes_ok c -> zlen left + zlen c <= size - 1 ->
    parses allowed (left ++ c) cmds r -> cmds = [] \/ r = [] ->
    unstraddled allowed size r cs -> unstraddled allowed size left (c :: cs).
Lemma ctrls_ok_low size : forall cmds pos, 0 <= pos -> pos + zlen (flat_map wire cmds) <= size - 1 -> ctrls_ok size pos cmds.
Proof.
  induction cmds as [|c cmds IH]; intros pos Hp Hl; cbn [ctrls_ok]; [exact Logic.I|].
  cbn [flat_map] in Hl. rewrite zlen_app in Hl. pose proof (zlen_nonneg (flat_map wire cmds)). pose proof (wire_len c). split.
  - destruct c; cbn [ctrl_ok]; auto. cbn [wire] in Hl. rewrite zlen_cons, zlen_app, enc_ctrl_zlen in Hl.
    pose proof (zlen_nonneg payload). cbv zeta. rewrite Z.mod_small by lia. lia.
  - rewrite Z.mod_small by lia. apply IH; lia.
Qed.
Theorem c36_unstraddled_reads_are_benign : forall allowed cb size cs, 1 <= size -> unstraddled allowed size [] cs -> benign allowed cb size 0 [] cs.
Proof.
  intros allowed cb size cs Hs Hu. revert cs Hu. generalize (@nil Z).
  induction 1 as [left|left c cs cmds r Hne Hb Hl Hp Hor Hu IH]; [constructor|].
  pose proof (zlen_nonneg left). pose proof (zlen_nonneg c). pose proof (parses_len _ _ _ _ Hp) as (L & _). rewrite zlen_app in L.
  pose proof (zlen_nonneg r).
  econstructor; try eassumption.
  - left. lia.
  - intros _. apply ctrls_ok_low; lia.
  - replace (next_pos size 0 (zlen (flat_map wire cmds)) r) with 0; [exact IH|].
    destruct r; [reflexivity|]. destruct Hor as [->|A]; [|discriminate]. unfold next_pos. cbn [flat_map]. change (zlen (@nil Z)) with 0. rewrite Z.mod_0_l by lia. reflexivity.
Qed.

(** Exactly when a read destroys the ring: the ring then claims almost 2^32 queued bytes and
    the stale memory behind the data is taken for commands. *)
Theorem c36_bad_reads_exact :
  forall (St : Type) (dispatch : Z -> option (St -> cbuf -> res (Z * St * cbuf))) st rb c,
  cb_wf rb -> c <> [] -> zlen c <= circ_buf_available rb ->
  exists rb', tcp_read dispatch st rb (RData c) = process_tcp_read dispatch st rb' /\
   let n := circ_buf_in_use rb + zlen c in
   ((cb_wf rb' /\ contents rb' = contents rb ++ c) <-> (cb_start rb <= n + 1 \/ cb_size rb <= cb_start rb + n)) /\
   (n + 1 < cb_start rb -> cb_start rb + n < cb_size rb -> circ_buf_in_use rb' = 4294967296 - (cb_size rb - n)).
Proof.
  intros St d st rb c Hw Hne Hl.
  assert (Hpos : 0 < zlen c). { destruct c; [contradiction|]. rewrite zlen_cons. pose proof (zlen_nonneg c). lia. }
  destruct (fill_spec rb c Hw Hpos Hl) as (rb' & E & Hz & Hs & Hg & Hbad).
  exists rb'. unfold tcp_read. rewrite E. cbn [bind]. split; [reflexivity|]. cbv zeta. unfold read_ok in *.
  split.
  - split; [|exact Hg]. intros (Hw' & _).
    assert (D : (cb_start rb <= circ_buf_in_use rb + zlen c + 1 \/ cb_size rb <= cb_start rb + (circ_buf_in_use rb + zlen c)) \/
      ~ (cb_start rb <= circ_buf_in_use rb + zlen c + 1 \/ cb_size rb <= cb_start rb + (circ_buf_in_use rb + zlen c))) by lia.
    destruct D as [D|D]; [exact D|]. destruct (Hbad D). contradiction.
  - intros A B. apply Hbad. lia.
Qed.

(** A log of the processed commands, used by the concrete runs. *)
Definition log_pub : Z -> option (list cmd -> cbuf -> res (Z * list cmd * cbuf)) :=
  pub_dispatch (fun st a => Ok (st ++ [CmdAck (fst a) (snd a)])) true
               (fun st p => Ok (match p with Some p => st ++ [CmdCtrl p] | None => st end)).

(** C36 is false: 25 bytes of the stream "ack 1-1, ack 2-2", received in one read or in two
    reads of 22 and 3 bytes, on the library's ring of 65400 bytes.  In the second case an
    "ack 2-0" is processed and the connection runs into a protocol error. *)
Theorem c36_segmentation_refuted :
  exists s rest cs1 cs2 rb1 rb2, s ++ rest = wire (CmdAck 1 1) ++ wire (CmdAck 2 2) /\
    concat cs1 = s /\ concat cs2 = s /\
    feed log_pub [] (circ_buf_init 65400 (fun _ => 0)) cs1 = Ok ([EAGAIN], [CmdAck 1 1], rb1) /\
    feed log_pub [] (circ_buf_init 65400 (fun _ => 0)) cs2 = Ok ([EAGAIN; EPROTO], [CmdAck 1 1; CmdAck 2 0], rb2) /\
    contents rb1 = ztake 8 (wire (CmdAck 2 2)) /\ circ_buf_in_use rb2 = 4294901887.
Proof.
  pose (s := ztake 25 (wire (CmdAck 1 1) ++ wire (CmdAck 2 2))).
  exists s, (zdrop 25 (wire (CmdAck 1 1) ++ wire (CmdAck 2 2))), [s], [ztake 22 s; zdrop 22 s].
  destruct (feed log_pub [] (circ_buf_init 65400 (fun _ => 0)) [s]) as [[[k1 l1] b1]| | |] eqn:E1; [|vm_compute in E1; discriminate ..].
  destruct (feed log_pub [] (circ_buf_init 65400 (fun _ => 0)) [ztake 22 s; zdrop 22 s]) as [[[k2 l2] b2]| | |] eqn:E2; [|vm_compute in E2; discriminate ..].
  exists b1, b2.
  assert (X1 : (match feed log_pub [] (circ_buf_init 65400 (fun _ => 0)) [s] with
                | Ok (k, l, b) => (k, l, contents b) | _ => ([], [], []) end) = ([EAGAIN], [CmdAck 1 1], ztake 8 (wire (CmdAck 2 2)))) by (vm_compute; reflexivity).
  assert (X2 : (match feed log_pub [] (circ_buf_init 65400 (fun _ => 0)) [ztake 22 s; zdrop 22 s] with
                | Ok (k, l, b) => (k, l, circ_buf_in_use b) | _ => ([], [], 0) end) = ([EAGAIN; EPROTO], [CmdAck 1 1; CmdAck 2 0], 4294901887)) by (vm_compute; reflexivity).
  rewrite E1 in X1. rewrite E2 in X2. injection X1 as -> -> X1. injection X2 as -> -> X2.
  split; [reflexivity|]. split; [reflexivity|]. split; [reflexivity|]. split; [reflexivity|]. split; [reflexivity|]. split; [exact X1|exact X2].
Qed.
(** Worse, an acknowledgement can be made up from stale bytes: the subscriber sends the acks
    1-50, 51-356, 357-357, 358-..., the publisher processes an ack of 102-358, although the
    subscriber had only sent "ack 102-" and the first byte of its end. *)
Theorem c36_invented_ack_refuted :
  exists cs b, concat cs = wire (CmdAck 1 50) ++ wire (CmdAck 51 356) ++ wire (CmdAck 101 101) ++ ztake 10 (wire (CmdAck 102 102)) /\
    feed log_pub [] (circ_buf_init 65400 (fun _ => 0)) cs =
      Ok ([0; EAGAIN; EPROTO], [CmdAck 1 50; CmdAck 51 356; CmdAck 101 101; CmdAck 102 358], b).
Proof.
  pose (cs := [wire (CmdAck 1 50) ++ wire (CmdAck 51 356); wire (CmdAck 101 101) ++ ztake 9 (wire (CmdAck 102 102)); ztake 1 (zdrop 9 (wire (CmdAck 102 102)))]).
  exists cs.
  destruct (feed log_pub [] (circ_buf_init 65400 (fun _ => 0)) cs) as [[[k1 l1] b1]| | |] eqn:E1; [|vm_compute in E1; discriminate ..].
  exists b1. split; [reflexivity|].
  assert (X1 : (match feed log_pub [] (circ_buf_init 65400 (fun _ => 0)) cs with
                | Ok (k, l, b) => (k, l) | _ => ([], []) end) = ([0; EAGAIN; EPROTO], [CmdAck 1 50; CmdAck 51 356; CmdAck 101 101; CmdAck 102 358])) by (vm_compute; reflexivity).
  rewrite E1 in X1. injection X1 as -> ->. reflexivity.
Qed.
(** Non-vacuity: a benign segmentation into single bytes, and one with a straddling read. *)
Example c36_nonvacuous :
  let s := wire (CmdCtrl [7; 8; 9]) in
  unstraddled for_pub 65400 [] [[3]; [3; 0]; [7]; [8; 9]] /\ concat [[3]; [3; 0]; [7]; [8; 9]] = s /\
  parses for_pub s [CmdCtrl [7; 8; 9]] [].
Proof.
  cbv zeta.
  assert (P : forall left, bytes_ok left -> pub_next left = NMore -> parses for_pub left [] left).
  { intros left Hb Hn. split; [reflexivity|]. split; [constructor|]. intros c rest A B ->. rewrite pub_next_complete in Hn by assumption. discriminate. }
  assert (Q : parses for_pub (wire (CmdCtrl [7;8;9])) [CmdCtrl [7;8;9]] []).
  { split; [reflexivity|]. split; [|apply (parses_nil for_pub)].
    constructor; [|constructor]. split; [|exact Logic.I]. split; [vm_compute; intuition discriminate|].
    repeat constructor; discriminate. }
  split; [|split; [reflexivity|exact Q]].
  apply un_cons with (cmds := []) (r := [3]); [discriminate|repeat constructor; discriminate|vm_compute; discriminate|apply P; [repeat constructor; discriminate|reflexivity]|auto|].
  apply un_cons with (cmds := []) (r := [3; 3; 0]); [discriminate|repeat constructor; discriminate|vm_compute; discriminate|apply P; [repeat constructor; discriminate|reflexivity]|auto|].
  apply un_cons with (cmds := []) (r := [3; 3; 0; 7]); [discriminate|repeat constructor; discriminate|vm_compute; discriminate|apply P; [repeat constructor; discriminate|reflexivity]|auto|].
  apply un_cons with (cmds := [CmdCtrl [7;8;9]]) (r := []); [discriminate|repeat constructor; discriminate|vm_compute; discriminate|exact Q|auto|].
  constructor.
Qed.

(** * C37: TCP writes preserve the stream *)

(** What can happen to a connection's write ring: the three command writers and a call of
    the socket writer with the outcome of writev(). *)
Inductive wop :=
| OpPacket (h : header) (p : list Z)
| OpAck (first last : Z)
| OpCtrl (p : list Z) (ptr : Z)
| OpFlush (o : wres).
(** Result: bytes taken by the socket, bytes of the commands that were accepted (for a control
    message: whatever its writer put behind the queue, see C39), the ring. *)
Fixpoint wrun (wb : cbuf) (ops : list wop) : res (list Z * list Z * cbuf) :=
  match ops with
  | [] => Ok ([], [], wb)
  | op :: rest =>
      do r <- (match op with
               | OpPacket h p => do x <- write_packet wb h p;
                                 Ok ([], if fst x =? 0 then wire (CmdPacket h p) else [], snd x)
               | OpAck a b => do x <- write_ack wb a b;
                              Ok ([], if fst x =? 0 then wire (CmdAck a b) else [], snd x)
               | OpCtrl p ptr => do x <- write_ctrl wb p ptr;
                                 Ok ([], zdrop (zlen (contents wb)) (contents (snd x)), snd x)
               | OpFlush o => do w <- tcp_write wb o; Ok (w_sent w, [], w_buf w)
               end);
      let '(sent, queued, wb1) := r in
      do y <- wrun wb1 rest;
      Ok (sent ++ fst (fst y), queued ++ snd (fst y), snd y)
  end.
Definition wop_ok (op : wop) : Prop := match op with OpFlush (WOk n) => is_u32 n | _ => True end.

Lemma wrun_stream : forall ops wb sent queued wb', cb_wf wb -> cb_size wb <= RMC_MAX_PACKET -> Forall wop_ok ops ->
  wrun wb ops = Ok (sent, queued, wb') ->
  cb_wf wb' /\ cb_size wb' = cb_size wb /\ sent ++ contents wb' = contents wb ++ queued.
Proof.
  induction ops as [|op ops IH]; intros wb sent queued wb' Hw Hs Hok; cbn [wrun].
  { intros A. injection A as <- <- <-. rewrite app_nil_r. auto. }
  inversion Hok as [|? ? Ho Hok']; subst. intros A. apply bind_ok in A. destruct A as ([[s1 q1] wb1] & E1 & A).
  apply bind_ok in A. destruct A as ([[s2 q2] wb2] & E2 & A). cbn [fst snd] in A. injection A as <- <- <-.
  assert (X : cb_wf wb1 /\ cb_size wb1 = cb_size wb /\ s1 ++ contents wb1 = contents wb ++ q1).
  { destruct op as [h p|a b|p ptr|o].
    - apply bind_ok in E1. destruct E1 as ([c b] & E & A). cbn [fst snd] in A. injection A as <- <- <-.
      destruct (write_packet_spec wb h p Hw) as (F & G & U). pose proof (zlen_nonneg p). pose proof (cb_wf_stop wb Hw) as Hst.
      destruct (Z_lt_ge_dec (circ_buf_available wb) (21 + zlen p)) as [L|R].
      + rewrite F in E by exact L. injection E as <- <-. cbn. rewrite app_nil_r. auto.
      + destruct (Z.eq_dec (cb_stop wb) (cb_size wb)) as [Es|Ns]. { rewrite U in E by (auto; lia). discriminate. }
        destruct (G ltac:(lia) ltac:(lia)) as (w & Ew & Hw1 & Hz1 & _ & Hc1 & _). rewrite Ew in E. injection E as <- <-.
        change (0 =? 0) with true. cbv iota. auto.
    - apply bind_ok in E1. destruct E1 as ([c w0] & E & A). cbn [fst snd] in A. injection A as <- <- <-.
      destruct (write_ack_spec wb a b Hw) as (F & G & U). pose proof (cb_wf_stop wb Hw) as Hst.
      destruct (Z_lt_ge_dec (circ_buf_available wb) 17) as [L|R].
      + rewrite F in E by exact L. injection E as <- <-. cbn. rewrite app_nil_r. auto.
      + destruct (Z.eq_dec (cb_stop wb) (cb_size wb)) as [Es|Ns]. { rewrite U in E by (auto; lia). discriminate. }
        destruct (G ltac:(lia) ltac:(lia)) as (w & Ew & Hw1 & Hz1 & _ & Hc1). rewrite Ew in E. injection E as <- <-.
        change (0 =? 0) with true. cbv iota. auto.
    - apply bind_ok in E1. destruct E1 as ([c w0] & E & A). cbn [fst snd] in A. injection A as <- <- <-.
      assert (K : forall w g, cb_wf w -> cb_size w = cb_size wb -> contents w = contents wb ++ g ->
                 cb_wf w /\ cb_size w = cb_size wb /\ [] ++ contents w = contents wb ++ zdrop (zlen (contents wb)) (contents w)).
      { intros w g A B C. split; [exact A|]. split; [exact B|]. cbn [app]. rewrite C at 2. rewrite zdrop_app_exact by reflexivity. exact C. }
      assert (Hself : wb = w0 -> cb_wf w0 /\ cb_size w0 = cb_size wb /\ [] ++ contents w0 = contents wb ++ zdrop (zlen (contents wb)) (contents w0)).
      { intros <-. apply (K wb []); auto. rewrite app_nil_r. reflexivity. }
      assert (E' := E). pose proof (zlen_nonneg p).
      destruct ((ptr =? 0) || (zlen p =? 0)) eqn:E0. { unfold write_ctrl in E. rewrite E0 in E. injection E as _ E. apply Hself. exact E. }
      apply orb_false_iff in E0. destruct E0 as (Ep & Ez).
      destruct (write_ctrl_spec wb p ptr Hw ltac:(lia) ltac:(lia)) as (F & G & B1 & B2 & U). pose proof (cb_wf_stop wb Hw) as Hst.
      destruct (Z_lt_ge_dec (circ_buf_available wb) (4 + zlen p)) as [L|R].
      { rewrite F in E' by exact L. injection E' as _ E'. apply Hself. exact E'. }
      destruct (Z.eq_dec (cb_stop wb) (cb_size wb)) as [Es|Ns]. { rewrite U in E' by (auto; lia). discriminate. }
      destruct (Z_le_gt_dec (cb_stop wb + 3 + zlen p) (cb_size wb)) as [Q1|Q1];
        [|destruct (Z_lt_ge_dec (cb_size wb) (cb_stop wb + 3)) as [Q2|Q2]].
      + destruct (G ltac:(lia) ltac:(lia) (or_introl Q1)) as (w & Ew & A & B & C & _). rewrite Ew in E'. injection E' as <- <-. exact (K _ _ A B C).
      + destruct (G ltac:(lia) ltac:(lia) (or_intror Q2)) as (w & Ew & A & B & C & _). rewrite Ew in E'. injection E' as <- <-. exact (K _ _ A B C).
      + destruct (Z_le_gt_dec (zlen p) 8) as [Q3|Q3].
        * destruct (B1 ltac:(lia) ltac:(lia) ltac:(lia) Q3) as (w & Ew & A & B & C). rewrite Ew in E'. injection E' as <- <-. exact (K _ _ A B C).
        * rewrite B2 in E' by lia. discriminate.
    - apply bind_ok in E1. destruct E1 as (w & E & A). injection A as <- <- <-.
      destruct (tcp_write_spec wb o Hw Hs) as (w' & Ew & Hw1 & Hz1 & Hc1 & _). { destruct o; [exact Logic.I|exact Ho]. }
      rewrite Ew in E. injection E as <-. cbn [w_sent w_buf]. split; [exact Hw1|]. split; [exact Hz1|]. rewrite app_nil_r, Hc1.
      destruct o; [reflexivity|]. apply ztake_zdrop. }
  destruct X as (Hw1 & Hz1 & Hc1). destruct (IH wb1 s2 q2 wb2 Hw1 ltac:(congruence) Hok' E2) as (Hw2 & Hz2 & Hc2).
  split; [exact Hw2|]. split; [congruence|]. rewrite <- app_assoc, Hc2, app_assoc, Hc1, app_assoc. reflexivity.
Qed.

(** After any history of a fresh connection's write ring: what the socket took, followed by
    what is still queued, is the sequence of the accepted commands. *)
Theorem c37_stream_preserved : forall size mem ops sent queued wb,
  1 <= size <= RMC_MAX_PACKET -> Forall wop_ok ops ->
  wrun (circ_buf_init size mem) ops = Ok (sent, queued, wb) ->
  sent ++ contents wb = queued.
Proof.
  intros size mem ops sent queued wb Hs Hok Hr. destruct (init_wf size mem) as (Hw & Hc & Hz). { unfold cb_max, RMC_MAX_PACKET in *; lia. }
  destruct (wrun_stream ops _ _ _ _ Hw ltac:(lia) Hok Hr) as (_ & _ & X). rewrite Hc in X. exact X.
Qed.
(** One call of the socket writer: never undefined, reports exactly the bytes left, takes a
    prefix of the queue; ENODATA iff the queue was empty. *)
Theorem c37_single_write : forall wb o, cb_wf wb -> cb_size wb <= RMC_MAX_PACKET ->
  (match o with WOk n => is_u32 n | WErr e => e <> ENODATA end) ->
  exists w, tcp_write wb o = Ok w /\ w_sent w ++ contents (w_buf w) = contents wb /\
    w_left w = zlen (contents (w_buf w)) /\ (w_code w = ENODATA <-> contents wb = []) /\
    (forall n, o = WOk n -> n <= zlen (contents wb) -> zlen (w_sent w) = n).
Proof.
  intros wb o Hw Hs Ho.
  destruct (tcp_write_spec wb o Hw Hs) as (w' & Ew & Hw1 & Hz1 & Hc1 & _). { destruct o; auto. }
  eexists. split; [exact Ew|]. cbn [w_sent w_buf w_left w_code]. split; [|split; [reflexivity|split]].
  - rewrite Hc1. destruct o; [reflexivity|apply ztake_zdrop].
  - destruct (contents wb); [split; reflexivity|]. split; [|discriminate]. destruct o; [intros ->; contradiction|discriminate].
  - intros n -> Hn. apply zlen_ztake. unfold is_u32 in Ho. lia.
Qed.
Example c37_nonvacuous :
  let ops := [OpAck 1 2; OpFlush (WOk 5); OpPacket hdr_ex [1;2;3]; OpFlush (WErr EAGAIN); OpFlush (WOk 20); OpAck 3 3] in
  Forall wop_ok ops /\
  match wrun (circ_buf_init 100 (fun _ => 0)) ops with
  | Ok (sent, queued, wb) => zlen sent = 25 /\ zlen (contents wb) = 33 /\
       queued = wire (CmdAck 1 2) ++ wire (CmdPacket hdr_ex [1;2;3]) ++ wire (CmdAck 3 3)
  | _ => False
  end.
Proof. split; [repeat constructor; vm_compute; intuition discriminate|]. vm_compute. auto. Qed.

(** * C40: resends *)
Theorem c40_resend_exact : forall wb h p, cb_wf wb ->
  (circ_buf_available wb < 21 + zlen p -> write_packet wb h p = Ok (EAGAIN, wb)) /\
  (21 + zlen p <= circ_buf_available wb -> cb_stop wb < cb_size wb ->
     exists wb', write_packet wb h p = Ok (0, wb') /\ cb_wf wb' /\
       contents wb' = contents wb ++ wire (CmdPacket h p)) /\
  (21 + zlen p <= circ_buf_available wb -> cb_stop wb = cb_size wb ->
     write_packet wb h p = UB OutOfBounds).
Proof.
  intros wb h p H. destruct (write_packet_spec wb h p H) as (A & B & C). split; [exact A|]. split; [|exact C].
  intros X Y. destruct (B X Y) as (w & E & Hw & _ & _ & Hc & _). eauto.
Qed.
(** C40 is false: on the library's ring, after a resend of 40000 bytes, a partial write and a
    resend that ends exactly at the end of the array, the next resend stores its command byte
    one past the array (whatever the packet). *)
Theorem c40_resend_refuted : forall h p mem, zlen p <= 1000 ->
  exists ops sent queued wb, Forall wop_ok ops /\
    wrun (circ_buf_init 65400 mem) ops = Ok (sent, queued, wb) /\
    cb_wf wb /\ 21 + zlen p <= circ_buf_available wb /\ write_packet wb h p = UB OutOfBounds.
Proof.
  intros h p mem Hp. destruct (init_wf 65400 mem) as (Hw & Hc & Hz). { unfold cb_max; lia. }
  assert (Za : zlen (repeat 0 (Z.to_nat 40000)) = 40000) by (unfold zlen; rewrite repeat_length; apply Z2Nat.id; discriminate).
  assert (Zb : zlen (repeat 0 (Z.to_nat 25358)) = 25358) by (unfold zlen; rewrite repeat_length; apply Z2Nat.id; discriminate).
  pose (pa := repeat 0 (Z.to_nat 40000)). pose (pb := repeat 0 (Z.to_nat 25358)). fold pa in Za. fold pb in Zb.
  assert (Wa : zlen (wire (CmdPacket hdr_ex pa)) = 40021) by (cbn [wire]; rewrite zlen_cons, zlen_app, enc_header_zlen, Za; reflexivity).
  clearbody pa. clearbody pb.
  destruct (write_packet_spec (circ_buf_init 65400 mem) hdr_ex pa Hw) as (_ & G & _).
  assert (Av : circ_buf_available (circ_buf_init 65400 mem) = 65399) by reflexivity.
  destruct G as (w1 & E1 & Hw1 & Hz1 & Hs1 & Hc1 & T1). { lia. } { vm_compute; reflexivity. }
  rewrite Hc in Hc1. cbn [app] in Hc1.
  change (cb_size (circ_buf_init 65400 mem)) with 65400 in *. change (cb_stop (circ_buf_init 65400 mem)) with 0 in *. change (cb_start (circ_buf_init 65400 mem)) with 0 in *.
  specialize (T1 ltac:(lia)).
  destruct (tcp_write_spec w1 (WOk 30000) Hw1) as (w2 & E2 & Hw2 & Hz2 & Hc2 & T2). { unfold RMC_MAX_PACKET; lia. } { unfold is_u32; lia. }
  destruct T2 as (T2 & S2). { rewrite Hc1. lia. }
  assert (L2 : zlen (contents w2) = 10021). { rewrite Hc2, zlen_zdrop; rewrite Hc1, Wa; lia. }
  assert (A2 : circ_buf_available w2 = 55378). { rewrite available_val, <- contents_len, L2 by exact Hw2. lia. }
  destruct (write_packet_spec w2 hdr_ex pb Hw2) as (_ & G2 & _).
  destruct G2 as (w3 & E3 & Hw3 & Hz3 & Hs3 & Hc3 & T3). { lia. } { lia. }
  specialize (T3 ltac:(lia)).
  assert (A3 : circ_buf_available w3 = 55378 - 25379).
  { rewrite available_val, <- contents_len, Hc3, zlen_app, L2 by exact Hw3. cbn [wire]. rewrite zlen_cons, zlen_app, enc_header_zlen, Zb. lia. }
  exists [OpPacket hdr_ex pa; OpFlush (WOk 30000); OpPacket hdr_ex pb].
  cbn [wrun]. rewrite E1. cbn [bind fst snd]. rewrite E2. cbn [bind fst snd w_sent w_buf]. rewrite E3. cbn [bind fst snd].
  do 3 eexists. split; [repeat constructor; unfold is_u32; lia|]. split; [reflexivity|]. split; [exact Hw3|]. split; [lia|].
  destruct (write_packet_spec w3 h p Hw3) as (_ & _ & U). apply U; [lia|]. lia.
Qed.

(** * C39: control messages *)

(** The sender: exactly these positions give the message's bytes. *)
Theorem c39_sender_exact : forall wb p ptr, cb_wf wb -> ptr <> 0 -> 0 < zlen p ->
  4 + zlen p <= circ_buf_available wb ->
  let size := cb_size wb in let stop := cb_stop wb in let l1 := size - stop - 3 in
  (stop < size /\ (stop + 3 + zlen p <= size \/ size < stop + 3) ->
     exists wb', write_ctrl wb p ptr = Ok (0, wb') /\ cb_wf wb' /\ contents wb' = contents wb ++ wire (CmdCtrl p)) /\
  (~ (stop < size /\ (stop + 3 + zlen p <= size \/ size < stop + 3)) ->
     write_ctrl wb p ptr = UB OutOfBounds \/
     exists wb', write_ctrl wb p ptr = Ok (0, wb') /\ zlen p <= 8 /\
       contents wb' = contents wb ++ 3 :: enc_ctrl (zlen p) ++ ztake l1 p ++ ztake (zlen p - l1) (zdrop l1 (le_bytes 8 ptr))).
Proof.
  intros wb p ptr H Hptr Hp Ha size stop l1. pose proof (cb_wf_stop wb H) as Hst. fold size stop in Hst.
  destruct (write_ctrl_spec wb p ptr H Hptr Hp) as (_ & G & B1 & B2 & U). fold size stop in G, B1, B2, U. split.
  - intros (A & B). destruct (G Ha A B) as (w & E & Hw & _ & Hc & _). eauto.
  - intros N. destruct (Z.eq_dec stop size) as [E|NE]; [left; apply U; assumption|].
    destruct (Z_le_gt_dec (zlen p) 8) as [L|L].
    + right. destruct (B1 Ha ltac:(lia) ltac:(lia) L) as (w & E & Hw & _ & Hc). exists w. auto.
    + left. apply B2; lia.
Qed.
(** Refusals leave the ring alone. *)
Theorem c39_sender_refuses : forall wb p ptr, cb_wf wb ->
  (ptr = 0 \/ zlen p = 0 -> write_ctrl wb p ptr = Ok (EINVAL, wb)) /\
  (ptr <> 0 -> 0 < zlen p -> circ_buf_available wb < 4 + zlen p -> write_ctrl wb p ptr = Ok (ENOMEM, wb)).
Proof.
  intros wb p ptr H. split.
  - intros A. unfold write_ctrl. replace ((ptr =? 0) || (zlen p =? 0)) with true by lia. reflexivity.
  - intros A B C. destruct (write_ctrl_spec wb p ptr H A B) as (F & _). apply F. exact C.
Qed.
(** The receiver: the callback gets the message iff its payload does not wrap within three
    bytes of the end of the array; otherwise its tail comes from the wrong place. *)
Theorem c39_receiver_exact : forall rb p rest, cb_wf rb -> is_u16 (zlen p) -> contents rb = wire (CmdCtrl p) ++ rest ->
  let sl := cb_size rb - (cb_start rb + 3) mod cb_size rb in
  exists p' rb', parse_ctrl true rb = Ok (inr (Some p', rb')) /\ cb_wf rb' /\ contents rb' = rest /\
    (3 <= sl \/ zlen p <= sl -> p' = p) /\
    (~ (3 <= sl \/ zlen p <= sl) -> zlen p' = zlen p /\ ztake sl p' = ztake sl p /\
       forall i, 0 <= i -> 3 + i < zlen p -> nth (Z.to_nat (sl + i)) p' 0 = nth (Z.to_nat (3 + i)) p 0).
Proof.
  intros rb p rest H Hl Hc sl. destruct (parse_ctrl_spec rb p rest H Hl Hc) as (p' & rb' & E & Hw & Hr & Hz & G & B).
  exists p', rb'. split; [exact E|]. split; [exact Hw|]. split; [exact Hr|]. split; [exact G|]. intros N. destruct (B N) as (_ & X & Y). auto.
Qed.
(** End to end, when neither side hits a bad position (partial: C39 claims it always). *)
Theorem c39_delivered_verbatim_partial :
  forall wb p ptr wb' before cmds size mem cs (delivered : list cmd),
  cb_wf wb -> ptr <> 0 -> 0 < zlen p -> is_u16 (zlen p) -> bytes_ok p -> 4 + zlen p <= circ_buf_available wb ->
  cb_stop wb < cb_size wb -> (cb_stop wb + 3 + zlen p <= cb_size wb \/ cb_size wb < cb_stop wb + 3) ->
  write_ctrl wb p ptr = Ok (0, wb') ->
  (* the stream: the commands before, then what the call queued *)
  parses for_pub before cmds [] -> 1 <= size <= cb_max -> benign for_pub true size 0 [] cs ->
  concat cs = before ++ zdrop (zlen (contents wb)) (contents wb') ->
  exists codes rb, feed log_pub delivered (circ_buf_init size mem) cs = Ok (codes, delivered ++ cmds ++ [CmdCtrl p], rb) /\ contents rb = [].
Proof.
  intros wb p ptr wb' before cmds size mem cs del H Hptr Hp Hl Hb Ha Hst Hpos Hwr Hbf Hs Hbn Hcat.
  destruct (write_ctrl_spec wb p ptr H Hptr Hp) as (_ & G & _). destruct (G Ha Hst Hpos) as (w & E & Hw & _ & Hc & _).
  rewrite Hwr in E. injection E as ->. rewrite Hc, zdrop_app_exact in Hcat by reflexivity.
  assert (Hp1 : parses for_pub (concat cs) (cmds ++ [CmdCtrl p]) []).
  { rewrite Hcat. apply (parses_app for_pub before cmds [] (wire (CmdCtrl p)) [CmdCtrl p] []); [exact Hbf|].
    split; [cbn [flat_map app]; rewrite !app_nil_r; reflexivity|]. split; [|apply (parses_nil for_pub)].
    constructor; [|constructor]. split; [split; assumption|exact Logic.I]. }
  assert (T : forall cmds st, Forall (fun c => cmd_ok c /\ for_pub c) cmds ->
     run_cmds (fun (st : list cmd) c => match c with
                        | CmdAck a b => Ok (st ++ [CmdAck (fst (a, b)) (snd (a, b))])
                        | CmdCtrl p => Ok (match (if true then Some p else None) with Some p => st ++ [CmdCtrl p] | None => st end)
                        | CmdPacket _ _ => Ok st end) st cmds = Ok (st ++ cmds)).
  { induction cmds0 as [|c l IH]; intros st F; cbn [run_cmds]; [rewrite app_nil_r; reflexivity|].
    inversion F as [|? ? (A & B) F']; subst. destruct c; [contradiction| |]; cbn [bind fst snd]; rewrite IH by exact F'; rewrite <- app_assoc; reflexivity. }
  destruct (c36_pub_benign_reads_parse_the_stream (list cmd) (fun st a => Ok (st ++ [CmdAck (fst a) (snd a)])) true
               (fun st p => Ok (match p with Some p => st ++ [CmdCtrl p] | None => st end)) size mem del cs _ _ _ Hs Hbn Hp1 (T _ del (proj1 (proj2 Hp1)))) as (codes & rb & F & _ & C).
  exists codes, rb. split; [exact F|exact C].
Qed.

(** C39 is false on the sender's side: a message of 5 bytes queued by a fresh subscriber after
    two other messages and a partial write has bytes of a pointer in place of its own. *)
Theorem c39_sender_refuted : forall mem ptr, ptr <> 0 ->
  exists ops sent queued wb wb', Forall wop_ok ops /\
    wrun (circ_buf_init 65400 mem) ops = Ok (sent, queued, wb) /\
    write_ctrl wb [1;2;3;4;5] ptr = Ok (0, wb') /\
    contents wb' = contents wb ++ [3; 5; 0; 1; 2] ++ ztake 3 (zdrop 2 (le_bytes 8 ptr)).
Proof.
  intros mem ptr Hptr. destruct (init_wf 65400 mem) as (Hw & Hc & Hz). { unfold cb_max; lia. }
  assert (Za : zlen (repeat 0 (Z.to_nat 40000)) = 40000) by (unfold zlen; rewrite repeat_length; apply Z2Nat.id; discriminate).
  assert (Zb : zlen (repeat 0 (Z.to_nat 25389)) = 25389) by (unfold zlen; rewrite repeat_length; apply Z2Nat.id; discriminate).
  pose (pa := repeat 0 (Z.to_nat 40000)). pose (pb := repeat 0 (Z.to_nat 25389)). fold pa in Za. fold pb in Zb. clearbody pa. clearbody pb.
  assert (Wa : zlen (wire (CmdCtrl pa)) = 40003) by (cbn [wire]; rewrite zlen_cons, zlen_app, enc_ctrl_zlen, Za; reflexivity).
  destruct (write_ctrl_spec (circ_buf_init 65400 mem) pa ptr Hw Hptr ltac:(lia)) as (_ & G & _).
  assert (Av : circ_buf_available (circ_buf_init 65400 mem) = 65399) by reflexivity.
  change (cb_size (circ_buf_init 65400 mem)) with 65400 in *. change (cb_stop (circ_buf_init 65400 mem)) with 0 in *. cbv zeta in G.
  destruct G as (w1 & E1 & Hw1 & Hz1 & Hc1 & T1); [lia|lia|lia|]. rewrite Hc in Hc1. cbn [app] in Hc1. specialize (T1 ltac:(lia)).
  destruct (tcp_write_spec w1 (WOk 30000) Hw1) as (w2 & E2 & Hw2 & Hz2 & Hc2 & T2). { unfold RMC_MAX_PACKET; lia. } { unfold is_u32; lia. }
  destruct T2 as (T2 & S2). { rewrite Hc1. lia. }
  assert (L2 : zlen (contents w2) = 10003). { rewrite Hc2, zlen_zdrop; rewrite Hc1, Wa; lia. }
  assert (A2 : circ_buf_available w2 = 55396). { rewrite available_val, <- contents_len, L2 by exact Hw2. lia. }
  destruct (write_ctrl_spec w2 pb ptr Hw2 Hptr ltac:(lia)) as (_ & G2 & _). cbv zeta in G2.
  destruct G2 as (w3 & E3 & Hw3 & Hz3 & Hc3 & T3); [lia|lia|lia|]. specialize (T3 ltac:(lia)).
  assert (A3 : circ_buf_available w3 = 55396 - 25392).
  { rewrite available_val, <- contents_len, Hc3, zlen_app, L2 by exact Hw3. cbn [wire]. rewrite zlen_cons, zlen_app, enc_ctrl_zlen, Zb. lia. }
  destruct (write_ctrl_spec w3 [1;2;3;4;5] ptr Hw3 Hptr ltac:(vm_compute; reflexivity)) as (_ & _ & B1 & _). cbv zeta in B1.
  change (zlen [1;2;3;4;5]) with 5 in B1.
  destruct B1 as (w4 & E4 & Hw4 & Hz4 & Hc4); [lia|lia|lia|lia|].
  exists [OpCtrl pa ptr; OpFlush (WOk 30000); OpCtrl pb ptr].
  cbn [wrun]. rewrite E1. cbn [bind fst snd]. rewrite E2. cbn [bind fst snd w_sent w_buf]. rewrite E3. cbn [bind fst snd].
  do 4 eexists. split; [repeat constructor; unfold is_u32; lia|]. split; [reflexivity|]. split; [exact E4|].
  rewrite Hc4. replace (cb_size w3 - cb_stop w3 - 3) with 2 by lia. reflexivity.
Qed.
(** C39 is false on the receiver's side as well: a first message of 65392 bytes and the first
    byte of the next command are received, then the rest of a control message 1,2,3,4,5. *)
Theorem c39_receiver_refuted : forall mem,
  exists rb codes p' st, feed log_pub [] (circ_buf_init 65400 mem) [wire (CmdCtrl (repeat 0 (Z.to_nat 65392))) ++ [3]] = Ok (codes, st, rb) /\
    contents rb = [3] /\
    exists rb2, tcp_fill rb (RData [5; 0; 1; 2; 3; 4; 5]) = Ok (0, RMC_READ_TCP, rb2) /\ contents rb2 = wire (CmdCtrl [1;2;3;4;5]) /\
    exists rb3, parse_ctrl true rb2 = Ok (inr (Some p', rb3)) /\ nth 2 p' 0 = 4 /\ p' <> [1;2;3;4;5].
Proof.
  intros mem. destruct (init_wf 65400 mem) as (Hw & Hc & Hz). { unfold cb_max; lia. }
  assert (Za : zlen (repeat 0 (Z.to_nat 65392)) = 65392) by (unfold zlen; rewrite repeat_length; apply Z2Nat.id; discriminate).
  assert (Ba : bytes_ok (repeat 0 (Z.to_nat 65392))). { apply Forall_forall. intros x Hx. apply repeat_spec in Hx. subst x. unfold is_u8; lia. }
  set (pa := repeat 0 (Z.to_nat 65392)) in *. clearbody pa.
  assert (Wa : zlen (wire (CmdCtrl pa)) = 65395) by (cbn [wire]; rewrite zlen_cons, zlen_app, enc_ctrl_zlen, Za; reflexivity).
  assert (Bw : bytes_ok (wire (CmdCtrl pa) ++ [3])).
  { apply Forall_app. split; [|repeat constructor; unfold is_u8; lia]. cbn [wire]. constructor; [unfold is_u8; lia|]. apply Forall_app. split; [apply le_bytes_ok|exact Ba]. }
  assert (Hp : parses for_pub (contents (circ_buf_init 65400 mem) ++ wire (CmdCtrl pa) ++ [3]) [CmdCtrl pa] [3]).
  { rewrite Hc. split; [cbn [flat_map]; rewrite app_nil_r; reflexivity|]. split.
    - constructor; [|constructor]. split; [split; [unfold is_u16; lia|exact Ba]|exact Logic.I].
    - intros c rest A B E. pose proof (pub_next_complete c rest A B) as X. rewrite <- E in X. vm_compute in X. discriminate. }
  pose (eff := fun (st : list cmd) c => match c with
                        | CmdAck a b => Ok (st ++ [CmdAck a b])
                        | CmdCtrl p => Ok (st ++ [CmdCtrl p])
                        | CmdPacket _ _ => Ok st end).
  destruct (tcp_read_spec log_pub (pub_eff (fun st a => Ok (st ++ [CmdAck (fst a) (snd a)])) true
               (fun st p => Ok (match p with Some p => st ++ [CmdCtrl p] | None => st end))) for_pub pub_next true pub_next_sound pub_next_complete
               (pub_handler_cmd _ true _) (pub_handler_more _ true _) (pub_handler_bad _ true _)
               [] (circ_buf_init 65400 mem) (wire (CmdCtrl pa) ++ [3]) [CmdCtrl pa] [3] [CmdCtrl pa]) as (rb & Et & Hw1 & Hz1 & Hc1 & Hs1); auto.
  { rewrite Hc. constructor. } { destruct (wire (CmdCtrl pa)); discriminate. }
  { rewrite Hc, zlen_app, Wa. vm_compute. discriminate. }
  { rewrite Hc, zlen_app, Wa. left. vm_compute. discriminate. }
  { intros _. apply ctrls_ok_low; [vm_compute; discriminate|]. cbn [flat_map]. rewrite app_nil_r, Wa. vm_compute. discriminate. }
  cbn [flat_map] in Hs1. rewrite app_nil_r, Wa in Hs1. change (next_pos (cb_size (circ_buf_init 65400 mem)) (cb_start (circ_buf_init 65400 mem)) 65395 [3]) with 65395 in Hs1.
  change (cb_size (circ_buf_init 65400 mem)) with 65400 in Hz1.
  assert (Iu : circ_buf_in_use rb = 1) by (rewrite <- contents_len, Hc1 by exact Hw1; reflexivity).
  destruct (fill_spec rb [5;0;1;2;3;4;5] Hw1) as (rb2 & Ef & Hz2 & Hs2 & Hg & _). { vm_compute; reflexivity. } { rewrite available_val, Iu, Hz1 by exact Hw1. vm_compute; discriminate. }
  destruct Hg as (Hw2 & Hc2). { rewrite Hz1, Hs1, Iu. right. vm_compute. discriminate. }
  rewrite Hc1 in Hc2.
  destruct (parse_ctrl_spec rb2 [1;2;3;4;5] [] Hw2) as (p' & rb3 & Ep & _ & _ & Hzl & _ & Hbad). { vm_compute; intuition discriminate. } { rewrite Hc2. reflexivity. }
  rewrite Hz2, Hz1, Hs2, Hs1 in Hbad.
  destruct Hbad as (_ & _ & Hn). { vm_compute. intros [A|A]; apply A; reflexivity. }
  specialize (Hn 0 ltac:(lia) ltac:(vm_compute; reflexivity)). change (nth 2 p' 0 = 4) in Hn.
  exists rb. do 3 eexists. split. { cbn [feed]. rewrite Et. cbn [bind r_st r_buf r_code fst snd]. reflexivity. }
  split; [exact Hc1|]. exists rb2. split; [exact Ef|]. split; [exact Hc2|]. exists rb3. split; [exact Ep|]. split; [exact Hn|].
  intros ->. discriminate Hn.
Qed.
Example c39_nonvacuous :
  let wb := circ_buf_init 65400 (fun _ => 0) in
  cb_wf wb /\ 4 + zlen [1;2;3] <= circ_buf_available wb /\ cb_stop wb + 3 + zlen [1;2;3] <= cb_size wb /\
  benign for_pub true 65400 0 [] [[3; 3]; [0; 1; 2; 3]].
Proof.
  cbv zeta. split; [apply init_wf; unfold cb_max; lia|]. split; [vm_compute; discriminate|]. split; [vm_compute; discriminate|].
  apply c36_unstraddled_reads_are_benign; [lia|].
  apply un_cons with (cmds := []) (r := [3; 3]); [discriminate|repeat constructor; discriminate|vm_compute; discriminate| |auto|].
  { split; [reflexivity|]. split; [constructor|]. intros c rest A B E. pose proof (pub_next_complete c rest A B) as X. rewrite <- E in X. vm_compute in X. discriminate. }
  apply un_cons with (cmds := [CmdCtrl [1;2;3]]) (r := []); [discriminate|repeat constructor; discriminate|vm_compute; discriminate| |auto|constructor].
  split; [reflexivity|]. split; [|apply (parses_nil for_pub)]. constructor; [|constructor]. split; [|exact Logic.I].
  split; [vm_compute; intuition discriminate|repeat constructor; discriminate].
Qed.

Print Assumptions c36_pub_benign_reads_parse_the_stream.
Print Assumptions c36_segmentation_refuted.
Print Assumptions c37_stream_preserved.
Print Assumptions c39_receiver_refuted.
Print Assumptions c40_resend_refuted.
