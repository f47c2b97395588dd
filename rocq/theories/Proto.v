(** Proto.v — model of the TCP control channel: rmc_protocol.c, the command writers of
    rmc_pub_write.c and rmc_sub_write.c, and the command parsers of rmc_pub_read.c and
    rmc_sub_read.c, all on the connection's rings.

    System calls are arguments of the model ([wres], [rres]).  A store through a segment
    pointer that lies outside the ring's array is [UB OutOfBounds].  Polling callbacks and
    the effect of the commands on the contexts are in PubCtx.v and SubCtx.v. *)
From Verif Require Import Base CircBuf Wire.

(** reliable_multicast.h:398-432, operation results. *)
Definition RMC_ERROR : Z := 0.
(** reliable_multicast.h:401. *)
Definition RMC_READ_MULTICAST : Z := 1.
(** reliable_multicast.h:413. *)
Definition RMC_READ_MULTICAST_NOT_READY : Z := 4.
(** reliable_multicast.h:416. *)
Definition RMC_READ_TCP : Z := 5.
(** reliable_multicast.h:419. *)
Definition RMC_READ_ACCEPT : Z := 6.
(** reliable_multicast.h:422. *)
Definition RMC_READ_DISCONNECT : Z := 7.
(** reliable_multicast.h:425. *)
Definition RMC_WRITE_MULTICAST : Z := 8.
(** reliable_multicast.h:429. *)
Definition RMC_COMPLETE_CONNECTION : Z := 9.
(** reliable_multicast.h:432. *)
Definition RMC_WRITE_TCP : Z := 10.

(** Result of writev(): -1 with errno, or the number of bytes taken. *)
(** writev() in rmc_protocol.c:50. *)
Inductive wres := WErr (e : Z) | WOk (n : Z).

(** What rmc_conn_process_tcp_write did: return code, *bytes_left, bytes handed to the
    socket, and the ring afterwards. *)
(** The results of rmc_protocol.c:19-73. *)
Record wout := mkW { w_code : Z; w_left : Z; w_sent : list Z; w_buf : cbuf }.

(** rmc_protocol.c:19-73, rmc_conn_process_tcp_write. *)
Definition tcp_write (wb : cbuf) (o : wres) : res wout :=
  let s := circ_buf_read_segment wb RMC_MAX_PACKET in                   (* 32-35 *)
  if seg1_len s =? 0 then Ok (mkW ENODATA 0 [] wb)                      (* 37-40 *)
  else
    do data <- segs_load wb s;                                          (* 44-50 *)
    match o with
    | WErr e => Ok (mkW e (circ_buf_in_use wb) [] wb)                   (* 53-57 *)
    | WOk n =>
        if n =? 0 then Ok (mkW 0 (circ_buf_in_use wb) [] wb)            (* 59-63 *)
        else do r <- circ_buf_free wb n;                                (* 69 *)
             Ok (mkW 0 (snd r) (ztake n data) (fst r))
    end.

(** circ_buf_alloc(1) followed by [*seg1 = cmd] (rmc_pub_write.c:165-175,
    rmc_sub_write.c:79-95 and 170-181).  The error of circ_buf_alloc, exit(255) resp.
    ENOMEM, cannot occur after the check of the available space that precedes it; it is
    [Abort] here. *)
Definition put_cmd (wb : cbuf) (cmd : Z) : res cbuf :=
  match circ_buf_alloc wb 1 with
  | inl _ => Abort
  | inr (wb1, s) => seg_store wb1 (seg1 s) [cmd]
  end.
(** circ_buf_alloc(|bs|) followed by the two memcpy (rmc_pub_write.c:180-209,
    rmc_sub_write.c:98-118 and 184-199). *)
Definition put_bytes (wb : cbuf) (bs : list Z) : res cbuf :=
  match circ_buf_alloc wb (zlen bs) with
  | inl _ => Abort
  | inr (wb1, s) => segs_store wb1 s bs
  end.

(** rmc_pub_write.c:142-214, rmc_pub_resend_packet, the effect on the ring; [payload] is
    the content of pack->payload. *)
Definition write_packet (wb : cbuf) (h : header) (payload : list Z) : res (Z * cbuf) :=
  if circ_buf_available wb <? 1 + header_size + zlen payload then Ok (EAGAIN, wb)   (* 154-162 *)
  else do wb1 <- put_cmd wb RMC_CMD_PACKET;                                         (* 165-175 *)
       do wb2 <- put_bytes wb1 (enc_header h);                                      (* 177-193 *)
       do wb3 <- put_bytes wb2 payload;                                             (* 196-209 *)
       Ok (0, wb3).

(** rmc_sub_write.c:27-132, rmc_sub_write_interval_acknowledgement on a connected
    connection. *)
Definition write_ack (wb : cbuf) (first last : Z) : res (Z * cbuf) :=
  if circ_buf_available wb <? 1 + ack_size then Ok (ENOMEM, wb)                     (* 66-76 *)
  else do wb1 <- put_cmd wb RMC_CMD_ACK_INTERVAL;                                   (* 79-95 *)
       do wb2 <- put_bytes wb1 (enc_ack first last);                                (* 98-118 *)
       Ok (0, wb2).

(** rmc_sub_write.c:202-216, the payload part of rmc_sub_write_control_message.  The second
    memcpy reads from [&payload] (the local pointer variable, 8 bytes) instead of [payload]:
    out of bounds when the payload is longer than a pointer, else the bytes of the pointer
    value [ptr]. *)
Definition put_ctrl_payload (wb : cbuf) (payload : list Z) (ptr : Z) : res cbuf :=
  match circ_buf_alloc wb (zlen payload) with
  | inl _ => Abort
  | inr (wb1, s) =>
      do wb2 <- seg_store wb1 (seg1 s) (ztake (seg1_len s) payload);                (* 213 *)
      if seg2_len s =? 0 then Ok wb2
      else if seg1_len s + seg2_len s <=? 8                                         (* 215-216 *)
           then seg_store wb2 (seg2 s) (ztake (seg2_len s) (zdrop (seg1_len s) (le_bytes 8 ptr)))
           else UB OutOfBounds
  end.
(** rmc_sub_write.c:135-230, rmc_sub_write_control_message on a connected connection. *)
Definition write_ctrl (wb : cbuf) (payload : list Z) (ptr : Z) : res (Z * cbuf) :=
  if (ptr =? 0) || (zlen payload =? 0) then Ok (EINVAL, wb)                         (* 151-152 *)
  else if circ_buf_available wb <? 1 + ctrl_size + zlen payload + 1 then Ok (ENOMEM, wb)  (* 162-165 *)
  else do wb1 <- put_cmd wb RMC_CMD_CONTROL_MESSAGE;                                (* 170-181 *)
       do wb2 <- put_bytes wb1 (enc_ctrl (zlen payload));                           (* 184-199 *)
       do wb3 <- put_ctrl_payload wb2 payload ptr;                                  (* 202-216 *)
       Ok (0, wb3).

(** circ_buf_read_offset into a struct or array of [n] bytes: reading fewer bytes would leave
    the rest uninitialised. *)
(** The reads of rmc_pub_read.c:31, 51 and rmc_sub_read.c:273-283. *)
Definition read_exact (rb : cbuf) (off n : Z) : res (list Z) :=
  do r <- circ_buf_read_offset rb off n;
  if zlen (snd r) =? n then Ok (snd r) else UB UninitRead.

(** rmc_pub_read.c:21-35, the parsing part of process_cmd_ack_interval: EAGAIN, or the
    interval and the ring after the command. *)
Definition parse_ack (rb : cbuf) : res (Z + (Z * Z) * cbuf) :=
  if circ_buf_in_use rb <? ack_size + 1 then Ok (inl EAGAIN)                        (* 27-28 *)
  else do d <- read_exact rb 1 ack_size;                                            (* 32 *)
       do r <- circ_buf_free rb (ack_size + 1);                                     (* 33 *)
       Ok (inr (dec_ack d, fst r)).

(** rmc_pub_read.c:46-84, process_control_message: EAGAIN, or the payload handed to the
    callback (if one is set) and the ring after the command. *)
Definition parse_ctrl (has_cb : bool) (rb : cbuf) : res (Z + option (list Z) * cbuf) :=
  if circ_buf_in_use rb <? ctrl_size + 1 then Ok (inl EAGAIN)                       (* 52-53 *)
  else do d <- read_exact rb 1 ctrl_size;                                           (* 56 *)
       let len := dec_ctrl d in
       if circ_buf_in_use rb <? ctrl_size + 1 + len then Ok (inl EAGAIN)            (* 59-60 *)
       else do p <- (if has_cb then do p <- read_exact rb (1 + ctrl_size) len; Ok (Some p)
                     else Ok None);                                                 (* 67-78 *)
            do r <- circ_buf_free rb (ctrl_size + 1 + len);                         (* 81 *)
            Ok (inr (p, fst r)).

(** rmc_sub_read.c:251-315, the parsing part of process_cmd_packet: EAGAIN, or the header,
    the payload (not read for a duplicate) and the ring after the command. *)
Definition parse_packet (dup : Z -> bool) (rb : cbuf) : res (Z + (header * option (list Z)) * cbuf) :=
  if circ_buf_in_use rb <? 1 + header_size then Ok (inl EAGAIN)                     (* 263-270 *)
  else do d <- read_exact rb 1 header_size;                                         (* 273 *)
       let h := dec_header d in
       if circ_buf_in_use rb <? 1 + header_size + h_len h then Ok (inl EAGAIN)      (* 277-284 *)
       else do r <- circ_buf_free rb (1 + header_size);                             (* 288 *)
            if dup (h_pid h) then                                                   (* 291-298 *)
              do r2 <- circ_buf_free (fst r) (h_len h);
              Ok (inr ((h, None), fst r2))
            else
              do p <- read_exact (fst r) 0 (h_len h);                               (* 314 *)
              do r2 <- circ_buf_free (fst r) (h_len h);                             (* 315 *)
              Ok (inr ((h, Some p), fst r2)).

(** Result of readv(): -1, 0 (end of stream), or bytes. *)
(** readv() in rmc_protocol.c:216. *)
Inductive rres := RErr | RData (bs : list Z).

(** rmc_protocol.c:183-238, the part of rmc_conn_tcp_read before the commands are
    processed: return code (0 = go on), *op_res and ring. *)
Definition tcp_fill (rb : cbuf) (o : rres) : res (Z * Z * cbuf) :=
  let available := circ_buf_available rb in                                         (* 183 *)
  let orig := circ_buf_in_use rb in                                                 (* 184 *)
  if available =? 0 then Ok (ENOMEM, RMC_ERROR, rb)                                 (* 188-191 *)
  else match circ_buf_alloc rb available with                                       (* 196-199 *)
       | inl e => Ok (e, RMC_ERROR, rb)                                             (* 203-206 *)
       | inr (rb1, s) =>
           match o with
           | RErr | RData [] =>
               do rb2 <- circ_buf_trim rb1 available;                               (* 225-231 *)
               Ok (EPIPE, RMC_READ_DISCONNECT, rb2)
           | RData bs =>
               do rb2 <- segs_store rb1 s (ztake available bs);                     (* 216 *)
               do rb3 <- circ_buf_trim rb2 (zlen (ztake available bs) + orig);      (* 238 *)
               Ok (0, RMC_READ_TCP, rb3)
           end
       end.

(** A loop that ends after at most [p] rounds, computable for large [p]. *)
(** The loop of rmc_protocol.c:82-165. *)
Fixpoint iterate {S R : Type} (p : positive) (f : S -> S + R) (s : S) : S + R :=
  match p with
  | xH => f s
  | xO q => match iterate q f s with inl s' => iterate q f s' | inr r => inr r end
  | xI q => match f s with
            | inl s1 => match iterate q f s1 with inl s' => iterate q f s' | inr r => inr r end
            | inr r => inr r
            end
  end.

Section ProcessTcpRead.
(** State of the context the handlers work on. *)
Context {St : Type}.
(** The dispatch table: NULL-terminated array of handlers, each returning a code. *)
Variable dispatch : Z -> option (St -> cbuf -> res (Z * St * cbuf)).

(** Result of rmc_conn_process_tcp_read: return code, *op_res, context state and ring. *)
(** The results of rmc_protocol.c:82-165. *)
Record rout_ := mkR { r_code : Z; r_op : Z; r_st : St; r_buf : cbuf }.

(** rmc_protocol.c:96 and 158: read the command byte.  On an empty ring nothing is stored
    and [command] keeps its value [prev]. *)
Definition read_cmd (rb : cbuf) (prev : Z) : res (Z * Z) :=
  do r <- circ_buf_read rb 1;
  Ok (fst r, match snd r with b :: _ => b | [] => prev end).

(** One round of the loop rmc_protocol.c:105-163, starting with the command byte at the
    front of the ring. *)
Definition read_round (x : St * cbuf * Z) : (St * cbuf * Z) + res rout_ :=
  let '(st, rb, prev) := x in
  match read_cmd rb prev with
  | Ok (e, cmd) =>
      if negb (e =? 0) then inr (Ok (mkR e RMC_ERROR st rb))                        (* 98-102, 159-163 *)
      else match dispatch cmd with
           | None => inr (Ok (mkR EPROTO RMC_ERROR st rb))                          (* 142-146 *)
           | Some h =>
               match h st rb with
               | Ok (code, st', rb') =>
                   if negb (code =? 0)
                   then inr (Ok (mkR code (if code =? EAGAIN then RMC_READ_TCP else RMC_ERROR) st' rb'))  (* 126-137 *)
                   else if circ_buf_in_use rb' =? 0 then inr (Ok (mkR 0 RMC_READ_TCP st' rb'))  (* 149-154 *)
                   else inl (st', rb', cmd)
               | UB u => inr (UB u)
               | Abort => inr Abort
               | Hang => inr Hang
               end
           end
  | UB u => inr (UB u)
  | Abort => inr Abort
  | Hang => inr Hang
  end.
(** rmc_protocol.c:82-167, rmc_conn_process_tcp_read.  Every handler that succeeds removes
    its command from the ring, so 2^32 rounds are never exhausted. *)
Definition process_tcp_read (st : St) (rb : cbuf) : res rout_ :=
  match iterate 4294967296%positive read_round (st, rb, 0) with
  | inl _ => Hang
  | inr r => r
  end.

(** rmc_protocol.c:170-243, rmc_conn_tcp_read. *)
Definition tcp_read (st : St) (rb : cbuf) (o : rres) : res rout_ :=
  do f <- tcp_fill rb o;
  let '(code, op, rb1) := f in
  if code =? 0 then process_tcp_read st rb1                                         (* 239 *)
  else Ok (mkR code op st rb1).
End ProcessTcpRead.
Arguments mkR {St}.
Arguments r_code {St}.
Arguments r_op {St}.
Arguments r_st {St}.
Arguments r_buf {St}.

Section Dispatch.
Context {St : Type}.

(** rmc_pub_read.c:127-131, the publisher's dispatch table, with process_cmd_ack_interval
    (21-43) and process_control_message (46-84).  [eff_ack] is the loop 39-40 over the
    interval, [eff_ctrl] the call of the callback 73-77.  Simplification: the callback gets
    its arguments, it does not call back into the library. *)
Definition pub_dispatch (eff_ack : St -> Z * Z -> res St) (has_cb : bool)
    (eff_ctrl : St -> option (list Z) -> res St)
    (cmd : Z) : option (St -> cbuf -> res (Z * St * cbuf)) :=
  if cmd =? RMC_CMD_ACK_INTERVAL then
    Some (fun st rb => do r <- parse_ack rb;
                       match r with
                       | inl e => Ok (e, st, rb)
                       | inr (a, rb') => do st' <- eff_ack st a; Ok (0, st', rb')
                       end)
  else if cmd =? RMC_CMD_CONTROL_MESSAGE then
    Some (fun st rb => do r <- parse_ctrl has_cb rb;
                       match r with
                       | inl e => Ok (e, st, rb)
                       | inr (p, rb') => do st' <- eff_ctrl st p; Ok (0, st', rb')
                       end)
  else None.

(** rmc_sub_read.c:372-375, the subscriber's dispatch table, with process_cmd_packet
    (251-348).  [eff] is the part 318-345 after the payload was copied. *)
Definition sub_dispatch (dup : St -> Z -> bool) (eff : St -> header * list Z -> res St)
    (cmd : Z) : option (St -> cbuf -> res (Z * St * cbuf)) :=
  if cmd =? RMC_CMD_PACKET then
    Some (fun st rb => do r <- parse_packet (dup st) rb;
                       match r with
                       | inl e => Ok (e, st, rb)
                       | inr ((h, None), rb') => Ok (0, st, rb')
                       | inr ((h, Some p), rb') => do st' <- eff st (h, p); Ok (0, st', rb')
                       end)
  else None.
End Dispatch.
