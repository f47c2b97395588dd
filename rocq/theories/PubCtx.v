(** PubCtx.v — model of the publisher context: rmc_pub_context.c, rmc_pub_packet.c,
    rmc_pub_timeout.c, rmc_pub_read.c and rmc_pub_write.c, on top of pub.c (Pub.v), the
    connection table (Conn.v) and the TCP control channel (Proto.v).

    ctx->subscribers[i] is the subscriber named [Z.to_nat i] of Pub.v, and its user data is
    the connection at index i (rmc_pub_read.c:154), so conn->connection_index = i.
    System calls, the clock and the answers of the callbacks are arguments of the model.  What
    the library does to the outside world is a list of events, oldest first.
    Payload memory is explicit: [x_mem] maps the address of each valid buffer to its bytes.
    Reading a buffer that is not valid, and releasing one twice, is [UB UseAfterFree].
    Simplifications: the ctx pointer and the result pointers are not NULL; callbacks of the
    application other than the ones whose answer matters do not call back into the library;
    the clock is an unbounded integer; logging is left out. *)
From Verif Require Import Base CircBuf Wire ListHeap SeqList Pub Proto Conn.

(** A function pointer of the context: never written, NULL, or set. *)
(** The pointer subscriber_control_message_cb, rmc_internal.h:234; rmc_pub_context.c:26-152 does not set it. *)
Inductive fptr := FpUninit | FpNull | FpSet.

(** reliable_multicast.h / rmc_internal.h:142-234, rmc_pub_context_t. *)
Record pctx := mkX {
  x_pub : pub;                      (* pub_ctx and subscribers[] *)
  x_vec : cvec;                     (* conn_vec *)
  x_mem : Z -> option (list Z);     (* payload buffers that are valid memory *)
  x_susp : bool;                    (* traffic_suspended *)
  x_sthr : Z; x_rthr : Z;           (* traffic_suspend_threshold, traffic_resume_threshold *)
  x_mcast : Z; x_listen : Z;        (* mcast_send_descriptor, listen_descriptor *)
  x_aint : Z; x_anext : Z;          (* announce_send_interval, announce_next_send_ts *)
  x_ccb : fptr;                     (* subscriber_control_message_cb *)
  x_resend : Z;                     (* resend_timeout *)
  x_node : Z; x_lip : Z; x_lport : Z  (* node_id, control_listen_if_addr, control_listen_port *)
}.

(** An update of ctx->pub_ctx or ctx->subscribers, rmc_internal.h:142, 154. *)
Definition set_pub (x : pctx) (s : pub) : pctx :=
  mkX s (x_vec x) (x_mem x) (x_susp x) (x_sthr x) (x_rthr x) (x_mcast x) (x_listen x) (x_aint x) (x_anext x)
      (x_ccb x) (x_resend x) (x_node x) (x_lip x) (x_lport x).
(** An update of ctx->conn_vec, rmc_internal.h:144. *)
Definition set_vec (x : pctx) (v : cvec) : pctx :=
  mkX (x_pub x) v (x_mem x) (x_susp x) (x_sthr x) (x_rthr x) (x_mcast x) (x_listen x) (x_aint x) (x_anext x)
      (x_ccb x) (x_resend x) (x_node x) (x_lip x) (x_lport x).
(** A change of the application's memory (rmc_pub.h:21-38 points to it). *)
Definition set_mem (x : pctx) (m : Z -> option (list Z)) : pctx :=
  mkX (x_pub x) (x_vec x) m (x_susp x) (x_sthr x) (x_rthr x) (x_mcast x) (x_listen x) (x_aint x) (x_anext x)
      (x_ccb x) (x_resend x) (x_node x) (x_lip x) (x_lport x).
(** ctx->traffic_suspended = b, rmc_internal.h:202. *)
Definition set_susp (x : pctx) (b : bool) : pctx :=
  mkX (x_pub x) (x_vec x) (x_mem x) b (x_sthr x) (x_rthr x) (x_mcast x) (x_listen x) (x_aint x) (x_anext x)
      (x_ccb x) (x_resend x) (x_node x) (x_lip x) (x_lport x).
(** ctx->traffic_suspend_threshold, traffic_resume_threshold, rmc_internal.h:196-197. *)
Definition set_thr (x : pctx) (s r : Z) : pctx :=
  mkX (x_pub x) (x_vec x) (x_mem x) (x_susp x) s r (x_mcast x) (x_listen x) (x_aint x) (x_anext x)
      (x_ccb x) (x_resend x) (x_node x) (x_lip x) (x_lport x).
(** ctx->mcast_send_descriptor, listen_descriptor, rmc_internal.h:168-169. *)
Definition set_descs (x : pctx) (m l : Z) : pctx :=
  mkX (x_pub x) (x_vec x) (x_mem x) (x_susp x) (x_sthr x) (x_rthr x) m l (x_aint x) (x_anext x)
      (x_ccb x) (x_resend x) (x_node x) (x_lip x) (x_lport x).
(** ctx->announce_send_interval, announce_next_send_ts, rmc_internal.h:185-188. *)
Definition set_ann (x : pctx) (i n : Z) : pctx :=
  mkX (x_pub x) (x_vec x) (x_mem x) (x_susp x) (x_sthr x) (x_rthr x) (x_mcast x) (x_listen x) i n
      (x_ccb x) (x_resend x) (x_node x) (x_lip x) (x_lport x).
(** ctx->subscriber_control_message_cb, rmc_internal.h:234. *)
Definition set_ccb (x : pctx) (f : fptr) : pctx :=
  mkX (x_pub x) (x_vec x) (x_mem x) (x_susp x) (x_sthr x) (x_rthr x) (x_mcast x) (x_listen x) (x_aint x) (x_anext x)
      f (x_resend x) (x_node x) (x_lip x) (x_lport x).
(** ctx->control_listen_port, rmc_internal.h:166. *)
Definition set_lport (x : pctx) (p : Z) : pctx :=
  mkX (x_pub x) (x_vec x) (x_mem x) (x_susp x) (x_sthr x) (x_rthr x) (x_mcast x) (x_listen x) (x_aint x) (x_anext x)
      (x_ccb x) (x_resend x) (x_node x) (x_lip x) p.

(** Effects of the library: descriptors and polling (Conn.v), a call of payload_free, a
    datagram handed to sendmsg() at a time, bytes handed to the socket of connection [i], and calls of
    the application's callbacks. *)
(** The callbacks of rmc_internal.h:212-246 and the system calls of rmc_pub_write.c, rmc_pub_read.c and rmc_pub_context.c:155-305. *)
Inductive pev :=
| PvConn (e : cev)
| PvFree (ptr len : Z)
| PvCast (ts : Z) (dgram : list Z)      (* at time [ts] *)
| PvTcp (i : Z) (bs : list Z)
| PvJoin (addr port : Z)               (* subscriber_connect_cb *)
| PvLeave (addr port : Z)              (* subscriber_disconnect_cb *)
| PvCtrl (addr port node : Z) (bs : list Z)    (* subscriber_control_message_cb *)
| PvAck (i first last : Z).            (* an ack interval was received on connection [i] *)

(** A store to one address of the application's memory (no counterpart in /repo). *)
Definition updz {X} (f : Z -> X) (a : Z) (x : X) : Z -> X := fun b => if b =? a then x else f b.

(** [len] bytes of payload memory at [ptr].  Nothing is read when [len] is 0. *)
(** A load of the payload, rmc_pub_write.c:72-76, 190-215. *)
Definition load (m : Z -> option (list Z)) (ptr len : Z) : res (list Z) :=
  if len =? 0 then Ok []
  else match m ptr with
       | None => UB UseAfterFree
       | Some bs => if len <=? zlen bs then Ok (ztake len bs) else UB OutOfBounds
       end.
(** The payload_free callback resp. free(): the buffer must be valid, and then is not.
    rmc_pub_packet.c:90-93 and 100, rmc_pub_read.c:85-88 and 115. *)
Fixpoint release_all (m : Z -> option (list Z)) (fr : list freed) : res ((Z -> option (list Z)) * list pev) :=
  match fr with
  | [] => Ok (m, [])
  | (ptr, len, _) :: rest =>
      match m ptr with
      | None => UB UseAfterFree
      | Some _ => do r <- release_all (updz m ptr None) rest;
                  Ok (fst r, PvFree ptr len :: snd r)
      end
  end.

(** rmc_internal.h:34, RMC_DEFAULT_PACKET_TIMEOUT. *)
Definition RMC_DEFAULT_PACKET_TIMEOUT : Z := 100000.

(** rmc_pub_context.c:26-152, rmc_pub_init_context with valid addresses; [buf] is what the
    memory for the connections holds, [m] the application's memory.
    subscriber_control_message_cb is not written. *)
Definition rmc_pub_init_context (node lip lport : Z) (buf : list conn) (m : Z -> option (list Z)) : pctx :=
  mkX pub_init (init_vec buf) m false 0 0 (-1) (-1) 0 0 FpUninit RMC_DEFAULT_PACKET_TIMEOUT node lip lport.

(** Result of the system calls of rmc_pub_activate_context: one of them failed with errno
    [e] after the sockets [ds] were created, [early] when that was before socket() was called
    for the listen socket, so that listen_descriptor still has its old value; or the two
    descriptors and the port getsockname() reports.  Setup.v has the single calls. *)
(** The system calls of rmc_pub_context.c:155-262. *)
Inductive act_res := ActErr (e : Z) (ds : list Z) (early : bool) | ActOk (m l port : Z).

(** rmc_pub_context.c:155-263, rmc_pub_activate_context.  Simplification: the errno returned
    on failure is the one of the failing call. *)
Definition rmc_pub_activate_context (x : pctx) (o : act_res) : Z * pctx * list pev :=
  match o with
  | ActErr e ds early =>
      (e, set_descs x (-1) (-1),                                                     (* 250-262 *)
       map (fun d => PvConn (EvOpen d)) ds ++
       map (fun d => PvConn (EvClose d)) (ds ++ if early && negb (x_listen x =? -1) then [x_listen x] else []))
  | ActOk m l port =>
      let x1 := set_descs x m l in
      (0, if x_lport x =? 0 then set_lport x1 port else x1,                          (* 225-233 *)
       [PvConn (EvOpen m); PvConn (EvOpen l);
        PvConn (EvAdd m RMC_MULTICAST_INDEX POLLREAD);                               (* 237-240 *)
        PvConn (EvAdd l RMC_LISTEN_INDEX POLLREAD)])                                 (* 242-245 *)
  end.

(** rmc_pub_context.c:320-337, rmc_pub_set_announce_interval; [now] is the clock. *)
Definition rmc_pub_set_announce_interval (x : pctx) (interval now : Z) : pctx :=
  let next := if negb (interval =? 0) && (x_anext x =? 0) then now + interval else x_anext x in  (* 328-329 *)
  set_ann x interval (if interval =? 0 then 0 else next).                            (* 331-335 *)

(** rmc_pub_context.c:475-491, rmc_pub_throttling. *)
Definition rmc_pub_throttling (x : pctx) (suspend resume : Z) : Z * pctx :=
  if suspend <? resume then (EINVAL, x) else (0, set_thr x suspend resume).

(** rmc_pub_context.c:400-414, rmc_pub_set_control_message_callback. *)
Definition rmc_pub_set_control_message_callback (x : pctx) (set : bool) : pctx :=
  set_ccb x (if set then FpSet else FpNull).

(** rmc_pub_context.c:442-473, the counters. *)
Definition rmc_pub_get_max_subscriber_count (x : pctx) : Z := get_vector_size (x_vec x).
(** rmc_pub_context.c:453-462, rmc_pub_get_subscriber_count. *)
Definition rmc_pub_get_subscriber_count (x : pctx) : Z := get_active_connection_count (x_vec x).
(** rmc_pub_context.c:464-473, rmc_pub_get_socket_count. *)
Definition rmc_pub_get_socket_count (x : pctx) : Z :=
  u32 (rmc_pub_get_subscriber_count x + (if x_mcast x =? -1 then 0 else 1) + (if x_listen x =? -1 then 0 else 1)).

(** rmc_pub_packet.c:17-69, rmc_pub_queue_packet. *)
Definition rmc_pub_queue_packet (x : pctx) (payload len : Z) (announce : bool) : res (Z * pctx * list pev) :=
  if payload =? 0 then Ok (EINVAL, x, [])                                            (* 24-25 *)
  else if RMC_MAX_PAYLOAD <? len then Ok (EMSGSIZE, x, [])                           (* 28-31 *)
  else if x_susp x then Ok (EBUSY, x, [])                                            (* 35-36 *)
  else
    let pack := pub_next_queued (x_pub x) in                                         (* 39 *)
    do r <- (if announce then pub_queue_no_ack (x_pub x) payload len 0               (* 44-47 *)
             else pub_queue_packet (x_pub x) payload len 0);
    let x1 := set_pub (set_susp x false) (fst (fst r)) in                            (* 38 *)
    let x2 := if (0 <? x_sthr x1) && (x_sthr x1 <=? pub_unacked_count (x_pub x1))    (* 62-66 *)
              then set_susp x1 true else x1 in
    Ok (0, x2, [PvConn (EvMod (x_mcast x) RMC_MULTICAST_INDEX                        (* 49-58 *)
                        (match pack with Some _ => POLLWRITE | None => 0 end) POLLWRITE)]).

(** rmc_pub_packet.c:72-78 and 81-87. *)
Definition rmc_pub_queue_length (x : pctx) : Z := pub_queue_size (x_pub x).
(** rmc_pub_packet.c:81-88, rmc_pub_traffic_suspended. *)
Definition rmc_pub_traffic_suspended (x : pctx) : Z := if x_susp x then EBUSY else 0.

(** rmc_pub_packet.c:95-115, rmc_pub_packet_ack for the connection at index [i]. *)
Definition rmc_pub_packet_ack (x : pctx) (i pid : Z) : res (pctx * list pev) :=
  do r <- pub_packet_ack (x_pub x) (Z.to_nat i) pid;                                 (* 97-100 *)
  do f <- release_all (x_mem x) (snd r);
  let x1 := set_mem (set_pub x (fst r)) (fst f) in
  Ok (if x_susp x1 && (pub_unacked_count (x_pub x1) <=? x_rthr x1) then set_susp x1 false else x1,  (* 104-107 *)
      snd f).

(** rmc_pub_read.c:40-41, the loop of process_cmd_ack_interval, as [n] rounds. *)
Fixpoint ack_rounds (n : nat) (x : pctx) (i pid : Z) : res (pctx * list pev) :=
  match n with
  | O => Ok (x, [])
  | S n => do r <- rmc_pub_packet_ack x i pid;
           do r2 <- ack_rounds n (fst r) i (pid + 1);
           Ok (fst r2, snd r ++ snd r2)
  end.
(** packet_id_t is a uint64_t: when [last] is its maximum, [pid <= last] never fails. *)
(** The loop of rmc_pub_read.c:40-41. *)
Definition ack_interval (x : pctx) (i first last : Z) : res (pctx * list pev) :=
  if (first <=? last) && (last =? 18446744073709551615) then Hang
  else ack_rounds (Z.to_nat (last + 1 - first)) x i first.

(** The handlers' state: context and events so far. *)
(** user_data and conn of rmc_pub_read.c:21, 46. *)
Definition hst : Type := (pctx * list pev)%type.
(** rmc_pub_read.c:40-41 after the parsing. *)
Definition eff_ack (i : Z) (st : hst) (iv : Z * Z) : res hst :=
  do r <- ack_interval (fst st) i (fst iv) (snd iv);
  Ok (fst r, snd st ++ PvAck i (fst iv) (snd iv) :: snd r).
(** rmc_pub_read.c:62-78: the callback pointer is tested, then called. *)
Definition eff_ctrl (i : Z) (st : hst) (p : option (list Z)) : res hst :=
  match x_ccb (fst st) with
  | FpUninit => UB UninitRead
  | FpNull => Ok st
  | FpSet => do c <- slot (x_vec (fst st)) i;
             Ok (fst st, snd st ++ [PvCtrl (c_addr c) (c_port c) (c_node c) (match p with Some bs => bs | None => [] end)])
  end.
(** rmc_pub_read.c:46-82: is the callback set? *)
Definition ccb_set (x : pctx) : bool := match x_ccb x with FpSet => true | _ => false end.

(** rmc_pub_read.c:90-117, rmc_pub_close_connection. *)
Definition rmc_pub_close_connection (x : pctx) (i : Z) : res (Z * pctx * list pev) :=
  do f <- find_by_index (x_vec x) i;                                                 (* 97 *)
  match f with
  | None => Ok (EINVAL, x, [])                                                       (* 99-100 *)
  | Some c =>
      do r <- close_conn (x_vec x) i;                                                (* 111 *)
      let '(_, v, evs) := r in
      do s <- pub_reset_subscriber (x_pub x) (Z.to_nat i);                           (* 114-115 *)
      do f <- release_all (x_mem x) (snd s);
      Ok (0, set_mem (set_pub (set_vec x v) (fst s)) (fst f),
          PvLeave (c_addr c) (c_port c) :: map PvConn evs ++ snd f)                  (* 107-109 *)
  end.

(** What rmc_pub_read gets from the outside: accept() and the answer of the connect callback
    ([None]: no callback), recvfrom() on the multicast socket ([Some e]: -1), or readv(). *)
(** The system calls and callbacks of rmc_pub_read.c:119-228. *)
Inductive prd :=
| RdAccept (o : acc_res) (cb : option bool)
| RdMcast (err : option Z)
| RdTcp (o : rres).

(** rmc_pub_read.c:119-230, rmc_pub_read: return code, *op_res if written, context, events.
    The input [o] must be the one for index [i]. *)
Definition rmc_pub_read (x : pctx) (i : Z) (o : prd) : res (Z * option Z * pctx * list pev) :=
  match o with
  | RdAccept a cb =>                                                                 (* 139-164 *)
      do r <- process_accept (x_listen x) (x_vec x) a;                               (* 141 *)
      let '(code, ind, v, evs) := r in
      if negb (code =? 0) then Ok (code, Some RMC_ERROR, set_vec x v, map PvConn evs)  (* 144-147 *)
      else match ind with
           | None => Abort                                                           (* 153 *)
           | Some j =>
               do f <- find_by_index v j;                                            (* 150 *)
               match f with
               | None => Abort                                                       (* 153 *)
               | Some c =>
                   let x1 := set_pub (set_vec x v) (pub_init_subscriber (x_pub x) (Z.to_nat j)) in  (* 154 *)
                   match cb with
                   | None => Ok (0, Some RMC_READ_ACCEPT, x1, map PvConn evs)
                   | Some true => Ok (0, Some RMC_READ_ACCEPT, x1, map PvConn evs ++ [PvJoin (c_addr c) (c_port c)])
                   | Some false =>                                                   (* 159-160 *)
                       do q <- rmc_pub_close_connection x1 j;
                       let '(_, x2, evs2) := q in
                       Ok (0, Some RMC_READ_ACCEPT, x2, map PvConn evs ++ PvJoin (c_addr c) (c_port c) :: evs2)
                   end
               end
           end
  | RdMcast err =>                                                                   (* 166-195 *)
      if x_mcast x =? -1 then Ok (ENOTCONN, Some RMC_ERROR, x, [])                   (* 172-175 *)
      else match err with
           | Some e => Ok (e, Some RMC_ERROR, x, [])                                 (* 182-186 *)
           | None => Ok (0, None, x, [PvConn (EvMod (x_mcast x) RMC_MULTICAST_INDEX POLLREAD POLLREAD)])
           end
  | RdTcp t =>
      do f <- find_by_index (x_vec x) i;                                             (* 197 *)
      match f with
      | None => Ok (ENOTCONN, Some RMC_ERROR, x, [])
      | Some c =>
          if negb (c_mode c =? CONNECTED) then Ok (ENOTCONN, Some RMC_ERROR, x, [])  (* 199-202 *)
          else
            do r <- tcp_read (pub_dispatch (eff_ack i) (ccb_set x) (eff_ctrl i)) (x, []) (c_rbuf c) t;  (* 204 *)
            let x1 := fst (r_st r) in
            let c1 := set_rbuf c (r_buf r) in
            if r_code r =? EPIPE then                                                (* 210-214 *)
              do q <- rmc_pub_close_connection (set_vec x1 (put_slot (x_vec x1) i c1)) i;
              let '(_, x2, evs) := q in
              Ok (0, Some (r_op r), x2, snd (r_st r) ++ evs)
            else
              let act := Z.lor POLLREAD (if 0 <? pending_send c1 then POLLWRITE else 0) in  (* 218-220 *)
              Ok (r_code r, Some (r_op r),
                  set_vec x1 (put_slot (x_vec x1) i (set_action c1 act)),
                  snd (r_st r) ++ [PvConn (EvMod (c_desc c) i (c_action c) act)])    (* 222-227 *)
      end
  end.

(** rmc_pub_read.c:232-251, rmc_pub_context_has_pending_send. *)
Definition rmc_pub_context_has_pending_send (x : pctx) (i : Z) : res Z :=
  do f <- find_by_index (x_vec x) i;
  match f with
  | None => Ok ENOTCONN
  | Some c => Ok (if 0 <? pending_send c then EBUSY else 0)
  end.

(** rmc_pub_write.c:19-32, setup_packet_header. *)
Definition setup_packet_header (x : pctx) (p : packet) : header :=
  Wire.mkHdr (pk_pid p) (x_node x) (pk_len p) (x_lip x) (x_lport x).

(** Result of sendmsg(): -1 with errno, or success at time [ts]. *)
(** sendmsg() in rmc_pub_write.c:37-120. *)
Inductive sres := SndErr (e : Z) | SndOk (ts : Z).

(** rmc_pub_write.c:37-120, send_single_multicast_packet. *)
Definition send_single_multicast_packet (x : pctx) (a : nat) (o : sres) : res (Z * pctx * list pev) :=
  if x_mcast x =? -1 then Ok (ENOTCONN, x, [])                                       (* 51-52 *)
  else
    do p <- get_pack (x_pub x) a;
    if RMC_MAX_PACKET <? header_size + pk_len p then Ok (EMSGSIZE, x, [])            (* 55-56 *)
    else
      do payload <- load (x_mem x) (pk_payload p) (pk_len p);                        (* 75-78 *)
      let rearm s := PvConn (EvMod (x_mcast x) RMC_MULTICAST_INDEX POLLWRITE         (* 111-118 *)
                               (match pub_next_queued s with Some _ => POLLWRITE | None => 0 end)) in
      match o with
      | SndErr e => if e =? EAGAIN then Ok (EAGAIN, x, [rearm (x_pub x)])            (* 100-104 *)
                    else Ok (e, x, [])                                               (* 94-98 *)
      | SndOk ts => do s <- pub_packet_sent (x_pub x) a ts;                          (* 107 *)
                    Ok (0, set_pub x s,
                        [PvCast ts (enc_header (setup_packet_header x p) ++ payload); rearm s])
      end.

(** rmc_pub_write.c:123-139, process_multicast_write; [outs] are the results of the sendmsg()
    calls; when they run out the socket's buffer is full (EAGAIN). *)
Fixpoint process_multicast_write (x : pctx) (outs : list sres) : res (Z * pctx * list pev) :=
  match pub_next_queued (x_pub x) with
  | None => Ok (0, x, [])
  | Some a =>
      match outs with
      | [] => send_single_multicast_packet x a (SndErr EAGAIN)
      | o :: rest =>
          do r <- send_single_multicast_packet x a o;
          let '(code, x1, evs) := r in
          if negb (code =? 0) then Ok (code, x1, evs)                                (* 131-132 *)
          else do r2 <- process_multicast_write x1 rest;
               let '(code2, x2, evs2) := r2 in Ok (code2, x2, evs ++ evs2)
      end
  end.

(** rmc_pub_write.c:142-230, rmc_pub_resend_packet on the connection at index [i]. *)
Definition rmc_pub_resend_packet (x : pctx) (i : Z) (a : nat) : res (Z * pctx * list pev) :=
  do c <- slot (x_vec x) i;
  do p <- get_pack (x_pub x) a;
  do w <- (if circ_buf_available (c_wbuf c) <? 1 + header_size + pk_len p            (* 154-162 *)
           then Ok (EAGAIN, c_wbuf c)
           else do payload <- load (x_mem x) (pk_payload p) (pk_len p);
                write_packet (c_wbuf c) (setup_packet_header x p) payload);          (* 165-209 *)
  let c1 := set_wbuf c (snd w) in
  if Z.land (c_action c) POLLWRITE =? 0 then                                         (* 217-227 *)
    let act := Z.lor (c_action c) POLLWRITE in
    Ok (fst w, set_vec x (put_slot (x_vec x) i (set_action c1 act)),
        [PvConn (EvMod (c_desc c) i (c_action c) act)])
  else Ok (fst w, set_vec x (put_slot (x_vec x) i c1), []).

(** What rmc_pub_write gets from the outside: the results of the sendmsg() calls on the
    multicast socket, or of writev() on a connection. *)
(** The system calls of rmc_pub_write.c:233-300. *)
Inductive pwr := WrMcast (outs : list sres) | WrTcp (o : wres).

(** rmc_pub_write.c:233-300, rmc_pub_write. *)
Definition rmc_pub_write (x : pctx) (i : Z) (o : pwr) : res (Z * Z * pctx * list pev) :=
  match o with
  | WrMcast outs => do r <- process_multicast_write x outs;                          (* 241-248 *)
                    let '(code, x1, evs) := r in Ok (code, RMC_WRITE_MULTICAST, x1, evs)
  | WrTcp w =>
      if rmc_pub_get_max_subscriber_count x <=? i then Ok (EINVAL, RMC_ERROR, x, []) (* 251-256 *)
      else
        do f <- find_by_index (x_vec x) i;                                           (* 258 *)
        match f with
        | None => Ok (ENOTCONN, RMC_ERROR, x, [])
        | Some c =>
            if negb (c_mode c =? CONNECTED) then Ok (ENOTCONN, RMC_ERROR, x, [])     (* 260-265 *)
            else if circ_buf_in_use (c_wbuf c) =? 0 then Ok (ENODATA, RMC_ERROR, x, [])  (* 271-276 *)
            else
              do r <- tcp_write (c_wbuf c) w;                                        (* 281 *)
              let act := if w_left r =? 0 then Z.land (c_action c) (Z.lnot POLLWRITE)
                         else Z.lor (c_action c) POLLWRITE in                        (* 283-286 *)
              Ok (w_code r, if w_code r =? 0 then RMC_WRITE_TCP else RMC_ERROR,      (* 296-299 *)
                  set_vec x (put_slot (x_vec x) i (set_action (set_wbuf c (w_buf r)) act)),
                  PvTcp i (w_sent r) :: [PvConn (EvMod (c_desc c) i (c_action c) act)])  (* 288-293 *)
        end
  end.

(** rmc_pub_write.c:340-369, the loop of rmc_pub_context_get_pending over the slots from
    [ind] on: busy, ack_count and send_buf_len. *)
Fixpoint pending_loop (n : nat) (x : pctx) (ind : Z) (acc : bool * Z * Z) : res (bool * Z * Z) :=
  match n with
  | O => Ok acc
  | S n =>
      do f <- find_by_index (x_vec x) ind;                                           (* 345-348 *)
      match f with
      | None => pending_loop n x (ind + 1) acc
      | Some c =>
          let '(busy, acks, bytes) := acc in
          let count := zlen (p_sinf (x_pub x) (Z.to_nat ind)) in                     (* 350-352 *)
          let len := pending_send c in                                               (* 361 *)
          pending_loop n x (ind + 1)
            (busy || negb (count =? 0) || negb (len =? 0),
             u32 (acks + count), u32 (bytes + len))
      end
  end.
(** rmc_pub_write.c:306-373, rmc_pub_context_get_pending: return code, *queued_packets,
    *ack_count and *send_buf_len. *)
Definition rmc_pub_context_get_pending (x : pctx) : res (Z * Z * Z * Z) :=
  let q := pub_queue_size (x_pub x) in                                               (* 326-331 *)
  let busy := 0 <? q in
  let max := get_max_index_in_use (x_vec x) in                                       (* 333 *)
  do r <- (if max =? RMC_NIL_INDEX then Ok (busy, 0, 0)                              (* 336-338 *)
           else pending_loop (Z.to_nat (max + 1)) x 0 (busy, 0, 0));
  let '(b, acks, bytes) := r in
  Ok (if b : bool then EBUSY else 0, q, acks, bytes).

(** rmc_pub_timeout.c:20-77, process_sent_packet_timeout for subscriber [i] and packet [a]. *)
Definition process_sent_packet_timeout (x : pctx) (i : Z) (a : nat) : res (Z * pctx * list pev) :=
  do c <- slot (x_vec x) i;
  do p <- get_pack (x_pub x) a;
  if negb (c_mode c =? CONNECTED) then                                               (* 38-50 *)
    do r <- rmc_pub_packet_ack x i (pk_pid p); Ok (0, fst r, snd r)
  else
    do r <- rmc_pub_resend_packet x i a;                                             (* 64 *)
    let '(code, x1, evs) := r in
    if code =? 0 then                                                                (* 73-74 *)
      do r2 <- rmc_pub_packet_ack x1 i (pk_pid p); Ok (0, fst r2, evs ++ snd r2)
    else Ok (code, x1, evs).

(** rmc_pub_timeout.c:99-114, the loop of process_subscriber_timeout. *)
Fixpoint resend_loop (x : pctx) (i : Z) (packs : list nat) : res (Z * pctx * list pev) :=
  match packs with
  | [] => Ok (0, x, [])
  | a :: rest =>
      do r <- process_sent_packet_timeout x i a;
      let '(code, x1, evs) := r in
      if negb (code =? 0) then Ok (code, x1, evs)
      else do r2 <- resend_loop x1 i rest;
           let '(code2, x2, evs2) := r2 in Ok (code2, x2, evs ++ evs2)
  end.
(** rmc_pub_timeout.c:80-117, process_subscriber_timeout. *)
Definition process_subscriber_timeout (x : pctx) (sub : nat) (now : Z) : res (Z * pctx * list pev) :=
  do packs <- pub_get_timed_out_packets (x_pub x) sub now (x_resend x);              (* 92 *)
  resend_loop x (Z.of_nat sub) packs.

(** rmc_pub_timeout.c:167-176, the loop of rmc_pub_timeout_process. *)
Fixpoint subs_loop (x : pctx) (now : Z) (subs : list nat) : res (Z * pctx * list pev) :=
  match subs with
  | [] => Ok (0, x, [])
  | s :: rest =>
      do r <- process_subscriber_timeout x s now;
      let '(code, x1, evs) := r in
      if negb (code =? 0) then Ok (code, x1, evs)
      else do r2 <- subs_loop x1 now rest;
           let '(code2, x2, evs2) := r2 in Ok (code2, x2, evs ++ evs2)
  end.

(** The announce callback: not set, refuses, or leaves [bs] in the buffer and reports
    [len] as its length. *)
(** The callback of rmc_pub_timeout.c:141-142, rmc_internal.h:212. *)
Inductive ann_res := AnnNone | AnnNo | AnnYes (bs : list Z) (len : Z).

(** rmc_pub_timeout.c:131-133. *)
Definition announce_due (x : pctx) (now : Z) : bool :=
  negb (x_aint x =? 0) && negb (x_anext x =? 0) && (x_anext x - now <=? 0).

(** rmc_pub_timeout.c:120-179, rmc_pub_timeout_process at time [now]; [buf] is the address of
    the local array [buffer] (134), valid until the function returns. *)
Definition rmc_pub_timeout_process (x : pctx) (now buf : Z) (o : ann_res) : res (Z * pctx * list pev) :=
  if announce_due x now then
    let '(bs, len, send) := match o with
                            | AnnNone => ([], 0, true)                               (* 135-136 *)
                            | AnnNo => ([], 0, false)
                            | AnnYes bs len => (bs, len, true)                       (* 141-142 *)
                            end in
    let len1 := if RMC_MAX_PAYLOAD <? len then RMC_MAX_PAYLOAD else len in           (* 144-145 *)
    let x1 := set_mem x (updz (x_mem x) buf (Some bs)) in
    do r <- (if send : bool then rmc_pub_queue_packet x1 buf len1 true               (* 147-150 *)
             else Ok (0, x1, []));
    let '(_, x2, evs) := r in
    let x3 := set_ann x2 (x_aint x2)                                                 (* 153-156 *)
                (if negb (x_aint x2 =? 0) then now + x_aint x2 else 0) in
    Ok (0, set_mem x3 (updz (x_mem x3) buf None), evs)                               (* 158 *)
  else
    do subs <- pub_get_timed_out_subscribers (x_pub x) now (x_resend x);             (* 163 *)
    subs_loop x now subs.

(** rmc_pub_timeout.c:182-228, rmc_pub_timeout_get_next: *result_ts. *)
Definition rmc_pub_timeout_get_next (x : pctx) : res Z :=
  do oldest <- pub_oldest_unacked (x_pub x);                                         (* 197 *)
  let ack := if oldest =? -1 then -1 else oldest + x_resend x in                     (* 200-201 *)
  let ann := if x_anext x =? 0 then -1 else x_anext x in                             (* 204-205 *)
  Ok (if (ann =? -1) && (ack =? -1) then -1                                          (* 209-212 *)
      else if negb (ann =? -1) && (ack =? -1) then ann                               (* 214-217 *)
      else if (ann =? -1) && negb (ack =? -1) then ack                               (* 219-222 *)
      else if ack <? ann then ack else ann).                                         (* 225 *)

(** rmc_pub_context.c:288-296, the loop of rmc_pub_deactivate_context. *)
Fixpoint close_loop (n : nat) (x : pctx) (ind : Z) : res (pctx * list pev) :=
  match n with
  | O => Ok (x, [])
  | S n =>
      do f <- find_by_index (x_vec x) ind;
      match f with
      | None => close_loop n x (ind + 1)
      | Some _ => do r <- rmc_pub_close_connection x ind;
                  let '(_, x1, evs) := r in
                  do r2 <- close_loop n x1 (ind + 1);
                  Ok (fst r2, evs ++ snd r2)
      end
  end.
(** rmc_pub_context.c:265-306, rmc_pub_deactivate_context. *)
Definition rmc_pub_deactivate_context (x : pctx) : res (Z * pctx * list pev) :=
  let max := get_max_index_in_use (x_vec x) in                                       (* 285 *)
  do r <- (if max =? RMC_NIL_INDEX then Ok (x, []) else close_loop (Z.to_nat (max + 1)) x 0);  (* 287-297 *)
  Ok (0, set_descs (fst r) (-1) (-1),                                                (* 302-303 *)
      [PvConn (EvRem (x_mcast x) RMC_MULTICAST_INDEX); PvConn (EvRem (x_listen x) RMC_LISTEN_INDEX)]  (* 275-283 *)
      ++ snd r ++
      [PvConn (EvClose (x_mcast x)); PvConn (EvClose (x_listen x))]).                (* 299-300 *)
