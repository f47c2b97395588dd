(** SubCtx.v — model of the subscriber context: rmc_sub_context.c, rmc_sub_packet.c,
    rmc_sub_timeout.c, rmc_sub_read.c and rmc_sub_write.c, on top of sub.c (Sub.v), the
    connection table (Conn.v) and the TCP control channel (Proto.v).

    ctx->publishers[i] belongs to the connection at index i.  The array comes from malloc() and
    an element is only initialised by sub_init_publisher; using it before is [UB UninitRead].
    System calls, the clock and the answers of the callbacks are arguments of the model.  What
    the library does to the outside world is a list of events, oldest first; some of the events
    (marked "ghost") only record what happened inside.
    Payload memory is explicit: [t_mem] maps the address of each valid buffer to its bytes.
    The sub_packet_t structures are only freed before the application has seen them
    (sub_reset_publisher), so their addresses are taken to be distinct: a counter.
    Simplifications: the ctx pointer and the result pointers are not NULL; the packet ready
    callback may call rmc_sub_packet_dispatched and its keep_payload variant for any packets,
    the other callbacks do not call back into the library; the clock is an unbounded integer;
    logging is left out. *)
From Verif Require Import Base CircBuf Wire SeqList Sub Proto Conn.

(** rmc_internal.h:252-345, struct rmc_sub_context. *)
Record sctx := mkT {
  t_pubs : Z -> option spub;        (* publishers[] *)
  t_vec : cvec;                     (* conn_vec *)
  t_ack : list Z;                   (* pub_ack_list, head first *)
  t_ready : list spacket;           (* dispatch_ready, head first *)
  t_mem : Z -> option (list Z);     (* payload buffers that are valid memory *)
  t_fresh : nat;                    (* address of the next sub_packet_t *)
  t_mcast : Z;                      (* mcast_recv_descriptor *)
  t_ato : Z;                        (* ack_timeout *)
  t_node : Z;                       (* node_id *)
  t_acb : bool; t_ccb : bool; t_rcb : bool  (* announce_cb, subscription_complete_cb, packet_ready_cb are set *)
}.
(** An update of ctx->publishers, rmc_internal.h:265. *)
Definition set_tpubs (x : sctx) (f : Z -> option spub) : sctx :=
  mkT f (t_vec x) (t_ack x) (t_ready x) (t_mem x) (t_fresh x) (t_mcast x) (t_ato x) (t_node x) (t_acb x) (t_ccb x) (t_rcb x).
(** An update of ctx->conn_vec, rmc_internal.h:253. *)
Definition set_tvec (x : sctx) (v : cvec) : sctx :=
  mkT (t_pubs x) v (t_ack x) (t_ready x) (t_mem x) (t_fresh x) (t_mcast x) (t_ato x) (t_node x) (t_acb x) (t_ccb x) (t_rcb x).
(** An update of ctx->pub_ack_list, rmc_internal.h:277. *)
Definition set_tack (x : sctx) (l : list Z) : sctx :=
  mkT (t_pubs x) (t_vec x) l (t_ready x) (t_mem x) (t_fresh x) (t_mcast x) (t_ato x) (t_node x) (t_acb x) (t_ccb x) (t_rcb x).
(** An update of ctx->dispatch_ready, rmc_internal.h:270. *)
Definition set_tready (x : sctx) (l : list spacket) : sctx :=
  mkT (t_pubs x) (t_vec x) (t_ack x) l (t_mem x) (t_fresh x) (t_mcast x) (t_ato x) (t_node x) (t_acb x) (t_ccb x) (t_rcb x).
(** A change of the payload memory, rmc_sub.h:53-74. *)
Definition set_tmem (x : sctx) (m : Z -> option (list Z)) : sctx :=
  mkT (t_pubs x) (t_vec x) (t_ack x) (t_ready x) m (t_fresh x) (t_mcast x) (t_ato x) (t_node x) (t_acb x) (t_ccb x) (t_rcb x).
(** malloc of a sub_packet_t, sub.c:22-28. *)
Definition set_tfresh (x : sctx) (n : nat) : sctx :=
  mkT (t_pubs x) (t_vec x) (t_ack x) (t_ready x) (t_mem x) n (t_mcast x) (t_ato x) (t_node x) (t_acb x) (t_ccb x) (t_rcb x).
(** ctx->mcast_recv_descriptor = d, rmc_internal.h:288. *)
Definition set_tmcast (x : sctx) (d : Z) : sctx :=
  mkT (t_pubs x) (t_vec x) (t_ack x) (t_ready x) (t_mem x) (t_fresh x) d (t_ato x) (t_node x) (t_acb x) (t_ccb x) (t_rcb x).
(** The callback pointers, rmc_internal.h:303-350. *)
Definition set_tcbs (x : sctx) (a c r : bool) : sctx :=
  mkT (t_pubs x) (t_vec x) (t_ack x) (t_ready x) (t_mem x) (t_fresh x) (t_mcast x) (t_ato x) (t_node x) a c r.

(** Effects of the library. *)
(** The callbacks of rmc_internal.h:303-370 and the system calls of rmc_sub_read.c, rmc_sub_write.c and rmc_sub_context.c:132-260. *)
Inductive sev :=
| SvConn (e : cev)                               (* descriptors and polling (Conn.v) *)
| SvAlloc (ptr len : Z)                          (* payload_alloc / malloc: the result and the length *)
| SvFree (ptr len : Z)                           (* payload_free / free *)
| SvTcp (i : Z) (bs : list Z)                    (* bytes handed to the socket of connection [i] *)
| SvAnnounce (ip port node : Z) (bs : list Z)    (* announce_cb *)
| SvComplete (addr port node : Z)                (* subscription_complete_cb *)
| SvReady                                        (* packet_ready_cb *)
| SvDgram (src : Z) (bs : list Z)                (* ghost: a datagram was received *)
| SvRecv (i : Z) (bs : list Z)                   (* ghost: bytes were received on connection [i] *)
| SvGot (i pid : Z) (mc : bool) (bs : list Z)    (* ghost: a packet was accepted, by multicast or by TCP *)
| SvPut (i pid : Z) (bs : list Z)                (* ghost: a packet was added to dispatch_ready *)
| SvTake (p : spacket) (bs : list Z)             (* ghost: the application is done with a packet *)
| SvAck (i first last : Z)                       (* ghost: an ack command was put into the ring of [i] *)
| SvLost (i first last : Z)                      (* ghost: an ack for [i] was forgotten without being sent *)
| SvDrop (p : spacket)                           (* ghost: a packet was taken off dispatch_ready at deactivation *)
| SvAppFree (ptr : Z).                           (* ghost: the application freed a payload it had kept *)

(** A store to one element (rmc_internal.h:265). *)
Definition tupd {X} (f : Z -> X) (a : Z) (x : X) : Z -> X := fun b => if b =? a then x else f b.
(** The first [len] bytes at [ptr]. *)
(** A load of the payload, e.g. rmc_sub_write.c:200-215. *)
Definition peek (m : Z -> option (list Z)) (ptr len : Z) : list Z :=
  match m ptr with Some bs => ztake len bs | None => [] end.

(** ctx->publishers[i]. *)
(** ctx->publishers[i], rmc_internal.h:265. *)
Definition get_spub (x : sctx) (i : Z) : res spub :=
  if (0 <=? i) && (i <? v_size (t_vec x)) then
    match t_pubs x i with Some s => Ok s | None => UB UninitRead end
  else UB OutOfBounds.
(** A store to ctx->publishers[i], rmc_internal.h:265. *)
Definition put_spub (x : sctx) (i : Z) (s : spub) : sctx := set_tpubs x (tupd (t_pubs x) i (Some s)).

(** payload_free resp. free() of a list of payloads: each must be valid, and then is not. *)
(** rmc_sub_read.c:350-353 and sub.c:168-187. *)
Fixpoint free_payloads (m : Z -> option (list Z)) (l : list (Z * Z)) : res ((Z -> option (list Z)) * list sev) :=
  match l with
  | [] => Ok (m, [])
  | (ptr, len) :: rest =>
      match m ptr with
      | None => UB UseAfterFree
      | Some _ => do r <- free_payloads (tupd m ptr None) rest;
                  Ok (fst r, SvFree ptr len :: snd r)
      end
  end.

(** rmc_internal.h:42. *)
Definition RMC_DEFAULT_ACK_TIMEOUT : Z := 50000.

(** rmc_sub_context.c:26-129, rmc_sub_init_context with valid addresses and a non-zero node id;
    [buf] is what the memory for the connections holds, [m] the application's memory. *)
Definition rmc_sub_init_context (node : Z) (buf : list conn) (m : Z -> option (list Z)) : sctx :=
  mkT (fun _ => None) (init_vec buf) [] [] m 0 (-1) RMC_DEFAULT_ACK_TIMEOUT node false false false.

(** Results of the system calls of rmc_sub_activate_context: socket() fails; a setsockopt()
    fails; bind() fails; all succeed. *)
(** The system calls of rmc_sub_context.c:132-220. *)
Inductive sact := SaSock (e : Z) | SaOpt (d e : Z) | SaBind (d e : Z) | SaOk (d : Z).

(** rmc_sub_context.c:132-220, rmc_sub_activate_context.  Simplification: the errno returned on
    failure is the one of the failing call. *)
Definition rmc_sub_activate_context (x : sctx) (o : sact) : Z * sctx * list sev :=
  if negb (t_mcast x =? -1) then (EEXIST, x, [])                                     (* 142-143 *)
  else match o with
       | SaSock e => (e, x, [])                                                      (* 148-153, 212-219 *)
       | SaOpt d e => (e, x, [SvConn (EvOpen d); SvConn (EvClose d)])                (* 155-166, 183-202, 212-219 *)
       | SaBind d e => (e, set_tmcast x d, [SvConn (EvOpen d)])                      (* 173-178: the socket stays open *)
       | SaOk d => (0, set_tmcast x d,
                    [SvConn (EvOpen d); SvConn (EvAdd d RMC_MULTICAST_INDEX POLLREAD)])  (* 204-210 *)
       end.

(** rmc_sub_packet.c:83-105, rmc_sub_packet_dispatched_keep_payload for the sub_packet_t at
    address [a]: return code, context, and the packet if it was ready. *)
Fixpoint unlink_packet (a : nat) (l : list spacket) : option (spacket * list spacket) :=
  match l with
  | [] => None
  | p :: r => if Nat.eqb (sk_addr p) a then Some (p, r)
              else match unlink_packet a r with Some (q, r') => Some (q, p :: r') | None => None end
  end.
(** rmc_sub_packet.c:89-106, rmc_sub_packet_dispatched_keep_payload. *)
Definition dispatched_keep_payload (x : sctx) (a : nat) : Z * sctx * option spacket :=
  match unlink_packet a (t_ready x) with                                             (* 96-98 *)
  | None => (ENOENT, x, None)                                                        (* 99-100 *)
  | Some (p, r) => (0, set_tready x r, Some p)                                       (* 102-104 *)
  end.
(** rmc_sub_packet.c:88-105 and 108-122, with ([keep] = false) or without release of the payload. *)
Definition rmc_sub_packet_dispatched (x : sctx) (a : nat) (keep : bool) : res (Z * sctx * list sev) :=
  let '(code, x1, p) := dispatched_keep_payload x a in                               (* 111 *)
  match p with
  | None => Ok (code, x1, [])                                                        (* 113-114 *)
  | Some p =>
      let t := SvTake p (peek (t_mem x) (sk_payload p) (sk_len p)) in
      if keep then Ok (code, x1, [t])
      else do f <- free_payloads (t_mem x1) [(sk_payload p, sk_len p)];              (* 116-119 *)
           Ok (0, set_tmem x1 (fst f), t :: snd f)
  end.
(** rmc_sub_packet.c:64-70 and 72-81. *)
Definition rmc_sub_get_dispatch_ready_count (x : sctx) : Z := zlen (t_ready x).
(** rmc_sub_packet.c:72-80, rmc_sub_get_next_dispatch_ready. *)
Definition rmc_sub_get_next_dispatch_ready (x : sctx) : option spacket :=
  match t_ready x with [] => None | p :: _ => Some p end.

(** The packet ready callback, in which the application disposes of packets. *)
(** The callback of rmc_sub_read.c:128-129 and 344-345, rmc_internal.h:303. *)
Fixpoint ready_cb (x : sctx) (ops : list (nat * bool)) : res (sctx * list sev) :=
  match ops with
  | [] => Ok (x, [])
  | (a, keep) :: rest =>
      do r <- rmc_sub_packet_dispatched x a keep;
      let '(_, x1, evs) := r in
      do r2 <- ready_cb x1 rest;
      Ok (fst r2, evs ++ snd r2)
  end.

(** rmc_sub_packet.c:16-28, _compare_oldest_unackowledged_packet.  Every member of
    pub_ack_list was initialised when it was inserted. *)
Definition oldest_of (x : sctx) (i : Z) : Z :=
  match t_pubs x i with Some s => sub_oldest_unacked s | None => 0 end.
(** rmc_sub_packet.c:16-28, _compare_oldest_unackowledged_packet. *)
Definition ack_compare (x : sctx) (n o : Z) : Z :=
  if oldest_of x n <? oldest_of x o then -1 else if oldest_of x o <? oldest_of x n then 1 else 0.

(** rmc_sub_packet.c:31-62, rmc_sub_packet_received (always returns 0). *)
Definition rmc_sub_packet_received (x : sctx) (i pid payload len now : Z) : res sctx :=
  do s <- get_spub x i;
  let x1 := if sub_oldest_unacked s =? 0                                             (* 47-51 *)
            then set_tack x (seq_insert_sorted_rev (ack_compare x) i (t_ack x)) else x in
  let p := mkSK (t_fresh x) (Z.to_nat i) pid payload len i in
  Ok (set_tfresh (put_spub x1 i (sub_received s p true now)) (S (t_fresh x))).       (* 53-59 *)
(** rmc_sub_read.c:332-337: sub_packet_received with a zero store_receive_interval_data. *)
Definition tcp_packet_received (x : sctx) (i pid payload len now : Z) : res sctx :=
  do s <- get_spub x i;
  let p := mkSK (t_fresh x) (Z.to_nat i) pid payload len i in
  Ok (set_tfresh (put_spub x i (sub_received s p false now)) (S (t_fresh x))).

(** sub_process_received_packets on ctx->dispatch_ready. *)
(** rmc_sub_read.c:121, 340, 425: sub_process_received_packets on ctx->dispatch_ready. *)
Definition process_received (x : sctx) (i : Z) : res (sctx * list sev) :=
  do s <- get_spub x i;
  let (s', out) := sub_process s in
  Ok (set_tready (put_spub x i s') (t_ready x ++ out),
      map (fun p => SvPut i (sk_pid p) (peek (t_mem x) (sk_payload p) (sk_len p))) out).

(** What accepting a packet gets from the outside: the result of payload_alloc / malloc (0:
    exit(255); the address of memory in use is not a possible result, and counts as 0), the
    clock, and what the packet ready callback does. *)
(** Memory that malloc() cannot return (rmc_sub_read.c:95-103). *)
Definition is_valid (m : Z -> option (list Z)) (ptr : Z) : bool := match m ptr with Some _ => true | None => false end.
(** The callbacks and system calls of rmc_sub_read.c:87-131. *)
Record accin := mkAi { ai_ptr : Z; ai_now : Z; ai_ops : list (nat * bool) }.

(** rmc_sub_read.c:87-131 ([mc], the part of decode_subscribed_multicast after the duplicate
    check) resp. 300-348 (the part of process_cmd_packet after the duplicate check). *)
Definition accept_packet (x : sctx) (i pid : Z) (bs : list Z) (mc : bool) (o : accin) : res (sctx * list sev) :=
  if (ai_ptr o =? 0) || is_valid (t_mem x) (ai_ptr o) then Abort                     (* 100-104, 306-310 *)
  else
    let x1 := set_tmem x (tupd (t_mem x) (ai_ptr o) (Some bs)) in                    (* 106, 314-315 *)
    do x2 <- (if mc then rmc_sub_packet_received x1 i pid (ai_ptr o) (zlen bs) (ai_now o)  (* 109-113 *)
              else tcp_packet_received x1 i pid (ai_ptr o) (zlen bs) (ai_now o));    (* 332-337 *)
    do r <- process_received x2 i;                                                   (* 121, 340 *)
    let evs := SvAlloc (ai_ptr o) (zlen bs) :: SvGot i pid mc bs :: snd r in
    if t_rcb x && negb (zlen (t_ready (fst r)) =? zlen (t_ready x2)) then            (* 128-129, 344-345 *)
      do r2 <- ready_cb (fst r) (ai_ops o);
      Ok (fst r2, evs ++ SvReady :: snd r2)
    else Ok (fst r, evs).

(** What one datagram gets from the outside: the announce callback's answer, the results of
    socket() and connect(), and the above. *)
(** The callbacks and system calls of rmc_sub_read.c:16-131. *)
Record mcin := mkMi { mi_answer : bool; mi_sock : sock_res; mi_acc : accin }.

(** rmc_sub_read.c:16-56, decode_unsubscribed_multicast. *)
Definition decode_unsubscribed (x : sctx) (h : header) (payload : list Z) (o : mcin) : res (sctx * list sev) :=
  if negb (h_pid h =? 0) then Ok (x, [])                                             (* 23-29 *)
  else
    let evs := if t_acb x then [SvAnnounce (h_ip h) (h_port h) (h_node h) payload] else [] in  (* 44-48 *)
    let res := if t_acb x then mi_answer o else true in
    if res : bool then                                                               (* 50-53 *)
      do r <- connect_tcp (t_vec x) (h_ip h) (h_port h) (h_node h) (mi_sock o);
      let '(_, _, v, ce) := r in
      Ok (set_tvec x v, evs ++ map SvConn ce)
    else Ok (x, evs).

(** rmc_sub_read.c:59-132, decode_subscribed_multicast for the connection at index [i]. *)
Definition decode_subscribed (x : sctx) (i : Z) (h : header) (payload : list Z) (o : accin) : res (sctx * list sev) :=
  if h_pid h =? 0 then Ok (x, [])                                                    (* 73-77 *)
  else
    do s <- get_spub x i;
    if sub_is_duplicate s (h_pid h) then Ok (x, [])                                  (* 80-85 *)
    else accept_packet x i (h_pid h) payload true o.

(** rmc_sub_read.c:135-197, process_multicast_read of a datagram from [src]: return code, what
    is written to *read_res, context and events. *)
Definition with_ip (h : header) (ip : Z) : header := Wire.mkHdr (h_pid h) (h_node h) (h_len h) ip (h_port h).
(** rmc_sub_read.c:135-197, process_multicast_read. *)
Definition process_multicast_read (x : sctx) (src : Z) (bs : list Z) (o : mcin)
    : res (Z * option Z * sctx * list sev) :=
  if zlen bs <? header_size then Ok (EPROTO, None, x, [])                            (* 142-146 *)
  else
    let h0 := dec_header bs in
    if zlen bs <? header_size + h_len h0 then Ok (EPROTO, None, x, [])               (* 148-155 *)
    else
      let h := if h_ip h0 =? 0 then with_ip h0 src else h0 in                        (* 161-162 *)
      let payload := ztake (h_len h) (zdrop header_size bs) in                       (* 164 *)
      do f <- find_by_address (t_vec x) (h_ip h) (h_port h);                         (* 167 *)
      let unsub := do r <- decode_unsubscribed x h payload o;                        (* 172-181 *)
                   Ok (0, Some RMC_READ_MULTICAST_NOT_READY, fst r, snd r) in
      match f with
      | None => unsub
      | Some i =>
          do c <- slot (t_vec x) i;
          if c_mode c =? CONNECTING then unsub
          else do r <- decode_subscribed x i h payload (mi_acc o);                   (* 188-196 *)
               Ok (0, Some RMC_READ_MULTICAST, fst r, snd r)
      end.

(** Result of recvfrom() on the multicast socket: nothing there (0 or EAGAIN), another error,
    or a datagram (at most RMC_MAX_PACKET bytes of it). *)
(** recvfrom() in rmc_sub_read.c:218-236. *)
Inductive mrecv := McNone | McErr (e : Z) | McData (src : Z) (bs : list Z) (o : mcin).

(** rmc_sub_read.c:218-236, the loop of multicast_read; when the inputs run out there is
    nothing left to receive. *)
Fixpoint mread_loop (x : sctx) (op : Z) (ins : list mrecv) : res (Z * Z * sctx * list sev) :=
  match ins with
  | [] | McNone :: _ => Ok (EAGAIN, op, x, [])
  | McErr e :: _ => Ok (e, op, x, [])
  | McData src bs o :: rest =>
      let d := ztake RMC_MAX_PACKET bs in                                            (* 219-222 *)
      do r <- process_multicast_read x src d o;                                      (* 235 *)
      let '(code, op1, x1, evs0) := r in
      let evs := SvDgram src d :: evs0 in
      let op2 := match op1 with Some v => v | None => op end in
      if negb (code =? 0) then Ok (code, op2, x1, evs)
      else do r2 <- mread_loop x1 op2 rest;
           let '(code2, op3, x2, evs2) := r2 in Ok (code2, op3, x2, evs ++ evs2)
  end.
(** rmc_sub_read.c:200-249, multicast_read. *)
Definition multicast_read (x : sctx) (ins : list mrecv) : res (Z * Z * sctx * list sev) :=
  if t_mcast x =? -1 then Ok (ENOTCONN, RMC_ERROR, x, [])                            (* 214-215 *)
  else do r <- mread_loop x RMC_ERROR ins;
       let '(code, op, x1, evs) := r in
       Ok (code, op, x1,                                                             (* 238-248 *)
           evs ++ [SvConn (EvMod (t_mcast x) RMC_MULTICAST_INDEX POLLREAD POLLREAD)]).

(** rmc_sub_read.c:355-364, rmc_sub_close_connection (always returns 0). *)
Definition rmc_sub_close_connection (x : sctx) (i : Z) : res (sctx * list sev) :=
  do r <- close_conn (t_vec x) i;                                                    (* 359 *)
  let '(_, v, evs) := r in
  let x1 := set_tvec x v in
  do s <- get_spub x1 i;                                                             (* 361-362 *)
  let (s', fr) := sub_reset s in
  do f <- free_payloads (t_mem x1) (map fst fr);
  Ok (set_tmem (put_spub x1 i s') (fst f), map SvConn evs ++ snd f).

(** The handlers' state: context, events so far, and inputs for the packets to come.  When
    they run out, allocation fails. *)
(** user_data and conn of rmc_sub_read.c:251. *)
Definition tst : Type := (sctx * list sev * list accin)%type.
(** rmc_sub_read.c:291: ctx->publishers[conn->connection_index] is initialised when the
    connection is established. *)
Definition tcp_dup (i : Z) (st : tst) (pid : Z) : bool :=
  match t_pubs (fst (fst st)) i with Some s => sub_is_duplicate s pid | None => false end.
(** rmc_sub_read.c:300-348, process_cmd_packet after the duplicate check. *)
Definition tcp_eff (i : Z) (st : tst) (hp : header * list Z) : res tst :=
  let '(x, evs, ins) := st in
  match ins with
  | [] => Abort
  | o :: rest => do r <- accept_packet x i (h_pid (fst hp)) (snd hp) false o;
                 Ok (fst r, evs ++ snd r, rest)
  end.

(** What rmc_sub_read gets from the outside. *)
(** The system calls of rmc_sub_read.c:367-448. *)
Inductive srd := SrMcast (ins : list mrecv) | SrTcp (o : rres) (ins : list accin).

(** rmc_sub_read.c:367-448, rmc_sub_read: return code, *op_res, context and events. *)
Definition rmc_sub_read (x : sctx) (i : Z) (o : srd) : res (Z * Z * sctx * list sev) :=
  match o with
  | SrMcast ins =>                                                                   (* 384-390 *)
      do r <- multicast_read x ins;
      let '(code, op, x1, evs) := r in
      Ok (if code =? EAGAIN then 0 else code, op, x1, evs)
  | SrTcp t ins =>
      do f <- find_by_index (t_vec x) i;                                             (* 396 *)
      match f with
      | None => Ok (ENOTCONN, RMC_ERROR, x, [])                                      (* 399-402 *)
      | Some c =>
          if negb (c_mode c =? CONNECTED) then Ok (ENOTCONN, RMC_ERROR, x, [])
          else
            let got := match t with
                       | RData (b :: bs) => [SvRecv i (ztake (circ_buf_available (c_rbuf c)) (b :: bs))]
                       | _ => []
                       end in
            do r <- tcp_read (sub_dispatch (tcp_dup i) (tcp_eff i)) (x, got, ins) (c_rbuf c) t;  (* 405-406 *)
            let '(x1, evs, _) := r_st r in
            let x2 := set_tvec x1 (put_slot (t_vec x1) i (set_rbuf c (r_buf r))) in
            let rearm := SvConn (EvMod (c_desc c) i POLLREAD POLLREAD) in            (* 437-446 *)
            if r_code r =? ENOMEM then Ok (ENOMEM, r_op r, x2, evs ++ [rearm])       (* 408-412 *)
            else if r_code r =? EPIPE then                                           (* 415-420 *)
              do q <- rmc_sub_close_connection x2 i;
              Ok (0, RMC_READ_DISCONNECT, fst q, evs ++ snd q)
            else
              do q <- process_received x2 i;                                         (* 425 *)
              if r_code r =? EPROTO then                                             (* 429-433 *)
                do q2 <- rmc_sub_close_connection (fst q) i;
                Ok (EPROTO, RMC_ERROR, fst q2, evs ++ snd q ++ snd q2)
              else Ok (r_code r, RMC_READ_TCP, fst q, evs ++ snd q ++ [rearm])
      end
  end.

(** rmc_sub_write.c:27-131, rmc_sub_write_interval_acknowledgement on the connection [i]. *)
Definition write_interval_ack (x : sctx) (i : Z) (iv : intv) : res (Z * sctx * list sev) :=
  do c <- slot (t_vec x) i;
  if negb (c_mode c =? CONNECTED) then Ok (ENOTCONN, x, [])                          (* 48-49 *)
  else
    do w <- write_ack (c_wbuf c) (iv_first iv) (iv_last iv);                         (* 66-118 *)
    if negb (fst w =? 0) then Ok (fst w, x, [])
    else
      let act := Z.lor (c_action c) POLLWRITE in                                     (* 122 *)
      Ok (0, set_tvec x (put_slot (t_vec x) i (set_action (set_wbuf c (snd w)) act)),
          [SvAck i (iv_first iv) (iv_last iv);
           SvConn (EvMod (c_desc c) i (c_action c) act)]).                           (* 124-129 *)
(** rmc_sub_packet.c:124-137, rmc_sub_packet_interval_acknowledged. *)
Definition rmc_sub_packet_interval_acknowledged (x : sctx) (i : Z) (iv : intv) : res (Z * sctx * list sev) :=
  do c <- slot (t_vec x) i;                                                          (* 131 *)
  if negb (c_mode c =? CONNECTED) then Ok (EINVAL, x, [])                            (* 133-134 *)
  else write_interval_ack x i iv.

(** rmc_sub_timeout.c:69-76, the inner loop of rmc_sub_timeout_process, over the intervals
    [l] of publisher [i]; each one is removed first. *)
Fixpoint ack_loop (x : sctx) (i : Z) (s : spub) (l : list intv) : res (Z * sctx * list sev) :=
  match l with
  | [] => Ok (0, x, [])
  | iv :: rest =>
      let s1 := mkSP (s_ready s) (s_maxrecv s) (s_recv s) rest in
      do r <- rmc_sub_packet_interval_acknowledged (put_spub x i s1) i iv;           (* 69-71 *)
      let '(code, x1, evs) := r in
      if negb (code =? 0)                                                            (* 72-75 *)
      then Ok (code, x1, evs ++ [SvLost i (iv_first iv) (iv_last iv)])
      else do r2 <- ack_loop x1 i s1 rest;
           let '(code2, x2, evs2) := r2 in Ok (code2, x2, evs ++ evs2)
  end.
(** rmc_sub_timeout.c:44-83, the loop of rmc_sub_timeout_process over the ack list [l]. *)
Fixpoint timeout_loop (x : sctx) (now : Z) (l : list Z) : res (Z * sctx * list sev) :=
  match l with
  | [] => Ok (0, x, [])
  | i :: rest =>
      do s <- get_spub x i;                                                          (* 50 *)
      if now <? sub_oldest_unacked s + t_ato x then Ok (0, x, [])                    (* 56-61 *)
      else
        do r <- ack_loop x i s (s_intv s);                                           (* 69-76 *)
        let '(code, x1, evs) := r in
        if negb (code =? 0) then Ok (code, x1, evs)
        else do r2 <- timeout_loop (set_tack x1 rest) now rest;                      (* 78-79 *)
             let '(code2, x2, evs2) := r2 in Ok (code2, x2, evs ++ evs2)
  end.
(** rmc_sub_timeout.c:21-83, rmc_sub_timeout_process at time [now]. *)
Definition rmc_sub_timeout_process (x : sctx) (now : Z) : res (Z * sctx * list sev) :=
  timeout_loop x now (t_ack x).

(** rmc_sub_timeout.c:86-104, rmc_sub_timeout_get_next: *result. *)
Definition rmc_sub_timeout_get_next (x : sctx) : res Z :=
  match t_ack x with
  | [] => Ok (-1)                                                                    (* 94-98 *)
  | i :: _ => do s <- get_spub x i; Ok (sub_oldest_unacked s + t_ato x)              (* 100-103 *)
  end.

(** rmc_sub_write.c:135-231, rmc_sub_write_control_message on the connection [i]; [ptr] is the
    address of the payload. *)
Definition rmc_sub_write_control_message (x : sctx) (i : Z) (payload : list Z) (ptr : Z) : res (Z * sctx * list sev) :=
  if (ptr =? 0) || (zlen payload =? 0) then Ok (EINVAL, x, [])                       (* 151-152 *)
  else
    do c <- slot (t_vec x) i;
    if negb (c_mode c =? CONNECTED) then Ok (ENOTCONN, x, [])                        (* 154-158 *)
    else
      do w <- write_ctrl (c_wbuf c) payload ptr;                                     (* 160-216 *)
      if negb (fst w =? 0) then Ok (fst w, x, [])
      else
        let act := Z.lor (c_action c) POLLWRITE in                                   (* 220 *)
        Ok (0, set_tvec x (put_slot (t_vec x) i (set_action (set_wbuf c (snd w)) act)),
            [SvConn (EvMod (c_desc c) i (c_action c) act)]).                         (* 222-227 *)
(** rmc_sub_write.c:235-253 and 257-273, rmc_sub_write_control_message_by_address and
    rmc_sub_write_control_message_by_node_id. *)
Definition control_by (find : res (option Z)) (x : sctx) (payload : list Z) (ptr : Z) : res (Z * sctx * list sev) :=
  if (ptr =? 0) || (zlen payload =? 0) then Ok (EINVAL, x, [])                       (* 243-244, 264-265 *)
  else
    do f <- find;                                                                    (* 246, 267 *)
    match f with
    | None => Ok (ENOTCONN, x, [])                                                   (* 249-250, 269-270 *)
    | Some i => do c <- slot (t_vec x) i;
                if negb (c_mode c =? CONNECTED) then Ok (ENOTCONN, x, [])
                else rmc_sub_write_control_message x i payload ptr                   (* 252, 272 *)
    end.
(** rmc_sub_write.c:235-254, rmc_sub_write_control_message_by_address. *)
Definition control_by_address (x : sctx) (addr port : Z) := control_by (find_by_address (t_vec x) addr port) x.
(** rmc_sub_write.c:257-273, rmc_sub_write_control_message_by_node_id. *)
Definition control_by_node_id (x : sctx) (node : Z) := control_by (find_by_node_id (t_vec x) node) x.

(** What rmc_sub_write gets from the outside: results of getsockopt()/setsockopt() for a
    connection being established, the result of writev() for an established one. *)
(** The system calls of rmc_sub_write.c:276-345. *)
Record swr := mkSw { sw_cmp : cmp_res; sw_tcp : wres }.

(** rmc_sub_write.c:276-345, rmc_sub_write: return code, *op_res, context and events. *)
Definition rmc_sub_write (x : sctx) (i : Z) (o : swr) : res (Z * Z * sctx * list sev) :=
  do f <- find_by_index (t_vec x) i;                                                 (* 285 *)
  match f with
  | None => Ok (ENOTCONN, RMC_ERROR, x, [])                                          (* 287-292 *)
  | Some c =>
      if c_mode c =? CONNECTING then                                                 (* 295-311 *)
        let x1 := put_spub x i sub_init in                                           (* 299 *)
        do r <- complete_conn (t_vec x1) i (sw_cmp o);                               (* 300 *)
        let '(code, v, evs) := r in
        let x2 := set_tvec x1 v in
        if negb (code =? 0) then                                                     (* 301-305 *)
          do q <- close_conn (t_vec x2) i;
          let '(_, v2, evs2) := q in
          Ok (code, RMC_COMPLETE_CONNECTION, set_tvec x2 v2, map SvConn (evs ++ evs2))
        else Ok (0, RMC_COMPLETE_CONNECTION, x2,
                 map SvConn evs ++ (if t_ccb x then [SvComplete (c_addr c) (c_port c) (c_node c)] else []))
      else if circ_buf_in_use (c_wbuf c) =? 0 then Ok (ENODATA, RMC_ERROR, x, [])    (* 316-321 *)
      else
        do r <- tcp_write (c_wbuf c) (sw_tcp o);                                     (* 326 *)
        let act := if w_left r =? 0 then Z.land (c_action c) (Z.lnot POLLWRITE)
                   else Z.lor (c_action c) POLLWRITE in                              (* 328-331 *)
        Ok (w_code r, if w_code r =? 0 then RMC_WRITE_TCP else RMC_ERROR,            (* 323-324, 341-342 *)
            set_tvec x (put_slot (t_vec x) i (set_action (set_wbuf c (w_buf r)) act)),
            SvTcp i (w_sent r) :: [SvConn (EvMod (c_desc c) i (c_action c) act)])    (* 333-338 *)
  end.

(** rmc_sub_context.c:234-235: every packet is taken off dispatch_ready before
    rmc_sub_packet_dispatched is called for it. *)
Fixpoint drop_ready (x : sctx) (l : list spacket) : res (sctx * list sev) :=
  match l with
  | [] => Ok (x, [])
  | p :: r => do d <- rmc_sub_packet_dispatched (set_tready x r) (sk_addr p) false;
              let '(_, x1, evs) := d in
              do d2 <- drop_ready x1 r;
              Ok (fst d2, SvDrop p :: evs ++ snd d2)
  end.
(** rmc_sub_context.c:249-257. *)
Fixpoint sclose_loop (n : nat) (x : sctx) (ind : Z) : res (sctx * list sev) :=
  match n with
  | O => Ok (x, [])
  | S n =>
      do f <- find_by_index (t_vec x) ind;
      match f with
      | None => sclose_loop n x (ind + 1)
      | Some _ => do r <- rmc_sub_close_connection x ind;
                  do r2 <- sclose_loop n (fst r) (ind + 1);
                  Ok (fst r2, snd r ++ snd r2)
      end
  end.
(** rmc_sub_context.c:224-260, rmc_sub_deactivate_context. *)
Definition rmc_sub_deactivate_context (x : sctx) : res (Z * sctx * list sev) :=
  do d <- drop_ready x (t_ready x);                                                  (* 234-235 *)
  let x1 := set_tmcast (set_tack (fst d) []) (-1) in                                 (* 238, 246 *)
  do r <- sclose_loop (Z.to_nat (get_max_index_in_use (t_vec x1) + 1)) x1 0;         (* 248-257 *)
  Ok (0, fst r, snd d ++ [SvConn (EvClose (t_mcast x)); SvConn (EvRem (t_mcast x) RMC_MULTICAST_INDEX)]  (* 240-244 *)
                ++ snd r).

(** rmc_sub_context.c:328-348 and 361-369, the counters. *)
Definition rmc_sub_get_max_publisher_count (x : sctx) : Z := get_vector_size (t_vec x).
(** rmc_sub_context.c:339-348, rmc_sub_get_publisher_count. *)
Definition rmc_sub_get_publisher_count (x : sctx) : Z := get_active_connection_count (t_vec x).
(** rmc_sub_context.c:361-369, rmc_sub_get_socket_count. *)
Definition rmc_sub_get_socket_count (x : sctx) : Z :=
  u32 (rmc_sub_get_publisher_count x + (if t_mcast x =? -1 then 0 else 1)).
