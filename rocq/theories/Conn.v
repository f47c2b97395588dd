(** Conn.v — model of rmc_connection.c, the connection table both contexts share.

    A connection's slot is an element of the list [v_conns]; conn_vec->size is its length,
    connection_index its position.  System calls are arguments of the model; what the code does to the
    outside world is a list of events, oldest first.  Simplifications: the poll callbacks are
    set (when one is NULL the code skips just that call); pointers to the vector, connections
    and results are not NULL; shutdown(), fcntl() and the result of close() have no effect on
    the table and are left out. *)
From Verif Require Import Base CircBuf Wire.

(** rmc_internal.h:44-50. *)
Definition RMC_NIL_INDEX : Z := 32767.
(** rmc_internal.h:45. *)
Definition RMC_MULTICAST_INDEX : Z := 32766.
(** rmc_internal.h:46. *)
Definition RMC_LISTEN_INDEX : Z := 32765.
(** rmc_internal.h:48. *)
Definition CLOSED : Z := 0.
(** rmc_internal.h:49. *)
Definition CONNECTING : Z := 1.
(** rmc_internal.h:50. *)
Definition CONNECTED : Z := 2.
(** reliable_multicast.h:52-53. *)
Definition POLLREAD : Z := 1.
(** reliable_multicast.h:53. *)
Definition POLLWRITE : Z := 2.
(** <errno.h> (Linux). *)
(** <errno.h>, as used in rmc_connection.c:257-331. *)
Definition EINPROGRESS : Z := 115.

(** rmc_internal.h:54-106, rmc_connection_t. *)
Record conn := mkConn {
  c_action : Z; c_desc : Z; c_node : Z;
  c_rbuf : cbuf; c_wbuf : cbuf;
  c_mode : Z; c_port : Z; c_addr : Z
}.

(** rmc_internal.h:112-138, rmc_connection_vector_t. *)
Record cvec := mkVec { v_conns : list conn; v_max : Z; v_active : Z }.

(** Effects: a descriptor is opened by accept()/socket() or closed by close(); calls of
    poll_add (descriptor, index, action), poll_modify (.., old, new) and poll_remove. *)
(** The callbacks of reliable_multicast.h:65-95 and the calls of close(), accept() and socket() in rmc_connection.c:257-447. *)
Inductive cev :=
| EvOpen (d : Z)
| EvClose (d : Z)
| EvAdd (d i act : Z)
| EvMod (d i old new : Z)
| EvRem (d i : Z).

(** conn_vec->size, rmc_internal.h:114. *)
Definition v_size (v : cvec) : Z := zlen (v_conns v).

(** connections[i], read and write. *)
(** conn_vec->connections[i], rmc_internal.h:124. *)
Definition slot (v : cvec) (i : Z) : res conn :=
  if (0 <=? i) then
    match nth_error (v_conns v) (Z.to_nat i) with Some c => Ok c | None => UB OutOfBounds end
  else UB OutOfBounds.
(** A store to an array element (rmc_internal.h:124). *)
Fixpoint replace {X} (n : nat) (x : X) (l : list X) {struct l} : list X :=
  match l, n with
  | [], _ => []
  | _ :: r, O => x :: r
  | y :: r, S n => y :: replace n x r
  end.
(** A store to conn_vec->connections[i], rmc_internal.h:124. *)
Definition put_slot (v : cvec) (i : Z) (c : conn) : cvec :=
  mkVec (replace (Z.to_nat i) c (v_conns v)) (v_max v) (v_active v).
(** conn_vec->max_connection_ind = m, rmc_internal.h:117. *)
Definition set_max (v : cvec) (m : Z) : cvec := mkVec (v_conns v) m (v_active v).
(** conn_vec->active_connection_count = n, rmc_internal.h:120. *)
Definition set_active (v : cvec) (n : Z) : cvec := mkVec (v_conns v) (v_max v) n.

(** Assignments to single fields of a connection. *)
(** conn->action = a, rmc_internal.h:64. *)
Definition set_action (c : conn) (a : Z) : conn :=
  mkConn a (c_desc c) (c_node c) (c_rbuf c) (c_wbuf c) (c_mode c) (c_port c) (c_addr c).
(** conn->descriptor = d, rmc_internal.h:67. *)
Definition set_desc (c : conn) (d : Z) : conn :=
  mkConn (c_action c) d (c_node c) (c_rbuf c) (c_wbuf c) (c_mode c) (c_port c) (c_addr c).
(** conn->mode = m, rmc_internal.h:102. *)
Definition set_mode (c : conn) (m : Z) : conn :=
  mkConn (c_action c) (c_desc c) (c_node c) (c_rbuf c) (c_wbuf c) m (c_port c) (c_addr c).
(** An update of conn->read_buf, rmc_internal.h:76-86. *)
Definition set_rbuf (c : conn) (b : cbuf) : conn :=
  mkConn (c_action c) (c_desc c) (c_node c) b (c_wbuf c) (c_mode c) (c_port c) (c_addr c).
(** An update of conn->write_buf, rmc_internal.h:89-90. *)
Definition set_wbuf (c : conn) (b : cbuf) : conn :=
  mkConn (c_action c) (c_desc c) (c_node c) (c_rbuf c) b (c_mode c) (c_port c) (c_addr c).

(** The loops [while(ind <= max)] of rmc_connection.c:44-56 and 88-94: the first slot at or
    after [ind] that satisfies [p]; reading past the array is UB.  [fuel] = max + 1 - ind. *)
Fixpoint find_from (v : cvec) (p : conn -> bool) (ind : Z) (fuel : nat) : res (option Z) :=
  match fuel with
  | O => Ok None
  | S fuel => do c <- slot v ind;
              if p c then Ok (Some ind) else find_from v p (ind + 1) fuel
  end.
(** The loops of rmc_connection.c:27-58 and 77-96. *)
Definition find_conn (v : cvec) (p : conn -> bool) : res (option Z) :=
  if v_max v =? RMC_NIL_INDEX then Ok None
  else find_from v p 0 (Z.to_nat (v_max v + 1)).

(** rmc_connection.c:27-58, rmc_conn_find_by_address; the result is the slot's index. *)
Definition find_by_address (v : cvec) (addr port : Z) : res (option Z) :=
  find_conn v (fun c => negb (c_desc c =? -1) && (addr =? c_addr c) && (port =? c_port c)).

(** rmc_connection.c:77-96, rmc_conn_find_by_node_id. *)
Definition find_by_node_id (v : cvec) (node : Z) : res (option Z) :=
  find_conn v (fun c => negb (c_desc c =? -1) && (c_node c =? node)).

(** rmc_connection.c:60-74, rmc_conn_find_by_index. *)
Definition find_by_index (v : cvec) (i : Z) : res (option conn) :=
  if v_size v <=? i then Ok None                                      (* 67-68 *)
  else do c <- slot v i;
       Ok (if c_mode c =? CLOSED then None else Some c).              (* 70-73 *)

(** rmc_connection.c:99-116, _get_free_slot: the slot found and the new vector.
    Indices from 32767 (RMC_NIL_INDEX) on are not distinguished from "none" by the code; the
    model is exact for vectors of at most 32767 slots. *)
Fixpoint first_free (l : list conn) (ind : Z) : Z :=
  match l with
  | [] => RMC_NIL_INDEX
  | c :: r => if c_desc c =? -1 then ind else first_free r (ind + 1)
  end.
(** rmc_connection.c:99-115, _get_free_slot. *)
Definition get_free_slot (v : cvec) : Z * cvec :=
  let ind := first_free (v_conns v) 0 in
  if ind =? RMC_NIL_INDEX then (RMC_NIL_INDEX, v)
  else (ind, if (v_max v <? ind) || (v_max v =? RMC_NIL_INDEX) then set_max v ind else v).

(** rmc_connection.c:118-131, _reset_max_connection_ind. *)
Fixpoint last_used (l : list conn) (ind best : Z) : Z :=
  match l with
  | [] => best
  | c :: r => last_used r (ind + 1) (if c_desc c =? -1 then best else ind)
  end.
(** rmc_connection.c:118-131, _reset_max_connection_ind. *)
Definition reset_max (v : cvec) : cvec := set_max v (last_used (v_conns v) 0 RMC_NIL_INDEX).

(** rmc_connection.c:134-145, rmc_conn_reset_connection; the arrays keep their bytes. *)
Definition reset_conn (c : conn) : conn :=
  mkConn 0 (-1) 0 (circ_buf_init RMC_MAX_PACKET (cb_mem (c_rbuf c)))
         (circ_buf_init RMC_MAX_PACKET (cb_mem (c_wbuf c))) CLOSED 0 0.

(** rmc_connection.c:147-170, rmc_conn_init_connection_vector on a buffer that holds [buf]
    (elem_count of them, truncated to 16 bits). *)
Definition init_vec (buf : list conn) : cvec :=
  mkVec (map reset_conn (firstn (Z.to_nat (u16 (zlen buf))) buf)) RMC_NIL_INDEX 0.

(** rmc_connection.c:401-446, rmc_conn_close_connection. *)
Definition close_conn (v : cvec) (i : Z) : res (Z * cvec * list cev) :=
  if v_size v <=? i then Ok (EINVAL, v, [])                           (* 407-408 *)
  else do c <- slot v i;
       if c_mode c =? CLOSED then Ok (ENOTCONN, v, [])                (* 413-414 *)
       else
         let v1 := put_slot v i (reset_conn c) in                     (* 416, 438 *)
         let v2 := if i =? v_max v1 then reset_max v1 else v1 in      (* 440-441 *)
         Ok (0, set_active v2 (u16 (v_active v2 - 1)),                (* 443 *)
             [EvRem (c_desc c) i; EvClose (c_desc c)]).               (* 430-436 *)

(** Result of the calls of rmc_conn_process_accept: accept() = -1, or a descriptor with the
    peer's address and the result of setsockopt() (0 or errno). *)
(** The system calls of rmc_connection.c:336-397. *)
Inductive acc_res := AccErr (e : Z) | AccOk (d addr nodelay : Z).

(** rmc_connection.c:336-397, rmc_conn_process_accept: return code, *result_index if set. *)
Definition process_accept (listen : Z) (v : cvec) (o : acc_res)
    : res (Z * option Z * cvec * list cev) :=
  let (ind, v1) := get_free_slot v in                                 (* 348 *)
  if ind =? RMC_NIL_INDEX then Ok (ENOMEM, None, v1, [])              (* 350-351 *)
  else
    do c <- slot v1 ind;
    match o with
    | AccErr e => Ok (e, None, put_slot v1 ind (set_desc c (-1)), []) (* 353-358 *)
    | AccOk d addr nodelay =>
        let c1 := set_desc c d in
        let v2 := put_slot v1 ind c1 in
        if negb (nodelay =? 0) then                                   (* 369-373 *)
          (* the argument is the descriptor, converted to rmc_index_t, not the slot *)
          do r <- close_conn v2 (u16 d);
          let '(_, v3, evs) := r in
          Ok (nodelay, None, v3, EvOpen d :: evs)
        else
          let c2 := mkConn POLLREAD d (c_node c) (c_rbuf c) (c_wbuf c) CONNECTED (c_port c) addr in (* 375-378 *)
          let v3 := put_slot v2 ind c2 in
          Ok (0, Some ind, set_active v3 (u16 (v_active v3 + 1)),     (* 392-396 *)
              [EvOpen d; EvAdd d ind POLLREAD;                        (* 379-383 *)
               EvMod listen RMC_LISTEN_INDEX POLLREAD POLLREAD])      (* 385-390 *)
    end.

(** Results of socket() and connect() in rmc_conn_connect_tcp_by_address: socket() = -1, or a
    descriptor and: connect() = 0 while errno holds some old value, or connect() = -1. *)
(** The system calls of rmc_connection.c:257-331. *)
Inductive sock_res := SockErr (e : Z) | SockOk (d : Z) (conn_ok : bool) (errno : Z).

(** rmc_connection.c:257-331, rmc_conn_connect_tcp_by_address. *)
Definition connect_tcp (v : cvec) (addr port node : Z) (o : sock_res)
    : res (Z * option Z * cvec * list cev) :=
  let (ind, v1) := get_free_slot v in                                 (* 276 *)
  if ind =? RMC_NIL_INDEX then Ok (ENOMEM, None, v1, [])              (* 277-278 *)
  else
    do c <- slot v1 ind;
    match o with
    | SockErr e => Ok (e, None, put_slot v1 ind (set_desc c (-1)), []) (* 281-283 *)
    | SockOk d conn_ok errno =>
        if negb conn_ok && negb (errno =? EINPROGRESS) then           (* 295-303 *)
          let c1 := mkConn (c_action c) (-1) node (c_rbuf c) (c_wbuf c) (c_mode c) (c_port c) addr in
          Ok (0, None, reset_max (put_slot v1 ind c1), [EvOpen d; EvClose d])
        else
          let c1 := mkConn POLLWRITE d node (c_rbuf c) (c_wbuf c) CONNECTING port addr in (* 309-317 *)
          let v2 := put_slot v1 ind c1 in
          Ok (if errno =? EINPROGRESS then 0 else errno,              (* 306, 330 *)
              Some ind, set_active v2 (u16 (v_active v2 + 1)),        (* 326-329 *)
              [EvOpen d; EvAdd d ind POLLWRITE])                      (* 320-324 *)
    end.

(** Results of getsockopt(SO_ERROR) and setsockopt(TCP_NODELAY) in
    rmc_conn_complete_connection: getsockopt() = -1 with errno, or the value of SO_ERROR and
    the result of setsockopt() (0 or errno). *)
(** The system calls of rmc_connection.c:174-255. *)
Inductive cmp_res := CmpErr (e : Z) | CmpOk (so_error nodelay : Z).

(** rmc_connection.c:174-255, rmc_conn_complete_connection on slot [i]. *)
Definition complete_conn (v : cvec) (i : Z) (o : cmp_res) : res (Z * cvec * list cev) :=
  do c <- slot v i;
  match o with
  | CmpErr e => do r <- close_conn v i;                               (* 185-199 *)
                let '(_, v1, evs) := r in Ok (e, v1, evs)
  | CmpOk so_error nodelay =>
      if negb (so_error =? 0) then                                    (* 207-220 *)
        do r <- close_conn v i;
        let '(_, v1, evs) := r in Ok (so_error, v1, EvRem (c_desc c) i :: evs)
      else if negb (nodelay =? 0) then                                (* 224-238 *)
        do r <- close_conn v i;
        let '(_, v1, evs) := r in Ok (nodelay, v1, EvRem (c_desc c) i :: evs)
      else
        Ok (0, put_slot v i (set_action (set_mode c CONNECTED) POLLREAD),  (* 242-244 *)
            [EvMod (c_desc c) i (c_action c) POLLREAD])               (* 247-252 *)
  end.

(** rmc_connection.c:449-465 and 478-486, the three getters. *)
Definition get_max_index_in_use (v : cvec) : Z := v_max v.
(** rmc_connection.c:458-465, rmc_conn_get_active_connection_count. *)
Definition get_active_connection_count (v : cvec) : Z := v_active v.
(** rmc_connection.c:478-486, rmc_conn_get_vector_size. *)
Definition get_vector_size (v : cvec) : Z := u16 (v_size v).
(** rmc_connection.c:468-476, rmc_conn_get_pending_send_length: a uint16_t. *)
Definition pending_send (c : conn) : Z := u16 (circ_buf_in_use (c_wbuf c)).
