(** Setup.v — creation, activation and deletion of contexts, statement by statement:
    rmc_pub_context.c:26-318, 341-353 and rmc_sub_context.c:26-220, 262-272.

    PubCtx.v and SubCtx.v start from a context that was created successfully and take the
    result of all system calls of an activation together.  Here the arguments may be wrong, a
    field that was never assigned has no value, and every system call is answered separately.
    PropSetup.v connects the two.
    A string is the list of its bytes; inet_aton(), malloc(), rand_r() and the system calls are
    answered by the environment.  The memory for the connections holds some [conn]s to begin with.
    Logging is left out (Log.v), except that it may change errno. *)
From Verif Require Import Base CircBuf Wire ListHeap SeqList Pub Sub Proto Conn PubCtx SubCtx.

(** Byte order: the four bytes in memory of an address and its value in the host, for a
    little-endian host: ntohl() and htonl(), rmc_pub_context.c:97, 178; htons(), 211. *)
Definition ntohl_mem (bs : list Z) : Z := le_val (rev bs).
(** rmc_pub_context.c:178, htonl(). *)
Definition htonl_mem (v : Z) : list Z := rev (le_bytes 4 v).
(** rmc_pub_context.c:211, htons(); the argument is an int and is cut to 16 bits. *)
Definition htons_mem (v : Z) : list Z := rev (le_bytes 2 (u16 v)).

(** "0.0.0.0", rmc_pub_context.c:87, 90 and rmc_sub_context.c:89. *)
Definition any_addr : list Z := [48; 46; 48; 46; 48; 46; 48].

(** The C library: inet_aton() gives the four bytes of the address or refuses the text; the
    results of malloc() in the order of the calls, 0 for NULL; the result of rand_r(). *)
(** The calls of rmc_pub_context.c:60-148 and rmc_sub_context.c:56-124. *)
Record env := mkEnv { e_aton : list Z -> option (list Z); e_m1 : Z; e_m2 : Z; e_m3 : Z; e_rand : Z }.

(** Blocks of memory obtained and given back, rmc_pub_context.c:60, 67, 148, 315-316. *)
Inductive hev := HAlloc (a n : Z) | HFree (a : Z).

(** ** The publisher *)
(** The members of rmc_pub_context_t that are scalars or pointers, rmc_internal.h:141-249, and
    those of its conn_vec, rmc_internal.h:112-138. *)
Inductive pfield :=
| P_vec_user | P_poll_add | P_poll_modify | P_poll_remove | P_connections
| P_subscribers | P_user_data | P_listen_if | P_mcast_if | P_group | P_mcast_port | P_listen_port
| P_mcast_desc | P_listen_desc | P_node | P_resend | P_ann_interval | P_ann_next
| P_suspend | P_resume | P_suspended | P_announce_cb | P_connect_cb | P_disconnect_cb | P_control_cb | P_free_cb.
(** Whether two members are the same one, rmc_internal.h:141-249. *)
Definition pfield_eq (a b : pfield) : {a = b} + {a <> b}.
Proof. decide equality. Defined.
(** A context that is being set up: a member without a value was never assigned,
    rmc_internal.h:141-249. *)
Record praw := mkPr { pr_f : pfield -> option Z; pr_vec : option cvec; pr_pub : option pub }.
(** malloc() returns memory without values, rmc_pub_context.c:60. *)
Definition praw0 : praw := mkPr (fun _ => None) None None.
(** ctx->f = v, e.g. rmc_pub_context.c:76. *)
Definition pset (f : pfield) (v : Z) (r : praw) : praw :=
  mkPr (fun g => if pfield_eq f g then Some v else pr_f r g) (pr_vec r) (pr_pub r).
(** Reading ctx->f, e.g. rmc_pub_context.c:299. *)
Definition pget (f : pfield) (r : praw) : res Z :=
  match pr_f r f with Some v => Ok v | None => UB UninitRead end.

(** The arguments of rmc_pub_init_context, rmc_pub_context.c:26-50; a callback is 0 or its address. *)
Record pargs := mkPa {
  pa_node : Z; pa_group : option (list Z); pa_mport : Z; pa_mif : option (list Z);
  pa_lif : option (list Z); pa_lport : Z; pa_user : Z;
  pa_add : Z; pa_modify : Z; pa_remove : Z; pa_max : Z; pa_free : Z }.

(** A string argument with its default, rmc_pub_context.c:86-90. *)
Definition or_any (s : option (list Z)) : list Z := match s with Some t => t | None => any_addr end.
(** node_id ? node_id : rand_r(&seed), rmc_pub_context.c:75 and rmc_sub_context.c:74. *)
Definition pick_node (node rnd : Z) : Z := if node =? 0 then u32 rnd else node.

(** sizeof(rmc_connection_t), sizeof(rmc_pub_context_t), sizeof(pub_subscriber_t) and their
    counterparts depend on the compiler; a block is described by its number of elements. *)
(** rmc_connection.c:147-170, rmc_conn_init_connection_vector as called in rmc_pub_context.c:78-84. *)
Definition pinit_vector (a : pargs) (buf : list conn) (mem : Z) (r : praw) : praw :=
  let r := mkPr (pr_f r) (Some (init_vec buf)) (pr_pub r) in
  pset P_vec_user (pa_user a) (pset P_poll_remove (pa_remove a) (pset P_poll_modify (pa_modify a)
    (pset P_poll_add (pa_add a) (pset P_connections mem r)))).

(** rmc_pub_context.c:26-152, rmc_pub_init_context: the code, what was stored in *context_res
    (the address and the memory there), and the blocks.  [wanted]: context_res is not NULL.
    exit(255) is [Abort].  The result of the third malloc() is not looked at (148). *)
Definition pub_init_context (wanted : bool) (a : pargs) (en : env) (buf : list conn)
  : res (Z * option (Z * praw) * list hev) :=
  match wanted, pa_group a with
  | false, _ | _, None => Ok (EINVAL, None, [])                                       (* 57-58 *)
  | true, Some group =>
      if e_m1 en =? 0 then Abort else                                                 (* 60-64 *)
      if e_m2 en =? 0 then Abort else                                                 (* 67-71 *)
      let got := [HAlloc (e_m1 en) 1; HAlloc (e_m2 en) (pa_max a)] in
      let r := pset P_user_data (pa_user a) (pset P_node (pick_node (pa_node a) (e_rand en)) praw0) in   (* 75-76 *)
      let r := pinit_vector a buf (e_m2 en) r in                                      (* 78-84 *)
      let bad r := Ok (EINVAL, Some (e_m1 en, r), got) in
      match e_aton en group with
      | None => bad r                                                                 (* 92-96 *)
      | Some g =>
          let r := pset P_group (ntohl_mem g) r in                                    (* 97 *)
          match e_aton en (or_any (pa_lif a)) with
          | None => bad r                                                             (* 99-103 *)
          | Some l =>
              let r := pset P_listen_if (ntohl_mem l) r in                            (* 104 *)
              match e_aton en (or_any (pa_mif a)) with
              | None => bad r                                                         (* 106-110 *)
              | Some i =>
                  let r := pset P_mcast_if (ntohl_mem i) r in                         (* 111 *)
                  let r := pset P_listen_port (pa_lport a) (pset P_mcast_port (pa_mport a) r) in      (* 113-114 *)
                  let r := pset P_listen_desc (-1) (pset P_mcast_desc (-1) r) in      (* 116-117 *)
                  let r := pset P_user_data (pa_user a) r in                          (* 119 *)
                  let r := pset P_poll_remove (pa_remove a) (pset P_poll_modify (pa_modify a)
                             (pset P_poll_add (pa_add a) r)) in                       (* 120-122 *)
                  let r := pset P_free_cb (pa_free a) r in                            (* 124 *)
                  let r := pset P_resend RMC_DEFAULT_PACKET_TIMEOUT r in              (* 126 *)
                  let r := pset P_disconnect_cb 0 (pset P_connect_cb 0 r) in          (* 128-131 *)
                  let r := pset P_ann_next 0 (pset P_ann_interval 0 (pset P_announce_cb 0 r)) in      (* 133-135 *)
                  let r := pset P_suspended 0 (pset P_resume 0 (pset P_suspend 0 r)) in               (* 137-139 *)
                  let r := mkPr (pr_f r) (pr_vec r) (Some pub_init) in                (* 146 *)
                  let r := pset P_subscribers (e_m3 en) r in                          (* 148 *)
                  Ok (0, Some (e_m1 en, r), got ++ [HAlloc (e_m3 en) (pa_max a)])
              end
          end
      end
  end.

(** rmc_pub_context.c:433-440, rmc_pub_set_user_data for a context that is not NULL. *)
Definition pub_set_user_data (v : Z) (r : praw) : praw := pset P_user_data v r.
(** The user data a poll callback gets for one of the context's own sockets
    (rmc_pub_context.c:237, 242, 276, 280) and for a control connection
    (rmc_connection.c:215, 234, 248, 321, 380, 386, 431). *)
Definition own_poll_user (r : praw) : res Z := pget P_user_data r.
(** rmc_connection.c:215, 234, 248, 321, 380, 386, 431. *)
Definition conn_poll_user (r : praw) : res Z := pget P_vec_user r.

(** The context PubCtx.v speaks of, made of the members the later calls read; [m] is the
    application's memory.  rmc_internal.h:141-249. *)
Definition pctx_of (r : praw) (m : Z -> option (list Z)) : res pctx :=
  match pr_vec r, pr_pub r with
  | Some v, Some s =>
      do susp <- pget P_suspended r; do sthr <- pget P_suspend r; do rthr <- pget P_resume r;
      do md <- pget P_mcast_desc r; do ld <- pget P_listen_desc r;
      do ai <- pget P_ann_interval r; do an <- pget P_ann_next r; do rs <- pget P_resend r;
      do nd <- pget P_node r; do li <- pget P_listen_if r; do lp <- pget P_listen_port r;
      Ok (mkX s v m (negb (susp =? 0)) sthr rthr md ld ai an
            (match pr_f r P_control_cb with None => FpUninit | Some z => if z =? 0 then FpNull else FpSet end)
            rs nd li lp)
  | _, _ => UB UninitRead
  end.

(** rmc_pub_context.c:308-318, rmc_pub_delete_context for a context at [ctx] whose connections
    are at [conns]: what deactivation does, then the blocks given back. *)
Definition pub_delete_context (ctx conns : Z) (x : pctx) : res (Z * list pev * list hev) :=
  do d <- rmc_pub_deactivate_context x;                                               (* 313 *)
  let '(_, _, evs) := d in
  Ok (0, evs, [HFree conns; HFree ctx]).                                              (* 315-317 *)
(** The same for a context that may lack members: rmc_pub_deactivate_context reads
    conn_vec.poll_remove (275), user_data, mcast_send_descriptor (299) and listen_descriptor (300). *)
(** rmc_pub_context.c:308-318 with 265-306. *)
Definition pub_delete_raw (ctx : Z) (r : praw) (m : Z -> option (list Z)) : res (Z * list pev * list hev) :=
  do _ <- pget P_poll_remove r; do _ <- pget P_user_data r;
  do _ <- pget P_mcast_desc r; do _ <- pget P_listen_desc r;
  do conns <- pget P_connections r;
  do x <- pctx_of r m; pub_delete_context ctx conns x.

(** ** The subscriber *)
(** The members of rmc_sub_context_t, rmc_internal.h:252-378, and of its conn_vec, rmc_internal.h:112-138. *)
Inductive sfield :=
| S_vec_user | S_poll_add | S_poll_modify | S_poll_remove | S_connections
| S_publishers | S_ready_list | S_ack_list | S_user_data | S_mcast_if | S_group | S_mcast_port | S_mcast_desc
| S_ack_timeout | S_node | S_packet_ready_cb | S_announce_cb | S_complete_cb | S_alloc_cb | S_free_cb.
(** Whether two members are the same one, rmc_internal.h:252-378. *)
Definition sfield_eq (a b : sfield) : {a = b} + {a <> b}.
Proof. decide equality. Defined.
(** A subscriber context that is being set up, rmc_internal.h:252-378. *)
Record sraw := mkSr { sr_f : sfield -> option Z; sr_vec : option cvec }.
(** rmc_sub_context.c:56. *)
Definition sraw0 : sraw := mkSr (fun _ => None) None.
(** ctx->f = v, e.g. rmc_sub_context.c:75. *)
Definition sset (f : sfield) (v : Z) (r : sraw) : sraw :=
  mkSr (fun g => if sfield_eq f g then Some v else sr_f r g) (sr_vec r).
(** Reading ctx->f, e.g. rmc_sub_context.c:142. *)
Definition sget (f : sfield) (r : sraw) : res Z :=
  match sr_f r f with Some v => Ok v | None => UB UninitRead end.

(** The arguments of rmc_sub_init_context, rmc_sub_context.c:26-46. *)
Record sargs := mkSa {
  sa_node : Z; sa_group : option (list Z); sa_mport : Z; sa_mif : option (list Z); sa_user : Z;
  sa_add : Z; sa_modify : Z; sa_remove : Z; sa_max : Z; sa_alloc : Z; sa_free : Z }.

(** rmc_connection.c:147-170 as called in rmc_sub_context.c:80-86. *)
Definition sinit_vector (a : sargs) (buf : list conn) (mem : Z) (r : sraw) : sraw :=
  let r := mkSr (sr_f r) (Some (init_vec buf)) in
  sset S_vec_user (sa_user a) (sset S_poll_remove (sa_remove a) (sset S_poll_modify (sa_modify a)
    (sset S_poll_add (sa_add a) (sset S_connections mem r)))).

(** rmc_sub_context.c:26-129, rmc_sub_init_context; as for the publisher. *)
Definition sub_init_context (wanted : bool) (a : sargs) (en : env) (buf : list conn)
  : res (Z * option (Z * sraw) * list hev) :=
  match wanted, sa_group a with
  | false, _ | _, None => Ok (EINVAL, None, [])                                       (* 53-54 *)
  | true, Some group =>
      if e_m1 en =? 0 then Abort else                                                 (* 56-60 *)
      if e_m2 en =? 0 then Abort else                                                 (* 62-66 *)
      let got := [HAlloc (e_m1 en) 1; HAlloc (e_m2 en) (sa_max a)] in
      let r := sset S_ack_list 0 (sset S_ready_list 0 sraw0) in                       (* 69-70: two empty lists *)
      let r := sset S_user_data (sa_user a) (sset S_node (pick_node (sa_node a) (e_rand en)) r) in        (* 74-75 *)
      let r := sset S_packet_ready_cb 0 (sset S_complete_cb 0 (sset S_announce_cb 0 r)) in                (* 76-78 *)
      let r := sinit_vector a buf (e_m2 en) r in                                      (* 80-86 *)
      let bad r := Ok (EINVAL, Some (e_m1 en, r), got) in
      match e_aton en group with
      | None => bad r                                                                 (* 92-96 *)
      | Some g =>
          let r := sset S_group (ntohl_mem g) r in                                    (* 97 *)
          match e_aton en (or_any (sa_mif a)) with                                    (* 88-89 *)
          | None => bad r                                                             (* 99-103 *)
          | Some i =>
              let r := sset S_mcast_if (ntohl_mem i) r in                             (* 104 *)
              let r := sset S_mcast_desc (-1) (sset S_mcast_port (sa_mport a) r) in   (* 108-110 *)
              let r := sset S_poll_remove (sa_remove a) (sset S_poll_modify (sa_modify a)
                         (sset S_poll_add (sa_add a) r)) in                           (* 113-115 *)
              let r := sset S_free_cb (sa_free a) (sset S_alloc_cb (sa_alloc a) r) in (* 117-118 *)
              let r := sset S_ack_timeout RMC_DEFAULT_ACK_TIMEOUT r in                (* 120 *)
              let r := sset S_publishers (e_m3 en) r in                               (* 124 *)
              Ok (0, Some (e_m1 en, r), got ++ [HAlloc (e_m3 en) (sa_max a)])
          end
      end
  end.

(** The context SubCtx.v speaks of.  rmc_internal.h:252-378. *)
Definition sctx_of (r : sraw) (m : Z -> option (list Z)) : res sctx :=
  match sr_vec r with
  | Some v =>
      do _ <- sget S_ready_list r; do _ <- sget S_ack_list r;
      do md <- sget S_mcast_desc r; do at_ <- sget S_ack_timeout r; do nd <- sget S_node r;
      do ac <- sget S_announce_cb r; do sc <- sget S_complete_cb r; do pc <- sget S_packet_ready_cb r;
      Ok (mkT (fun _ => None) v [] [] m 0 md at_ nd (negb (ac =? 0)) (negb (sc =? 0)) (negb (pc =? 0)))
  | None => UB UninitRead
  end.

(** rmc_sub_context.c:262-272, rmc_sub_delete_context. *)
Definition sub_delete_context (ctx conns : Z) (x : sctx) : res (Z * list sev * list hev) :=
  do d <- rmc_sub_deactivate_context x;                                               (* 267 *)
  let '(_, _, evs) := d in
  Ok (0, evs, [HFree conns; HFree ctx]).                                              (* 269-271 *)
(** The same for a context that may lack members: rmc_sub_deactivate_context reads the two
    lists (234, 238), mcast_recv_descriptor (240) and conn_vec.poll_remove (241). *)
(** rmc_sub_context.c:262-272 with 224-260. *)
Definition sub_delete_raw (ctx : Z) (r : sraw) (m : Z -> option (list Z)) : res (Z * list sev * list hev) :=
  do _ <- sget S_ready_list r; do _ <- sget S_ack_list r;
  do _ <- sget S_mcast_desc r; do _ <- sget S_poll_remove r;
  do conns <- sget S_connections r;
  do x <- sctx_of r m; sub_delete_context ctx conns x.

(** ** Activation, one system call at a time *)
(** The answer of a system call: a result, or a failure with errno. *)
(** The calls of rmc_pub_context.c:168-231 and rmc_sub_context.c:148-202. *)
Inductive ans := Ret (v : Z) | Fail (e : Z).
(** A system call with its arguments as they lie in memory, or a call of poll_add. *)
(** The calls of rmc_pub_context.c:168-258 and rmc_sub_context.c:148-216. *)
Inductive sysc :=
| ScSocket (tcp : bool) (a : ans)                    (* and its answer *)
| ScMcastIf (d : Z) (addr : list Z)                  (* IP_MULTICAST_IF *)
| ScReuseAddr (d : Z) | ScReusePort (d : Z)
| ScRcvBuf (d sz : Z)
| ScBind (d : Z) (addr port : list Z)
| ScListen (d backlog : Z)
| ScName (d : Z)                                     (* getsockname() *)
| ScMember (d : Z) (group ifc : list Z)              (* IP_ADD_MEMBERSHIP *)
| ScLoop (d : Z)                                     (* IP_MULTICAST_LOOP *)
| ScTtl (d hops : Z)                                 (* IP_MULTICAST_TTL *)
| ScClose (d : Z)
| ScPollAdd (user d i act : Z).

(** rmc_internal.h:29, RMC_LISTEN_SOCKET_BACKLOG. *)
Definition RMC_LISTEN_SOCKET_BACKLOG : Z := 5.

(** What rmc_pub_activate_context reads and writes, rmc_internal.h:156-169. *)
Record pnet := mkPn { n_user : Z; n_lif : Z; n_mif : Z; n_lport : Z; n_mdesc : Z; n_ldesc : Z; n_add : bool }.
(** The assignments of rmc_pub_context.c:168, 189, 252-260. *)
Definition set_net (n : pnet) (m l : Z) : pnet := mkPn (n_user n) (n_lif n) (n_mif n) (n_lport n) m l (n_add n).
(** The answers of the system calls of rmc_pub_activate_context, one for each place in the
    code; getsockname() answers with a port.  rmc_pub_context.c:168-231. *)
Record pans := mkPans { q_msock : ans; q_mif : ans; q_lsock : ans; q_raddr : ans; q_rport : ans;
                        q_bind : ans; q_listen : ans; q_name : ans }.

(** The label error, rmc_pub_context.c:250-262.  [later] is what logging and close() leave of
    errno.  [done] are the calls so far. *)
Definition pub_act_error (later : Z -> Z) (e : Z) (n : pnet) (done : list sysc) : Z * pnet * list sysc :=
  (later e, set_net n (-1) (-1),
   done ++ (if n_mdesc n =? -1 then [] else [ScClose (n_mdesc n)])                    (* 252-255 *)
        ++ (if n_ldesc n =? -1 then [] else [ScClose (n_ldesc n)])).                  (* 257-260 *)

(** A system call whose failure goes to the label error, e.g. rmc_pub_context.c:179-183. *)
Definition orerr {X} (a : ans) (err : Z -> X) (k : X) : X := match a with Fail e => err e | Ret _ => k end.

(** rmc_pub_context.c:155-263, rmc_pub_activate_context. *)
Definition pub_activate (later : Z -> Z) (n : pnet) (q : pans) : Z * pnet * list sysc :=
  let c1 := [ScSocket false (q_msock q)] in
  match q_msock q with
  | Fail e => pub_act_error later e (set_net n (-1) (n_ldesc n)) c1                   (* 168-173 *)
  | Ret m =>
      let n := set_net n m (n_ldesc n) in
      let c2 := c1 ++ [ScMcastIf m (htonl_mem (n_mif n))] in                          (* 178-179 *)
      orerr (q_mif q) (fun e => pub_act_error later e n c2) (                         (* 180-183 *)
      let c3 := c2 ++ [ScSocket true (q_lsock q)] in
      match q_lsock q with
      | Fail e => pub_act_error later e (set_net n m (-1)) c3                         (* 189-193 *)
      | Ret l =>
          let n := set_net n m l in
          let c4 := c3 ++ [ScReuseAddr l] in
          orerr (q_raddr q) (fun e => pub_act_error later e n c4) (                   (* 195-199 *)
          let c5 := c4 ++ [ScReusePort l] in
          orerr (q_rport q) (fun e => pub_act_error later e n c5) (                   (* 201-205 *)
          let c6 := c5 ++ [ScBind l (htonl_mem (n_lif n)) (htons_mem (n_lport n))] in (* 209-211 *)
          orerr (q_bind q) (fun e => pub_act_error later e n c6) (                    (* 213-217 *)
          let c7 := c6 ++ [ScListen l RMC_LISTEN_SOCKET_BACKLOG] in
          orerr (q_listen q) (fun e => pub_act_error later e n c7) (                  (* 219-222 *)
          let named := if n_lport n =? 0 then [ScName l] else [] in                   (* 225 *)
          let c8 := c7 ++ named in
          let fin n := (0, n, c8 ++ (if n_add n then [ScPollAdd (n_user n) m RMC_MULTICAST_INDEX POLLREAD;
                                                     ScPollAdd (n_user n) l RMC_LISTEN_INDEX POLLREAD] else [])) in   (* 236-246 *)
          if n_lport n =? 0 then
            match q_name q with
            | Fail e => pub_act_error later e n c8                                    (* 227-230 *)
            | Ret p => fin (mkPn (n_user n) (n_lif n) (n_mif n) p m l (n_add n))      (* 231 *)
            end
          else fin n))))
      end)
  end.

(** rmc_pub_context.c:341-353, rmc_pub_set_multicast_ttl. *)
Definition pub_set_ttl (later : Z -> Z) (mdesc hops : Z) (a : ans) : Z * list sysc :=
  if mdesc =? -1 then (ENOTCONN, [])                                                  (* 343-344 *)
  else (match a with Fail e => later e | Ret _ => 0 end, [ScTtl mdesc hops]).         (* 346-352 *)

(** What rmc_sub_activate_context reads and writes, rmc_internal.h:279-288. *)
Record snet := mkSn { w_user : Z; w_group : Z; w_mif : Z; w_mport : Z; w_mdesc : Z; w_add : bool }.
(** The assignments of rmc_sub_context.c:148, 216. *)
Definition set_wnet (n : snet) (m : Z) : snet := mkSn (w_user n) (w_group n) (w_mif n) (w_mport n) m (w_add n).
(** The answers of the system calls of rmc_sub_context.c:148-202. *)
Record sans := mkSans { u_sock : ans; u_rport : ans; u_rcv : ans; u_bind : ans; u_member : ans; u_loop : ans }.
(** The label error, rmc_sub_context.c:212-219. *)
Definition sub_act_error (later : Z -> Z) (e : Z) (n : snet) (done : list sysc) : Z * snet * list sysc :=
  (later e, set_wnet n (-1), done ++ (if w_mdesc n =? -1 then [] else [ScClose (w_mdesc n)])).

(** rmc_sub_context.c:132-220, rmc_sub_activate_context. *)
Definition sub_activate (later : Z -> Z) (n : snet) (q : sans) : Z * snet * list sysc :=
  if negb (w_mdesc n =? -1) then (EEXIST, n, []) else                                 (* 142-143 *)
  let c1 := [ScSocket false (u_sock q)] in
  match u_sock q with
  | Fail e => sub_act_error later e (set_wnet n (-1)) c1                              (* 148-153 *)
  | Ret d =>
      let n := set_wnet n d in
      let c2 := c1 ++ [ScReusePort d] in
      orerr (u_rport q) (fun e => sub_act_error later e n c2) (                       (* 155-159 *)
      let c3 := c2 ++ [ScRcvBuf d 1048576] in
      orerr (u_rcv q) (fun e => sub_act_error later e n c3) (                         (* 161-165 *)
      let c4 := c3 ++ [ScBind d [0; 0; 0; 0] (htons_mem (w_mport n))] in              (* 167-171 *)
      match u_bind q with
      | Fail e => (later e, n, c4)                                                    (* 173-178: no goto error *)
      | Ret _ =>
          let c5 := c4 ++ [ScMember d (htonl_mem (w_group n)) (htonl_mem (w_mif n))] in     (* 181-184 *)
          orerr (u_member q) (fun e => sub_act_error later e n c5) (
          let c6 := c5 ++ [ScLoop d] in
          orerr (u_loop q) (fun e => sub_act_error later e n c6) (                    (* 198-202 *)
          (0, n, c6 ++ (if w_add n then [ScPollAdd (w_user n) d RMC_MULTICAST_INDEX POLLREAD] else []))))     (* 204-210 *)
      end))
  end.
