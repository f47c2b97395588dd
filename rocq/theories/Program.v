(** Program.v — the test publisher as a whole program: test_rmc_proto_pub() and its callbacks,
    rmc_proto_test_pub.c:115-368, on top of the library (SpecPubCtx.xstep), of process_events
    (Loop.v) and of the payload generator (TestPeers.v). *)
From Verif Require Import Base CircBuf Wire Conn Proto PubCtx SpecPubCtx SubCtx SpecSubCtx Epoll Loop TestPeers.

(** The arguments of test_rmc_proto_pub() that the program's own code uses, rmc_proto_test_pub.c:182-193:
    node_id, count, expected_subscriber_count, send_interval. The addresses and ports go to the library
    unchanged; seed, jitter and drop_rate enter through the random numbers of each packet (below). *)
Record pargs : Type := mkPa { a_node : Z; a_count : Z; a_expected : Z; a_interval : Z; a_drop : Z -> bool }.

(** Where the program is: before activation (226), at the top of the loop that waits for subscribers
    (245), at the top of the loop over the signals with the next signal_ind (263), at the top of the
    loop between two packets with signal_ind, tout and current_ts (311), at the top of the last loop
    (341), in its inner loop with tout and current_ts (347), after exit(0) (367), after exit(255)
    (122 and _test). rmc_proto_test_pub.c:226-367. *)
Inductive ploc :=
| AtStart | AtWait | AtSend (ind : Z) | AtPace (ind tout cur : Z) | AtDrain | AtCatch (tout cur : Z) | AtDone | AtFail.

(** The program: where it is, the context, subscriber_count (rmc_proto_test_pub.c:149); and, for the record,
    the library calls made so far and their effects. *)
Record pprog : Type := mkPp { q_loc : ploc; q_x : pctx; q_count : Z; q_calls : list xop; q_log : list pev }.
(** Assignments; no counterpart in /repo. *)
Definition goto (s : pprog) (l : ploc) : pprog := mkPp l (q_x s) (q_count s) (q_calls s) (q_log s).

(** _subscriber_connect_callback and _subscriber_disconnect_callback, rmc_proto_test_pub.c:151-175: the change of
    subscriber_count (log lines left out). *)
Definition counted (n : Z) (e : pev) : Z := match e with PvJoin _ _ => n + 1 | PvLeave _ _ => n - 1 | _ => n end.
(** The connect callback returns 1, rmc_proto_test_pub.c:163. *)
Definition welcome (e : ready * pin) : ready * pin :=
  let n := snd e in (fst e, mkPin (n_acc n) (Some true) (n_from n) (n_readv n) (n_send n) (n_writev n)).

(** A library call; its callbacks run during the call. rmc_proto_test_pub.c, throughout. *)
Definition lib (s : pprog) (o : xop) : res (Z * pprog) :=
  do r <- xstep (q_x s) o;
  let '(code, x', evs) := r in
  Ok (code, mkPp (q_loc s) x' (fold_left counted evs (q_count s)) (q_calls s ++ [o]) (q_log s ++ evs)).
(** process_events() with the array [b] filled by epoll_wait(), rmc_proto_test_pub.c:58-112. *)
Definition serve (s : pprog) (b : list (ready * pin)) : res (Z * pprog) :=
  do r <- pub_process_events (q_x s) (map welcome b);
  let '(code, x', l) := r in
  let evs := flat_map k_evs l in
  Ok (code, mkPp (q_loc s) x' (fold_left counted evs (q_count s)) (q_calls s ++ map k_op l) (q_log s ++ evs)).
(** process_events(), and rmc_pub_timeout_process() at [now] if nothing was ready. The local array
    [buffer] of the latter is at [buf]; the program sets no announce callback.
    rmc_proto_test_pub.c:249-250 and 319-320. *)
Definition serve_or_timeout (s : pprog) (b : list (ready * pin)) (now buf : Z) : res pprog :=
  do r <- serve s b;
  if fst r =? ETIME then do q <- lib (snd r) (XTimeout now buf AnnNone); Ok (snd q) else Ok (snd r).

(** What the outside world does during one step: the time the library reads, the time the program
    reads, epoll_wait(), the address of rmc_pub_timeout_process's buffer, the sockets of
    rmc_pub_activate_context(), malloc(), and rand() turned into the jitter of 294 and the number
    [rnd] of 267. rmc_proto_test_pub.c:226-361. *)
Record pinput : Type := mkPi { i_now : Z; i_clock : Z; i_ready : list (ready * pin); i_buf : Z; i_act : act_res; i_ptr : Z; i_jitter : Z; i_rnd : Z }.

(** One round of whichever loop the program is in. *)
(** rmc_proto_test_pub.c:231-367. *)
Definition prog_step (a : pargs) (s : pprog) (n : pinput) : res pprog :=
  match q_loc s with
  | AtStart =>
      do r1 <- lib s (XInterval 300000 (i_now n));                                   (* 231 *)
      do r2 <- lib (snd r1) (XActivate (i_act n));                                   (* 233-235; 237-239 sets the TTL *)
      Ok (goto (snd r2) (if fst r2 =? 0 then AtWait else AtFail))
  | AtWait =>
      if q_count s <? a_expected a                                                   (* 245 *)
      then do _ <- rmc_pub_timeout_get_next (q_x s);                                 (* 248 *)
           serve_or_timeout s (i_ready n) (i_now n) (i_buf n)                        (* 249-250 *)
      else do r <- lib s (XInterval 0 (i_now n)); Ok (goto (snd r) (AtSend 1))       (* 254, 260 *)
  | AtSend ind =>
      if ind <=? a_count a                                                           (* 263 *)
      then do f <- fill (Z.to_nat RMC_MAX_PAYLOAD) (a_node a) (a_count a) ind [];    (* 273-283 *)
           let drop := a_drop a (i_rnd n) in                                         (* 287-288; used for the log only *)
           let tout := i_clock n + a_interval a + i_jitter n in                      (* 285, 292-294 *)
           do r1 <- lib s (XAlloc (i_ptr n) (fst f));                                (* 118: malloc(), memcpy() *)
           do r2 <- lib (snd r1) (XQueue (i_ptr n) (zlen (fst f)) false);            (* 118 *)
           if fst r2 =? 0
           then Ok (goto (snd r2) (AtPace (snd f) tout (if tout <? i_clock n then tout else i_clock n)))  (* 305-306 *)
           else Ok (goto (snd r2) AtFail)                                            (* 120-123 *)
      else do r <- lib s (XInterval 0 (i_now n)); Ok (goto (snd r) AtDrain)          (* 337 *)
  | AtPace ind tout cur =>
      if (cur <? tout) || (100 <? rmc_pub_queue_length (q_x s))                      (* 311 *)
      then do _ <- rmc_pub_timeout_get_next (q_x s);                                 (* 314-317 *)
           do s1 <- serve_or_timeout s (i_ready n) (i_now n) (i_buf n);              (* 319-320 *)
           Ok (goto s1 (AtPace ind tout (i_clock n)))                                (* 322 *)
      else do r1 <- serve s (i_ready n);                                             (* 325 *)
           do r2 <- lib (snd r1) (XTimeout (i_now n) (i_buf n) AnnNone);             (* 326 *)
           Ok (goto (snd r2) (AtSend ind))
  | AtDrain =>
      if 0 <? q_count s                                                              (* 341 *)
      then do t <- rmc_pub_timeout_get_next (q_x s);                                 (* 343-345 *)
           Ok (goto s (AtCatch t (i_clock n)))
      else do r <- lib s XDeactivate; Ok (goto (snd r) AtDone)                       (* 361, 367 *)
  | AtCatch tout cur =>
      if negb (tout =? -1) && (tout <? cur)                                          (* 347 *)
      then do r1 <- lib s (XTimeout (i_now n) (i_buf n) AnnNone);                    (* 348 *)
           do t <- rmc_pub_timeout_get_next (q_x (snd r1));                          (* 349 *)
           do r2 <- serve (snd r1) (i_ready n);                                      (* 350 *)
           Ok (goto (snd r2) (AtCatch t cur))
      else do r <- serve s (i_ready n); Ok (goto (snd r) AtDrain)                    (* 358 *)
  | AtDone | AtFail => Ok s
  end.
(** The program before its first call after rmc_pub_init_context(), rmc_proto_test_pub.c:215-223. *)
Definition prog_init (x0 : pctx) : pprog := mkPp AtStart x0 0 [] [].
