(** SubProgram.v — the test subscriber as a whole program: test_rmc_proto_sub() and its callback,
    rmc_proto_test_sub.c:89-104 and 331-433, on top of the library (SpecSubCtx.ystep), of
    process_events (Loop.v) and of the checker (TestPeers.v). *)
From Verif Require Import Base CircBuf Wire Conn Sub Proto SubCtx SpecSubCtx PubCtx SpecPubCtx Epoll Loop TestPeers.

(** Where the program is: before activation (377), at the top of the main loop (386), in its inner loop
    with timeout_ts and current_ts (393), at the top of the loop over the ready packets (408), at the
    top of the last loop (427), after exit(0) (432), after exit(code) elsewhere.
    rmc_proto_test_sub.c:377-432. *)
Inductive sloc := SuStart | SuTop | SuCatch (tout cur : Z) | SuTake | SuFlush | SuDone | SuExit (code : Z).

(** The program: where it is, the context, the array expect[]; and, for the record, the library calls made
    so far and their effects. rmc_proto_test_sub.c:338-347. *)
Record sprog : Type := mkSg { w_loc : sloc; w_x : sctx; w_exp : list expect; w_calls : list yop; w_log : list sev }.
(** Assignments; no counterpart in /repo. *)
Definition sgoto (s : sprog) (l : sloc) : sprog := mkSg l (w_x s) (w_exp s) (w_calls s) (w_log s).
(** Assignments; no counterpart in /repo. *)
Definition sexpect (s : sprog) (e : list expect) : sprog := mkSg (w_loc s) (w_x s) e (w_calls s) (w_log s).

(** announce_cb returns 1, rmc_proto_test_sub.c:89-104 (the start time of the log is left out). *)
Definition agree (m : mrecv) : mrecv :=
  match m with McData src bs o => McData src bs (mkMi true (mi_sock o) (mi_acc o)) | _ => m end.
(** The same for everything read in one call, rmc_proto_test_sub.c:89-104. *)
Definition agreed (e : ready * sin) : ready * sin :=
  let n := snd e in (fst e, mkSin (map agree (m_from n)) (m_readv n) (m_accs n) (m_wr n)).

(** A library call. rmc_proto_test_sub.c, throughout. *)
Definition slib (s : sprog) (o : yop) : res (Z * sprog) :=
  do r <- ystep (w_x s) o;
  let '(code, x', evs) := r in
  Ok (code, mkSg (w_loc s) x' (w_exp s) (w_calls s ++ [o]) (w_log s ++ evs)).
(** process_events() with the array [b] filled by epoll_wait(), rmc_proto_test_sub.c:272-327. *)
Definition sserve (s : sprog) (b : list (ready * sin)) : res (Z * sprog) :=
  do r <- sub_process_events (w_x s) (map agreed b);
  let '(code, x', l) := r in
  Ok (code, mkSg (w_loc s) x' (w_exp s) (w_calls s ++ map k_op l) (w_log s ++ flat_map k_evs l)).

(** What the outside world does during one step: the time the library reads, the time the program reads,
    epoll_wait(), and the sockets of rmc_sub_activate_context(). rmc_proto_test_sub.c:377-429. *)
Record sinput : Type := mkSu { j_now : Z; j_clock : Z; j_ready : list (ready * sin); j_act : sact }.

(** One round of whichever loop the program is in. *)
(** rmc_proto_test_sub.c:377-432. *)
Definition sprog_step (s : sprog) (n : sinput) : res sprog :=
  match w_loc s with
  | SuStart =>
      do r1 <- slib s (YActivate (j_act n));                                          (* 377-379 *)
      if fst r1 =? 0
      then do r2 <- slib (snd r1) (YSetCbs true false false); Ok (sgoto (snd r2) SuTop)  (* 381 *)
      else Ok (sgoto (snd r1) (SuExit 255))
  | SuTop => do t <- rmc_sub_timeout_get_next (w_x s); Ok (sgoto s (SuCatch t (j_clock n)))  (* 389-391 *)
  | SuCatch tout cur =>
      if negb (tout =? -1) && (tout <? cur)                                           (* 393 *)
      then do r1 <- slib s (YTimeout (j_now n));                                      (* 394 *)
           do t <- rmc_sub_timeout_get_next (w_x (snd r1));                           (* 395 *)
           Ok (sgoto (snd r1) (SuCatch t cur))
      else do r1 <- sserve s (j_ready n);                                             (* 399 *)
           Ok (sgoto (snd r1) (if fst r1 =? ETIME then SuTop else SuTake))            (* 401 *)
  | SuTake =>
      match rmc_sub_get_next_dispatch_ready (w_x s) with                              (* 408 *)
      | None => Ok (sgoto s SuTop)
      | Some p =>
          match t_mem (w_x s) (sk_payload p) with
          | None => UB UseAfterFree
          | Some bs =>
              match process_incoming_packet (w_exp s) (ztake (sk_len p) bs) with      (* 412 *)
              | Goes e => do r <- slib (sexpect s e) (YTake (sk_addr p) false); Ok (snd r)  (* 268 *)
              | Passed => Ok (sgoto s SuFlush)                                        (* 413-414, 421-422 *)
              | Exits code => Ok (sgoto s (SuExit code))
              | Undef => UB OutOfBounds
              end
          end
      end
  | SuFlush =>
      do r1 <- sserve s (j_ready n);                                                  (* 427 *)
      if fst r1 =? ETIME
      then do r2 <- slib (snd r1) YDeactivate; Ok (sgoto (snd r2) SuDone)             (* 429, 432 *)
      else Ok (snd r1)
  | SuDone | SuExit _ => Ok s
  end.
(** The program before its first call after rmc_sub_init_context(), rmc_proto_test_sub.c:346-375. *)
Definition sprog_init (map_ : list bool) (x0 : sctx) : sprog := mkSg SuStart x0 (expect_init map_) [] [].
