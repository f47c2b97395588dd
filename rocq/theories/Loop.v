(** Loop.v — the event loops of the two programs that come with the library,
    rmc_proto_test_pub.c and rmc_proto_test_sub.c, on top of epoll_wait(). *)
From Verif Require Import Base CircBuf Wire Conn Proto PubCtx SpecPubCtx SubCtx SpecSubCtx Epoll.

(** errno.h, as on Linux. *)
Definition ETIME : Z := 62.
(** Conversion to int; gcc and clang wrap around. *)
Definition int32 (z : Z) : Z := (z + 2147483648) mod 4294967296 - 2147483648.

(** rmc_proto_test_pub.c:63-72 and rmc_proto_test_sub.c:279-287: the last argument of
    epoll_wait() for the deadline [timeout], at time [now]. usec_timestamp_t is 64 bits wide;
    timestamps are unbounded here. *)
Definition wait_ms (timeout now : Z) : Z :=
  if timeout =? -1 then -1
  else let t := if timeout - now <? 0 then 0 else timeout - now in
       int32 (Z.quot t 1000 + 1).

(** One element of the array that epoll_wait() fills: the descriptor it was filled in for
    (which the program does not see), data.u32, which is the connection index (see Epoll.v),
    and the events. epoll_ctl(2). *)
Record ready : Type := mkRdy { y_desc : Z; y_ind : Z; y_ev : Z }.

(** A call made by the loop: the element it is made for with the inputs of the outside world,
    the operation, the context before, the return code and the effects. No counterpart in
    /repo: this is the trace. *)
Record call (I X O E : Type) : Type := mkCall { k_ent : ready * I; k_op : O; k_pre : X; k_code : Z; k_evs : list E }.
Arguments mkCall {I X O E}. Arguments k_ent {I X O E}. Arguments k_op {I X O E}. Arguments k_pre {I X O E}. Arguments k_code {I X O E}. Arguments k_evs {I X O E}.

(** ** The publisher *)
(** What the outside world answers while one element is handled: accept(), the connect
    callback, recvfrom(), readv(), sendmsg() and writev(). *)
(** The system calls under rmc_proto_test_pub.c:95-108. *)
Record pin : Type := mkPin { n_acc : acc_res; n_cb : option bool; n_from : option Z; n_readv : rres; n_send : list sres; n_writev : wres }.
(** rmc_pub_read.c:139, 166 and rmc_pub_write.c:241: the index decides which of them are used. *)
Definition pub_rd (i : Z) (n : pin) : prd :=
  if i =? RMC_LISTEN_INDEX then RdAccept (n_acc n) (n_cb n)
  else if i =? RMC_MULTICAST_INDEX then RdMcast (n_from n) else RdTcp (n_readv n).
Definition pub_wr (i : Z) (n : pin) : pwr := if i =? RMC_MULTICAST_INDEX then WrMcast (n_send n) else WrTcp (n_writev n).
Definition pcall : Type := call pin pctx xop pev.

(** rmc_proto_test_pub.c:83-108, the body of the loop over the array. *)
Definition pub_event (x : pctx) (e : ready * pin) : res (pctx * list pcall) :=
  let i := u16 (y_ind (fst e)) in                                                    (* 85 *)
  let n := snd e in
  do a <- (if Z.land (y_ev (fst e)) EPOLLIN =? 0 then Ok (x, [])
           else do r <- rmc_pub_read x i (pub_rd i n);                               (* 95-102 *)
                let '(code, _, x1, evs) := r in Ok (x1, [mkCall e (XRead i (pub_rd i n)) x code evs]));
  if Z.land (y_ev (fst e)) EPOLLOUT =? 0 then Ok a
  else do r <- rmc_pub_write (fst a) i (pub_wr i n);                                 (* 104-105 *)
       let '(code, _, x2, evs) := r in
       let l := snd a ++ [mkCall e (XWrite i (pub_wr i n)) (fst a) code evs] in
       if (code =? 0) || (code =? EAGAIN) || (code =? ENODATA) then Ok (x2, l)       (* 106 *)
       else do q <- rmc_pub_close_connection x2 i;                                   (* 107 *)
            let '(code2, x3, evs2) := q in Ok (x3, l ++ [mkCall e (XClose i) x2 code2 evs2]).
(** rmc_proto_test_pub.c:82-109: the elements [l], in the order they are handled. *)
Fixpoint pub_events (x : pctx) (l : list (ready * pin)) : res (pctx * list pcall) :=
  match l with
  | [] => Ok (x, [])
  | e :: r => do a <- pub_event x e; do b <- pub_events (fst a) r; Ok (fst b, snd a ++ snd b)
  end.
(** rmc_proto_test_pub.c:58-112, process_events: the result and the calls made. [b] is the
    array as epoll_wait() filled it; a failing epoll_wait() ends the process (73-76). *)
Definition pub_process_events (x : pctx) (b : list (ready * pin)) : res (Z * pctx * list pcall) :=
  match b with
  | [] => Ok (ETIME, x, [])                                                          (* 79-80 *)
  | _ => do r <- pub_events x (rev b); Ok (0, fst r, snd r)                          (* 82, 111 *)
  end.
(** rmc_proto_test_pub.c:246-250, one turn of the loop that waits for subscribers: the argument
    of epoll_wait(), then what process_events and rmc_pub_timeout_process did. *)
Definition pub_turn (x : pctx) (t0 : Z) (b : list (ready * pin)) (now buf : Z) (o : ann_res) : res (Z * pctx * list pcall * list pev) :=
  do t <- rmc_pub_timeout_get_next x;                                                (* 248 *)
  do q <- pub_process_events x b;                                                    (* 249 *)
  let '(code, x1, l) := q in
  if code =? ETIME then do r <- rmc_pub_timeout_process x1 now buf o;                (* 250 *)
                        let '(_, x2, evs) := r in Ok (wait_ms t t0, x2, l, evs)
  else Ok (wait_ms t t0, x1, l, []).

(** What happens in one turn: the time of the wait, the array, and what rmc_pub_timeout_process
    gets if it is called. rmc_proto_test_pub.c:246-250. *)
Record turn : Type := mkTurn { u_t0 : Z; u_ready : list (ready * pin); u_now : Z; u_buf : Z; u_ann : ann_res }.
(** rmc_proto_test_pub.c:245-251, the loop that waits for subscribers, for as many turns as
    it takes. *)
Fixpoint pub_turns (x : pctx) (l : list turn) : res (pctx * list pcall * list pev) :=
  match l with
  | [] => Ok (x, [], [])
  | u :: r => do a <- pub_turn x (u_t0 u) (u_ready u) (u_now u) (u_buf u) (u_ann u);
              let '(_, x1, l1, e1) := a in
              do b <- pub_turns x1 r;
              let '(x2, l2, e2) := b in Ok (x2, l1 ++ l2, e1 ++ e2)
  end.

(** ** The subscriber *)
(** recvfrom(), readv() and the packets' inputs, getsockopt()/setsockopt() and writev(). *)
(** The system calls under rmc_proto_test_sub.c:311-323. *)
Record sin : Type := mkSin { m_from : list mrecv; m_readv : rres; m_accs : list accin; m_wr : swr }.
(** rmc_sub_read.c:384. *)
Definition sub_rd (i : Z) (n : sin) : srd := if i =? RMC_MULTICAST_INDEX then SrMcast (m_from n) else SrTcp (m_readv n) (m_accs n).
Definition scall : Type := call sin sctx yop sev.
(** rmc_proto_test_sub.c:300-323, the body of the loop over the array. *)
Definition sub_event (x : sctx) (e : ready * sin) : res (sctx * list scall) :=
  let i := u16 (y_ind (fst e)) in                                                    (* 302 *)
  let n := snd e in
  do a <- (if Z.land (y_ev (fst e)) EPOLLIN =? 0 then Ok (x, [])
           else do r <- rmc_sub_read x i (sub_rd i n);                               (* 311-316 *)
                let '(code, _, x1, evs) := r in Ok (x1, [mkCall e (YRead i (sub_rd i n)) x code evs]));
  if Z.land (y_ev (fst e)) EPOLLOUT =? 0 then Ok a
  else do r <- rmc_sub_write (fst a) i (m_wr n);                                     (* 318-319 *)
       let '(code, _, x2, evs) := r in
       let l := snd a ++ [mkCall e (YWrite i (m_wr n)) (fst a) code evs] in
       if code =? 0 then Ok (x2, l)                                                  (* 319 *)
       else do q <- rmc_sub_close_connection x2 i;                                   (* 321 *)
            Ok (fst q, l ++ [mkCall e (YClose i) x2 0 (snd q)]).
(** rmc_proto_test_sub.c:299-324. *)
Fixpoint sub_events (x : sctx) (l : list (ready * sin)) : res (sctx * list scall) :=
  match l with
  | [] => Ok (x, [])
  | e :: r => do a <- sub_event x e; do b <- sub_events (fst a) r; Ok (fst b, snd a ++ snd b)
  end.
(** rmc_proto_test_sub.c:272-327, process_events. *)
Definition sub_process_events (x : sctx) (b : list (ready * sin)) : res (Z * sctx * list scall) :=
  match b with
  | [] => Ok (ETIME, x, [])                                                          (* 295-296 *)
  | _ => do r <- sub_events x (rev b); Ok (0, fst r, snd r)                          (* 299, 326 *)
  end.
(** rmc_proto_test_sub.c:391-396, catching up on acknowledgements: [cur] is current_ts, [clock k]
    the time read by the [k]-th call of rmc_sub_timeout_process. The results are the deadline
    the loop ends with, the context, the effects and the number of calls; [Hang] when [fuel]
    calls were not enough. *)
Fixpoint sub_catchup (fuel : nat) (x : sctx) (cur : Z) (clock : nat -> Z) (k : nat) : res (Z * sctx * list sev * nat) :=
  do t <- rmc_sub_timeout_get_next x;                                                (* 391, 395 *)
  if (t =? -1) || negb (t <? cur) then Ok (t, x, [], k)                              (* 393 *)
  else match fuel with
       | O => Hang
       | S f => do r <- rmc_sub_timeout_process x (clock k);                         (* 394 *)
                let '(_, x1, evs) := r in
                do q <- sub_catchup f x1 cur clock (S k);
                let '(t2, x2, evs2, k2) := q in Ok (t2, x2, evs ++ evs2, k2)
       end.
