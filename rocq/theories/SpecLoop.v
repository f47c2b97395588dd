(** SpecLoop.v — what an event loop on top of epoll is expected to do. *)
From Verif Require Import Base CircBuf Wire Conn SpecConn Proto PubCtx SpecPubCtx SubCtx SpecSubCtx Epoll Loop.

(** epoll_wait() filled in an element for a watched descriptor: the data is what was
    registered, and input or room for output is reported only if it was asked for. (EPOLLERR
    and EPOLLHUP may be set as well.) *)
Definition has (ev flag : Z) : bool := negb (Z.land ev flag =? 0).
Definition reported (s : ep) (e : ready) : Prop :=
  exists w, e_watch s (y_desc e) = Some (y_ind e, w) /\
    (has (y_ev e) EPOLLIN = true -> has w EPOLLIN = true) /\ (has (y_ev e) EPOLLOUT = true -> has w EPOLLOUT = true).
(** The kernel reports a descriptor once. *)
Definition once {I} (b : list (ready * I)) : Prop := NoDup (map (fun e => y_desc (fst e)) b).

(** What an element asks for: a read ([true]), then a write ([false]). *)
Definition wanted {I} (e : ready * I) : list (ready * I * bool) :=
  (if has (y_ev (fst e)) EPOLLIN then [(e, true)] else []) ++ (if has (y_ev (fst e)) EPOLLOUT then [(e, false)] else []).
(** The reads and writes among the calls. *)
Definition pub_did (l : list pcall) : list (ready * pin * bool) :=
  flat_map (fun k => match k_op k with XRead _ _ => [(k_ent k, true)] | XWrite _ _ => [(k_ent k, false)] | _ => [] end) l.
Definition sub_did (l : list scall) : list (ready * sin * bool) :=
  flat_map (fun k => match k_op k with YRead _ _ => [(k_ent k, true)] | YWrite _ _ => [(k_ent k, false)] | _ => [] end) l.

(** The socket that belongs to an index. *)
Definition pub_sock (x : pctx) (i d : Z) : Prop :=
  (i = RMC_MULTICAST_INDEX /\ x_mcast x = d) \/ (i = RMC_LISTEN_INDEX /\ x_listen x = d) \/ (exists c, is_open (x_vec x) i c /\ c_desc c = d).
Definition sub_sock (x : sctx) (i d : Z) : Prop :=
  (i = RMC_MULTICAST_INDEX /\ t_mcast x = d) \/ (exists c, is_open (t_vec x) i c /\ c_desc c = d).

(** The environment, as in the specifications of the contexts. *)
Definition pin_ok (n : pin) : Prop :=
  match n_acc n with AccOk d _ nodelay => 0 <= d /\ nodelay = 0 | AccErr e => e <> 0 end /\
  match n_writev n with WOk k => is_u32 k | WErr e => e <> 0 end.
Definition sin_ok (n : sin) : Prop :=
  Forall mrecv_good (m_from n) /\ match m_readv n with RData bs => bytes_ok bs | RErr => True end /\
  match sw_tcp (m_wr n) with WOk k => is_u32 k | WErr e => e <> 0 end /\ match sw_cmp (m_wr n) with CmpErr e => e <> 0 | CmpOk _ _ => True end.

(** The acknowledgements a subscriber still has to send: one per interval. *)
Definition unsent (x : sctx) : nat := list_sum (map (fun i => length (pending_acks x i)) (indices x)).
(** The acknowledgements sent, and those given up (the connection is gone, or has no room). *)
Definition answered (evs : list sev) : nat :=
  length (filter (fun e => match e with SvAck _ _ _ | SvLost _ _ _ => true | _ => false end) evs).
