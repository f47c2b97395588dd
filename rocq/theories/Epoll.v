(** Epoll.v — the poll callbacks that come with the library, on top of Linux's epoll.
    rmc_proto_test_common.c:23-100. *)
From Verif Require Import Base Wire Conn.

(** sys/epoll.h, as on Linux. *)
Definition EPOLLIN : Z := 1.
Definition EPOLLOUT : Z := 4.

(** What the kernel knows: the open descriptors, and for each descriptor in the epoll set the
    data (the connection index) and the events it is watched for. A descriptor that is closed
    leaves the set (epoll(7); no descriptor is duplicated here). epoll_ctl fails for no reason
    but those below: the descriptors are sockets, and the kernel has memory for them. *)
Record ep : Type := mkEp { e_open : list Z; e_watch : Z -> option (Z * Z) }.
Definition ep_init : ep := mkEp [] (fun _ => None).
(** [d] is open. *)
Definition is_fd (s : ep) (d : Z) : bool := existsb (Z.eqb d) (e_open s).
Definition set_watch (s : ep) (d : Z) (w : option (Z * Z)) : ep :=
  mkEp (e_open s) (fun k => if k =? d then w else e_watch s k).

(** rmc_proto_test_common.c:34-38 and 70-74: the events asked of the kernel for an action. *)
Definition events_of (act : Z) : Z :=
  (if Z.land act POLLREAD =? 0 then 0 else EPOLLIN) + (if Z.land act POLLWRITE =? 0 then 0 else EPOLLOUT).

(** poll_add, rmc_proto_test_common.c:23-51. [None]: the process ends, exit(255), because
    EPOLL_CTL_ADD fails with EBADF or EEXIST. The line written to the log is left out. *)
Definition poll_add (s : ep) (d i act : Z) : option ep :=
  if negb (is_fd s d) then None                                                      (* 47-50 *)
  else match e_watch s d with
       | Some _ => None                                                              (* 47-50 *)
       | None => Some (set_watch s d (Some (i, events_of act)))
       end.

(** poll_modify, rmc_proto_test_common.c:55-86. [None]: exit(255), because EPOLL_CTL_MOD fails
    with EBADF or ENOENT. *)
Definition poll_modify (s : ep) (d i old new : Z) : option ep :=
  if old =? new then Some s                                                          (* 67-68 *)
  else if negb (is_fd s d) then None                                                 (* 82-85 *)
  else match e_watch s d with
       | None => None                                                                (* 82-85 *)
       | Some _ => Some (set_watch s d (Some (i, events_of new)))
       end.

(** poll_remove, rmc_proto_test_common.c:89-100: a failure is only reported. *)
Definition poll_remove (s : ep) (d : Z) : option ep :=
  if negb (is_fd s d) then Some s                                                    (* 95-98 *)
  else match e_watch s d with
       | None => Some s                                                              (* 95-98 *)
       | Some _ => Some (set_watch s d None)
       end.

(** One call of the library: socket() or accept(), close(), or a poll callback. *)
Definition ep_ev (s : ep) (e : cev) : option ep :=
  match e with
  | EvOpen d => Some (mkEp (d :: e_open s) (e_watch s))
  | EvClose d => Some (set_watch (mkEp (remove Z.eq_dec d (e_open s)) (e_watch s)) d None)
  | EvAdd d i act => poll_add s d i act
  | EvMod d i old new => poll_modify s d i old new
  | EvRem d _ => poll_remove s d
  end.
(** All calls of a history. *)
Definition ep_run (log : list cev) : option ep :=
  fold_left (fun s e => match s with Some s => ep_ev s e | None => None end) log (Some ep_init).
