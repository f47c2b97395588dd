(** SpecEpoll.v — what the bundled epoll callbacks are expected to watch. *)
From Verif Require Import Base CircBuf Wire Conn SpecConn PubCtx SpecPubCtx SubCtx SpecSubCtx SpecPoll Epoll.

(** The caller activates the publisher only when it is inactive and has nothing queued, and
    queues packets, or lets announcements fall due, only while it is active. *)
Definition orderly (x : pctx) (o : xop) : Prop :=
  match o with
  | XActivate (ActOk _ _ _) => x_mcast x = -1 /\ x_listen x = -1 /\ queued x = []
  | XActivate (ActErr _ _ _) => x_mcast x = -1 /\ x_listen x = -1
  | XQueue _ _ _ => x_mcast x <> -1
  | XTimeout _ _ _ => x_mcast x <> -1 \/ x_aint x = 0
  | _ => True
  end.

(** The events of a connection whose unsent bytes are [out]: input always, and output exactly
    when there is something to send. *)
Definition conn_events (out : list Z) : Z := EPOLLIN + match out with [] => 0 | _ => EPOLLOUT end.
