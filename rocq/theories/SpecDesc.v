(** SpecDesc.v — the descriptors a context is responsible for. *)
From Verif Require Import Base Wire Conn SpecConn PubCtx SpecPubCtx SubCtx SpecSubCtx SpecPoll.

(** The kernel never hands out a descriptor that is open, nor a negative one. *)
Definition kernel_ok (log : list cev) : Prop :=
  forall pre d post, log = pre ++ EvOpen d :: post -> 0 <= d /\ ~ In d (opened pre).
(** close() is only called on a descriptor that is open, or on -1. *)
Definition closes_ok (log : list cev) : Prop :=
  forall pre d post, log = pre ++ EvClose d :: post -> d = -1 \/ In d (opened pre).
(** The socket is there. *)
Definition sock_in (d : Z) : list Z := if d =? -1 then [] else [d].
(** [d] is the socket of an open connection. *)
Definition conn_desc (v : cvec) (d : Z) : Prop := exists i c, is_open v i c /\ c_desc c = d.

(** Everything a publisher context can go through where each step, in the state it is taken
    in, satisfies [P]. *)
Definition reached_by (P : pctx -> xop -> Prop) (x : pctx) (g : ghost) (log : list pev) : Prop :=
  exists x0 ops, fresh_ctx x0 /\ xhist x0 ops x g log /\
    forall pre o post x1 g1 log1, ops = pre ++ o :: post -> xhist x0 pre x1 g1 log1 -> P x1 o.
(** An active context is not activated again. *)
Definition activated_once (x : pctx) (o : xop) : Prop :=
  match o with XActivate _ => x_mcast x = -1 /\ x_listen x = -1 | _ => True end.
