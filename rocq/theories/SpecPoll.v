(** SpecPoll.v — what the library asks its user to poll for, read off the calls of poll_add,
    poll_modify and poll_remove alone. *)
From Verif Require Import Base CircBuf CircBufProofs Wire Conn SpecConn PubCtx SpecPubCtx SubCtx SpecSubCtx.

(** The descriptor and action last asked for under connection index [i]; [None] when the
    index is not to be polled. *)
Definition asked_ev (i : Z) (a : option (Z * Z)) (e : cev) : option (Z * Z) :=
  match e with
  | EvAdd d j act => if j =? i then Some (d, act) else a
  | EvMod d j _ act => if j =? i then Some (d, act) else a
  | EvRem _ j => if j =? i then None else a
  | _ => a
  end.
Definition asked (i : Z) (log : list cev) : option (Z * Z) := fold_left (asked_ev i) log None.

(** The descriptor and polling calls in a context's log. *)
Definition pub_polls (log : list pev) : list cev := flat_map (fun e => match e with PvConn c => [c] | _ => [] end) log.
Definition sub_polls (log : list sev) : list cev := flat_map (fun e => match e with SvConn c => [c] | _ => [] end) log.

(** What has to be polled for on a connection whose unsent bytes are [out]: input always,
    and room for output exactly when there is some. *)
Definition wants (out : list Z) : Z := match out with [] => POLLREAD | _ => POLLREAD + POLLWRITE end.
(** The action includes POLLWRITE. *)
Definition for_output (act : Z) : bool := negb (Z.land act POLLWRITE =? 0).

(** No datagram is read from the multicast socket, and the context is not activated, while
    packets wait to be multicast. *)
Definition drained (x : pctx) (o : xop) : Prop :=
  match o with
  | XRead _ (RdMcast None) | XActivate (ActOk _ _ _) => queued x = []
  | _ => True
  end.
(** As [reached], where every step satisfied [drained]. *)
Definition reached_drained (x : pctx) (g : ghost) (log : list pev) : Prop :=
  exists x0 ops, fresh_ctx x0 /\ xhist x0 ops x g log /\
    forall pre o post x1 g1 log1, ops = pre ++ o :: post -> xhist x0 pre x1 g1 log1 -> drained x1 o.

(** Everything a subscriber context can go through where each step, in the state it is taken
    in, satisfies [P]. *)
Definition sreached_by (P : sctx -> yop -> Prop) (x : sctx) (log : list sev) : Prop :=
  exists x0 ops, fresh_sub x0 /\ yhist false x0 ops x log /\
    forall pre o post x1 log1, ops = pre ++ o :: post -> yhist false x0 pre x1 log1 -> P x1 o.
(** A control channel is read only while nothing waits to be sent on it. *)
Definition sdrained (x : sctx) (o : yop) : Prop :=
  match o with
  | YRead i (SrTcp _ _) => forall c, sconnected x i c -> contents (c_wbuf c) = []
  | _ => True
  end.
(** bind() does not fail. *)
Definition binds (x : sctx) (o : yop) : Prop := match o with YActivate (SaBind _ _) => False | _ => True end.
