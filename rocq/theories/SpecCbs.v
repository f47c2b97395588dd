(** SpecCbs.v — which of the application's callbacks should be called. *)
From Verif Require Import Base CircBuf Wire Sub Proto Conn SubCtx SpecSubCtx PubCtx SpecPubCtx.

(** The callbacks a subscriber was last asked to call: announce, subscription complete, packet
    ready.  None to begin with. *)
Definition cb_next (s : bool * bool * bool) (o : yop) : bool * bool * bool :=
  match o with YSetCbs a c r => (a, c, r) | _ => s end.
Definition cbs_set (ops : list yop) : bool * bool * bool := fold_left cb_next ops (false, false, false).
Definition announce_set (ops : list yop) : bool := fst (fst (cbs_set ops)).
Definition complete_set (ops : list yop) : bool := snd (fst (cbs_set ops)).
Definition ready_set (ops : list yop) : bool := snd (cbs_set ops).

(** The control message callback of a publisher: the last setting. *)
Definition ctrl_next (s : bool) (o : xop) : bool := match o with XSetCtrl b => b | _ => s end.
Definition ctrl_set (ops : list xop) : bool := fold_left ctrl_next ops false.

(** In the events of a call: every packet that becomes ready is followed by a call of the packet
    ready callback, and between two such calls (or before the first) some packet became ready. *)
Definition told (evs : list sev) : Prop :=
  forall a i pid bs b, evs = a ++ SvPut i pid bs :: b -> In SvReady b.
Definition due_cb (evs : list sev) : Prop :=
  forall a b, evs = a ++ SvReady :: b -> exists a1 i pid bs a2, a = a1 ++ SvPut i pid bs :: a2 /\ ~ In SvReady a2.

(** The calls of the announce callback and of the subscription complete callback. *)
Definition is_announce (e : sev) : bool := match e with SvAnnounce _ _ _ _ => true | _ => false end.
Definition is_complete (e : sev) : bool := match e with SvComplete _ _ _ => true | _ => false end.
