(** SpecCtrl.v — what subscribers say and what the publisher's control message callback hears, in
    the system of SpecSys.v. *)
From Verif Require Import Base CircBuf CircBufProofs Wire Pub Sub SpecSub Proto SpecProto Conn PubCtx SpecPubCtx SpecPubRecv SubCtx SpecSubCtx SpecSys.

(** ** The subscriber *)
(** The connection and the message of a call that writes a control message. *)
Definition message (x : sctx) (o : yop) : option (Z * list Z) :=
  match o with
  | YCtrl i p _ => Some (i, p)
  | YCtrlAddr a port p _ => match find_by_address (t_vec x) a port with Ok (Some i) => Some (i, p) | _ => None end
  | YCtrlNode n p _ => match find_by_node_id (t_vec x) n with Ok (Some i) => Some (i, p) | _ => None end
  | _ => None
  end.
(** The message a call has queued on connection [i], if it reported success. *)
Definition said_now (x : sctx) (o : yop) (code : Z) (i : Z) : list (list Z) :=
  match message x o with Some (j, p) => if (j =? i) && (code =? 0) then [p] else [] | None => [] end.
(** What was queued on connection [i] since it was opened: acknowledgements and messages. *)
Definition outq_ev (i : Z) (l : list cmd) (e : sev) : list cmd :=
  match e with
  | SvConn (EvAdd _ j _) => if j =? i then [] else l
  | SvAck j a b => if j =? i then l ++ [CmdAck a b] else l
  | _ => l
  end.
Definition outq_next (q : Z -> list cmd) (x : sctx) (o : yop) (code : Z) (evs : list sev) : Z -> list cmd :=
  fun i => fold_left (outq_ev i) evs (q i ++ map CmdCtrl (said_now x o code i)).
Definition messages (l : list cmd) : list (list Z) := flat_map (fun c => match c with CmdCtrl p => [p] | _ => [] end) l.

(** The message does not cross the end of the send buffer at a place where the library copies the
    wrong bytes (see c39). *)
Definition write_good (x : sctx) (o : yop) : Prop :=
  forall i p c, message x o = Some (i, p) -> sconnected x i c -> 4 + zlen p <= circ_buf_available (c_wbuf c) ->
    let stop := cb_stop (c_wbuf c) in
    stop < RMC_MAX_PACKET /\ (stop + 3 + zlen p <= RMC_MAX_PACKET \/ RMC_MAX_PACKET < stop + 3).

(** Histories of a subscriber together with what it has queued on each connection. *)
Inductive ohist (t : bool) (x0 : sctx) : list yop -> sctx -> list sev -> (Z -> list cmd) -> Prop :=
| oh_nil : ohist t x0 [] x0 [] (fun _ => [])
| oh_step ops x log q o code x' evs :
    ohist t x0 ops x log q -> yok x log o -> (t = true -> read_good x o) -> write_good x o -> ystep x o = Ok (code, x', evs) ->
    ohist t x0 (ops ++ [o]) x' (log ++ evs) (outq_next q x o code evs).

(** ** The publisher *)
(** The messages handed to the callback while connection [k] is read, since it was accepted. *)
Definition heard_now (o : xop) (evs : list pev) (k : Z) : list (list Z) :=
  match o with
  | XRead i (RdTcp _) => if i =? k then flat_map (fun e => match e with PvCtrl _ _ _ bs => [bs] | _ => [] end) evs else []
  | _ => []
  end.
Definition heard_next (h : Z -> list (list Z)) (o : xop) (evs : list pev) : Z -> list (list Z) :=
  fun k => if existsb (opens_at k) evs then [] else h k ++ heard_now o evs k.
(** The callback is set when a control connection is read. *)
Definition listening (x : pctx) (o : xop) : Prop :=
  match o with XRead _ (RdTcp _) => x_ccb x = FpSet | _ => True end.
Inductive hhist (x0 : pctx) : list xop -> pctx -> ghost -> list pev -> (Z -> list Z) -> (Z -> list (list Z)) -> Prop :=
| hh_nil : hhist x0 [] x0 g_init [] (fun _ => []) (fun _ => [])
| hh_step ops x g log f h o code x' evs :
    hhist x0 ops x g log f h -> xok x g o -> pread_good x o -> listening x o -> xstep x o = Ok (code, x', evs) ->
    hhist x0 (ops ++ [o]) x' (g_next g x o code evs) (log ++ evs) (rcv_next f x o evs) (heard_next h o evs).

(** ** The system *)
Section System.
Variable own : Z * Z -> bool.
(** The steps of SpecSys.v, with what was queued by each subscriber on each connection, and what
    was heard by the publisher from each of its connections. *)
Inductive csys_step : sys * (nat -> Z -> list cmd) * (Z -> list (list Z)) -> sys * (nat -> Z -> list cmd) * (Z -> list (list Z)) -> Prop :=
| cy_publisher y q h o code x' evs : xok (sy_pub y) (sy_g y) o -> pread_good (sy_pub y) o -> listening (sy_pub y) o -> xstep (sy_pub y) o = Ok (code, x', evs) ->
    sys_step own y (pub_next_sys y o code x' evs) ->
    csys_step (y, q, h) (pub_next_sys y o code x' evs, q, heard_next h o evs)
| cy_subscriber y q h s o code x' evs : yok (sy_sub y s) (sy_slog y s) o -> read_good (sy_sub y s) o -> write_good (sy_sub y s) o -> ystep (sy_sub y s) o = Ok (code, x', evs) ->
    sys_step own y (sub_next_sys y s x' evs) ->
    csys_step (y, q, h) (sub_next_sys y s x' evs, supd q s (outq_next (q s) (sy_sub y s) o code evs), h)
| cy_link y q h s i k :
    let y' := mkSys (sy_pub y) (sy_g y) (sy_plog y) (sy_rcv y) (sy_sub y) (sy_slog y) ((s, i, k) :: sy_links y) (sy_down y) in
    sys_step own y y' -> csys_step (y, q, h) (y', q, h).
Inductive csys_reached : sys * (nat -> Z -> list cmd) * (Z -> list (list Z)) -> Prop :=
| cr_init y : sys_init y -> csys_reached (y, (fun _ _ => []), (fun _ => []))
| cr_step a b : csys_reached a -> csys_step a b -> csys_reached b.
End System.
