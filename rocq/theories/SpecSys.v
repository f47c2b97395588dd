(** SpecSys.v — one publisher and any number of subscribers, with everything the network may do.
    The publisher and the subscribers take the steps of SpecPubRecv.v and SpecSubCtx.v; what is
    said here is only how the bytes they receive relate to the bytes they send.
    Datagrams may be lost, duplicated, reordered, delayed for ever, and come from anybody.  A TCP
    connection delivers a prefix of what was sent, in pieces of any size, and may break at any time.
    Other hosts may connect to the publisher, and the subscribers may talk to other publishers. *)
From Verif Require Import Base CircBuf CircBufProofs Wire Pub Sub SpecSub Proto SpecProto Conn PubCtx SpecPubCtx SpecPubRecv SubCtx SpecSubCtx.

Definition prefix {X} (a b : list X) : Prop := exists c, b = a ++ c.

(** The publisher with the user's knowledge, the log of its effects, and what it has received on
    each connection; the subscribers with their logs; which connection of the publisher is the
    other end of which connection of which subscriber; and the bytes the publisher has sent to the
    connection [i] of subscriber [s]. *)
Record sys := mkSys {
  sy_pub : pctx; sy_g : ghost; sy_plog : list pev; sy_rcv : Z -> list Z;
  sy_sub : nat -> sctx; sy_slog : nat -> list sev;
  sy_links : list (nat * Z * Z);
  sy_down : nat -> Z -> list Z
}.

(** The other end of connection [i] of subscriber [s]. *)
Definition peer (links : list (nat * Z * Z)) (s : nat) (i : Z) : option Z :=
  match find (fun l => Nat.eqb (fst (fst l)) s && (snd (fst l) =? i)) links with Some l => Some (snd l) | None => None end.
(** The bytes put on connection [k]. *)
Definition tcp_out (k : Z) (evs : list pev) : list Z :=
  flat_map (fun e => match e with PvTcp j bs => if j =? k then bs else [] | _ => [] end) evs.
Definition is_connected (x : pctx) (k : Z) : bool :=
  match slot (x_vec x) k with Ok c => c_mode c =? CONNECTED | _ => false end.
(** A connection of a subscriber is a new one after poll_add. *)
Definition adds (i : Z) (evs : list sev) : bool :=
  existsb (fun e => match e with SvConn (EvAdd _ j _) => j =? i | _ => false end) evs.
Definition supd {X} (f : nat -> X) (s : nat) (v : X) : nat -> X := fun t => if Nat.eqb t s then v else f t.

(** After a step of the publisher: the links of the connections that are still the same. *)
Definition pub_next_sys (y : sys) (o : xop) (code : Z) (x' : pctx) (evs : list pev) : sys :=
  mkSys x' (g_next (sy_g y) (sy_pub y) o code evs) (sy_plog y ++ evs) (rcv_next (sy_rcv y) (sy_pub y) o evs)
    (sy_sub y) (sy_slog y)
    (filter (fun l => is_connected x' (snd l) && negb (existsb (opens_at (snd l)) evs)) (sy_links y))
    (fun s i => sy_down y s i ++ match peer (sy_links y) s i with Some k => tcp_out k evs | None => [] end).
(** After a step of subscriber [s]. *)
Definition sub_next_sys (y : sys) (s : nat) (x' : sctx) (evs : list sev) : sys :=
  mkSys (sy_pub y) (sy_g y) (sy_plog y) (sy_rcv y) (supd (sy_sub y) s x') (supd (sy_slog y) s (sy_slog y s ++ evs))
    (filter (fun l => negb (Nat.eqb (fst (fst l)) s && adds (snd (fst l)) evs)) (sy_links y))
    (fun t i => if Nat.eqb t s && adds i evs then [] else sy_down y t i).

Section System.
(** The addresses and ports at which the publisher, and nobody else, listens and from which it
    multicasts. *)
Variable own : Z * Z -> bool.

(** A datagram in the publisher's name is one it has multicast, cut to the receive buffer. *)
Definition genuine (y : sys) (e : sev) : Prop :=
  match e with
  | SvDgram src d => own (origin src d) = true -> exists d0, In d0 (flat_map cast_ev (sy_plog y)) /\ d = seen d0
  | _ => True
  end.

Inductive sys_step (y : sys) : sys -> Prop :=
(** The publisher: what it reads from a connection of a subscriber is a prefix of what that one has sent. *)
| sy_publisher o code x' evs : xok (sy_pub y) (sy_g y) o -> pread_good (sy_pub y) o -> xstep (sy_pub y) o = Ok (code, x', evs) ->
    (forall s i k, In (s, i, k) (sy_links y) -> prefix (rcv_next (sy_rcv y) (sy_pub y) o evs k) (ts_sent (ts_open i (sy_slog y s)))) ->
    sys_step y (pub_next_sys y o code x' evs)
(** A subscriber: datagrams in the publisher's name are genuine, and what it reads from a connection
    to the publisher is a prefix of what the publisher has sent to it. *)
| sy_subscriber s o code x' evs : yok (sy_sub y s) (sy_slog y s) o -> read_good (sy_sub y s) o -> ystep (sy_sub y s) o = Ok (code, x', evs) ->
    Forall (genuine y) evs ->
    (forall i c, sconnected x' i c -> own (c_addr c, c_port c) = true ->
       prefix (ts_recv (ts_open i (sy_slog y s ++ evs))) (sy_down (sub_next_sys y s x' evs) s i)) ->
    sys_step y (sub_next_sys y s x' evs)
(** The connection [k] the publisher has accepted is the connection [i] of subscriber [s]. *)
| sy_link s i k : is_connected (sy_pub y) k = true -> s_sent (since_open k (sy_plog y)) = [] -> sy_rcv y k = [] ->
    ~ In k (map snd (sy_links y)) -> peer (sy_links y) s i = None -> sy_down y s i = [] ->
    sys_step y (mkSys (sy_pub y) (sy_g y) (sy_plog y) (sy_rcv y) (sy_sub y) (sy_slog y) ((s, i, k) :: sy_links y) (sy_down y)).

Definition sys_init (y : sys) : Prop :=
  fresh_ctx (sy_pub y) /\ sy_g y = g_init /\ sy_plog y = [] /\ sy_rcv y = (fun _ => []) /\
  (forall s, fresh_sub (sy_sub y s)) /\ sy_slog y = (fun _ => []) /\ sy_links y = [] /\ sy_down y = (fun _ _ => []).
Inductive sys_reached (y : sys) : Prop :=
| sr_init : sys_init y -> sys_reached y
| sr_step y0 : sys_reached y0 -> sys_step y0 y -> sys_reached y.
End System.

(** ** What the properties talk about *)
(** The packets subscriber [s] has accepted and handed out on connection [i] since it was opened:
    ids and payloads. *)
Definition accepted_at (y : sys) (s : nat) (i : Z) : list (Z * list Z) :=
  map (fun g => (fst (fst g), snd g)) (ts_got (ts_open i (sy_slog y s))).
Definition delivered_at (y : sys) (s : nat) (i : Z) : list (Z * list Z) := ts_put (ts_open i (sy_slog y s)).
(** The payloads accepted by rmc_pub_queue_packet as data packets, in order. *)
Definition queued_payloads (y : sys) : list (list Z) := g_data (sy_g y).
(** The data packets multicast since the publisher accepted connection [k]. *)
Definition cast_since (y : sys) (k : Z) : list Z := filter (fun n => negb (n =? 0)) (s_cast (since_open k (sy_plog y))).
(** Everything sent to connection [i] of subscriber [s] through [k] has left the publisher and has arrived. *)
Definition tcp_quiet (y : sys) (s : nat) (i k : Z) : Prop :=
  (exists c, slot (x_vec (sy_pub y)) k = Ok c /\ contents (c_wbuf c) = []) /\
  ts_recv (ts_open i (sy_slog y s)) = sy_down y s i.
