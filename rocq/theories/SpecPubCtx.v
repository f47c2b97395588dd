(** SpecPubCtx.v — histories of a publisher context as its user sees them: which calls are
    allowed, which payload buffers the library holds, and what was queued. *)
From Verif Require Import Base CircBuf CircBufProofs Wire Pub Proto SpecProto Conn PubCtx.

(** One step: an API call with the results of the system calls and callbacks it makes, or the
    application allocating or freeing a payload buffer. *)
Inductive xop :=
| XAlloc (ptr : Z) (bs : list Z)
| XAppFree (ptr : Z)
| XQueue (ptr len : Z) (announce : bool)
| XRead (i : Z) (o : prd)
| XWrite (i : Z) (o : pwr)
| XTimeout (now buf : Z) (o : ann_res)
| XClose (i : Z)
| XInterval (interval now : Z)
| XThrottle (suspend resume : Z)
| XSetCtrl (set : bool)
| XActivate (o : act_res)
| XDeactivate.

Definition xstep (x : pctx) (o : xop) : res (Z * pctx * list pev) :=
  match o with
  | XAlloc ptr bs => Ok (0, set_mem x (updz (x_mem x) ptr (Some bs)), [])
  | XAppFree ptr => Ok (0, set_mem x (updz (x_mem x) ptr None), [])
  | XQueue ptr len announce => rmc_pub_queue_packet x ptr len announce
  | XRead i o => do r <- rmc_pub_read x i o; let '(code, _, x', evs) := r in Ok (code, x', evs)
  | XWrite i o => do r <- rmc_pub_write x i o; let '(code, _, x', evs) := r in Ok (code, x', evs)
  | XTimeout now buf o => rmc_pub_timeout_process x now buf o
  | XClose i => rmc_pub_close_connection x i
  | XInterval interval now => Ok (0, rmc_pub_set_announce_interval x interval now, [])
  | XThrottle s r => let (code, x') := rmc_pub_throttling x s r in Ok (code, x', [])
  | XSetCtrl b => Ok (0, rmc_pub_set_control_message_callback x b, [])
  | XActivate o => Ok (rmc_pub_activate_context x o)
  | XDeactivate => rmc_pub_deactivate_context x
  end.

(** What the user knows: the payload buffers he handed over as data packets and has not got
    back through payload_free; the buffers he queued as announces (these are never given
    back); the contents of the data packets accepted so far, in order; and the buffers given
    to payload_free that were not on loan at that moment. *)
Record ghost := mkG { g_lent : list Z; g_pin : list Z; g_data : list (list Z); g_bad : list Z }.
Definition g_init : ghost := mkG [] [] [] [].
Definition unlend (lb : list Z * list Z) (e : pev) : list Z * list Z :=
  match e with
  | PvFree p _ => if in_dec Z.eq_dec p (fst lb) then (remove Z.eq_dec p (fst lb), snd lb) else (fst lb, p :: snd lb)
  | _ => lb
  end.
Definition g_next (g : ghost) (x : pctx) (o : xop) (code : Z) (evs : list pev) : ghost :=
  let g1 := match o with
            | XQueue ptr len announce =>
                if code =? 0 then
                  if announce then mkG (g_lent g) (ptr :: g_pin g) (g_data g) (g_bad g)
                  else mkG (ptr :: g_lent g) (g_pin g)
                           (g_data g ++ [match x_mem x ptr with Some bs => ztake len bs | None => [] end]) (g_bad g)
                else g
            | _ => g
            end in
  let lb := fold_left unlend evs (g_lent g1, g_bad g1) in
  mkG (fst lb) (g_pin g1) (g_data g1) (snd lb).

(** Allowed steps.  The application: memory it allocates is fresh, it frees only what it
    owns, it queues only valid buffers of at least the length given that the library does not
    hold already, and fewer than 2^64 - 1 data packets.
    The environment: TCP_NODELAY can be set on an accepted socket (see c34 for what happens
    otherwise), descriptors are not negative, writev() takes at most 2^32 - 1 bytes, the
    local buffer of rmc_pub_timeout_process does not overlap a valid payload buffer, and the
    callback fills it.  Lengths are uint16_t, indices uint16_t, thresholds uint32_t. *)
Definition xok (x : pctx) (g : ghost) (o : xop) : Prop :=
  match o with
  | XAlloc ptr bs => ptr <> 0 /\ x_mem x ptr = None /\ bytes_ok bs
  | XAppFree ptr => ~ In ptr (g_lent g) /\ ~ In ptr (g_pin g)
  | XQueue ptr len announce =>
      is_u16 len /\ (announce = false -> p_next (x_pub x) < 18446744073709551615) /\
      (ptr <> 0 -> (exists bs, x_mem x ptr = Some bs /\ len <= zlen bs) /\ ~ In ptr (g_lent g) /\
                   (announce = false -> ~ In ptr (g_pin g)))
  | XRead i (RdAccept (AccOk d _ nodelay) _) => 0 <= d /\ nodelay = 0
  | XRead _ (RdAccept (AccErr e) _) => e <> 0
  | XRead i (RdTcp _) => 0 <= i < 65536
  | XWrite i (WrTcp (WOk n)) => 0 <= i < 65536 /\ is_u32 n
  | XWrite i (WrTcp (WErr e)) => 0 <= i < 65536 /\ e <> 0
  | XTimeout _ buf o =>
      buf <> 0 /\ x_mem x buf = None /\
      match o with AnnYes _ len => is_u16 len | _ => True end
  | XClose i => 0 <= i < 65536
  | XThrottle s r => is_u32 s /\ is_u32 r
  | XActivate (ActOk m l port) => is_u16 port
  | _ => True
  end.

(** All histories, with the log of the library's effects. *)
Inductive xhist (x0 : pctx) : list xop -> pctx -> ghost -> list pev -> Prop :=
| xh_nil : xhist x0 [] x0 g_init []
| xh_step ops x g log o code x' evs :
    xhist x0 ops x g log -> xok x g o -> xstep x o = Ok (code, x', evs) ->
    xhist x0 (ops ++ [o]) x' (g_next g x o code evs) (log ++ evs).

(** A context as rmc_pub_init_context makes it, for at most 32765 subscribers. *)
Definition fresh_ctx (x0 : pctx) : Prop :=
  exists node lip lport buf m, x0 = rmc_pub_init_context node lip lport buf m /\
    zlen buf <= RMC_LISTEN_INDEX /\ (forall p bs, m p = Some bs -> bytes_ok bs) /\
    is_u32 node /\ is_u32 lip /\ is_u16 lport.

(** rmc_pub_timeout_process never queued an announce with a payload from the callback. *)
Definition no_payload_announce (o : xop) : Prop :=
  match o with XTimeout _ _ (AnnYes _ len) => len = 0 | _ => True end.

(** What happened on connection [i] since it was opened, read off the log: the bytes put on
    its socket, the ids of the datagrams multicast, and the ack intervals received on it. *)
Record since := mkS { s_sent : list Z; s_cast : list Z; s_acks : list (Z * Z) }.
Definition s_empty : since := mkS [] [] [].
Definition since_ev (i : Z) (s : since) (e : pev) : since :=
  match e with
  | PvConn (EvAdd _ j _) => if j =? i then s_empty else s
  | PvTcp j bs => if j =? i then mkS (s_sent s ++ bs) (s_cast s) (s_acks s) else s
  | PvCast _ d => mkS (s_sent s) (s_cast s ++ [h_pid (dec_header d)]) (s_acks s)
  | PvAck j a b => if j =? i then mkS (s_sent s) (s_cast s) (s_acks s ++ [(a, b)]) else s
  | _ => s
  end.
Definition since_open (i : Z) (log : list pev) : since := fold_left (since_ev i) log s_empty.

(** A packet command that carries a data packet of this publisher: id [k] and the bytes of
    the [k]-th payload queued. *)
Definition packet_cmd (node lip : Z) (data : list (list Z)) (k : Z) (c : cmd) : Prop :=
  exists p port, c = CmdPacket (Wire.mkHdr k node (zlen p) lip port) p /\
    1 <= k /\ nth_error data (Z.to_nat (k - 1)) = Some p /\ cmd_ok c.
(** The stream of connection [i] so far, sent or still in the ring, is the commands [cmds]. *)
Definition stream_is (x : pctx) (log : list pev) (i : Z) (cmds : list cmd) : Prop :=
  exists c, slot (x_vec x) i = Ok c /\ s_sent (since_open i log) ++ contents (c_wbuf c) = flat_map wire cmds.
(** Subscriber [i] still has to acknowledge packet [k]. *)
Definition owes (x : pctx) (i k : Z) : Prop := In k (map (pid_of (x_pub x)) (p_sinf (x_pub x) (Z.to_nat i))).
(** Subscriber [i] still has to acknowledge packet [k], multicast at time [ts]. *)
Definition owed (x : pctx) (i k ts : Z) : Prop :=
  In (k, ts) (map (fun a => (pid_of (x_pub x) a, ts_of (x_pub x) a)) (p_sinf (x_pub x) (Z.to_nat i))).
(** The packets in flight: id, payload pointer and length. *)
Definition flying (x : pctx) : list (Z * (Z * Z)) :=
  map (fun a => match p_packs (x_pub x) a with Some p => (pk_pid p, (pk_payload p, pk_len p)) | None => (0, (0, 0)) end)
      (p_inflight (x_pub x)).
(** The connection at [i] is open. *)
Definition connected (x : pctx) (i : Z) : Prop := exists c, slot (x_vec x) i = Ok c /\ c_mode c = CONNECTED.

(** Calls of payload_free and datagrams sent, in order. *)
Definition freed_ev (e : pev) : list (Z * Z) := match e with PvFree p l => [(p, l)] | _ => [] end.
Definition cast_ev (e : pev) : list (list Z) := match e with PvCast _ d => [d] | _ => [] end.
(** The times at which datagrams were sent. *)
Definition cast_ts (e : pev) : list Z := match e with PvCast ts _ => [ts] | _ => [] end.

(** Packet [k] of subscriber [i] is to be resent at time [now]: it is owed, it and every newer
    one owed have timed out, and so has the oldest one owed. *)
Definition resendable (x : pctx) (now i k : Z) : Prop :=
  (exists ts, owed x i k ts) /\
  (forall k' ts', owed x i k' ts' -> k <= k' -> ts' + x_resend x <= now) /\
  exists k0 ts0, owed x i k0 ts0 /\ (forall k', owes x i k' -> k0 <= k') /\ ts0 + x_resend x <= now.
(** The packets queued and not yet multicast, next one to be sent last: id, payload pointer
    and length. *)
Definition queued (x : pctx) : list (Z * (Z * Z)) :=
  map (fun a => match p_packs (x_pub x) a with Some p => (pk_pid p, (pk_payload p, pk_len p)) | None => (0, (0, 0)) end)
      (p_queued (x_pub x)).
(** Everything a publisher context can go through from rmc_pub_init_context on. *)
Definition reached (x : pctx) (g : ghost) (log : list pev) : Prop :=
  exists x0 ops, fresh_ctx x0 /\ xhist x0 ops x g log.
