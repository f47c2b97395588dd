(** SpecSubCtx.v — histories of a subscriber context as its user sees them. *)
From Verif Require Import Base CircBuf CircBufProofs Wire SeqList Sub SpecSub Proto SpecProto Conn SubCtx.

(** One step: an API call with the results of the system calls and callbacks it makes, or the
    application freeing a payload it kept. *)
Inductive yop :=
| YRead (i : Z) (o : srd)
| YWrite (i : Z) (o : swr)
| YTimeout (now : Z)
| YClose (i : Z)
| YTake (a : nat) (keep : bool)
| YAppFree (ptr : Z)
| YCtrl (i : Z) (payload : list Z) (ptr : Z)
| YCtrlAddr (addr port : Z) (payload : list Z) (ptr : Z)
| YCtrlNode (node : Z) (payload : list Z) (ptr : Z)
| YSetCbs (announce complete ready : bool)
| YActivate (o : sact)
| YDeactivate.

Definition ystep (x : sctx) (o : yop) : res (Z * sctx * list sev) :=
  match o with
  | YRead i o => do r <- rmc_sub_read x i o; let '(code, _, x', evs) := r in Ok (code, x', evs)
  | YWrite i o => do r <- rmc_sub_write x i o; let '(code, _, x', evs) := r in Ok (code, x', evs)
  | YTimeout now => rmc_sub_timeout_process x now
  | YClose i => do r <- rmc_sub_close_connection x i; Ok (0, fst r, snd r)
  | YTake a keep => rmc_sub_packet_dispatched x a keep
  | YAppFree ptr => Ok (0, set_tmem x (tupd (t_mem x) ptr None), [SvAppFree ptr])
  | YCtrl i p ptr => rmc_sub_write_control_message x i p ptr
  | YCtrlAddr a port p ptr => control_by_address x a port p ptr
  | YCtrlNode n p ptr => control_by_node_id x n p ptr
  | YSetCbs a c r => Ok (0, set_tcbs x a c r, [])
  | YActivate o => Ok (rmc_sub_activate_context x o)
  | YDeactivate => rmc_sub_deactivate_context x
  end.

(** The payloads the application took over (rmc_sub_packet_dispatched_keep_payload) and has not
    freed: those of the packets it is done with, less the freed ones. *)
Definition kept_ev (l : list Z) (e : sev) : list Z :=
  match e with
  | SvTake p _ => sk_payload p :: l
  | SvFree q _ | SvAppFree q => remove Z.eq_dec q l
  | _ => l
  end.
Definition kept (log : list sev) : list Z := fold_left kept_ev log [].

(** Allowed steps.  The application frees only payloads it owns.  The environment: received data
    consists of bytes, descriptors are not negative, failing calls give an error code, and writev()
    takes at most 2^32 - 1 bytes.  Indices are uint16_t, lengths uint16_t, pointers 64 bits. *)
Definition sock_good (o : sock_res) : Prop := match o with SockOk d _ _ => 0 <= d | SockErr _ => True end.
Definition mrecv_good (m : mrecv) : Prop :=
  match m with McData src bs o => is_u32 src /\ bytes_ok bs /\ sock_good (mi_sock o) | McErr e => e <> 0 | McNone => True end.
Definition yok (x : sctx) (log : list sev) (o : yop) : Prop :=
  match o with
  | YRead _ (SrMcast ins) => Forall mrecv_good ins
  | YRead i (SrTcp o _) => 0 <= i < 65536 /\ match o with RData bs => bytes_ok bs | RErr => True end
  | YWrite i o => 0 <= i < 65536 /\ match sw_tcp o with WOk n => is_u32 n | WErr e => e <> 0 end /\
                  match sw_cmp o with CmpErr e => e <> 0 | CmpOk _ _ => True end
  | YClose i => 0 <= i < 65536
  | YAppFree ptr => In ptr (kept log)
  | YCtrl i p ptr => 0 <= i /\ bytes_ok p /\ is_u16 (zlen p) /\ is_u64 ptr
  | YCtrlAddr _ _ p ptr | YCtrlNode _ p ptr => bytes_ok p /\ is_u16 (zlen p) /\ is_u64 ptr
  | YActivate (SaBind d _) | YActivate (SaOk d) | YActivate (SaOpt d _) => 0 <= d
  | _ => True
  end.

(** A read of the control channel that circ_buf_trim handles (see c36). *)
Definition read_good (x : sctx) (o : yop) : Prop :=
  match o with
  | YRead i (SrTcp (RData bs) _) =>
      forall c, slot (t_vec x) i = Ok c -> c_mode c = CONNECTED -> bs <> [] ->
        read_ok RMC_MAX_PACKET (cb_start (c_rbuf c))
          (circ_buf_in_use (c_rbuf c) + zlen (ztake (circ_buf_available (c_rbuf c)) bs))
  | _ => True
  end.

(** All histories, with the log of effects.  With [t] = true all reads are as above. *)
Inductive yhist (t : bool) (x0 : sctx) : list yop -> sctx -> list sev -> Prop :=
| yh_nil : yhist t x0 [] x0 []
| yh_step ops x log o code x' evs :
    yhist t x0 ops x log -> yok x log o -> (t = true -> read_good x o) -> ystep x o = Ok (code, x', evs) ->
    yhist t x0 (ops ++ [o]) x' (log ++ evs).

(** A context as rmc_sub_init_context makes it, for at most 32765 publishers. *)
Definition fresh_sub (x0 : sctx) : Prop :=
  exists node buf m, x0 = rmc_sub_init_context node buf m /\ zlen buf <= RMC_LISTEN_INDEX.
Definition sreached (t : bool) (x : sctx) (log : list sev) : Prop :=
  exists x0 ops, fresh_sub x0 /\ yhist t x0 ops x log.

(** No publisher uses the ids 0 or 2^64 - 1 for a data packet. *)
Definition good_got (e : sev) : Prop := match e with SvGot _ pid _ _ => good_pid pid | _ => True end.
Definition good_ids (log : list sev) : Prop := Forall good_got log.

(** What happened on connection [i] since its socket was opened, read off the log. *)
Record tsince := mkTs {
  ts_sent : list Z;                        (* bytes put on the socket *)
  ts_recv : list Z;                        (* bytes taken from the socket *)
  ts_dgram : list (Z * list Z);            (* datagrams received, by the whole context *)
  ts_got : list (Z * bool * list Z);       (* packets accepted: id, by multicast?, payload *)
  ts_put : list (Z * list Z);              (* packets handed out: id, payload *)
  ts_acks : list (Z * Z);                  (* ack intervals put into the TCP ring *)
  ts_lost : list (Z * Z)                   (* ack intervals forgotten *)
}.
Definition ts_empty : tsince := mkTs [] [] [] [] [] [] [].
Definition ts_ev (i : Z) (s : tsince) (e : sev) : tsince :=
  let (snt, rcv, dg, got, put, acks, lost) := s in
  match e with
  | SvConn (EvAdd _ j _) => if j =? i then ts_empty else s
  | SvTcp j bs => if j =? i then mkTs (snt ++ bs) rcv dg got put acks lost else s
  | SvRecv j bs => if j =? i then mkTs snt (rcv ++ bs) dg got put acks lost else s
  | SvDgram src d => mkTs snt rcv (dg ++ [(src, d)]) got put acks lost
  | SvGot j k mc bs => if j =? i then mkTs snt rcv dg (got ++ [(k, mc, bs)]) put acks lost else s
  | SvPut j k bs => if j =? i then mkTs snt rcv dg got (put ++ [(k, bs)]) acks lost else s
  | SvAck j a b => if j =? i then mkTs snt rcv dg got put (acks ++ [(a, b)]) lost else s
  | SvLost j a b => if j =? i then mkTs snt rcv dg got put acks (lost ++ [(a, b)]) else s
  | _ => s
  end.
Definition ts_open (i : Z) (log : list sev) : tsince := fold_left (ts_ev i) log ts_empty.

(** The connection at [i] is established. *)
Definition sconnected (x : sctx) (i : Z) (c : conn) : Prop := slot (t_vec x) i = Ok c /\ c_mode c = CONNECTED.

(** A datagram that carries packet [k] with payload [bs] of the publisher that listens at
    [addr]:[port].  A zero address in the header stands for the sender's. *)
Definition carries_packet (addr port k : Z) (bs : list Z) (sd : Z * list Z) : Prop :=
  let h := dec_header (snd sd) in
  header_size + h_len h <= zlen (snd sd) /\ h_pid h = k /\ k <> 0 /\
  (if h_ip h =? 0 then fst sd else h_ip h) = addr /\ h_port h = port /\
  bs = ztake (h_len h) (zdrop header_size (snd sd)).

(** The packets that wait for acknowledgement on connection [i]. *)
Definition pending_acks (x : sctx) (i : Z) : list intv :=
  match t_pubs x i with Some s => s_intv s | None => [] end.
(** The packets received and not yet handed out, of connection [i]. *)
Definition waiting (x : sctx) (i : Z) : list spacket :=
  match t_pubs x i with Some s => s_recv s | None => [] end.

(** ** Payload memory, read off the log *)
(** Buffers the library has allocated and that neither it nor the application has freed. *)
Definition outstanding_ev (l : list Z) (e : sev) : list Z :=
  match e with
  | SvAlloc p _ => p :: l
  | SvFree q _ | SvAppFree q => remove Z.eq_dec q l
  | _ => l
  end.
Definition outstanding (log : list sev) : list Z := fold_left outstanding_ev log [].
(** Payloads of the packets dropped by rmc_sub_deactivate_context. *)
Definition dropped (log : list sev) : list Z :=
  flat_map (fun e => match e with SvDrop p => [sk_payload p] | _ => [] end) log.
(** The library frees only what it has allocated and not freed, and hands out no buffer twice. *)
Fixpoint frees_ok (out : list Z) (log : list sev) : Prop :=
  match log with
  | [] => True
  | e :: rest => match e with
                 | SvAlloc p _ => ~ In p out
                 | SvFree q _ => In q out
                 | _ => True
                 end /\ frees_ok (outstanding_ev out e) rest
  end.
(** The indices of the connection table. *)
Definition indices (x : sctx) : list Z := map Z.of_nat (seq 0 (Z.to_nat (v_size (t_vec x)))).
(** All packets the context holds: waiting for their predecessors, or ready. *)
Definition held (x : sctx) : list spacket := flat_map (waiting x) (indices x) ++ t_ready x.
(** The payloads of the packets accepted so far, in order. *)
Definition got_bytes (log : list sev) : list (list Z) :=
  flat_map (fun e => match e with SvGot _ _ _ bs => [bs] | _ => [] end) log.

(** ** Datagrams *)
(** The length field of a datagram: bytes 12 and 13, little endian. *)
Definition length_field (d : list Z) : Z := nth 12 d 0 + 256 * nth 13 d 0.
(** Shorter than the header, or than the header and the declared payload. *)
Definition malformed (d : list Z) : Prop := zlen d < 20 \/ zlen d < 20 + length_field d.
(** What the library sees of a datagram: recvfrom() cuts it to the buffer. *)
Definition seen (bs : list Z) : list Z := ztake RMC_MAX_PACKET bs.
(** The publisher a datagram belongs to: the address in the header, the sender's if it is zero,
    and the port in the header. *)
Definition origin (src : Z) (d : list Z) : Z * Z :=
  (if h_ip (dec_header d) =? 0 then src else h_ip (dec_header d), h_port (dec_header d)).
(** Connection [i] leads to the publisher at [ap] and is established, or being established. *)
Definition leads (x : sctx) (i : Z) (c : conn) (ap : Z * Z) : Prop :=
  slot (t_vec x) i = Ok c /\ c_mode c <> CLOSED /\ (c_addr c, c_port c) = ap.
(** No two connections to the same publisher. *)
Definition single_conns (x : sctx) : Prop :=
  forall i j c d ap, leads x i c ap -> leads x j d ap -> i = j.
