(** SpecPubRecv.v — histories of a publisher context together with the bytes received on its
    control connections. *)
From Verif Require Import Base CircBuf CircBufProofs Wire Proto SpecProto Conn PubCtx SpecPubCtx.

(** A read of the control channel that circ_buf_trim and process_control_message handle
    (see c36 and c37). *)
Definition pread_good (x : pctx) (o : xop) : Prop :=
  match o with
  | XRead i (RdTcp (RData bs)) =>
      forall c, slot (x_vec x) i = Ok c -> c_mode c = CONNECTED -> bs <> [] ->
        let got := ztake (circ_buf_available (c_rbuf c)) bs in
        bytes_ok bs /\
        read_ok RMC_MAX_PACKET (cb_start (c_rbuf c)) (circ_buf_in_use (c_rbuf c) + zlen got) /\
        (ccb_set x = true -> forall cmds r, parses for_pub (contents (c_rbuf c) ++ got) cmds r ->
           ctrls_ok RMC_MAX_PACKET (cb_start (c_rbuf c)) cmds)
  | _ => True
  end.
(** The bytes connection [j] takes from its socket in step [o]: as many as there is room for. *)
Definition taken (x : pctx) (o : xop) (j : Z) : list Z :=
  match o with
  | XRead i (RdTcp (RData bs)) =>
      if i =? j then match slot (x_vec x) i with
                     | Ok c => if c_mode c =? CONNECTED then ztake (circ_buf_available (c_rbuf c)) bs else []
                     | _ => []
                     end
      else []
  | _ => []
  end.
(** What was received on each connection since it was opened. *)
Definition opens_at (j : Z) (e : pev) : bool := match e with PvConn (EvAdd _ k _) => k =? j | _ => false end.
Definition rcv_next (f : Z -> list Z) (x : pctx) (o : xop) (evs : list pev) : Z -> list Z :=
  fun j => if existsb (opens_at j) evs then [] else f j ++ taken x o j.
Inductive rhist (x0 : pctx) : list xop -> pctx -> ghost -> list pev -> (Z -> list Z) -> Prop :=
| rh_nil : rhist x0 [] x0 g_init [] (fun _ => [])
| rh_step ops x g log f o code x' evs :
    rhist x0 ops x g log f -> xok x g o -> pread_good x o -> xstep x o = Ok (code, x', evs) ->
    rhist x0 (ops ++ [o]) x' (g_next g x o code evs) (log ++ evs) (rcv_next f x o evs).
Definition preached (x : pctx) (g : ghost) (log : list pev) (f : Z -> list Z) : Prop :=
  exists x0 ops, fresh_ctx x0 /\ rhist x0 ops x g log f.
(** The acks among commands. *)
Definition acks_in (cmds : list cmd) : list (Z * Z) := flat_map (fun c => match c with CmdAck a b => [(a, b)] | _ => [] end) cmds.
