(** Dissect.v — model of the Wireshark plugin's dissectors (rmc_wireshark_plugin.c:77-331).

    A captured buffer (tvb) is its list of bytes; what the user sees is the list of tree
    items, the pieces of the info column, and the set of TCP ports registered for the
    control dissector.  Wireshark's own functions are modelled by their documentation: a
    tvb accessor or proto_tree_add_item outside the captured bytes throws (here [None]), the
    dissection ends and the frame is marked malformed; tcp_dissect_pdus cuts the buffer
    into PDUs and asks for more data when the last one is incomplete.  Subtrees and the
    zero-length protocol items only group and are left out. *)
From Verif Require Import Base Wire.

(** The header fields, rmc_wireshark_plugin.c:36-47 (hf_...). *)
Inductive field := FCommand | FPid | FNode | FLen | FPort | FPayload | FFirst | FLast | FCtlLen | FCtlPayload.
(** A tree item: a number, an IPv4 address (most significant byte first), or bytes. *)
(** The items of proto_tree_add_item, rmc_wireshark_plugin.c:77-311. *)
Inductive item := INum (f : field) (v : Z) | IAddr (a : list Z) | IBytes (f : field) (bs : list Z).

(** The pieces of the info column: a published packet or announcement (node id, address as
    printed or the frame's source if [None], port, length, packet id), an ack interval, a
    control message, the summary of a resend. *)
(** The texts of rmc_wireshark_plugin.c:199-221, 278-287, 299-308, 325. *)
Inductive piece :=
| PPub (node : Z) (addr : option (list Z)) (port len pid : Z)
| PAck (first last : Z)
| PCtl (len : Z)
| PResend (n : Z).

(** What a dissection leaves behind: rmc_wireshark_plugin.c:77-331 and the tcp.port table,
    207-217. *)
Record dst := mkD { d_tree : list item; d_col : list piece; d_ports : list Z }.

(** proto_tree_add_item, as called in rmc_wireshark_plugin.c:93. *)
Definition add_item (d : dst) (i : item) : dst := mkD (d_tree d ++ [i]) (d_col d) (d_ports d).
(** col_clear + col_add_fstr, as called in rmc_wireshark_plugin.c:198-203. *)
Definition col_add (d : dst) (p : piece) : dst := mkD (d_tree d) [p] (d_ports d).
(** col_append_fstr, as called in rmc_wireshark_plugin.c:284. *)
Definition col_append (d : dst) (p : piece) : dst := mkD (d_tree d) (d_col d ++ [p]) (d_ports d).
(** "set if empty, else append", rmc_wireshark_plugin.c:276-287 and 297-308. *)
Definition col_more (d : dst) (p : piece) : dst :=
  match d_col d with [] => col_add d p | _ => col_append d p end.

(** tvb_captured_length_remaining, as called in rmc_wireshark_plugin.c:87: 0 past the end. *)
Definition remaining (tvb : list Z) (off : Z) : Z := if zlen tvb <? off then 0 else zlen tvb - off.
(** The bytes tvb_get_* and proto_tree_add_item look at; throws outside the buffer,
    rmc_wireshark_plugin.c:92. *)
Definition grab (tvb : list Z) (off n : Z) : option (list Z) :=
  if (0 <=? off) && (off + n <=? zlen tvb) then Some (ztake n (zdrop off tvb)) else None.

(** Sequencing: an exception ends the dissection. *)
(** Wireshark's exceptions, as thrown by the calls in rmc_wireshark_plugin.c:162-196. *)
Definition obind {A B} (m : option A) (k : A -> option B) : option B :=
  match m with Some a => k a | None => None end.
Notation "'let?' x := m 'in' k" := (obind m (fun x => k)) (at level 200, x pattern, right associativity).

(** dissect_rmc_ack_interval, rmc_wireshark_plugin.c:77-100: returned length, *first_pid
    and *last_pid (unchanged if there is not enough data). *)
Definition dissect_rmc_ack_interval (tvb : list Z) (off : Z) (pids : Z * Z) (d : dst)
  : option (Z * (Z * Z) * dst) :=
  if remaining tvb off <? 16 then Some (0, pids, d)                                  (* 87-90 *)
  else
    let? a := grab tvb off 8 in                                                      (* 92 *)
    let d := add_item d (INum FFirst (le_val a)) in                                  (* 93 *)
    let? b := grab tvb (off + 8) 8 in                                                (* 95 *)
    let d := add_item d (INum FLast (le_val b)) in                                   (* 96 *)
    Some (16, (le_val a, le_val b), d).

(** dissect_rmc_ctl_msg, rmc_wireshark_plugin.c:102-131: returned length and payload length. *)
Definition dissect_rmc_ctl_msg (tvb : list Z) (off : Z) (d : dst) : option (Z * Z * dst) :=
  if remaining tvb off <? 2 then Some (0, 0, d)                                      (* 114-116 *)
  else
    let? l := grab tvb off 2 in                                                      (* 119 *)
    let len := le_val l in
    if remaining tvb (off + 2) <? len then Some (0, 0, d)                            (* 121-123 *)
    else
      let d := add_item d (INum FCtlLen len) in                                      (* 125 *)
      let? p := grab tvb (off + 2) len in
      let d := add_item d (IBytes FCtlPayload p) in                                  (* 127 *)
      Some (2 + len, len, d).

(** get_rmc_packet_len, rmc_wireshark_plugin.c:134-137. *)
Definition get_rmc_packet_len (tvb : list Z) (off : Z) : option Z :=
  let? l := grab tvb (off + 13) 2 in Some (le_val l + 21).

(** dissect_packet_offset, rmc_wireshark_plugin.c:140-226: returned offset.  The tree item of
    the address swaps its bytes (ENC_LITTLE_ENDIAN, 188); tvb_ip_to_str (186) does not. *)
Definition dissect_packet_offset (tvb : list Z) (off : Z) (d : dst) : option (Z * dst) :=
  let? pid := grab tvb off 8 in                                                      (* 162 *)
  let d := add_item d (INum FPid (le_val pid)) in
  let off := off + 8 in
  let? node := grab tvb off 4 in                                                     (* 167 *)
  let d := add_item d (INum FNode (le_val node)) in
  let off := off + 4 in
  let? len := grab tvb off 2 in                                                      (* 172 *)
  let d := add_item d (INum FLen (le_val len)) in
  let off := off + 2 in
  let? ip := grab tvb off 4 in                                                       (* 178 *)
  let addr := if le_val ip =? 0 then None else Some ip in                            (* 181-186 *)
  let d := add_item d (IAddr (rev ip)) in                                            (* 188 *)
  let off := off + 4 in
  let? port := grab tvb off 2 in                                                     (* 192 *)
  let d := add_item d (INum FPort (le_val port)) in
  let off := off + 2 in
  let? payload := grab tvb off (le_val len) in                                       (* 196 *)
  let d := add_item d (IBytes FPayload payload) in
  let d := col_add d (PPub (le_val node) addr (le_val port) (le_val len) (le_val pid)) in  (* 198-203, 219-223 *)
  let d := if le_val pid =? 0 then                                                   (* 199-217 *)
             if existsb (Z.eqb (le_val port)) (d_ports d) then d
             else mkD (d_tree d) (d_col d) (le_val port :: d_ports d)
           else d in
  Some (off, d).

(** dissect_packet_multicast, rmc_wireshark_plugin.c:228-232. *)
Definition dissect_packet_multicast (tvb : list Z) (d : dst) : option (Z * dst) :=
  dissect_packet_offset tvb 0 d.

(** dissect_rmc_packet, rmc_wireshark_plugin.c:234-241: one PDU; counts it. *)
Definition dissect_rmc_packet (tvb : list Z) (n : Z) (d : dst) : option (Z * dst) :=
  let? c := grab tvb 0 1 in
  let d := add_item d (INum FCommand (le_val c)) in                                  (* 236 *)
  let? r := dissect_packet_offset tvb 1 d in                                         (* 238 *)
  Some (n + 1, snd r).

(** Wireshark's tcp_dissect_pdus with reassembly and a fixed length of 15, as called in
    rmc_wireshark_plugin.c:291: dissects the complete PDUs from [off] on; the offset from
    which more data is wanted (the length of the buffer if none). *)
Fixpoint tcp_dissect_pdus (fuel : nat) (tvb : list Z) (off n : Z) (d : dst) : option (Z * Z * dst) :=
  match fuel with
  | O => None
  | S fuel =>
      if remaining tvb off <? 1 then Some (off, n, d)
      else if remaining tvb off <? 15 then Some (off, n, d)
      else
        let? plen := get_rmc_packet_len tvb off in
        if remaining tvb off <? plen then Some (off, n, d)
        else
          let? pdu := grab tvb off plen in
          let? r := dissect_rmc_packet pdu n d in
          tcp_dissect_pdus fuel tvb (off + plen) (fst r) (snd r)
  end.

(** The result of dissect_rmc_tcp: the returned length, what is shown, and the offset from
    which reassembly was asked for, if it was.  [RThrow]: an exception; [RSpin]: the fuel ran
    out (it never does, c85_total). *)
(** rmc_wireshark_plugin.c:244-331. *)
Inductive dres := RDone (ret : Z) (d : dst) (want : option Z) | RThrow | RSpin.

(** The code after the loop, rmc_wireshark_plugin.c:324-328. *)
Definition tcp_end (tvb : list Z) (n : Z) (d : dst) (want : option Z) : dres :=
  RDone (zlen tvb) (if n =? 0 then d else col_add d (PResend n)) want.

(** The loop of dissect_rmc_tcp, rmc_wireshark_plugin.c:267-322, with its local variables
    offset, res, first_pid/last_pid and resend_count. *)
Fixpoint tcp_loop (fuel : nat) (tvb : list Z) (off res : Z) (pids : Z * Z) (n : Z) (want : option Z) (d : dst) : dres :=
  match fuel with
  | O => RSpin
  | S fuel =>
      if remaining tvb off <? 1 then RDone off d want                                (* 268-269 *)
      else
        match grab tvb off 1 with
        | None => RThrow
        | Some c =>
            let command := le_val c in                                               (* 271 *)
            let next off res pids n want d :=
              if res =? 0 then tcp_end tvb n d want                                  (* 317-319 *)
              else tcp_loop fuel tvb (off + 1 + res) res pids n want d in            (* 321 *)
            if command =? RMC_CMD_ACK_INTERVAL then                                  (* 273-288 *)
              match dissect_rmc_ack_interval tvb (off + 1) pids (add_item d (INum FCommand command)) with
              | None => RThrow
              | Some (res, pids, d) => next off res pids n want (col_more d (PAck (fst pids) (snd pids)))
              end
            else if command =? RMC_CMD_PACKET then                                   (* 290-292 *)
              match tcp_dissect_pdus (S (length tvb)) tvb 0 n d with
              | None => RThrow
              | Some (w, n, d) => next off res pids n (if w <? zlen tvb then Some w else want) d
              end
            else if command =? RMC_CMD_CONTROL_MESSAGE then                          (* 294-309 *)
              match dissect_rmc_ctl_msg tvb (off + 1) (add_item d (INum FCommand command)) with
              | None => RThrow
              | Some (res, len, d) => next off res pids n want (col_more d (PCtl len))
              end
            else RDone 0 d want                                                      (* 311-313 *)
        end
  end.

(** dissect_rmc_tcp, rmc_wireshark_plugin.c:244-331: starts with an empty info column (265). *)
Definition dissect_rmc_tcp (tvb : list Z) (d : dst) : dres :=
  tcp_loop (S (S (length tvb))) tvb 0 0 (0, 0) 0 None (mkD (d_tree d) [] (d_ports d)).
