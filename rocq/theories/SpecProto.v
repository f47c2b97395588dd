(** SpecProto.v — independent specification of the TCP control channel: what the peers put
    on the stream, what it means to have processed a stream, and which cuts of the stream
    into reads the code survives.  Nothing here mentions the ring's indices or segments. *)
From Verif Require Import Base Wire CircBuf.

(** The commands of the protocol as the code defines it (rmc_protocol.h:13-38), which is not the one of
    PROTOCOL.md (SpecDoc.v, C98). *)
Inductive cmd :=
| CmdPacket (h : header) (payload : list Z)
| CmdAck (first last : Z)
| CmdCtrl (payload : list Z).

(** The bytes of a command on the stream. *)
Definition wire (c : cmd) : list Z :=
  match c with
  | CmdPacket h p => 1 :: enc_header h ++ p
  | CmdAck a b => 2 :: enc_ack a b
  | CmdCtrl p => 3 :: enc_ctrl (zlen p) ++ p
  end.
(** Fields in range and length field consistent. *)
Definition cmd_ok (c : cmd) : Prop :=
  match c with
  | CmdPacket h p => hdr_ok h /\ h_len h = zlen p /\ bytes_ok p
  | CmdAck a b => is_u64 a /\ is_u64 b
  | CmdCtrl p => is_u16 (zlen p) /\ bytes_ok p
  end.

(** What each side understands. *)
Definition for_pub (c : cmd) : Prop := match c with CmdPacket _ _ => False | _ => True end.
Definition for_sub (c : cmd) : Prop := match c with CmdPacket _ _ => True | _ => False end.

(** [cmds] are the commands in stream [s] and [r] the bytes after the last complete one:
    no further command can be split off. *)
Definition parses (allowed : cmd -> Prop) (s : list Z) (cmds : list cmd) (r : list Z) : Prop :=
  s = flat_map wire cmds ++ r /\
  Forall (fun c => cmd_ok c /\ allowed c) cmds /\
  (forall c rest, cmd_ok c -> allowed c -> r <> wire c ++ rest).

(** A read of a ring of [size] bytes whose oldest byte lies at index [pos] and that holds
    [n] bytes after the read keeps the data intact iff ... (see c36). *)
Definition read_ok (size pos n : Z) : Prop := pos <= n + 1 \/ size <= pos + n.
(** A control message whose first byte lies at [pos] is read back intact iff ... (see c39). *)
Definition ctrl_ok (size pos : Z) (c : cmd) : Prop :=
  match c with
  | CmdCtrl p => let si := (pos + 3) mod size in 3 <= size - si \/ zlen p <= size - si
  | _ => True
  end.
Fixpoint ctrls_ok (size pos : Z) (cmds : list cmd) : Prop :=
  match cmds with
  | [] => True
  | c :: rest => ctrl_ok size pos c /\ ctrls_ok size ((pos + zlen (wire c)) mod size) rest
  end.
(** Index of the oldest byte after [m] of the bytes from [pos] on were processed and [r]
    is left: an empty ring starts over at index 0. *)
Definition next_pos (size pos m : Z) (r : list Z) : Z :=
  match r with [] => 0 | _ => (pos + m) mod size end.

(** The stream, cut into the chunks [cs] of the successive reads, when [left] was left over
    by earlier reads: every read fits the ring and meets the conditions above.  With
    [cb = false] (no control message callback) control messages are skipped unread. *)
Inductive benign (allowed : cmd -> Prop) (cb : bool) (size : Z) : Z -> list Z -> list (list Z) -> Prop :=
| benign_nil pos left : benign allowed cb size pos left []
| benign_cons pos left c cs cmds r :
    c <> [] -> bytes_ok c -> zlen left + zlen c <= size - 1 ->
    read_ok size pos (zlen left + zlen c) ->
    parses allowed (left ++ c) cmds r ->
    (cb = true -> ctrls_ok size pos cmds) ->
    benign allowed cb size (next_pos size pos (zlen (flat_map wire cmds)) r) r cs ->
    benign allowed cb size pos left (c :: cs).

(** Effect of a list of commands, in order. *)
Fixpoint run_cmds {St : Type} (eff : St -> cmd -> res St) (st : St) (cmds : list cmd) : res St :=
  match cmds with
  | [] => Ok st
  | c :: rest => do st' <- eff st c; run_cmds eff st' rest
  end.
