(** SpecDoc.v — the control channel as PROTOCOL.md describes it (PROTOCOL.md:12-109), written down from
    that text alone; nothing here is taken from the code. *)
From Verif Require Import Base.

(** "All integers are network ordered" (PROTOCOL.md:24): most significant byte first. *)
Fixpoint net (n : nat) (x : Z) : list Z := match n with O => [] | S n => net n (x / 256) ++ [x mod 256] end.
(** The ack blocks, PROTOCOL.md:76-105; the bitmap by its bytes. *)
Inductive dblock := BlockSingle (pid : Z) | BlockMulti (first last : Z) | BlockBitmap (pid bits : Z) (map_ : list Z).
Definition block_wire (b : dblock) : list Z :=
  match b with
  | BlockSingle pid => 0 :: net 8 pid
  | BlockMulti a b => 1 :: net 8 a ++ net 8 b
  | BlockBitmap pid bits m => 2 :: net 8 pid ++ net 2 bits ++ m
  end.
(** The commands, PROTOCOL.md:26-72. *)
Inductive dcmd := InitRequest (ver : Z) | InitReply (last_pid : Z) | DocPacket (pid : Z) (payload : list Z) | DocAck (blocks : list dblock).
Definition doc_wire (c : dcmd) : list Z :=
  match c with
  | InitRequest ver => [0; ver]
  | InitReply last => 1 :: 1 :: net 8 last
  | DocPacket pid p => 2 :: net 8 pid ++ net 2 (zlen p) ++ p
  | DocAck bl => let bs := flat_map block_wire bl in 3 :: net 2 (zlen bs) ++ bs
  end.
(** What a subscriber sends: INIT first, then ACKs; what a publisher sends: the reply, then PACKETs
    (PROTOCOL.md:17-31). *)
Definition doc_from_sub (s : list Z) : Prop := exists ver acks more, s ++ more = flat_map doc_wire (InitRequest ver :: map DocAck acks).
Definition doc_from_pub (s : list Z) : Prop := exists last packets more,
  s ++ more = flat_map doc_wire (InitReply last :: map (fun p : Z * list Z => DocPacket (fst p) (snd p)) packets).
