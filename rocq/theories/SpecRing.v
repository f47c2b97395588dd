(** SpecRing.v — independent specification of the ring: a bounded FIFO queue of bytes.
    It mentions no index, no segment and no wrap-around. *)
From Verif Require Import Base CircBuf.

(** Calls a user can make on the ring. *)
Inductive rop :=
| RAppend (bs : list Z)     (* alloc(|bs|) and fill the returned memory with bs *)
| RRead (n : Z)             (* read up to n bytes, not consuming *)
| RPeek (n : Z)             (* read_segment: view of up to n bytes, not consuming *)
| RFree (n : Z)             (* consume up to n bytes *)
| RInUse | RAvailable.

Inductive rout :=
| OCode (e : Z)             (* return code *)
| OBytes (bs : list Z)
| ONum (n : Z).

(** Bounded FIFO queue with room for [cap] bytes. *)
Definition queue_step (cap : Z) (q : list Z) (o : rop) : list Z * rout :=
  match o with
  | RAppend bs => if zlen q + zlen bs <=? cap then (q ++ bs, OCode 0) else (q, OCode ENOMEM)
  | RRead n => (q, OBytes (ztake n q))
  | RPeek n => (q, OBytes (ztake n q))
  | RFree n => (zdrop n q, ONum (zlen (zdrop n q)))
  | RInUse => (q, ONum (zlen q))
  | RAvailable => (q, ONum (cap - zlen q))
  end.

Fixpoint queue_run (cap : Z) (q : list Z) (ops : list rop) : list Z * list rout :=
  match ops with
  | [] => (q, [])
  | o :: rest =>
      let (q1, x) := queue_step cap q o in
      let (q2, xs) := queue_run cap q1 rest in (q2, x :: xs)
  end.

(** The same calls on the modelled ring. *)
Definition ring_step (cb : cbuf) (o : rop) : res (cbuf * rout) :=
  match o with
  | RAppend bs => do r <- ring_append cb bs; Ok (snd r, OCode (fst r))
  | RRead n => do r <- circ_buf_read cb n; Ok (cb, OBytes (snd r))
  | RPeek n => do bs <- segs_load cb (circ_buf_read_segment cb n); Ok (cb, OBytes bs)
  | RFree n => do r <- circ_buf_free cb n; Ok (fst r, ONum (snd r))
  | RInUse => Ok (cb, ONum (circ_buf_in_use cb))
  | RAvailable => Ok (cb, ONum (circ_buf_available cb))
  end.

Fixpoint ring_run (cb : cbuf) (ops : list rop) : res (cbuf * list rout) :=
  match ops with
  | [] => Ok (cb, [])
  | o :: rest =>
      do r <- ring_step cb o;
      do r2 <- ring_run (fst r) rest;
      Ok (fst r2, snd r :: snd r2)
  end.

(** Length arguments are uint32_t. *)
Definition rop_ok (o : rop) : Prop :=
  match o with
  | RRead n | RPeek n | RFree n => is_u32 n
  | _ => True
  end.
