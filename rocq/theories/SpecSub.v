(** SpecSub.v — histories of a subscriber's view of one publisher, and what the user expects
    of them: which packets were accepted, handed out, acknowledged. *)
From Verif Require Import Base SeqList Sub.

Inductive sop :=
| SArrive (p : spacket) (store : bool) (now : Z)   (* duplicate check, then sub_packet_received *)
| SProcess                                         (* sub_process_received_packets *)
| SAck.                                            (* take the first ack interval *)

Inductive sout :=
| OAccepted
| ODuplicate
| ODispatched (l : list spacket)
| OAck (iv : option intv).

Definition sub_step (s : spub) (o : sop) : spub * sout :=
  match o with
  | SArrive p store now =>
      if sub_is_duplicate s (sk_pid p) then (s, ODuplicate) else (sub_received s p store now, OAccepted)
  | SProcess => let (s', l) := sub_process s in (s', ODispatched l)
  | SAck => let (s', iv) := sub_pop_interval s in (s', OAck iv)
  end.
Fixpoint sub_run (s : spub) (ops : list sop) : spub * list sout :=
  match ops with
  | [] => (s, [])
  | o :: rest => let (s1, x) := sub_step s o in
                 let (s2, xs) := sub_run s1 rest in (s2, x :: xs)
  end.

(** Ids that neither are 0 (announce) nor sit at the very end of the 64-bit range. *)
Definition good_pid (k : Z) : Prop := 1 <= k < 18446744073709551615.
Definition op_good (o : sop) : Prop := match o with SArrive p _ _ => good_pid (sk_pid p) | _ => True end.

Definition arrived1 (o : sop) : list spacket := match o with SArrive p _ _ => [p] | _ => [] end.
Definition arrived (ops : list sop) : list spacket := flat_map arrived1 ops.
Definition dispatched1 (x : sout) : list spacket := match x with ODispatched l => l | _ => [] end.
Definition dispatched (outs : list sout) : list spacket := flat_map dispatched1 outs.
(** Accepted packets, with the ack bookkeeping flag and the receive time. *)
Definition accepted1 (ox : sop * sout) : list (spacket * bool * Z) :=
  match ox with (SArrive p b t, OAccepted) => [(p, b, t)] | _ => [] end.
Definition accepted (ops : list sop) (outs : list sout) : list (spacket * bool * Z) :=
  flat_map accepted1 (combine ops outs).
Definition acc_pids (ops : list sop) (outs : list sout) : list Z :=
  map (fun a => sk_pid (fst (fst a))) (accepted ops outs).
Definition acked1 (x : sout) : list intv := match x with OAck (Some iv) => [iv] | _ => [] end.
Definition acked (outs : list sout) : list intv := flat_map acked1 outs.

Definition in_iv (k : Z) (iv : intv) : Prop := iv_first iv <= k <= iv_last iv.
Definition covered (k : Z) (l : list intv) : Prop := exists iv, In iv l /\ in_iv k iv.
(** Sorted, pairwise disjoint and non-adjacent, none empty. *)
Fixpoint separated (l : list intv) : Prop :=
  match l with
  | [] => True
  | iv :: r => iv_first iv <= iv_last iv /\ (forall jv, In jv r -> iv_last iv + 1 < iv_first jv) /\ separated r
  end.

(** The numbers f, f+1, ..., f+n-1. *)
Fixpoint upfrom (f : Z) (n : nat) : list Z :=
  match n with O => [] | S n => f :: upfrom (f + 1) n end.

(** The library processes the first packet of a publisher as soon as it arrives
    (rmc_sub_read.c); the client of sub.c may do otherwise. *)
Definition starts_processed (ops : list sop) : Prop :=
  exists p b t rest, ops = SArrive p b t :: SProcess :: rest.
(** Receive times do not decrease. *)
Fixpoint sclock (t : Z) (ops : list sop) : Prop :=
  match ops with
  | [] => True
  | SArrive _ _ now :: rest => t <= now /\ sclock now rest
  | _ :: rest => sclock t rest
  end.
