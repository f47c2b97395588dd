(** SpecPub.v — what a publisher's bookkeeping is supposed to do, without lists of pointers
    or reference counts: packets waiting to be sent, and sent packets together with the
    subscribers that still have to acknowledge them. *)
From Verif Require Import Base Pub.

(** Payload pointer, length, user data. *)
Definition pl : Type := (Z * Z * Z)%type.

(** A sent packet: its id, payload, send time, and who still has to acknowledge it. *)
Record entry := mkE { e_pid : Z; e_pl : pl; e_ts : Z; e_hold : list nat }.

Record spec := mkSpec {
  sp_next : Z;                  (* id of the next data packet *)
  sp_reg  : list nat;           (* registered subscribers, in order of registration *)
  sp_ann  : list pl;            (* announces waiting to be sent, oldest first *)
  sp_data : list (Z * pl);      (* data packets waiting to be sent, oldest first *)
  sp_live : list entry          (* sent and not released, oldest first *)
}.
Definition spec_init : spec := mkSpec 1 [] [] [] [].

Inductive pub_op :=
| OpSubscribe (s : nat)
| OpUnsubscribe (s : nat)
| OpQueue (p : pl)
| OpAnnounce (p : pl)
| OpSend (ts : Z)               (* hand the next queued packet to the network at time ts *)
| OpAck (s : nat) (pid : Z).

Inductive pub_out :=
| OutNone
| OutPid (pid : Z)
| OutSent (pkt : option (Z * pl))   (* packet handed out, if any *)
| OutFreed (l : list pl).           (* payload_free calls, in order *)

Definition rm (s : nat) (l : list nat) : list nat := remove Nat.eq_dec s l.
Definition drop_claim (s : nat) (e : entry) : entry := mkE (e_pid e) (e_pl e) (e_ts e) (rm s (e_hold e)).
Definition unclaimed (e : entry) : bool := match e_hold e with [] => true | _ => false end.

(** [sub] gives up its claim on the packets selected by [sel]; those that nobody claims any
    more are released. *)
Definition release (s : nat) (sel : entry -> bool) (live : list entry) : list entry * list pl :=
  let hit e := sel e && mem s (e_hold e) in
  (flat_map (fun e => if hit e then (if unclaimed (drop_claim s e) then [] else [drop_claim s e]) else [e]) live,
   flat_map (fun e => if hit e && unclaimed (drop_claim s e) then [e_pl e] else []) live).

Definition spec_step (sp : spec) (o : pub_op) : spec * pub_out :=
  match o with
  | OpSubscribe s => (mkSpec (sp_next sp) (sp_reg sp ++ [s]) (sp_ann sp) (sp_data sp) (sp_live sp), OutNone)
  | OpUnsubscribe s =>
      let (live, fr) := release s (fun _ => true) (sp_live sp) in
      (mkSpec (sp_next sp) (rm s (sp_reg sp)) (sp_ann sp) (sp_data sp) live, OutFreed fr)
  | OpQueue p =>
      (mkSpec (sp_next sp + 1) (sp_reg sp) (sp_ann sp) (sp_data sp ++ [(sp_next sp, p)]) (sp_live sp),
       OutPid (sp_next sp))
  | OpAnnounce p =>
      (mkSpec (sp_next sp) (sp_reg sp) (sp_ann sp ++ [p]) (sp_data sp) (sp_live sp), OutPid 0)
  | OpSend ts =>
      match sp_ann sp, sp_data sp with
      | p :: rest, _ => (mkSpec (sp_next sp) (sp_reg sp) rest (sp_data sp) (sp_live sp), OutSent (Some (0, p)))
      | [], (k, p) :: rest =>
          (mkSpec (sp_next sp) (sp_reg sp) [] rest (sp_live sp ++ [mkE k p ts (sp_reg sp)]),
           OutSent (Some (k, p)))
      | [], [] => (sp, OutSent None)
      end
  | OpAck s pid =>
      let (live, fr) := release s (fun e => e_pid e =? pid) (sp_live sp) in
      (mkSpec (sp_next sp) (sp_reg sp) (sp_ann sp) (sp_data sp) live, OutFreed fr)
  end.

Fixpoint spec_run (sp : spec) (ops : list pub_op) : spec * list pub_out :=
  match ops with
  | [] => (sp, [])
  | o :: rest => let (sp1, x) := spec_step sp o in
                 let (sp2, xs) := spec_run sp1 rest in (sp2, x :: xs)
  end.

(** The same calls on the model of pub.c. *)
Definition pub_step (s : pub) (o : pub_op) : res (pub * pub_out) :=
  match o with
  | OpSubscribe sub => Ok (pub_init_subscriber s sub, OutNone)
  | OpUnsubscribe sub => do r <- pub_reset_subscriber s sub; Ok (fst r, OutFreed (snd r))
  | OpQueue (p, len, u) => do r <- pub_queue_packet s p len u; Ok (fst (fst r), OutPid (snd (fst r)))
  | OpAnnounce (p, len, u) => do r <- pub_queue_no_ack s p len u; Ok (fst (fst r), OutPid (snd (fst r)))
  | OpSend ts =>
      match pub_next_queued s with
      | None => Ok (s, OutSent None)
      | Some a => do p <- get_pack s a;
                  do s' <- pub_packet_sent s a ts;
                  Ok (s', OutSent (Some (pk_pid p, (pk_payload p, pk_len p, pk_user p))))
      end
  | OpAck sub pid => do r <- pub_packet_ack s sub pid; Ok (fst r, OutFreed (snd r))
  end.
Fixpoint pub_run (s : pub) (ops : list pub_op) : res (pub * list pub_out) :=
  match ops with
  | [] => Ok (s, [])
  | o :: rest => do r <- pub_step s o;
                 do r2 <- pub_run (fst r) rest;
                 Ok (fst r2, snd r :: snd r2)
  end.

(** Legal use: payloads are not NULL (asserted, pub.c:118), a subscriber is registered at
    most once at a time and only unregistered while registered (asserted, pub.c:91), and
    there are fewer than 2^32 - 1 subscribers and 2^64 - 1 data packets. *)
Definition op_legal (sp : spec) (o : pub_op) : Prop :=
  match o with
  | OpSubscribe s => ~ In s (sp_reg sp) /\ zlen (sp_reg sp) < 4294967295
  | OpUnsubscribe s => In s (sp_reg sp)
  | OpQueue (p, _, _) => p <> 0 /\ sp_next sp < 18446744073709551615
  | OpAnnounce (p, _, _) => p <> 0
  | OpSend _ | OpAck _ _ => True
  end.
Fixpoint legal (sp : spec) (ops : list pub_op) : Prop :=
  match ops with
  | [] => True
  | o :: rest => op_legal sp o /\ legal (fst (spec_step sp o)) rest
  end.
