(** Pub.v — model of pub.c, the publisher's packet bookkeeping.

    pub_packet_t objects live at nat addresses in [p_packs] (malloc hands out fresh ones,
    free removes them); pub_subscriber_t objects are named by nat ids.  The intrusive lists
    are finite sequences of packet addresses, head first: PropList.v proves that the list
    code behaves as such sequences (C07-C09).
    pub_packet_t::parent_node is the one list node that holds the packet in ctx->queued or
    ctx->inflight; since that node is never shared, "the node parent_node points to" is "the
    element of ctx->queued or ctx->inflight that is this packet", and unlinking it when it is
    in neither list is the failing assert of rmc_list_template.h:202.
    Walking a list dereferences each packet in it: a dead address is UB.  Where the C code
    stops early the model still requires all packets of that list to be live (stricter).
    Simplifications: payload pointers and user data are integers (0 = NULL); timestamps are
    unbounded integers; the payload_free callback is never NULL (the library always passes
    one, rmc_pub_packet.c:96, rmc_pub_read.c). *)
From Verif Require Import Base ListHeap SeqList.

(** rmc_pub.h:19-38, pub_packet_t. *)
Record packet := mkPacket {
  pk_pid : Z; pk_payload : Z; pk_len : Z; pk_ref : Z; pk_ts : Z; pk_user : Z
}.

(** rmc_pub.h:58-66, pub_context_t, with the pub_packet_t heap and all subscribers'
    pub_subscriber_t::inflight (rmc_pub.h:44-50). *)
Record pub := mkPub {
  p_packs : nat -> option packet;
  p_fresh : nat;
  p_subs : list nat;
  p_queued : list nat;
  p_inflight : list nat;
  p_sinf : nat -> list nat;
  p_next : Z
}.

(** An invocation of the payload_free callback: payload, payload_len, user data. *)
(** A call of pub_payload_free, pub.c:284-287. *)
Definition freed : Type := (Z * Z * Z)%type.

(** A dereference of a pub_packet_t pointer (rmc_pub.h:21-38). *)
Definition get_pack (s : pub) (a : nat) : res packet :=
  match p_packs s a with Some p => Ok p | None => UB UseAfterFree end.
(** A store to, or the malloc/free of, a pub_packet_t (rmc_pub.h:21-38, pub.c:20-34). *)
Definition set_pack (s : pub) (a : nat) (p : option packet) : pub :=
  mkPub (upd (p_packs s) a p) (p_fresh s) (p_subs s) (p_queued s) (p_inflight s) (p_sinf s) (p_next s).
(** An update of pub_context_t.queued (rmc_pub.h:90-98). *)
Definition set_queued (s : pub) (l : list nat) : pub :=
  mkPub (p_packs s) (p_fresh s) (p_subs s) l (p_inflight s) (p_sinf s) (p_next s).
(** An update of pub_context_t.inflight (rmc_pub.h:90-98). *)
Definition set_inflight (s : pub) (l : list nat) : pub :=
  mkPub (p_packs s) (p_fresh s) (p_subs s) (p_queued s) l (p_sinf s) (p_next s).
(** An update of pub_subscriber_t.inflight (rmc_pub.h:57-63). *)
Definition set_sinf (s : pub) (sub : nat) (l : list nat) : pub :=
  mkPub (p_packs s) (p_fresh s) (p_subs s) (p_queued s) (p_inflight s) (upd (p_sinf s) sub l) (p_next s).
(** An update of pub_context_t.subscribers (rmc_pub.h:90-98). *)
Definition set_subs (s : pub) (l : list nat) : pub :=
  mkPub (p_packs s) (p_fresh s) l (p_queued s) (p_inflight s) (p_sinf s) (p_next s).

(** Every packet of the list can be dereferenced. *)
(** A packet allocated and not freed, pub.c:20-34. *)
Definition is_live (s : pub) (a : nat) : bool := match p_packs s a with Some _ => true | None => false end.
(** The comparison functions, e.g. pub.c:97-107, dereference every packet they are given. *)
Definition check_live (s : pub) (l : list nat) : res unit :=
  if forallb (is_live s) l then Ok tt else UB UseAfterFree.
(** pack->pid, rmc_pub.h:22. *)
Definition pid_of (s : pub) (a : nat) : Z := match p_packs s a with Some p => pk_pid p | None => 0 end.
(** pack->send_ts, rmc_pub.h:21-38. *)
Definition ts_of (s : pub) (a : nat) : Z := match p_packs s a with Some p => pk_ts p | None => 0 end.

(** Remove the first element satisfying f. *)
(** Unlinking one node, rmc_list_template.h:199-220. *)
Fixpoint rm1 {X} (f : X -> bool) (l : list X) : list X :=
  match l with
  | [] => []
  | x :: r => if f x then r else x :: rm1 f r
  end.
(** Membership in a list, which node->owner records, rmc_list.h:31. *)
Definition mem (x : nat) (l : list nat) : bool := existsb (Nat.eqb x) l.

(** pub.c:44-53, pub_init_context; the subscribers' storage holds no valid list yet. *)
Definition pub_init : pub := mkPub (fun _ => None) 0 [] [] [] (fun _ => []) 1.

(** pub.c:56-66, pub_init_subscriber. *)
Definition pub_init_subscriber (s : pub) (sub : nat) : pub :=
  set_subs (set_sinf s sub []) (p_subs s ++ [sub]).

(** pub.c:97-107, _compare_pid. *)
Definition compare_pid (s : pub) (a b : nat) : Z :=
  if pid_of s b <? pid_of s a then 1 else if pid_of s a <? pid_of s b then -1 else 0.

(** pub.c:110-140, pub_queue_packet_with_pid; returns the new pid and the packet address. *)
Definition pub_queue_with_pid (s : pub) (pid payload len user : Z) : res (pub * Z * nat) :=
  if payload =? 0 then Abort                                        (* 118 assert(payload) *)
  else
    do _ <- check_live s (p_queued s);
    let a := p_fresh s in                                           (* 120 malloc *)
    let s1 := mkPub (upd (p_packs s) a (Some (mkPacket pid payload len 0 0 user)))  (* 121-127 *)
                    (S a) (p_subs s) (p_queued s) (p_inflight s) (p_sinf s) (p_next s) in
    Ok (set_queued s1 (seq_insert_sorted (compare_pid s1) a (p_queued s1)), pid, a).   (* 133-137 *)

(** pub.c:36-41 and 142-153, pub_queue_packet. *)
Definition pub_queue_packet (s : pub) (payload len user : Z) : res (pub * Z * nat) :=
  let pid := p_next s in
  let s1 := mkPub (p_packs s) (p_fresh s) (p_subs s) (p_queued s) (p_inflight s) (p_sinf s)
                  (u64 (p_next s + 1)) in
  pub_queue_with_pid s1 pid payload len user.

(** pub.c:155-166, pub_queue_no_acknowledge_packet. *)
Definition pub_queue_no_ack (s : pub) (payload len user : Z) : res (pub * Z * nat) :=
  pub_queue_with_pid s 0 payload len user.

(** pub.c:168-173, pub_queue_size. *)
Definition pub_queue_size (s : pub) : Z := u32 (zlen (p_queued s)).

(** Last element. *)
(** rmc_list_template.h:46-51, _tail. *)
Definition last_opt {X} (l : list X) : option X := match rev l with [] => None | x :: _ => Some x end.

(** pub.c:176-185, pub_next_queued_packet. *)
Definition pub_next_queued (s : pub) : option nat := last_opt (p_queued s).

(** pub_packet_list_unlink / _delete of pack->parent_node. *)
(** pub.c:187-233 and 236-292: rmc_list_template.h:199-228 on pack->parent_node. *)
Definition unlink_parent (s : pub) (a : nat) : res pub :=
  if mem a (p_queued s) then Ok (set_queued s (rm1 (Nat.eqb a) (p_queued s)))
  else if mem a (p_inflight s) then Ok (set_inflight s (rm1 (Nat.eqb a) (p_inflight s)))
  else Abort.

(** pub.c:219-232, the subscriber loop of pub_packet_sent. *)
Fixpoint sent_loop (s : pub) (a : nat) (subs : list nat) : res pub :=
  match subs with
  | [] => Ok s
  | sub :: rest =>
      do _ <- check_live s (p_sinf s sub);
      let s1 := set_sinf s sub (seq_insert_sorted (compare_pid s) a (p_sinf s sub)) in  (* 225-227 *)
      do p <- get_pack s1 a;
      let s2 := set_pack s1 a (Some (mkPacket (pk_pid p) (pk_payload p) (pk_len p)
                                              (u32 (pk_ref p + 1)) (pk_ts p) (pk_user p))) in (* 228 *)
      sent_loop s2 a rest
  end.

(** pub.c:187-233, pub_packet_sent. *)
Definition pub_packet_sent (s : pub) (a : nat) (ts : Z) : res pub :=
  do p <- get_pack s a;
  let s1 := set_pack s a (Some (mkPacket (pk_pid p) (pk_payload p) (pk_len p) (pk_ref p) ts (pk_user p))) in (* 197 *)
  do s2 <- unlink_parent s1 a;                                                              (* 203 *)
  if pk_pid p =? 0 then Ok s2                                                               (* 207-208 *)
  else
    do _ <- check_live s2 (p_inflight s2);
    let s3 := set_inflight s2 (seq_insert_sorted (compare_pid s2) a (p_inflight s2)) in     (* 213-215 *)
    sent_loop s3 a (p_subs s3).

(** pub.c:236-292, pub_packet_ack. *)
Definition pub_packet_ack (s : pub) (sub : nat) (pid : Z) : res (pub * list freed) :=
  do _ <- check_live s (p_sinf s sub);
  match find (fun a => pid_of s a =? pid) (rev (p_sinf s sub)) with                (* 250-257 *)
  | None => Ok (s, [])                                                             (* 262-263 *)
  | Some a =>
      let s1 := set_sinf s sub (rev (rm1 (fun b => pid_of s b =? pid) (rev (p_sinf s sub)))) in (* 270 *)
      do p <- get_pack s1 a;
      let p' := mkPacket (pk_pid p) (pk_payload p) (pk_len p) (u32 (pk_ref p - 1)) (pk_ts p) (pk_user p) in
      let s2 := set_pack s1 a (Some p') in                                         (* 272 *)
      if pk_ref p' =? 0 then                                                       (* 279 *)
        do s3 <- unlink_parent s2 a;                                               (* 280 *)
        Ok (set_pack s3 a None, [(pk_payload p', pk_len p', pk_user p')])          (* 283-289 *)
      else Ok (s2, [])
  end.

(** pub.c:83-84, the loop of pub_reset_subscriber. *)
Fixpoint reset_loop (fuel : nat) (s : pub) (sub : nat) (fr : list freed) : res (pub * list freed) :=
  match last_opt (p_sinf s sub) with
  | None => Ok (s, fr)
  | Some a =>
      match fuel with
      | O => Hang
      | S fuel =>
          do p <- get_pack s a;
          do r <- pub_packet_ack s sub (pk_pid p);
          reset_loop fuel (fst r) sub (fr ++ snd r)
      end
  end.

(** pub.c:75-94, pub_reset_subscriber.  Fuel: if the loop has not ended after as many rounds
    as the list had elements, some round removed nothing and it never ends. *)
Definition pub_reset_subscriber (s : pub) (sub : nat) : res (pub * list freed) :=
  do r <- reset_loop (length (p_sinf s sub)) s sub [];
  if mem sub (p_subs (fst r))                                                      (* 87-92 *)
  then Ok (set_subs (fst r) (rm1 (Nat.eqb sub) (p_subs (fst r))), snd r)
  else Abort.

(** pub.c:294-297, pub_get_unacknowledged_packet_count. *)
Definition pub_unacked_count (s : pub) : Z := u32 (zlen (p_inflight s)).

(** pub.c:300-317, pub_get_timed_out_subscribers. *)
Fixpoint timed_out_subs (s : pub) (now timeout : Z) (subs : list nat) : res (list nat) :=
  match subs with
  | [] => Ok []
  | sub :: rest =>
      do here <- match last_opt (p_sinf s sub) with
                 | None => Ok false
                 | Some a => do p <- get_pack s a; Ok (pk_ts p + timeout <=? now)
                 end;
      do tl <- timed_out_subs s now timeout rest;
      Ok (if here : bool then sub :: tl else tl)
  end.
(** pub.c:300-318, pub_get_timed_out_subscribers. *)
Definition pub_get_timed_out_subscribers (s : pub) (now timeout : Z) : res (list nat) :=
  timed_out_subs s now timeout (p_subs s).

(** pub.c:320-335, pub_get_timed_out_packets. *)
Fixpoint timed_out_packs (s : pub) (now timeout : Z) (l : list nat) : res (list nat) :=
  match l with
  | [] => Ok []
  | a :: rest =>
      do p <- get_pack s a;
      if pk_ts p + timeout <=? now
      then do tl <- timed_out_packs s now timeout rest; Ok (a :: tl)
      else Ok []
  end.
(** pub.c:320-335, pub_get_timed_out_packets. *)
Definition pub_get_timed_out_packets (s : pub) (sub : nat) (now timeout : Z) : res (list nat) :=
  timed_out_packs s now timeout (p_sinf s sub).

(** pub.c:340-371, pub_get_oldest_unackowledged_packet (non-null arguments; returns 1). *)
Fixpoint oldest_loop (s : pub) (oldest : Z) (subs : list nat) : res Z :=
  match subs with
  | [] => Ok oldest
  | sub :: rest =>
      match last_opt (p_sinf s sub) with
      | None => oldest_loop s oldest rest
      | Some a =>
          do p <- get_pack s a;
          oldest_loop s (if (oldest =? -1) || (pk_ts p <? oldest) then pk_ts p else oldest) rest
      end
  end.
(** pub.c:340-371, pub_get_oldest_unackowledged_packet. *)
Definition pub_oldest_unacked (s : pub) : res Z := oldest_loop s (-1) (p_subs s).
