(** Sub.v — model of sub.c, the subscriber's packet bookkeeping for one publisher.

    The intrusive lists are finite sequences, head first (PropList.v, C07-C09).
    A sub_packet_t is in exactly one list at a time and is moved between lists by value;
    [sk_addr] is its address (its identity).  Payload pointers and user data are integers;
    timestamps are unbounded integers; rmc_usec_monotonic_timestamp() is the argument [now]. *)
From Verif Require Import Base SeqList.

(** rmc_sub.h:53-76, sub_packet_t ([skip_acknowledgement] is never used). *)
Record spacket := mkSK {
  sk_addr : nat; sk_pub : nat; sk_pid : Z; sk_payload : Z; sk_len : Z; sk_user : Z
}.
(** rmc_sub.h:84-96, sub_pid_interval_t. *)
Record intv := mkIv { iv_first : Z; iv_last : Z; iv_ts : Z }.

(** rmc_sub.h:106-121, sub_publisher_t. *)
Record spub := mkSP {
  s_ready : Z;             (* max_pid_ready *)
  s_maxrecv : Z;           (* max_pid_received *)
  s_recv : list spacket;   (* received_pid *)
  s_intv : list intv       (* received_interval *)
}.

(** sub.c:159-166, sub_init_publisher. *)
Definition sub_init : spub := mkSP 0 0 [] [].

(** sub.c:36-54, _is_duplicate; *is_duplicate is 1 exactly when the result is 1. *)
Definition dup_cmp (pid : Z) (hay : spacket) : Z :=
  if pid =? sk_pid hay then 1 else if sk_pid hay <? pid then -1 else 0.

(** sub.c:56-82, sub_packet_is_duplicate. *)
Definition sub_is_duplicate (s : spub) (pid : Z) : bool :=
  if s_ready s =? 0 then false                                           (* 63-64 *)
  else if pid <=? s_ready s then true                                    (* 70-72 *)
  else match seq_find (dup_cmp pid) (rev (s_recv s)) with                (* 74-81 *)
       | Some _ => true
       | None => false
       end.

(** sub.c:85-89, _compare_pid. *)
Definition sk_compare (n o : spacket) : Z :=
  if sk_pid n <? sk_pid o then -1 else if sk_pid o <? sk_pid n then 1 else 0.

(** sub.c:209-340, sub_packet_add_to_received_interval: the walk from the tail, with the
    intervals still to visit (nearest first) and those already passed. *)
Fixpoint add_walk (todo passed : list intv) (pid now : Z) : list intv * Z :=
  match todo with
  | [] => (mkIv pid pid now :: passed, 1)                                (* 333-339 *)
  | iv :: rest =>
      if u64 (iv_last iv + 1) <? pid                                     (* 227-236 *)
      then (rev rest ++ iv :: mkIv pid pid now :: passed, 1)
      else if u64 (iv_last iv + 1) =? pid then                           (* 246 *)
        match passed with
        | nx :: passed' =>
            if u64 (iv_first nx - 1) =? pid                              (* 262 *)
            then (rev rest ++ mkIv (iv_first iv) (iv_last nx)
                    (if iv_ts iv <? iv_ts nx then iv_ts iv else iv_ts nx) :: passed', -1)
            else (rev rest ++ mkIv (iv_first iv) pid (iv_ts iv) :: passed, 0)
        | [] => (rev rest ++ [mkIv (iv_first iv) pid (iv_ts iv)], 0)     (* 275 *)
        end
      else if u64 (iv_first iv - 1) =? pid then                          (* 287 *)
        match rest with
        | pv :: rest' =>
            if u64 (iv_last pv + 1) =? pid                               (* 303 *)
            then (rev rest' ++ mkIv (iv_first pv) (iv_last iv)
                    (if iv_ts iv <? iv_ts pv then iv_ts iv else iv_ts pv) :: passed, -1)
            else (rev rest ++ mkIv pid (iv_last iv) (iv_ts iv) :: passed, 0)
        | [] => (mkIv pid (iv_last iv) (iv_ts iv) :: passed, 0)          (* 316 *)
        end
      else add_walk rest (iv :: passed) pid now                          (* 318 *)
  end.
(** sub.c:209-340, sub_packet_add_to_received_interval. *)
Definition add_interval (l : list intv) (pid now : Z) : list intv * Z := add_walk (rev l) [] pid now.

(** sub.c:90-120, sub_packet_received ([current_ts] is not used by the code). *)
Definition sub_received (s : spub) (pk : spacket) (store : bool) (now : Z) : spub :=
  mkSP (s_ready s)
       (if s_maxrecv s <? sk_pid pk then sk_pid pk else s_maxrecv s)     (* 107-108 *)
       (seq_insert_sorted_rev sk_compare pk (s_recv s))                  (* 113-115 *)
       (if store then fst (add_interval (s_intv s) (sk_pid pk) now) else s_intv s). (* 117-118 *)

(** sub.c:141-154, the loop of sub_process_received_packets: new max_pid_ready, packets
    moved to dispatch_ready in order, packets left. *)
Fixpoint process_loop (ready : Z) (l : list spacket) : Z * list spacket * list spacket :=
  match l with
  | [] => (ready, [], [])
  | p :: r =>
      if negb (ready =? 0) && negb (sk_pid p =? u64 (ready + 1)) then (ready, [], l)
      else let '(ready', out, rest) := process_loop (u64 (ready + 1)) r in (ready', p :: out, rest)
  end.
(** sub.c:127-155, sub_process_received_packets; the packets appended to dispatch_ready. *)
Definition sub_process (s : spub) : spub * list spacket :=
  let ready := match s_recv s with
               | p :: _ => if s_ready s =? 0 then u64 (sk_pid p - 1) else s_ready s   (* 138-139 *)
               | [] => s_ready s
               end in
  let '(ready', out, rest) := process_loop ready (s_recv s) in
  (mkSP ready' (s_maxrecv s) rest (s_intv s), out).

(** sub.c:168-186, sub_reset_publisher with a non-NULL payload_free_cb: payload_free calls. *)
Definition sub_reset (s : spub) : spub * list (Z * Z * Z) :=
  (mkSP (s_ready s) (s_maxrecv s) [] [],
   map (fun p => (sk_payload p, sk_len p, sk_user p)) (s_recv s)).

(** sub.c:195-201, sub_oldest_unacknowledged_packet. *)
Definition sub_oldest_unacked (s : spub) : Z :=
  match s_intv s with [] => 0 | iv :: _ => iv_ts iv end.

(** sub_pid_interval_list_pop_head, as used by rmc_sub_timeout.c:69. *)
Definition sub_pop_interval (s : spub) : spub * option intv :=
  match s_intv s with
  | [] => (s, None)
  | iv :: r => (mkSP (s_ready s) (s_maxrecv s) (s_recv s) r, Some iv)
  end.
