(** TestPeers.v — model of the payload generator of the bundled test publisher
    (rmc_proto_test_pub.c) and of the checker of the bundled test subscriber
    (rmc_proto_test_sub.c). *)
From Verif Require Import Base Wire.

(** rmc_proto_test_common.h:23-29, signal_t without its filler: node id, number, highest number. *)
Record signal := mkSig { sg_node : Z; sg_id : Z; sg_max : Z }.
(** sizeof(signal_t), rmc_proto_test_common.h:23-29: the struct is packed. *)
Definition signal_size : Z := 20.
(** Memory image of the struct built at rmc_proto_test_pub.c:274-279: the assignments to the
    uint32_t fields cut uint64_t values, the filler is 0. *)
Definition enc_signal (s : signal) : list Z :=
  le_bytes 4 (sg_node s) ++ le_bytes 4 (sg_id s) ++ le_bytes 4 (sg_max s) ++ le_bytes 8 0.
(** The three fields read through the pointer at rmc_proto_test_sub.c:117-120. *)
Definition dec_signal (bs : list Z) : signal :=
  mkSig (le_val (firstn 4 bs)) (le_val (firstn 4 (skipn 4 bs))) (le_val (firstn 4 (skipn 8 bs))).

(** ** The publisher *)
(** Filling one payload, rmc_proto_test_pub.c:273-283: the bytes so far, the next number. *)
Fixpoint fill (fuel : nat) (node count ind : Z) (payload : list Z) : res (list Z * Z) :=
  match fuel with
  | O => Hang
  | S fuel =>
      if (ind <=? count) && (zlen payload + signal_size <=? RMC_MAX_PAYLOAD)       (* 273 *)
      then fill fuel node count (u64 (ind + 1)) (payload ++ enc_signal (mkSig (u32 node) (u32 ind) (u32 count)))
      else Ok (payload, ind)
  end.
(** The payloads handed to rmc_pub_queue_packet in order, rmc_proto_test_pub.c:263-331; the waiting,
    the random numbers (the drop flag has no effect, 115-143) and the event loop are left out. *)
Fixpoint send_loop (fuel : nat) (node count ind : Z) : res (list (list Z)) :=
  match fuel with
  | O => Hang
  | S fuel =>
      if ind <=? count                                                                (* 263 *)
      then do r <- fill (Z.to_nat RMC_MAX_PAYLOAD) node count ind [];
           do more <- send_loop fuel node count (snd r);
           Ok (fst r :: more)
      else Ok []
  end.
(** rmc_proto_test_pub.c:260: numbering starts at 1. *)
Definition test_payloads (fuel : nat) (node count : Z) : res (list (list Z)) := send_loop fuel node count 1.

(** ** The subscriber *)
(** rmc_proto_test_sub.c:20-22. *)
Definition INACTIVE : Z := 0.
(** rmc_proto_test_sub.c:26. *)
Definition NOT_STARTED : Z := 1.
(** rmc_proto_test_sub.c:29. *)
Definition IN_PROGRESS : Z := 2.
(** rmc_proto_test_sub.c:32. *)
Definition COMPLETED : Z := 3.
(** rmc_proto_test_sub.c:18-41, sub_expect_t without the time stamps: status, max_expected,
    max_received, expect_sum, calc_sum. *)
Record expect := mkEx { ex_st : Z; ex_max : Z; ex_rcv : Z; ex_sum : Z; ex_calc : Z }.

(** What becomes of the process: it goes on, it leaves the receive loop (which ends in exit(0) after
    "Done."), it ends by exit(code), or the C program has no defined behaviour. *)
Inductive verdict :=
| Goes (e : list expect)
| Passed
| Exits (code : Z)
| Undef.

(** test_rmc_proto_sub's set-up, rmc_proto_test_sub.c:350-358; the sums are not initialised there
    and are set before their first use. *)
Definition expect_init (map_ : list bool) : list expect :=
  map (fun b : bool => mkEx (if b then NOT_STARTED else INACTIVE) 0 0 0 0) map_.

(** check_exit_condition, rmc_proto_test_sub.c:76-86. *)
Definition check_exit_condition (e : list expect) : bool :=
  forallb (fun x => negb ((ex_st x =? NOT_STARTED) || (ex_st x =? IN_PROGRESS))) e.

(** The loop of rmc_proto_test_sub.c:162-163 from [ind] on, [n] rounds left. *)
Fixpoint sum_loop (n : nat) (ind acc : Z) : Z :=
  match n with O => acc | S n => sum_loop n (ind + 1) (u64 (acc + ind)) end.
(** INT_MAX: incrementing it at rmc_proto_test_sub.c:162 is undefined. *)
Definition INT_MAX : Z := 2147483647.

(** Array update, expect[node_id].field = ..., rmc_proto_test_sub.c:154-214. *)
Definition set_nth (e : list expect) (n : nat) (v : expect) : list expect := firstn n e ++ v :: skipn (S n) e.

(** process_incoming_signal, rmc_proto_test_sub.c:109-250; log lines, time stamps and the printed
    statistics are left out (a rate that does not fit an int, 216-217, is undefined in C too). *)
Definition process_incoming_signal (e : list expect) (s : signal) : verdict :=
  if zlen e <=? sg_node s then Exits 255                                              (* 124-129 *)
  else match nth_error e (Z.to_nat (sg_node s)) with
  | None => Undef
  | Some x =>
      if ex_st x =? INACTIVE then Exits 255                                           (* 132-137 *)
      else if ex_st x =? COMPLETED then Exits 255                                     (* 140-148 *)
      else if (ex_st x =? NOT_STARTED) && (INT_MAX <=? sg_max s) then Undef           (* 162 *)
      else
        let x1 := if ex_st x =? NOT_STARTED                                           (* 152-163 *)
                  then mkEx IN_PROGRESS (sg_max s) 0 (sum_loop (Z.to_nat (sg_max s)) 1 0) 0
                  else x in
        if negb (sg_max s =? ex_max x1) then Exits 255                                (* 180-185 *)
        else if negb (sg_id s =? u64 (ex_rcv x1 + 1)) then Exits 255                  (* 188-193 *)
        else
          let calc := u64 (ex_calc x1 + sg_id s) in                                   (* 195-196 *)
          if sg_id s =? sg_max s                                                      (* 199 *)
          then if negb (ex_sum x1 =? calc) then Exits 0                               (* 207-212 *)
               else let e' := set_nth e (Z.to_nat (sg_node s)) (mkEx COMPLETED (ex_max x1) (sg_id s) (ex_sum x1) calc) in
                    if check_exit_condition e' then Passed else Goes e'                (* 214, 232-236 *)
          else Goes (set_nth e (Z.to_nat (sg_node s)) (mkEx (ex_st x1) (ex_max x1) (sg_id s) (ex_sum x1) calc))
  end.

(** process_incoming_packet, rmc_proto_test_sub.c:252-270: one signal every 20 bytes; fewer than the
    twelve bytes read left of the payload is a load outside it. *)
Fixpoint packet_loop (fuel : nat) (e : list expect) (rest : list Z) : verdict :=
  match fuel with
  | O => Goes e
  | S fuel =>
      match rest with
      | [] => Goes e                                                                  (* 260 *)
      | _ :: _ =>
          if zlen rest <? 12 then Undef
          else match process_incoming_signal e (dec_signal rest) with                 (* 261 *)
               | Goes e' => packet_loop fuel e' (zdrop signal_size rest)              (* 264 *)
               | v => v
               end
      end
  end.
(** rmc_proto_test_sub.c:252-270. *)
Definition process_incoming_packet (e : list expect) (payload : list Z) : verdict :=
  packet_loop (length payload) e payload.
(** The receive loop over everything rmc_sub_get_next_dispatch_ready hands out,
    rmc_proto_test_sub.c:408-416. *)
Fixpoint receive_loop (e : list expect) (packets : list (list Z)) : verdict :=
  match packets with
  | [] => Goes e
  | p :: r => match process_incoming_packet e p with Goes e' => receive_loop e' r | v => v end
  end.

(** ** The options that say which nodes are expected *)
(** The option letters -E and -e with atoi of their argument, rmc_test.c:157-168. *)
Inductive arg := Big_E (v : Z) | Small_e (v : Z).
(** expected_node_id[expect_node_id] = 1, rmc_test.c:166. *)
Definition mark (m : list bool) (n : Z) : list bool := firstn (Z.to_nat n) m ++ true :: skipn (S (Z.to_nat n)) m.
(** The two cases of the option loop, rmc_test.c:157-168: -E has no break.  [None]: usage and exit(1). *)
Fixpoint options (m : list bool) (given : bool) (args : list arg) : option (list bool * bool) :=
  match args with
  | [] => Some (m, given)
  | Big_E v :: r | Small_e v :: r =>
      if (v <? 1) || (1024 <=? v) then None else options (mark m v) true r
  end.
(** rmc_test.c:100, 157-168, 179-180: node 1 if no node was given. *)
Definition expected_map (args : list arg) : option (list bool) :=
  match options (repeat false 1024) false args with
  | Some (m, given) => Some (if given then m else mark m 1)
  | None => None
  end.
