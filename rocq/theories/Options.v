(** Options.v — main of rmc_test.c: from the command line to the start of a test peer.
    Simplifications: getopt itself, atoi, atoll and atof are the C library's: an option comes with the value
    they give ([drop_rate] by a token for the float).  The unit tests that main runs before either peer
    (rmc_test.c:187-191) are not part of the model; they do not read the settings. *)
From Verif Require Import Base TestPeers.

(** What getopt returns, with the converted optarg (rmc_test.c:102-174; the option string is on line 102).
    [G_n]: in the option string, but not in the switch.  [G_bad]: '?'. *)
Inductive gopt :=
| G_L (v : Z) | G_S | G_M (s : list Z) | G_m (s : list Z) | G_l (s : list Z) | G_P (v : Z) | G_p (v : Z) | G_i (v : Z) | G_c (v : Z)
| G_r (v : Z) | G_s (v : Z) | G_j (v : Z) | G_d (v : Z) | G_E (v : Z) | G_e (v : Z) | G_n (s : list Z) | G_bad.

(** The locals of main, rmc_test.c:78-100.  The strings are those up to the terminating zero. *)
Record settings := mkSet {
  o_pub : bool; o_group : list Z; o_mif : list Z; o_lif : list Z; o_lport : Z; o_mport : Z; o_seed : Z; o_count : Z; o_node : Z;
  o_drop : Z; o_interval : Z; o_jitter : Z; o_map : list bool; o_subs : Z; o_given : bool; o_level : Z }.
(** "0.0.0.0" and "239.0.0.1", rmc_test.c:45-47. *)
Definition any_addr : list Z := [48; 46; 48; 46; 48; 46; 48].
Definition group_addr : list Z := [50; 51; 57; 46; 48; 46; 48; 46; 49].
(** rmc_test.c:78-100; the macros are on lines 45-49. *)
Definition defaults : settings := mkSet true group_addr any_addr any_addr 0 4723 1 1 1 0 0 0 (repeat false 1024) 1 false 0.

(** strcpy(buf, optarg) into a char[80], rmc_test.c:79-81, 114, 118, 122. *)
Definition strcpy80 (s : list Z) : res (list Z) := if zlen s + 1 <=? 80 then Ok s else UB OutOfBounds.
(** The cases 'E' and 'e', rmc_test.c:157-168 (both run the code from line 160 on). *)
Definition expect_case (s : settings) (v : Z) : option settings :=
  if (v <? 1) || (1024 <=? v) then None
  else Some (mkSet (o_pub s) (o_group s) (o_mif s) (o_lif s) (o_lport s) (o_mport s) (o_seed s) (o_count s) (o_node s) (o_drop s) (o_interval s) (o_jitter s)
         (mark (o_map s) v) (o_subs s) true (o_level s)).
(** One turn of the loop, rmc_test.c:102-174.  [None]: usage and exit(1). *)
Definition option_step (s : settings) (o : gopt) : res (option settings) :=
  let '(mkSet pub grp mif lif lport mport seed cnt node drop ivl jit map_ subs given lvl) := s in
  match o with
  | G_L v => Ok (Some (mkSet pub grp mif lif lport mport seed cnt node drop ivl jit map_ subs given v))                      (* 105-107 *)
  | G_S => Ok (Some (mkSet false grp mif lif lport mport seed cnt node drop ivl jit map_ subs given lvl))                    (* 109-111 *)
  | G_M a => do a <- strcpy80 a; Ok (Some (mkSet pub a mif lif lport mport seed cnt node drop ivl jit map_ subs given lvl))  (* 113-115 *)
  | G_m a => do a <- strcpy80 a; Ok (Some (mkSet pub grp a lif lport mport seed cnt node drop ivl jit map_ subs given lvl))  (* 117-119 *)
  | G_l a => do a <- strcpy80 a; Ok (Some (mkSet pub grp mif a lport mport seed cnt node drop ivl jit map_ subs given lvl))  (* 121-123 *)
  | G_P v => Ok (Some (mkSet pub grp mif lif lport v seed cnt node drop ivl jit map_ subs given lvl))                        (* 125-127 *)
  | G_p v => Ok (Some (mkSet pub grp mif lif v mport seed cnt node drop ivl jit map_ subs given lvl))                        (* 129-131 *)
  | G_i v => Ok (Some (mkSet pub grp mif lif lport mport seed cnt (u32 v) drop ivl jit map_ subs given lvl))                 (* 133-135 *)
  | G_c v => Ok (Some (mkSet pub grp mif lif lport mport seed (u64 v) node drop ivl jit map_ subs given lvl))                (* 137-139 *)
  | G_r v => Ok (Some (mkSet pub grp mif lif lport mport v cnt node drop ivl jit map_ subs given lvl))                       (* 141-143 *)
  | G_s v => Ok (Some (mkSet pub grp mif lif lport mport seed cnt node drop v jit map_ subs given lvl))                      (* 145-147 *)
  | G_j v => Ok (Some (mkSet pub grp mif lif lport mport seed cnt node drop ivl v map_ subs given lvl))                      (* 149-151 *)
  | G_d v => Ok (Some (mkSet pub grp mif lif lport mport seed cnt node v ivl jit map_ subs given lvl))                       (* 153-155 *)
  | G_E v => Ok (expect_case (mkSet pub grp mif lif lport mport seed cnt node drop ivl jit map_ v given lvl) v)
  | G_e v => Ok (expect_case s v)
  | G_n _ | G_bad => Ok None
  end.
(** The loop, rmc_test.c:102-174. *)
Fixpoint option_loop (s : settings) (opts : list gopt) : res (option settings) :=
  match opts with
  | [] => Ok (Some s)
  | o :: r => do t <- option_step s o; match t with Some s' => option_loop s' r | None => Ok None end
  end.

(** What main starts, with the arguments of test_rmc_proto_sub and test_rmc_proto_pub in their order. *)
Inductive started :=
| Usage
| StartSub (group mif : list Z) (mport node : Z) (map_ : list bool)
| StartPub (group mif lif : list Z) (mport lport node count subs seed interval jitter drop : Z).
(** rmc_test.c:102-222. *)
Definition rmc_test_main (opts : list gopt) : res started :=
  do t <- option_loop defaults opts;
  match t with
  | None => Ok Usage
  | Some s =>
      let m := if o_given s then o_map s else mark (o_map s) 1 in                         (* 179-180 *)
      if (o_level s <? 0) || (6 <? o_level s) then Ok Usage                               (* 182-185; rmc_log.c:52-63 *)
      else if negb (o_pub s) then Ok (StartSub (o_group s) (o_mif s) (o_mport s) (o_node s) m)
      else Ok (StartPub (o_group s) (o_mif s) (o_lif s) (o_mport s) (o_lport s) (o_node s) (o_count s) (o_subs s) (o_seed s) (o_interval s) (o_jitter s) (o_drop s))
  end.
