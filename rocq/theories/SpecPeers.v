(** SpecPeers.v — what the bundled test programs are meant to do. *)
From Verif Require Import Base Wire SpecSub TestPeers.

(** The signals of node [n] in a stream, in order. *)
Definition of_node (n : Z) (sigs : list signal) : list signal := filter (fun s => sg_node s =? n) sigs.
(** The first [k] signals of node [n] of [m]. *)
Definition numbered (n m : Z) (k : nat) : list signal := map (fun i => mkSig n i m) (upfrom 1 k).
(** The nodes of which signals are expected. *)
Definition expected (map_ : list bool) (n : Z) : Prop := 0 <= n /\ nth_error map_ (Z.to_nat n) = Some true.

(** From every node the numbers 1, 2, 3, ... in order with the same highest number, never above it;
    nothing from other nodes.  A highest number of 0 sets no limit. *)
Definition in_order (map_ : list bool) (sigs : list signal) : Prop :=
  forall n, of_node n sigs = [] \/
    expected map_ n /\ exists m k, of_node n sigs = numbered n m k /\ (m = 0 \/ Z.of_nat k <= m).
(** From every expected node all its numbers. *)
Definition everything (map_ : list bool) (sigs : list signal) : Prop :=
  forall n, expected map_ n -> exists m, 1 <= m /\ of_node n sigs = numbered n m (Z.to_nat m).

(** The test has neither failed nor passed yet; it has passed at some signal; it has failed at some signal. *)
Definition undecided map_ sigs : Prop := in_order map_ sigs /\ ~ everything map_ sigs.
Definition passes map_ sigs : Prop := exists pre s post, sigs = pre ++ s :: post /\ in_order map_ (pre ++ [s]) /\ everything map_ (pre ++ [s]).
Definition fails map_ sigs : Prop := exists pre s post, sigs = pre ++ s :: post /\ undecided map_ pre /\ ~ in_order map_ (pre ++ [s]).

(** Values of the fields of signal_t, with a highest number the test subscriber can add up to. *)
Definition sig_ok (s : signal) : Prop := is_u32 (sg_node s) /\ is_u32 (sg_id s) /\ 0 <= sg_max s < 2147483647.
(** The payload carrying these signals. *)
Definition payload_of (sigs : list signal) : list Z := flat_map enc_signal sigs.
