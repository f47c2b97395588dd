(** Base.v — conventions shared by all model files.

    Fixed-width unsigned C arithmetic is Z with an explicit wrap; outcomes of a C
    function are [Ok], undefined behaviour [UB], a failed assert / exit(255)
    [Abort], or non-termination [Hang]. *)
From Coq Require Export ZArith List Lia Bool.
From Coq Require Export ZifyBool.
Export ListNotations.
Open Scope Z_scope.

(** Conversions to uint8_t/uint16_t/uint32_t/uint64_t (C11 6.3.1.3). *)
(** Unsigned 8-bit arithmetic: uint8_t, as in circular_buffer.h:22 and rmc_internal.h:102. *)
Definition u8  (x : Z) : Z := x mod 256.
(** Unsigned 16-bit arithmetic: payload_len_t and rmc_index_t, reliable_multicast.h:22, 43. *)
Definition u16 (x : Z) : Z := x mod 65536.
(** Unsigned 32-bit arithmetic: uint32_t, as in circular_buffer.h:14-20 and rmc_list.h:19. *)
Definition u32 (x : Z) : Z := x mod 4294967296.
(** Unsigned 64-bit arithmetic: packet_id_t, reliable_multicast.h:19. *)
Definition u64 (x : Z) : Z := x mod 18446744073709551616.

(** Range of uint8_t, as in circular_buffer.h:22. *)
Definition is_u8  (x : Z) : Prop := 0 <= x < 256.
(** Range of payload_len_t and rmc_index_t, reliable_multicast.h:22, 43. *)
Definition is_u16 (x : Z) : Prop := 0 <= x < 65536.
(** Range of uint32_t and rmc_node_id_t, reliable_multicast.h:20. *)
Definition is_u32 (x : Z) : Prop := 0 <= x < 4294967296.
(** Range of packet_id_t, reliable_multicast.h:19. *)
Definition is_u64 (x : Z) : Prop := 0 <= x < 18446744073709551616.

(** <errno.h> values (Linux) used by the library. *)
(** <errno.h>, as used in rmc_sub_packet.c:100. *)
Definition ENOENT   : Z := 2.
(** <errno.h>, as used in rmc_pub_write.c:101. *)
Definition EAGAIN   : Z := 11.
(** <errno.h>, as used in circular_buffer.c:72. *)
Definition ENOMEM   : Z := 12.
(** <errno.h>, as used in rmc_pub_packet.c:36. *)
Definition EBUSY    : Z := 16.
(** <errno.h>, as used in rmc_sub_context.c:143. *)
Definition EEXIST   : Z := 17.
(** <errno.h>, as used throughout for bad arguments, e.g. circular_buffer.c:150. *)
Definition EINVAL   : Z := 22.
(** <errno.h>, as used in rmc_protocol.c:170-243. *)
Definition EPIPE    : Z := 32.
(** <errno.h>, as used in rmc_protocol.c:39. *)
Definition ENODATA  : Z := 61.
(** <errno.h>, as used in rmc_sub_read.c:145. *)
Definition EPROTO   : Z := 71.
(** <errno.h>, as used in rmc_pub_packet.c:30. *)
Definition EMSGSIZE : Z := 90.
(** <errno.h>, as used in rmc_pub_write.c:52. *)
Definition ENOTCONN : Z := 107.

(** Reasons for undefined behaviour. *)
(** Kinds of undefined behaviour a line of C can have (no counterpart in /repo). *)
Inductive ub : Type :=
| OutOfBounds      (* load/store outside the object *)
| NullDeref
| UseAfterFree     (* dereference of a freed or never allocated pointer *)
| DivByZero
| UninitRead       (* use of an uninitialised value *)
| NullCall.        (* call through a null function pointer *)

(** Outcome of a C function. *)
(** Outcome of running C code (no counterpart in /repo): [Abort] is a failing assert(), e.g. rmc_list_template.h:16, or exit(255), e.g. rmc_sub_read.c:103. *)
Inductive res (A : Type) : Type :=
| Ok (a : A)
| UB (u : ub)
| Abort            (* assert() failed / exit(255) *)
| Hang.            (* the loop does not terminate *)
Arguments Ok {A} a.
Arguments UB {A} u.
Arguments Abort {A}.
Arguments Hang {A}.

(** Sequencing of C statements (no counterpart in /repo). *)
Definition bind {A B : Type} (m : res A) (f : A -> res B) : res B :=
  match m with
  | Ok a => f a
  | UB u => UB u
  | Abort => Abort
  | Hang => Hang
  end.

Notation "'do' x <- m ; k" := (bind m (fun x => k))
  (at level 200, x pattern, m at level 100, k at level 200, right associativity).

Lemma bind_ok : forall A B (m : res A) (f : A -> res B) b,
  bind m f = Ok b -> exists a, m = Ok a /\ f a = Ok b.
Proof. intros A B [a|u| |] f b H; simpl in H; try discriminate. exists a; auto. Qed.

(** Bytes of a buffer: every element is a uint8_t. *)
(** A list of uint8_t (reliable_multicast.h:19-23 defines the other types). *)
Definition bytes_ok (l : list Z) : Prop := Forall is_u8 l.

Lemma u8_small  x : is_u8 x -> u8 x = x.   Proof. apply Z.mod_small. Qed.
Lemma u16_small x : is_u16 x -> u16 x = x. Proof. apply Z.mod_small. Qed.
Lemma u32_small x : is_u32 x -> u32 x = x. Proof. apply Z.mod_small. Qed.
Lemma u64_small x : is_u64 x -> u64 x = x. Proof. apply Z.mod_small. Qed.
Lemma u8_range  x : is_u8 (u8 x).   Proof. apply Z.mod_pos_bound; lia. Qed.
Lemma u16_range x : is_u16 (u16 x). Proof. apply Z.mod_pos_bound; lia. Qed.
Lemma u32_range x : is_u32 (u32 x). Proof. apply Z.mod_pos_bound; lia. Qed.
Lemma u64_range x : is_u64 (u64 x). Proof. apply Z.mod_pos_bound; lia. Qed.

(** Integer-length views of lists, used by all specifications. *)
(** Length of a byte array or list; elem_count in rmc_list.h:19 is this modulo 2^32. *)
Definition zlen {A} (l : list A) : Z := Z.of_nat (length l).
(** memcpy of the first bytes, as in circular_buffer.c:187-254. *)
Definition ztake {A} (n : Z) (l : list A) : list A := firstn (Z.to_nat n) l.
(** Pointer arithmetic past the first bytes, as in circular_buffer.c:187-254. *)
Definition zdrop {A} (n : Z) (l : list A) : list A := skipn (Z.to_nat n) l.

Lemma zlen_app {A} (a b : list A) : zlen (a ++ b) = zlen a + zlen b.
Proof. unfold zlen; rewrite app_length; lia. Qed.
Lemma zlen_nonneg {A} (a : list A) : 0 <= zlen a.
Proof. unfold zlen; lia. Qed.
Lemma zlen_nil {A} : zlen (@nil A) = 0. Proof. reflexivity. Qed.
Lemma zlen_cons {A} (x : A) l : zlen (x :: l) = 1 + zlen l.
Proof. unfold zlen; simpl length; lia. Qed.
Lemma zlen_map {A B} (f : A -> B) l : zlen (map f l) = zlen l.
Proof. unfold zlen; rewrite map_length; reflexivity. Qed.
Lemma ztake_zdrop {A} n (l : list A) : ztake n l ++ zdrop n l = l.
Proof. apply firstn_skipn. Qed.
Lemma zlen_ztake {A} n (l : list A) : 0 <= n <= zlen l -> zlen (ztake n l) = n.
Proof. unfold zlen, ztake; intros H; rewrite firstn_length; lia. Qed.
Lemma zlen_zdrop {A} n (l : list A) : 0 <= n <= zlen l -> zlen (zdrop n l) = zlen l - n.
Proof. unfold zlen, zdrop; intros H; rewrite skipn_length; lia. Qed.
Lemma zlen_zero {A} (l : list A) : zlen l = 0 -> l = [].
Proof. destruct l; [reflexivity|]. rewrite zlen_cons; pose proof (zlen_nonneg l); lia. Qed.
Lemma ztake_all {A} n (l : list A) : zlen l <= n -> ztake n l = l.
Proof. unfold zlen, ztake; intros H; apply firstn_all2; lia. Qed.
Lemma zdrop_all {A} n (l : list A) : zlen l <= n -> zdrop n l = [].
Proof. unfold zlen, zdrop; intros H; apply skipn_all2; lia. Qed.
Lemma ztake_0 {A} n (l : list A) : n <= 0 -> ztake n l = [].
Proof. unfold ztake; intros H; replace (Z.to_nat n) with O by lia; reflexivity. Qed.
Lemma zdrop_0 {A} n (l : list A) : n <= 0 -> zdrop n l = l.
Proof. unfold zdrop; intros H; replace (Z.to_nat n) with O by lia; reflexivity. Qed.
Lemma ztake_app_exact {A} (a b : list A) n : n = zlen a -> ztake n (a ++ b) = a.
Proof.
  intros ->. unfold ztake, zlen. rewrite Nat2Z.id, firstn_app, firstn_all, Nat.sub_diag.
  simpl; apply app_nil_r.
Qed.
Lemma zdrop_app_exact {A} (a b : list A) n : n = zlen a -> zdrop n (a ++ b) = b.
Proof.
  intros ->. unfold zdrop, zlen. rewrite Nat2Z.id, skipn_app, skipn_all, Nat.sub_diag.
  reflexivity.
Qed.
Lemma ztake_app_l {A} (a b : list A) n : n <= zlen a -> ztake n (a ++ b) = ztake n a.
Proof.
  intros H. unfold ztake, zlen in *. rewrite firstn_app.
  replace (Z.to_nat n - length a)%nat with O by lia. simpl. apply app_nil_r.
Qed.
Lemma zdrop_app_l {A} (a b : list A) n : n <= zlen a -> zdrop n (a ++ b) = zdrop n a ++ b.
Proof.
  intros H. unfold zdrop, zlen in *. rewrite skipn_app.
  replace (Z.to_nat n - length a)%nat with O by lia. reflexivity.
Qed.
Lemma ztake_app_r {A} (a b : list A) n :
  zlen a <= n -> ztake n (a ++ b) = a ++ ztake (n - zlen a) b.
Proof.
  intros H. unfold ztake, zlen in *. rewrite firstn_app.
  rewrite firstn_all2 by lia. do 2 f_equal. lia.
Qed.
Lemma zdrop_app_r {A} (a b : list A) n :
  zlen a <= n -> zdrop n (a ++ b) = zdrop (n - zlen a) b.
Proof.
  intros H. unfold zdrop, zlen in *. rewrite skipn_app.
  rewrite skipn_all2 by lia. simpl. f_equal. lia.
Qed.
Lemma skipn_skipn' {A} (a b : nat) (l : list A) : skipn a (skipn b l) = skipn (a + b)%nat l.
Proof.
  revert l; induction b as [|b IH]; intros l.
  - rewrite Nat.add_0_r. reflexivity.
  - destruct l as [|x l]. { rewrite !skipn_nil. reflexivity. }
    rewrite Nat.add_succ_r. simpl. apply IH.
Qed.
Lemma zdrop_zdrop {A} n m (l : list A) : 0 <= n -> 0 <= m -> zdrop n (zdrop m l) = zdrop (m + n) l.
Proof.
  intros Hn Hm. unfold zdrop. rewrite skipn_skipn'. f_equal. lia.
Qed.
