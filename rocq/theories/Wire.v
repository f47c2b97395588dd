(** Wire.v — model of the packed structs of rmc_protocol.h and of their memory images.

    The structs are sent by copying their memory (rmc_pub_write.c:69-76 and 190-193,
    rmc_sub_write.c:119-121 and 200-202) and read back by copying bytes into them
    (rmc_sub_read.c:140, 273-283, rmc_pub_read.c:31, 51); the model fixes the little-endian
    byte order of the hosts the library targets.  All structs are packed (no padding). *)
From Verif Require Import Base.

(** Memory image of an unsigned integer of [n] bytes on a little-endian host. *)
(** Memory image of the integers of rmc_protocol.h:18-38. *)
Fixpoint le_bytes (n : nat) (x : Z) : list Z :=
  match n with O => [] | S n => x mod 256 :: le_bytes n (x / 256) end.
(** Inverse of the above: reading an integer field of rmc_protocol.h:18-38. *)
Fixpoint le_val (l : list Z) : Z :=
  match l with [] => 0 | b :: r => b + 256 * le_val r end.

(** rmc_protocol.h:13-15. *)
Definition RMC_CMD_PACKET : Z := 1.
(** rmc_protocol.h:14. *)
Definition RMC_CMD_ACK_INTERVAL : Z := 2.
(** rmc_protocol.h:15. *)
Definition RMC_CMD_CONTROL_MESSAGE : Z := 3.

(** reliable_multicast.h:49-50. *)
Definition RMC_MAX_PACKET : Z := 65400.    (* 0xFF78 *)
(** reliable_multicast.h:50. *)
Definition RMC_MAX_PAYLOAD : Z := 65312.   (* 0xFF20 *)

(** rmc_protocol.h:18-25, packet_header_t. *)
Record header := mkHdr { h_pid : Z; h_node : Z; h_len : Z; h_ip : Z; h_port : Z }.
(** sizeof(packet_header_t), rmc_protocol.h:18-25. *)
Definition header_size : Z := 20.
(** Memory image of packet_header_t, rmc_protocol.h:18-25. *)
Definition enc_header (h : header) : list Z :=
  le_bytes 8 (h_pid h) ++ le_bytes 4 (h_node h) ++ le_bytes 2 (h_len h) ++
  le_bytes 4 (h_ip h) ++ le_bytes 2 (h_port h).
(** Fields of the struct whose memory starts with these bytes. *)
(** packet_header_t read from memory, rmc_protocol.h:18-25. *)
Definition dec_header (bs : list Z) : header :=
  mkHdr (le_val (firstn 8 bs)) (le_val (firstn 4 (skipn 8 bs))) (le_val (firstn 2 (skipn 12 bs)))
        (le_val (firstn 4 (skipn 14 bs))) (le_val (firstn 2 (skipn 18 bs))).

(** rmc_protocol.h:28-32, cmd_ack_interval_t: first and last id. *)
Definition ack_size : Z := 16.
(** Memory image of cmd_ack_interval_t, rmc_protocol.h:28-32. *)
Definition enc_ack (first last : Z) : list Z := le_bytes 8 first ++ le_bytes 8 last.
(** cmd_ack_interval_t read from memory, rmc_protocol.h:28-32. *)
Definition dec_ack (bs : list Z) : Z * Z := (le_val (firstn 8 bs), le_val (firstn 8 (skipn 8 bs))).

(** rmc_protocol.h:34-38, cmd_control_message_t without its flexible array: the length. *)
Definition ctrl_size : Z := 2.
(** Memory image of cmd_control_message_t, rmc_protocol.h:34-38. *)
Definition enc_ctrl (len : Z) : list Z := le_bytes 2 len.
(** cmd_control_message_t read from memory, rmc_protocol.h:34-38. *)
Definition dec_ctrl (bs : list Z) : Z := le_val (firstn 2 bs).

Lemma le_bytes_length n : forall x, length (le_bytes n x) = n.
Proof. induction n as [|n IH]; intros x; cbn [le_bytes length]; [reflexivity|]. rewrite IH. reflexivity. Qed.
Lemma le_bytes_ok n : forall x, bytes_ok (le_bytes n x).
Proof.
  induction n as [|n IH]; intros x; cbn [le_bytes]; constructor; [|apply IH].
  unfold is_u8. apply Z.mod_pos_bound. lia.
Qed.
Lemma le_val_bytes n : forall x, 0 <= x < 256 ^ Z.of_nat n -> le_val (le_bytes n x) = x.
Proof.
  induction n as [|n IH]; intros x Hx; cbn [le_bytes le_val].
  - change (256 ^ Z.of_nat 0) with 1 in Hx. lia.
  - rewrite IH.
    + pose proof (Z.div_mod x 256 ltac:(lia)). lia.
    + rewrite Nat2Z.inj_succ, Z.pow_succ_r in Hx by lia. split; [apply Z.div_pos; lia|]. apply Z.div_lt_upper_bound; lia.
Qed.
Lemma le_val_range l : bytes_ok l -> 0 <= le_val l < 256 ^ zlen l.
Proof.
  induction 1 as [|b l Hb Hl IH]; cbn [le_val]; [change (256 ^ zlen (@nil Z)) with 1; lia|].
  rewrite zlen_cons, Z.pow_add_r by (pose proof (zlen_nonneg l); lia). unfold is_u8 in Hb. lia.
Qed.
Lemma le_bytes_val l : bytes_ok l -> le_bytes (length l) (le_val l) = l.
Proof.
  induction 1 as [|b l Hb Hl IH]; cbn [length le_bytes le_val]; [reflexivity|]. unfold is_u8 in Hb.
  replace ((b + 256 * le_val l) mod 256) with b.
  - replace ((b + 256 * le_val l) / 256) with (le_val l); [rewrite IH; reflexivity|].
    symmetry. rewrite (Z.mul_comm 256), Z.div_add by lia. rewrite Z.div_small by lia. lia.
  - rewrite (Z.mul_comm 256), Z.mod_add by lia. symmetry. apply Z.mod_small. lia.
Qed.
Lemma enc_header_zlen h : zlen (enc_header h) = 20.
Proof. unfold enc_header. rewrite !zlen_app. unfold zlen. rewrite !le_bytes_length. reflexivity. Qed.
Lemma enc_ack_zlen a b : zlen (enc_ack a b) = 16.
Proof. unfold enc_ack. rewrite zlen_app. unfold zlen. rewrite !le_bytes_length. reflexivity. Qed.
Lemma enc_ctrl_zlen n : zlen (enc_ctrl n) = 2.
Proof. unfold enc_ctrl, zlen. rewrite le_bytes_length. reflexivity. Qed.
Lemma firstn_le n x r : firstn n (le_bytes n x ++ r) = le_bytes n x.
Proof.
  rewrite firstn_app, le_bytes_length, Nat.sub_diag. cbn [firstn]. rewrite app_nil_r.
  apply firstn_all2. rewrite le_bytes_length. lia.
Qed.
Lemma skipn_le k n x r : (n <= k)%nat -> skipn k (le_bytes n x ++ r) = skipn (k - n) r.
Proof.
  intros H. rewrite skipn_app, le_bytes_length. rewrite skipn_all2 by (rewrite le_bytes_length; lia). reflexivity.
Qed.

(** The field types of packet_header_t, rmc_protocol.h:18-25. *)
Definition hdr_ok (h : header) : Prop :=
  is_u64 (h_pid h) /\ is_u32 (h_node h) /\ is_u16 (h_len h) /\ is_u32 (h_ip h) /\ is_u16 (h_port h).

Lemma dec_enc_header h r : hdr_ok h -> dec_header (enc_header h ++ r) = h.
Proof.
  intros (H1 & H2 & H3 & H4 & H5). unfold dec_header, enc_header. rewrite <- !app_assoc.
  rewrite (skipn_le 8 8), (skipn_le 12 8), (skipn_le 14 8), (skipn_le 18 8) by lia. cbn [Nat.sub].
  rewrite (skipn_le 4 4), (skipn_le 6 4), (skipn_le 10 4) by lia. cbn [Nat.sub].
  rewrite (skipn_le 2 2), (skipn_le 6 2) by lia. cbn [Nat.sub]. rewrite (skipn_le 4 4) by lia. cbn [Nat.sub skipn]. rewrite !firstn_le.
  unfold is_u64, is_u32, is_u16 in *.
  rewrite !le_val_bytes by (cbn; lia). destruct h; reflexivity.
Qed.
Lemma dec_enc_ack a b r : is_u64 a -> is_u64 b -> dec_ack (enc_ack a b ++ r) = (a, b).
Proof.
  intros Ha Hb. unfold dec_ack, enc_ack. rewrite <- !app_assoc.
  rewrite skipn_le by lia. cbn [Nat.sub skipn]. rewrite !firstn_le. unfold is_u64 in *. rewrite !le_val_bytes by (cbn; lia). reflexivity.
Qed.
Lemma dec_enc_ctrl n r : is_u16 n -> dec_ctrl (enc_ctrl n ++ r) = n.
Proof. intros H. unfold dec_ctrl, enc_ctrl. rewrite firstn_le. unfold is_u16 in H. apply le_val_bytes. cbn; lia. Qed.
Lemma dec_ack_ok bs : bytes_ok bs -> is_u64 (fst (dec_ack bs)) /\ is_u64 (snd (dec_ack bs)).
Proof.
  intros H. unfold dec_ack. cbn [fst snd].
  assert (B : forall n l, bytes_ok l -> bytes_ok (firstn n l) /\ bytes_ok (skipn n l)).
  { intros n l Hl. rewrite <- (firstn_skipn n l) in Hl. apply Forall_app in Hl. exact Hl. }
  assert (R : forall l, bytes_ok l -> is_u64 (le_val (firstn 8 l))).
  { intros l Hl. pose proof (le_val_range _ (proj1 (B 8%nat l Hl))) as Hr.
    assert (zlen (firstn 8 l) <= 8) by (unfold zlen; rewrite firstn_length; lia).
    assert (256 ^ zlen (firstn 8 l) <= 256 ^ 8) by (apply Z.pow_le_mono_r; lia). unfold is_u64.
    change (256 ^ 8) with 18446744073709551616 in *. lia. }
  split; apply R; [exact H|apply B; exact H].
Qed.
Lemma le_val_bound n l : bytes_ok l -> 0 <= le_val (firstn n l) < 256 ^ Z.of_nat n.
Proof.
  intros Hl. assert (B : bytes_ok (firstn n l)). { rewrite <- (firstn_skipn n l) in Hl. apply Forall_app in Hl. tauto. }
  pose proof (le_val_range _ B) as Hr. assert (zlen (firstn n l) <= Z.of_nat n) by (unfold zlen; rewrite firstn_length; lia).
  assert (256 ^ zlen (firstn n l) <= 256 ^ Z.of_nat n) by (apply Z.pow_le_mono_r; [lia|assumption]). lia.
Qed.
Lemma bytes_skip n l : bytes_ok l -> bytes_ok (skipn n l).
Proof. intros Hl. rewrite <- (firstn_skipn n l) in Hl. apply Forall_app in Hl. tauto. Qed.
Lemma dec_header_ok bs : bytes_ok bs -> hdr_ok (dec_header bs).
Proof.
  intros H. unfold hdr_ok, dec_header. cbn [h_pid h_node h_len h_ip h_port]. unfold is_u64, is_u32, is_u16.
  pose proof (le_val_bound 8 _ H). pose proof (le_val_bound 4 _ (bytes_skip 8 _ H)). pose proof (le_val_bound 2 _ (bytes_skip 12 _ H)).
  pose proof (le_val_bound 4 _ (bytes_skip 14 _ H)). pose proof (le_val_bound 2 _ (bytes_skip 18 _ H)).
  change (256 ^ Z.of_nat 8) with 18446744073709551616 in *. change (256 ^ Z.of_nat 4) with 4294967296 in *.
  change (256 ^ Z.of_nat 2) with 65536 in *. lia.
Qed.
Lemma dec_ctrl_ok bs : bytes_ok bs -> is_u16 (dec_ctrl bs).
Proof. intros H. pose proof (le_val_bound 2 _ H). change (256 ^ Z.of_nat 2) with 65536 in *. exact H0. Qed.
Lemma firstn_split {A} n (l : list A) m : (n <= m)%nat -> firstn m l = firstn n l ++ firstn (m - n) (skipn n l).
Proof.
  intros H. rewrite firstn_skipn_comm. replace (n + (m - n))%nat with m by lia.
  rewrite <- (firstn_skipn n (firstn m l)) at 1. rewrite firstn_firstn. replace (Nat.min n m) with n by lia. reflexivity.
Qed.
Lemma le_field n l : bytes_ok l -> (n <= length l)%nat -> le_bytes n (le_val (firstn n l)) = firstn n l.
Proof.
  intros Hl Hn. assert (B : bytes_ok (firstn n l)). { rewrite <- (firstn_skipn n l) in Hl. apply Forall_app in Hl. tauto. }
  pose proof (le_bytes_val _ B) as H. rewrite firstn_length_le in H by exact Hn. exact H.
Qed.
Lemma enc_dec_header bs : bytes_ok bs -> 20 <= zlen bs -> enc_header (dec_header bs) = firstn 20 bs.
Proof.
  intros H Hl. unfold zlen in Hl. unfold enc_header, dec_header. cbn [h_pid h_node h_len h_ip h_port].
  rewrite (le_field 8 bs H) by lia.
  rewrite (le_field 4 _ (bytes_skip 8 _ H)), (le_field 2 _ (bytes_skip 12 _ H)), (le_field 4 _ (bytes_skip 14 _ H)),
    (le_field 2 _ (bytes_skip 18 _ H)) by (rewrite skipn_length; lia).
  rewrite (firstn_split 8 bs 20) by lia. cbn [Nat.sub]. rewrite (firstn_split 4 (skipn 8 bs) 12) by lia. cbn [Nat.sub].
  rewrite skipn_skipn'. cbn [Nat.add]. rewrite (firstn_split 2 (skipn 12 bs) 8) by lia. cbn [Nat.sub].
  rewrite skipn_skipn'. cbn [Nat.add]. rewrite (firstn_split 4 (skipn 14 bs) 6) by lia. cbn [Nat.sub].
  rewrite skipn_skipn'. reflexivity.
Qed.
