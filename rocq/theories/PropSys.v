(** PropSys.v — theorems about a publisher and its subscribers together: C55, C56, C57, C58. *)
From Coq Require Import Sorting.Permutation.
From Verif Require Import Base CircBuf CircBufProofs Wire SeqList Pub Sub SpecSub SubTrace Proto SpecProto ProtoProofs
  Conn SpecConn ConnProofs PubCtx SpecPubCtx PubCtxProofs PubCtxOwed PropPubCtx PropPubTime PropPubMem SpecPubRecv PubRecv PropPubRecv
  SubCtx SpecSubCtx SubSteps SubInv PropSubCtx PropSubDeliver SubRecv PropSubRecv SpecSys SysProofs.

(** ** Streams *)
(** Whole commands at the beginning of a stream of commands are the first ones of it. *)
Lemma stream_prefix cmds : forall all r rest, Forall (fun c => cmd_ok c /\ for_sub c) cmds -> Forall (fun c => cmd_ok c /\ for_sub c) all ->
  flat_map wire cmds ++ r ++ rest = flat_map wire all -> exists more, all = cmds ++ more /\ r ++ rest = flat_map wire more.
Proof.
  induction cmds as [|c cmds IH]; intros all r rest F1 F2 E; [exists all; auto|]. apply Forall_cons_iff in F1. destruct F1 as [[A B] F1].
  cbn [flat_map] in E. rewrite <- app_assoc in E. destruct all as [|d all].
  { exfalso. apply (f_equal zlen) in E. rewrite zlen_app in E. pose proof (wire_len c). pose proof (zlen_nonneg (flat_map wire cmds ++ r ++ rest)). change (zlen (flat_map wire [])) with 0 in E. lia. }
  apply Forall_cons_iff in F2. destruct F2 as [[A2 B2] F2]. cbn [flat_map] in E.
  pose proof (sub_next_complete c (flat_map wire cmds ++ r ++ rest) A B) as X. pose proof (sub_next_complete d (flat_map wire all) A2 B2) as Y. rewrite E, Y in X.
  assert (d = c /\ flat_map wire all = flat_map wire cmds ++ r ++ rest) as [-> Ea] by (split; congruence).
  destruct (IH all r rest F1 F2 (eq_sym Ea)) as (more & -> & Em). exists more. auto.
Qed.
Lemma carrier_good data cmds : Forall (carrier data) cmds -> Forall (fun c => cmd_ok c /\ for_sub c) cmds.
Proof. apply Forall_impl. intros c (h & p & -> & _ & _ & H). split; [exact H|exact Logic.I]. Qed.
(** The acks at the beginning of the bytes of a subscriber are acks it sent. *)
Lemma acks_prefix cmds : forall all r rest, Forall (fun c => cmd_ok c /\ for_pub c) cmds -> Forall (fun c => cmd_ok c /\ for_pub c) all ->
  flat_map wire cmds ++ r ++ rest = flat_map wire all -> exists more, all = cmds ++ more.
Proof.
  induction cmds as [|c cmds IH]; intros all r rest F1 F2 E; [exists all; auto|]. apply Forall_cons_iff in F1. destruct F1 as [[A B] F1].
  cbn [flat_map] in E. rewrite <- app_assoc in E. destruct all as [|d all].
  { exfalso. apply (f_equal zlen) in E. rewrite zlen_app in E. pose proof (wire_len c). pose proof (zlen_nonneg (flat_map wire cmds ++ r ++ rest)). change (zlen (flat_map wire [])) with 0 in E. lia. }
  apply Forall_cons_iff in F2. destruct F2 as [[A2 B2] F2]. cbn [flat_map] in E.
  pose proof (pub_next_complete c (flat_map wire cmds ++ r ++ rest) A B) as X. pose proof (pub_next_complete d (flat_map wire all) A2 B2) as Y. rewrite E, Y in X.
  assert (d = c /\ flat_map wire all = flat_map wire cmds ++ r ++ rest) as [-> Ea] by (split; congruence).
  destruct (IH all r rest F1 F2 (eq_sym Ea)) as (more & ->). exists more. reflexivity.
Qed.

(** ** Datagrams *)
Lemma dgram_in i log sd : In sd (ts_dgram (ts_open i log)) -> In (SvDgram (fst sd) (snd sd)) log.
Proof.
  unfold ts_open. assert (H : forall T, In sd (ts_dgram (fold_left (ts_ev i) log T)) -> In sd (ts_dgram T) \/ In (SvDgram (fst sd) (snd sd)) log).
  { induction log as [|e log IH]; intros T H; cbn [fold_left] in H; [auto|]. destruct (IH _ H) as [H1|H1]; [|right; right; exact H1].
    destruct T as [a b c d f g h]. destruct e as [[]| | | | | | | | | | | | | | |]; cbn [ts_ev] in H1; try (destruct (_ =? i) in H1); cbn [ts_dgram ts_empty] in H1; auto; try contradiction.
    apply in_app_or in H1. destruct H1 as [H1|[H1|[]]]; [auto|]. subst sd. right. left. reflexivity. }
  intros H1. destruct (H _ H1) as [[]|H2]. exact H2.
Qed.
Lemma take_app_le {X} (n : Z) (a b : list X) : 0 <= zlen a <= n -> ztake n (a ++ b) = a ++ ztake (n - zlen a) b.
Proof.
  intros H. unfold ztake, zlen in *. rewrite firstn_app. rewrite firstn_all2 by lia. f_equal. f_equal. lia.
Qed.
Lemma dec_header_20 a b b' : zlen a = header_size -> dec_header (a ++ b) = dec_header (a ++ b').
Proof.
  unfold zlen, header_size. intros H. do 20 (destruct a as [|? a]; [discriminate H|]). destruct a; [reflexivity|]. cbn [length] in H. lia.
Qed.
(** A datagram in the publisher's name carries the payload queued under its id. *)
Lemma dgram_content x g log d0 addr port k bs src : reached x g log -> In d0 (flat_map cast_ev log) ->
  carries_packet addr port k bs (src, seen d0) -> 1 <= k /\ nth_error (g_data g) (Z.to_nat (k - 1)) = Some bs.
Proof.
  intros R Hd (C1 & C2 & C3 & _ & _ & C4). cbn [snd] in *. destruct (c62_multicast_content x g log d0 R Hd) as (k0 & port0 & bs0 & E & Ed & Hn).
  set (hd := enc_header (Wire.mkHdr k0 (x_node x) (zlen bs0) (x_lip x) port0)) in *.
  assert (Eh : zlen hd = header_size) by apply enc_header_zlen.
  assert (Es : seen d0 = hd ++ ztake (RMC_MAX_PACKET - header_size) bs0).
  { unfold seen. rewrite E. rewrite take_app_le; [rewrite Eh; reflexivity|]. rewrite Eh. unfold header_size, RMC_MAX_PACKET. lia. }
  assert (Dh : dec_header (seen d0) = dec_header d0) by (rewrite Es, E; apply dec_header_20; exact Eh).
  rewrite Dh, Ed in C1, C2, C4. cbn [h_len h_pid] in *. subst k0. destruct (Hn C3) as [Hk Hv]. split; [exact Hk|].
  rewrite Es in C1, C4. rewrite zlen_app, Eh in C1. rewrite zdrop_app_exact in C4 by (symmetry; exact Eh).
  assert (Ez : ztake (RMC_MAX_PACKET - header_size) bs0 = bs0).
  { apply ztake_all. destruct (Z_le_dec (zlen bs0) (RMC_MAX_PACKET - header_size)) as [|N]; [assumption|].
    rewrite zlen_ztake in C1; [lia|]. unfold RMC_MAX_PACKET, header_size in *. lia. }
  rewrite Ez in C4. rewrite ztake_all in C4 by lia. rewrite C4. exact Hv.
Qed.

Section Theorems.
Variable own : Z * Z -> bool.

(** The common hypotheses: connection [i] of subscriber [s] is established and leads to the
    publisher.  [good_ids] is about other publishers only: none uses the ids 0 or 2^64 - 1. *)
Definition at_publisher (y : sys) (s : nat) (i : Z) : Prop :=
  exists c, sconnected (sy_sub y s) i c /\ own (c_addr c, c_port c) = true.

(** ** C55 *)
(** The commands received on the connection are among those the publisher sent. *)
Lemma recv_cmds y s i c cmds r : SysI own y -> sconnected (sy_sub y s) i c -> own (c_addr c, c_port c) = true ->
  parses for_sub (ts_recv (ts_open i (sy_slog y s))) cmds r -> Forall (carrier (queued_payloads y)) cmds.
Proof.
  intros I Hc Ho (E & F & _). destruct (si_recv _ _ I s i c Hc Ho) as [w Ew]. destruct (si_down _ _ I s i) as (rest & all & Ea & Fa).
  rewrite Ew, E in Ea. rewrite <- !app_assoc in Ea.
  destruct (stream_prefix cmds all r (w ++ rest) F (carrier_good _ _ Fa) Ea) as (more & -> & _). apply Forall_app in Fa. exact (proj1 Fa).
Qed.
(** Whatever a subscriber accepts in the publisher's name is a payload that was queued, under its id. *)
Theorem c55_accepted_genuine : forall y s i n bs, sys_reached own y -> good_ids (sy_slog y s) -> at_publisher y s i ->
  In (n, bs) (accepted_at y s i) -> 1 <= n /\ nth_error (queued_payloads y) (Z.to_nat (n - 1)) = Some bs.
Proof.
  intros y s i n bs R Gd (c & Hc & Ho) Hi. apply reached_SysI in R. pose proof (si_sub _ _ R s) as Rs.
  unfold accepted_at in Hi. apply in_map_iff in Hi. destruct Hi as ([[k mc] bs'] & E & Hi). cbn [fst snd] in E. injection E as -> ->.
  destruct (connected_facts true _ _ i c Rs Gd Hc) as (sp & ops & cm & [F1 F2 F3 F4 F5]). destruct mc.
  - destruct (tc_dgram _ _ _ _ _ _ F2 n bs Hi) as ([src d] & H1 & H2 & _). apply dgram_in in H1. cbn [fst snd] in H1.
    pose proof (si_gen _ _ R s) as Ge. rewrite Forall_forall in Ge. specialize (Ge _ H1). cbn [genuine] in Ge.
    assert (Eo : origin src d = (c_addr c, c_port c)) by (destruct H2 as (_ & _ & _ & H3 & H4 & _); unfold origin; cbn [fst snd] in *; rewrite H3, H4; reflexivity).
    rewrite Eo in Ge. destruct (Ge Ho) as (d0 & Hd0 & ->).
    exact (dgram_content _ _ _ d0 _ _ n bs src (preached_reached _ _ _ _ (si_pub _ _ R)) Hd0 H2).
  - destruct (sreached_RI _ _ Rs Gd i c Hc) as [_ _ _ _ (cmds & P & _ & Hf)]. destruct (Hf n bs Hi) as (h & Hh & <-).
    pose proof (recv_cmds y s i c cmds _ R Hc Ho P) as Fc. rewrite Forall_forall in Fc. destruct (Fc _ Hh) as (h' & p' & E' & H1 & H2 & _). injection E' as <- <-. auto.
Qed.
Lemma nth_slice {X} (q : list X) : forall d n, (forall j, (j < length d)%nat -> nth_error q (n + j) = nth_error d j) ->
  d = [] \/ exists before after, q = before ++ d ++ after /\ length before = n.
Proof.
  intros d n H. destruct d as [|a d]; [auto|right]. pose proof (H 0%nat ltac:(cbn; lia)) as H0. cbn [nth_error] in H0. rewrite Nat.add_0_r in H0.
  assert (Hn : (n < length q)%nat) by (apply nth_error_Some; congruence).
  exists (firstn n q), (skipn (n + length (a :: d)) q). split; [|apply firstn_length_le; lia].
  assert (E : firstn (length (a :: d)) (skipn n q) = a :: d).
  { revert H. generalize (a :: d). clear. intros d. revert n. induction d as [|a d IH]; intros n H; [apply firstn_O|].
    cbn [length firstn]. pose proof (H 0%nat ltac:(cbn; lia)) as H0. rewrite Nat.add_0_r in H0. cbn [nth_error] in H0.
    destruct (nth_error_split q n H0) as (l1 & l2 & -> & <-). rewrite skipn_app, skipn_all, Nat.sub_diag. cbn [app skipn]. f_equal.
    assert (Ek : skipn (S (length l1)) (l1 ++ a :: l2) = l2).
    { replace (S (length l1)) with (length (l1 ++ [a])) by (rewrite app_length; cbn; lia).
      replace (l1 ++ a :: l2) with ((l1 ++ [a]) ++ l2) by (rewrite <- app_assoc; reflexivity). rewrite skipn_app, skipn_all, Nat.sub_diag. reflexivity. }
    specialize (IH (S (length l1))). rewrite Ek in IH. apply IH.
    intros j Hj. specialize (H (S j) ltac:(cbn; lia)). cbn [nth_error] in H. rewrite <- H. f_equal. lia. }
  rewrite <- E at 1. rewrite <- (firstn_skipn n q) at 1. f_equal.
  assert (Sk : forall a (l : list X), skipn (a + n) l = skipn a (skipn n l)).
  { clear. induction n as [|n IH]; intros a l; [rewrite Nat.add_0_r; reflexivity|]. rewrite Nat.add_succ_r. destruct l as [|b l]; [rewrite !skipn_nil; reflexivity|]. cbn [skipn]. apply IH. }
  rewrite Nat.add_comm, Sk. symmetry. apply firstn_skipn.
Qed.
(** What a connection hands out is a contiguous slice of what the publisher queued, in order and byte for byte. *)
Theorem c55_slice : forall y s i, sys_reached own y -> good_ids (sy_slog y s) -> at_publisher y s i ->
  exists before after, queued_payloads y = before ++ map snd (delivered_at y s i) ++ after /\
    (delivered_at y s i <> [] -> map fst (delivered_at y s i) = upfrom (1 + zlen before) (length (delivered_at y s i))).
Proof.
  intros y s i R Gd Ha. pose proof Ha as (c & Hc & Ho). pose proof (si_sub _ _ (reached_SysI own y R) s) as Rs.
  destruct (c72_in_order true _ _ i c Rs Gd Hc) as [f Hf]. destruct (c72_contents true _ _ i c Rs Gd Hc) as (w & Pm & _).
  fold (delivered_at y s i) in Hf, Pm. fold (accepted_at y s i) in Pm.
  assert (A : forall n bs, In (n, bs) (delivered_at y s i) -> 1 <= n /\ nth_error (queued_payloads y) (Z.to_nat (n - 1)) = Some bs).
  { intros n bs Hi. apply (c55_accepted_genuine y s i n bs R Gd Ha). apply (Permutation_in _ (Permutation_sym Pm)). apply in_or_app. auto. }
  set (D := delivered_at y s i) in *. clearbody D. clear Pm.
  assert (F1 : D <> [] -> 1 <= f).
  { destruct D as [|[a b] D]; [tauto|]. intros _. cbn [map fst length upfrom] in Hf. injection Hf as -> _. apply (A f b). left. reflexivity. }
  assert (N : forall j, (j < length D)%nat -> nth_error (queued_payloads y) (Z.to_nat (f - 1) + j) = nth_error (map snd D) j).
  { intros j Hj. assert (F2 : 1 <= f) by (apply F1; intros ->; cbn in Hj; lia). destruct (nth_error D j) as [[n b]|] eqn:En; [|apply nth_error_None in En; lia].
    rewrite nth_error_map, En. cbn [option_map snd]. destruct (A n b (nth_error_In _ _ En)) as [_ An].
    pose proof (f_equal (fun l => nth_error l j) Hf) as Hj2. cbv beta in Hj2. rewrite nth_error_map, En in Hj2. cbn [option_map fst] in Hj2.
    assert (En2 : n = f + Z.of_nat j).
    { clear - Hj Hj2. revert f j Hj Hj2. induction (length D) as [|m IH]; intros f j Hj H; [lia|]. destruct j as [|j]; cbn [upfrom nth_error] in H; [injection H as ->; lia|].
      specialize (IH (f + 1) j ltac:(lia) H). lia. }
    rewrite <- An. f_equal. lia. }
  destruct (nth_slice (queued_payloads y) (map snd D) (Z.to_nat (f - 1))) as [E|(b & a & E & L)]; [intros j Hj; apply N; rewrite map_length in Hj; exact Hj| |].
  - apply map_eq_nil in E. subst D. exists (queued_payloads y), []. split; [symmetry; apply app_nil_r|tauto].
  - exists b, a. split; [exact E|]. intros Hd. rewrite Hf at 1. f_equal. specialize (F1 Hd). unfold zlen. lia.
Qed.

(** ** C56 *)
(** On one connection no packet is handed out twice. *)
Theorem c56_once_per_connection_partial : forall y s i, sys_reached own y -> good_ids (sy_slog y s) -> at_publisher y s i ->
  NoDup (map fst (delivered_at y s i)).
Proof.
  intros y s i R Gd (c & Hc & Ho). exact (proj2 (c72_once true _ _ i c (si_sub _ _ (reached_SysI own y R) s) Gd Hc)).
Qed.

(** ** C58 *)
(** What the publisher has seen acknowledged by a subscriber's connection was received there. *)
Theorem c58_acks_sound : forall y s i k a b n, sys_reached own y -> good_ids (sy_slog y s) -> at_publisher y s i ->
  In (s, i, k) (sy_links y) -> In (a, b) (s_acks (since_open k (sy_plog y))) -> a <= n <= b ->
  exists bs, In (n, bs) (accepted_at y s i) /\ nth_error (queued_payloads y) (Z.to_nat (n - 1)) = Some bs.
Proof.
  intros y s i k a b n R Gd Ha Hl Hab Hn. pose proof Ha as (c & Hc & Ho). pose proof (reached_SysI own y R) as I. pose proof (si_sub _ _ I s) as Rs.
  destruct (si_link _ _ I s i k Hl) as ((pc & Ps & Pm) & _ & [w Ew]).
  destruct (preached_PRI _ _ _ _ (si_pub _ _ I) k pc Ps Pm) as [_ _ _ (cmds & (E & F & _) & Ea)].
  destruct (c73_wire true _ _ i c Rs Gd Hc) as (all & Fa & Es & Eacks). rewrite Ew, E in Es. rewrite <- !app_assoc in Es.
  destruct (acks_prefix cmds all _ _ F Fa Es) as (more & ->).
  assert (Hin : In (a, b) (ts_acks (ts_open i (sy_slog y s)))).
  { rewrite <- Eacks, flat_map_app. apply in_or_app. left. rewrite <- Ea in Hab. exact Hab. }
  destruct (c73_sound true _ _ i c n a b Rs Gd Hc Hin Hn) as (bs & _ & Hg & _).
  assert (Hacc : In (n, bs) (accepted_at y s i)) by (apply in_map_iff; exists (n, true, bs); auto).
  exists bs. split; [exact Hacc|]. exact (proj2 (c55_accepted_genuine y s i n bs R Gd Ha Hacc)).
Qed.
(** A packet multicast since the subscriber's connection was accepted, that the subscriber does not
    owe any more, has been received by the subscriber or been put on its TCP stream. *)
Theorem c58_not_owed : forall y s i k n, sys_reached own y -> good_ids (sy_slog y s) -> at_publisher y s i ->
  In (s, i, k) (sy_links y) -> In n (cast_since y k) -> ~ owes (sy_pub y) k n ->
  exists bs, nth_error (queued_payloads y) (Z.to_nat (n - 1)) = Some bs /\
    (In (n, bs) (accepted_at y s i) \/
     exists pc cmds h, slot (x_vec (sy_pub y)) k = Ok pc /\ sy_down y s i ++ contents (c_wbuf pc) = flat_map wire cmds /\
       Forall (fun c => cmd_ok c /\ for_sub c) cmds /\ In (CmdPacket h bs) cmds /\ h_pid h = n).
Proof.
  intros y s i k n R Gd Ha Hl Hn Hw. pose proof (reached_SysI own y R) as I. destruct (si_link _ _ I s i k Hl) as (Hcn & Ed & _).
  apply filter_In in Hn. destruct Hn as [Hn Hz]. destruct (c64_nothing_forgotten _ _ _ k (preached_reached _ _ _ _ (si_pub _ _ I)) Hcn) as (cmds & (pc & Ps & Es) & Fc & A).
  destruct (A n Hn ltac:(lia)) as [H|[(m & Hm & (p & port & -> & H1 & H2 & H3))|(a & b & Hab & Hr)]]; [contradiction| |].
  - exists p. split; [exact H2|]. right. exists pc, cmds, (Wire.mkHdr n (x_node (sy_pub y)) (zlen p) (x_lip (sy_pub y)) port). rewrite Ed.
    split; [exact Ps|]. split; [exact Es|]. split; [|auto]. apply (carrier_good (g_data (sy_g y))). eapply Forall_impl; [|exact Fc]. intros c (k' & Hk). exact (packet_carrier _ _ _ _ _ Hk).
  - destruct (c58_acks_sound y s i k a b n R Gd Ha Hl Hab Hr) as (bs & H1 & H2). exists bs. auto.
Qed.
Lemma owes_flying x g log k n : reached x g log -> owes x k n -> In n (map fst (flying x)).
Proof.
  intros R H. apply reached_inv in R. destruct R as (sp & L & Q & X). pose proof (xi_pub _ _ _ _ _ _ _ X) as Ip.
  apply owes_owed in H. destruct H as [ts H]. rewrite (owed_inv _ _ _ _ _ _ _ Ip) in H. destruct H as (e & He & <- & _).
  rewrite (flying_inv _ _ _ _ Ip), map_rev, map_map. apply in_rev. rewrite rev_involutive. apply in_map_iff. exists e. split; [reflexivity|exact He].
Qed.
(** In particular the publisher does not give up (and release) a packet before. *)
Theorem c58_release : forall y s i k n, sys_reached own y -> good_ids (sy_slog y s) -> at_publisher y s i ->
  In (s, i, k) (sy_links y) -> In n (cast_since y k) -> ~ In n (map fst (flying (sy_pub y))) ->
  exists bs, nth_error (queued_payloads y) (Z.to_nat (n - 1)) = Some bs /\
    (In (n, bs) (accepted_at y s i) \/
     exists pc cmds h, slot (x_vec (sy_pub y)) k = Ok pc /\ sy_down y s i ++ contents (c_wbuf pc) = flat_map wire cmds /\
       Forall (fun c => cmd_ok c /\ for_sub c) cmds /\ In (CmdPacket h bs) cmds /\ h_pid h = n).
Proof.
  intros y s i k n R Gd Ha Hl Hn Hf. apply (c58_not_owed y s i k n R Gd Ha Hl Hn). intros Hw. apply Hf.
  exact (owes_flying _ _ _ k n (preached_reached _ _ _ _ (si_pub _ _ (reached_SysI own y R))) Hw).
Qed.

(** ** C57 *)
(** When the subscriber owes nothing and TCP has delivered everything: each packet multicast since
    the connection was accepted has been received, or is older than the first one handed out. *)
Theorem c57_all_arrived_partial : forall y s i k n, sys_reached own y -> good_ids (sy_slog y s) -> at_publisher y s i ->
  In (s, i, k) (sy_links y) -> tcp_quiet y s i k -> ~ owes (sy_pub y) k n -> In n (cast_since y k) ->
  In n (map fst (accepted_at y s i)) \/ exists f bs rest, delivered_at y s i = (f, bs) :: rest /\ n < f.
Proof.
  intros y s i k n R Gd Ha Hl ((pc & Ps & Pe) & Eq) Hw Hn. pose proof Ha as (c & Hc & Ho). pose proof (reached_SysI own y R) as I.
  destruct (c58_not_owed y s i k n R Gd Ha Hl Hn Hw) as (bs & _ & [H|(pc' & cmds & h & Ps' & Es & Fp & Hi & <-)]); [left; exact (in_map fst _ _ H)|].
  assert (pc' = pc) as -> by congruence. rewrite Pe, app_nil_r in Es. rewrite <- Eq in Es.
  destruct (sreached_RI _ _ (si_sub _ _ I s) Gd i c Hc) as [_ _ _ _ (cm & P & Ac & _)].
  assert (P2 : parses for_sub (ts_recv (ts_open i (sy_slog y s))) cmds []).
  { split; [rewrite Es, app_nil_r; reflexivity|]. split; [exact Fp|]. intros c0 rest A B E. apply (f_equal zlen) in E. rewrite zlen_app in E.
    change (zlen (@nil Z)) with 0 in E. pose proof (wire_len c0). pose proof (zlen_nonneg rest). lia. }
  destruct (parses_unique for_sub sub_next sub_next_complete _ _ _ _ _ P P2) as [-> _].
  destruct (Ac h bs Hi) as [Hg|Hf]; [left|right; exact Hf]. unfold accepted_at. rewrite map_map. cbn [fst]. exact Hg.
Qed.
(** ... and it has been handed out if moreover the subscriber's first packet is not newer and the
    subscriber has received whatever lies between and was multicast before. *)
Theorem c57_delivered_partial : forall y s i k f bs rest n, sys_reached own y -> good_ids (sy_slog y s) -> at_publisher y s i ->
  In (s, i, k) (sy_links y) -> tcp_quiet y s i k -> delivered_at y s i = (f, bs) :: rest -> f <= n ->
  (forall m, f <= m <= n -> In m (cast_since y k) /\ ~ owes (sy_pub y) k m \/ In m (map fst (accepted_at y s i))) ->
  In n (map fst (delivered_at y s i)).
Proof.
  intros y s i k f bs rest n R Gd Ha Hl Hq Ed Hn Hall. pose proof Ha as (c & Hc & Ho). pose proof (reached_SysI own y R) as I.
  apply (proj2 (c72_exact true _ _ i c f bs rest (si_sub _ _ I s) Gd Hc Ed n)). split; [exact Hn|]. intros j Hj.
  assert (X : In j (map fst (accepted_at y s i))).
  { destruct (Hall j Hj) as [[H1 H2]|H]; [|exact H]. destruct (c57_all_arrived_partial y s i k j R Gd Ha Hl Hq H2 H1) as [H|(f' & bs' & r' & E & H)]; [exact H|].
    exfalso. rewrite Ed in E. injection E as -> _ _. lia. }
  unfold accepted_at in X. rewrite map_map in X. exact X.
Qed.
(** The packets multicast since then are consecutive. *)
Lemma cast_since_suffix k log : exists before, dgram_ids log = before ++ filter (fun n => negb (n =? 0)) (s_cast (since_open k log)).
Proof.
  unfold dgram_ids, since_open. set (ids := fun l => map (fun d => h_pid (dec_header d)) (flat_map cast_ev l)). fold (ids log).
  assert (H : forall l T w, exists w', (w ++ s_cast T) ++ ids l = w' ++ s_cast (fold_left (since_ev k) l T)).
  { induction l as [|e l IH]; intros T w; [exists w; unfold ids; cbn; apply app_nil_r|]. cbn [fold_left].
    replace (ids (e :: l)) with (ids [e] ++ ids l) by (unfold ids; cbn [flat_map]; rewrite app_nil_r, map_app; reflexivity). rewrite app_assoc.
    assert (X : exists w1, (w ++ s_cast T) ++ ids [e] = w1 ++ s_cast (since_ev k T e)).
    { destruct T as [a b c]. destruct e as [[]| | | | | | |]; unfold ids; cbn [flat_map cast_ev app map since_ev s_cast]; try (destruct (_ =? k)); cbn [s_cast];
      try (exists w; apply app_nil_r).
      - eexists. rewrite app_nil_r. symmetry. apply app_nil_r.
      - exists w. symmetry. apply app_assoc. }
    destruct X as [w1 ->]. apply IH. }
  destruct (H log s_empty []) as [w E]. cbn [s_empty s_cast app] in E. rewrite E, filter_app. eauto.
Qed.
Lemma zseq_In : forall n a k, In k (zseq a n) <-> a <= k < a + Z.of_nat n.
Proof. induction n as [|n IH]; intros a k; cbn [zseq In]; [lia|]. rewrite IH. lia. Qed.
Theorem c57_consecutive : forall y k a b m, sys_reached own y -> In a (cast_since y k) -> In b (cast_since y k) -> a <= m <= b -> In m (cast_since y k).
Proof.
  intros y k a b m R Ha Hb Hm. pose proof (reached_SysI own y R) as I. pose proof (c62_multicast_in_order _ _ _ (preached_reached _ _ _ _ (si_pub _ _ I))) as O.
  destruct (cast_since_suffix k (sy_plog y)) as [w Ew]. rewrite Ew in O. fold (cast_since y k) in O. symmetry in O. apply zseq_split in O. destruct O as [O _].
  symmetry in O. apply zseq_split in O. destruct O as [_ O]. rewrite O in *. rewrite zseq_In in *. lia.
Qed.
(** So a subscriber whose first packet was multicast after it was registered gets everything from
    then on: once it owes nothing and TCP has delivered everything, it has been handed out each
    packet multicast since its first one. *)
Theorem c57_from_registration_partial : forall y s i k f bs rest n, sys_reached own y -> good_ids (sy_slog y s) -> at_publisher y s i ->
  In (s, i, k) (sy_links y) -> tcp_quiet y s i k -> (forall m, ~ owes (sy_pub y) k m) ->
  delivered_at y s i = (f, bs) :: rest -> In f (cast_since y k) ->
  In n (cast_since y k) -> f <= n -> In n (map fst (delivered_at y s i)).
Proof.
  intros y s i k f bs rest n R Gd Ha Hl Hq Hw Ed Hf Hn Hfn. apply (c57_delivered_partial y s i k f bs rest n R Gd Ha Hl Hq Ed Hfn).
  intros m Hm. left. split; [|apply Hw]. exact (c57_consecutive y k f n m R Hf Hn Hm).
Qed.
End Theorems.
