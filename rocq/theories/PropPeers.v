(** PropPeers.v — C89: the bundled test publisher and test subscriber. *)
From Verif Require Import Base Wire SpecSub SubTrace SubCtx SpecSubCtx SpecSys SysProofs PropSys PropSysRun Wire Proto SpecProto Conn PubCtx SpecPubCtx PropPubCtx PropSubCtx PropSubRecv TestPeers SpecPeers PeersProofs.

(** ** C89. The verdict of the test subscriber *)
(** Whatever signals arrive, in whatever packets: it passes if and only if at some signal everything
    expected has arrived in order, it ends with 255 if and only if before that something is out of
    order, and otherwise it goes on.  It never reports corrupted data. *)
Theorem c89_verdict_partial : forall map_ packets, (exists n, expected map_ n) -> Forall (Forall sig_ok) packets ->
  let sigs := concat packets in
  let result := receive_loop (expect_init map_) (map payload_of packets) in
  (passes map_ sigs <-> result = Passed) /\
  (fails map_ sigs <-> result = Exits 255) /\
  (undecided map_ sigs <-> exists e, result = Goes e) /\
  result <> Exits 0.
Proof.
  intros map_ packets (n0 & N0) F sigs result.
  assert (N : ~ everything map_ []).
  { intros H. destruct (H n0 N0) as (m & Hm & E). destruct (Z.to_nat m) eqn:Em; [lia|]. rewrite numbered_snoc in E. destruct (numbered n0 m n); discriminate. }
  assert (V : good_result map_ sigs result).
  { unfold result. rewrite receive_check by (eapply Forall_impl; [|exact F]; intros p Hp; eapply Forall_impl; [|exact Hp]; exact sig_ok_u32).
    apply (check_verdict map_ sigs (expect_init map_) [] (INV_init map_) N). apply Forall_concat. exact F. }
  destruct result as [e| |c|]; cbn [good_result] in V.
  - split; [split; [intros H; destruct (undecided_passes _ _ V H)|discriminate]|]. split; [split; [intros H; destruct (undecided_fails _ _ (proj1 V) H)|discriminate]|].
    split; [split; [intros _; exists e; reflexivity|intros _; exact V]|discriminate].
  - split; [split; auto|]. split; [split; [intros H; destruct (passes_fails _ _ V H)|discriminate]|].
    split; [split; [intros H; destruct (undecided_passes _ _ H V)|intros (e & E); discriminate]|discriminate].
  - destruct V as [-> V]. split; [split; [intros H; destruct (passes_fails _ _ H V)|discriminate]|]. split; [split; auto|].
    split; [split; [intros H; destruct (undecided_fails _ _ (proj1 H) V)|intros (e & E); discriminate]|discriminate].
  - contradiction.
Qed.
(** Nodes 1 and 2 are expected: three signals of one and two of the other, interleaved, in three packets. *)
Definition map12 : list bool := [false; true; true].
Definition peers_demo : list (list signal) :=
  [[mkSig 1 1 3; mkSig 2 1 2]; [mkSig 1 2 3]; [mkSig 1 3 3; mkSig 2 2 2; mkSig 2 3 2]].
Example c89_verdict_nonvacuous : expected map12 1 /\ Forall (Forall sig_ok) peers_demo /\
  receive_loop (expect_init map12) (map payload_of peers_demo) = Passed /\
  receive_loop (expect_init map12) (map payload_of (firstn 2 peers_demo ++ [[mkSig 2 3 2]])) = Exits 255 /\
  exists e, receive_loop (expect_init map12) (map payload_of (firstn 2 peers_demo)) = Goes e.
Proof.
  split; [split; [lia|reflexivity]|]. split; [repeat constructor; unfold is_u32, INT_MAX; cbn [sg_node sg_id sg_max]; lia|].
  split; [vm_compute; reflexivity|]. split; [vm_compute; reflexivity|]. eexists. vm_compute. reflexivity.
Qed.

(** ** What the restriction to [sig_ok] hides *)
(** A highest number of INT_MAX or more overflows the int that adds up the numbers... *)
Theorem c89_overflow_refuted : forall map_ s sigs more, expected map_ (sg_node s) -> sig_u32 s -> Forall sig_u32 sigs -> 2147483647 <= sg_max s ->
  receive_loop (expect_init map_) (payload_of (s :: sigs) :: more) = Undef.
Proof.
  intros map_ s sigs more (H1 & H2) Hs F Hm. cbn [receive_loop]. rewrite packet_check by (constructor; assumption). cbn [check]. unfold process_incoming_signal.
  assert (Hlt : (Z.to_nat (sg_node s) < length map_)%nat) by (apply nth_error_Some; congruence).
  replace (zlen (expect_init map_) <=? sg_node s) with false by (unfold zlen, expect_init; rewrite map_length; lia).
  unfold expect_init. rewrite nth_error_map, H2. cbn [option_map ex_st]. change (NOT_STARTED =? INACTIVE) with false. change (NOT_STARTED =? COMPLETED) with false. change (NOT_STARTED =? NOT_STARTED) with true. cbv iota.
  replace (INT_MAX <=? sg_max s) with true by (unfold INT_MAX; lia). reflexivity.
Qed.
Example c89_overflow_nonvacuous : expected map12 1 /\ sig_u32 (mkSig 1 1 INT_MAX) /\ 2147483647 <= sg_max (mkSig 1 1 INT_MAX).
Proof. split; [split; [lia|reflexivity]|]. unfold sig_u32, is_u32, INT_MAX; cbn; lia. Qed.
(** ... and a payload with a cut signal at its end is read beyond its end. *)
Theorem c89_cut_refuted : forall map_ sigs tail more, (exists n, expected map_ n) -> Forall sig_ok sigs -> undecided map_ sigs -> 1 <= zlen tail < 12 ->
  receive_loop (expect_init map_) ((payload_of sigs ++ tail) :: more) = Undef.
Proof.
  intros map_ sigs tail more Hn F U Ht. cbn [receive_loop]. unfold process_incoming_packet.
  assert (F' : Forall sig_u32 sigs) by (eapply Forall_impl; [|exact F]; exact sig_ok_u32).
  pose proof (payload_length sigs) as Hl. rewrite app_length. rewrite packet_signals by (try exact F'; lia).
  destruct (c89_verdict_partial map_ [sigs] Hn (Forall_cons _ F (Forall_nil _))) as (_ & _ & V & _). cbn [concat] in V. rewrite app_nil_r in V.
  destruct (proj1 V U) as [e E]. cbn [map receive_loop] in E. rewrite packet_check in E by exact F'.
  destruct (check (expect_init map_) sigs) as [e'| | |]; try discriminate.
  destruct (length (payload_of sigs) + length tail - length sigs)%nat eqn:Ef; [unfold zlen in Ht; lia|]. cbn [packet_loop].
  destruct tail as [|b tail]; [rewrite zlen_nil in Ht; lia|]. replace (zlen (b :: tail) <? 12) with true by lia. reflexivity.
Qed.
Example c89_cut_nonvacuous : undecided map12 [mkSig 1 1 3].
Proof.
  assert (F : Forall (Forall sig_ok) [[mkSig 1 1 3]]) by (repeat constructor; unfold is_u32, INT_MAX; cbn [sg_node sg_id sg_max]; lia).
  destruct (c89_verdict_partial map12 [[mkSig 1 1 3]]) as (_ & _ & V & _); [exists 1; split; [lia|reflexivity]|exact F|]. apply V. eexists. vm_compute. reflexivity.
Qed.

(** ** C89. The test publisher *)
Definition test_signals (node count from : Z) (n : nat) : list signal := map (fun i => mkSig (u32 node) (u32 i) (u32 count)) (upfrom from n).
Lemma test_signals_cons node count from n : test_signals node count from (S n) = mkSig (u32 node) (u32 from) (u32 count) :: test_signals node count (from + 1) n.
Proof. reflexivity. Qed.
Lemma payload_zlen sigs : zlen (payload_of sigs) = 20 * zlen sigs.
Proof. induction sigs as [|s sigs IH]; [reflexivity|]. unfold payload_of. cbn [flat_map]. fold (payload_of sigs). rewrite zlen_app, enc_signal_zlen, IH, zlen_cons. lia. Qed.
Lemma test_signals_zlen node count from n : zlen (test_signals node count from n) = Z.of_nat n.
Proof. unfold test_signals. rewrite zlen_map. unfold zlen. f_equal. revert from. induction n; intros; cbn [upfrom length]; auto. Qed.

Lemma fill_ok node count : count < 18446744073709551615 -> forall fuel ind payload j, zlen payload = 20 * j -> 0 <= j <= 3265 -> 3265 - j < Z.of_nat fuel -> 1 <= ind <= count + 1 ->
  fill fuel node count ind payload = Ok (payload ++ payload_of (test_signals node count ind (Z.to_nat (Z.min (3265 - j) (count + 1 - ind)))), ind + Z.min (3265 - j) (count + 1 - ind)).
Proof.
  intros Hc. induction fuel as [|fuel IH]; intros ind payload j Hp Hj Hf Hi; [lia|]. cbn [fill]. rewrite Hp.
  change signal_size with 20. change RMC_MAX_PAYLOAD with 65312.
  destruct ((ind <=? count) && (20 * j + 20 <=? 65312)) eqn:E.
  - apply andb_prop in E. destruct E as [E1 E2]. assert (j < 3265 /\ ind <= count) as [] by lia.
    rewrite u64_small by (unfold is_u64; lia). rewrite (IH (ind + 1) _ (j + 1)) by (try (rewrite zlen_app, enc_signal_zlen, Hp); lia).
    replace (Z.min (3265 - j) (count + 1 - ind)) with (1 + Z.min (3265 - (j + 1)) (count + 1 - (ind + 1))) by lia.
    replace (Z.to_nat (1 + _)) with (S (Z.to_nat (Z.min (3265 - (j + 1)) (count + 1 - (ind + 1))))) by lia.
    rewrite test_signals_cons. unfold payload_of. cbn [flat_map]. rewrite <- app_assoc. f_equal. f_equal. lia.
  - replace (Z.min (3265 - j) (count + 1 - ind)) with 0 by lia. cbn [Z.to_nat]. unfold test_signals, payload_of. cbn [upfrom map flat_map]. rewrite app_nil_r, Z.add_0_r. reflexivity.
Qed.
Lemma test_signals_app node count a n m : test_signals node count a (n + m) = test_signals node count a n ++ test_signals node count (a + Z.of_nat n) m.
Proof. unfold test_signals. rewrite <- map_app, upfrom_app. reflexivity. Qed.
Lemma send_ok node count : count < 18446744073709551615 -> forall fuel ind, 1 <= ind <= count + 1 -> count + 1 - ind < Z.of_nat fuel ->
  exists packets, send_loop fuel node count ind = Ok (map payload_of packets) /\ concat packets = test_signals node count ind (Z.to_nat (count + 1 - ind)) /\
    forall i p, nth_error packets i = Some p -> 1 <= zlen p /\ zlen p = Z.min 3265 (count + 1 - ind - 3265 * Z.of_nat i).
Proof.
  intros Hc. induction fuel as [|fuel IH]; intros ind Hi Hf; [lia|]. cbn [send_loop]. destruct (Z.leb_spec ind count) as [L|L].
  - rewrite (fill_ok node count Hc _ ind [] 0) by (try reflexivity; change RMC_MAX_PAYLOAD with 65312; lia). cbn [bind fst snd app]. set (n := Z.min (3265 - 0) (count + 1 - ind)).
    assert (Hn : 1 <= n <= count + 1 - ind /\ n <= 3265) by lia. destruct (IH (ind + n)) as (packets & E & C & P); [lia|lia|]. rewrite E. cbn [bind].
    exists (test_signals node count ind (Z.to_nat n) :: packets). split; [reflexivity|]. split.
    + cbn [concat]. rewrite C. replace (Z.to_nat (count + 1 - ind)) with (Z.to_nat n + Z.to_nat (count + 1 - (ind + n)))%nat by lia. rewrite test_signals_app. do 2 f_equal. lia.
    + intros [|i] p Hp; cbn [nth_error] in Hp.
      * injection Hp as <-. rewrite test_signals_zlen. lia.
      * destruct (P i p Hp) as [P1 P2]. lia.
  - exists []. split; [reflexivity|]. split; [replace (Z.to_nat (count + 1 - ind)) with O by lia; reflexivity|]. intros [|i] p Hp; discriminate.
Qed.
(** The payloads handed to the library carry the signals 1, 2, ..., count in order, the last one
    saying so: 3265 of them in each but the last payload, none empty and none too long for the library
    (ids and count cut to 32 bits). *)
Theorem c89_payloads : forall node count fuel, 0 <= count < 18446744073709551615 -> count < Z.of_nat fuel ->
  exists packets, test_payloads fuel node count = Ok (map payload_of packets) /\
    concat packets = map (fun i => mkSig (u32 node) (u32 i) (u32 count)) (upfrom 1 (Z.to_nat count)) /\
    forall i p, nth_error packets i = Some p -> zlen p = Z.min 3265 (count - 3265 * Z.of_nat i) /\ 0 < zlen (payload_of p) <= RMC_MAX_PAYLOAD.
Proof.
  intros node count fuel Hc Hf. unfold test_payloads. destruct (send_ok node count ltac:(lia) fuel 1) as (packets & E & C & P); [lia|lia|].
  exists packets. split; [exact E|]. split; [rewrite C; unfold test_signals; do 3 f_equal; lia|]. intros i p Hp. destruct (P i p Hp) as [P1 P2]. rewrite payload_zlen. change RMC_MAX_PAYLOAD with 65312. lia.
Qed.
(** 3266 signals: one full payload and one with a single signal. *)
Example c89_payloads_nonvacuous : exists a b, test_payloads (Z.to_nat 4000) 7 3266 = Ok [a; b] /\ zlen a = 65300 /\ b = payload_of [mkSig 7 3266 3266].
Proof.
  destruct (c89_payloads 7 3266 (Z.to_nat 4000)) as (packets & E & C & P); [lia|lia|]. change (u32 7) with 7 in C. change (u32 3266) with 3266 in C.
  assert (L : zlen (concat packets) = 3266) by (rewrite C, zlen_map; unfold zlen; rewrite <- (map_length (fun i => mkSig 7 i 0)); fold (numbered 7 0 (Z.to_nat 3266)); rewrite numbered_length; lia).
  destruct packets as [|a [|b [|c r]]]; cbn [concat] in L; rewrite ?zlen_app, ?zlen_nil in L.
  - lia.
  - pose proof (proj1 (P 0%nat a eq_refl)). lia.
  - pose proof (proj1 (P 0%nat a eq_refl)) as La. pose proof (proj1 (P 1%nat b eq_refl)) as Lb. exists (payload_of a), (payload_of b). split; [exact E|]. split; [rewrite payload_zlen; lia|].
    f_equal. cbn [concat] in C. rewrite app_nil_r in C. replace (Z.to_nat 3266) with (S (Z.to_nat 3265)) in C by lia. rewrite upfrom_snoc, map_app in C. cbn [map] in C.
    destruct b as [|g [|h b]]; [rewrite zlen_nil in Lb; lia| |rewrite !zlen_cons in Lb; pose proof (zlen_nonneg b); lia]. apply app_inj_tail in C. destruct C as [_ ->]. rewrite Z2Nat.id by lia. reflexivity.
  - pose proof (proj1 (P 2%nat c eq_refl)). destruct (P 2%nat c eq_refl) as [_ Q]. rewrite payload_zlen in Q. lia.
Qed.

(** ** C89. Both together *)
(** Any interleaving of the complete streams of the expected nodes passes. *)
Theorem c89_end_to_end : forall map_ packets count, (exists n, expected map_ n) -> Forall (Forall sig_ok) packets ->
  (forall n, expected map_ n -> 1 <= count n /\ of_node n (concat packets) = numbered n (count n) (Z.to_nat (count n))) ->
  (forall n, ~ expected map_ n -> of_node n (concat packets) = []) ->
  receive_loop (expect_init map_) (map payload_of packets) = Passed.
Proof.
  intros map_ packets count Hn F H1 H2. destruct (c89_verdict_partial map_ packets Hn F) as (V & _). apply V. clear V. set (sigs := concat packets) in *.
  assert (O : in_order map_ sigs).
  { intros n. assert (D : expected map_ n \/ ~ expected map_ n).
    { unfold expected. destruct (Z_le_dec 0 n); [|right; lia]. destruct (nth_error map_ (Z.to_nat n)) as [[]|]; [left; auto|right; intros []; discriminate|right; intros []; discriminate]. }
    destruct D as [D|D]; [right|left; auto]. split; [exact D|]. destruct (H1 n D) as [Hc E]. exists (count n), (Z.to_nat (count n)). split; [exact E|lia]. }
  assert (Ev : everything map_ sigs) by (intros n D; destruct (H1 n D) as [Hc E]; exists (count n); auto).
  destruct sigs as [|s0 sigs0] eqn:E0 using rev_ind.
  - exfalso. destruct Hn as (n & D). destruct (H1 n D) as [Hc E]. cbn in E. destruct (Z.to_nat (count n)) eqn:En; [lia|]. rewrite numbered_snoc in E. destruct (numbered n (count n) n0); discriminate.
  - exists sigs0, s0, []. auto.
Qed.
Example c89_end_to_end_nonvacuous :
  let packets := [[mkSig 1 1 3; mkSig 2 1 2]; [mkSig 1 2 3]; [mkSig 1 3 3; mkSig 2 2 2]] in let count := fun n => if n =? 1 then 3 else 2 in
  Forall (Forall sig_ok) packets /\ (forall n, expected map12 n -> 1 <= count n /\ of_node n (concat packets) = numbered n (count n) (Z.to_nat (count n))) /\
  (forall n, ~ expected map12 n -> of_node n (concat packets) = []).
Proof.
  cbv zeta. split; [repeat constructor; unfold is_u32, INT_MAX; cbn [sg_node sg_id sg_max]; lia|]. split.
  - intros n (H1 & H2). assert (n = 1 \/ n = 2) as [-> | ->]; [|split; [cbn; lia|reflexivity]..].
    destruct (Z.to_nat n) as [|[|[|k]]] eqn:E; cbn [map12 nth_error] in H2; try discriminate; [lia|lia|destruct k; discriminate].
  - intros n H. destruct (Z.eq_dec n 1) as [->|N1]; [exfalso; apply H; split; [lia|reflexivity]|]. destruct (Z.eq_dec n 2) as [->|N2]; [exfalso; apply H; split; [lia|reflexivity]|].
    unfold of_node. cbn [concat app filter sg_node]. replace (1 =? n) with false by lia. replace (2 =? n) with false by lia. reflexivity.
Qed.

(** One node's stream. *)
Lemma of_node_numbered n a m k : of_node n (map (fun i => mkSig a i m) k) = if a =? n then map (fun i => mkSig a i m) k else [].
Proof. induction k as [|i k IH]; [destruct (a =? n); reflexivity|]. unfold of_node in *. cbn [map filter sg_node]. rewrite IH. destruct (a =? n); reflexivity. Qed.
Lemma nth_error_prefix {X} (a b : list X) i : (i < length a)%nat -> nth_error (a ++ b) i = nth_error a i.
Proof. apply nth_error_app1. Qed.
Lemma map_prefix {X Y} (f : X -> Y) : forall l a b, map f l = a ++ b -> exists l1 l2, l = l1 ++ l2 /\ a = map f l1 /\ b = map f l2.
Proof.
  intros l a. revert l. induction a as [|x a IH]; intros l b E; [exists [], l; auto|]. destruct l as [|y l]; [discriminate|]. cbn [map app] in E. injection E as E0 E. subst x.
  destruct (IH _ _ E) as (l1 & l2 & -> & -> & ->). exists (y :: l1), l2. auto.
Qed.
Lemma numbered_slice n m : forall a b c k, numbered n m k = a ++ b ++ c -> b = map (fun i => mkSig n i m) (upfrom (1 + zlen a) (length b)).
Proof.
  intros a b c k E. unfold numbered in E. apply map_prefix in E. destruct E as (l1 & l23 & E & -> & E'). symmetry in E'. apply map_prefix in E'. destruct E' as (l2 & l3 & -> & -> & ->).
  rewrite !map_length, zlen_map. f_equal. clear -E.
  assert (G : forall l1 f k r, upfrom f k = l1 ++ r -> exists j, r = upfrom (f + zlen l1) j).
  { clear. induction l1 as [|x l1 IH]; intros f k r E; [exists k; rewrite zlen_nil, Z.add_0_r; symmetry; exact E|]. destruct k as [|k]; [discriminate|]. cbn [upfrom app] in E. injection E as _ E.
    destruct (IH _ _ _ E) as [j ->]. exists j. f_equal. rewrite zlen_cons. lia. }
  destruct (G _ _ _ _ E) as [j Ej]. symmetry in Ej. revert Ej. generalize (1 + zlen l1). clear. revert j. induction l2 as [|x l2 IH]; intros j f Ej; [reflexivity|].
  destruct j as [|j]; [discriminate|]. cbn [upfrom app] in Ej. injection Ej as -> Ej. cbn [length upfrom]. f_equal. exact (IH _ _ Ej).
Qed.

(** The test publisher and the test subscriber over the library and the network: the subscriber
    expects just this publisher's node.  If the library has handed out packets starting with the
    first one, the test has passed when all have been handed out and else goes on; if the first
    packet handed out is a later one the test ends with 255. *)
Theorem c89_system : forall own y s i f bs rest node count fuel ps more map_,
  sys_reached own y -> good_ids (sy_slog y s) -> at_publisher own y s i ->
  is_u32 node -> 1 <= count < 2147483647 -> count < Z.of_nat fuel -> test_payloads fuel node count = Ok ps -> ps = queued_payloads y ++ more ->
  (forall n, expected map_ n <-> n = node) ->
  delivered_at y s i = (f, bs) :: rest ->
  let out := map snd (delivered_at y s i) in
  (f = 1 -> out = ps -> receive_loop (expect_init map_) out = Passed) /\
  (f = 1 -> out <> ps -> exists e, receive_loop (expect_init map_) out = Goes e) /\
  (f <> 1 -> receive_loop (expect_init map_) out = Exits 255).
Proof.
  intros own y s i f bs rest node count fuel ps more map_ R Gd Ha Hn Hc Hf Ep Eq Hx Ed out.
  destruct (c89_payloads node count fuel) as (packets & E & C & P); [lia|exact Hf|]. assert (ps = map payload_of packets) as Es by congruence. clear E Ep.
  rewrite !u32_small in C by (try exact Hn; unfold is_u32, INT_MAX in *; lia).
  assert (C' : concat packets = numbered node count (Z.to_nat count)).
  { rewrite C. unfold numbered. apply map_ext_in. intros k Hk. apply upfrom_In in Hk. rewrite !u32_small by (unfold is_u32, INT_MAX in *; lia). reflexivity. }
  clear C. destruct (c55_slice own y s i R Gd Ha) as (before & after & Es2 & Ei). fold out in Es2. rewrite Ed in Ei. specialize (Ei ltac:(discriminate)). cbn [map fst length upfrom] in Ei. assert (Ef : f = 1 + zlen before) by congruence. clear Ei.
  rewrite Es2, Es, <- !app_assoc in Eq. apply map_prefix in Eq. destruct Eq as (p1 & p23 & Epk & -> & Eq). symmetry in Eq. apply map_prefix in Eq. destruct Eq as (p2 & p3 & -> & Eo & E3).
  rewrite Epk, !concat_app in C'. symmetry in C'. pose proof (numbered_slice _ _ _ _ _ _ C') as Sl. rewrite zlen_map in Ef.
  assert (Fo : Forall (Forall sig_ok) p2).
  { apply Forall_forall. intros p Hp. apply Forall_forall. intros g Hg. assert (Hin : In g (concat p2)) by (apply in_concat; exists p; auto).
    assert (In g (numbered node count (Z.to_nat count))) as Hi by (rewrite C'; apply in_or_app; right; apply in_or_app; left; exact Hin).
    unfold numbered in Hi. apply in_map_iff in Hi. destruct Hi as (k & <- & Hk). apply upfrom_In in Hk. unfold sig_ok, is_u32, INT_MAX in *. cbn [sg_node sg_id sg_max]. lia. }
  assert (Hne : exists n, expected map_ n) by (exists node; apply Hx; reflexivity).
  destruct (c89_verdict_partial map_ p2 Hne Fo) as (V1 & V2 & V3 & _). rewrite <- Eo in V1, V2, V3.
  assert (L1 : forall p, In p packets -> 1 <= zlen p).
  { intros p Hp. apply In_nth_error in Hp. destruct Hp as [k Hk]. destruct (P k p Hk) as [Q1 Q2]. rewrite payload_zlen in Q2. lia. }
  assert (Hp2 : exists p r, p2 = p :: r) by (destruct p2 as [|p r]; [unfold out in Eo; rewrite Ed in Eo; discriminate|exists p, r; reflexivity]).
  assert (H2 : forall k, of_node k (concat p2) = if node =? k then concat p2 else []) by (intros k; rewrite Sl; apply of_node_numbered).
  assert (Hz2 : 1 <= zlen (concat p2)).
  { destruct Hp2 as (p & r & Ep2). rewrite Ep2. cbn [concat]. rewrite zlen_app. assert (1 <= zlen p) by (apply L1; rewrite Epk, Ep2; apply in_or_app; right; left; reflexivity). pose proof (zlen_nonneg (concat r)). lia. }
  split; [|split].
  - intros E1 Eall. apply V1. assert (p1 = []) as -> by (apply zlen_zero; lia).
    assert (p3 = []) as ->. { rewrite Eo, Es, Epk in Eall. cbn [app] in Eall. apply (f_equal (@length _)) in Eall. rewrite !map_length, app_length in Eall. destruct p3; [reflexivity|cbn [length] in Eall; lia]. }
    cbn [concat app] in C'. rewrite app_nil_r in C'.
    assert (O : in_order map_ (concat p2)).
    { intros k. rewrite H2. destruct (Z.eqb_spec node k) as [<-|]; [right|left; reflexivity]. split; [apply Hx; reflexivity|]. exists count, (Z.to_nat count). split; [congruence|lia]. }
    assert (Ev : everything map_ (concat p2)) by (intros k Hk; apply Hx in Hk; subst k; exists count; split; [lia|]; rewrite H2, Z.eqb_refl; congruence).
    destruct (concat p2) as [|g0 gs] eqn:Eg using rev_ind; [rewrite zlen_nil in Hz2; lia|]. exists gs, g0, []. auto.
  - intros E1 Nall. apply V3. assert (p1 = []) as -> by (apply zlen_zero; lia). cbn [concat app] in C', Sl, Epk. rewrite zlen_nil, Z.add_0_r in Sl. fold (numbered node count (length (concat p2))) in Sl.
    assert (Hlen : (length (concat p2) < Z.to_nat count)%nat).
    { pose proof (f_equal (@length _) C') as L. rewrite numbered_length, app_length in L. assert (1 <= zlen (concat p3)); [|unfold zlen in *; lia].
      destruct p3 as [|p p3]; [exfalso; apply Nall; rewrite Eo, Es, Epk, app_nil_r; reflexivity|]. cbn [concat]. rewrite zlen_app.
      assert (1 <= zlen p) by (apply L1; rewrite Epk; apply in_or_app; right; left; reflexivity). pose proof (zlen_nonneg (concat p3)). lia. }
    split.
    + intros k. rewrite H2. destruct (Z.eqb_spec node k) as [<-|]; [right|left; reflexivity]. split; [apply Hx; reflexivity|]. exists count, (length (concat p2)). split; [exact Sl|lia].
    + intros Ev. destruct (Ev node) as (m & Hm & E); [apply Hx; reflexivity|]. rewrite H2, Z.eqb_refl in E. rewrite Sl in E. apply numbered_inj in E. unfold zlen in Hz2. lia.
  - intros Nf. apply V2. assert (1 <= zlen (concat p1)).
    { destruct p1 as [|p p1]; [rewrite zlen_nil in Ef; lia|]. cbn [concat]. rewrite zlen_app. assert (1 <= zlen p) by (apply L1; rewrite Epk; left; reflexivity). pose proof (zlen_nonneg (concat p1)). lia. }
    destruct (concat p2) as [|g gs] eqn:Eg; [rewrite zlen_nil in Hz2; lia|]. exists [], g, gs. split; [reflexivity|]. split.
    + split; [intros k; left; reflexivity|]. intros Ev. destruct (Ev node) as (m & Hm & E); [apply Hx; reflexivity|]. cbn in E. destruct (Z.to_nat m) eqn:Em; [lia|]. rewrite numbered_snoc in E. destruct (numbered node m n); discriminate.
    + intros O. cbn [app] in O. apply (order_node map_ [] g) in O. destruct O as (_ & m & k & O1 & O2 & _). cbn in O1. assert (k = O) as -> by (apply (f_equal (@length _)) in O1; rewrite numbered_length in O1; cbn [length] in O1; lia).
      cbn [length upfrom map] in Sl. assert (Sg : g = mkSig node (1 + zlen (concat p1)) count) by congruence. rewrite Sg in O2. pose proof (f_equal sg_id O2) as A. cbn [sg_id] in A. lia.
Qed.

(** Two signals in one packet, which arrives. *)
Definition test_pay : list Z := payload_of [mkSig 1 1 2; mkSig 1 2 2].
Definition test_ops : list sysop := sys_start ++ join ++ send 100 test_pay 1000 ++ [Sb 0 (mcast_in [data 1 test_pay 100 1000 []])].
Definition map1 : list bool := [false; true].
Example c89_system_nonvacuous : exists y, sys_reached own77 y /\ good_ids (sy_slog y 0%nat) /\ at_publisher own77 y 0 0 /\
  test_payloads 3 1 2 = Ok [test_pay] /\ queued_payloads y = [test_pay] /\ (forall n, expected map1 n <-> n = 1) /\ delivered_at y 0 0 = [(1, test_pay)] /\
  receive_loop (expect_init map1) (map snd (delivered_at y 0 0)) = Passed.
Proof.
  destruct (reaches_reached test_ops (fun y => goodidsb (sy_slog y 0%nat) = true /\
    match slot (t_vec (sy_sub y 0%nat)) 0 with Ok c => (c_mode c =? CONNECTED) && own77 (c_addr c, c_port c) | _ => false end = true /\
    queued_payloads y = [test_pay] /\ delivered_at y 0 0 = [(1, test_pay)])) as (y & R & G & A & H1 & H2); [vm_compute; auto|].
  exists y. split; [exact R|]. split; [apply goodidsb_ok; exact G|]. assert (Ap : at_publisher own77 y 0 0).
  { destruct (slot (t_vec (sy_sub y 0%nat)) 0) as [c| | |] eqn:Es; try discriminate. exists c. apply andb_prop in A. destruct A. split; [split; [exact Es|lia]|assumption]. }
  split; [exact Ap|]. split; [vm_compute; reflexivity|]. split; [exact H1|].
  assert (Hm : forall n, expected map1 n <-> n = 1).
  { intros n. split; [|intros ->; split; [lia|reflexivity]]. intros (N1 & N2). destruct (Z.to_nat n) as [|[|k]] eqn:E; cbn [map1 nth_error] in N2; try discriminate; [lia|destruct k; discriminate]. }
  split; [exact Hm|]. split; [exact H2|].
  refine (proj1 (c89_system own77 y 0 0 1 test_pay [] 1 2 3 [test_pay] [] map1 R (goodidsb_ok _ G) Ap _ _ _ _ _ Hm H2) eq_refl _); [unfold is_u32; lia|unfold INT_MAX; lia|lia|vm_compute; reflexivity|rewrite H1; reflexivity|rewrite H2; reflexivity].
Qed.

(** ** C89. The options *)
Lemma mark_length m n : 0 <= n < zlen m -> length (mark m n) = length m.
Proof. intros H. unfold mark. rewrite app_length. cbn [length]. rewrite firstn_length, skipn_length. unfold zlen in H. lia. Qed.
Lemma mark_nth m n i : 0 <= n < zlen m -> nth_error (mark m n) i = if Nat.eqb i (Z.to_nat n) then Some true else nth_error m i.
Proof.
  intros H. unfold zlen in H. unfold mark. destruct (Nat.eqb_spec i (Z.to_nat n)) as [->|N].
  - rewrite nth_error_app2 by (rewrite firstn_length; lia). rewrite firstn_length, Nat.min_l by lia. rewrite Nat.sub_diag. reflexivity.
  - destruct (Nat.lt_ge_cases i (Z.to_nat n)) as [L|L].
    + rewrite nth_error_app1 by (rewrite firstn_length; lia). apply nth_error_firstn. exact L.
    + rewrite nth_error_app2 by (rewrite firstn_length; lia). rewrite firstn_length, Nat.min_l by lia. destruct (i - Z.to_nat n)%nat as [|j] eqn:E; [lia|]. cbn [nth_error]. rewrite nth_error_skipn. f_equal. lia.
Qed.
Definition arg_val (a : arg) : Z := match a with Big_E v | Small_e v => v end.
Lemma options_ok : forall args m g, length m = 1024%nat ->
  match options m g args with
  | Some (m', g') => Forall (fun a => 1 <= arg_val a < 1024) args /\ g' = (match args with [] => g | _ => true end) /\ length m' = 1024%nat /\
      forall n, expected m' n <-> expected m n \/ In n (map arg_val args)
  | None => ~ Forall (fun a => 1 <= arg_val a < 1024) args
  end.
Proof.
  induction args as [|a args IH]; intros m g L.
  - cbn [options]. split; [constructor|]. split; [reflexivity|]. split; [exact L|]. intros n. cbn [map In]. tauto.
  - assert (E : options m g (a :: args) = if (arg_val a <? 1) || (1024 <=? arg_val a) then None else options (mark m (arg_val a)) true args) by (destruct a; reflexivity). rewrite E. clear E.
    destruct ((arg_val a <? 1) || (1024 <=? arg_val a)) eqn:B; [intros F; apply Forall_cons_iff in F; lia|].
    assert (Hr : 0 <= arg_val a < zlen m) by (unfold zlen; rewrite L; lia). specialize (IH (mark m (arg_val a)) true ltac:(rewrite mark_length; assumption)).
    destruct (options _ true args) as [[m' g']|]; [|intros F; apply IH; apply Forall_cons_iff in F; tauto].
    destruct IH as (F & G & L' & X). split; [constructor; [lia|exact F]|]. split; [destruct args; exact G|]. split; [exact L'|]. intros n. rewrite X. cbn [map In].
    assert (Q : expected (mark m (arg_val a)) n <-> expected m n \/ arg_val a = n).
    { unfold expected. rewrite mark_nth by exact Hr. destruct (Nat.eqb_spec (Z.to_nat n) (Z.to_nat (arg_val a))) as [Q|Q]; split.
      - intros (Q1 & _). right. lia.
      - intros [(Q1 & _)|Q1]; (split; [lia|reflexivity]).
      - intros (Q1 & Q2). left. auto.
      - intros [Q1|Q1]; [exact Q1|subst n; contradiction]. }
    rewrite Q. tauto.
Qed.
(** The test subscriber expects the nodes named by -e, and node 1 if there is none... but also the
    number given with -E. *)
Theorem c89_options_refuted :
  (forall args, match expected_map args with
    | Some m => length m = 1024%nat /\ forall n, expected m n <-> In n (map arg_val args) \/ args = [] /\ n = 1
    | None => exists a, In a args /\ ~ 1 <= arg_val a < 1024
    end) /\
  exists m, expected_map [Big_E 3; Small_e 1] = Some m /\ expected m 1 /\ expected m 3 /\
    receive_loop (expect_init m) [payload_of [mkSig 1 1 1]] <> Passed.
Proof.
  split.
  - intros args. unfold expected_map. pose proof (options_ok args (repeat false 1024) false (repeat_length _ _)) as H.
    assert (N0 : forall n, ~ expected (repeat false 1024) n) by (intros n (_ & E); apply nth_error_In in E; apply repeat_spec in E; discriminate).
    destruct (options _ false args) as [[m g]|].
    + destruct H as (_ & -> & L & X). destruct args as [|a args].
      * assert (Hr : 0 <= 1 < zlen m) by (unfold zlen; rewrite L; lia). split; [rewrite mark_length; assumption|]. intros n. unfold expected. rewrite mark_nth by exact Hr. cbn [map In].
        destruct (Nat.eqb_spec (Z.to_nat n) (Z.to_nat 1)) as [Q|Q]; split.
        -- intros (Q1 & _). right. split; [reflexivity|]. change (Z.to_nat 1) with 1%nat in Q. lia.
        -- intros [[]|(_ & ->)]. split; [lia|reflexivity].
        -- intros (Q1 & Q2). exfalso. destruct (proj1 (X n) (conj Q1 Q2)) as [B|[]]. exact (N0 n B).
        -- intros [[]|(_ & ->)]. contradiction.
      * split; [exact L|]. intros n. rewrite X. split; [intros [B|B]; [destruct (N0 n B)|left; exact B]|intros [B|(B & _)]; [right; exact B|discriminate]].
    + clear -H. induction args as [|a args IH]; [exfalso; apply H; constructor|]. destruct (Z_le_dec 1 (arg_val a)) as [Q|Q].
      * destruct (Z_lt_dec (arg_val a) 1024) as [Q'|Q'].
        -- destruct IH as (b & Hb & Nb); [intros F; apply H; constructor; [lia|exact F]|]. exists b. split; [right; exact Hb|exact Nb].
        -- exists a. split; [left; reflexivity|lia].
      * exists a. split; [left; reflexivity|lia].
  - eexists. split; [vm_compute; reflexivity|]. split; [split; [lia|reflexivity]|]. split; [split; [lia|reflexivity]|]. vm_compute. discriminate.
Qed.

Print Assumptions c89_verdict_partial.
Print Assumptions c89_overflow_refuted.
Print Assumptions c89_cut_refuted.
Print Assumptions c89_payloads.
Print Assumptions c89_end_to_end.
Print Assumptions c89_system.
Print Assumptions c89_options_refuted.
