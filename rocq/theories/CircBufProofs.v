(** CircBufProofs.v — invariant, abstraction function and lemmas for CircBuf.v. *)
From Verif Require Import Base CircBuf.
Ltac Zify.zify_post_hook ::= Z.div_mod_to_equations.

(** Largest ring for which all index computations stay below 2^32. *)
Definition cb_max : Z := 2147483648.

(** Well-formed ring. *)
Definition cb_wf (cb : cbuf) : Prop :=
  1 <= cb_size cb <= cb_max /\
  0 <= cb_start cb < cb_size cb /\
  0 <= cb_stop cb <= cb_size cb /\
  cb_stop cb - cb_start cb <= cb_size cb - 1.

(** The bytes [mem[(a + i) mod size]] for i = 0 .. n-1. *)
Definition ring_slice (mem : Z -> Z) (size a : Z) (n : nat) : list Z :=
  map (fun i => mem ((a + Z.of_nat i) mod size)) (seq 0 n).

(** Abstraction: the queue of bytes stored in the ring, oldest first. *)
Definition contents (cb : cbuf) : list Z :=
  ring_slice (cb_mem cb) (cb_size cb) (cb_start cb) (Z.to_nat (circ_buf_in_use cb)).

Lemma in_use_val cb : cb_wf cb ->
  circ_buf_in_use cb =
    (if cb_start cb <=? cb_stop cb then cb_stop cb - cb_start cb
     else cb_size cb - cb_start cb + cb_stop cb).
Proof.
  unfold cb_wf, circ_buf_in_use, u32, cb_max. intros H.
  destruct (cb_start cb <=? cb_stop cb) eqn:E; apply Z.mod_small; lia.
Qed.

Lemma in_use_bounds cb : cb_wf cb -> 0 <= circ_buf_in_use cb <= cb_size cb - 1.
Proof.
  intros H. rewrite in_use_val by assumption. unfold cb_wf in H.
  destruct (cb_start cb <=? cb_stop cb) eqn:E; lia.
Qed.

Lemma available_val cb : cb_wf cb ->
  circ_buf_available cb = cb_size cb - 1 - circ_buf_in_use cb.
Proof.
  intros H. pose proof (in_use_bounds cb H) as B. unfold circ_buf_available, u32, cb_wf, cb_max in *.
  rewrite Z.mod_small by lia. lia.
Qed.

Lemma contents_len cb : cb_wf cb -> zlen (contents cb) = circ_buf_in_use cb.
Proof.
  intros H. pose proof (in_use_bounds cb H).
  unfold contents, ring_slice. rewrite zlen_map. unfold zlen. rewrite seq_length. lia.
Qed.

Lemma ring_slice_len mem size a n : length (ring_slice mem size a n) = n.
Proof. unfold ring_slice. rewrite map_length, seq_length. reflexivity. Qed.

Lemma ring_slice_app mem size a n m :
  ring_slice mem size a (n + m) = ring_slice mem size a n ++ ring_slice mem size (a + Z.of_nat n) m.
Proof.
  unfold ring_slice. rewrite seq_app, map_app. f_equal.
  rewrite Nat.add_0_l. rewrite <- (Nat.add_0_r n) at 1.
  generalize 0%nat as k. induction m as [|m IH]; intros k; [reflexivity|].
  simpl. f_equal.
  - f_equal. f_equal. lia.
  - rewrite <- Nat.add_succ_r. apply IH.
Qed.

Lemma ring_slice_ext mem mem' size a a' n :
  (forall i, 0 <= i < Z.of_nat n -> mem ((a + i) mod size) = mem' ((a' + i) mod size)) ->
  ring_slice mem size a n = ring_slice mem' size a' n.
Proof.
  intros H. unfold ring_slice. apply map_ext_in. intros i Hi. apply in_seq in Hi. apply H. lia.
Qed.

Lemma ring_slice_mod mem size a n : size <> 0 ->
  ring_slice mem size (a mod size) n = ring_slice mem size a n.
Proof.
  intros Hs. apply ring_slice_ext. intros i Hi. rewrite Zplus_mod_idemp_l. reflexivity.
Qed.

(** A slice of memory cells that does not wrap. *)
Lemma load_slice cb off n :
  0 <= off -> 0 <= n -> off + n <= cb_size cb ->
  cb_load cb off n = Ok (ring_slice (cb_mem cb) (cb_size cb) off (Z.to_nat n)).
Proof.
  intros H1 H2 H3. unfold cb_load.
  replace ((0 <=? off) && (off + n <=? cb_size cb)) with true by lia.
  f_equal. unfold ring_slice. apply map_ext_in. intros i Hi. apply in_seq in Hi.
  f_equal. symmetry. apply Z.mod_small. lia.
Qed.

Lemma slice_of_store cb off bs :
  0 <= off -> off + zlen bs <= cb_size cb ->
  exists cb', cb_store cb off bs = Ok cb' /\
    cb_size cb' = cb_size cb /\ cb_start cb' = cb_start cb /\ cb_stop cb' = cb_stop cb /\
    (forall j, j < off \/ off + zlen bs <= j -> cb_mem cb' j = cb_mem cb j) /\
    ring_slice (cb_mem cb') (cb_size cb) off (length bs) = bs.
Proof.
  intros H1 H2. unfold cb_store.
  replace ((0 <=? off) && (off + zlen bs <=? cb_size cb)) with true by lia.
  eexists; split; [reflexivity|]. cbn [cb_size cb_start cb_stop cb_mem].
  repeat split; try reflexivity.
  - intros j Hj. replace ((off <=? j) && (j <? off + zlen bs)) with false by lia. reflexivity.
  - unfold ring_slice. apply nth_ext with (d := 0) (d' := 0).
    { rewrite map_length, seq_length. reflexivity. }
    rewrite map_length, seq_length. intros n Hn.
    set (f := fun i : nat => _). rewrite (nth_indep _ 0 (f 0%nat)) by (rewrite map_length, seq_length; lia).
    rewrite map_nth. subst f. cbv beta. rewrite seq_nth by lia. rewrite Nat.add_0_l.
    unfold zlen in *.
    rewrite (Z.mod_small (off + Z.of_nat n)) by lia.
    replace ((off <=? off + Z.of_nat n) && (off + Z.of_nat n <? off + Z.of_nat (length bs)))
      with true by lia.
    f_equal. lia.
Qed.

(** contents as a slice starting at [start] plus the end position. *)
Lemma stop_is_end cb : cb_wf cb ->
  (cb_start cb + circ_buf_in_use cb) mod cb_size cb = cb_stop cb mod cb_size cb.
Proof.
  intros H. rewrite in_use_val by assumption. unfold cb_wf in H.
  destruct (cb_start cb <=? cb_stop cb) eqn:E.
  - f_equal. lia.
  - replace (cb_start cb + (cb_size cb - cb_start cb + cb_stop cb))
      with (cb_stop cb + 1 * cb_size cb) by lia.
    apply Z.mod_add. lia.
Qed.

(** Shape of a successful allocation. *)
Lemma alloc_cases cb len : cb_wf cb -> 0 <= len -> len <= circ_buf_available cb ->
  exists cb' s, circ_buf_alloc cb len = inr (cb', s) /\
    cb_wf cb' /\ cb_size cb' = cb_size cb /\ cb_start cb' = cb_start cb /\
    cb_mem cb' = cb_mem cb /\
    circ_buf_in_use cb' = circ_buf_in_use cb + len /\
    seg1 s = Some (cb_stop cb) /\
    ((seg1_len s = len /\ seg2 s = None /\ seg2_len s = 0 /\ cb_stop cb + len <= cb_size cb
      /\ cb_stop cb' = cb_stop cb + len) \/
     (seg1_len s = cb_size cb - cb_stop cb /\ seg2 s = Some 0 /\
      seg2_len s = len - seg1_len s /\ 0 < seg2_len s /\ seg2_len s < cb_start cb
      /\ cb_stop cb' = len - seg1_len s /\ cb_start cb <= cb_stop cb)).
Proof.
  intros H Hl0 Hl. assert (Hw := H). pose proof (available_val cb H) as Hav.
  pose proof (in_use_val cb H) as Hiu. pose proof (in_use_bounds cb H) as Hb.
  unfold cb_wf, cb_max in H. unfold circ_buf_alloc.
  replace (circ_buf_available cb <? len) with false by lia.
  assert (Hd : u32 (cb_size cb - cb_stop cb) = cb_size cb - cb_stop cb).
  { apply u32_small; unfold is_u32; lia. }
  rewrite Hd.
  destruct (len <=? cb_size cb - cb_stop cb) eqn:E.
  - assert (Hs : u32 (cb_stop cb + len) = cb_stop cb + len).
    { apply u32_small; unfold is_u32; lia. }
    rewrite Hs.
    do 2 eexists; split; [reflexivity|].
    assert (Hw' : cb_wf (set_stop cb (cb_stop cb + len))).
    { unfold cb_wf, cb_max, set_stop; cbn [cb_size cb_start cb_stop].
      destruct (cb_start cb <=? cb_stop cb) eqn:E2; lia. }
    split; [exact Hw'|]. unfold set_stop at 1 2 3; cbn [cb_size cb_start cb_mem].
    repeat (split; [reflexivity|]).
    split.
    { rewrite in_use_val by exact Hw'. rewrite Hiu. unfold set_stop; cbn [cb_size cb_start cb_stop].
      destruct (cb_start cb <=? cb_stop cb) eqn:E2;
      destruct (cb_start cb <=? cb_stop cb + len) eqn:E3; lia. }
    cbn [seg1 seg1_len seg2 seg2_len]. split; [reflexivity|].
    left. unfold set_stop; cbn [cb_stop]. repeat split; try reflexivity; lia.
  - set (l1 := cb_size cb - cb_stop cb) in *.
    assert (Hs : u32 (len - l1) = len - l1).
    { apply u32_small; unfold is_u32; lia. }
    rewrite Hs.
    do 2 eexists; split; [reflexivity|].
    destruct (cb_start cb <=? cb_stop cb) eqn:E2; [|exfalso; lia].
    assert (Hw' : cb_wf (set_stop cb (len - l1))).
    { unfold cb_wf, cb_max, set_stop; cbn [cb_size cb_start cb_stop]. lia. }
    split; [exact Hw'|]. unfold set_stop at 1 2 3; cbn [cb_size cb_start cb_mem].
    repeat (split; [reflexivity|]).
    split.
    { rewrite in_use_val by exact Hw'. rewrite Hiu. unfold set_stop; cbn [cb_size cb_start cb_stop].
      destruct (cb_start cb <=? len - l1) eqn:E3; lia. }
    cbn [seg1 seg1_len seg2 seg2_len]. split; [reflexivity|].
    right. unfold set_stop; cbn [cb_stop]. repeat split; try reflexivity; lia.
Qed.

(** Position of the i-th queued byte never collides with the allocated area. *)
Lemma old_pos cb i : cb_wf cb -> 0 <= i < circ_buf_in_use cb ->
  let p := (cb_start cb + i) mod cb_size cb in
  0 <= p < cb_size cb /\
  (if cb_start cb <=? cb_stop cb then cb_start cb <= p < cb_stop cb
   else p < cb_stop cb \/ cb_start cb <= p).
Proof.
  intros H Hi. rewrite in_use_val in Hi by assumption. unfold cb_wf in H. intros p.
  assert (Hp : 0 <= p < cb_size cb) by (apply Z.mod_pos_bound; lia).
  split; [exact Hp|].
  destruct (cb_start cb <=? cb_stop cb) eqn:E.
  - unfold p. rewrite Z.mod_small by lia. lia.
  - unfold p. destruct (Z_lt_ge_dec (cb_start cb + i) (cb_size cb)) as [L|G].
    + rewrite Z.mod_small by lia. lia.
    + replace (cb_start cb + i) with ((cb_start cb + i - cb_size cb) + 1 * cb_size cb) by lia.
      rewrite Z.mod_add by lia. rewrite Z.mod_small by lia. lia.
Qed.

(** Main refinement lemma: alloc + scatter store appends. *)
Lemma alloc_store cb bs len : cb_wf cb -> len = zlen bs -> len <= circ_buf_available cb ->
  exists cb1 s cb2, circ_buf_alloc cb len = inr (cb1, s) /\
    segs_store cb1 s bs = Ok cb2 /\ cb_wf cb2 /\
    cb_size cb2 = cb_size cb /\ cb_start cb2 = cb_start cb /\ cb_stop cb2 = cb_stop cb1 /\
    contents cb2 = contents cb ++ bs.
Proof.
  intros H Hlen Hl.
  pose proof (zlen_nonneg bs) as Hnn.
  destruct (alloc_cases cb len H ltac:(lia) Hl)
    as (cb1 & s & Ha & Hw1 & Hsz & Hst & Hmem & Hiu & Hs1 & Hcase).
  pose proof (in_use_bounds cb H) as Hb. pose proof (available_val cb H) as Hav.
  assert (Hsz1 : 1 <= cb_size cb) by (unfold cb_wf in H; lia).
  (* the store *)
  assert (Hstore : exists cb2, segs_store cb1 s bs = Ok cb2 /\
     cb_size cb2 = cb_size cb1 /\ cb_start cb2 = cb_start cb1 /\ cb_stop cb2 = cb_stop cb1 /\
     (forall i, 0 <= i < circ_buf_in_use cb ->
        cb_mem cb2 ((cb_start cb + i) mod cb_size cb) = cb_mem cb ((cb_start cb + i) mod cb_size cb)) /\
     ring_slice (cb_mem cb2) (cb_size cb) (cb_stop cb) (length bs) = bs).
  { unfold segs_store. rewrite Hs1. cbn [seg_store].
    destruct Hcase as [(L1 & S2 & L2 & Hfit & Hstop)|(L1 & S2 & L2 & Hpos & Hlt & Hstop & Hord)].
    - rewrite L1, S2. rewrite ztake_all by lia.
      destruct (slice_of_store cb1 (cb_stop cb) bs) as (cb2 & E2 & Z1 & Z2 & Z3 & Hfr & Hsl).
      { unfold cb_wf in H; lia. } { lia. }
      rewrite E2. cbn [bind seg_store]. rewrite zdrop_all by lia.
      exists cb2. repeat (split; [first [reflexivity|assumption]|]).
      split; [|rewrite <- Hsz; exact Hsl].
      intros i Hi. pose proof (old_pos cb i H Hi) as [Hp Hq].
      rewrite Hfr, Hmem; [reflexivity|].
      set (p := (cb_start cb + i) mod cb_size cb) in *.
      rewrite available_val in Hl by assumption. rewrite in_use_val in * by assumption.
      destruct (cb_start cb <=? cb_stop cb) eqn:E; lia.
    - rewrite S2.
      destruct (slice_of_store cb1 (cb_stop cb) (ztake (seg1_len s) bs))
        as (cbm & E2 & Z1 & Z2 & Z3 & Hfr & Hsl).
      { unfold cb_wf in H; lia. }
      { rewrite zlen_ztake; unfold cb_wf in H; lia. }
      rewrite E2. cbn [bind seg_store].
      destruct (slice_of_store cbm 0 (zdrop (seg1_len s) bs))
        as (cb2 & E3 & Y1 & Y2 & Y3 & Hfr2 & Hsl2).
      { lia. }
      { rewrite zlen_zdrop; unfold cb_wf in H; lia. }
      exists cb2. split; [exact E3|].
      repeat (split; [congruence|]).
      split.
      + intros i Hi. pose proof (old_pos cb i H Hi) as [Hp Hq].
        set (p := (cb_start cb + i) mod cb_size cb) in *.
        replace (cb_start cb <=? cb_stop cb) with true in Hq by lia.
        rewrite Hfr2, Hfr, Hmem; [reflexivity| |].
        * rewrite zlen_ztake; unfold cb_wf in H; lia.
        * rewrite zlen_zdrop; unfold cb_wf in H; lia.
      + assert (Hn : length bs = (length (ztake (seg1_len s) bs) + length (zdrop (seg1_len s) bs))%nat).
        { rewrite <- app_length, ztake_zdrop. reflexivity. }
        rewrite Hn, ring_slice_app.
        assert (Hzl : Z.of_nat (length (ztake (seg1_len s) bs)) = seg1_len s).
        { change (zlen (ztake (seg1_len s) bs) = seg1_len s). apply zlen_ztake.
          unfold cb_wf in H; lia. }
        transitivity (ztake (seg1_len s) bs ++ zdrop (seg1_len s) bs); [|apply ztake_zdrop].
        f_equal.
        * rewrite Hsz in Hsl. etransitivity; [|exact Hsl]. apply ring_slice_ext.
          intros i Hi. rewrite Hfr2; [reflexivity|].
          right. rewrite Z.mod_small by (unfold cb_wf in H; lia).
          rewrite zlen_zdrop; unfold cb_wf in H; lia.
        * rewrite Z1, Hsz in Hsl2. etransitivity; [|exact Hsl2]. rewrite Hzl, L1.
          replace (cb_stop cb + (cb_size cb - cb_stop cb)) with (0 + 1 * cb_size cb) by lia.
          rewrite <- (ring_slice_mod _ _ (0 + 1 * cb_size cb)) by lia.
          rewrite Z.mod_add by lia. rewrite Z.mod_0_l by lia. reflexivity. }
  destruct Hstore as (cb2 & E2 & Z1 & Z2 & Z3 & Hold & Hnew).
  exists cb1, s, cb2. split; [exact Ha|]. split; [exact E2|].
  assert (Hw2 : cb_wf cb2).
  { unfold cb_wf in *. rewrite Z1, Z2, Z3. assumption. }
  split; [exact Hw2|]. repeat (split; [congruence|]).
  unfold contents.
  assert (Hiu2 : circ_buf_in_use cb2 = circ_buf_in_use cb + len).
  { rewrite <- Hiu. unfold circ_buf_in_use. rewrite Z1, Z2, Z3. reflexivity. }
  rewrite Hiu2, Z1, Z2, Hsz, Hst.
  replace (Z.to_nat (circ_buf_in_use cb + len))
    with (Z.to_nat (circ_buf_in_use cb) + length bs)%nat by (unfold zlen in *; lia).
  rewrite ring_slice_app. f_equal.
  - apply ring_slice_ext. intros i Hi. apply Hold. lia.
  - etransitivity; [|exact Hnew].
    rewrite <- (ring_slice_mod _ _ (cb_start cb + _)) by lia.
    rewrite Z2Nat.id by lia. rewrite stop_is_end by assumption.
    apply ring_slice_mod. lia.
Qed.

Lemma alloc_fail cb len : circ_buf_available cb < len -> circ_buf_alloc cb len = inl ENOMEM.
Proof.
  intros H. unfold circ_buf_alloc. replace (circ_buf_available cb <? len) with true by lia. reflexivity.
Qed.

Lemma ring_append_spec cb bs : cb_wf cb ->
  (zlen bs <= circ_buf_available cb ->
     exists cb', ring_append cb bs = Ok (0, cb') /\ cb_wf cb' /\ cb_size cb' = cb_size cb /\
       contents cb' = contents cb ++ bs) /\
  (circ_buf_available cb < zlen bs -> ring_append cb bs = Ok (ENOMEM, cb)).
Proof.
  intros H; split; intros Hl.
  - destruct (alloc_store cb bs (zlen bs) H eq_refl Hl)
      as (cb1 & s & cb2 & Ha & Hs & Hw & Hz & _ & _ & Hc).
    exists cb2. unfold ring_append. rewrite Ha, Hs. auto.
  - unfold ring_append. rewrite alloc_fail by assumption. reflexivity.
Qed.

(** alloc on its own: the queued bytes are kept, [len] arbitrary bytes are appended. *)
Lemma alloc_contents cb len cb' s : cb_wf cb -> 0 <= len ->
  circ_buf_alloc cb len = inr (cb', s) ->
  len <= circ_buf_available cb /\ cb_wf cb' /\
  exists junk, zlen junk = len /\ contents cb' = contents cb ++ junk.
Proof.
  intros H Hl0 Ha.
  assert (Hl : len <= circ_buf_available cb).
  { unfold circ_buf_alloc in Ha. destruct (circ_buf_available cb <? len) eqn:E; [discriminate|lia]. }
  destruct (alloc_cases cb len H Hl0 Hl)
    as (cb1 & s1 & Ha1 & Hw1 & Hsz & Hst & Hmem & Hiu & Hs1 & Hcase).
  rewrite Ha in Ha1. inversion Ha1; subst cb1 s1.
  split; [exact Hl|]. split; [exact Hw1|].
  pose proof (in_use_bounds cb H) as Hb.
  exists (ring_slice (cb_mem cb) (cb_size cb)
           (cb_start cb + Z.of_nat (Z.to_nat (circ_buf_in_use cb))) (Z.to_nat len)).
  split. { unfold zlen. rewrite ring_slice_len. lia. }
  unfold contents. rewrite Hiu, Hsz, Hst, Hmem.
  rewrite Z2Nat.inj_add by lia. apply ring_slice_app.
Qed.

Lemma firstn_slice mem size a n k : (k <= n)%nat ->
  firstn k (ring_slice mem size a n) = ring_slice mem size a k.
Proof.
  intros H. replace n with (k + (n - k))%nat by lia. rewrite ring_slice_app.
  rewrite firstn_app, ring_slice_len, Nat.sub_diag, firstn_all2 by (rewrite ring_slice_len; lia).
  simpl. apply app_nil_r.
Qed.
Lemma skipn_slice mem size a n k : (k <= n)%nat ->
  skipn k (ring_slice mem size a n) = ring_slice mem size (a + Z.of_nat k) (n - k).
Proof.
  intros H. replace n with (k + (n - k))%nat at 1 by lia. rewrite ring_slice_app.
  rewrite skipn_app, ring_slice_len, Nat.sub_diag, skipn_all2 by (rewrite ring_slice_len; lia).
  reflexivity.
Qed.

Lemma free_spec cb n : cb_wf cb -> is_u32 n ->
  exists cb', circ_buf_free cb n = Ok (cb', zlen (contents cb')) /\ cb_wf cb' /\
    cb_size cb' = cb_size cb /\ contents cb' = zdrop n (contents cb).
Proof.
  intros H Hn. unfold is_u32 in Hn.
  pose proof (in_use_bounds cb H) as Hb. pose proof (contents_len cb H) as Hcl.
  unfold circ_buf_free.
  destruct (n =? 0) eqn:E0.
  { exists cb. split. { rewrite contents_len by assumption. reflexivity. }
    split; [assumption|]. split; [reflexivity|]. rewrite zdrop_0 by lia. reflexivity. }
  destruct (circ_buf_in_use cb <=? n) eqn:E1.
  { assert (Hc0 : contents (mkCB (cb_size cb) 0 0 (cb_mem cb)) = []).
    { apply zlen_zero. rewrite contents_len. { reflexivity. }
      unfold cb_wf in *; cbn [cb_size cb_start cb_stop]; lia. }
    eexists; split; [rewrite Hc0; reflexivity|].
    split. { unfold cb_wf in *; cbn [cb_size cb_start cb_stop]; lia. }
    split; [reflexivity|]. rewrite zdrop_all by lia. exact Hc0. }
  assert (Hs : u32 (cb_start cb + n) = cb_start cb + n).
  { apply u32_small. unfold cb_wf, cb_max, is_u32 in *. lia. }
  rewrite Hs.
  assert (Hs0 : (cb_size cb =? 0) = false) by (unfold cb_wf in H; lia).
  rewrite Hs0.
  set (st' := (cb_start cb + n) mod cb_size cb).
  assert (Hiu : cb_wf (set_start cb st') /\ circ_buf_in_use (set_start cb st') = circ_buf_in_use cb - n).
  { assert (Hst' : st' = cb_start cb + n \/ st' = cb_start cb + n - cb_size cb /\ cb_size cb <= cb_start cb + n).
    { unfold st'. destruct (Z_lt_ge_dec (cb_start cb + n) (cb_size cb)) as [L|G].
      - left; apply Z.mod_small. unfold cb_wf in H. lia.
      - right. split; [|lia].
        replace (cb_start cb + n) with ((cb_start cb + n - cb_size cb) + 1 * cb_size cb) at 1 by lia.
        rewrite Z.mod_add by (unfold cb_wf in H; lia). apply Z.mod_small. unfold cb_wf in H. lia. }
    assert (Hr : 0 <= st' < cb_size cb) by (apply Z.mod_pos_bound; unfold cb_wf in H; lia).
    pose proof (in_use_val cb H) as Hv. clearbody st'.
    assert (Hw : cb_wf (set_start cb st')).
    { unfold cb_wf, cb_max, set_start in *; cbn [cb_size cb_start cb_stop].
      destruct (cb_start cb <=? cb_stop cb) eqn:E; lia. }
    split; [exact Hw|]. rewrite in_use_val by exact Hw.
    unfold set_start; cbn [cb_size cb_start cb_stop]. unfold cb_wf in H.
    destruct (cb_start cb <=? cb_stop cb) eqn:E; destruct (st' <=? cb_stop cb) eqn:E2; lia. }
  destruct Hiu as [Hw Hiu].
  eexists; split.
  { do 2 f_equal. rewrite contents_len by exact Hw. rewrite Hiu. apply u32_small.
    unfold is_u32, cb_wf, cb_max in *. lia. }
  split; [exact Hw|]. split; [reflexivity|].
  unfold contents, zdrop. rewrite skipn_slice by lia.
  rewrite Hiu. unfold set_start; cbn [cb_size cb_start cb_mem].
  unfold st'. rewrite ring_slice_mod by (unfold cb_wf in H; lia).
  rewrite Z2Nat.id by lia. f_equal. lia.
Qed.

(** Bytes [o, o+n) of the queue. *)
Definition zslice {A} (o n : Z) (l : list A) : list A := ztake n (zdrop o l).

Lemma contents_slice cb o n : cb_wf cb -> 0 <= o -> 0 <= n -> o + n <= circ_buf_in_use cb ->
  zslice o n (contents cb) = ring_slice (cb_mem cb) (cb_size cb) (cb_start cb + o) (Z.to_nat n).
Proof.
  intros H Ho Hn Hs. unfold zslice, contents, ztake, zdrop.
  rewrite skipn_slice by lia. rewrite firstn_slice by lia.
  f_equal. lia.
Qed.

(** The wrapped read that picks the second segment from the wrong place. *)
Definition read_offset_bad (cb : cbuf) (o n : Z) : Prop :=
  let len := Z.min n (circ_buf_in_use cb - o) in
  let si := (cb_start cb + o) mod cb_size cb in
  cb_stop cb < si /\ cb_size cb - si < len /\ cb_size cb - si < o.

Lemma read_offset_ok cb o n : cb_wf cb -> is_u32 n -> 0 <= o <= circ_buf_in_use cb ->
  ~ read_offset_bad cb o n ->
  circ_buf_read_offset cb o n = Ok (0, zslice o (Z.min n (circ_buf_in_use cb - o)) (contents cb)).
Proof.
  intros H Hn Ho Hbad. unfold is_u32 in Hn. unfold read_offset_bad in Hbad. cbv zeta in Hbad.
  pose proof (in_use_bounds cb H) as Hb.
  unfold circ_buf_read_offset.
  replace (circ_buf_in_use cb <? o) with false by lia.
  rewrite (u32_small (circ_buf_in_use cb - o)) by (unfold is_u32, cb_wf, cb_max in *; lia).
  set (len := Z.min n (circ_buf_in_use cb - o)) in *.
  replace (cb_size cb =? 0) with false by (unfold cb_wf in H; lia).
  rewrite (u32_small (cb_start cb + o)) by (unfold is_u32, cb_wf, cb_max in *; lia).
  rewrite contents_slice by (try assumption; lia).
  rewrite <- (ring_slice_mod _ _ (cb_start cb + o)) by (unfold cb_wf in H; lia).
  set (si := (cb_start cb + o) mod cb_size cb) in *.
  assert (Hsi : si = cb_start cb + o \/ si = cb_start cb + o - cb_size cb /\ cb_size cb <= cb_start cb + o).
  { unfold si. destruct (Z_lt_ge_dec (cb_start cb + o) (cb_size cb)) as [L|G].
    - left; apply Z.mod_small. unfold cb_wf in H. lia.
    - right. split; [|lia].
      replace (cb_start cb + o) with ((cb_start cb + o - cb_size cb) + 1 * cb_size cb) at 1 by lia.
      rewrite Z.mod_add by (unfold cb_wf in H; lia). apply Z.mod_small. unfold cb_wf in H. lia. }
  assert (Hr : 0 <= si < cb_size cb) by (apply Z.mod_pos_bound; unfold cb_wf in H; lia).
  assert (Hiu := in_use_val cb H).
  clearbody si.
  destruct (si <=? cb_stop cb) eqn:E1.
  - rewrite load_slice; [reflexivity| | |].
    + lia.
    + lia.
    + unfold cb_wf in H. destruct (cb_start cb <=? cb_stop cb) eqn:E; lia.
  - assert (Hlen0 : 0 <= len) by lia.
    rewrite (u32_small (cb_size cb - si)) by (unfold is_u32, cb_wf, cb_max in *; lia).
    rewrite load_slice by lia. cbn [bind].
    destruct (len =? Z.min (cb_size cb - si) len) eqn:E2.
    + replace (Z.min (cb_size cb - si) len) with len by lia. reflexivity.
    + set (sl := Z.min (cb_size cb - si) len) in *.
      rewrite (u32_small (len - sl)) by (unfold is_u32, cb_wf, cb_max in *; lia).
      replace (sl <? o) with false by lia.
      assert (Hle : len - sl <= cb_stop cb).
      { unfold cb_wf in H. destruct (cb_start cb <=? cb_stop cb) eqn:E; lia. }
      rewrite Z.min_l by lia.
      rewrite load_slice by (unfold cb_wf in H; lia). cbn [bind].
      replace (Z.to_nat len) with (Z.to_nat sl + Z.to_nat (len - sl))%nat by lia.
      rewrite ring_slice_app.
      replace (si + Z.of_nat (Z.to_nat sl)) with (0 + 1 * cb_size cb) by lia.
      rewrite <- (ring_slice_mod _ _ (0 + 1 * cb_size cb)) by (unfold cb_wf in H; lia).
      rewrite Z.mod_add by (unfold cb_wf in H; lia). rewrite Z.mod_0_l by (unfold cb_wf in H; lia).
      reflexivity.
Qed.

Lemma read_offset_bad_out cb o n : cb_wf cb -> is_u32 n -> 0 <= o <= circ_buf_in_use cb ->
  read_offset_bad cb o n ->
  let len := Z.min n (circ_buf_in_use cb - o) in
  let sl := cb_size cb - (cb_start cb + o) mod cb_size cb in
  circ_buf_read_offset cb o n =
    Ok (0, zslice o sl (contents cb) ++
           ring_slice (cb_mem cb) (cb_size cb) (o - sl) (Z.to_nat (len - sl))).
Proof.
  intros H Hn Ho Hbad. unfold is_u32 in Hn. unfold read_offset_bad in Hbad. cbv zeta in Hbad.
  pose proof (in_use_bounds cb H) as Hb. intros len sl.
  unfold circ_buf_read_offset.
  replace (circ_buf_in_use cb <? o) with false by lia.
  rewrite (u32_small (circ_buf_in_use cb - o)) by (unfold is_u32, cb_wf, cb_max in *; lia).
  fold len. fold len in Hbad.
  replace (cb_size cb =? 0) with false by (unfold cb_wf in H; lia).
  rewrite (u32_small (cb_start cb + o)) by (unfold is_u32, cb_wf, cb_max in *; lia).
  assert (Hr : 0 <= (cb_start cb + o) mod cb_size cb < cb_size cb)
    by (apply Z.mod_pos_bound; unfold cb_wf in H; lia).
  rewrite contents_slice by (try assumption; lia).
  rewrite <- (ring_slice_mod _ _ (cb_start cb + o)) by (unfold cb_wf in H; lia).
  assert (Hsi : (cb_start cb + o) mod cb_size cb = cb_start cb + o \/ cb_size cb <= cb_start cb + o).
  { destruct (Z_lt_ge_dec (cb_start cb + o) (cb_size cb)) as [L|G]; [left|right; lia].
    apply Z.mod_small. unfold cb_wf in H. lia. }
  set (si := (cb_start cb + o) mod cb_size cb) in *.
  assert (Hiu := in_use_val cb H). clearbody si.
  replace (si <=? cb_stop cb) with false by lia.
  rewrite (u32_small (cb_size cb - si)) by (unfold is_u32, cb_wf, cb_max in *; lia).
  rewrite Z.min_l by lia. fold sl.
  rewrite load_slice by lia. cbn [bind].
  replace (len =? sl) with false by lia.
  rewrite (u32_small (len - sl)) by (unfold is_u32, cb_wf, cb_max in *; lia).
  rewrite (u32_small (o - sl)) by (unfold is_u32, cb_wf, cb_max in *; lia).
  replace (sl <? o) with true by lia.
  assert (Hle : len - sl <= cb_stop cb /\ o - sl + (len - sl) <= cb_size cb).
  { unfold cb_wf in H. destruct (cb_start cb <=? cb_stop cb) eqn:E; lia. }
  rewrite Z.min_l by lia.
  rewrite load_slice by lia. reflexivity.
Qed.

Lemma read_spec cb n : cb_wf cb -> is_u32 n ->
  circ_buf_read cb n = Ok (0, ztake n (contents cb)).
Proof.
  intros H Hn. unfold circ_buf_read. pose proof (in_use_bounds cb H) as Hb.
  rewrite read_offset_ok; try assumption; try lia.
  - do 2 f_equal. unfold zslice. rewrite zdrop_0 by lia. rewrite Z.sub_0_r.
    pose proof (contents_len cb H) as Hcl.
    destruct (Z_le_gt_dec n (circ_buf_in_use cb)).
    + rewrite Z.min_l by lia. reflexivity.
    + rewrite Z.min_r by lia. rewrite !ztake_all by lia. reflexivity.
  - unfold read_offset_bad. intros (A & B & C).
    assert (0 <= (cb_start cb + 0) mod cb_size cb < cb_size cb)
      by (apply Z.mod_pos_bound; unfold cb_wf in H; lia). lia.
Qed.

Lemma read_segment_spec cb n : cb_wf cb -> 0 <= n ->
  segs_load cb (circ_buf_read_segment cb n) = Ok (ztake n (contents cb)) /\
  seg1_len (circ_buf_read_segment cb n) + seg2_len (circ_buf_read_segment cb n)
    = Z.min n (circ_buf_in_use cb) /\
  0 <= seg2_len (circ_buf_read_segment cb n) /\
  (seg1_len (circ_buf_read_segment cb n) = 0 -> ztake n (contents cb) = []).
Proof.
  intros H Hn. pose proof (in_use_bounds cb H) as Hb. pose proof (in_use_val cb H) as Hiu.
  pose proof (contents_len cb H) as Hcl.
  unfold circ_buf_read_segment.
  destruct (cb_stop cb =? cb_start cb) eqn:E.
  { assert (Hc : contents cb = []).
    { apply zlen_zero. rewrite Hcl, Hiu. unfold cb_wf in H.
      destruct (cb_start cb <=? cb_stop cb) eqn:E2; lia. }
    unfold segs_load; cbn. rewrite Hc. unfold ztake. rewrite firstn_nil.
    repeat split; try reflexivity; try lia.
    rewrite Hiu. unfold cb_wf in H. destruct (cb_start cb <=? cb_stop cb) eqn:E2; lia. }
  rewrite (u32_small (cb_size cb - cb_start cb)) by (unfold is_u32, cb_wf, cb_max in *; lia).
  rewrite (Z.min_comm (circ_buf_in_use cb) n).
  set (len := Z.min n (circ_buf_in_use cb)) in *.
  assert (Ht : ztake n (contents cb) = zslice 0 len (contents cb)).
  { unfold zslice. rewrite zdrop_0 by lia. unfold len.
    destruct (Z_le_gt_dec n (circ_buf_in_use cb)).
    - rewrite Z.min_l by lia. reflexivity.
    - rewrite Z.min_r by lia. rewrite !ztake_all by lia. reflexivity. }
  rewrite Ht, contents_slice by (try assumption; lia). rewrite Z.add_0_r.
  destruct (len <=? cb_size cb - cb_start cb) eqn:E2.
  - rewrite Z.min_l by lia. unfold segs_load; cbn [seg1 seg1_len seg2 seg2_len seg_load].
    rewrite load_slice by (unfold cb_wf in H; lia). cbn [bind]. rewrite Z.eqb_refl. cbn [bind].
    rewrite app_nil_r.
    repeat split; try reflexivity; try lia.
    intros Hz. rewrite Hz. reflexivity.
  - rewrite Z.min_r by lia.
    rewrite u32_small by (unfold is_u32, cb_wf, cb_max in *; lia).
    unfold segs_load; cbn [seg1 seg1_len seg2 seg2_len seg_load].
    rewrite load_slice by (unfold cb_wf in H; lia). cbn [bind].
    rewrite load_slice by (unfold cb_wf in H; lia). cbn [bind].
    repeat split; try lia.
    + f_equal.
      replace (Z.to_nat len) with
        (Z.to_nat (cb_size cb - cb_start cb) + Z.to_nat (len - (cb_size cb - cb_start cb)))%nat
        by (unfold cb_wf in H; lia).
      rewrite ring_slice_app. f_equal.
      replace (cb_start cb + Z.of_nat (Z.to_nat (cb_size cb - cb_start cb)))
        with (0 + 1 * cb_size cb) by (unfold cb_wf in H; lia).
      rewrite <- (ring_slice_mod _ _ (0 + 1 * cb_size cb)) by (unfold cb_wf in H; lia).
      rewrite Z.mod_add by (unfold cb_wf in H; lia). rewrite Z.mod_0_l by (unfold cb_wf in H; lia).
      reflexivity.
    + intros Hz. unfold cb_wf in H. lia.
Qed.

(** trim: the failing states are exactly these. *)
Definition trim_bad (cb : cbuf) (n : Z) : Prop :=
  cb_stop cb < cb_start cb /\ n < cb_stop cb /\ cb_start cb + n < cb_size cb.

Lemma trim_noop cb n : circ_buf_in_use cb <= n -> circ_buf_trim cb n = Ok cb.
Proof.
  intros H. unfold circ_buf_trim. replace (circ_buf_in_use cb <=? n) with true by lia. reflexivity.
Qed.

Lemma trim_good cb n : cb_wf cb -> 0 <= n < circ_buf_in_use cb -> ~ trim_bad cb n ->
  exists cb', circ_buf_trim cb n = Ok cb' /\ cb_wf cb' /\ cb_size cb' = cb_size cb /\
    cb_start cb' = cb_start cb /\ cb_mem cb' = cb_mem cb /\
    contents cb' = ztake n (contents cb).
Proof.
  intros H Hn Hbad. unfold trim_bad in Hbad.
  pose proof (in_use_bounds cb H) as Hb. pose proof (in_use_val cb H) as Hiu.
  unfold circ_buf_trim. replace (circ_buf_in_use cb <=? n) with false by lia.
  assert (K : forall s, (s = cb_start cb + n /\ s <= cb_size cb \/
                         s = cb_start cb + n - cb_size cb /\ 0 <= s) ->
    (cb_wf (set_stop cb s) /\ contents (set_stop cb s) = ztake n (contents cb))).
  { intros s Hs.
    assert (Hw : cb_wf (set_stop cb s)).
    { unfold cb_wf, cb_max, set_stop in *; cbn [cb_size cb_start cb_stop]. lia. }
    assert (Hu : circ_buf_in_use (set_stop cb s) = n).
    { rewrite in_use_val by exact Hw. unfold set_stop; cbn [cb_size cb_start cb_stop].
      unfold cb_wf in H. destruct (cb_start cb <=? s) eqn:E; lia. }
    split; [exact Hw|].
    unfold contents, ztake. rewrite firstn_slice by lia. rewrite Hu. reflexivity. }
  destruct (n <? cb_stop cb) eqn:E.
  - rewrite (u32_small (circ_buf_in_use cb - n)) by (unfold is_u32, cb_wf, cb_max in *; lia).
    rewrite u32_small.
    2:{ unfold is_u32, cb_wf, cb_max in *. destruct (cb_start cb <=? cb_stop cb) eqn:E2; lia. }
    destruct (K (cb_stop cb - (circ_buf_in_use cb - n))) as [Hw Hc].
    { unfold cb_wf in H. destruct (cb_start cb <=? cb_stop cb) eqn:E2; lia. }
    eexists; split; [reflexivity|]. split; [exact Hw|]. repeat (split; [reflexivity|]). exact Hc.
  - replace (cb_size cb =? 0) with false by (unfold cb_wf in H; lia).
    rewrite (u32_small (cb_start cb + n)) by (unfold is_u32, cb_wf, cb_max in *; lia).
    destruct (K ((cb_start cb + n) mod cb_size cb)) as [Hw Hc].
    { destruct (Z_lt_ge_dec (cb_start cb + n) (cb_size cb)) as [L|G].
      - left. rewrite Z.mod_small by (unfold cb_wf in H; lia). lia.
      - right. replace (cb_start cb + n) with ((cb_start cb + n - cb_size cb) + 1 * cb_size cb) at 1 3 by lia.
        rewrite Z.mod_add by (unfold cb_wf in H; lia).
        rewrite Z.mod_small by (unfold cb_wf in H; lia). lia. }
    eexists; split; [reflexivity|]. split; [exact Hw|]. repeat (split; [reflexivity|]). exact Hc.
Qed.

(** In the failing states the ring afterwards claims 2^32 - (size - n) bytes in use. *)
Lemma trim_bad_out cb n : cb_wf cb -> 0 <= n < circ_buf_in_use cb -> trim_bad cb n ->
  exists cb', circ_buf_trim cb n = Ok cb' /\ ~ cb_wf cb' /\
    circ_buf_in_use cb' = 4294967296 - (cb_size cb - n).
Proof.
  intros H Hn Hbad. unfold trim_bad in Hbad. pose proof (in_use_val cb H) as Hiu.
  pose proof (in_use_bounds cb H) as Hb.
  unfold circ_buf_trim. replace (circ_buf_in_use cb <=? n) with false by lia.
  replace (n <? cb_stop cb) with true by lia.
  rewrite (u32_small (circ_buf_in_use cb - n)) by (unfold is_u32, cb_wf, cb_max in *; lia).
  replace (cb_start cb <=? cb_stop cb) with false in Hiu by lia.
  assert (Hs : u32 (cb_stop cb - (circ_buf_in_use cb - n)) =
               4294967296 + cb_start cb + n - cb_size cb).
  { unfold u32. rewrite Hiu.
    replace (cb_stop cb - (cb_size cb - cb_start cb + cb_stop cb - n))
      with ((4294967296 + cb_start cb + n - cb_size cb) + (-1) * 4294967296) by lia.
    rewrite Z.mod_add by lia. apply Z.mod_small. unfold cb_wf, cb_max in H. lia. }
  rewrite Hs. eexists; split; [reflexivity|]. split.
  - unfold cb_wf, cb_max, set_stop in *; cbn [cb_size cb_start cb_stop]. lia.
  - unfold circ_buf_in_use, set_stop; cbn [cb_size cb_start cb_stop].
    replace (cb_start cb <=? 4294967296 + cb_start cb + n - cb_size cb) with true
      by (unfold cb_wf, cb_max in H; lia).
    rewrite u32_small; unfold is_u32, cb_wf, cb_max in *; lia.
Qed.

Lemma init_wf size mem : 1 <= size <= cb_max ->
  cb_wf (circ_buf_init size mem) /\ contents (circ_buf_init size mem) = [] /\
  cb_size (circ_buf_init size mem) = size.
Proof.
  intros H. assert (Hu : u32 size = size) by (apply u32_small; unfold is_u32, cb_max in *; lia).
  unfold circ_buf_init. rewrite Hu.
  assert (Hw : cb_wf (mkCB size 0 0 mem)) by (unfold cb_wf; cbn; unfold cb_max in *; lia).
  split; [exact Hw|]. split; [|reflexivity].
  apply zlen_zero. rewrite contents_len by exact Hw. reflexivity.
Qed.
