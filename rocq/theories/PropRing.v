(** PropRing.v — properties C01..C06 (circular_buffer.c). *)
From Verif Require Import Base CircBuf CircBufProofs SpecRing RingRefine.

(** A concrete wrapped ring of 10 bytes reached through the API, used by the
    non-vacuity examples: bytes 7,8,9,10,11,12,13 queued, start 6, stop 3. *)
Definition wrapped_ops : list rop :=
  [RAppend [1;2;3;4;5;6;7;8]; RFree 6; RAppend [9;10;11;12;13]].
Definition wrapped : cbuf :=
  match ring_run (circ_buf_init 10 (fun _ => 0)) wrapped_ops with
  | Ok (cb, _) => cb
  | _ => circ_buf_init 1 (fun _ => 0)
  end.
Example wrapped_is : cb_wf wrapped /\ contents wrapped = [7;8;9;10;11;12;13] /\
  cb_start wrapped = 6 /\ cb_stop wrapped = 3.
Proof.
  vm_compute. repeat split; try reflexivity; discriminate.
Qed.

(** C01: in_use and available partition size-1 in every state reachable by any calls. *)
Theorem c01_ring_accounting :
  forall size mem ops, 1 <= size <= cb_max -> Forall rop_ok ops ->
  exists cb xs, ring_run (circ_buf_init size mem) ops = Ok (cb, xs) /\
    circ_buf_in_use cb + circ_buf_available cb = size - 1 /\
    0 <= circ_buf_in_use cb <= size - 1.
Proof.
  intros size mem ops Hs Hok. destruct (init_wf size mem Hs) as (Hw & Hc & Hz).
  destruct (ring_run_refines ops _ Hw Hok) as (cb & xs & Hr & Hw' & Hz' & _).
  exists cb, xs. split; [exact Hr|].
  pose proof (available_val cb Hw'). pose proof (in_use_bounds cb Hw'). lia.
Qed.

Theorem c01_alloc_accounting :
  forall cb len, cb_wf cb -> 0 <= len ->
  (circ_buf_available cb < len -> circ_buf_alloc cb len = inl ENOMEM) /\
  (len <= circ_buf_available cb ->
     exists cb' s, circ_buf_alloc cb len = inr (cb', s) /\ cb_wf cb' /\
       circ_buf_in_use cb' = circ_buf_in_use cb + len /\
       circ_buf_available cb' = circ_buf_available cb - len).
Proof.
  intros cb len H Hl. split. { apply alloc_fail. }
  intros Ha. destruct (alloc_cases cb len H Hl Ha) as (cb' & s & E & Hw & Hz & _ & _ & Hu & _).
  exists cb', s. repeat (split; [assumption|]).
  rewrite !available_val by assumption. lia.
Qed.

Theorem c01_free_accounting :
  forall cb n, cb_wf cb -> is_u32 n ->
  exists cb', circ_buf_free cb n = Ok (cb', circ_buf_in_use cb') /\ cb_wf cb' /\
    circ_buf_in_use cb' = circ_buf_in_use cb - Z.min n (circ_buf_in_use cb).
Proof.
  intros cb n H Hn. destruct (free_spec cb n H Hn) as (cb' & E & Hw & Hz & Hc).
  exists cb'. rewrite contents_len in E by assumption. split; [exact E|]. split; [exact Hw|].
  rewrite <- !contents_len by assumption. rewrite Hc. unfold is_u32 in Hn.
  unfold zdrop, zlen. rewrite skipn_length. lia.
Qed.

(** C02: any history of calls on a fresh ring behaves like the bounded FIFO queue. *)
Theorem c02_ring_is_fifo :
  forall size mem ops, 1 <= size <= cb_max -> Forall rop_ok ops ->
  exists cb, ring_run (circ_buf_init size mem) ops =
               Ok (cb, snd (queue_run (size - 1) [] ops)) /\
    contents cb = fst (queue_run (size - 1) [] ops).
Proof.
  intros size mem ops Hs Hok. destruct (init_wf size mem Hs) as (Hw & Hc & Hz).
  destruct (ring_run_refines ops _ Hw Hok) as (cb & xs & Hr & _ & _ & Hq).
  rewrite Hz, Hc in Hq. exists cb. rewrite Hq. auto.
Qed.
Example c02_nonvacuous : Forall rop_ok (wrapped_ops ++ [RRead 5; RPeek 100; RInUse; RAvailable]) /\
  snd (queue_run 9 [] (wrapped_ops ++ [RRead 5; RPeek 100; RInUse; RAvailable])) =
  [OCode 0; ONum 2; OCode 0; OBytes [7;8;9;10;11]; OBytes [7;8;9;10;11;12;13]; ONum 7; ONum 2].
Proof. split; [repeat constructor; discriminate | reflexivity]. Qed.

(** C03 is false: a ring reached by ordinary calls on which trim destroys the queue
    (the ring then claims 2^32 - 9 queued bytes). *)
Theorem c03_trim_refuted :
  exists size mem ops cb xs n cb', 1 <= size <= cb_max /\ Forall rop_ok ops /\
    ring_run (circ_buf_init size mem) ops = Ok (cb, xs) /\ cb_wf cb /\
    0 <= n < circ_buf_in_use cb /\
    circ_buf_trim cb n = Ok cb' /\
    circ_buf_in_use cb' <> n /\ circ_buf_in_use cb' = 4294967287 /\ ~ cb_wf cb'.
Proof.
  exists 10, (fun _ => 0), wrapped_ops, wrapped,
    (match ring_run (circ_buf_init 10 (fun _ => 0)) wrapped_ops with Ok (_, xs) => xs | _ => [] end),
    1, (match circ_buf_trim wrapped 1 with Ok c => c | _ => wrapped end).
  split; [vm_compute; split; discriminate|].
  split; [repeat constructor; discriminate|].
  split; [reflexivity|]. split; [apply wrapped_is|].
  split; [vm_compute; split; [discriminate|reflexivity]|].
  split; [reflexivity|]. split; [vm_compute; discriminate|]. split; [reflexivity|].
  unfold cb_wf. vm_compute. intros (_ & _ & (_ & A) & _). apply A. reflexivity.
Qed.

(** ... and these are the only failing states: the data wraps, more than n bytes of it
    lie in the wrapped part, and the n kept bytes do not reach the end of the array. *)
Theorem c03_trim_exact :
  forall cb n, cb_wf cb -> 0 <= n ->
  (circ_buf_in_use cb <= n -> circ_buf_trim cb n = Ok cb) /\
  (n < circ_buf_in_use cb ->
     exists cb', circ_buf_trim cb n = Ok cb' /\
       ((cb_wf cb' /\ cb_size cb' = cb_size cb /\ contents cb' = ztake n (contents cb)) <->
        ~ (cb_stop cb < cb_start cb /\ n < cb_stop cb /\ cb_start cb + n < cb_size cb))).
Proof.
  intros cb n H Hn. split. { apply trim_noop. }
  intros Hlt.
  assert (D : trim_bad cb n \/ ~ trim_bad cb n).
  { unfold trim_bad. lia. }
  destruct D as [D|D].
  - destruct (trim_bad_out cb n H ltac:(lia) D) as (cb' & E & Hnw & _).
    exists cb'. split; [exact E|]. split; [intros (A & _); contradiction | intros A; contradiction].
  - destruct (trim_good cb n H ltac:(lia) D) as (cb' & E & Hw & Hz & _ & _ & Hc).
    exists cb'. split; [exact E|]. split; auto.
Qed.
Example c03_nonvacuous : cb_wf wrapped /\ 5 < circ_buf_in_use wrapped /\
  ~ (cb_stop wrapped < cb_start wrapped /\ 5 < cb_stop wrapped /\ cb_start wrapped + 5 < cb_size wrapped).
Proof. split; [apply wrapped_is|]. vm_compute. split; [reflexivity|]. intros (_ & A & _). discriminate A. Qed.

(** C04 is false: reading 5 bytes at offset 3 of the wrapped ring 
    8,9,...: byte 0 of the array is skipped. *)
Definition wrapped8_ops : list rop :=
  [RAppend [1;2;3;4;5;6;7;8;9]; RFree 5; RAppend [10;11;12;13]].
Definition wrapped8 : cbuf :=
  match ring_run (circ_buf_init 10 (fun _ => 0)) wrapped8_ops with
  | Ok (cb, _) => cb
  | _ => circ_buf_init 1 (fun _ => 0)
  end.
Theorem c04_read_offset_refuted :
  exists size mem ops cb xs o n, 1 <= size <= cb_max /\ Forall rop_ok ops /\
    ring_run (circ_buf_init size mem) ops = Ok (cb, xs) /\ cb_wf cb /\
    contents cb = [6;7;8;9;10;11;12;13] /\ o = 3 /\ n = 4 /\
    circ_buf_read_offset cb o n = Ok (0, [9;10;12;13]) /\
    zslice o n (contents cb) = [9;10;11;12].
Proof.
  exists 10, (fun _ => 0), wrapped8_ops, wrapped8,
    (match ring_run (circ_buf_init 10 (fun _ => 0)) wrapped8_ops with Ok (_, xs) => xs | _ => [] end), 3, 4.
  split; [vm_compute; split; discriminate|].
  split; [repeat constructor; discriminate|].
  split; [reflexivity|].
  split; [vm_compute; repeat split; discriminate|].
  repeat split; reflexivity.
Qed.

(** Exactly when it is right; the offset is always checked; the ring is not an output. *)
Theorem c04_read_offset_correct_when :
  forall cb o n, cb_wf cb -> is_u32 n -> 0 <= o ->
  (circ_buf_in_use cb < o -> circ_buf_read_offset cb o n = Ok (EINVAL, [])) /\
  (o <= circ_buf_in_use cb ->
     let len := Z.min n (circ_buf_in_use cb - o) in
     let pos := (cb_start cb + o) mod cb_size cb in      (* array position of byte o *)
     (~ (cb_stop cb < pos /\ cb_size cb - pos < len /\ cb_size cb - pos < o) ->
        circ_buf_read_offset cb o n = Ok (0, zslice o len (contents cb))) /\
     ((cb_stop cb < pos /\ cb_size cb - pos < len /\ cb_size cb - pos < o) ->
        circ_buf_read_offset cb o n =
          Ok (0, zslice o (cb_size cb - pos) (contents cb) ++
                 ring_slice (cb_mem cb) (cb_size cb) (o - (cb_size cb - pos))
                            (Z.to_nat (len - (cb_size cb - pos)))))).
Proof.
  intros cb o n H Hn Ho. split.
  - intros Hlt. unfold circ_buf_read_offset. replace (circ_buf_in_use cb <? o) with true by lia. reflexivity.
  - intros Hle len pos. split; intros Hb.
    + apply read_offset_ok; try assumption. lia.
    + apply read_offset_bad_out; try assumption. lia.
Qed.

(** Offsets 0 and 1 (all command bodies) are always read correctly. *)
Theorem c04_read_offset_small :
  forall cb o n, cb_wf cb -> is_u32 n -> 0 <= o <= 1 -> o <= circ_buf_in_use cb ->
  circ_buf_read_offset cb o n =
    Ok (0, ztake n (zdrop o (contents cb))).
Proof.
  intros cb o n H Hn Ho Hle. rewrite read_offset_ok; try assumption; try lia.
  - do 2 f_equal. unfold zslice. unfold is_u32 in Hn.
    pose proof (contents_len cb H) as Hcl.
    pose proof (zlen_zdrop o (contents cb) ltac:(lia)) as Hd.
    destruct (Z_le_gt_dec n (circ_buf_in_use cb - o)).
    + rewrite Z.min_l by lia. reflexivity.
    + rewrite Z.min_r by lia. rewrite !ztake_all by lia. reflexivity.
  - unfold read_offset_bad. intros (A & B & C).
    assert (0 <= (cb_start cb + o) mod cb_size cb < cb_size cb)
      by (apply Z.mod_pos_bound; unfold cb_wf in H; lia). lia.
Qed.
Example c04_nonvacuous : cb_wf wrapped /\ is_u32 5 /\ 1 <= circ_buf_in_use wrapped /\
  circ_buf_read_offset wrapped 1 5 = Ok (0, [8;9;10;11;12]).
Proof. split; [apply wrapped_is|]. vm_compute. repeat split; discriminate. Qed.

(** C05: the segments are in bounds (no UB) and show exactly the queued bytes. *)
Theorem c05_read_segment_exact :
  forall cb n, cb_wf cb -> 0 <= n ->
  let s := circ_buf_read_segment cb n in
  segs_load cb s = Ok (ztake n (contents cb)) /\
  seg1_len s + seg2_len s = Z.min n (zlen (contents cb)) /\ 0 <= seg2_len s /\
  (seg1_len s = 0 -> ztake n (contents cb) = []).
Proof.
  intros cb n H Hn. rewrite contents_len by assumption. exact (read_segment_spec cb n H Hn).
Qed.
Example c05_nonvacuous : segs_load wrapped (circ_buf_read_segment wrapped 100)
  = Ok [7;8;9;10;11;12;13] /\ seg2_len (circ_buf_read_segment wrapped 100) = 3.
Proof. split; reflexivity. Qed.

(** C06, first part: segments in bounds, lengths add up, queued bytes not touched by
    filling them, filling them appends exactly the bytes written. *)
Theorem c06_alloc_memory_safe :
  forall cb len bs, cb_wf cb -> 0 <= len <= circ_buf_available cb -> zlen bs = len ->
  exists cb1 s cb2, circ_buf_alloc cb len = inr (cb1, s) /\
    seg1_len s + seg2_len s = len /\ 0 <= seg1_len s /\ 0 <= seg2_len s /\
    segs_store cb1 s bs = Ok cb2 /\ cb_wf cb2 /\ contents cb2 = contents cb ++ bs.
Proof.
  intros cb len bs H Hl Hb.
  destruct (alloc_store cb bs len H (eq_sym Hb) ltac:(lia))
    as (cb1 & s & cb2 & Ha & Hs & Hw & _ & _ & _ & Hc).
  destruct (alloc_cases cb len H ltac:(lia) ltac:(lia))
    as (cb1' & s' & Ha' & _ & _ & _ & _ & _ & _ & Hcase).
  rewrite Ha in Ha'. inversion Ha'; subst cb1' s'.
  exists cb1, s, cb2. split; [exact Ha|].
  unfold cb_wf in H. destruct Hcase as [(A & B & C & D & E)|(A & B & C & D & E & F & G)];
  repeat split; try assumption; try lia; apply Hw.
Qed.

(** C06, second part is false: an allocation whose first segment is empty and points one
    past the end of the array, so that [*seg1 = x] is an out-of-bounds store. *)
Definition edge_ops : list rop := [RAppend [1;2]; RFree 1; RAppend [3;4]; RFree 1].
Theorem c06_first_segment_refuted :
  exists size mem ops cb xs cb1 s, 1 <= size <= cb_max /\ Forall rop_ok ops /\
    ring_run (circ_buf_init size mem) ops = Ok (cb, xs) /\ cb_wf cb /\
    circ_buf_available cb = 1 /\ circ_buf_alloc cb 1 = inr (cb1, s) /\
    seg1_len s = 0 /\ seg1 s = Some size /\
    (forall b, seg_store cb1 (seg1 s) [b] = UB OutOfBounds).
Proof.
  set (r := match ring_run (circ_buf_init 4 (fun _ => 0)) edge_ops with
            | Ok r => r | _ => (circ_buf_init 1 (fun _ => 0), []) end).
  set (a := match circ_buf_alloc (fst r) 1 with inr x => x | inl _ => (fst r, mkSegs None 0 None 0) end).
  exists 4, (fun _ => 0), edge_ops, (fst r), (snd r), (fst a), (snd a).
  split; [vm_compute; split; discriminate|].
  split; [repeat constructor; discriminate|].
  split; [reflexivity|].
  split; [vm_compute; repeat split; discriminate|].
  repeat split; reflexivity.
Qed.

(** Exactly when: the allocation starts at the end of the array. *)
Theorem c06_first_segment_exact :
  forall cb len, cb_wf cb -> 0 < len <= circ_buf_available cb ->
  exists cb1 s, circ_buf_alloc cb len = inr (cb1, s) /\
    (seg1_len s = 0 <-> cb_stop cb = cb_size cb) /\
    (forall b, (exists cb2, seg_store cb1 (seg1 s) [b] = Ok cb2) <-> cb_stop cb <> cb_size cb).
Proof.
  intros cb len H Hl.
  destruct (alloc_cases cb len H ltac:(lia) ltac:(lia))
    as (cb1 & s & Ha & _ & Hz & _ & _ & _ & Hs1 & Hcase).
  exists cb1, s. split; [exact Ha|]. unfold cb_wf in H. split.
  - destruct Hcase as [(A & B & C & D & E)|(A & B & C & D & E & F & G)]; lia.
  - intros b. rewrite Hs1. cbn [seg_store]. unfold cb_store. rewrite Hz. change (zlen [b]) with 1.
    destruct ((0 <=? cb_stop cb) && (cb_stop cb + 1 <=? cb_size cb)) eqn:E.
    + split; [lia|]. intros _. eexists; reflexivity.
    + split; [intros (c & X); discriminate|]. lia.
Qed.
Example c06_nonvacuous : cb_wf wrapped /\ 0 < 2 <= circ_buf_available wrapped.
Proof. split; [apply wrapped_is|]. vm_compute. split; [reflexivity|discriminate]. Qed.

Print Assumptions c01_ring_accounting.
Print Assumptions c01_alloc_accounting.
Print Assumptions c01_free_accounting.
Print Assumptions c02_ring_is_fifo.
Print Assumptions c03_trim_refuted.
Print Assumptions c03_trim_exact.
Print Assumptions c04_read_offset_refuted.
Print Assumptions c04_read_offset_correct_when.
Print Assumptions c04_read_offset_small.
Print Assumptions c05_read_segment_exact.
Print Assumptions c06_alloc_memory_safe.
Print Assumptions c06_first_segment_refuted.
Print Assumptions c06_first_segment_exact.
