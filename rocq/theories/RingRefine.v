(** RingRefine.v — the ring refines the bounded FIFO queue of SpecRing.v. *)
From Verif Require Import Base CircBuf CircBufProofs SpecRing.

Lemma ring_step_refines cb o : cb_wf cb -> rop_ok o ->
  exists cb' x, ring_step cb o = Ok (cb', x) /\ cb_wf cb' /\ cb_size cb' = cb_size cb /\
    queue_step (cb_size cb - 1) (contents cb) o = (contents cb', x).
Proof.
  intros H Ho. pose proof (contents_len cb H) as Hcl. pose proof (available_val cb H) as Hav.
  destruct o as [bs|n|n|n| |]; cbn [ring_step queue_step rop_ok] in *.
  - destruct (ring_append_spec cb bs H) as [Hs Hf].
    destruct (zlen (contents cb) + zlen bs <=? cb_size cb - 1) eqn:E.
    + destruct Hs as (cb' & Ha & Hw & Hz & Hc); [lia|].
      rewrite Ha. cbn. exists cb', (OCode 0). rewrite Hc. auto.
    + rewrite Hf by lia. cbn. exists cb, (OCode ENOMEM). auto.
  - rewrite read_spec by assumption. cbn [bind snd]. do 2 eexists. repeat split; apply H.
  - destruct (read_segment_spec cb n H) as [Hl _]. { unfold is_u32 in Ho; lia. }
    rewrite Hl. cbn [bind]. do 2 eexists. repeat split; apply H.
  - destruct (free_spec cb n H Ho) as (cb' & Hf & Hw & Hz & Hc).
    rewrite Hf. cbn. exists cb', (ONum (zlen (contents cb'))). rewrite Hc. auto.
  - exists cb, (ONum (circ_buf_in_use cb)). rewrite Hcl. auto.
  - exists cb, (ONum (circ_buf_available cb)). rewrite Hcl, Hav.
    repeat split; auto; try apply H.
Qed.

Lemma ring_run_refines ops : forall cb, cb_wf cb -> Forall rop_ok ops ->
  exists cb' xs, ring_run cb ops = Ok (cb', xs) /\ cb_wf cb' /\ cb_size cb' = cb_size cb /\
    queue_run (cb_size cb - 1) (contents cb) ops = (contents cb', xs).
Proof.
  induction ops as [|o rest IH]; intros cb H Hok.
  - exists cb, []. cbn. auto.
  - inversion Hok as [|o' r' Ho Hr]; subst.
    destruct (ring_step_refines cb o H Ho) as (cb1 & x & Hs & Hw & Hz & Hq).
    destruct (IH cb1 Hw Hr) as (cb2 & xs & Hs2 & Hw2 & Hz2 & Hq2).
    exists cb2, (x :: xs). cbn [ring_run queue_run]. rewrite Hs. cbn [bind fst snd]. rewrite Hs2.
    cbn [bind fst snd]. rewrite Hq. rewrite <- Hz, Hq2. split; [reflexivity|].
    split; [exact Hw2|]. split; [congruence|reflexivity].
Qed.
