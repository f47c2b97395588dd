(** ProtoProofs.v — lemmas about the TCP control channel model. *)
From Verif Require Import Base CircBuf CircBufProofs Wire Proto SpecProto.

Lemma cb_wf_stop cb : cb_wf cb -> 0 <= cb_stop cb <= cb_size cb.
Proof. unfold cb_wf. tauto. Qed.

(** ** Filling the read ring *)

Lemma store_mem cb off bs cb' : cb_store cb off bs = Ok cb' ->
  cb_size cb' = cb_size cb /\ cb_start cb' = cb_start cb /\ cb_stop cb' = cb_stop cb /\
  forall j, cb_mem cb' j = if (off <=? j) && (j <? off + zlen bs) then nth (Z.to_nat (j - off)) bs 0 else cb_mem cb j.
Proof.
  unfold cb_store. destruct ((0 <=? off) && (off + zlen bs <=? cb_size cb)); [|discriminate].
  intros H. injection H as <-. cbn [cb_size cb_start cb_stop cb_mem]. auto.
Qed.

Lemma alloc_store_partial cb bs len : cb_wf cb -> zlen bs <= len -> len <= circ_buf_available cb ->
  exists cb1 s cb2, circ_buf_alloc cb len = inr (cb1, s) /\
    segs_store cb1 s bs = Ok cb2 /\ cb_wf cb2 /\
    cb_size cb2 = cb_size cb /\ cb_start cb2 = cb_start cb /\ cb_stop cb2 = cb_stop cb1 /\
    circ_buf_in_use cb2 = circ_buf_in_use cb + len /\
    ztake (circ_buf_in_use cb + zlen bs) (contents cb2) = contents cb ++ bs.
Proof.
  intros H Hbs Hl. pose proof (zlen_nonneg bs) as Hnn.
  destruct (alloc_cases cb len H ltac:(lia) Hl)
    as (cb1 & s & Ha & Hw1 & Hsz & Hst & Hmem & Hiu & Hs1 & Hcase).
  destruct (alloc_cases cb (zlen bs) H Hnn ltac:(lia))
    as (cb1' & s' & Ha' & _ & Hsz' & Hst' & Hmem' & Hiu' & Hs1' & Hcase').
  destruct (alloc_store cb bs (zlen bs) H eq_refl ltac:(lia))
    as (cb1x & sx & cb2' & Hax & Hstx & Hw2' & Hz2' & Hs2' & Hp2' & Hc2').
  rewrite Ha' in Hax. injection Hax as <- <-.
  pose proof (in_use_bounds cb H) as Hb. pose proof (available_val cb H) as Hav.
  assert (Hwf : 1 <= cb_size cb /\ 0 <= cb_stop cb <= cb_size cb) by (unfold cb_wf in H; lia).
  assert (E : exists cb2, segs_store cb1 s bs = Ok cb2 /\ cb_size cb2 = cb_size cb1 /\
     cb_start cb2 = cb_start cb1 /\ cb_stop cb2 = cb_stop cb1 /\ forall j, cb_mem cb2 j = cb_mem cb2' j).
  { unfold segs_store in *. rewrite Hs1. rewrite Hs1' in Hstx. cbn [seg_store] in *.
    destruct Hcase' as [(L1' & S2' & L2' & Hfit' & Hstop')|(L1' & S2' & L2' & Hpos' & Hlt' & Hstop' & Hord')].
    - rewrite L1', S2' in Hstx. rewrite ztake_all, zdrop_all in Hstx by lia. cbn [seg_store] in Hstx.
      apply bind_ok in Hstx. destruct Hstx as (x & Hx & Hx2). injection Hx2 as ->.
      assert (Hl1 : zlen bs <= seg1_len s).
      { destruct Hcase as [(L1 & _)|(L1 & _)]; lia. }
      rewrite ztake_all, zdrop_all by lia.
      destruct (slice_of_store cb1 (cb_stop cb) bs ltac:(lia) ltac:(lia)) as (y & Hy & _).
      rewrite Hy. cbn [bind].
      destruct (store_mem _ _ _ _ Hy) as (Y1 & Y2 & Y3 & Ym).
      destruct (store_mem _ _ _ _ Hx) as (X1 & X2 & X3 & Xm).
      destruct Hcase as [(L1 & S2 & _)|(L1 & S2 & _)]; rewrite S2; cbn [seg_store].
      + exists y. split; [reflexivity|]. repeat (split; [congruence|]). intros j. rewrite Ym, Xm, Hmem, Hmem'. reflexivity.
      + destruct (slice_of_store y 0 [] ltac:(lia)) as (z & Hz & _). { change (zlen (@nil Z)) with 0. lia. }
        rewrite Hz. destruct (store_mem _ _ _ _ Hz) as (Z1 & Z2 & Z3 & Zm).
        exists z. split; [reflexivity|]. repeat (split; [congruence|]). intros j. rewrite Zm. change (zlen (@nil Z)) with 0.
        replace ((0 <=? j) && (j <? 0 + 0)) with false by lia. rewrite Ym, Xm, Hmem, Hmem'. reflexivity.
    - destruct Hcase as [(L1 & S2 & L2 & Hfit & Hstop)|(L1 & S2 & L2 & Hpos & Hlt & Hstop & Hord)]; [lia|].
      rewrite L1, S2. rewrite L1', S2' in Hstx.
      apply bind_ok in Hstx. destruct Hstx as (x & Hx & Hx2).
      set (l1 := cb_size cb - cb_stop cb) in *.
      assert (Hz1 : zlen (ztake l1 bs) = l1) by (apply zlen_ztake; lia).
      destruct (slice_of_store cb1 (cb_stop cb) (ztake l1 bs) ltac:(lia)) as (y & Hy & _). { rewrite Hz1. unfold l1. lia. }
      rewrite Hy. cbn [bind].
      destruct (store_mem _ _ _ _ Hy) as (Y1 & Y2 & Y3 & Ym).
      destruct (store_mem _ _ _ _ Hx) as (X1 & X2 & X3 & Xm). cbn [seg_store] in *.
      destruct (slice_of_store y 0 (zdrop l1 bs) ltac:(lia)) as (z & Hz & _).
      { rewrite zlen_zdrop by lia. rewrite Y1, Hsz. unfold l1. lia. }
      rewrite Hz.
      destruct (store_mem _ _ _ _ Hz) as (Z1 & Z2 & Z3 & Zm).
      destruct (store_mem _ _ _ _ Hx2) as (X1' & X2' & X3' & Xm').
      exists z. split; [reflexivity|]. repeat (split; [congruence|]). intros j. rewrite Zm, Xm', Ym, Xm, Hmem, Hmem'. reflexivity. }
  destruct E as (cb2 & E2 & Z1 & Z2 & Z3 & Zm).
  exists cb1, s, cb2. split; [exact Ha|]. split; [exact E2|].
  assert (Hw2 : cb_wf cb2). { unfold cb_wf in *. rewrite Z1, Z2, Z3. assumption. }
  assert (Hiu2 : circ_buf_in_use cb2 = circ_buf_in_use cb + len).
  { rewrite <- Hiu. unfold circ_buf_in_use. rewrite Z1, Z2, Z3. reflexivity. }
  split; [exact Hw2|]. split; [congruence|]. split; [congruence|]. split; [exact Z3|]. split; [exact Hiu2|].
  rewrite <- Hc2'. unfold contents, ztake. rewrite Hiu2.
  rewrite firstn_slice by lia.
  assert (Hiu2' : circ_buf_in_use cb2' = circ_buf_in_use cb + zlen bs).
  { rewrite <- (contents_len cb2') by assumption. rewrite Hc2', zlen_app, contents_len by assumption. reflexivity. }
  rewrite Hiu2', Hz2', Hs2', Z1, Z2, Hsz, Hst. apply ring_slice_ext. intros i Hi. apply Zm.
Qed.

(** rmc_conn_tcp_read up to the processing of the commands: exactly the reads with
    [~ read_ok] destroy the ring. *)
Lemma fill_spec rb bs : cb_wf rb -> 0 < zlen bs -> zlen bs <= circ_buf_available rb ->
  let n := circ_buf_in_use rb + zlen bs in
  exists rb', tcp_fill rb (RData bs) = Ok (0, RMC_READ_TCP, rb') /\
    cb_size rb' = cb_size rb /\ cb_start rb' = cb_start rb /\
    (read_ok (cb_size rb) (cb_start rb) n -> cb_wf rb' /\ contents rb' = contents rb ++ bs) /\
    (~ read_ok (cb_size rb) (cb_start rb) n ->
       ~ cb_wf rb' /\ circ_buf_in_use rb' = 4294967296 - (cb_size rb - n)).
Proof.
  intros H Hb Hl n. unfold tcp_fill. replace (circ_buf_available rb =? 0) with false by lia.
  destruct (alloc_store_partial rb bs (circ_buf_available rb) H Hl ltac:(lia))
    as (cb1 & s & cb2 & Ha & Hs & Hw & Hz & Hst & Hsp & Hiu & Hc).
  rewrite Ha. rewrite ztake_all by lia. destruct bs as [|b0 bs0]; [change (zlen (@nil Z)) with 0 in Hb; lia|].
  set (bs := b0 :: bs0) in *. rewrite Hs. cbn [bind]. fold n in Hc.
  replace (zlen bs + circ_buf_in_use rb) with n by (unfold n; lia).
  pose proof (in_use_bounds rb H) as Hib. pose proof (available_val rb H) as Hav.
  assert (Hfull : circ_buf_in_use cb2 = cb_size rb - 1) by lia.
  pose proof (in_use_val cb2 Hw) as Hv. rewrite Hfull, Hz, Hst in Hv.
  assert (Hwf2 := Hw). unfold cb_wf in Hwf2. rewrite Hz, Hst in Hwf2.
  destruct (Z_le_gt_dec (circ_buf_in_use cb2) n) as [Hn|Hn].
  - rewrite trim_noop by lia. cbn [bind]. exists cb2. split; [reflexivity|]. split; [exact Hz|]. split; [exact Hst|].
    split.
    + intros _. split; [exact Hw|]. rewrite <- Hc. symmetry. apply ztake_all. rewrite contents_len by exact Hw. lia.
    + intros Hbad. exfalso. apply Hbad. unfold read_ok. lia.
  - assert (D : read_ok (cb_size rb) (cb_start rb) n <-> ~ trim_bad cb2 n).
    { unfold read_ok, trim_bad. rewrite Hz, Hst. destruct (cb_start rb <=? cb_stop cb2) eqn:E; lia. }
    assert (DD : trim_bad cb2 n \/ ~ trim_bad cb2 n) by (unfold trim_bad; lia).
    destruct DD as [DD|DD].
    + destruct (trim_bad_out cb2 n Hw ltac:(lia) DD) as (cb3 & E & Hnw & Hu).
      rewrite E. cbn [bind]. exists cb3. split; [reflexivity|].
      assert (cb_size cb3 = cb_size cb2 /\ cb_start cb3 = cb_start cb2).
      { unfold circ_buf_trim in E. destruct (circ_buf_in_use cb2 <=? n); [injection E as <-; auto|].
        destruct (n <? cb_stop cb2); [injection E as <-; auto|].
        destruct (cb_size cb2 =? 0); [discriminate|injection E as <-; auto]. }
      split; [intuition congruence|]. split; [intuition congruence|].
      split; [intros A; exfalso; apply D in A; contradiction|].
      intros _. split; [exact Hnw|]. rewrite Hu, Hz. reflexivity.
    + destruct (trim_good cb2 n Hw ltac:(lia) DD) as (cb3 & E & Hw3 & Hz3 & Hst3 & _ & Hc3).
      rewrite E. cbn [bind]. exists cb3. split; [reflexivity|]. split; [congruence|]. split; [congruence|].
      split; [intros _; split; [exact Hw3|congruence]|].
      intros A. exfalso. apply A, D, DD.
Qed.

Lemma fill_full rb o : circ_buf_available rb = 0 -> tcp_fill rb o = Ok (ENOMEM, RMC_ERROR, rb).
Proof. intros H. unfold tcp_fill. rewrite H. reflexivity. Qed.

(** ** Reading and freeing *)

Lemma free_pos cb n cb' x : cb_wf cb -> 0 < n < 4294967296 -> circ_buf_free cb n = Ok (cb', x) ->
  cb_start cb' = next_pos (cb_size cb) (cb_start cb) n (zdrop n (contents cb)).
Proof.
  intros H Hn. unfold circ_buf_free. replace (n =? 0) with false by lia.
  pose proof (in_use_bounds cb H) as Hb. pose proof (contents_len cb H) as Hcl. assert (Hwf := H). unfold cb_wf, cb_max in Hwf.
  destruct (circ_buf_in_use cb <=? n) eqn:E.
  - intros A. injection A as <- <-. rewrite zdrop_all by lia. reflexivity.
  - replace (cb_size cb =? 0) with false by lia. intros A. injection A as <- <-.
    cbn [set_start cb_start]. unfold next_pos.
    destruct (zdrop n (contents cb)) as [|y l] eqn:D.
    + exfalso. assert (Z0 : zlen (zdrop n (contents cb)) = 0) by (rewrite D; reflexivity).
      rewrite zlen_zdrop in Z0 by lia. lia.
    + destruct (Z_lt_ge_dec (cb_start cb + n) 4294967296).
      * rewrite u32_small by (unfold is_u32; lia). reflexivity.
      * lia.
Qed.

(** circ_buf_free of m > 0 bytes. *)
Lemma free_full cb m : cb_wf cb -> 0 < m < 4294967296 ->
  exists cb', circ_buf_free cb m = Ok (cb', zlen (contents cb')) /\ cb_wf cb' /\ cb_size cb' = cb_size cb /\
    contents cb' = zdrop m (contents cb) /\
    cb_start cb' = next_pos (cb_size cb) (cb_start cb) m (zdrop m (contents cb)).
Proof.
  intros H Hm. destruct (free_spec cb m H ltac:(unfold is_u32; lia)) as (cb' & E & Hw & Hz & Hc).
  exists cb'. split; [exact E|]. split; [exact Hw|]. split; [exact Hz|]. split; [exact Hc|].
  exact (free_pos _ _ _ _ H Hm E).
Qed.

Lemma zlen_zslice {A} o n (l : list A) : 0 <= o -> 0 <= n -> o + n <= zlen l -> zlen (zslice o n l) = n.
Proof. intros Ho Hn Hl. unfold zslice. rewrite zlen_ztake; [reflexivity|]. rewrite zlen_zdrop by lia. lia. Qed.

(** A read at offset 0 or 1 that the ring can satisfy is exact. *)
Lemma read_exact_ok rb o n : cb_wf rb -> 0 <= o -> 0 <= n < 4294967296 -> o + n <= circ_buf_in_use rb ->
  ~ read_offset_bad rb o n ->
  read_exact rb o n = Ok (zslice o n (contents rb)).
Proof.
  intros H Ho Hn Hi Hb. unfold read_exact.
  rewrite read_offset_ok; [|exact H|unfold is_u32; lia|lia|exact Hb]. cbn [bind snd].
  rewrite Z.min_l by lia. rewrite zlen_zslice by (try rewrite contents_len by exact H; lia).
  rewrite Z.eqb_refl. reflexivity.
Qed.
Lemma read_low rb o n : cb_wf rb -> 0 <= o <= 1 -> ~ read_offset_bad rb o n.
Proof.
  intros H Ho (_ & A & B). assert (Hs : 1 <= cb_size rb) by (unfold cb_wf in H; lia).
  pose proof (Z.mod_pos_bound (cb_start rb + o) (cb_size rb) ltac:(lia)). lia.
Qed.

Lemma zslice_1 {A} n (b : A) r : zslice 1 n (b :: r) = ztake n r.
Proof. reflexivity. Qed.
Lemma zdrop_S {A} n (b : A) r : 0 <= n -> zdrop (n + 1) (b :: r) = zdrop n r.
Proof. intros H. unfold zdrop. replace (Z.to_nat (n + 1)) with (S (Z.to_nat n)) by lia. reflexivity. Qed.

(** ** Commands on a byte list *)

Inductive nres := NMore | NBad | NCmd (c : cmd) (rest : list Z).

Lemma ncmd_inj c r c' r' : NCmd c r = NCmd c' r' -> c = c' /\ r = r'.
Proof. intros H. injection H. auto. Qed.

Definition pub_next (s : list Z) : nres :=
  match s with
  | [] => NMore
  | b :: r =>
      if b =? 2 then
        if 16 <=? zlen r then NCmd (CmdAck (fst (dec_ack (ztake 16 r))) (snd (dec_ack (ztake 16 r)))) (zdrop 16 r)
        else NMore
      else if b =? 3 then
        if 2 <=? zlen r then
          let len := dec_ctrl (ztake 2 r) in
          if 2 + len <=? zlen r then NCmd (CmdCtrl (ztake len (zdrop 2 r))) (zdrop (2 + len) r) else NMore
        else NMore
      else NBad
  end.
Definition sub_next (s : list Z) : nres :=
  match s with
  | [] => NMore
  | b :: r =>
      if b =? 1 then
        if 20 <=? zlen r then
          let h := dec_header (ztake 20 r) in
          if 20 + h_len h <=? zlen r then NCmd (CmdPacket h (ztake (h_len h) (zdrop 20 r))) (zdrop (20 + h_len h) r)
          else NMore
        else NMore
      else NBad
  end.

Lemma bytes_take n l : bytes_ok l -> bytes_ok (ztake n l).
Proof. intros H. rewrite <- (ztake_zdrop n l) in H. apply Forall_app in H. tauto. Qed.
Lemma bytes_drop n l : bytes_ok l -> bytes_ok (zdrop n l).
Proof. intros H. rewrite <- (ztake_zdrop n l) in H. apply Forall_app in H. tauto. Qed.
Lemma enc_dec_ack bs : bytes_ok bs -> zlen bs = 16 -> enc_ack (fst (dec_ack bs)) (snd (dec_ack bs)) = bs.
Proof.
  intros H Hl. unfold zlen in Hl. unfold enc_ack, dec_ack. cbn [fst snd].
  rewrite le_field by (auto; lia). rewrite le_field by (try apply bytes_skip; auto; rewrite skipn_length; lia).
  rewrite (firstn_all2 (n:=8) (skipn 8 bs)) by (rewrite skipn_length; lia). apply firstn_skipn.
Qed.
Lemma enc_dec_ctrl bs : bytes_ok bs -> zlen bs = 2 -> enc_ctrl (dec_ctrl bs) = bs.
Proof.
  intros H Hl. unfold zlen in Hl. unfold enc_ctrl, dec_ctrl. rewrite le_field by (auto; lia). apply firstn_all2. lia.
Qed.

Lemma pub_next_sound s c rest : bytes_ok s -> pub_next s = NCmd c rest ->
  s = wire c ++ rest /\ cmd_ok c /\ for_pub c.
Proof.
  intros Hs. destruct s as [|b r]; [discriminate|]. inversion Hs as [|b' r' Hb Hr]; subst. unfold pub_next.
  destruct (b =? 2) eqn:E2.
  - apply Z.eqb_eq in E2; subst b. destruct (16 <=? zlen r) eqn:E; [|discriminate]. intros A. apply ncmd_inj in A. destruct A as (<- & <-).
    assert (Hb16 : bytes_ok (ztake 16 r)) by (apply bytes_take; exact Hr).
    pose proof (dec_ack_ok _ Hb16) as (H1 & H2). split; [|split; [split; assumption|exact Logic.I]].
    cbn [wire app]. f_equal. rewrite enc_dec_ack by (auto; apply zlen_ztake; lia). symmetry. apply ztake_zdrop.
  - destruct (b =? 3) eqn:E3; [|discriminate]. apply Z.eqb_eq in E3; subst b.
    destruct (2 <=? zlen r) eqn:E; [|discriminate]. cbv zeta. set (len := dec_ctrl (ztake 2 r)).
    destruct (2 + len <=? zlen r) eqn:El; [|discriminate]. intros A. apply ncmd_inj in A. destruct A as (<- & <-).
    pose proof (dec_ctrl_ok _ (bytes_take 2 _ Hr)) as Hlen. fold len in Hlen. unfold is_u16 in Hlen.
    assert (Hzl : zlen (ztake len (zdrop 2 r)) = len).
    { apply zlen_ztake. rewrite zlen_zdrop by lia. lia. }
    split.
    + cbn [wire]. rewrite Hzl. unfold len at 1. rewrite enc_dec_ctrl by (try apply bytes_take; try apply zlen_ztake; auto; lia).
      cbn [app]. f_equal. rewrite <- app_assoc. rewrite <- zdrop_zdrop by lia. rewrite ztake_zdrop. symmetry. apply ztake_zdrop.
    + split; [|exact Logic.I]. cbn [cmd_ok]. rewrite Hzl. split; [exact Hlen|]. apply bytes_take, bytes_drop, Hr.
Qed.
Lemma pub_next_complete c rest : cmd_ok c -> for_pub c -> pub_next (wire c ++ rest) = NCmd c rest.
Proof.
  destruct c as [h p|a b|p]; cbn [for_pub]; intros Hok Hf; [contradiction| |]; clear Hf; cbn [wire app pub_next Z.eqb Pos.eqb].
  - destruct Hok as (Ha & Hb). rewrite zlen_app, enc_ack_zlen. pose proof (zlen_nonneg rest).
    replace (16 <=? 16 + zlen rest) with true by lia.
    rewrite ztake_app_exact, zdrop_app_exact by (rewrite enc_ack_zlen; reflexivity).
    rewrite <- (app_nil_r (enc_ack a b)). rewrite dec_enc_ack by assumption. reflexivity.
  - destruct Hok as (Hl & Hp). rewrite <- app_assoc. rewrite !zlen_app, enc_ctrl_zlen. pose proof (zlen_nonneg rest). pose proof (zlen_nonneg p).
    replace (2 <=? 2 + (zlen p + zlen rest)) with true by lia.
    rewrite ztake_app_exact by (rewrite enc_ctrl_zlen; reflexivity).
    replace (dec_ctrl (enc_ctrl (zlen p))) with (zlen p)
      by (rewrite <- (app_nil_r (enc_ctrl (zlen p))); rewrite dec_enc_ctrl by exact Hl; reflexivity).
    cbv zeta. replace (2 + zlen p <=? 2 + (zlen p + zlen rest)) with true by lia.
    rewrite zdrop_app_exact by (rewrite enc_ctrl_zlen; reflexivity).
    rewrite ztake_app_exact by reflexivity. rewrite app_assoc.
    rewrite zdrop_app_exact by (rewrite zlen_app, enc_ctrl_zlen; reflexivity). reflexivity.
Qed.
Lemma sub_next_sound s c rest : bytes_ok s -> sub_next s = NCmd c rest ->
  s = wire c ++ rest /\ cmd_ok c /\ for_sub c.
Proof.
  intros Hs. destruct s as [|b r]; [discriminate|]. inversion Hs as [|b' r' Hb Hr]; subst. unfold sub_next.
  destruct (b =? 1) eqn:E1; [|discriminate]. apply Z.eqb_eq in E1; subst b.
  destruct (20 <=? zlen r) eqn:E; [|discriminate]. cbv zeta. set (h := dec_header (ztake 20 r)).
  destruct (20 + h_len h <=? zlen r) eqn:El; [|discriminate]. intros A. apply ncmd_inj in A. destruct A as (<- & <-).
  pose proof (dec_header_ok _ (bytes_take 20 _ Hr)) as Hh. fold h in Hh.
  assert (Hlen : 0 <= h_len h) by (destruct Hh as (_ & _ & Hlen & _); unfold is_u16 in Hlen; lia).
  assert (Hzl : zlen (ztake (h_len h) (zdrop 20 r)) = h_len h).
  { apply zlen_ztake. rewrite zlen_zdrop by lia. lia. }
  split.
  - cbn [wire]. unfold h at 1.
    assert (Henc : enc_header (dec_header (ztake 20 r)) = ztake 20 r).
    { assert (Hz20 : zlen (ztake 20 r) = 20) by (apply zlen_ztake; lia).
      rewrite enc_dec_header by (try apply bytes_take; auto; lia).
      apply firstn_all2. unfold zlen in Hz20. lia. }
    rewrite Henc.
    cbn [app]. f_equal. rewrite <- app_assoc. rewrite <- zdrop_zdrop by lia. rewrite ztake_zdrop. symmetry. apply ztake_zdrop.
  - split; [|exact Logic.I]. cbn [cmd_ok]. rewrite Hzl. split; [exact Hh|]. split; [reflexivity|]. apply bytes_take, bytes_drop, Hr.
Qed.
Lemma sub_next_complete c rest : cmd_ok c -> for_sub c -> sub_next (wire c ++ rest) = NCmd c rest.
Proof.
  destruct c as [h p|a b|p]; cbn [for_sub]; intros Hok Hf; [|contradiction|contradiction]; clear Hf; cbn [wire app sub_next Z.eqb Pos.eqb].
  destruct Hok as (Hh & Hl & Hp). rewrite <- app_assoc. rewrite !zlen_app, enc_header_zlen. pose proof (zlen_nonneg rest). pose proof (zlen_nonneg p).
  replace (20 <=? 20 + (zlen p + zlen rest)) with true by lia.
  rewrite ztake_app_exact by (rewrite enc_header_zlen; reflexivity).
  replace (dec_header (enc_header h)) with h
    by (rewrite <- (app_nil_r (enc_header h)); rewrite dec_enc_header by exact Hh; reflexivity).
  cbv zeta. rewrite Hl. replace (20 + zlen p <=? 20 + (zlen p + zlen rest)) with true by lia.
  rewrite zdrop_app_exact by (rewrite enc_header_zlen; reflexivity).
  rewrite ztake_app_exact by reflexivity. rewrite app_assoc.
  rewrite zdrop_app_exact by (rewrite zlen_app, enc_header_zlen; reflexivity). reflexivity.
Qed.

(** ** Parsing a stream *)

Lemma wire_len c : 1 <= zlen (wire c).
Proof.
  destruct c; cbn [wire]; rewrite zlen_cons.
  - pose proof (zlen_nonneg (enc_header h ++ payload)); lia.
  - pose proof (zlen_nonneg (enc_ack first last)); lia.
  - pose proof (zlen_nonneg (enc_ctrl (zlen payload) ++ payload)); lia.
Qed.

Section Parses.
Variable allowed : cmd -> Prop.
Variable next : list Z -> nres.
Hypothesis next_sound : forall s c rest, bytes_ok s -> next s = NCmd c rest -> s = wire c ++ rest /\ cmd_ok c /\ allowed c.
Hypothesis next_complete : forall c rest, cmd_ok c -> allowed c -> next (wire c ++ rest) = NCmd c rest.

Lemma parses_unique : forall c1 s c2 r1 r2, parses allowed s c1 r1 -> parses allowed s c2 r2 -> c1 = c2 /\ r1 = r2.
Proof.
  induction c1 as [|c c1 IH]; intros s c2 r1 r2 (E1 & F1 & N1) (E2 & F2 & N2).
  - cbn [flat_map app] in E1. subst r1. destruct c2 as [|d c2]; [cbn [flat_map app] in E2; auto|].
    exfalso. inversion F2 as [|? ? (A & B) ?]; subst. cbn [flat_map] in N1. rewrite <- app_assoc in N1. exact (N1 d _ A B eq_refl).
  - inversion F1 as [|? ? (A & B) F1']; subst. cbn [flat_map] in E2. rewrite <- app_assoc in E2.
    destruct c2 as [|d c2].
    + exfalso. cbn [flat_map app] in E2. exact (N2 c _ A B (eq_sym E2)).
    + inversion F2 as [|? ? (A2 & B2) F2']; subst. cbn [flat_map] in E2. rewrite <- app_assoc in E2.
      pose proof (next_complete c (flat_map wire c1 ++ r1) A B) as X.
      pose proof (next_complete d (flat_map wire c2 ++ r2) A2 B2) as Y. rewrite E2 in X. rewrite Y in X. injection X as -> X.
      destruct (IH _ c2 r1 r2 (conj eq_refl (conj F1' N1)) (conj (eq_sym X) (conj F2' N2))) as (-> & ->). auto.
Qed.

Lemma parses_exists : forall n s, (length s < n)%nat -> bytes_ok s -> exists cmds r, parses allowed s cmds r.
Proof.
  induction n as [|n IH]; intros s Hn Hs; [lia|].
  destruct (next s) as [| |c rest] eqn:E.
  - exists [], s. split; [reflexivity|]. split; [constructor|]. intros c rest A B C. subst s. rewrite next_complete in E by assumption. discriminate.
  - exists [], s. split; [reflexivity|]. split; [constructor|]. intros c rest A B C. subst s. rewrite next_complete in E by assumption. discriminate.
  - destruct (next_sound _ _ _ Hs E) as (-> & A & B).
    destruct (IH rest) as (cmds & r & (E1 & F1 & N1)).
    { rewrite app_length in Hn. pose proof (wire_len c) as W. unfold zlen in W. lia. }
    { apply Forall_app in Hs. tauto. }
    exists (c :: cmds), r. split; [cbn [flat_map]; rewrite <- app_assoc, <- E1; reflexivity|]. split; [constructor; auto|exact N1].
Qed.

Lemma parses_app s cmds r x cmds2 r2 : parses allowed s cmds r -> parses allowed (r ++ x) cmds2 r2 ->
  parses allowed (s ++ x) (cmds ++ cmds2) r2.
Proof.
  intros (E1 & F1 & N1) (E2 & F2 & N2). split; [|split; [apply Forall_app; split; assumption|exact N2]].
  rewrite flat_map_app, <- app_assoc, <- E2, app_assoc, <- E1. reflexivity.
Qed.

Lemma parses_cons s c cmds r : parses allowed s (c :: cmds) r -> exists rest, s = wire c ++ rest /\ cmd_ok c /\ allowed c /\ parses allowed rest cmds r.
Proof.
  intros (E & F & N). inversion F as [|? ? (A & B) F']; subst. exists (flat_map wire cmds ++ r). cbn [flat_map]. rewrite <- app_assoc.
  split; [reflexivity|]. split; [exact A|]. split; [exact B|]. split; [reflexivity|]. split; assumption.
Qed.
End Parses.

Lemma parses_len allowed s cmds r : parses allowed s cmds r -> zlen s = zlen (flat_map wire cmds) + zlen r /\ zlen cmds <= zlen (flat_map wire cmds).
Proof.
  intros (-> & _). rewrite zlen_app. split; [reflexivity|].
  induction cmds as [|c cmds IH]; [cbn; lia|]. cbn [flat_map]. rewrite zlen_app, zlen_cons. pose proof (wire_len c). lia.
Qed.

(** ** The command handlers *)

Definition pub_eff {St} (eff_ack : St -> Z * Z -> res St) (has_cb : bool)
    (eff_ctrl : St -> option (list Z) -> res St) (st : St) (c : cmd) : res St :=
  match c with
  | CmdAck a b => eff_ack st (a, b)
  | CmdCtrl p => eff_ctrl st (if has_cb then Some p else None)
  | CmdPacket _ _ => Ok st
  end.
Definition sub_eff {St} (dup : St -> Z -> bool) (eff : St -> header * list Z -> res St) (st : St) (c : cmd) : res St :=
  match c with
  | CmdPacket h p => if dup st (h_pid h) then Ok st else eff st (h, p)
  | _ => Ok st
  end.

Lemma next_pos_add size pos m1 m2 r : 0 < size -> next_pos size ((pos + m1) mod size) m2 r = next_pos size pos (m1 + m2) r.
Proof. intros H. destruct r; [reflexivity|]. unfold next_pos. rewrite Zplus_mod_idemp_l. f_equal. lia. Qed.

Lemma ctrl_bad_iff rb len : cb_wf rb -> 0 <= len -> 3 + len <= circ_buf_in_use rb ->
  (read_offset_bad rb 3 len <->
   ~ (3 <= cb_size rb - (cb_start rb + 3) mod cb_size rb \/ len <= cb_size rb - (cb_start rb + 3) mod cb_size rb)).
Proof.
  intros H Hl Hi. unfold read_offset_bad. rewrite Z.min_l by lia.
  pose proof (in_use_val rb H) as Hv. pose proof (in_use_bounds rb H) as Hb. assert (Hwf := H). unfold cb_wf in Hwf.
  split; [lia|]. intros A. split; [|lia].
  set (si := (cb_start rb + 3) mod cb_size rb) in *.
  assert (Hsi : si = cb_start rb + 3 \/ si = cb_start rb + 3 - cb_size rb).
  { unfold si. destruct (Z_lt_ge_dec (cb_start rb + 3) (cb_size rb)).
    - left. apply Z.mod_small. lia.
    - right. replace (cb_start rb + 3) with ((cb_start rb + 3 - cb_size rb) + 1 * cb_size rb) by lia.
      rewrite Z.mod_add by lia. rewrite Z.mod_small by lia. lia. }
  destruct (cb_start rb <=? cb_stop rb) eqn:E; lia.
Qed.

Section Handlers.
Context {St : Type}.
Variables (eff_ack : St -> Z * Z -> res St) (has_cb : bool) (eff_ctrl : St -> option (list Z) -> res St).

Lemma pub_handler_cmd st rb c rest : cb_wf rb -> bytes_ok (contents rb) -> pub_next (contents rb) = NCmd c rest ->
  (has_cb = true -> ctrl_ok (cb_size rb) (cb_start rb) c) ->
  exists h rb', pub_dispatch eff_ack has_cb eff_ctrl (hd 0 (contents rb)) = Some h /\
    h st rb = (do st' <- pub_eff eff_ack has_cb eff_ctrl st c; Ok (0, st', rb')) /\
    cb_wf rb' /\ cb_size rb' = cb_size rb /\ contents rb' = rest /\
    cb_start rb' = next_pos (cb_size rb) (cb_start rb) (zlen (wire c)) rest.
Proof.
  intros H Hb. pose proof (contents_len rb H) as Hcl. pose proof (in_use_bounds rb H) as Hib.
  assert (Hsz : cb_size rb <= cb_max) by (unfold cb_wf in H; lia). unfold cb_max in Hsz.
  destruct (contents rb) as [|b r] eqn:Ec; [discriminate|]. cbn [hd]. rewrite zlen_cons in Hcl. inversion Hb as [|? ? Hb0 Hbr]; subst.
  unfold pub_next, pub_dispatch, RMC_CMD_ACK_INTERVAL, RMC_CMD_CONTROL_MESSAGE.
  destruct (b =? 2) eqn:E2.
  - destruct (16 <=? zlen r) eqn:E; [|discriminate]. intros A. apply ncmd_inj in A. destruct A as (<- & <-). intros _.
    destruct (free_full rb (ack_size + 1) H ltac:(unfold ack_size; lia)) as (rb' & Ef & Hw & Hz & Hc & Hp).
    rewrite Ec in Hc, Hp. unfold ack_size in Hc, Hp. rewrite zdrop_S in Hc, Hp by lia.
    eexists; exists rb'. split; [reflexivity|]. split.
    + unfold parse_ack. replace (circ_buf_in_use rb <? ack_size + 1) with false by (unfold ack_size; lia).
      rewrite read_exact_ok by (try (apply read_low; [exact H|]); auto; unfold ack_size; lia). cbn [bind].
      rewrite Ef, Ec. cbn [bind fst pub_eff]. unfold ack_size. rewrite zslice_1.
      destruct (dec_ack (ztake 16 r)) as [x y]. reflexivity.
    + split; [exact Hw|]. split; [exact Hz|]. split; [exact Hc|]. rewrite Hp. cbn [wire]. rewrite zlen_cons, enc_ack_zlen. reflexivity.
  - destruct (b =? 3) eqn:E3; [|discriminate]. destruct (2 <=? zlen r) eqn:E; [|discriminate]. cbv zeta.
    set (len := dec_ctrl (ztake 2 r)). destruct (2 + len <=? zlen r) eqn:El; [|discriminate].
    intros A. apply ncmd_inj in A. destruct A as (<- & <-). intros Hok.
    pose proof (dec_ctrl_ok _ (bytes_take 2 _ Hbr)) as Hlen. fold len in Hlen. unfold is_u16 in Hlen.
    assert (Hzl : zlen (ztake len (zdrop 2 r)) = len).
    { apply zlen_ztake. rewrite zlen_zdrop by lia. lia. }
    destruct (free_full rb (ctrl_size + 1 + len) H ltac:(unfold ctrl_size; lia)) as (rb' & Ef & Hw & Hz & Hc & Hp).
    rewrite Ec in Hc, Hp. unfold ctrl_size in Hc, Hp.
    replace (2 + 1 + len) with ((2 + len) + 1) in Hc, Hp by lia. rewrite zdrop_S in Hc, Hp by lia.
    eexists; exists rb'. split; [reflexivity|]. split.
    + unfold parse_ctrl. replace (circ_buf_in_use rb <? ctrl_size + 1) with false by (unfold ctrl_size; lia).
      rewrite read_exact_ok by (try (apply read_low; [exact H|]); auto; unfold ctrl_size; lia). cbn [bind].
      rewrite Ec. unfold ctrl_size. rewrite zslice_1. cbv zeta. fold len.
      replace (circ_buf_in_use rb <? 2 + 1 + len) with false by lia.
      assert (Er : (if has_cb then (do p <- read_exact rb (1 + 2) len; Ok (Some p)) else Ok None)
                   = Ok (if has_cb then Some (ztake len (zdrop 2 r)) else None)).
      { destruct has_cb; [|reflexivity]. rewrite read_exact_ok; try lia; [|exact H|].
        - rewrite Ec. cbn [bind]. unfold zslice. change (zdrop (1 + 2) (b :: r)) with (zdrop 2 r). reflexivity.
        - change (1 + 2) with 3. rewrite ctrl_bad_iff by (auto; lia). specialize (Hok eq_refl). cbn [ctrl_ok] in Hok. cbv zeta in Hok. rewrite Hzl in Hok. tauto. }
      rewrite Er. cbn [bind]. unfold ctrl_size in Ef. rewrite Ef. cbn [bind fst pub_eff]. reflexivity.
    + split; [exact Hw|]. split; [exact Hz|]. split; [exact Hc|]. rewrite Hp. cbn [wire].
      rewrite zlen_cons, zlen_app, enc_ctrl_zlen, Hzl. f_equal. lia.
Qed.
Lemma pub_handler_more st rb : cb_wf rb -> bytes_ok (contents rb) -> contents rb <> [] -> pub_next (contents rb) = NMore ->
  exists h, pub_dispatch eff_ack has_cb eff_ctrl (hd 0 (contents rb)) = Some h /\ h st rb = Ok (EAGAIN, st, rb).
Proof.
  intros H Hb Hne. pose proof (contents_len rb H) as Hcl. pose proof (in_use_bounds rb H) as Hib.
  destruct (contents rb) as [|b r] eqn:Ec; [contradiction|]. cbn [hd]. rewrite zlen_cons in Hcl. inversion Hb as [|? ? Hb0 Hbr]; subst.
  unfold pub_next, pub_dispatch, RMC_CMD_ACK_INTERVAL, RMC_CMD_CONTROL_MESSAGE.
  destruct (b =? 2) eqn:E2.
  - destruct (16 <=? zlen r) eqn:E; [discriminate|]. intros _. eexists. split; [reflexivity|].
    unfold parse_ack. replace (circ_buf_in_use rb <? ack_size + 1) with true by (unfold ack_size; lia). reflexivity.
  - destruct (b =? 3) eqn:E3; [|discriminate]. destruct (2 <=? zlen r) eqn:E.
    + cbv zeta. set (len := dec_ctrl (ztake 2 r)). destruct (2 + len <=? zlen r) eqn:El; [discriminate|]. intros _.
      eexists. split; [reflexivity|].
      unfold parse_ctrl. replace (circ_buf_in_use rb <? ctrl_size + 1) with false by (unfold ctrl_size; lia).
      rewrite read_exact_ok by (try (apply read_low; [exact H|]); auto; unfold ctrl_size; lia). cbn [bind].
      rewrite Ec. unfold ctrl_size. rewrite zslice_1. cbv zeta. fold len.
      replace (circ_buf_in_use rb <? 2 + 1 + len) with true by lia. reflexivity.
    + intros _. eexists. split; [reflexivity|].
      unfold parse_ctrl. replace (circ_buf_in_use rb <? ctrl_size + 1) with true by (unfold ctrl_size; lia). reflexivity.
Qed.
Lemma pub_handler_bad rb : pub_next (contents rb) = NBad ->
  pub_dispatch eff_ack has_cb eff_ctrl (hd 0 (contents rb)) = None.
Proof.
  destruct (contents rb) as [|b r]; [discriminate|]. cbn [hd]. unfold pub_next, pub_dispatch, RMC_CMD_ACK_INTERVAL, RMC_CMD_CONTROL_MESSAGE.
  destruct (b =? 2). { destruct (16 <=? zlen r); discriminate. }
  destruct (b =? 3); [|reflexivity]. destruct (2 <=? zlen r); [|discriminate]. cbv zeta. destruct (_ <=? _); discriminate.
Qed.

End Handlers.
Section SubHandlers.
Context {St : Type}.
Variables (dup : St -> Z -> bool) (eff : St -> header * list Z -> res St).
Lemma sub_handler_cmd st rb c rest : cb_wf rb -> bytes_ok (contents rb) -> sub_next (contents rb) = NCmd c rest ->
  exists h rb', sub_dispatch dup eff (hd 0 (contents rb)) = Some h /\
    h st rb = (do st' <- sub_eff dup eff st c; Ok (0, st', rb')) /\
    cb_wf rb' /\ cb_size rb' = cb_size rb /\ contents rb' = rest /\
    cb_start rb' = next_pos (cb_size rb) (cb_start rb) (zlen (wire c)) rest.
Proof.
  intros H Hb. pose proof (contents_len rb H) as Hcl. pose proof (in_use_bounds rb H) as Hib.
  assert (Hsz : cb_size rb <= cb_max) by (unfold cb_wf in H; lia). unfold cb_max in Hsz.
  destruct (contents rb) as [|b r] eqn:Ec; [discriminate|]. cbn [hd]. rewrite zlen_cons in Hcl. inversion Hb as [|? ? Hb0 Hbr]; subst.
  unfold sub_next, sub_dispatch, RMC_CMD_PACKET.
  destruct (b =? 1) eqn:E2; [|discriminate].
  destruct (20 <=? zlen r) eqn:E; [|discriminate]. cbv zeta. set (h := dec_header (ztake 20 r)).
  destruct (20 + h_len h <=? zlen r) eqn:El; [|discriminate].
  intros A. apply ncmd_inj in A. destruct A as (<- & <-).
  pose proof (dec_header_ok _ (bytes_take 20 _ Hbr)) as Hh. fold h in Hh.
  assert (Hlen : 0 <= h_len h < 65536) by (destruct Hh as (_ & _ & Hlen & _); unfold is_u16 in Hlen; lia).
  assert (Hzl : zlen (ztake (h_len h) (zdrop 20 r)) = h_len h).
  { apply zlen_ztake. rewrite zlen_zdrop by lia. lia. }
  destruct (free_full rb (1 + header_size) H ltac:(unfold header_size; lia)) as (rb1 & Ef & Hw & Hz & Hc & Hp).
  rewrite Ec in Hc, Hp. unfold header_size in Hc, Hp. change (1 + 20) with (20 + 1) in Hc, Hp. rewrite zdrop_S in Hc, Hp by lia.
  assert (F2 : exists rb2 x, circ_buf_free rb1 (h_len h) = Ok (rb2, x) /\ cb_wf rb2 /\ cb_size rb2 = cb_size rb /\
     contents rb2 = zdrop (20 + h_len h) r /\
     cb_start rb2 = next_pos (cb_size rb) (cb_start rb) (21 + h_len h) (zdrop (20 + h_len h) r)).
  { destruct (Z.eq_dec (h_len h) 0) as [E0|N0].
    - rewrite E0. exists rb1, (circ_buf_in_use rb1). split; [reflexivity|]. split; [exact Hw|]. split; [exact Hz|].
      split; [exact Hc|exact Hp].
    - destruct (free_full rb1 (h_len h) Hw ltac:(lia)) as (rb2 & Ef2 & Hw2 & Hz2 & Hc2 & Hp2).
      exists rb2, (zlen (contents rb2)). split; [exact Ef2|]. split; [exact Hw2|]. split; [congruence|].
      rewrite Hc, zdrop_zdrop in Hc2, Hp2 by lia. split; [exact Hc2|]. rewrite Hp2, Hz, Hp.
      destruct (zdrop 20 r) as [|y l] eqn:D.
      + exfalso. assert (Z0 : zlen (zdrop 20 r) = 0) by (rewrite D; reflexivity). rewrite zlen_zdrop in Z0 by lia. lia.
      + change (next_pos (cb_size rb) (cb_start rb) (20 + 1) (y :: l)) with ((cb_start rb + 21) mod cb_size rb).
        apply next_pos_add. unfold cb_wf in H. lia. }
  destruct F2 as (rb2 & x & Ef2 & Hw2 & Hz2 & Hc2 & Hp2).
  eexists; exists rb2. split; [reflexivity|]. split.
  - unfold parse_packet. replace (circ_buf_in_use rb <? 1 + header_size) with false by (unfold header_size; lia).
    rewrite read_exact_ok by (try (apply read_low; [exact H|]); auto; unfold header_size; lia). cbn [bind].
    rewrite Ec. unfold header_size. rewrite zslice_1. cbv zeta. fold h.
    replace (circ_buf_in_use rb <? 1 + 20 + h_len h) with false by lia.
    unfold header_size in Ef. rewrite Ef. cbn [bind fst sub_eff].
    destruct (dup st (h_pid h)).
    + rewrite Ef2. reflexivity.
    + pose proof (contents_len rb1 Hw) as Hcl1. rewrite Hc in Hcl1. rewrite zlen_zdrop in Hcl1 by lia.
      rewrite read_exact_ok by (try (apply read_low; [exact Hw|]); auto; lia). cbn [bind].
      rewrite Ef2. cbn [bind fst]. unfold zslice. rewrite Hc. rewrite (zdrop_0 0) by lia. reflexivity.
  - split; [exact Hw2|]. split; [exact Hz2|]. split; [exact Hc2|]. rewrite Hp2. cbn [wire].
    rewrite zlen_cons, zlen_app, enc_header_zlen, Hzl. f_equal. lia.
Qed.
Lemma sub_handler_more st rb : cb_wf rb -> bytes_ok (contents rb) -> contents rb <> [] -> sub_next (contents rb) = NMore ->
  exists h, sub_dispatch dup eff (hd 0 (contents rb)) = Some h /\ h st rb = Ok (EAGAIN, st, rb).
Proof.
  intros H Hb Hne. pose proof (contents_len rb H) as Hcl. pose proof (in_use_bounds rb H) as Hib.
  destruct (contents rb) as [|b r] eqn:Ec; [contradiction|]. cbn [hd]. rewrite zlen_cons in Hcl. inversion Hb as [|? ? Hb0 Hbr]; subst.
  unfold sub_next, sub_dispatch, RMC_CMD_PACKET.
  destruct (b =? 1) eqn:E2; [|discriminate]. destruct (20 <=? zlen r) eqn:E.
  - cbv zeta. set (h := dec_header (ztake 20 r)). destruct (20 + h_len h <=? zlen r) eqn:El; [discriminate|]. intros _.
    eexists. split; [reflexivity|].
    unfold parse_packet. replace (circ_buf_in_use rb <? 1 + header_size) with false by (unfold header_size; lia).
    rewrite read_exact_ok by (try (apply read_low; [exact H|]); auto; unfold header_size; lia). cbn [bind].
    rewrite Ec. unfold header_size. rewrite zslice_1. cbv zeta. fold h.
    replace (circ_buf_in_use rb <? 1 + 20 + h_len h) with true by lia. reflexivity.
  - intros _. eexists. split; [reflexivity|].
    unfold parse_packet. replace (circ_buf_in_use rb <? 1 + header_size) with true by (unfold header_size; lia). reflexivity.
Qed.
Lemma sub_handler_bad rb : sub_next (contents rb) = NBad -> sub_dispatch dup eff (hd 0 (contents rb)) = None.
Proof.
  destruct (contents rb) as [|b r]; [discriminate|]. cbn [hd]. unfold sub_next, sub_dispatch, RMC_CMD_PACKET.
  destruct (b =? 1); [|reflexivity]. destruct (20 <=? zlen r); [|discriminate]. cbv zeta. destruct (_ <=? _); discriminate.
Qed.
End SubHandlers.

(** ** The processing loop *)

Fixpoint iter_nat {S R} (n : nat) (f : S -> S + R) (s : S) : S + R :=
  match n with
  | O => inl s
  | Datatypes.S n => match f s with inl s' => iter_nat n f s' | inr r => inr r end
  end.
Lemma iter_nat_add {S R} (f : S -> S + R) n m s :
  iter_nat (n + m) f s = match iter_nat n f s with inl s' => iter_nat m f s' | inr r => inr r end.
Proof.
  revert s. induction n as [|n IH]; intros s; cbn [iter_nat Nat.add]; [reflexivity|].
  destruct (f s) as [s'|r]; [apply IH|reflexivity].
Qed.
Lemma iterate_nat {S R} p (f : S -> S + R) : forall s, iterate p f s = iter_nat (Pos.to_nat p) f s.
Proof.
  induction p as [p IH|p IH|]; intros s; cbn [iterate].
  - rewrite Pos2Nat.inj_xI. cbn [iter_nat]. destruct (f s) as [s1|r]; [|reflexivity].
    replace (2 * Pos.to_nat p)%nat with (Pos.to_nat p + Pos.to_nat p)%nat by lia.
    rewrite iter_nat_add, IH. destruct (iter_nat (Pos.to_nat p) f s1); [apply IH|reflexivity].
  - rewrite Pos2Nat.inj_xO. replace (2 * Pos.to_nat p)%nat with (Pos.to_nat p + Pos.to_nat p)%nat by lia.
    rewrite iter_nat_add, IH. destruct (iter_nat (Pos.to_nat p) f s); [apply IH|reflexivity].
  - change (Pos.to_nat 1) with 1%nat. cbn [iter_nat]. destruct (f s); reflexivity.
Qed.

Lemma run_cmds_app {St} (eff : St -> cmd -> res St) c1 : forall st c2,
  run_cmds eff st (c1 ++ c2) = bind (run_cmds eff st c1) (fun st' => run_cmds eff st' c2).
Proof.
  induction c1 as [|c c1 IH]; intros st c2; cbn [run_cmds app bind]; [reflexivity|].
  destruct (eff st c); cbn [bind]; auto.
Qed.

(** Code returned for the bytes that are left over. *)
Definition left_code (next : list Z -> nres) (r : list Z) : Z :=
  match r with [] => 0 | _ => match next r with NBad => EPROTO | _ => EAGAIN end end.
Definition left_op (next : list Z -> nres) (r : list Z) : Z :=
  match r with [] => RMC_READ_TCP | _ => match next r with NBad => RMC_ERROR | _ => RMC_READ_TCP end end.

Section Loop.
Context {St : Type}.
Variables (dispatch : Z -> option (St -> cbuf -> res (Z * St * cbuf))) (eff : St -> cmd -> res St)
          (allowed : cmd -> Prop) (next : list Z -> nres) (cb : bool).
Hypothesis next_sound : forall s c rest, bytes_ok s -> next s = NCmd c rest -> s = wire c ++ rest /\ cmd_ok c /\ allowed c.
Hypothesis next_complete : forall c rest, cmd_ok c -> allowed c -> next (wire c ++ rest) = NCmd c rest.
Hypothesis handler_cmd : forall st rb c rest, cb_wf rb -> bytes_ok (contents rb) -> next (contents rb) = NCmd c rest ->
  (cb = true -> ctrl_ok (cb_size rb) (cb_start rb) c) ->
  exists h rb', dispatch (hd 0 (contents rb)) = Some h /\
    h st rb = (do st' <- eff st c; Ok (0, st', rb')) /\
    cb_wf rb' /\ cb_size rb' = cb_size rb /\ contents rb' = rest /\
    cb_start rb' = next_pos (cb_size rb) (cb_start rb) (zlen (wire c)) rest.
Hypothesis handler_more : forall st rb, cb_wf rb -> bytes_ok (contents rb) -> contents rb <> [] -> next (contents rb) = NMore ->
  exists h, dispatch (hd 0 (contents rb)) = Some h /\ h st rb = Ok (EAGAIN, st, rb).
Hypothesis handler_bad : forall rb, next (contents rb) = NBad -> dispatch (hd 0 (contents rb)) = None.

Lemma read_cmd_ok rb prev : cb_wf rb -> contents rb <> [] -> read_cmd rb prev = Ok (0, hd 0 (contents rb)).
Proof.
  intros H Hne. unfold read_cmd. rewrite read_spec by (auto; unfold is_u32; lia). cbn [bind fst snd].
  destruct (contents rb) as [|b r]; [contradiction|]. reflexivity.
Qed.

Lemma loop_spec : forall cmds n st rb prev r st',
  (length cmds < n)%nat -> cb_wf rb -> bytes_ok (contents rb) -> contents rb <> [] ->
  parses allowed (contents rb) cmds r -> (cb = true -> ctrls_ok (cb_size rb) (cb_start rb) cmds) ->
  run_cmds eff st cmds = Ok st' ->
  exists rb', iter_nat n (read_round dispatch) (st, rb, prev)
                = inr (Ok (mkR (left_code next r) (left_op next r) st' rb')) /\
    cb_wf rb' /\ cb_size rb' = cb_size rb /\ contents rb' = r /\
    cb_start rb' = next_pos (cb_size rb) (cb_start rb) (zlen (flat_map wire cmds)) r.
Proof.
  induction cmds as [|c cmds IH]; intros n st rb prev r st' Hn Hw Hb Hne Hp Hc Hr.
  - destruct n as [|n]; [lia|]. cbn [iter_nat]. unfold read_round. rewrite read_cmd_ok by assumption.
    change (negb (0 =? 0)) with false. cbv iota.
    assert (Hp' := Hp). destruct Hp as (E & _ & N). cbn [flat_map app] in E. cbn [run_cmds] in Hr. injection Hr as <-.
    assert (Hpos : cb_start rb = next_pos (cb_size rb) (cb_start rb) (zlen (flat_map wire [])) r).
    { destruct r as [|y r]; [contradiction|]. cbn [flat_map]. unfold next_pos. change (zlen (@nil Z)) with 0. rewrite Z.add_0_r.
      symmetry. apply Z.mod_small. unfold cb_wf in Hw. lia. }
    destruct (next (contents rb)) as [| |c rest] eqn:En.
    + destruct (handler_more st rb Hw Hb Hne En) as (h & Hd & Hh). rewrite Hd, Hh. cbn [fst snd].
      change (negb (EAGAIN =? 0)) with true. cbv iota. change (EAGAIN =? EAGAIN) with true. cbv iota.
      exists rb. rewrite <- E. split.
      { unfold left_code, left_op. destruct (contents rb) as [|y l] eqn:Ec; [contradiction|]. rewrite En. reflexivity. }
      rewrite E. split; [exact Hw|]. split; [reflexivity|]. split; [reflexivity|exact Hpos].
    + rewrite handler_bad by exact En. exists rb. rewrite <- E. split.
      { unfold left_code, left_op. destruct (contents rb) as [|y l] eqn:Ec; [contradiction|]. rewrite En. reflexivity. }
      rewrite E. split; [exact Hw|]. split; [reflexivity|]. split; [reflexivity|exact Hpos].
    + exfalso. destruct (next_sound _ _ _ Hb En) as (E2 & A & B). apply (N c rest A B). rewrite <- E. exact E2.
  - destruct n as [|n]; [lia|]. cbn [iter_nat]. unfold read_round at 1. rewrite read_cmd_ok by assumption.
    change (negb (0 =? 0)) with false. cbv iota.
    destruct (parses_cons _ _ _ _ _ Hp) as (rest & E & A & B & Hp2).
    assert (En : next (contents rb) = NCmd c rest) by (rewrite E; apply next_complete; assumption).
    cbn [run_cmds] in Hr. apply bind_ok in Hr. destruct Hr as (st1 & He & Hr).
    destruct (handler_cmd st rb c rest Hw Hb En) as (h & rb1 & Hd & Hh & Hw1 & Hz1 & Hc1 & Hs1).
    { intros Hcb. apply Hc in Hcb. cbn [ctrls_ok] in Hcb. tauto. }
    rewrite Hd, Hh, He. cbn [bind]. change (negb (0 =? 0)) with false. cbv iota.
    rewrite <- (contents_len rb1) by assumption. rewrite Hc1.
    assert (Hsz : 0 < cb_size rb) by (unfold cb_wf in Hw; lia).
    destruct (zlen rest =? 0) eqn:Ez.
    + apply Z.eqb_eq in Ez. apply zlen_zero in Ez. rewrite Ez in *.
      assert (cmds = [] /\ r = []).
      { destruct Hp2 as (E2 & _). symmetry in E2. apply app_eq_nil in E2. destruct E2 as (E2 & ->). split; [|reflexivity].
        destruct cmds as [|d cmds]; [reflexivity|]. cbn [flat_map] in E2. pose proof (wire_len d) as W.
        apply app_eq_nil in E2. destruct E2 as (E2 & _). rewrite E2 in W. change (zlen (@nil Z)) with 0 in W. lia. }
      destruct H as (-> & ->). cbn [run_cmds] in Hr. injection Hr as <-.
      exists rb1. split; [reflexivity|]. split; [exact Hw1|]. split; [exact Hz1|]. split; [exact Hc1|exact Hs1].
    + assert (Hrne : rest <> []) by (intros ->; change (zlen (@nil Z)) with 0 in Ez; discriminate Ez).
      assert (Hs1' : cb_start rb1 = (cb_start rb + zlen (wire c)) mod cb_size rb) by (rewrite Hs1; destruct rest; [contradiction|reflexivity]).
      destruct (IH n st1 rb1 (hd 0 (contents rb)) r st') as (rb' & Hit & Hw' & Hz' & Hc' & Hs').
      { cbn [length] in Hn. lia. } { exact Hw1. }
      { rewrite Hc1. rewrite E in Hb. apply Forall_app in Hb. tauto. }
      { rewrite Hc1. exact Hrne. } { rewrite Hc1. exact Hp2. }
      { intros Hcb. apply Hc in Hcb. cbn [ctrls_ok] in Hcb. rewrite Hz1, Hs1'. tauto. }
      { exact Hr. }
      exists rb'. split; [exact Hit|]. split; [exact Hw'|]. split; [congruence|]. split; [exact Hc'|].
      rewrite Hs', Hz1, Hs1'. rewrite next_pos_add by lia. cbn [flat_map]. rewrite zlen_app. reflexivity.
Qed.

Lemma process_spec st rb cmds r st' : cb_wf rb -> bytes_ok (contents rb) -> contents rb <> [] ->
  parses allowed (contents rb) cmds r -> (cb = true -> ctrls_ok (cb_size rb) (cb_start rb) cmds) ->
  run_cmds eff st cmds = Ok st' ->
  exists rb', process_tcp_read dispatch st rb = Ok (mkR (left_code next r) (left_op next r) st' rb') /\
    cb_wf rb' /\ cb_size rb' = cb_size rb /\ contents rb' = r /\
    cb_start rb' = next_pos (cb_size rb) (cb_start rb) (zlen (flat_map wire cmds)) r.
Proof.
  intros Hw Hb Hne Hp Hc Hr. unfold process_tcp_read. rewrite iterate_nat.
  destruct (loop_spec cmds (Pos.to_nat 4294967296) st rb 0 r st') as (rb' & Hit & H); auto.
  { pose proof (parses_len _ _ _ _ Hp) as (L1 & L2). pose proof (zlen_nonneg r). pose proof (contents_len rb Hw).
    pose proof (in_use_bounds rb Hw). unfold cb_wf, cb_max in Hw. unfold zlen in *. lia. }
  rewrite Hit. exists rb'. split; [reflexivity|exact H].
Qed.

(** One read. *)
Lemma tcp_read_spec st rb c cmds r st' : cb_wf rb -> bytes_ok (contents rb) -> bytes_ok c -> c <> [] ->
  zlen (contents rb) + zlen c <= cb_size rb - 1 ->
  read_ok (cb_size rb) (cb_start rb) (zlen (contents rb) + zlen c) ->
  parses allowed (contents rb ++ c) cmds r -> (cb = true -> ctrls_ok (cb_size rb) (cb_start rb) cmds) ->
  run_cmds eff st cmds = Ok st' ->
  exists rb', tcp_read dispatch st rb (RData c) = Ok (mkR (left_code next r) (left_op next r) st' rb') /\
    cb_wf rb' /\ cb_size rb' = cb_size rb /\ contents rb' = r /\
    cb_start rb' = next_pos (cb_size rb) (cb_start rb) (zlen (flat_map wire cmds)) r.
Proof.
  intros Hw Hb Hbc Hne Hl Hro Hp Hc Hr. unfold tcp_read.
  assert (Hpos : 0 < zlen c). { destruct c; [contradiction|]. rewrite zlen_cons. pose proof (zlen_nonneg c). lia. }
  rewrite contents_len in Hl, Hro by exact Hw.
  destruct (fill_spec rb c Hw Hpos) as (rb1 & E & Hz & Hs & Hgood & _). { rewrite available_val by exact Hw. lia. }
  rewrite E. cbn [bind]. change (0 =? 0) with true. cbv iota.
  destruct (Hgood Hro) as (Hw1 & Hc1).
  rewrite <- Hz, <- Hs. apply process_spec; rewrite ?Hc1, ?Hz, ?Hs; auto.
  - apply Forall_app. auto.
  - intros A. apply app_eq_nil in A. tauto.
Qed.

(** The reads of a connection, one after the other. *)
Fixpoint feed (st : St) (rb : cbuf) (cs : list (list Z)) : res (list Z * St * cbuf) :=
  match cs with
  | [] => Ok ([], st, rb)
  | c :: rest =>
      do r <- tcp_read dispatch st rb (RData c);
      do x <- feed (r_st r) (r_buf r) rest;
      Ok (r_code r :: fst (fst x), snd (fst x), snd x)
  end.

Lemma benign_bytes size pos left cs : benign allowed cb size pos left cs -> bytes_ok (concat cs).
Proof. induction 1; cbn [concat]; [constructor|]. apply Forall_app; split; assumption. Qed.

Lemma feed_spec size pos left cs : benign allowed cb size pos left cs ->
  forall st rb cmds r st', cb_wf rb -> bytes_ok left -> cb_size rb = size -> cb_start rb = pos -> contents rb = left ->
  parses allowed left [] left ->
  parses allowed (left ++ concat cs) cmds r ->
  run_cmds eff st cmds = Ok st' ->
  exists codes rb', feed st rb cs = Ok (codes, st', rb') /\ cb_wf rb' /\ contents rb' = r /\ cb_size rb' = size /\
    Forall (fun e => e = 0 \/ e = EAGAIN \/ e = EPROTO) codes /\
    (cs <> [] -> last codes 0 = left_code next r).
Proof.
  induction 1 as [pos left|pos left c cs cmds1 r1 Hne Hbc Hl Hro Hp1 Hc1 Hbn IH];
    intros st rb cmds r st' Hw Hbl Hz Hs Hcont Hpl Hp Hr.
  - cbn [concat] in Hp. rewrite app_nil_r in Hp.
    destruct (parses_unique allowed next next_complete _ _ _ _ _ Hpl Hp) as (<- & <-).
    cbn [run_cmds] in Hr. injection Hr as <-. exists [], rb. cbn [feed]. split; [reflexivity|].
    split; [exact Hw|]. split; [exact Hcont|]. split; [exact Hz|]. split; [constructor|]. intros A; contradiction.
  - assert (Hr1 : bytes_ok r1 /\ parses allowed r1 [] r1).
    { destruct Hp1 as (E & F & N). split.
      - assert (X : bytes_ok (left ++ c)) by (apply Forall_app; auto). rewrite E in X. apply Forall_app in X. tauto.
      - split; [reflexivity|]. split; [constructor|exact N]. }
    destruct Hr1 as (Hbr1 & Hpr1).
    destruct (parses_exists allowed next next_sound next_complete (S (length (r1 ++ concat cs))) (r1 ++ concat cs)) as (cmds2 & r2 & Hp2).
    { lia. } { apply Forall_app. split; [exact Hbr1|]. exact (benign_bytes _ _ _ _ Hbn). }
    pose proof (parses_app allowed _ _ _ _ _ _ Hp1 Hp2) as Hp'. cbn [concat] in Hp. rewrite <- app_assoc in Hp'.
    destruct (parses_unique allowed next next_complete _ _ _ _ _ Hp' Hp) as (<- & <-).
    rewrite run_cmds_app in Hr. apply bind_ok in Hr. destruct Hr as (st1 & Hr1 & Hr2).
    destruct (tcp_read_spec st rb c cmds1 r1 st1) as (rb1 & Et & Hw1 & Hz1 & Hc1' & Hs1); rewrite ?Hcont, ?Hz, ?Hs; auto.
    destruct (IH st1 rb1 cmds2 r2 st' Hw1 Hbr1 ltac:(congruence) ltac:(congruence) Hc1' Hpr1 Hp2 Hr2)
      as (codes & rb' & Ef & Hw' & Hc' & Hz' & Hco & Hlast).
    exists (left_code next r1 :: codes), rb'. cbn [feed]. rewrite Et. cbn [bind r_st r_buf r_code]. rewrite Ef. cbn [bind fst snd].
    split; [reflexivity|]. split; [exact Hw'|]. split; [exact Hc'|]. split; [exact Hz'|]. split.
    + constructor; [|exact Hco]. unfold left_code. destruct r1; [auto|]. destruct (next (z :: r1)); auto.
    + intros _. destruct cs as [|c2 cs].
      * cbn [feed] in Ef. injection Ef as <- _ _. cbn [last]. cbn [concat] in Hp2. rewrite app_nil_r in Hp2.
        destruct (parses_unique allowed next next_complete _ _ _ _ _ Hpr1 Hp2) as (_ & <-). reflexivity.
      * specialize (Hlast ltac:(discriminate)). destruct codes as [|e codes].
        { exfalso. cbn [feed] in Ef. apply bind_ok in Ef. destruct Ef as (? & _ & Ef). apply bind_ok in Ef. destruct Ef as (? & _ & Ef). discriminate Ef. }
        exact Hlast.
Qed.
End Loop.

(** ** The writers *)

Lemma put_cmd_spec wb cmd : cb_wf wb -> 1 <= circ_buf_available wb ->
  (cb_stop wb < cb_size wb ->
     exists wb', put_cmd wb cmd = Ok wb' /\ cb_wf wb' /\ cb_size wb' = cb_size wb /\ cb_start wb' = cb_start wb /\
       cb_stop wb' = cb_stop wb + 1 /\ contents wb' = contents wb ++ [cmd]) /\
  (cb_stop wb = cb_size wb -> put_cmd wb cmd = UB OutOfBounds).
Proof.
  intros H Ha. destruct (alloc_cases wb 1 H ltac:(lia) Ha)
    as (cb1 & s & Hal & Hw1 & Hsz & Hst & Hmem & Hiu & Hs1 & Hcase).
  unfold put_cmd. rewrite Hal, Hs1. cbn [seg_store]. split.
  - intros Hlt. destruct (alloc_store wb [cmd] 1 H eq_refl Ha) as (cb1' & s' & cb2 & Hal' & Hss & Hw2 & Hz2 & Hst2 & Hsp2 & Hc2).
    rewrite Hal in Hal'. injection Hal' as <- <-.
    destruct Hcase as [(L1 & S2 & L2 & Hfit & Hstop)|(L1 & S2 & L2 & Hpos & Hlt2 & Hstop & Hord)]; [|exfalso; lia].
    unfold segs_store in Hss. rewrite Hs1, L1, S2 in Hss. cbn [seg_store] in Hss.
    change (ztake 1 [cmd]) with [cmd] in Hss. change (zdrop 1 [cmd]) with (@nil Z) in Hss.
    apply bind_ok in Hss. destruct Hss as (x & Hx & Hx2). injection Hx2 as ->.
    exists cb2. split; [exact Hx|]. split; [exact Hw2|]. split; [exact Hz2|]. split; [exact Hst2|]. split; [congruence|exact Hc2].
  - intros He. unfold cb_store. change (zlen [cmd]) with 1. rewrite Hsz, He.
    replace (cb_size wb + 1 <=? cb_size wb) with false by lia. rewrite andb_false_r. reflexivity.
Qed.

Lemma put_bytes_spec wb bs : cb_wf wb -> zlen bs <= circ_buf_available wb ->
  exists wb', put_bytes wb bs = Ok wb' /\ cb_wf wb' /\ cb_size wb' = cb_size wb /\ cb_start wb' = cb_start wb /\
    cb_stop wb' = (if cb_stop wb + zlen bs <=? cb_size wb then cb_stop wb + zlen bs else cb_stop wb + zlen bs - cb_size wb) /\
    contents wb' = contents wb ++ bs.
Proof.
  intros H Ha. pose proof (zlen_nonneg bs) as Hnn.
  destruct (alloc_cases wb (zlen bs) H Hnn Ha) as (cb1 & s & Hal & Hw1 & Hsz & Hst & Hmem & Hiu & Hs1 & Hcase).
  destruct (alloc_store wb bs (zlen bs) H eq_refl Ha) as (cb1' & s' & cb2 & Hal' & Hss & Hw2 & Hz2 & Hst2 & Hsp2 & Hc2).
  rewrite Hal in Hal'. injection Hal' as <- <-.
  unfold put_bytes. rewrite Hal. exists cb2. split; [exact Hss|]. split; [exact Hw2|]. split; [exact Hz2|]. split; [exact Hst2|].
  split; [|exact Hc2]. rewrite Hsp2. destruct Hcase as [(L1 & S2 & L2 & Hfit & Hstop)|(L1 & S2 & L2 & Hpos & Hlt & Hstop & Hord)].
  - replace (cb_stop wb + zlen bs <=? cb_size wb) with true by lia. exact Hstop.
  - replace (cb_stop wb + zlen bs <=? cb_size wb) with false by lia. lia.
Qed.

Lemma avail_after wb wb' bs : cb_wf wb -> cb_wf wb' -> cb_size wb' = cb_size wb -> contents wb' = contents wb ++ bs ->
  circ_buf_available wb' = circ_buf_available wb - zlen bs.
Proof.
  intros H H' Hz Hc. rewrite !available_val by assumption. rewrite <- !contents_len by assumption. rewrite Hc, zlen_app, Hz. lia.
Qed.

Lemma write_packet_spec wb h p : cb_wf wb ->
  (circ_buf_available wb < 21 + zlen p -> write_packet wb h p = Ok (EAGAIN, wb)) /\
  (21 + zlen p <= circ_buf_available wb -> cb_stop wb < cb_size wb ->
     exists wb', write_packet wb h p = Ok (0, wb') /\ cb_wf wb' /\ cb_size wb' = cb_size wb /\ cb_start wb' = cb_start wb /\
       contents wb' = contents wb ++ wire (CmdPacket h p) /\
       (cb_stop wb + 21 + zlen p <= cb_size wb -> cb_stop wb' = cb_stop wb + 21 + zlen p)) /\
  (21 + zlen p <= circ_buf_available wb -> cb_stop wb = cb_size wb -> write_packet wb h p = UB OutOfBounds).
Proof.
  intros H. pose proof (zlen_nonneg p) as Hp. unfold write_packet, header_size. change (1 + 20) with 21.
  split; [|split].
  - intros A. replace (circ_buf_available wb <? 21 + zlen p) with true by lia. reflexivity.
  - intros A B. replace (circ_buf_available wb <? 21 + zlen p) with false by lia.
    destruct (put_cmd_spec wb RMC_CMD_PACKET H ltac:(lia)) as (P & _). destruct (P B) as (wb1 & E1 & Hw1 & Hz1 & Hs1 & T1 & Hc1).
    rewrite E1. cbn [bind]. pose proof (avail_after _ _ _ H Hw1 Hz1 Hc1) as A1. change (zlen [RMC_CMD_PACKET]) with 1 in A1.
    destruct (put_bytes_spec wb1 (enc_header h) Hw1) as (wb2 & E2 & Hw2 & Hz2 & Hs2 & T2 & Hc2). { rewrite enc_header_zlen. lia. }
    rewrite E2. cbn [bind]. pose proof (avail_after _ _ _ Hw1 Hw2 Hz2 Hc2) as A2. rewrite enc_header_zlen in A2.
    destruct (put_bytes_spec wb2 p Hw2 ltac:(lia)) as (wb3 & E3 & Hw3 & Hz3 & Hs3 & T3 & Hc3). rewrite E3. cbn [bind].
    exists wb3. split; [reflexivity|]. split; [exact Hw3|]. split; [congruence|]. split; [congruence|].
    split; [rewrite Hc3, Hc2, Hc1; cbn [wire]; rewrite <- !app_assoc; reflexivity|].
    intros Hfit. rewrite enc_header_zlen in T2. rewrite T1, Hz1 in T2.
    replace (cb_stop wb + 1 + 20 <=? cb_size wb) with true in T2 by lia. rewrite T2, Hz2, Hz1 in T3.
    replace (cb_stop wb + 1 + 20 + zlen p <=? cb_size wb) with true in T3 by lia. lia.
  - intros A B. replace (circ_buf_available wb <? 21 + zlen p) with false by lia.
    destruct (put_cmd_spec wb RMC_CMD_PACKET H ltac:(lia)) as (_ & P). rewrite P by exact B. reflexivity.
Qed.
Lemma write_ack_spec wb a b : cb_wf wb ->
  (circ_buf_available wb < 17 -> write_ack wb a b = Ok (ENOMEM, wb)) /\
  (17 <= circ_buf_available wb -> cb_stop wb < cb_size wb ->
     exists wb', write_ack wb a b = Ok (0, wb') /\ cb_wf wb' /\ cb_size wb' = cb_size wb /\ cb_start wb' = cb_start wb /\
       contents wb' = contents wb ++ wire (CmdAck a b)) /\
  (17 <= circ_buf_available wb -> cb_stop wb = cb_size wb -> write_ack wb a b = UB OutOfBounds).
Proof.
  intros H. unfold write_ack, ack_size. change (1 + 16) with 17.
  split; [|split].
  - intros A. replace (circ_buf_available wb <? 17) with true by lia. reflexivity.
  - intros A B. replace (circ_buf_available wb <? 17) with false by lia.
    destruct (put_cmd_spec wb RMC_CMD_ACK_INTERVAL H ltac:(lia)) as (P & _). destruct (P B) as (wb1 & E1 & Hw1 & Hz1 & Hs1 & _ & Hc1).
    rewrite E1. cbn [bind]. pose proof (avail_after _ _ _ H Hw1 Hz1 Hc1) as A1. change (zlen [RMC_CMD_ACK_INTERVAL]) with 1 in A1.
    destruct (put_bytes_spec wb1 (enc_ack a b) Hw1) as (wb2 & E2 & Hw2 & Hz2 & Hs2 & _ & Hc2). { rewrite enc_ack_zlen. lia. }
    rewrite E2. cbn [bind].
    exists wb2. split; [reflexivity|]. split; [exact Hw2|]. split; [congruence|]. split; [congruence|].
    rewrite Hc2, Hc1. cbn [wire]. rewrite <- !app_assoc. reflexivity.
  - intros A B. replace (circ_buf_available wb <? 17) with false by lia.
    destruct (put_cmd_spec wb RMC_CMD_ACK_INTERVAL H ltac:(lia)) as (_ & P). rewrite P by exact B. reflexivity.
Qed.

Lemma zlen_le_bytes n x : zlen (le_bytes n x) = Z.of_nat n.
Proof. unfold zlen. rewrite le_bytes_length. reflexivity. Qed.

(** The payload part of the control message writer. *)
Lemma put_ctrl_payload_spec wb p ptr : cb_wf wb -> zlen p <= circ_buf_available wb -> 0 < zlen p ->
  let l1 := cb_size wb - cb_stop wb in
  (cb_stop wb + zlen p <= cb_size wb ->
     exists wb', put_ctrl_payload wb p ptr = Ok wb' /\ cb_wf wb' /\ cb_size wb' = cb_size wb /\ contents wb' = contents wb ++ p /\
       cb_stop wb' = cb_stop wb + zlen p) /\
  (cb_size wb < cb_stop wb + zlen p -> zlen p <= 8 ->
     exists wb', put_ctrl_payload wb p ptr = Ok wb' /\ cb_wf wb' /\ cb_size wb' = cb_size wb /\
       contents wb' = contents wb ++ ztake l1 p ++ ztake (zlen p - l1) (zdrop l1 (le_bytes 8 ptr))) /\
  (cb_size wb < cb_stop wb + zlen p -> 8 < zlen p -> put_ctrl_payload wb p ptr = UB OutOfBounds).
Proof.
  intros H Ha Hp l1. assert (Hwf := H). unfold cb_wf in Hwf.
  destruct (alloc_cases wb (zlen p) H ltac:(lia) Ha) as (cb1 & s & Hal & Hw1 & Hsz & Hst & Hmem & Hiu & Hs1 & Hcase).
  unfold put_ctrl_payload. rewrite Hal, Hs1. split; [|split].
  - intros Hfit0. destruct Hcase as [(L1 & S2 & L2 & Hfit & Hstop)|(L1 & S2 & L2 & Hpos & Hlt & Hstop & Hord)]; [|exfalso; lia].
    destruct (alloc_store wb p (zlen p) H eq_refl Ha) as (cb1' & s' & cb2 & Hal' & Hss & Hw2 & Hz2 & Hst2 & Hsp2 & Hc2).
    rewrite Hal in Hal'. injection Hal' as <- <-. unfold segs_store in Hss. rewrite Hs1, L1, S2 in Hss.
    rewrite ztake_all, zdrop_all in Hss by lia. cbn [seg_store] in *.
    apply bind_ok in Hss. destruct Hss as (x & Hx & Hx2). injection Hx2 as ->.
    rewrite L1, L2, ztake_all by lia. rewrite Hx. cbn [bind]. exists cb2. split; [reflexivity|]. repeat (split; [assumption|]). congruence.
  - intros Hw8 H8. destruct Hcase as [(L1 & S2 & L2 & Hfit & Hstop)|(L1 & S2 & L2 & Hpos & Hlt & Hstop & Hord)]; [exfalso; lia|].
    set (g := ztake l1 p ++ ztake (zlen p - l1) (zdrop l1 (le_bytes 8 ptr))).
    assert (Hl1 : zlen (ztake l1 p) = l1) by (apply zlen_ztake; lia).
    assert (Hl8 : zlen (le_bytes 8 ptr) = 8) by apply zlen_le_bytes.
    assert (Hg : zlen g = zlen p).
    { unfold g. rewrite zlen_app, Hl1, zlen_ztake; [lia|]. rewrite zlen_zdrop by lia. lia. }
    destruct (alloc_store wb g (zlen p) H (eq_sym Hg) Ha) as (cb1' & s' & cb2 & Hal' & Hss & Hw2 & Hz2 & Hst2 & Hsp2 & Hc2).
    rewrite Hal in Hal'. injection Hal' as <- <-. unfold segs_store in Hss. rewrite Hs1, S2 in Hss. fold l1 in L1.
    rewrite L1 in Hss. unfold g in Hss. rewrite ztake_app_exact, zdrop_app_exact in Hss by (symmetry; exact Hl1).
    apply bind_ok in Hss. destruct Hss as (x & Hx & Hx2).
    rewrite L1, L2, Hx. cbn [bind]. replace (zlen p - seg1_len s =? 0) with false by lia.
    replace (l1 + (zlen p - seg1_len s) <=? 8) with true by lia. rewrite S2, L1. exists cb2. split; [exact Hx2|]. auto.
  - intros Hw8 H8. destruct Hcase as [(L1 & S2 & L2 & Hfit & Hstop)|(L1 & S2 & L2 & Hpos & Hlt & Hstop & Hord)]; [exfalso; lia|].
    cbn [seg_store]. destruct (slice_of_store cb1 (cb_stop wb) (ztake (seg1_len s) p)) as (x & Hx & _).
    { lia. } { rewrite zlen_ztake by lia. lia. }
    rewrite Hx. cbn [bind]. replace (seg2_len s =? 0) with false by lia. replace (seg1_len s + seg2_len s <=? 8) with false by lia. reflexivity.
Qed.

(** rmc_sub_write_control_message on an open connection with enough room. *)
Lemma write_ctrl_spec wb p ptr : cb_wf wb -> ptr <> 0 -> 0 < zlen p ->
  let size := cb_size wb in let stop := cb_stop wb in
  (circ_buf_available wb < 4 + zlen p -> write_ctrl wb p ptr = Ok (ENOMEM, wb)) /\
  (4 + zlen p <= circ_buf_available wb -> stop < size -> stop + 3 + zlen p <= size \/ size < stop + 3 ->
     exists wb', write_ctrl wb p ptr = Ok (0, wb') /\ cb_wf wb' /\ cb_size wb' = size /\
       contents wb' = contents wb ++ wire (CmdCtrl p) /\
       (stop + 3 + zlen p <= size -> cb_stop wb' = stop + 3 + zlen p)) /\
  (4 + zlen p <= circ_buf_available wb -> stop + 3 <= size -> size < stop + 3 + zlen p -> zlen p <= 8 ->
     exists wb', write_ctrl wb p ptr = Ok (0, wb') /\ cb_wf wb' /\ cb_size wb' = size /\
       contents wb' = contents wb ++ 3 :: enc_ctrl (zlen p) ++
         ztake (size - stop - 3) p ++ ztake (zlen p - (size - stop - 3)) (zdrop (size - stop - 3) (le_bytes 8 ptr))) /\
  (4 + zlen p <= circ_buf_available wb -> stop + 3 <= size -> size < stop + 3 + zlen p -> 8 < zlen p ->
     write_ctrl wb p ptr = UB OutOfBounds) /\
  (4 + zlen p <= circ_buf_available wb -> stop = size -> write_ctrl wb p ptr = UB OutOfBounds).
Proof.
  intros H Hptr Hp size stop. unfold write_ctrl, ctrl_size.
  replace ((ptr =? 0) || (zlen p =? 0)) with false by lia. replace (1 + 2 + zlen p + 1) with (4 + zlen p) by lia.
  split. { intros A. replace (circ_buf_available wb <? 4 + zlen p) with true by lia. reflexivity. }
  destruct (Z_lt_ge_dec (circ_buf_available wb) (4 + zlen p)) as [L|G].
  { repeat split; intros; exfalso; lia. }
  replace (circ_buf_available wb <? 4 + zlen p) with false by lia.
  destruct (put_cmd_spec wb RMC_CMD_CONTROL_MESSAGE H ltac:(lia)) as (P & PU). fold size stop in P, PU.
  assert (X : stop < size -> exists wb2, put_cmd wb RMC_CMD_CONTROL_MESSAGE = Ok wb2 /\ exists wb3,
     put_bytes wb2 (enc_ctrl (zlen p)) = Ok wb3 /\ cb_wf wb3 /\ cb_size wb3 = size /\ zlen p <= circ_buf_available wb3 /\
     cb_stop wb3 = (if stop + 3 <=? size then stop + 3 else stop + 3 - size) /\
     cb_start wb3 = cb_start wb /\ contents wb3 = contents wb ++ 3 :: enc_ctrl (zlen p)).
  { intros B. destruct (P B) as (wb1 & E1 & Hw1 & Hz1 & Hs1 & Hst1 & Hc1). exists wb1. split; [exact E1|].
    pose proof (avail_after _ _ _ H Hw1 Hz1 Hc1) as A1. change (zlen [RMC_CMD_CONTROL_MESSAGE]) with 1 in A1.
    destruct (put_bytes_spec wb1 (enc_ctrl (zlen p)) Hw1) as (wb2 & E2 & Hw2 & Hz2 & Hs2 & Hst2 & Hc2). { rewrite enc_ctrl_zlen. lia. }
    exists wb2. pose proof (avail_after _ _ _ Hw1 Hw2 Hz2 Hc2) as A2. rewrite enc_ctrl_zlen in A2, Hst2.
    split; [exact E2|]. split; [exact Hw2|]. split; [congruence|]. split; [lia|].
    split. { rewrite Hst2, Hst1, Hz1. fold size stop. replace (stop + 1 + 2) with (stop + 3) by lia. reflexivity. }
    split; [congruence|].
    rewrite Hc2, Hc1, <- app_assoc. reflexivity. }
  split; [|split; [|split]].
  - intros _ B C. destruct (X B) as (wb1 & E1 & wb2 & E2 & Hw2 & Hz2 & A2 & Hst2 & Hstart & Hc2). rewrite E1. cbn [bind]. rewrite E2. cbn [bind].
    destruct (put_ctrl_payload_spec wb2 p ptr Hw2 A2 Hp) as (Q & _). destruct Q as (wb3 & E3 & Hw3 & Hz3 & Hc3 & T3).
    { rewrite Hst2, Hz2. destruct (stop + 3 <=? size) eqn:E; [lia|].
      pose proof (in_use_val wb2 Hw2) as Hv. pose proof (available_val wb2 Hw2) as Hav. rewrite Hz2 in Hv, Hav.
      destruct (cb_start wb2 <=? cb_stop wb2) eqn:E3.
      - exfalso. rewrite Hst2 in Hv. assert (0 <= cb_start wb2) by (unfold cb_wf in Hw2; lia).
        rewrite <- contents_len in Hv by exact Hw2. rewrite Hc2, zlen_app, zlen_cons, enc_ctrl_zlen in Hv.
        pose proof (zlen_nonneg (contents wb)). lia.
      - rewrite Hst2 in Hv. unfold cb_wf in Hw2. lia. }
    rewrite E3. cbn [bind]. exists wb3. split; [reflexivity|]. split; [exact Hw3|]. split; [congruence|].
    split; [rewrite Hc3, Hc2; cbn [wire]; rewrite <- app_assoc; reflexivity|].
    intros Hfit. rewrite T3, Hst2. replace (stop + 3 <=? size) with true by lia. reflexivity.
  - intros _ B C D. destruct (X ltac:(lia)) as (wb1 & E1 & wb2 & E2 & Hw2 & Hz2 & A2 & Hst2 & Hstart & Hc2). rewrite E1. cbn [bind]. rewrite E2. cbn [bind].
    replace (stop + 3 <=? size) with true in Hst2 by lia.
    destruct (put_ctrl_payload_spec wb2 p ptr Hw2 A2 Hp) as (_ & Q & _). destruct (Q ltac:(lia) D) as (wb3 & E3 & Hw3 & Hz3 & Hc3).
    rewrite E3. cbn [bind]. exists wb3. split; [reflexivity|]. split; [exact Hw3|]. split; [congruence|].
    rewrite Hc3, Hc2, Hz2, Hst2. replace (size - (stop + 3)) with (size - stop - 3) by lia. rewrite <- app_assoc. reflexivity.
  - intros _ B C D. destruct (X ltac:(lia)) as (wb1 & E1 & wb2 & E2 & Hw2 & Hz2 & A2 & Hst2 & Hstart & Hc2). rewrite E1. cbn [bind]. rewrite E2. cbn [bind].
    replace (stop + 3 <=? size) with true in Hst2 by lia.
    destruct (put_ctrl_payload_spec wb2 p ptr Hw2 A2 Hp) as (_ & _ & Q). rewrite (Q ltac:(lia) D). reflexivity.
  - intros _ B. rewrite PU by exact B. reflexivity.
Qed.

(** ** writev *)
Lemma tcp_write_spec wb o : cb_wf wb -> cb_size wb <= RMC_MAX_PACKET ->
  (match o with WOk n => is_u32 n | WErr _ => True end) ->
  exists wb', tcp_write wb o =
     Ok (mkW (match contents wb with [] => ENODATA | _ => match o with WErr e => e | WOk _ => 0 end end)
             (zlen (contents wb'))
             (match o with WErr _ => [] | WOk n => ztake n (contents wb) end) wb') /\
    cb_wf wb' /\ cb_size wb' = cb_size wb /\
    contents wb' = match o with WErr _ => contents wb | WOk n => zdrop n (contents wb) end /\
    (match o with WErr _ => True | WOk n => n < zlen (contents wb) ->
       cb_stop wb' = cb_stop wb /\ cb_start wb' = (cb_start wb + n) mod cb_size wb end).
Proof.
  intros H Hsz Ho. pose proof (contents_len wb H) as Hcl. pose proof (in_use_bounds wb H) as Hib.
  unfold tcp_write. destruct (read_segment_spec wb RMC_MAX_PACKET H ltac:(unfold RMC_MAX_PACKET; lia)) as (Hld & Hsum & Hs2 & Hz0).
  assert (Hall : ztake RMC_MAX_PACKET (contents wb) = contents wb) by (apply ztake_all; lia).
  rewrite Hall in Hld, Hz0.
  destruct (contents wb) as [|b q] eqn:Ec.
  - change (zlen (@nil Z)) with 0 in Hcl.
    assert (S0 : seg1_len (circ_buf_read_segment wb RMC_MAX_PACKET) = 0).
    { unfold circ_buf_read_segment. pose proof (in_use_val wb H) as Hv. unfold cb_wf in H.
      replace (cb_stop wb =? cb_start wb) with true; [reflexivity|]. destruct (cb_start wb <=? cb_stop wb) eqn:E; lia. }
    rewrite S0. change (0 =? 0) with true. cbv iota. exists wb. rewrite Ec. change (zlen (@nil Z)) with 0.
    split.
    + do 2 f_equal. destruct o; [reflexivity|]. unfold ztake. rewrite firstn_nil. reflexivity.
    + split; [exact H|]. split; [reflexivity|]. destruct o as [e|n]; [auto|]. split; [unfold zdrop; rewrite skipn_nil; reflexivity|].
      change (zlen (@nil Z)) with 0. unfold is_u32 in Ho. lia.
  - destruct (seg1_len (circ_buf_read_segment wb RMC_MAX_PACKET) =? 0) eqn:E0.
    { apply Z.eqb_eq in E0. apply Hz0 in E0. discriminate. }
    rewrite Hld. cbn [bind]. destruct o as [e|n].
    + exists wb. rewrite Ec, <- Hcl. split; [reflexivity|]. auto.
    + destruct (n =? 0) eqn:En.
      * apply Z.eqb_eq in En; subst n. exists wb. rewrite Ec, <- Hcl. split; [reflexivity|]. split; [exact H|]. split; [reflexivity|].
        split; [reflexivity|]. intros _. split; [reflexivity|]. rewrite Z.add_0_r. symmetry. apply Z.mod_small. unfold cb_wf in H. lia.
      * destruct (free_spec wb n H Ho) as (wb' & Ef & Hw' & Hz' & Hc').
        rewrite Ef. cbn [bind fst snd]. exists wb'. split; [reflexivity|]. rewrite <- Ec. split; [exact Hw'|]. split; [exact Hz'|]. split; [exact Hc'|].
        intros Hlt. unfold circ_buf_free in Ef. rewrite En in Ef. rewrite Ec in Hlt.
        replace (circ_buf_in_use wb <=? n) with false in Ef by lia.
        replace (cb_size wb =? 0) with false in Ef by (unfold cb_wf in H; lia). injection Ef as <- _. cbn [set_start cb_stop cb_start].
        split; [reflexivity|]. rewrite u32_small; [reflexivity|]. unfold is_u32, cb_wf, cb_max in *. lia.
Qed.

(** ** Reading back a control message *)
Lemma nth_slice mem size a n i : (i < n)%nat -> nth i (ring_slice mem size a n) 0 = mem ((a + Z.of_nat i) mod size).
Proof.
  intros H. unfold ring_slice. rewrite (nth_indep _ 0 (mem ((a + Z.of_nat 0) mod size))) by (rewrite map_length, seq_length; exact H).
  rewrite (map_nth (fun i => mem ((a + Z.of_nat i) mod size)) (seq 0 n) 0%nat i). rewrite seq_nth by exact H. reflexivity.
Qed.

Lemma parse_ctrl_spec rb p rest : cb_wf rb -> is_u16 (zlen p) -> contents rb = wire (CmdCtrl p) ++ rest ->
  let sl := cb_size rb - (cb_start rb + 3) mod cb_size rb in
  exists p' rb', parse_ctrl true rb = Ok (inr (Some p', rb')) /\ cb_wf rb' /\ contents rb' = rest /\ zlen p' = zlen p /\
    (ctrl_ok (cb_size rb) (cb_start rb) (CmdCtrl p) -> p' = p) /\
    (~ ctrl_ok (cb_size rb) (cb_start rb) (CmdCtrl p) ->
       1 <= sl <= 2 /\ ztake sl p' = ztake sl p /\
       forall i, 0 <= i -> 3 + i < zlen p -> nth (Z.to_nat (sl + i)) p' 0 = nth (Z.to_nat (3 + i)) p 0).
Proof.
  intros H Hl Hc sl. unfold is_u16 in Hl. assert (Hcl := contents_len rb H). pose proof (in_use_bounds rb H) as Hib.
  rewrite Hc in Hcl. cbn [wire] in Hcl. rewrite zlen_app, zlen_cons, zlen_app, enc_ctrl_zlen in Hcl. pose proof (zlen_nonneg rest).
  assert (Hw := H). unfold cb_wf, cb_max in Hw.
  assert (Hmod : 0 <= (cb_start rb + 3) mod cb_size rb < cb_size rb) by (apply Z.mod_pos_bound; lia).
  unfold parse_ctrl, ctrl_size. replace (circ_buf_in_use rb <? 2 + 1) with false by lia.
  rewrite read_exact_ok by (try (apply read_low; [exact H|]); auto; lia). cbn [bind].
  assert (D : dec_ctrl (zslice 1 2 (contents rb)) = zlen p).
  { rewrite Hc. cbn [wire app]. rewrite zslice_1, <- app_assoc, ztake_app_exact by (rewrite enc_ctrl_zlen; reflexivity).
    rewrite <- (app_nil_r (enc_ctrl _)). apply dec_enc_ctrl. exact Hl. }
  cbv zeta. rewrite D. replace (circ_buf_in_use rb <? 2 + 1 + zlen p) with false by lia.
  destruct (free_full rb (2 + 1 + zlen p) H ltac:(lia)) as (rb' & Ef & Hwf & Hz & Hcf & _).
  assert (Hrest : contents rb' = rest).
  { rewrite Hcf, Hc. cbn [wire]. apply zdrop_app_exact. rewrite zlen_cons, zlen_app, enc_ctrl_zlen. lia. }
  assert (Hsl3 : forall n, zslice 3 n (contents rb) = ztake n (p ++ rest)).
  { intros n. unfold zslice. rewrite Hc. cbn [wire app]. rewrite <- app_assoc. f_equal. }
  assert (Hdec : ctrl_ok (cb_size rb) (cb_start rb) (CmdCtrl p) <-> (3 <= sl \/ zlen p <= sl)) by reflexivity.
  destruct (Z_le_gt_dec 3 sl) as [Hg|Hb]; [|destruct (Z_le_gt_dec (zlen p) sl) as [Hg|Hb2]].
  1,2: (rewrite read_exact_ok; try lia; [|exact H|change (1 + 2) with 3; rewrite ctrl_bad_iff by (auto; lia); fold sl; lia]);
    cbn [bind]; rewrite Ef; cbn [bind fst]; change (1 + 2) with 3; rewrite Hsl3, ztake_app_exact by reflexivity;
    exists p, rb'; refine (conj eq_refl (conj Hwf (conj Hrest (conj eq_refl (conj (fun _ => eq_refl) _))))); intros A; exfalso; apply A, Hdec; auto.
  assert (Hbad : read_offset_bad rb 3 (zlen p)). { apply ctrl_bad_iff; auto; lia. }
  unfold read_exact. change (1 + 2) with 3.
  rewrite (read_offset_bad_out rb 3 (zlen p) H ltac:(unfold is_u32; lia) ltac:(lia) Hbad). cbv zeta. rewrite Z.min_l by lia. fold sl. cbn [bind snd].
  rewrite Hsl3. rewrite ztake_app_l by lia.
  set (tail := ring_slice (cb_mem rb) (cb_size rb) (3 - sl) (Z.to_nat (zlen p - sl))).
  assert (Htl : zlen tail = zlen p - sl) by (unfold tail, zlen at 1; rewrite ring_slice_len; lia).
  assert (Hzt : zlen (ztake sl p) = sl) by (apply zlen_ztake; lia).
  rewrite zlen_app, Hzt, Htl. replace (sl + (zlen p - sl) =? zlen p) with true by lia. cbn [bind]. rewrite Ef. cbn [bind fst].
  exists (ztake sl p ++ tail), rb'. split; [reflexivity|]. split; [exact Hwf|]. split; [exact Hrest|].
  split; [rewrite zlen_app; lia|]. split; [intros A; exfalso; apply (proj1 Hdec) in A; destruct A; lia|]. intros _. split; [lia|].
  split; [apply ztake_app_exact; auto|].
  intros i Hi Hil. rewrite app_nth2 by (unfold zlen in Hzt; lia).
  replace (Z.to_nat (sl + i) - length (ztake sl p))%nat with (Z.to_nat i) by (unfold zlen in Hzt; lia).
  unfold tail. rewrite nth_slice by lia.
  assert (E : nth (Z.to_nat (3 + i)) p 0 = nth (Z.to_nat (6 + i)) (contents rb) 0).
  { rewrite Hc. cbn [wire]. assert (Hz3 : length (3 :: enc_ctrl (zlen p)) = 3%nat).
    { pose proof (enc_ctrl_zlen (zlen p)) as X. unfold zlen at 1 in X. cbn [length]. lia. }
    change (3 :: enc_ctrl (zlen p) ++ p) with ((3 :: enc_ctrl (zlen p)) ++ p). rewrite <- app_assoc.
    rewrite app_nth2 by lia. rewrite Hz3. rewrite app_nth1 by (unfold zlen in Hil; lia). f_equal. lia. }
  rewrite E. unfold contents. rewrite nth_slice by lia. f_equal.
  assert (Hdm := Z.div_mod (cb_start rb + 3) (cb_size rb) ltac:(lia)).
  replace (cb_start rb + Z.of_nat (Z.to_nat (6 + i)))
    with ((3 - sl + Z.of_nat (Z.to_nat i)) + ((cb_start rb + 3) / cb_size rb + 1) * cb_size rb) by (unfold sl; lia).
  rewrite Z.mod_add by lia. reflexivity.
Qed.
