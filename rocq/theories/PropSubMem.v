(** PropSubMem.v — theorems about payload memory in a subscriber context: C50, C54, C69, C70. *)
From Coq Require Import Sorting.Permutation.
From Verif Require Import Base CircBuf CircBufProofs Wire SeqList Sub SpecSub SubProofs SubTrace Proto SpecProto ProtoProofs
  Conn SpecConn ConnProofs SubCtx SpecSubCtx SubSteps SubMem SubDecomp SubInv PropSubCtx PropSubConn.

(** ** C69. Payload accounting *)
(** Every buffer that the library allocated and nobody freed belongs to a packet the context
    holds, was kept by the application, or was dropped by a deactivation, and to one only. *)
Theorem c69_accounting : forall t x log, sreached t x log ->
  (forall q, In q (outstanding log) <-> In q (map sk_payload (held x)) \/ In q (kept log) \/ In q (dropped log)) /\
  NoDup (map sk_payload (held x) ++ kept log ++ dropped log) /\ forall q, In q (outstanding log) -> t_mem x q <> None.
Proof.
  intros t x log R. destruct (sreached_inv t x log R) as (_ & M & _). split; [|split].
  - intros q. rewrite (mi_out x log M q). unfold owned, ptrs. rewrite !in_app_iff. tauto.
  - exact (mi_owned x log M).
  - intros q Hq. apply (mi_valid x log M). apply (mi_out x log M). exact Hq.
Qed.
(** The library never frees a buffer twice, never one it did not allocate, and gets a new one for
    every packet. *)
Theorem c69_frees : forall t x log, sreached t x log -> frees_ok [] log.
Proof. intros t x log R. destruct (sreached_inv t x log R) as (_ & M & _). exact (mi_frees x log M). Qed.

(** The packets accepted so far: connection, id, payload. *)
Definition got_all (log : list sev) : list (Z * Z * list Z) :=
  flat_map (fun e => match e with SvGot i k _ bs => [(i, k, bs)] | _ => [] end) log.
Lemma got_all_app a b : got_all (a ++ b) = got_all a ++ got_all b.
Proof. apply flat_map_app. Qed.
Lemma got_all_bytes log : map snd (got_all log) = got_bytes log.
Proof. induction log as [|e log IH]; [reflexivity|]. cbn [got_all got_bytes flat_map]. fold (got_all log) (got_bytes log). rewrite map_app, IH. destruct e; reflexivity. Qed.
(** Every packet the context holds is one that was accepted, and every packet the application is
    done with is one it will not get again. *)
Record KI (x : sctx) (log : list sev) : Prop := mkKI {
  ki_held : forall p, In p (held x) -> exists bs, nth_error (got_all log) (sk_addr p) = Some (sk_user p, sk_pid p, bs);
  ki_taken : forall p bs, In (SvTake p bs) log -> (sk_addr p < t_fresh x)%nat /\ ~ In (sk_addr p) (map sk_addr (held x));
  ki_take : forall p bs, In (SvTake p bs) log -> nth_error (got_all log) (sk_addr p) = Some (sk_user p, sk_pid p, bs)
}.
Lemma held_waiting x x' : v_size (t_vec x') = v_size (t_vec x) -> t_ready x' = t_ready x -> (forall j, waiting x' j = waiting x j) -> forall p, In p (held x') -> In p (held x).
Proof. intros Sz R W p. rewrite (held_same x x' Sz W R). auto. Qed.
Lemma held_step r log x evs x' : BI x -> ustep r log x evs x' -> forall p, In p (held x') -> In p (held x) \/
  (exists i k mc bs, In (SvGot i k mc bs) evs /\ sk_addr p = t_fresh x /\ sk_user p = i /\ sk_pid p = k /\ t_fresh x' = S (t_fresh x) /\ got_all evs = [(i, k, bs)]).
Proof.
  intros B Hu. destruct Hu; intros q Hq; try (left; exact Hq).
  - left. revert Hq. apply held_waiting; [rewrite H0; reflexivity|exact H2|]. intros j. unfold waiting. rewrite H. reflexivity.
  - pose proof (slot_range _ _ _ (proj1 H)) as R. set (pk := new_packet x i pid ptr (zlen bs)) in *.
    assert (Ep : forall j, t_pubs x' j = tupd (t_pubs x) i (Some s') j) by (intros j; rewrite H6; apply tupd_twice).
    destruct (waiting_upd x i s' x' Ep) as [W1 W2].
    assert (Ww : waiting x i = s_recv s) by (unfold waiting; rewrite H0; reflexivity).
    pose proof (sub_process_split _ _ _ H5) as Sp. cbn [sub_received s_recv] in Sp.
    assert (Pr : Permutation (out ++ s_recv s') (pk :: s_recv s)) by (rewrite <- Sp; symmetry; apply insert_perm).
    assert (Hn : In q (held x) \/ q = pk).
    { apply in_held in Hq. rewrite in_held. replace (v_size (t_vec x')) with (v_size (t_vec x)) in Hq by (rewrite H6; reflexivity).
      replace (t_ready x') with (t_ready x ++ out) in Hq by (rewrite H6; reflexivity).
      assert (K : In q (out ++ s_recv s') -> In q (s_recv s) \/ q = pk) by (intros K; apply (Permutation_in _ Pr) in K; destruct K as [<-|K]; auto).
      destruct Hq as [(j & Rj & Hj)|Hj].
      - destruct (Z.eq_dec j i) as [->|N]; [|rewrite W2 in Hj by exact N; eauto]. rewrite W1 in Hj. destruct K as [K|K]; [apply in_or_app; auto| |auto].
        left. left. exists i. rewrite Ww. auto.
      - apply in_app_or in Hj. destruct Hj as [Hj|Hj]; [auto|]. destruct K as [K|K]; [apply in_or_app; auto| |auto]. left. left. exists i. rewrite Ww. auto. }
    destruct Hn as [Hn| ->]; [left; exact Hn|]. right. exists i, pid, mc, bs. split; [apply in_or_app; right; right; left; reflexivity|].
    split; [reflexivity|]. split; [reflexivity|]. split; [reflexivity|]. split; [rewrite H6; reflexivity|].
    assert (G : got_all (put_evs m i out) = []) by (unfold put_evs; clear; induction out; [reflexivity|exact IHout]).
    rewrite got_all_app. cbn [got_all flat_map app]. fold (got_all (put_evs m i out)). rewrite G. destruct src; reflexivity.
  - pose proof (slot_range _ _ _ (proj1 H)) as R. set (x' := set_tready (put_spub x i s') (t_ready x ++ out)) in *.
    destruct (waiting_upd x i s' x' (fun _ => eq_refl)) as [W1 W2].
    assert (Ww : waiting x i = s_recv s) by (unfold waiting; rewrite H0; reflexivity).
    pose proof (sub_process_split _ _ _ H1) as Sp. left. apply in_held in Hq. rewrite in_held.
    change (t_vec x') with (t_vec x) in Hq. change (t_ready x') with (t_ready x ++ out) in Hq. destruct Hq as [(j & Rj & Hj)|Hj].
    + left. exists j. split; [exact Rj|]. destruct (Z.eq_dec j i) as [->|N]; [|rewrite W2 in Hj by exact N; exact Hj]. rewrite Ww, Sp. rewrite W1 in Hj. apply in_or_app. auto.
    + apply in_app_or in Hj. destruct Hj as [Hj|Hj]; [auto|]. left. exists i. split; [exact R|]. rewrite Ww, Sp. apply in_or_app. auto.
  - left. apply (Permutation_in _ (Permutation_sym (held_ready x rest p (proj1 (unlink_perm _ _ _ _ H))))). right. exact Hq.
  - left. apply (Permutation_in _ (Permutation_sym (held_ready x rest p (proj1 (unlink_perm _ _ _ _ H))))). right. exact Hq.
  - left. apply (Permutation_in _ (Permutation_sym (held_ready x rest p ltac:(rewrite H; reflexivity)))). right. exact Hq.
  - left. revert Hq. apply held_waiting; auto; [apply put_size|]. intros j. apply (waiting_recv x i s (mkSP (s_ready s) (s_maxrecv s) (s_recv s) rest)); auto.
  - left. revert Hq. apply held_waiting; auto. intros j. apply (waiting_recv x i s (mkSP (s_ready s) (s_maxrecv s) (s_recv s) rest)); auto.
  - left. revert Hq. apply held_waiting; auto. apply put_size.
  - left. revert Hq. apply held_waiting; auto. apply put_size.
  - left. revert Hq. apply held_waiting; auto. apply put_size.
  - destruct (TV_connect (t_vec x) i c d addr port node POLLWRITE (bi_vec x B) H0 H1 H2) as (_ & _ & _ & Sz & _).
    left. revert Hq. apply held_waiting; auto.
  - left. revert Hq. apply held_waiting; auto. cbn [set_tvec t_vec]. unfold v_size. rewrite H5. apply put_size.
  - left. apply in_held in Hq. rewrite in_held. destruct Hq as [(j & Rj & Hj)|Hj]; [|auto]. left. exists j. split; [exact Rj|].
    unfold waiting in *. cbn [put_spub set_tpubs t_pubs] in Hj. unfold tupd in Hj. destruct (j =? i); [destruct Hj|exact Hj].
  - left. apply in_held in Hq. rewrite in_held. destruct Hq as [(j & Rj & Hj)|Hj]; [|auto]. left. exists j. split; [exact Rj|].
    unfold waiting in *. cbn [put_spub set_tpubs t_pubs] in Hj. unfold tupd in Hj. destruct (j =? i); [destruct Hj|exact Hj].
  - left. revert Hq. apply held_waiting; auto. apply put_size.
  - destruct (TV_close _ i c v (bi_vec x B) H ltac:(rewrite H0; discriminate) H1) as (_ & Sz & _). left. revert Hq. apply held_waiting; auto.
  - destruct (TV_close _ i c v (bi_vec x B) (proj1 H) (connected_mode _ _ _ H) H1) as (_ & Sz & _). left. apply in_held in Hq. rewrite in_held.
    cbn [set_tmem put_spub set_tpubs set_tvec t_vec t_ready] in Hq. rewrite Sz in Hq. destruct Hq as [(j & Rj & Hj)|Hj]; [|auto]. left. exists j. split; [exact Rj|].
    unfold waiting in *. cbn [set_tmem put_spub set_tpubs set_tvec t_pubs] in Hj. unfold tupd in Hj. destruct (j =? i); [destruct Hj|exact Hj].
Qed.
Lemma no_take_free l q b : ~ In (SvTake q b) (free_evs l).
Proof. intros H. apply in_map_iff in H. destruct H as (? & H & _). discriminate H. Qed.
Lemma no_take_put m i l q b : ~ In (SvTake q b) (put_evs m i l).
Proof. intros H. apply in_map_iff in H. destruct H as (? & H & _). discriminate H. Qed.
Lemma take_step r log x evs x' q b : ustep r log x evs x' -> In (SvTake q b) evs ->
  exists rest, unlink_packet (sk_addr q) (t_ready x) = Some (q, rest) /\ b = peek (t_mem x) (sk_payload q) (sk_len q) /\
    held x' = held (set_tready x rest) /\ got_all evs = [].
Proof.
  intros Hu Hi. destruct Hu; cbn [In] in Hi;
    try (destruct Hi as [Hi|Hi]; [discriminate Hi|]); try (destruct Hi as [Hi|Hi]; [discriminate Hi|]); try contradiction Hi.
  - destruct Hi as [->|[]]. destruct H.
  - apply in_app_or in Hi. destruct Hi as [Hi|Hi]; [destruct src; [destruct Hi as [Hi|[]]; discriminate Hi|destruct Hi]|].
    destruct Hi as [Hi|[Hi|Hi]]; [discriminate Hi|discriminate Hi|destruct (no_take_put _ _ _ _ _ Hi)].
  - destruct (no_take_put _ _ _ _ _ Hi).
  - destruct Hi as [Hi|[]]. injection Hi as <- <-. destruct (unlink_perm _ _ _ _ H) as (_ & E & _). rewrite E. exists rest. auto.
  - destruct Hi as [Hi|[Hi|[]]]; [|discriminate Hi]. injection Hi as <- <-. destruct (unlink_perm _ _ _ _ H) as (_ & E & _). rewrite E. exists rest. auto.
  - destruct H8 as [->|(d & _ & ->)]; cbn in Hi; [contradiction Hi|]. destruct Hi as [Hi|[Hi|[]]]; discriminate Hi.
  - destruct (no_take_free _ _ _ Hi).
Qed.
Lemma step_KI r log x evs x' : BI x -> MI x log -> MI x' (log ++ evs) -> KI x log -> ustep r log x evs x' -> KI x' (log ++ evs).
Proof.
  intros B M M' [K1 K2 K3] Hu.
  assert (Gl : length (got_all log) = t_fresh x) by (rewrite <- (map_length snd), got_all_bytes; symmetry; exact (mi_fresh x log M)).
  assert (Fm : (t_fresh x <= t_fresh x')%nat) by (rewrite (mi_fresh x log M), (mi_fresh x' _ M'), got_app, app_length; lia).
  assert (Old : forall a y, nth_error (got_all log) a = Some y -> nth_error (got_all (log ++ evs)) a = Some y).
  { intros a y H. rewrite got_all_app, nth_error_app1; [exact H|]. apply nth_error_Some. congruence. }
  constructor.
  - intros p Hp. destruct (held_step _ _ _ _ _ B Hu p Hp) as [H|(i & k & mc & bs & _ & H1 & H2 & H3 & _ & H4)].
    + destruct (K1 p H) as [bs H1]. eauto.
    + exists bs. rewrite got_all_app, H4, nth_error_app2 by lia. rewrite H1, Gl, Nat.sub_diag, H2, H3. reflexivity.
  - intros p bs Hi. apply in_app_or in Hi. destruct Hi as [Hi|Hi].
    + destruct (K2 p bs Hi) as [H1 H2]. split; [lia|]. intros Hh. apply in_map_iff in Hh. destruct Hh as (q & Eq & Hq).
      destruct (held_step _ _ _ _ _ B Hu q Hq) as [H|(? & ? & ? & ? & _ & H & _)]; [|lia]. apply H2. rewrite <- Eq. apply in_map. exact H.
    + destruct (take_step _ _ _ _ _ _ _ Hu Hi) as (rest & H1 & _ & H2 & _). destruct (unlink_perm _ _ _ _ H1) as (P & _ & Hin).
      split; [|].
      * destruct (mi_held x log M p) as (H & _); [apply in_held; auto|lia].
      * rewrite H2. pose proof (held_ready x rest p P) as Ph. pose proof (mi_addr x log M) as N. apply (Permutation_map sk_addr) in Ph.
        apply (Permutation_NoDup Ph) in N. inversion N. assumption.
  - intros p bs Hi. apply in_app_or in Hi. destruct Hi as [Hi|Hi]; [apply Old; exact (K3 p bs Hi)|].
    destruct (take_step _ _ _ _ _ _ _ Hu Hi) as (rest & H1 & H2 & _ & H3). destruct (unlink_perm _ _ _ _ H1) as (P & _ & Hin).
    assert (Hh : In p (held x)) by (apply in_held; auto). rewrite (peek_held x log p M Hh) in H2. destruct (K1 p Hh) as [b0 H0]. apply Old. rewrite H0, H2.
    unfold cont. rewrite <- got_all_bytes. apply (map_nth_error snd) in H0. rewrite (nth_error_nth _ _ _ H0). reflexivity.
Qed.
Lemma steps_KI r log x evs x' : BI x -> MI x log -> KI x log -> usteps r log x evs x' -> KI x' (log ++ evs).
Proof.
  intros B M K Hu. induction Hu as [|evs x1 evs1 x2 Hu IH Hs]; [rewrite app_nil_r; exact K|]. rewrite app_assoc.
  destruct (steps_BMI _ _ _ _ _ B M Hu) as [B1 M1]. apply (step_KI r _ x1); auto. exact (step_MI _ _ _ _ _ B1 M1 Hs).
Qed.
Lemma sreached_KI t x log : sreached t x log -> KI x log.
Proof.
  intros (x0 & ops & F & Hh). destruct (fresh_inv x0 F) as (B0 & M0 & T0).
  induction Hh as [|ops x log o code x' evs Hh IH Hok Hr E].
  - destruct F as (node & buf & m & -> & L). constructor; try (intros ? ? []). intros p Hp. apply in_held in Hp. destruct Hp as [(i & _ & [])|[]].
  - destruct (hist_inv_y t x0 ops x log F Hh) as (B & M & _). destruct (step_bmi x log o code x' evs B M Hok E) as (U & _). exact (steps_KI _ _ _ _ _ B M IH U).
Qed.
(** The buffer of every packet the context holds contains the payload of an accepted packet of
    that connection with that id. *)
Theorem c69_contents : forall t x log p, sreached t x log -> In p (held x) ->
  exists bs mc, t_mem x (sk_payload p) = Some bs /\ sk_len p = zlen bs /\ In (SvGot (sk_user p) (sk_pid p) mc bs) log.
Proof.
  intros t x log p R Hp. pose proof (sreached_KI t x log R) as K. destruct (sreached_inv t x log R) as (_ & M & _).
  destruct (ki_held x log K p Hp) as [bs H]. destruct (mi_held x log M p Hp) as (_ & H1 & H2 & _).
  assert (Ec : cont log (sk_addr p) = bs).
  { unfold cont. rewrite <- got_all_bytes. apply (map_nth_error snd) in H. rewrite (nth_error_nth _ _ _ H). reflexivity. }
  rewrite Ec in H1, H2. apply nth_error_In in H. apply in_flat_map in H. destruct H as (e & He & H). destruct e; cbn in H; try contradiction.
  destruct H as [H|[]]. injection H as -> -> ->. eauto 10.
Qed.
(** What the application is done with is what was accepted. *)
Theorem c69_taken : forall t x log p bs, sreached t x log -> In (SvTake p bs) log -> exists mc, In (SvGot (sk_user p) (sk_pid p) mc bs) log.
Proof.
  intros t x log p bs R Hp. pose proof (ki_take x log (sreached_KI t x log R) p bs Hp) as H.
  apply nth_error_In in H. apply in_flat_map in H. destruct H as (e & He & H). destruct e; cbn in H; try contradiction. destruct H as [H|[]]. injection H as -> -> ->. eauto.
Qed.

(** ** C54. Dispatching a packet frees it once *)
Lemma unlink_at p l1 : forall l2, ~ In (sk_addr p) (map sk_addr l1) -> unlink_packet (sk_addr p) (l1 ++ p :: l2) = Some (p, l1 ++ l2).
Proof.
  induction l1 as [|a l1 IH]; intros l2 H; cbn [app unlink_packet]; [rewrite Nat.eqb_refl; reflexivity|].
  cbn [map In] in H. destruct (Nat.eqb_spec (sk_addr a) (sk_addr p)) as [E|E]; [tauto|]. rewrite IH by tauto. reflexivity.
Qed.
Lemma ready_at t x log l1 p l2 : sreached t x log -> t_ready x = l1 ++ p :: l2 ->
  unlink_packet (sk_addr p) (t_ready x) = Some (p, l1 ++ l2) /\ In p (held x).
Proof.
  intros R E. destruct (sreached_inv t x log R) as (_ & M & _). split; [|apply in_held; right; rewrite E; apply in_or_app; right; left; reflexivity].
  rewrite E. apply unlink_at. pose proof (mi_addr x log M) as N. unfold held in N. rewrite E, map_app in N. apply nd_app_r in N.
  rewrite map_app in N. cbn [map] in N. intros H. apply (nd_app_disj _ _ _ N H). left. reflexivity.
Qed.
(** A ready packet is taken off the list, its payload released, and nothing else changes. *)
Theorem c54_dispatched : forall t x log l1 p l2, sreached t x log -> t_ready x = l1 ++ p :: l2 ->
  exists x' bs, rmc_sub_packet_dispatched x (sk_addr p) false = Ok (0, x', [SvTake p bs; SvFree (sk_payload p) (sk_len p)]) /\
    t_mem x (sk_payload p) = Some bs /\ t_ready x' = l1 ++ l2 /\ t_mem x' (sk_payload p) = None /\
    (forall q, q <> sk_payload p -> t_mem x' q = t_mem x q) /\ t_pubs x' = t_pubs x /\ t_vec x' = t_vec x /\ t_ack x' = t_ack x /\ t_mcast x' = t_mcast x.
Proof.
  intros t x log l1 p l2 R E. destruct (ready_at t x log l1 p l2 R E) as [Eu Hh]. destruct (sreached_inv t x log R) as (_ & M & _).
  destruct (mi_held x log M p Hh) as (_ & Em & _). pose proof (peek_held x log p M Hh) as Ep.
  unfold rmc_sub_packet_dispatched, dispatched_keep_payload. rewrite Eu. cbn [set_tready t_mem free_payloads]. rewrite Em. cbn [bind fst snd].
  do 2 eexists. split; [reflexivity|]. rewrite Ep. split; [reflexivity|]. cbn [set_tmem set_tready t_ready t_mem t_pubs t_vec t_ack t_mcast]. split; [reflexivity|].
  split; [apply tupd_same|]. split; [intros q Hq; apply tupd_other; exact Hq|]. auto.
Qed.
(** The variant that keeps the payload releases nothing. *)
Theorem c54_kept : forall t x log l1 p l2, sreached t x log -> t_ready x = l1 ++ p :: l2 ->
  exists bs, rmc_sub_packet_dispatched x (sk_addr p) true = Ok (0, set_tready x (l1 ++ l2), [SvTake p bs]) /\ t_mem x (sk_payload p) = Some bs.
Proof.
  intros t x log l1 p l2 R E. destruct (ready_at t x log l1 p l2 R E) as [Eu Hh]. destruct (sreached_inv t x log R) as (_ & M & _).
  destruct (mi_held x log M p Hh) as (_ & Em & _). pose proof (peek_held x log p M Hh) as Ep.
  unfold rmc_sub_packet_dispatched, dispatched_keep_payload. rewrite Eu. eexists. split; [reflexivity|]. rewrite Ep. exact Em.
Qed.
(** Both refuse anything else. *)
Theorem c54_not_ready : forall x a keep, ~ In a (map sk_addr (t_ready x)) -> rmc_sub_packet_dispatched x a keep = Ok (ENOENT, x, []).
Proof. intros x a keep H. unfold rmc_sub_packet_dispatched, dispatched_keep_payload. rewrite (unlink_notin a (t_ready x) H). reflexivity. Qed.
(** In particular a packet the application is done with, whatever happened since. *)
Theorem c54_only_once : forall t x log p bs keep, sreached t x log -> In (SvTake p bs) log -> rmc_sub_packet_dispatched x (sk_addr p) keep = Ok (ENOENT, x, []).
Proof.
  intros t x log p bs keep R H. apply c54_not_ready. destruct (ki_taken x log (sreached_KI t x log R) p bs H) as [_ N]. intros Hi. apply N.
  unfold held. rewrite map_app. apply in_or_app. right. exact Hi.
Qed.
(** A payload the application kept is not released by the library. *)
Lemma step_kept r log x evs x' q : BI x -> MI x log -> ustep r log x evs x' -> In q (kept log) -> ~ In (SvAppFree q) evs ->
  In q (kept (log ++ evs)) /\ forall n, ~ In (SvFree q n) evs.
Proof.
  intros B M Hu Hq Na.
  assert (F : forall l evs0, (forall e, In e evs0 -> memless e) -> (forall p, In p l -> In p (held x)) -> evs = evs0 ++ free_evs l ->
    In q (kept (log ++ evs)) /\ forall n, ~ In (SvFree q n) evs).
  { intros l evs0 H0 Hl ->. rewrite kept_app, fold_left_app.
    assert (E0 : fold_left kept_ev evs0 (kept log) = kept log) by (apply (memless_flat evs0); apply Forall_forall; exact H0). rewrite E0.
    assert (N : forall p, In p l -> sk_payload p <> q).
    { intros p Hp Eq. pose proof (mi_owned x log M) as N. unfold owned in N. apply (nd_app_disj _ _ q N); [|apply in_or_app; left; exact Hq].
      rewrite <- Eq. apply in_map. apply Hl. exact Hp. }
    split.
    - clear E0 Hl Hu Na. revert Hq N. generalize (kept log) as k. induction l as [|p l IH]; intros k Hk N; [exact Hk|]. cbn [free_evs map fold_left kept_ev].
      apply IH; [|intros; apply N; right; assumption]. apply in_in_remove; [|exact Hk]. intros E. apply (N p (or_introl eq_refl)). congruence.
    - intros n Hi. apply in_app_or in Hi. destruct Hi as [Hi|Hi]; [destruct (H0 _ Hi)|]. apply in_map_iff in Hi. destruct Hi as (p & E & Hp). injection E as E _. exact (N p Hp E). }
  assert (Z0 : (forall e, In e evs -> memless e) -> In q (kept (log ++ evs)) /\ forall n, ~ In (SvFree q n) evs).
  { intros H. apply (F [] evs H); [intros p []|rewrite app_nil_r; reflexivity]. }
  assert (Zl : Forall memless evs -> In q (kept (log ++ evs)) /\ forall n, ~ In (SvFree q n) evs).
  { intros H. rewrite Forall_forall in H. exact (Z0 H). }
  destruct Hu; try (apply Zl; memless_tac; fail).
  - apply Zl. constructor; [exact (calm_memless _ _ _ H)|constructor].
  - rewrite kept_app, fold_left_app. split.
    + assert (Es : fold_left kept_ev match src with Some sd => [SvDgram (fst sd) (snd sd)] | None => [] end (kept log) = kept log) by (destruct src; reflexivity).
      rewrite Es. cbn [fold_left kept_ev]. rewrite (proj1 (memless_flat _ (put_memless m i out) (kept log))). exact Hq.
    + intros n Hi. apply in_app_or in Hi. destruct Hi as [Hi|Hi]; [destruct src; [destruct Hi as [Hi|[]]; discriminate Hi|destruct Hi]|].
      destruct Hi as [Hi|[Hi|Hi]]; [discriminate Hi|discriminate Hi|]. apply in_map_iff in Hi. destruct Hi as (? & Hi & _). discriminate Hi.
  - apply Zl. apply put_memless.
  - rewrite kept_app. cbn [fold_left kept_ev]. split; [right; exact Hq|]. intros n [Hi|[]]. discriminate Hi.
  - destruct (unlink_perm _ _ _ _ H) as (P & _ & Hin). assert (N : sk_payload p <> q).
    { intros Eq. pose proof (mi_owned x log M) as N. unfold owned in N. apply (nd_app_disj _ _ q N); [|apply in_or_app; left; exact Hq].
      rewrite <- Eq. apply in_map. apply in_held. auto. }
    rewrite kept_app. cbn [fold_left kept_ev]. split.
    + apply in_in_remove; [congruence|]. right. exact Hq.
    + intros n [Hi|[Hi|[]]]; [discriminate Hi|]. injection Hi as E _. contradiction.
  - rewrite kept_app. cbn [fold_left kept_ev]. split; [exact Hq|]. intros n [Hi|[]]. discriminate Hi.
  - apply Zl. destruct H8 as [->|(d & _ & ->)]; memless_tac.
  - apply (F (s_recv s) [SvConn (EvRem (c_desc c) i); SvConn (EvClose (c_desc c))]); [intros e [<-|[<-|[]]]; exact Logic.I| |reflexivity].
    intros p Hp. apply in_held. left. exists i. split; [exact (slot_range _ _ _ (proj1 H))|]. unfold waiting. rewrite H0. exact Hp.
  - rewrite kept_app. cbn [fold_left kept_ev]. split; [|intros n [Hi|[]]; discriminate Hi]. apply in_in_remove; [|exact Hq]. intros ->. apply Na. left. reflexivity.
Qed.
Theorem c54_kept_not_released : forall t x log o code x' evs q, sreached t x log -> yok x log o -> ystep x o = Ok (code, x', evs) ->
  In q (kept log) -> ~ In (SvAppFree q) evs -> In q (kept (log ++ evs)) /\ forall n, ~ In (SvFree q n) evs.
Proof.
  intros t x log o code x' evs q R Hok E Hq Na. destruct (sreached_inv t x log R) as (B & M & _).
  destruct (step_bmi x log o code x' evs B M Hok E) as (U & _). clear E. induction U as [|evs x1 evs1 x2 U IH Hs]; [rewrite app_nil_r; cbn; auto|].
  rewrite in_app_iff in Na. destruct IH as [I1 I2]; [tauto|]. destruct (steps_BMI _ _ _ _ _ B M U) as [B1 M1].
  destruct (step_kept _ _ _ _ _ q B1 M1 Hs I1) as [J1 J2]; [tauto|]. rewrite app_assoc. split; [exact J1|].
  intros n Hi. apply in_app_or in Hi. destruct Hi as [Hi|Hi]; [exact (I2 n Hi)|exact (J2 n Hi)].
Qed.
Example c54_witness : exists x log p, yhist true sdemo0 sdemo_ops x log /\ t_ready x = [p] /\ sk_pid p = 5 /\ t_mem x (sk_payload p) = Some [50; 51] /\
  exists x1, rmc_sub_packet_dispatched x (sk_addr p) false = Ok (0, x1, [SvTake p [50; 51]; SvFree 100 2]) /\ t_ready x1 = [] /\ t_mem x1 100 = None.
Proof.
  destruct (yrun sdemo0 [] sdemo_ops) as [[x log]|] eqn:E1; [|vm_compute in E1; discriminate E1].
  pose proof (yrun_hist true sdemo0 _ sdemo0 [] [] x log (yh_nil _ _) E1) as H1. vm_compute in E1. injection E1 as <- <-.
  do 3 eexists. split; [exact H1|]. split; [reflexivity|]. split; [reflexivity|]. split; [reflexivity|]. eexists. split; [vm_compute; reflexivity|]. split; reflexivity.
Qed.

(** ** C50. Deactivation and payloads *)
Lemma drop_events l : forall x, NoDup (map sk_addr l) -> t_ready x = l -> drop_ready x l = Ok (set_tready x [], map SvDrop l).
Proof.
  induction l as [|p l IH]; intros x N E; cbn [drop_ready]; [destruct x; cbn in E; subst; reflexivity|].
  inversion N as [|? ? N1 N2]; subst. unfold rmc_sub_packet_dispatched, dispatched_keep_payload. cbn [set_tready t_ready].
  rewrite (unlink_notin _ _ N1). cbn [bind]. rewrite IH by (auto). reflexivity.
Qed.
Lemma frees_nodrop l : forall m r, free_payloads m l = Ok r -> dropped (snd r) = [] /\ forall p b, ~ In (SvTake p b) (snd r).
Proof.
  induction l as [|[p n] l IH]; intros m r E; cbn [free_payloads] in E; [injection E as <-; cbn; auto|].
  destruct (m p); [|discriminate E]. destruct (free_payloads (tupd m p None) l) as [q| | |] eqn:Eq; cbn [bind] in E; [|discriminate E..].
  injection E as <-. destruct (IH _ _ Eq) as [I1 I2]. cbn [snd]. split; [exact I1|]. intros q0 b [H|H]; [discriminate H|exact (I2 _ _ H)].
Qed.
Lemma conn_nodrop ce : dropped (map SvConn ce) = [].
Proof. induction ce; auto. Qed.
Lemma sclose_nodrop n : forall x ind q, sclose_loop n x ind = Ok q -> dropped (snd q) = [].
Proof.
  induction n as [|n IH]; intros x ind q E; cbn [sclose_loop] in E; [assert (q = (x, [])) as -> by congruence; auto|].
  destruct (find_by_index (t_vec x) ind) as [[c|]| | |]; cbn [bind] in E; [|exact (IH _ _ _ E)|discriminate E..].
  destruct (rmc_sub_close_connection x ind) as [[x1 e1]| | |] eqn:Ec; cbn [bind fst snd] in E; [|discriminate E..].
  destruct (sclose_loop n x1 (ind + 1)) as [[x2 e2]| | |] eqn:E2; cbn [bind fst snd] in E; [|discriminate E..].
  assert (q = (x2, e1 ++ e2)) as -> by congruence. pose proof (IH _ _ _ E2) as I2. cbn [fst snd] in *. rewrite dropped_app, I2, app_nil_r.
  unfold rmc_sub_close_connection in Ec. destruct (close_conn (t_vec x) ind) as [[[cd v] ce]| | |]; cbn [bind] in Ec; [|discriminate Ec..].
  destruct (get_spub (set_tvec x v) ind) as [s| | |]; cbn [bind] in Ec; [|discriminate Ec..]. destruct (sub_reset s) as [s1 fr].
  destruct (free_payloads _ _) as [f| | |] eqn:Ef; cbn [bind] in Ec; [|discriminate Ec..].
  assert (e1 = map SvConn ce ++ snd f) as -> by congruence. rewrite dropped_app, conn_nodrop, (proj1 (frees_nodrop _ _ _ Ef)). reflexivity.
Qed.
Lemma deactivate_drops t x log code x' evs : sreached t x log -> rmc_sub_deactivate_context x = Ok (code, x', evs) ->
  dropped (log ++ evs) = dropped log ++ map sk_payload (t_ready x).
Proof.
  intros R E. destruct (sreached_inv t x log R) as (_ & M & _). unfold rmc_sub_deactivate_context in E.
  rewrite (drop_events (t_ready x) x) in E; [|pose proof (mi_addr x log M) as N; unfold held in N; rewrite map_app in N; exact (nd_app_r _ _ N)|reflexivity].
  cbn [bind fst snd] in E. destruct (sclose_loop _ _ 0) as [[x2 e2]| | |] eqn:E2; cbn [bind fst snd] in E; [|discriminate E..].
  pose proof (sclose_nodrop _ _ _ _ E2) as D2. cbn [snd] in D2.
  match type of E with Ok (_, _, ?a) = _ => assert (evs = a) as -> by congruence end. rewrite !dropped_app. f_equal.
  cbn [dropped flat_map app]. fold (dropped e2). rewrite D2, !app_nil_r. clear. induction (t_ready x) as [|p l IH]; [reflexivity|]. cbn. f_equal. exact IH.
Qed.
(** After a deactivation the buffers that are still allocated are those the application kept, and
    those of the packets that were ready when this or an earlier deactivation was called. *)
Theorem c50_left_allocated : forall t x log code x' evs, sreached t x log -> rmc_sub_deactivate_context x = Ok (code, x', evs) ->
  forall q, In q (outstanding (log ++ evs)) <-> In q (kept (log ++ evs)) \/ In q (dropped log) \/ In q (map sk_payload (t_ready x)).
Proof.
  intros t x log code x' evs R E q. assert (R' : sreached t x' (log ++ evs)) by (apply (sreached_step t x log YDeactivate code x' evs R Logic.I); [intros _; exact Logic.I|exact E]).
  destruct (c69_accounting t x' _ R') as [A _]. rewrite A, (deactivate_drops t x log code x' evs R E), in_app_iff.
  destruct (c71_deactivated t x log code x' evs R E) as (_ & _ & Hh & _). rewrite Hh. cbn. tauto.
Qed.
(** So the property holds if no packet is ready at any deactivation ... *)
Theorem c50_released_if_none_ready_partial : forall t x log code x' evs, sreached t x log -> rmc_sub_deactivate_context x = Ok (code, x', evs) ->
  dropped log = [] -> t_ready x = [] -> forall q, In q (outstanding (log ++ evs)) <-> In q (kept (log ++ evs)).
Proof. intros t x log code x' evs R E D Er q. rewrite (c50_left_allocated t x log code x' evs R E q), D, Er. cbn. tauto. Qed.
(** ... and fails otherwise: the payloads of ready packets are never released. *)
Theorem c50_ready_leaked_refuted : forall t x log code x' evs p, sreached t x log -> rmc_sub_deactivate_context x = Ok (code, x', evs) ->
  In p (t_ready x) -> forall y more, sreached t y ((log ++ evs) ++ more) -> In (sk_payload p) (outstanding ((log ++ evs) ++ more)).
Proof.
  intros t x log code x' evs p R E Hp y more Ry. destruct (c69_accounting t y _ Ry) as [A _]. apply A. right. right.
  rewrite dropped_app, (deactivate_drops t x log code x' evs R E). apply in_or_app. left. apply in_or_app. right. apply in_map. exact Hp.
Qed.
(** Packets that wait for their predecessors are released. *)
Theorem c50_waiting_released : forall t x log code x' evs i p, sreached t x log -> rmc_sub_deactivate_context x = Ok (code, x', evs) ->
  In p (waiting x i) -> exists n, In (SvFree (sk_payload p) n) evs.
Proof.
  intros t x log code x' evs i p R E Hp. destruct (sreached_inv t x log R) as (B & M & _).
  assert (Hr : 0 <= i < v_size (t_vec x)) by (unfold waiting in Hp; destruct (t_pubs x i) as [s|] eqn:Es; [exact (bi_range x B i s Es)|destruct Hp]).
  assert (Hh : In p (held x)) by (apply in_held; left; eauto).
  assert (Ho : In (sk_payload p) (outstanding log)) by (apply (mi_out x log M); unfold owned; apply in_or_app; left; apply in_map; exact Hh).
  assert (Nr : ~ In (sk_payload p) (map sk_payload (t_ready x))).
  { intros H. pose proof (mi_owned x log M) as N. unfold owned in N. apply nd_app_l in N. unfold ptrs, held in N. rewrite map_app in N.
    apply (nd_app_disj _ _ _ N) in H; [exact H|]. apply in_map. apply in_flat_map. exists i. split; [apply in_indices; exact Hr|exact Hp]. }
  assert (Nk : ~ In (sk_payload p) (kept log) /\ ~ In (sk_payload p) (dropped log)).
  { pose proof (mi_owned x log M) as N. unfold owned in N. pose proof (nd_app_disj _ _ (sk_payload p) N) as D. rewrite in_app_iff in D.
    assert (In (sk_payload p) (ptrs (held x))) by (apply in_map; exact Hh). tauto. }
  assert (K : In (sk_payload p) (outstanding (log ++ evs)) -> False).
  { intros H. apply (c50_left_allocated t x log code x' evs R E) in H. destruct H as [H|[H|H]]; [|tauto|contradiction].
    assert (Ek : forall ev k, (forall q b, ~ In (SvTake q b) ev) -> In (sk_payload p) (fold_left kept_ev ev k) -> In (sk_payload p) k).
    { induction ev as [|e ev IH]; intros k Hn H1; [exact H1|]. cbn [fold_left] in H1. apply IH in H1; [|intros q b Hq; apply (Hn q b); right; exact Hq].
      destruct e; cbn [kept_ev] in H1; try exact H1; try (apply in_remove in H1; tauto). destruct (Hn p0 bs (or_introl eq_refl)). }
    rewrite kept_app in H. apply Ek in H; [tauto|]. intros q b Hq.
    unfold rmc_sub_deactivate_context in E. rewrite (drop_events (t_ready x) x) in E; [|pose proof (mi_addr x log M) as N; unfold held in N; rewrite map_app in N; exact (nd_app_r _ _ N)|reflexivity].
    cbn [bind fst snd] in E. destruct (sclose_loop _ _ 0) as [[x2 e2]| | |] eqn:E2; cbn [bind fst snd] in E; [|discriminate E..].
    match type of E with Ok (_, _, ?a) = _ => assert (evs = a) as -> by congruence end.
    apply in_app_or in Hq. destruct Hq as [Hq|[Hq|[Hq|Hq]]]; [apply in_map_iff in Hq; destruct Hq as (? & Hq & _); discriminate Hq|discriminate Hq|discriminate Hq|].
    clear - E2 Hq. assert (G : forall n x ind r, sclose_loop n x ind = Ok r -> ~ In (SvTake q b) (snd r)).
    { induction n as [|n IH]; intros y ind r E; cbn [sclose_loop] in E; [assert (r = (y, [])) as -> by congruence; auto|].
      destruct (find_by_index (t_vec y) ind) as [[c|]| | |]; cbn [bind] in E; [|exact (IH _ _ _ E)|discriminate E..].
      destruct (rmc_sub_close_connection y ind) as [[y1 e1]| | |] eqn:Ec; cbn [bind fst snd] in E; [|discriminate E..].
      destruct (sclose_loop n y1 (ind + 1)) as [[y2 e3]| | |] eqn:E3; cbn [bind fst snd] in E; [|discriminate E..].
      assert (r = (y2, e1 ++ e3)) as -> by congruence. cbn [snd]. intros H. apply in_app_or in H. destruct H as [H|H]; [|exact (IH _ _ _ E3 H)].
      unfold rmc_sub_close_connection in Ec. destruct (close_conn (t_vec y) ind) as [[[cd v] ce]| | |]; cbn [bind] in Ec; [|discriminate Ec..].
      destruct (get_spub (set_tvec y v) ind) as [s| | |]; cbn [bind] in Ec; [|discriminate Ec..]. destruct (sub_reset s) as [s1 fr].
      destruct (free_payloads _ _) as [f| | |] eqn:Ef; cbn [bind] in Ec; [|discriminate Ec..]. assert (e1 = map SvConn ce ++ snd f) as -> by congruence.
      apply in_app_or in H. destruct H as [H|H]; [apply in_map_iff in H; destruct H as (? & H & _); discriminate H|exact (proj2 (frees_nodrop _ _ _ Ef) _ _ H)]. }
    exact (G _ _ _ _ E2 Hq). }
  assert (G : forall ev l, In (sk_payload p) l -> (exists n, In (SvFree (sk_payload p) n) ev) \/ In (SvAppFree (sk_payload p)) ev \/ In (sk_payload p) (fold_left outstanding_ev ev l)).
  { induction ev as [|e ev IH]; intros l Hl; [auto|]. cbn [fold_left].
    destruct e; cbn [outstanding_ev]; try (destruct (IH l Hl) as [[n H]|[H|H]]; [left; exists n; right; exact H|right; left; right; exact H|auto]; fail).
    - destruct (IH (ptr :: l) (or_intror Hl)) as [[n H]|[H|H]]; [left; exists n; right; exact H|right; left; right; exact H|auto].
    - destruct (Z.eq_dec (sk_payload p) ptr) as [Eq|N]; [left; exists len; left; congruence|].
      destruct (IH (remove Z.eq_dec ptr l)) as [[n H]|[H|H]]; [apply in_in_remove; assumption|left; exists n; right; exact H|right; left; right; exact H|auto].
    - destruct (Z.eq_dec (sk_payload p) ptr) as [Eq|N]; [right; left; left; congruence|].
      destruct (IH (remove Z.eq_dec ptr l)) as [[n H]|[H|H]]; [apply in_in_remove; assumption|left; exists n; right; exact H|right; left; right; exact H|auto]. }
  rewrite outstanding_app in K. destruct (G evs (outstanding log) Ho) as [H|[H|H]]; [exact H| |destruct (K H)]. exfalso.
  unfold rmc_sub_deactivate_context in E. rewrite (drop_events (t_ready x) x) in E; [|pose proof (mi_addr x log M) as N; unfold held in N; rewrite map_app in N; exact (nd_app_r _ _ N)|reflexivity].
  cbn [bind fst snd] in E. destruct (sclose_loop _ _ 0) as [[x2 e2]| | |] eqn:E2; cbn [bind fst snd] in E; [|discriminate E..].
  match type of E with Ok (_, _, ?a) = _ => assert (evs = a) as -> by congruence end.
  apply in_app_or in H. destruct H as [H|[H|[H|H]]]; [apply in_map_iff in H; destruct H as (? & H & _); discriminate H|discriminate H|discriminate H|].
  clear - E2 H. assert (G : forall n x ind r, sclose_loop n x ind = Ok r -> ~ In (SvAppFree (sk_payload p)) (snd r)).
  { induction n as [|n IH]; intros y ind r E; cbn [sclose_loop] in E; [assert (r = (y, [])) as -> by congruence; auto|].
    destruct (find_by_index (t_vec y) ind) as [[c|]| | |]; cbn [bind] in E; [|exact (IH _ _ _ E)|discriminate E..].
    destruct (rmc_sub_close_connection y ind) as [[y1 e1]| | |] eqn:Ec; cbn [bind fst snd] in E; [|discriminate E..].
    destruct (sclose_loop n y1 (ind + 1)) as [[y2 e3]| | |] eqn:E3; cbn [bind fst snd] in E; [|discriminate E..].
    assert (r = (y2, e1 ++ e3)) as -> by congruence. cbn [snd]. intros K. apply in_app_or in K. destruct K as [K|K]; [|exact (IH _ _ _ E3 K)].
    unfold rmc_sub_close_connection in Ec. destruct (close_conn (t_vec y) ind) as [[[cd v] ce]| | |]; cbn [bind] in Ec; [|discriminate Ec..].
    destruct (get_spub (set_tvec y v) ind) as [s| | |]; cbn [bind] in Ec; [|discriminate Ec..]. destruct (sub_reset s) as [s1 fr].
    destruct (free_payloads _ _) as [f| | |] eqn:Ef; cbn [bind] in Ec; [|discriminate Ec..]. assert (e1 = map SvConn ce ++ snd f) as -> by congruence.
    apply in_app_or in K. destruct K as [K|K]; [apply in_map_iff in K; destruct K as (? & K & _); discriminate K|].
    pose proof (frees_late _ _ _ 0 Ef) as L. rewrite Forall_forall in L. exact (L _ K). }
  exact (G _ _ _ _ E2 H).
Qed.
(** In the example, packet 5 is ready and 7 waits: the first payload is lost, the second released. *)
Example c50_witness : exists x log x' evs, yhist true sdemo0 sdemo_ops x log /\ map sk_payload (t_ready x) = [100] /\ map sk_payload (waiting x 0) = [200] /\
  rmc_sub_deactivate_context x = Ok (0, x', evs) /\ In 100 (outstanding (log ++ evs)) /\ ~ In 200 (outstanding (log ++ evs)) /\ In (SvFree 200 1) evs.
Proof.
  destruct (yrun sdemo0 [] sdemo_ops) as [[x log]|] eqn:E1; [|vm_compute in E1; discriminate E1].
  pose proof (yrun_hist true sdemo0 _ sdemo0 [] [] x log (yh_nil _ _) E1) as H1. vm_compute in E1. injection E1 as <- <-.
  do 4 eexists. split; [exact H1|]. split; [reflexivity|]. split; [reflexivity|]. split; [vm_compute; reflexivity|].
  split; [vm_compute; auto|]. split; [vm_compute; intros [H|[]]; discriminate H|]. repeat (try (left; reflexivity); right).
Qed.

(** ** C70. No use after free *)
(** No call an application may make frees or uses a buffer that is not allocated. *)
Theorem c70_no_use_after_free : forall t x log o, sreached t x log -> yok x log o -> ystep x o <> UB UseAfterFree.
Proof.
  intros t x log o R Hok E. destruct (sreached_inv t x log R) as (B & M & _). pose proof (step_dec x log o B M Hok) as D. rewrite E in D. exact D.
Qed.
Print Assumptions c50_waiting_released.
