(** SubMem.v — payload memory of a subscriber context. *)
From Coq Require Import Sorting.Permutation Sorting.Sorted.
From Verif Require Import Base CircBuf CircBufProofs Wire SeqList Sub SpecSub SubProofs Proto SpecProto ProtoProofs
  Conn SpecConn ConnProofs Safe SubCtx SpecSubCtx SubSteps.

Lemma kept_app a b : kept (a ++ b) = fold_left kept_ev b (kept a).
Proof. apply fold_left_app. Qed.
Lemma outstanding_app a b : outstanding (a ++ b) = fold_left outstanding_ev b (outstanding a).
Proof. apply fold_left_app. Qed.
Lemma dropped_app a b : dropped (a ++ b) = dropped a ++ dropped b.
Proof. apply flat_map_app. Qed.
Lemma got_app a b : got_bytes (a ++ b) = got_bytes a ++ got_bytes b.
Proof. apply flat_map_app. Qed.
Lemma frees_ok_app a : forall l b, frees_ok l (a ++ b) <-> frees_ok l a /\ frees_ok (fold_left outstanding_ev a l) b.
Proof.
  induction a as [|e a IH]; intros l b; cbn [app frees_ok fold_left]; [tauto|]. rewrite IH. tauto.
Qed.

(** ** The packets held *)
Lemma index_split n i : 0 <= i < Z.of_nat n ->
  exists l1 l2, map Z.of_nat (seq 0 n) = l1 ++ i :: l2 /\ ~ In i l1 /\ ~ In i l2.
Proof.
  intros H. assert (Hin : In i (map Z.of_nat (seq 0 n))).
  { apply in_map_iff. exists (Z.to_nat i). split; [lia|]. apply in_seq. lia. }
  apply in_split in Hin. destruct Hin as (l1 & l2 & E). exists l1, l2. split; [exact E|].
  assert (N : NoDup (l1 ++ i :: l2)).
  { rewrite <- E. apply FinFun.Injective_map_NoDup; [intros a b; lia|apply seq_NoDup]. }
  apply NoDup_remove_2 in N. rewrite in_app_iff in N. tauto.
Qed.
Lemma in_indices x i : In i (indices x) <-> 0 <= i < v_size (t_vec x).
Proof.
  unfold indices. rewrite in_map_iff. split.
  - intros (n & <- & Hn). apply in_seq in Hn. lia.
  - intros H. exists (Z.to_nat i). split; [lia|]. apply in_seq. lia.
Qed.
Lemma flat_ext {X Y} (f g : X -> list Y) l : (forall a, In a l -> f a = g a) -> flat_map f l = flat_map g l.
Proof. induction l as [|a l IH]; intros H; [reflexivity|]. cbn. rewrite (H a (or_introl eq_refl)), IH; [reflexivity|]. intros; apply H; right; assumption. Qed.
Lemma held_split x i : 0 <= i < v_size (t_vec x) ->
  exists R, Permutation (held x) (waiting x i ++ R ++ t_ready x) /\
    forall x' , v_size (t_vec x') = v_size (t_vec x) -> (forall j, j <> i -> waiting x' j = waiting x j) ->
      Permutation (held x') (waiting x' i ++ R ++ t_ready x').
Proof.
  intros H. destruct (index_split (Z.to_nat (v_size (t_vec x))) i) as (l1 & l2 & E & N1 & N2); [lia|].
  exists (flat_map (waiting x) l1 ++ flat_map (waiting x) l2).
  assert (G : forall x', v_size (t_vec x') = v_size (t_vec x) -> (forall j, j <> i -> waiting x' j = waiting x j) ->
    Permutation (held x') (waiting x' i ++ (flat_map (waiting x) l1 ++ flat_map (waiting x) l2) ++ t_ready x')).
  { intros x' Sz W. unfold held, indices. rewrite Sz, E, flat_map_app. cbn [flat_map].
    rewrite (flat_ext (waiting x') (waiting x) l1), (flat_ext (waiting x') (waiting x) l2); try (intros j Hj; apply W; intros ->; contradiction).
    rewrite <- !app_assoc. rewrite Permutation_app_swap_app. reflexivity. }
  split; [apply G; auto|exact G].
Qed.
Lemma held_same x x' : v_size (t_vec x') = v_size (t_vec x) -> (forall j, waiting x' j = waiting x j) -> t_ready x' = t_ready x -> held x' = held x.
Proof.
  intros Sz W R. unfold held, indices. rewrite Sz, R. f_equal. apply flat_ext. auto.
Qed.
Lemma in_held x p : In p (held x) <-> (exists i, 0 <= i < v_size (t_vec x) /\ In p (waiting x i)) \/ In p (t_ready x).
Proof.
  unfold held. rewrite in_app_iff, in_flat_map. split; (intros [(i & H1 & H2)|H]; [left; exists i; rewrite in_indices in *; auto|auto]).
Qed.
Lemma waiting_upd x i s' x' : (forall j, t_pubs x' j = tupd (t_pubs x) i (Some s') j) -> waiting x' i = s_recv s' /\ forall j, j <> i -> waiting x' j = waiting x j.
Proof.
  intros E. unfold waiting. split; [rewrite E, tupd_same; reflexivity|]. intros j N. rewrite E, tupd_other by exact N. reflexivity.
Qed.

(** ** The invariant *)
Definition cont (log : list sev) (a : nat) : list Z := nth a (got_bytes log) [].
Definition ptrs (l : list spacket) : list Z := map sk_payload l.
Definition owned (x : sctx) (log : list sev) : list Z := ptrs (held x) ++ kept log ++ dropped log.
Definition packet_ok (x : sctx) (log : list sev) (p : spacket) : Prop :=
  (sk_addr p < t_fresh x)%nat /\ t_mem x (sk_payload p) = Some (cont log (sk_addr p)) /\
  sk_len p = zlen (cont log (sk_addr p)) /\ sk_payload p <> 0.
Record MI (x : sctx) (log : list sev) : Prop := mkMI {
  mi_fresh : t_fresh x = length (got_bytes log);
  mi_held : forall p, In p (held x) -> packet_ok x log p;
  mi_user : forall i p, In p (waiting x i) -> sk_user p = i /\ sk_pub p = Z.to_nat i;
  mi_addr : NoDup (map sk_addr (held x));
  mi_owned : NoDup (owned x log);
  mi_valid : forall q, In q (owned x log) -> t_mem x q <> None;
  mi_out : forall q, In q (outstanding log) <-> In q (owned x log);
  mi_frees : frees_ok [] log
}.

(** Events that have nothing to do with memory. *)
Definition memless (e : sev) : Prop :=
  match e with SvAlloc _ _ | SvFree _ _ | SvAppFree _ | SvTake _ _ | SvDrop _ | SvGot _ _ _ _ => False | _ => True end.
Lemma memless_flat evs : Forall memless evs -> forall l,
  fold_left kept_ev evs l = l /\ fold_left outstanding_ev evs l = l /\ dropped evs = [] /\ got_bytes evs = [] /\ frees_ok l evs.
Proof.
  induction 1 as [|e evs H _ IH]; intros l; [cbn; auto|]. cbn [fold_left frees_ok].
  assert (E : kept_ev l e = l /\ outstanding_ev l e = l) by (destruct e; cbn in *; auto; contradiction). destruct E as [-> ->].
  destruct (IH l) as (I1 & I2 & I3 & I4 & I5). unfold dropped, got_bytes in *. cbn [flat_map]. rewrite I3, I4.
  destruct e; cbn in *; tauto.
Qed.
Lemma MI_quiet x x' log evs : MI x log -> Forall memless evs -> Permutation (held x') (held x) -> (forall p, t_mem x' p = t_mem x p) ->
  t_fresh x' = t_fresh x -> (forall i p, In p (waiting x' i) -> In p (waiting x i)) -> MI x' (log ++ evs).
Proof.
  intros [M1 M2 M3 M4 M5 M6 M7 M8] F P E1 E2 W.
  destruct (memless_flat evs F (kept log)) as (F1 & _ & F3 & F4 & _).
  destruct (memless_flat evs F (outstanding log)) as (_ & F2 & _ & _ & F5).
  assert (Po : Permutation (owned x' (log ++ evs)) (owned x log)).
  { unfold owned. rewrite kept_app, F1, dropped_app, F3, app_nil_r. apply Permutation_app_tail. apply Permutation_map. exact P. }
  assert (Ec : forall a, cont (log ++ evs) a = cont log a) by (intros a; unfold cont; rewrite got_app, F4, app_nil_r; reflexivity).
  constructor.
  - rewrite E2, got_app, F4, app_nil_r. exact M1.
  - intros p Hp. apply (Permutation_in _ P) in Hp. destruct (M2 p Hp) as (H1 & H2 & H3 & H4). unfold packet_ok. rewrite E1, E2, Ec. auto.
  - intros i p Hp. apply M3, W. exact Hp.
  - eapply Permutation_NoDup; [apply Permutation_map, Permutation_sym, P|exact M4].
  - eapply Permutation_NoDup; [apply Permutation_sym, Po|exact M5].
  - intros q Hq. rewrite E1. apply M6. apply (Permutation_in _ Po). exact Hq.
  - intros q. rewrite outstanding_app, F2, M7. split; apply Permutation_in; [apply Permutation_sym, Po|exact Po].
  - apply frees_ok_app. split; [exact M8|exact F5].
Qed.

(** ** Freeing *)
Lemma free_mem_spec l : forall m, (forall q, In q (ptrs l) -> free_mem m l q = None) /\ (forall q, ~ In q (ptrs l) -> free_mem m l q = m q).
Proof.
  induction l as [|p l IH]; intros m; cbn [ptrs map In].
  - split; [intros q []|reflexivity].
  - change (free_mem m (p :: l)) with (free_mem (tupd m (sk_payload p) None) l).
    destruct (IH (tupd m (sk_payload p) None)) as [I1 I2]. fold (ptrs l) in *. split.
    + intros q Hq. destruct (in_dec Z.eq_dec q (ptrs l)) as [H|H]; [exact (I1 q H)|]. destruct Hq as [<-|Hq]; [|contradiction].
      rewrite I2 by exact H. apply tupd_same.
    + intros q Hq. rewrite I2 by tauto. apply tupd_other. intros ->. tauto.
Qed.
Lemma frees_flat L : forall l k, NoDup (ptrs L) -> (forall q, In q (ptrs L) -> In q l) -> (forall q, In q (ptrs L) -> ~ In q k) ->
  (forall q, In q (fold_left outstanding_ev (free_evs L) l) <-> In q l /\ ~ In q (ptrs L)) /\ frees_ok l (free_evs L) /\
  fold_left kept_ev (free_evs L) k = k.
Proof.
  induction L as [|p L IH]; intros l k ND Hl Hk; cbn [free_evs ptrs map fold_left frees_ok] in *.
  - cbn. tauto.
  - change (map (fun p => SvFree (sk_payload p) (sk_len p)) L) with (free_evs L). fold (ptrs L) in *. inversion ND as [|? ? N1 N2]; subst.
    cbn [outstanding_ev kept_ev]. rewrite (notin_remove Z.eq_dec k (sk_payload p)) by (apply Hk; left; reflexivity).
    destruct (IH (remove Z.eq_dec (sk_payload p) l) k N2) as (I1 & I2 & I3).
    + intros q Hq. apply in_in_remove; [intros ->; exact (N1 Hq)|]. apply Hl. right. exact Hq.
    + intros q Hq. apply Hk. right. exact Hq.
    + split; [|split; [split; [apply Hl; left; reflexivity|exact I2]|exact I3]].
      intros q. rewrite I1. cbn [In]. split.
      * intros [H1 H2]. apply in_remove in H1. split; [tauto|]. intros [X|X]; [|tauto]. destruct H1. congruence.
      * intros [H1 H2]. split; [|tauto]. apply in_in_remove; [|exact H1]. intros ->. tauto.
Qed.
Lemma frees_plain L : dropped (free_evs L) = [] /\ got_bytes (free_evs L) = [].
Proof. induction L as [|p L [I1 I2]]; [auto|]. split; assumption. Qed.
Lemma free_payloads_ok l : forall m, NoDup (ptrs l) -> (forall q, In q (ptrs l) -> m q <> None) ->
  free_payloads m (frees_of l) = Ok (free_mem m l, free_evs l).
Proof.
  induction l as [|p l IH]; intros m ND V; [reflexivity|]. cbn [frees_of map free_payloads].
  cbn [ptrs map] in ND, V. fold (ptrs l) in *. inversion ND as [|? ? N1 N2]; subst.
  destruct (m (sk_payload p)) as [bs|] eqn:E; [|destruct (V _ (or_introl eq_refl) E)].
  fold (frees_of l). rewrite IH; [reflexivity|exact N2|]. intros q Hq. rewrite tupd_other; [apply V; right; exact Hq|]. intros ->. contradiction.
Qed.
Lemma nd_app_disj {X} (a b : list X) q : NoDup (a ++ b) -> In q a -> ~ In q b.
Proof.
  induction a as [|y a IH]; [intros _ []|]. cbn [app]. intros N [<-|H]; inversion N; subst.
  - intros H. apply H1. apply in_or_app. auto.
  - apply IH; assumption.
Qed.
Lemma nd_app_r {X} (a b : list X) : NoDup (a ++ b) -> NoDup b.
Proof. induction a as [|y a IH]; [auto|]. cbn [app]. intros N. inversion N. auto. Qed.
Lemma nd_app_l {X} (a b : list X) : NoDup (a ++ b) -> NoDup a.
Proof.
  induction a as [|y a IH]; [constructor|]. cbn [app]. intros N. inversion N; subst. constructor; [|auto].
  intros H. apply H1. apply in_or_app. auto.
Qed.

(** Packets [L] leave the context and are freed. *)
Lemma MI_free x x' log pre L : MI x log -> Forall memless pre -> Permutation (held x) (L ++ held x') ->
  (forall q, t_mem x' q = free_mem (t_mem x) L q) -> t_fresh x' = t_fresh x ->
  (forall i p, In p (waiting x' i) -> In p (waiting x i)) -> MI x' (log ++ pre ++ free_evs L).
Proof.
  intros [M1 M2 M3 M4 M5 M6 M7 M8] F P E1 E2 W.
  destruct (memless_flat pre F (kept log)) as (F1 & _ & F3 & F4 & _).
  destruct (memless_flat pre F (outstanding log)) as (_ & F2 & _ & _ & F5).
  destruct (frees_plain L) as [G1 G2].
  assert (Po : Permutation (owned x log) (ptrs L ++ ptrs (held x') ++ kept log ++ dropped log)).
  { unfold owned. rewrite (app_assoc (ptrs L)). apply Permutation_app_tail. unfold ptrs. rewrite <- map_app. apply Permutation_map. exact P. }
  pose proof (Permutation_NoDup Po M5) as ND.
  destruct (frees_flat L (outstanding log) (kept log)) as (Q1 & Q2 & Q3).
  { exact (nd_app_l _ _ ND). }
  { intros q Hq. apply M7. apply (Permutation_in _ (Permutation_sym Po)). apply in_or_app. auto. }
  { intros q Hq Hk. apply (nd_app_disj _ _ q ND Hq). apply in_or_app. right. apply in_or_app. auto. }
  assert (Eo : owned x' (log ++ pre ++ free_evs L) = ptrs (held x') ++ kept log ++ dropped log).
  { unfold owned. rewrite kept_app, fold_left_app, F1, Q3, !dropped_app, F3, G1, !app_nil_r. reflexivity. }
  assert (Ec : forall a, cont (log ++ pre ++ free_evs L) a = cont log a) by (intros a; unfold cont; rewrite !got_app, F4, G2, !app_nil_r; reflexivity).
  destruct (free_mem_spec L (t_mem x)) as [_ V2].
  assert (D : forall q, In q (owned x' (log ++ pre ++ free_evs L)) -> In q (owned x log) /\ ~ In q (ptrs L)).
  { intros q Hq. rewrite Eo in Hq. split; [apply (Permutation_in _ (Permutation_sym Po)); apply in_or_app; auto|].
    intros HL. exact (nd_app_disj _ _ q ND HL Hq). }
  constructor.
  - rewrite E2, !got_app, F4, G2, !app_nil_r. exact M1.
  - intros p Hp. assert (Hp' : In p (held x)) by (apply (Permutation_in _ (Permutation_sym P)); apply in_or_app; auto).
    destruct (M2 p Hp') as (H1 & H2 & H3 & H4). unfold packet_ok. rewrite E1, E2, Ec, V2; auto.
    apply D. rewrite Eo. apply in_or_app. left. apply in_map. exact Hp.
  - intros i p Hp. apply M3, W. exact Hp.
  - apply (Permutation_map sk_addr) in P. rewrite map_app in P. exact (nd_app_r _ _ (Permutation_NoDup P M4)).
  - rewrite Eo. exact (nd_app_r _ _ ND).
  - intros q Hq. destruct (D q Hq) as [D1 D2]. rewrite E1, V2 by exact D2. exact (M6 q D1).
  - intros q. rewrite outstanding_app, fold_left_app, F2, Q1, M7. split; [|apply D].
    intros [H1 H2]. rewrite Eo. apply (Permutation_in _ Po) in H1. apply in_app_or in H1. tauto.
  - apply frees_ok_app. split; [exact M8|]. apply frees_ok_app. split; [exact F5|]. fold (outstanding log). rewrite F2. exact Q2.
Qed.
Lemma unlink_perm a l : forall p rest, unlink_packet a l = Some (p, rest) -> Permutation l (p :: rest) /\ sk_addr p = a /\ In p l.
Proof.
  induction l as [|y l IH]; intros p rest; cbn [unlink_packet]; [discriminate|].
  destruct (Nat.eqb_spec (sk_addr y) a) as [E|E].
  - intros H. injection H as <- <-. repeat split; auto. left. reflexivity.
  - destruct (unlink_packet a l) as [[q r]|] eqn:Eu; [|discriminate]. intros H. injection H as <- <-.
    destruct (IH q r eq_refl) as (I1 & I2 & I3). split; [|split; [exact I2|right; exact I3]]. rewrite I1. apply perm_swap.
Qed.
Lemma held_ready x rest p : Permutation (t_ready x) (p :: rest) -> Permutation (held x) (p :: held (set_tready x rest)).
Proof.
  intros P. unfold held. change (indices (set_tready x rest)) with (indices x). cbn [set_tready t_ready].
  rewrite P. change (waiting (set_tready x rest)) with (waiting x). symmetry. apply Permutation_middle.
Qed.
(** A packet moves from the context to the application or is dropped. *)
Lemma MI_move x log p rest e : MI x log -> Permutation (t_ready x) (p :: rest) ->
  (e = SvDrop p \/ exists bs, e = SvTake p bs) -> MI (set_tready x rest) (log ++ [e]).
Proof.
  intros [M1 M2 M3 M4 M5 M6 M7 M8] P He. pose proof (held_ready x rest p P) as Ph.
  assert (Po : Permutation (owned (set_tready x rest) (log ++ [e])) (owned x log)).
  { unfold owned. rewrite (Permutation_map sk_payload Ph : Permutation (ptrs (held x)) _). cbn [map].
    rewrite kept_app, dropped_app. fold (ptrs (held (set_tready x rest))). destruct He as [->|(bs & ->)]; cbn [fold_left kept_ev dropped flat_map].
    - rewrite !app_assoc. rewrite <- Permutation_cons_append, app_nil_r. cbn [app]. reflexivity.
    - rewrite app_nil_r. cbn [app]. symmetry. apply Permutation_middle. }
  assert (Eo : outstanding (log ++ [e]) = outstanding log) by (rewrite outstanding_app; destruct He as [->|(bs & ->)]; reflexivity).
  assert (Eg : got_bytes (log ++ [e]) = got_bytes log) by (rewrite got_app; destruct He as [->|(bs & ->)]; apply app_nil_r).
  constructor.
  - rewrite Eg. exact M1.
  - intros q Hq. assert (Hq' : In q (held x)) by (apply (Permutation_in _ (Permutation_sym Ph)); right; exact Hq).
    destruct (M2 q Hq') as (H1 & H2 & H3 & H4). unfold packet_ok, cont. rewrite Eg. auto.
  - exact M3.
  - apply (Permutation_map sk_addr) in Ph. pose proof (Permutation_NoDup Ph M4) as N. inversion N. assumption.
  - exact (Permutation_NoDup (Permutation_sym Po) M5).
  - intros q Hq. apply M6. apply (Permutation_in _ Po). exact Hq.
  - intros q. rewrite Eo, M7. split; apply Permutation_in; [apply Permutation_sym, Po|exact Po].
  - apply frees_ok_app. split; [exact M8|]. destruct He as [->|(bs & ->)]; cbn; auto.
Qed.
Lemma put_memless m i out : Forall memless (put_evs m i out).
Proof. unfold put_evs. apply Forall_map. apply Forall_forall. intros p _. exact Logic.I. Qed.
Lemma MI_appfree x log ptr : MI x log -> In ptr (kept log) -> MI (set_tmem x (tupd (t_mem x) ptr None)) (log ++ [SvAppFree ptr]).
Proof.
  intros [M1 M2 M3 M4 M5 M6 M7 M8] Hk.
  assert (Hh : held (set_tmem x (tupd (t_mem x) ptr None)) = held x) by reflexivity.
  assert (Eo : owned (set_tmem x (tupd (t_mem x) ptr None)) (log ++ [SvAppFree ptr]) = ptrs (held x) ++ remove Z.eq_dec ptr (kept log) ++ dropped log).
  { unfold owned. rewrite Hh, kept_app, dropped_app. cbn [fold_left kept_ev]. unfold dropped at 2. cbn [flat_map]. rewrite app_nil_r. reflexivity. }
  assert (Nh : ~ In ptr (ptrs (held x))).
  { intros H. apply (nd_app_disj _ _ ptr M5 H). apply in_or_app. auto. }
  assert (Nd : ~ In ptr (dropped log)).
  { intros H. pose proof (nd_app_r _ _ M5) as N. exact (nd_app_disj _ _ ptr N Hk H). }
  assert (In1 : forall q, In q (ptrs (held x) ++ remove Z.eq_dec ptr (kept log) ++ dropped log) <-> In q (owned x log) /\ q <> ptr).
  { intros q. unfold owned. rewrite !in_app_iff. split.
    - intros [H|[H|H]].
      + split; [auto|]. intros ->. contradiction.
      + apply in_remove in H. tauto.
      + split; [auto|]. intros ->. contradiction.
    - intros [[H|[H|H]] N]; auto. right. left. apply in_in_remove; assumption. }
  assert (Eg : got_bytes (log ++ [SvAppFree ptr]) = got_bytes log) by (rewrite got_app; apply app_nil_r).
  constructor; rewrite ?Eo.
  - rewrite Eg. exact M1.
  - intros p Hp. destruct (M2 p Hp) as (H1 & H2 & H3 & H4). unfold packet_ok, cont. rewrite Eg. cbn [set_tmem t_mem t_fresh].
    rewrite tupd_other; auto. intros E. apply Nh. rewrite <- E. apply in_map. exact Hp.
  - exact M3.
  - exact M4.
  - pose proof M5 as M5'. unfold owned in M5'. clear - M5'.
    assert (G : forall (a b c : list Z), NoDup (a ++ b ++ c) -> NoDup (a ++ remove Z.eq_dec ptr b ++ c)).
    { intros a b c. induction a as [|y a IH]; cbn [app].
      - induction b as [|z b IHb]; cbn [app remove]; [auto|]. intros N. inversion N as [|? ? N1 N2]; subst. destruct (Z.eq_dec ptr z); [auto|].
        cbn [app]. constructor; [|auto]. intros H. apply N1. apply in_app_or in H. apply in_or_app. destruct H as [H|H]; [|auto].
        apply in_remove in H. tauto.
      - intros N. inversion N as [|? ? N1 N2]; subst. constructor; [|auto]. intros H. apply N1. apply in_app_or in H. apply in_or_app.
        destruct H as [H|H]; [auto|]. right. apply in_app_or in H. apply in_or_app. destruct H as [H|H]; [|auto]. apply in_remove in H. tauto. }
    apply G. exact M5'.
  - intros q Hq. apply In1 in Hq. destruct Hq as [H1 H2]. cbn [set_tmem t_mem]. rewrite tupd_other by exact H2. exact (M6 q H1).
  - intros q. rewrite In1, outstanding_app. cbn [fold_left outstanding_ev]. rewrite <- M7. split.
    + intros H. apply in_remove in H. exact H.
    + intros [H1 H2]. apply in_in_remove; assumption.
  - apply frees_ok_app. split; [exact M8|]. cbn. auto.
Qed.
Lemma cont_old log evs a : (a < length (got_bytes log))%nat -> cont (log ++ evs) a = cont log a.
Proof. intros H. unfold cont. rewrite got_app, app_nth1 by exact H. reflexivity. Qed.

Lemma MI_got x x' log pk bs pre i mc evs : MI x log -> Permutation (held x') (pk :: held x) -> Forall memless pre -> Forall memless evs ->
  sk_addr pk = t_fresh x -> sk_len pk = zlen bs -> sk_payload pk <> 0 -> t_mem x (sk_payload pk) = None ->
  t_mem x' = tupd (t_mem x) (sk_payload pk) (Some bs) -> t_fresh x' = S (t_fresh x) ->
  (forall i p, In p (waiting x' i) -> In p (waiting x i) \/ (p = pk /\ sk_user p = i /\ sk_pub p = Z.to_nat i)) ->
  MI x' (log ++ pre ++ SvAlloc (sk_payload pk) (zlen bs) :: SvGot i (sk_pid pk) mc bs :: evs).
Proof.
  intros [M1 M2 M3 M4 M5 M6 M7 M8] P F F' Ea El Np Nm Em Ef W.
  destruct (memless_flat pre F (kept log)) as (F1 & _ & F3 & F4 & _).
  destruct (memless_flat pre F (outstanding log)) as (_ & F2 & _ & _ & F5).
  destruct (memless_flat evs F' (kept log)) as (G1 & _ & G3 & G4 & _).
  destruct (memless_flat evs F' (sk_payload pk :: outstanding log)) as (_ & G2 & _ & _ & G5).
  set (new := pre ++ SvAlloc (sk_payload pk) (zlen bs) :: SvGot i (sk_pid pk) mc bs :: evs).
  assert (Ek : kept (log ++ new) = kept log) by (unfold new; rewrite kept_app, fold_left_app, F1; cbn [fold_left kept_ev]; exact G1).
  assert (Ed : dropped (log ++ new) = dropped log).
  { unfold new. rewrite !dropped_app, F3. unfold dropped at 2. cbn [flat_map app]. fold (dropped evs). rewrite G3, app_nil_r. reflexivity. }
  assert (Eo : outstanding (log ++ new) = sk_payload pk :: outstanding log).
  { unfold new. rewrite outstanding_app, fold_left_app, F2. cbn [fold_left outstanding_ev]. exact G2. }
  assert (Eg : got_bytes new = [bs]).
  { unfold new. rewrite got_app, F4. unfold got_bytes. cbn [flat_map app]. fold (got_bytes evs). rewrite G4. reflexivity. }
  assert (Po : Permutation (owned x' (log ++ new)) (sk_payload pk :: owned x log)).
  { unfold owned. rewrite Ek, Ed. change (sk_payload pk :: ptrs (held x) ++ kept log ++ dropped log) with (ptrs (pk :: held x) ++ kept log ++ dropped log).
    apply Permutation_app_tail. apply Permutation_map. exact P. }
  assert (No : ~ In (sk_payload pk) (owned x log)) by (intros H; exact (M6 _ H Nm)).
  constructor.
  - rewrite Ef, got_app, Eg, app_length, M1. cbn. lia.
  - intros p Hp. apply (Permutation_in _ P) in Hp. unfold packet_ok. rewrite Ef, Em. destruct Hp as [<-|Hp].
    + rewrite tupd_same, Ea. assert (Ec : cont (log ++ new) (t_fresh x) = bs).
      { unfold cont. rewrite got_app, Eg, M1, app_nth2, Nat.sub_diag by lia. reflexivity. }
      rewrite Ec. split; [lia|auto].
    + destruct (M2 p Hp) as (H1 & H2 & H3 & H4). rewrite cont_old by (rewrite <- M1; exact H1). split; [lia|]. split; [|auto].
      rewrite tupd_other; [exact H2|]. intros E. apply No. rewrite <- E. unfold owned. apply in_or_app. left. apply in_map. exact Hp.
  - intros j p Hp. destruct (W j p Hp) as [H|(_ & H)]; [exact (M3 j p H)|exact H].
  - eapply Permutation_NoDup; [apply Permutation_map, Permutation_sym, P|]. cbn [map]. constructor; [|exact M4].
    intros H. apply in_map_iff in H. destruct H as (q & E & Hq). destruct (M2 q Hq) as (H1 & _). rewrite Ea in E. lia.
  - eapply Permutation_NoDup; [apply Permutation_sym, Po|]. constructor; assumption.
  - intros q Hq. apply (Permutation_in _ Po) in Hq. rewrite Em. destruct (Z.eq_dec q (sk_payload pk)) as [->|N]; [rewrite tupd_same; discriminate|].
    rewrite tupd_other by exact N. apply M6. destruct Hq as [<-|Hq]; [contradiction|exact Hq].
  - intros q. rewrite Eo. cbn [In]. rewrite M7. split; intros H.
    + apply (Permutation_in _ (Permutation_sym Po)). exact H.
    + apply (Permutation_in _ Po) in H. exact H.
  - apply frees_ok_app. split; [exact M8|]. unfold new. apply frees_ok_app. split; [exact F5|]. fold (outstanding log). rewrite F2.
    cbn [frees_ok outstanding_ev]. split; [rewrite M7; exact No|]. split; [exact Logic.I|exact G5].
Qed.
Lemma calm_memless x r e : calm_ev x r e -> memless e.
Proof. destruct e as [[]| | | | | | | | | | | | | | |]; cbn; auto. Qed.
Lemma waiting_recv x i s s' x' : t_pubs x i = Some s -> (forall j, t_pubs x' j = tupd (t_pubs x) i (Some s') j) -> s_recv s' = s_recv s -> forall j, waiting x' j = waiting x j.
Proof.
  intros H E R j. destruct (waiting_upd x i s' x' E) as [W1 W2]. destruct (Z.eq_dec j i) as [->|N]; [|exact (W2 j N)].
  rewrite W1, R. unfold waiting. rewrite H. reflexivity.
Qed.
Lemma MI_keep x x' log evs : MI x log -> Forall memless evs -> v_size (t_vec x') = v_size (t_vec x) -> (forall j, waiting x' j = waiting x j) ->
  t_ready x' = t_ready x -> t_mem x' = t_mem x -> t_fresh x' = t_fresh x -> MI x' (log ++ evs).
Proof.
  intros M F Sz W R Em Ef. apply (MI_quiet x); auto.
  - rewrite (held_same x x' Sz W R). reflexivity.
  - intros p. rewrite Em. reflexivity.
  - intros i p. rewrite W. auto.
Qed.
Lemma put_size v i c : v_size (put_slot v i c) = v_size v.
Proof. apply size_put. Qed.
Ltac memless_tac := repeat (constructor; [exact Logic.I|]); constructor.
Lemma step_MI r log x evs x' : BI x -> MI x log -> ustep r log x evs x' -> MI x' (log ++ evs).
Proof.
  intros B M Hu. destruct Hu.
  - apply (MI_keep x); auto. constructor; [exact (calm_memless _ _ _ H)|constructor].
  - apply (MI_keep x); auto; [rewrite H0; reflexivity|intros j; unfold waiting; rewrite H; reflexivity].
  - pose proof (slot_range _ _ _ (proj1 H)) as R. set (pk := new_packet x i pid ptr (zlen bs)) in *.
    assert (Ep : forall j, t_pubs x' j = tupd (t_pubs x) i (Some s') j) by (intros j; rewrite H6; apply tupd_twice).
    destruct (waiting_upd x i s' x' Ep) as [W1 W2].
    assert (Ww : waiting x i = s_recv s) by (unfold waiting; rewrite H0; reflexivity).
    pose proof (sub_process_split _ _ _ H5) as Sp. cbn [sub_received s_recv] in Sp.
    assert (Pr : Permutation (out ++ s_recv s') (pk :: s_recv s)) by (rewrite <- Sp; symmetry; apply insert_perm).
    change ptr with (sk_payload pk). change pid with (sk_pid pk).
    apply (MI_got x); auto.
    + destruct (held_split x i R) as (Rs & P1 & P2).
      rewrite (P2 x') by (auto; rewrite H6; reflexivity). rewrite P1, W1, Ww.
      replace (t_ready x') with (t_ready x ++ out) by (rewrite H6; reflexivity).
      transitivity ((out ++ s_recv s') ++ Rs ++ t_ready x).
      * rewrite (app_assoc (s_recv s') Rs), (app_assoc (s_recv s' ++ Rs)), Permutation_app_comm, !app_assoc. reflexivity.
      * rewrite Pr. reflexivity.
    + destruct src; memless_tac.
    + apply put_memless.
    + rewrite H6. reflexivity.
    + rewrite H6. reflexivity.
    + intros j p Hp. destruct (Z.eq_dec j i) as [->|N]; [|rewrite W2 in Hp by exact N; auto].
      rewrite W1 in Hp. assert (Hq : In p (pk :: s_recv s)) by (apply (Permutation_in _ Pr); apply in_or_app; auto).
      destruct Hq as [<-|Hq]; [right; split; [reflexivity|split; reflexivity]|left; rewrite Ww; exact Hq].
  - pose proof (slot_range _ _ _ (proj1 H)) as R. set (x' := set_tready (put_spub x i s') (t_ready x ++ out)).
    destruct (waiting_upd x i s' x' (fun _ => eq_refl)) as [W1 W2].
    assert (Ww : waiting x i = s_recv s) by (unfold waiting; rewrite H0; reflexivity).
    pose proof (sub_process_split _ _ _ H1) as Sp.
    apply (MI_quiet x); auto.
    + apply put_memless.
    + destruct (held_split x i R) as (Rs & P1 & P2). rewrite (P2 x') by auto. rewrite P1, W1, Ww, Sp.
      change (t_ready x') with (t_ready x ++ out).
      rewrite (app_assoc (s_recv s') Rs), (app_assoc (s_recv s' ++ Rs)), Permutation_app_comm, !app_assoc. reflexivity.
    + intros j p Hp. destruct (Z.eq_dec j i) as [->|N]; [|rewrite W2 in Hp by exact N; auto].
      rewrite W1 in Hp. rewrite Ww, Sp. apply in_or_app. auto.
  - destruct (unlink_perm _ _ _ _ H) as (P & _). apply (MI_move x log p rest); [exact M|exact P|right; eexists; reflexivity].
  - destruct (unlink_perm _ _ _ _ H) as (P & _). set (bs := peek _ _ _).
    pose proof (MI_move x log p rest (SvTake p bs) M P (or_intror (ex_intro _ bs eq_refl))) as M1.
    change [SvTake p bs; SvFree (sk_payload p) (sk_len p)] with ([SvTake p bs] ++ [SvFree (sk_payload p) (sk_len p)]).
    rewrite app_assoc.
    (* the payload is kept for a moment, then freed *)
    assert (Hk : In (sk_payload p) (kept (log ++ [SvTake p bs]))) by (rewrite kept_app; left; reflexivity).
    pose proof (MI_appfree _ _ _ M1 Hk) as [Q1 Q2 Q3 Q4 Q5 Q6 Q7 Q8].
    assert (E1 : kept ((log ++ [SvTake p bs]) ++ [SvFree (sk_payload p) (sk_len p)]) = kept ((log ++ [SvTake p bs]) ++ [SvAppFree (sk_payload p)]))
      by (rewrite !(kept_app (log ++ _)); reflexivity).
    assert (E2 : dropped ((log ++ [SvTake p bs]) ++ [SvFree (sk_payload p) (sk_len p)]) = dropped ((log ++ [SvTake p bs]) ++ [SvAppFree (sk_payload p)]))
      by (rewrite !(dropped_app (log ++ _)); reflexivity).
    assert (E3 : got_bytes ((log ++ [SvTake p bs]) ++ [SvFree (sk_payload p) (sk_len p)]) = got_bytes ((log ++ [SvTake p bs]) ++ [SvAppFree (sk_payload p)]))
      by (rewrite !(got_app (log ++ _)); reflexivity).
    assert (E4 : outstanding ((log ++ [SvTake p bs]) ++ [SvFree (sk_payload p) (sk_len p)]) = outstanding ((log ++ [SvTake p bs]) ++ [SvAppFree (sk_payload p)]))
      by (rewrite !(outstanding_app (log ++ _)); reflexivity).
    unfold owned, packet_ok, cont in *. constructor; unfold owned, packet_ok, cont; rewrite ?E1, ?E2, ?E3, ?E4; auto.
    apply frees_ok_app. split; [exact (mi_frees _ _ M1)|]. cbn [frees_ok]. split; [|exact Logic.I].
    fold (outstanding (log ++ [SvTake p bs])). rewrite (mi_out _ _ M1). unfold owned. apply in_or_app. right. apply in_or_app. left. exact Hk.
  - apply (MI_move x log p rest); [exact M|rewrite H; reflexivity|auto].
  - apply (MI_keep x); auto; [memless_tac|apply put_size|]. intros j. apply (waiting_recv x i s (mkSP (s_ready s) (s_maxrecv s) (s_recv s) rest)); auto.
  - apply (MI_keep x); auto; [memless_tac|]. intros j. apply (waiting_recv x i s (mkSP (s_ready s) (s_maxrecv s) (s_recv s) rest)); auto.
  - apply (MI_keep x); auto.
  - apply (MI_keep x); auto.
  - apply (MI_keep x); auto; [memless_tac|apply put_size].
  - apply (MI_keep x); auto; [memless_tac|apply put_size].
  - apply (MI_keep x); auto; [apply put_size].
  - apply (MI_keep x); auto; [memless_tac|]. apply (TV_connect (t_vec x) i c d addr port node POLLWRITE (bi_vec x B) H0 H1 H2).
  - apply (MI_keep x); auto.
    + destruct H8 as [->|(d & _ & ->)]; memless_tac.
    + cbn [set_tvec t_vec]. unfold v_size. rewrite H5. apply size_put.
  - apply (MI_keep x); auto; []. destruct (t_pubs x i) as [s|] eqn:Es.
    + destruct (bi_idle x B i s Es H0) as [Hr _]. intros j. apply (waiting_recv x i s sub_init); auto.
    + intros j. destruct (waiting_upd x i sub_init (put_spub x i sub_init) (fun _ => eq_refl)) as [W1 W2]. destruct (Z.eq_dec j i) as [->|N]; [|exact (W2 j N)].
      rewrite W1. unfold waiting. rewrite Es. reflexivity.
  - apply (MI_keep x); auto; []. destruct (bi_idle x B i s H H0) as [Hr _].
    intros j. apply (waiting_recv x i s (mkSP (s_ready s) (s_maxrecv s) [] [])); auto.
  - apply (MI_keep x); auto; [memless_tac|apply put_size].
  - destruct (TV_close (t_vec x) i c v (bi_vec x B) H ltac:(rewrite H0; discriminate) H1) as (_ & Sz & _).
    apply (MI_keep x); auto; memless_tac.
  - pose proof (slot_range _ _ _ (proj1 H)) as R.
    destruct (TV_close (t_vec x) i c v (bi_vec x B) (proj1 H) (connected_mode x i c H) H1) as (_ & Sz & _).
    set (x' := set_tmem _ _).
    destruct (waiting_upd x i (mkSP (s_ready s) (s_maxrecv s) [] []) x' (fun _ => eq_refl)) as [W1 W2].
    assert (Ww : waiting x i = s_recv s) by (unfold waiting; rewrite H0; reflexivity).
    apply (MI_free x); auto.
    + memless_tac.
    + destruct (held_split x i R) as (Rs & P1 & P2). rewrite P1, (P2 x') by auto. rewrite W1, Ww. reflexivity.
    + intros j p Hp. destruct (Z.eq_dec j i) as [->|N]; [|rewrite W2 in Hp by exact N; auto]. rewrite W1 in Hp. destruct Hp.
  - apply MI_appfree; assumption.
Qed.
Lemma steps_BMI r log x evs x' : BI x -> MI x log -> usteps r log x evs x' -> BI x' /\ MI x' (log ++ evs).
Proof.
  intros B M Hu. induction Hu as [|e1 x1 e2 x2 Hu [IH1 IH2] Hs]; [rewrite app_nil_r; auto|].
  rewrite app_assoc. split; [exact (step_BI _ _ _ _ _ IH1 Hs)|exact (step_MI _ _ _ _ _ IH1 IH2 Hs)].
Qed.
