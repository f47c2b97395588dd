(** PropDesc.v — C76: descriptors. *)
From Verif Require Import Base CircBuf Wire SeqList Pub SpecPub PubProofs Safe
  Conn SpecConn ConnProofs PubCtx SpecPubCtx PubCtxProofs PubCtxSteps PropPubCtx PropPubTime PropPubMem SpecPoll PollPub
  SubCtx SpecSubCtx SubSteps SubInv PropSubCtx PropSubConn PollSub SpecDesc Desc DescSub.

(** ** C76. The publisher *)
(** If an active context is not activated again, the open descriptors are those of its two
    sockets and of its open connections, all different, and close() only hits open ones. *)
Theorem c76_pub_descriptors_partial : forall x g log, reached_by activated_once x g log -> kernel_ok (pub_polls log) ->
  (forall d, In d (opened (pub_polls log)) <-> In d (sock_in (x_mcast x)) \/ In d (sock_in (x_listen x)) \/ conn_desc (x_vec x) d) /\
  closes_ok (pub_polls log).
Proof.
  intros x g log H K. pose proof (reached_HI x g log H K) as [H1 _ _ _ H5]. split; [|exact H5]. intros d. rewrite H1. unfold exs. rewrite in_app_iff.
  assert (Q : (exists i, sdesc (x_vec x) i = Some d) <-> conn_desc (x_vec x) d).
  { unfold conn_desc. split; intros [i A]; exists i; apply sdesc_some; exact A. }
  rewrite Q. tauto.
Qed.
Theorem c76_pub_distinct_partial : forall x g log, reached_by activated_once x g log -> kernel_ok (pub_polls log) ->
  (x_mcast x = x_listen x -> x_mcast x = -1) /\
  (forall i c, is_open (x_vec x) i c -> c_desc c <> x_mcast x /\ c_desc c <> x_listen x) /\
  (forall i j c c', is_open (x_vec x) i c -> is_open (x_vec x) j c' -> c_desc c = c_desc c' -> i = j).
Proof.
  intros x g log H K. pose proof (reached_HI x g log H K) as HH. pose proof HH as [H1 H2 H3 H4 H5]. split; [|split].
  - intros E. unfold exs, sock_in in H2. rewrite <- E in H2. destruct (Z.eqb_spec (x_mcast x) (-1)) as [|N]; [assumption|]. inversion H2 as [|? ? N1 _]; subst. destruct N1. left. reflexivity.
  - intros i c Ho. specialize (H4 i _ (sdesc_open _ _ _ Ho)). pose proof (HI_nonneg _ _ _ _ _ K HH (sdesc_open _ _ _ Ho)) as P. unfold exs, sock_in in H4. rewrite in_app_iff in H4.
    destruct (Z.eqb_spec (x_mcast x) (-1)), (Z.eqb_spec (x_listen x) (-1)); cbn [In] in H4; split; intros E; try lia; apply H4; auto.
  - intros i j c c' A B E. apply (H3 i j (c_desc c)); [exact (sdesc_open _ _ _ A)|rewrite E; exact (sdesc_open _ _ _ B)].
Qed.
(** Deactivation closes everything. *)
Theorem c76_pub_deactivated_partial : forall x g log code x' evs, reached_by activated_once x g log -> rmc_pub_deactivate_context x = Ok (code, x', evs) ->
  kernel_ok (pub_polls (log ++ evs)) -> opened (pub_polls (log ++ evs)) = [].
Proof.
  intros x g log code x' evs H E K. assert (R : reached x g log) by (destruct H as (x0 & ops & F & Hh & _); exists x0, ops; auto).
  rewrite polls_app in *. pose proof (pdeactivate_PD _ _ _ _ E _ K (reached_HI x g log H (kernel_pre _ _ K))) as [H1 _ _ _ _].
  destruct (c66_deactivate x g log R) as (x1 & e1 & E1 & C & M & L & _). assert (x1 = x') as -> by congruence. unfold exs in H1. rewrite M, L in H1. cbn in H1.
  assert (R' : reached x' (g_next g x XDeactivate code evs) (log ++ evs)). { destruct R as (x0 & ops & F & Hh). exists x0, (ops ++ [XDeactivate]). split; [exact F|]. apply xh_step; [exact Hh|exact Logic.I|exact E]. }
  destruct (reached_inv _ _ _ R') as (sp & LL & Q & X).
  destruct (opened (pub_polls log ++ pub_polls evs)) as [|d l] eqn:Eo; [reflexivity|]. exfalso.
  destruct (proj1 (H1 d) (or_introl eq_refl)) as [[]|[i A]]. apply sdesc_some in A. destruct A as (c & [Hs Hm] & _). apply (C i). exists c. split; [exact Hs|].
  destruct (vi_mode _ _ (xi_vec _ _ _ _ _ _ _ X) i c Hs) as (_ & _ & [Hc|Hc]); [contradiction|exact Hc].
Qed.

(** Deciding the kernel's promise. *)
Fixpoint kernel_okb (o : list Z) (l : list cev) : bool :=
  match l with
  | [] => true
  | e :: l => match e with EvOpen d => (0 <=? d) && negb (zinb d o) | _ => true end && kernel_okb (open_ev o e) l
  end.
Lemma kernel_okb_ok : forall l a, kernel_ok a -> kernel_okb (opened a) l = true -> kernel_ok (a ++ l).
Proof.
  induction l as [|e l IH]; intros a K E; [rewrite app_nil_r; exact K|]. cbn [kernel_okb] in E. apply andb_prop in E. destruct E as [E1 E2].
  change (e :: l) with ([e] ++ l). rewrite app_assoc. apply IH; [|rewrite opened_app; exact E2].
  intros pre d post Eq. destruct (snoc_split _ _ _ _ _ Eq) as [(_ & -> & ->)|(q & _ & ->)]; [|exact (K _ _ _ eq_refl)].
  apply andb_prop in E1. destruct E1 as [E1 E3]. split; [lia|]. apply zinb_false, negb_true_iff. exact E3.
Qed.
Lemma kernel_okb_nil l : kernel_okb [] l = true -> kernel_ok l.
Proof. intros E. apply (kernel_okb_ok l []); [intros [|? ?] ? ? Q; discriminate Q|exact E]. Qed.
(** Deciding that only the first operation activates. *)
Definition activatesb (o : xop) : bool := match o with XActivate _ => true | _ => false end.
Lemma once_ok x0 a ops x g log : fresh_ctx x0 -> xhist x0 (a :: ops) x g log -> existsb activatesb ops = false -> reached_by activated_once x g log.
Proof.
  intros F H N. exists x0, (a :: ops). split; [exact F|]. split; [exact H|]. intros pre o post x1 g1 log1 E H1. destruct pre as [|b pre].
  - inversion H1 as [|? ? ? ? ? ? ? ? ? ? ? Q]; subst; [|destruct ops0; discriminate]. destruct F as (node & lip & lport & buf & m & -> & _). unfold activated_once. destruct o; try exact Logic.I. split; reflexivity.
  - injection E as -> ->. rewrite existsb_app in N. apply orb_false_iff in N. destruct N as [_ N]. cbn [existsb] in N. apply orb_false_iff in N. destruct o; try exact Logic.I. destruct N as [N _]. discriminate N.
Qed.
(** In the demo history the four descriptors 3..6 are the two sockets and the two connections. *)
Example c76_pub_witness : exists x g log x' evs, reached_by activated_once x g log /\ kernel_ok (pub_polls log) /\ opened (pub_polls log) = [6; 5; 4; 3] /\ x_mcast x = 3 /\ x_listen x = 4 /\
  rmc_pub_deactivate_context x = Ok (0, x', evs) /\ kernel_ok (pub_polls (log ++ evs)).
Proof.
  destruct (xcheck_hist demo0 demo_ops (fun x g log => match rmc_pub_deactivate_context x with Ok (0, x', evs) =>
     kernel_okb [] (pub_polls log) && listb (opened (pub_polls log)) [6; 5; 4; 3] && (x_mcast x =? 3) && (x_listen x =? 4) && kernel_okb [] (pub_polls (log ++ evs)) | _ => false end)) as (x & g & log & H & E); [vm_compute; reflexivity|].
  destruct (rmc_pub_deactivate_context x) as [[[[| |] x'] evs]| | |] eqn:Ed; try discriminate E. bool_split. exists x, g, log, x', evs.
  split; [exact (once_ok demo0 _ _ _ _ _ demo0_fresh H eq_refl)|]. repeat match goal with |- _ /\ _ => split end; try (apply kernel_okb_nil; assumption); try (apply listb_eq; assumption); try lia; exact Ed.
Qed.
(** A second activation loses the two sockets of the first: nothing in the context refers to
    them any more. *)
Definition c76_twice : list xop := [XActivate (ActOk 3 4 0); XActivate (ActOk 5 6 0)].
Theorem c76_pub_twice_refuted : exists x g log, reached x g log /\ kernel_ok (pub_polls log) /\ opened (pub_polls log) = [6; 5; 4; 3] /\
  x_mcast x = 5 /\ x_listen x = 6 /\ forall d, ~ conn_desc (x_vec x) d.
Proof.
  destruct (xcheck_hist demo0 c76_twice (fun x g log => kernel_okb [] (pub_polls log) && listb (opened (pub_polls log)) [6; 5; 4; 3] && (x_mcast x =? 5) && (x_listen x =? 6) &&
     forallb (fun c => c_mode c =? CLOSED) (v_conns (x_vec x)))) as (x & g & log & H & E); [vm_compute; reflexivity|]. bool_split. exists x, g, log.
  split; [exists demo0, c76_twice; split; [exact demo0_fresh|exact H]|]. repeat match goal with |- _ /\ _ => split end; try (apply kernel_okb_nil; assumption); try (apply listb_eq; assumption); try lia.
  intros d (i & c & [Hs Hm] & _).
  match goal with A : forallb _ _ = true |- _ => rewrite forallb_forall in A; specialize (A c) as P end.
  apply Hm, Z.eqb_eq, P. unfold slot in Hs. destruct (0 <=? i); [|discriminate]. destruct (nth_error _ _) as [c'|] eqn:En; [|discriminate]. injection Hs as ->. exact (nth_error_In _ _ En).
Qed.

(** ** C76. The subscriber *)
(** The open descriptors are those of the multicast socket and of the open connections, and
    close() only hits open ones. *)
Theorem c76_sub_descriptors : forall x log, sreached false x log -> kernel_ok (sub_polls log) ->
  (forall d, In d (opened (sub_polls log)) <-> In d (sock_in (t_mcast x)) \/ conn_desc (t_vec x) d) /\
  closes_ok (sub_polls log).
Proof.
  intros x log H K. pose proof (sreached_HI x log H K) as [H1 _ _ _ H5]. split; [|exact H5]. intros d. rewrite H1.
  assert (Q : (exists i, sdesc (t_vec x) i = Some d) <-> conn_desc (t_vec x) d).
  { unfold conn_desc. split; intros [i A]; exists i; apply sdesc_some; exact A. }
  rewrite Q. tauto.
Qed.
Theorem c76_sub_distinct : forall x log, sreached false x log -> kernel_ok (sub_polls log) ->
  (forall i c, is_open (t_vec x) i c -> c_desc c <> t_mcast x) /\
  (forall i j c c', is_open (t_vec x) i c -> is_open (t_vec x) j c' -> c_desc c = c_desc c' -> i = j).
Proof.
  intros x log H K. pose proof (sreached_HI x log H K) as HH. pose proof HH as [H1 H2 H3 H4 H5]. split.
  - intros i c Ho. specialize (H4 i _ (sdesc_open _ _ _ Ho)). pose proof (HI_nonneg _ _ _ _ _ K HH (sdesc_open _ _ _ Ho)) as P. unfold sock_in in H4.
    destruct (Z.eqb_spec (t_mcast x) (-1)); cbn [In] in H4; intros E; try lia; apply H4; auto.
  - intros i j c c' A B E. apply (H3 i j (c_desc c)); [exact (sdesc_open _ _ _ A)|rewrite E; exact (sdesc_open _ _ _ B)].
Qed.
Theorem c76_sub_deactivated : forall x log code x' evs, sreached false x log -> rmc_sub_deactivate_context x = Ok (code, x', evs) ->
  kernel_ok (sub_polls (log ++ evs)) -> opened (sub_polls (log ++ evs)) = [].
Proof.
  intros x log code x' evs R E K. rewrite spolls_app in *. pose proof (proj1 (sdeactivate_SD _ _ _ _ E) _ K (sreached_HI x log R (kernel_pre _ _ K))) as [H1 _ _ _ _].
  destruct (c71_deactivated false x log code x' evs R E) as (_ & C & _ & _ & M & _). rewrite M in H1. change (sock_in (-1)) with (@nil Z) in H1.
  destruct (opened (sub_polls log ++ sub_polls evs)) as [|d l] eqn:Eo; [reflexivity|]. exfalso.
  destruct (proj1 (H1 d) (or_introl eq_refl)) as [[]|[i A]]. apply sdesc_some in A. destruct A as (c & [Hs Hm] & _). exact (Hm (C i c Hs)).
Qed.
(** In the demo history the multicast socket is 3 and the connection's is 4. *)
Example c76_sub_witness : exists x log x' evs, sreached false x log /\ kernel_ok (sub_polls log) /\ opened (sub_polls log) = [4; 3] /\ t_mcast x = 3 /\
  rmc_sub_deactivate_context x = Ok (0, x', evs) /\ kernel_ok (sub_polls (log ++ evs)).
Proof.
  destruct (ycheck_hist false sdemo0 sdemo_ops (fun x log => match rmc_sub_deactivate_context x with Ok (0, x', evs) =>
     kernel_okb [] (sub_polls log) && listb (opened (sub_polls log)) [4; 3] && (t_mcast x =? 3) && kernel_okb [] (sub_polls (log ++ evs)) | _ => false end)) as (x & log & H & E); [vm_compute; reflexivity|].
  destruct (rmc_sub_deactivate_context x) as [[[[| |] x'] evs]| | |] eqn:Ed; try discriminate E. bool_split. exists x, log, x', evs.
  split; [exists sdemo0, sdemo_ops; split; [exact sdemo0_fresh|exact H]|]. repeat match goal with |- _ /\ _ => split end; try (apply kernel_okb_nil; assumption); try (apply listb_eq; assumption); try lia; exact Ed.
Qed.

Print Assumptions c76_pub_descriptors_partial.
Print Assumptions c76_pub_distinct_partial.
Print Assumptions c76_pub_deactivated_partial.
Print Assumptions c76_pub_twice_refuted.
Print Assumptions c76_sub_descriptors.
Print Assumptions c76_sub_distinct.
Print Assumptions c76_sub_deactivated.
