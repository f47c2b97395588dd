(** PropEpoll.v — C88: the bundled epoll callbacks. *)
From Verif Require Import Base CircBuf CircBufProofs Wire SeqList Pub SpecPub PubProofs Proto SpecProto ProtoProofs Safe
  Conn SpecConn ConnProofs PubCtx SpecPubCtx PubCtxProofs PubCtxSteps PropPubCtx PropPubTime SpecPubRecv PubRecv SpecPoll PollPub PollMcast PropPoll
  Sub SubCtx SpecSubCtx SubSteps SubInv PropSubCtx PollSub PropPollSub SpecDesc Desc DescSub PropDesc Epoll SpecEpoll EpollProofs EpollPub EpollSub.

Lemma events_wants wb : cb_wf wb -> events_of (want wb) = conn_events (contents wb).
Proof. intros W. rewrite (want_wants _ W). unfold wants. destruct (contents wb); reflexivity. Qed.
Lemma conn_small v i c : v_size v <= RMC_LISTEN_INDEX -> slot v i = Ok c -> i < RMC_LISTEN_INDEX.
Proof. intros Hz Hs. pose proof (slot_range _ _ _ Hs). lia. Qed.

(** ** C88. The event mask *)
(** Asking for reads (bit 0) sets EPOLLIN (bit 0), asking for writes (bit 1) sets EPOLLOUT
    (bit 2), and nothing else is set. *)
Theorem c88_mask : forall act n, 0 <= n ->
  Z.testbit (events_of act) n = (n =? 0) && Z.testbit act 0 || (n =? 2) && Z.testbit act 1.
Proof.
  intros act n Hn. assert (B : forall k, 0 <= k -> (Z.land act (2 ^ k) =? 0) = negb (Z.testbit act k)).
  { intros k Hk. destruct (Z.testbit act k) eqn:T; cbn [negb].
    - apply Z.eqb_neq. intros E. assert (Z.testbit (Z.land act (2 ^ k)) k = false) by (rewrite E; apply Z.testbit_0_l).
      rewrite Z.land_spec, T, Z.pow2_bits_true in H by lia. discriminate.
    - apply Z.eqb_eq. apply Z.bits_inj'. intros j Hj. rewrite Z.land_spec, Z.testbit_0_l. destruct (Z.eq_dec j k) as [->|Hne]; [rewrite T; reflexivity|].
      rewrite Z.pow2_bits_false by lia. apply andb_false_r. }
  unfold events_of. change POLLREAD with (2 ^ 0). change POLLWRITE with (2 ^ 1). rewrite (B 0), (B 1) by lia.
  assert (C : forall j, 2 < j -> Z.testbit 5 j = false /\ Z.testbit 4 j = false /\ Z.testbit 1 j = false).
  { intros j Hj. repeat split; apply Z.bits_above_log2; cbn; lia. }
  destruct (Z.eq_dec n 0) as [->|]; [destruct (Z.testbit act 0), (Z.testbit act 1); reflexivity|].
  destruct (Z.eq_dec n 1) as [->|]; [destruct (Z.testbit act 0), (Z.testbit act 1); reflexivity|].
  destruct (Z.eq_dec n 2) as [->|]; [destruct (Z.testbit act 0), (Z.testbit act 1); reflexivity|].
  destruct (C n) as (C1 & C2 & C3); [lia|]. replace (n =? 0) with false by lia. replace (n =? 2) with false by lia. cbn [andb orb].
  destruct (Z.testbit act 0), (Z.testbit act 1); cbn [negb]; [exact C1|exact C3|exact C2|apply Z.testbit_0_l].
Qed.
Example c88_mask_nonvacuous : events_of 3 = 5 /\ events_of 2 = 4 /\ events_of 1 = 1 /\ events_of 0 = 0.
Proof. repeat split. Qed.

(** ** C88. The publisher *)
(** The process never ends because of a poll callback, and the epoll set is exactly: every open
    connection under its index, for input and, when there are bytes to send, for output; the
    listening socket for input; the multicast socket, for output exactly while packets are
    queued. *)
Theorem c88_pub_partial : forall x g log, reached_by orderly x g log -> kernel_ok (pub_polls log) ->
  exists s, ep_run (pub_polls log) = Some s /\
    (forall i c, is_open (x_vec x) i c -> e_watch s (c_desc c) = Some (i, conn_events (contents (c_wbuf c)))) /\
    (x_listen x <> -1 -> e_watch s (x_listen x) = Some (RMC_LISTEN_INDEX, EPOLLIN)) /\
    (x_mcast x <> -1 -> queued x <> [] -> e_watch s (x_mcast x) = Some (RMC_MULTICAST_INDEX, EPOLLOUT)) /\
    (x_mcast x <> -1 -> queued x = [] -> e_watch s (x_mcast x) = Some (RMC_MULTICAST_INDEX, EPOLLIN) \/ e_watch s (x_mcast x) = Some (RMC_MULTICAST_INDEX, 0)) /\
    (forall d w, e_watch s d = Some w -> d <> -1 /\ (d = x_mcast x \/ d = x_listen x \/ conn_desc (x_vec x) d)).
Proof.
  intros x g log H K. pose proof (reached_EPX x g log H K) as (a & P & M). pose proof (EP_nil _ _ K P) as U. destruct P as (s & R & W). exists s. split; [exact R|].
  assert (R' : reached x g log) by (destruct H as (x0 & ops & F & Hh & _); exists x0, ops; auto).
  pose proof (reached_poll _ _ _ R') as PP. pose proof (reached_inv _ _ _ R') as (sp & L & Q & X). pose proof (vi_size _ _ (xi_vec _ _ _ _ _ _ _ X)) as Hz.
  repeat match goal with |- _ /\ _ => split end.
  - intros i c [Hs Hm]. apply W. exists (c_action c). split.
    + unfold ovw. rewrite (sp_special x a i (conn_small _ _ _ Hz Hs)). exact (wdesc_open _ _ _ (conj Hs Hm)).
    + destruct (PP i c Hs) as [_ P2]. rewrite (P2 Hm). destruct (vi_ring _ _ (xi_vec _ _ _ _ _ _ _ X) i c Hs) as [Hw _]. symmetry. exact (events_wants _ Hw).
  - intros Hl. apply W. exists POLLREAD. split; [|reflexivity]. unfold ovw, sp_pub. change (RMC_LISTEN_INDEX =? RMC_MULTICAST_INDEX) with false. rewrite Z.eqb_refl. replace (x_listen x =? -1) with false by lia. reflexivity.
  - intros Hm Hq. apply W. exists a. destruct (M Hm) as [M1 _]. rewrite (M1 Hq). split; [|reflexivity]. unfold ovw, sp_pub. rewrite Z.eqb_refl. replace (x_mcast x =? -1) with false by lia. reflexivity.
  - intros Hm Hq. destruct (M Hm) as [_ M1]. assert (Ew : e_watch s (x_mcast x) = Some (RMC_MULTICAST_INDEX, events_of a)).
    { apply W. exists a. split; [|reflexivity]. unfold ovw, sp_pub. rewrite Z.eqb_refl. replace (x_mcast x =? -1) with false by lia. reflexivity. }
    rewrite Ew. destruct (M1 Hq) as [-> | ->]; [left|right]; reflexivity.
  - intros d [j e] A. apply W in A. destruct A as (b & A & _). split; [intros ->; exact (U _ _ A)|]. unfold ovw, sp_pub in A.
    destruct (j =? RMC_MULTICAST_INDEX); [destruct (x_mcast x =? -1); [discriminate|left; congruence]|].
    destruct (j =? RMC_LISTEN_INDEX); [destruct (x_listen x =? -1); [discriminate|right; left; congruence]|]. right. right.
    unfold wdesc in A. destruct (slot (x_vec x) j) as [c| | |] eqn:Hs; try discriminate. destruct (Z.eqb_spec (c_mode c) CLOSED) as [|Hm]; [discriminate|]. exists j, c. split; [split; assumption|congruence].
Qed.
(** Queueing a packet while the context is inactive ends the process. *)
Theorem c88_pub_early_refuted : forall x g log ptr len announce x' evs, reached_by orderly x g log -> kernel_ok (pub_polls log) ->
  x_mcast x = -1 -> queued x = [] -> rmc_pub_queue_packet x ptr len announce = Ok (0, x', evs) -> ep_run (pub_polls (log ++ evs)) = None.
Proof.
  intros x g log ptr len announce x' evs H K Hm Hq. unfold rmc_pub_queue_packet.
  destruct (ptr =? 0); [discriminate|]. destruct (_ <? _); [discriminate|]. destruct (x_susp x); [discriminate|].
  match goal with |- context [bind ?h _] => destruct h as [[[s' pd] nd]| | |] end; cbn [bind fst snd]; [|discriminate..].
  intros E. injection E as _ <-. assert (En : pub_next_queued (x_pub x) = None) by (apply next_none; exact Hq). rewrite En, Hm, polls_app. cbn [pub_polls flat_map app]. rewrite run_snoc.
  destruct (reached_EPX x g log H K) as (a & (s & R & _) & _). rewrite R. cbn [ep_ev]. unfold poll_modify. change (_ =? POLLWRITE) with false. cbv iota.
  assert (F : is_fd s (-1) = false). { destruct (is_fd s (-1)) eqn:F; [|reflexivity]. apply is_fd_In in F. rewrite (run_open _ _ R) in F. pose proof (opened_nonneg _ K _ F). lia. }
  rewrite F. reflexivity.
Qed.

(** Deciding that a history is orderly. *)
Definition orderlyb (x : pctx) (o : xop) : bool :=
  match o with
  | XActivate (ActOk _ _ _) => (x_mcast x =? -1) && (x_listen x =? -1) && (zlen (queued x) =? 0)
  | XActivate (ActErr _ _ _) => (x_mcast x =? -1) && (x_listen x =? -1)
  | XQueue _ _ _ => negb (x_mcast x =? -1)
  | XTimeout _ _ _ => negb (x_mcast x =? -1) || (x_aint x =? 0)
  | _ => true
  end.
Lemma orderlyb_ok x o : orderlyb x o = true -> orderly x o.
Proof.
  destruct o as [ptr bs|ptr|ptr len ann|i r|i r|now buf o|i|interval now|s r|bb|[e ds ea|m l port]|]; cbn [orderlyb orderly]; try (intros; exact Logic.I); intros H.
  - apply negb_true_iff in H. lia.
  - apply orb_prop in H. destruct H as [H|H]; [left; apply negb_true_iff in H; lia|right; lia].
  - apply andb_prop in H. lia.
  - apply andb_prop in H. destruct H as [H H2]. apply andb_prop in H. split; [lia|]. split; [lia|]. destruct (queued x); [reflexivity|]. unfold zlen in H2. cbn [length] in H2. lia.
Qed.
Fixpoint obeys (x : pctx) (ops : list xop) : bool :=
  match ops with [] => true | o :: r => orderlyb x o && match xstep x o with Ok (_, x', _) => obeys x' r | _ => true end end.
Lemma obeys_hist x0 ops x g log : xhist x0 ops x g log -> forall r, obeys x0 (ops ++ r) = true -> obeys x r = true.
Proof.
  intros H. induction H as [|ops x g log o code x' evs H IH Hok E]; intros r Hr; [exact Hr|]. rewrite <- app_assoc in Hr. apply IH in Hr. cbn [app obeys] in Hr. rewrite E in Hr. apply andb_prop in Hr. tauto.
Qed.
Lemma obeys_reached x0 ops x g log : fresh_ctx x0 -> xhist x0 ops x g log -> obeys x0 ops = true -> reached_by orderly x g log.
Proof.
  intros F H O. exists x0, ops. split; [exact F|]. split; [exact H|]. intros pre o post x1 g1 log1 E H1. rewrite E in O. apply (obeys_hist _ _ _ _ _ H1) in O. cbn [obeys] in O. apply andb_prop in O. apply orderlyb_ok. tauto.
Qed.
Definition watchb (l : list cev) (d i e : Z) : bool := match ep_run l with Some s => match e_watch s d with Some (j, f) => (j =? i) && (f =? e) | None => false end | None => false end.
Lemma watchb_ok l d i e : watchb l d i e = true -> exists s, ep_run l = Some s /\ e_watch s d = Some (i, e).
Proof. unfold watchb. destruct (ep_run l) as [s|]; [|discriminate]. destruct (e_watch s d) as [[j f]|] eqn:E; [|discriminate]. intros H. bool_split. exists s. split; [reflexivity|]. rewrite E. f_equal. f_equal; lia. Qed.
Definition openb (v : cvec) (i d : Z) : bool := match slot v i with Ok c => negb (c_mode c =? CLOSED) && (c_desc c =? d) && negb (zlen (contents (c_wbuf c)) =? 0) | _ => false end.
(** Two connections with bytes to send, a listening socket, and a packet queued. *)
Example c88_pub_witness : exists x g log c, reached_by orderly x g log /\ kernel_ok (pub_polls log) /\ is_open (x_vec x) 1 c /\ contents (c_wbuf c) <> [] /\ x_listen x <> -1 /\ x_mcast x <> -1 /\ queued x <> [].
Proof.
  destruct (xcheck_hist demo0 c68_ops (fun x g log => kernel_okb [] (pub_polls log) && openb (x_vec x) 1 6 && (x_mcast x =? 3) && (x_listen x =? 4) && (0 <? zlen (queued x)))) as (x & g & log & H & E); [vm_compute; reflexivity|].
  bool_split. assert (O : exists c, is_open (x_vec x) 1 c /\ contents (c_wbuf c) <> []).
  { match goal with A : openb _ _ _ = true |- _ => revert A end. unfold openb. destruct (slot (x_vec x) 1) as [c| | |] eqn:Es; try discriminate. intros A. bool_split. exists c. split; [split; [exact Es|lia]|].
    intros Q. rewrite Q in *. discriminate. }
  destruct O as (c & O1 & O2). exists x, g, log, c. split; [exact (obeys_reached _ _ _ _ _ demo0_fresh H ltac:(vm_compute; reflexivity))|]. split; [apply kernel_okb_nil; assumption|]. split; [exact O1|]. split; [exact O2|]. split; [lia|]. split; [lia|].
  intros Q. rewrite Q in *. discriminate.
Qed.
Example c88_pub_early_witness : exists x g log x' evs, reached_by orderly x g log /\ kernel_ok (pub_polls log) /\ x_mcast x = -1 /\ queued x = [] /\ rmc_pub_queue_packet x 100 2 false = Ok (0, x', evs).
Proof.
  destruct (xcheck_hist demo0 [XAlloc 100 [10; 11]] (fun x g log => kernel_okb [] (pub_polls log) && (x_mcast x =? -1) && (zlen (queued x) =? 0) && match rmc_pub_queue_packet x 100 2 false with Ok (c, _, _) => c =? 0 | _ => false end)) as (x & g & log & H & E); [vm_compute; reflexivity|].
  bool_split. destruct (rmc_pub_queue_packet x 100 2 false) as [[[cd x'] evs]| | |] eqn:Eq; try discriminate. exists x, g, log, x', evs.
  split; [exact (obeys_reached _ _ _ _ _ demo0_fresh H eq_refl)|]. split; [apply kernel_okb_nil; assumption|]. split; [lia|]. split; [|rewrite Eq; replace cd with 0 by lia; reflexivity].
  destruct (queued x); [reflexivity|]. match goal with A : (zlen (_ :: _) =? 0) = true |- _ => unfold zlen in A; cbn [length] in A; lia end.
Qed.
(** A context deactivated with a packet still queued: after it is activated again, neither that
    packet nor one queued later makes the bundled callbacks watch the multicast socket for
    output. *)
Definition c88_restart : list xop :=
  [XActivate (ActOk 3 4 0); XAlloc 100 [10; 11]; XQueue 100 2 false; XDeactivate; XActivate (ActOk 5 6 0); XAlloc 200 [20]; XQueue 200 1 false].
Theorem c88_pub_restart_refuted : exists x g log s, reached x g log /\ kernel_ok (pub_polls log) /\ x_mcast x = 5 /\ map fst (queued x) = [2; 1] /\
  ep_run (pub_polls log) = Some s /\ e_watch s 5 = Some (RMC_MULTICAST_INDEX, EPOLLIN).
Proof.
  destruct (xcheck_hist demo0 c88_restart (fun x g log => kernel_okb [] (pub_polls log) && (x_mcast x =? 5) && listb (map fst (queued x)) [2; 1] && watchb (pub_polls log) 5 RMC_MULTICAST_INDEX EPOLLIN)) as (x & g & log & H & E); [vm_compute; reflexivity|].
  bool_split. match goal with A : watchb _ _ _ _ = true |- _ => destruct (watchb_ok _ _ _ _ A) as (s & R & W) end. exists x, g, log, s.
  split; [exists demo0, c88_restart; split; [exact demo0_fresh|exact H]|]. split; [apply kernel_okb_nil; assumption|]. split; [lia|]. split; [apply listb_eq; assumption|]. split; assumption.
Qed.

(** ** C88. The subscriber *)
Theorem c88_sub : forall x log, sreached false x log -> kernel_ok (sub_polls log) ->
  exists s, ep_run (sub_polls log) = Some s /\
    (forall i c, sconnected x i c -> e_watch s (c_desc c) = Some (i, conn_events (contents (c_wbuf c)))) /\
    (forall i c, slot (t_vec x) i = Ok c -> c_mode c = CONNECTING -> e_watch s (c_desc c) = Some (i, EPOLLOUT)) /\
    (forall d w, e_watch s d = Some w -> (d = t_mcast x /\ d <> -1 /\ w = (RMC_MULTICAST_INDEX, EPOLLIN)) \/ conn_desc (t_vec x) d).
Proof.
  intros x log H K. destruct (reached_EPS false _ x log (fun y o _ q => False_ind _ (diff_false_true q)) (sreached_any x log H) K) as (C & w & (s & R & W) & _). exists s. split; [exact R|].
  pose proof (reached_SPI false false _ x log (fun y o _ => conj (fun q => False_ind _ (diff_false_true q)) (fun q => False_ind _ (diff_false_true q))) (sreached_any x log H)) as S.
  pose proof (tv_size _ (sp_tv _ _ _ _ S)) as Hz.
  assert (O : forall i c, is_open (t_vec x) i c -> e_watch s (c_desc c) = Some (i, events_of (c_action c))).
  { intros i c [Hs Hm]. apply W. exists (c_action c). split; [|reflexivity]. unfold ovw. rewrite (sps_special x w i (conn_small _ _ _ Hz Hs)). exact (wdesc_open _ _ _ (conj Hs Hm)). }
  repeat match goal with |- _ /\ _ => split end.
  - intros i c [Hs Hm]. rewrite (O i c) by (split; [exact Hs|rewrite Hm; discriminate]). destruct (sp_conn _ _ _ _ S i c Hs) as (_ & _ & A3). rewrite (proj1 (A3 Hm)).
    destruct (tv_ring _ (sp_tv _ _ _ _ S) i c Hs) as [Hw _]. rewrite (events_wants _ Hw). reflexivity.
  - intros i c Hs Hm. rewrite (O i c) by (split; [exact Hs|rewrite Hm; discriminate]). rewrite (C i c Hs Hm). reflexivity.
  - intros d [j e] A. apply W in A. destruct A as (b & A & ->). unfold ovw, sp_sub in A. destruct (Z.eqb_spec j RMC_MULTICAST_INDEX) as [->|].
    + destruct (negb w || (t_mcast x =? -1)) eqn:Ew; [discriminate|]. apply orb_false_iff in Ew. injection A as <- <-. left. split; [reflexivity|]. split; [lia|reflexivity].
    + right. unfold wdesc in A. destruct (slot (t_vec x) j) as [c| | |] eqn:Hs; try discriminate. destruct (Z.eqb_spec (c_mode c) CLOSED) as [|Hm]; [discriminate|]. exists j, c. split; [split; assumption|congruence].
Qed.
(** The multicast socket too, if bind() does not fail. *)
Theorem c88_sub_mcast_partial : forall x log s, sreached_by binds x log -> kernel_ok (sub_polls log) -> t_mcast x <> -1 -> ep_run (sub_polls log) = Some s ->
  e_watch s (t_mcast x) = Some (RMC_MULTICAST_INDEX, EPOLLIN).
Proof.
  intros x log s H K Hm R. destruct (reached_EPS true binds x log (fun y o q _ => q) H K) as (_ & w & (s' & R' & W) & Hw). assert (s' = s) as -> by congruence. rewrite (Hw eq_refl) in W.
  apply W. exists POLLREAD. split; [|reflexivity]. unfold ovw, sp_sub. rewrite Z.eqb_refl. replace (t_mcast x =? -1) with false by lia. reflexivity.
Qed.
(** If it fails the socket is never watched. *)
Theorem c88_sub_bind_refuted : exists x log s, sreached false x log /\ kernel_ok (sub_polls log) /\ t_mcast x = 3 /\ ep_run (sub_polls log) = Some s /\ e_watch s 3 = None /\
  forall o, rmc_sub_activate_context x o = (EEXIST, x, []).
Proof.
  destruct (ycheck_hist false sdemo0 [YActivate (SaBind 3 98)] (fun x log => (t_mcast x =? 3) && kernel_okb [] (sub_polls log) && match ep_run (sub_polls log) with Some s => match e_watch s 3 with None => true | _ => false end | _ => false end)) as (x & log & H & E); [vm_compute; reflexivity|].
  bool_split. destruct (ep_run (sub_polls log)) as [s|] eqn:R; [|discriminate]. exists x, log, s. split; [exists sdemo0, [YActivate (SaBind 3 98)]; split; [exact sdemo0_fresh|exact H]|].
  split; [apply kernel_okb_nil; assumption|]. split; [lia|]. split; [exact R|]. split; [destruct (e_watch s 3); [discriminate|reflexivity]|].
  intros o. unfold rmc_sub_activate_context. replace (t_mcast x =? -1) with false by lia. reflexivity.
Qed.
(** Acknowledgements wait on connection 0. *)
Example c88_sub_witness : exists x log c, sreached_by binds x log /\ sreached false x log /\ kernel_ok (sub_polls log) /\ sconnected x 0 c /\ contents (c_wbuf c) <> [] /\ t_mcast x <> -1.
Proof.
  destruct (ycheck_hist false sdemo0 c68_sub_ops (fun x log => outb x 0 4 && (t_mcast x =? 3) && kernel_okb [] (sub_polls log))) as (x & log & H & E); [vm_compute; reflexivity|].
  apply andb_prop in E. destruct E as [E E3]. apply andb_prop in E. destruct E as [E1 E2]. destruct (outb_ok _ _ _ E1) as (c & Hc & Ed & Hn). exists x, log, c.
  split; [|split; [exists sdemo0, c68_sub_ops; split; [exact sdemo0_fresh|exact H]|split; [apply kernel_okb_nil; exact E3|split; [exact Hc|split; [exact Hn|lia]]]]].
  exists sdemo0, c68_sub_ops. split; [exact sdemo0_fresh|]. split; [exact H|]. intros pre o post x1 log1 Eo _.
  assert (Ho : In o c68_sub_ops) by (rewrite Eo; apply in_or_app; right; left; reflexivity).
  cbn [c68_sub_ops sdemo_ops app In] in Ho. repeat destruct Ho as [Ho|Ho]; subst; try exact Logic.I; contradiction.
Qed.

Print Assumptions c88_mask.
Print Assumptions c88_pub_partial.
Print Assumptions c88_pub_early_refuted.
Print Assumptions c88_pub_restart_refuted.
Print Assumptions c88_sub.
Print Assumptions c88_sub_mcast_partial.
Print Assumptions c88_sub_bind_refuted.
