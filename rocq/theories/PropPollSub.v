(** PropPollSub.v — C68 for the subscriber: what the library asks its user to poll for. *)
From Verif Require Import Base CircBuf CircBufProofs Wire SeqList Sub SpecSub SubProofs Proto SpecProto ProtoProofs
  Conn SpecConn ConnProofs Safe PubCtx SpecPubCtx SubCtx SpecSubCtx SubSteps SubMem SubDecomp SubInv PropSubCtx SpecPoll PollPub PollSub PropPoll.

Lemma sreached_any x log : sreached false x log -> sreached_by (fun _ _ => True) x log.
Proof. intros (x0 & ops & F & H). exists x0, ops. auto. Qed.
Lemma want_wants wb : cb_wf wb -> want wb = wants (contents wb).
Proof. intros W. unfold want, wants. rewrite (in_use_contents _ W). destruct (contents wb); reflexivity. Qed.

(** ** C68. Connections *)
(** A free slot is not polled; a connection being established is polled for its completion; an
    established one is polled for input, and for room only if something waits to be sent. *)
Theorem c68_sub_connection : forall x log i c, sreached false x log -> slot (t_vec x) i = Ok c ->
  (c_mode c = CLOSED /\ asked i (sub_polls log) = None) \/
  (c_mode c = CONNECTING /\ asked i (sub_polls log) = Some (c_desc c, POLLWRITE)) \/
  (c_mode c = CONNECTED /\ exists act, asked i (sub_polls log) = Some (c_desc c, act) /\ (act = POLLREAD \/ act = wants (contents (c_wbuf c)))).
Proof.
  intros x log i c H Hs. pose proof (reached_SPI false false _ x log (fun y o _ => conj (fun q => False_ind _ (diff_false_true q)) (fun q => False_ind _ (diff_false_true q))) (sreached_any x log H)) as S.
  destruct (sp_conn _ _ _ _ S i c Hs) as (A1 & A2 & A3). destruct (tv_ring _ (sp_tv _ _ _ _ S) i c Hs) as [W _]. rewrite (want_wants _ W) in A3.
  destruct (tv_mode _ (sp_tv _ _ _ _ S) i c Hs) as (_ & _ & [D|[D|D]]).
  - left. auto.
  - right. left. split; [exact D|]. apply (A2 D).
  - right. right. split; [exact D|]. destruct (A3 D) as [_ [E|[_ E]]]; eexists; (split; [exact E|]); auto.
Qed.
(** If control channels are only read while nothing waits to be sent on them, room is asked for
    exactly when something waits. *)
Theorem c68_sub_output_partial : forall x log i c, sreached_by sdrained x log -> sconnected x i c ->
  asked i (sub_polls log) = Some (c_desc c, wants (contents (c_wbuf c))).
Proof.
  intros x log i c H [Hs Hm]. pose proof (reached_SPI true false _ x log (fun y o q => conj (fun _ => q) (fun q => False_ind _ (diff_false_true q))) H) as S.
  destruct (sp_conn _ _ _ _ S i c Hs) as (_ & _ & A3). destruct (tv_ring _ (sp_tv _ _ _ _ S) i c Hs) as [W _]. rewrite (want_wants _ W) in A3.
  destruct (A3 Hm) as [_ [E|[Q _]]]; [exact E|discriminate Q].
Qed.
(** ** C68. The multicast socket *)
Theorem c68_sub_mcast_inactive : forall x log, sreached false x log -> t_mcast x = -1 -> asked RMC_MULTICAST_INDEX (sub_polls log) = None.
Proof.
  intros x log H. pose proof (reached_SPI false false _ x log (fun y o _ => conj (fun q => False_ind _ (diff_false_true q)) (fun q => False_ind _ (diff_false_true q))) (sreached_any x log H)) as S.
  exact (sp_off _ _ _ _ S).
Qed.
Theorem c68_sub_mcast_partial : forall x log, sreached_by binds x log -> t_mcast x <> -1 ->
  asked RMC_MULTICAST_INDEX (sub_polls log) = Some (t_mcast x, POLLREAD).
Proof.
  intros x log H Hm. pose proof (reached_SPI false true _ x log (fun y o q => conj (fun q => False_ind _ (diff_false_true q)) (fun _ => q)) H) as S.
  destruct (sp_on _ _ _ _ S Hm) as [E|[Q _]]; [exact E|discriminate Q].
Qed.
(** ** C68. The exceptions *)
(** Reading the control channel withdraws the request for room: the acknowledgements stay. *)
Definition c68_sub_ops : list yop := sdemo_ops ++ [YTimeout 1000000].
Definition c68_sub_read : list yop := c68_sub_ops ++ [YRead 0 (SrTcp (RData [1]) [])].
Definition outb (x : sctx) (i d : Z) : bool := match slot (t_vec x) i with Ok c => (c_mode c =? CONNECTED) && (c_desc c =? d) && (0 <? zlen (contents (c_wbuf c))) | _ => false end.
Lemma outb_ok x i d : outb x i d = true -> exists c, sconnected x i c /\ c_desc c = d /\ contents (c_wbuf c) <> [].
Proof.
  unfold outb. destruct (slot (t_vec x) i) as [c| | |] eqn:E; [|discriminate..]. intros H. apply andb_prop in H. destruct H as [H H3]. apply andb_prop in H. destruct H as [H1 H2].
  exists c. split; [split; [exact E|lia]|]. split; [lia|]. intros Q. rewrite Q in H3. discriminate.
Qed.
Theorem c68_sub_output_refuted : exists x log c, yhist false sdemo0 c68_sub_read x log /\ sconnected x 0 c /\ contents (c_wbuf c) <> [] /\
  asked 0 (sub_polls log) = Some (c_desc c, POLLREAD).
Proof.
  destruct (ycheck_hist false sdemo0 c68_sub_read (fun x log => outb x 0 4 && askedb (asked 0 (sub_polls log)) 4 POLLREAD)) as (x & log & H & E); [vm_compute; reflexivity|].
  apply andb_prop in E. destruct E as [E1 E2]. destruct (outb_ok _ _ _ E1) as (c & Hc & Ed & Hn). exists x, log, c. split; [exact H|]. split; [exact Hc|]. split; [exact Hn|]. rewrite Ed. apply askedb_eq. exact E2.
Qed.
(** When bind() fails the socket stays, is not polled, and the next activation is refused. *)
Theorem c68_sub_bind_refuted : exists x log, yhist false sdemo0 [YActivate (SaBind 3 98)] x log /\ t_mcast x = 3 /\ asked RMC_MULTICAST_INDEX (sub_polls log) = None /\
  forall o, rmc_sub_activate_context x o = (EEXIST, x, []).
Proof.
  destruct (ycheck_hist false sdemo0 [YActivate (SaBind 3 98)] (fun x log => (t_mcast x =? 3) && match asked RMC_MULTICAST_INDEX (sub_polls log) with None => true | _ => false end)) as (x & log & H & E); [vm_compute; reflexivity|].
  apply andb_prop in E. destruct E as [E1 E2]. exists x, log. split; [exact H|]. split; [lia|]. split; [destruct (asked _ _); [discriminate E2|reflexivity]|].
  intros o. unfold rmc_sub_activate_context. replace (t_mcast x =? -1) with false by lia. reflexivity.
Qed.
(** Acknowledgements wait and are asked for. *)
Example c68_sub_witness : exists x log c, sreached_by sdrained x log /\ sreached_by binds x log /\ sreached false x log /\ sconnected x 0 c /\ contents (c_wbuf c) <> [] /\ t_mcast x <> -1 /\
  asked 0 (sub_polls log) = Some (4, POLLREAD + POLLWRITE).
Proof.
  destruct (ycheck_hist false sdemo0 c68_sub_ops (fun x log => outb x 0 4 && (t_mcast x =? 3) && askedb (asked 0 (sub_polls log)) 4 (POLLREAD + POLLWRITE))) as (x & log & H & E); [vm_compute; reflexivity|].
  apply andb_prop in E. destruct E as [E E3]. apply andb_prop in E. destruct E as [E1 E2]. destruct (outb_ok _ _ _ E1) as (c & Hc & Ed & Hn). exists x, log, c.
  assert (All : forall P : sctx -> yop -> Prop, (forall y o, In o c68_sub_ops -> P y o) -> sreached_by P x log).
  { intros P HP. exists sdemo0, c68_sub_ops. split; [exact sdemo0_fresh|]. split; [exact H|]. intros pre o post x1 log1 Eo _. apply HP. rewrite Eo. apply in_or_app. right. left. reflexivity. }
  split; [|split; [|split; [exists sdemo0, c68_sub_ops; split; [exact sdemo0_fresh|exact H]|]]].
  - apply All. intros y o Ho. cbn [c68_sub_ops sdemo_ops app In] in Ho. repeat destruct Ho as [Ho|Ho]; subst; try exact Logic.I; contradiction.
  - apply All. intros y o Ho. cbn [c68_sub_ops sdemo_ops app In] in Ho. repeat destruct Ho as [Ho|Ho]; subst; try exact Logic.I; contradiction.
  - split; [exact Hc|]. split; [exact Hn|]. split; [lia|]. apply askedb_eq. exact E3.
Qed.

Print Assumptions c68_sub_connection.
Print Assumptions c68_sub_output_partial.
Print Assumptions c68_sub_mcast_partial.
Print Assumptions c68_sub_output_refuted.
