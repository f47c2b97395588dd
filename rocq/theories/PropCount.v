(** PropCount.v — C79: the counts a context reports. *)
From Coq Require Import Sorting.Permutation.
From Verif Require Import Base CircBuf Wire SeqList Pub SpecPub PubProofs Safe Proto Sub
  Conn SpecConn ConnProofs PubCtx SpecPubCtx PubCtxProofs PubCtxSteps PropPubCtx PropPubTime PropPubMem SpecPubRecv PubRecv SpecPoll PollPub
  SubCtx SpecSubCtx SubSteps SubMem SubDecomp SubInv PropSubCtx PropSubConn PollSub SpecDesc Desc DescSub PropDesc PropCall.

(** [l] lists, without repetition, everything that satisfies [P]. *)
Definition lists {A} (l : list A) (P : A -> Prop) : Prop := NoDup l /\ forall a, In a l <-> P a.

(** ** Counting the open slots *)
Lemma count_list (cs : list conn) : forall k, exists l, NoDup l /\
  (forall i, In i l <-> k <= i /\ exists c, nth_error cs (Z.to_nat (i - k)) = Some c /\ c_mode c <> CLOSED) /\
  zlen l = zlen (filter (fun c => negb (c_mode c =? CLOSED)) cs).
Proof.
  induction cs as [|c cs IH]; intros k.
  - exists []. split; [constructor|]. split; [|reflexivity]. intros i. split; [intros []|]. intros (_ & c & H & _). destruct (Z.to_nat (i - k)); discriminate H.
  - destruct (IH (k + 1)) as (l & N & L & Z1).
    assert (G : forall i, k < i -> Z.to_nat (i - k) = S (Z.to_nat (i - (k + 1)))) by (intros; lia).
    cbn [filter]. destruct (Z.eqb_spec (c_mode c) CLOSED) as [E|E]; cbn [negb].
    + exists l. split; [exact N|]. split; [|exact Z1]. intros i. rewrite L. split.
      * intros (A & d & B & C). split; [lia|]. exists d. rewrite G by lia. auto.
      * intros (A & d & B & C). destruct (Z.eq_dec i k) as [->|Ni]; [replace (k - k) with 0 in B by lia; cbn in B; congruence|]. rewrite G in B by lia. split; [lia|]. exists d. auto.
    + exists (k :: l). split; [|split].
      * constructor; [|exact N]. rewrite L. lia.
      * intros i. cbn [In]. rewrite L. split.
        -- intros [<-|(A & d & B & C)]; [split; [lia|]; exists c; replace (k - k) with 0 by lia; auto|]. split; [lia|]. exists d. rewrite G by lia. auto.
        -- intros (A & d & B & C). destruct (Z.eq_dec k i) as [->|Ni]; [auto|]. right. rewrite G in B by lia. split; [lia|]. exists d. auto.
      * rewrite !zlen_cons. lia.
Qed.
Lemma count_lists v : exists l, lists l (fun i => exists c, is_open v i c) /\ zlen l = count_open v.
Proof.
  destruct (count_list (v_conns v) 0) as (l & N & L & Z1). exists l. split; [|exact Z1]. split; [exact N|]. intros i. rewrite L, Z.sub_0_r. unfold is_open, slot. split.
  - intros (A & c & B & C). exists c. replace (0 <=? i) with true by lia. rewrite B. auto.
  - intros (c & A & C). destruct (Z.leb_spec 0 i); [|discriminate A]. split; [lia|]. exists c. destruct (nth_error _ _) as [d|]; [|discriminate A]. injection A as ->. auto.
Qed.
Lemma opened_NoDup l : kernel_ok l -> NoDup (opened l).
Proof.
  induction l as [|e l IH] using rev_ind; [intros _; constructor|]. intros K. specialize (IH (kernel_pre _ _ K)). rewrite opened_app. cbn [fold_left].
  destruct e as [d|d| | |]; cbn [open_ev]; try exact IH.
  - constructor; [|exact IH]. exact (proj2 (kernel_next l d [] K)).
  - unfold rmz. clear - IH. induction (opened l) as [|a r IHr]; [constructor|]. cbn [remove]. inversion IH as [|? ? N1 N2]; subst. destruct (Z.eq_dec d a); [exact (IHr N2)|]. constructor; [|exact (IHr N2)]. intros A. apply in_remove in A. tauto.
Qed.
Lemma HI_count ex v l : HI ex (sdesc v) l -> kernel_ok l -> zlen (opened l) = zlen ex + count_open v.
Proof.
  intros H K. destruct (count_lists v) as (is & [N L] & <-). set (dsc := fun i => match sdesc v i with Some d => d | None => -1 end).
  assert (S : forall i, In i is -> sdesc v i = Some (dsc i)). { intros i Hi. apply L in Hi. destruct Hi as (c & Ho). unfold dsc. rewrite (sdesc_open _ _ _ Ho). reflexivity. }
  assert (P : Permutation (opened l) (ex ++ map dsc is)).
  { apply NoDup_Permutation; [exact (opened_NoDup l K)| |].
    - assert (M : NoDup (map dsc is)).
      { clear L. induction is as [|i is IH]; [constructor|]. inversion N as [|? ? N1 N2]; subst. cbn [map]. constructor; [|apply IH; [exact N2|intros j Hj; apply S; right; exact Hj]].
        intros A. apply in_map_iff in A. destruct A as (j & E & Hj). apply N1. rewrite (hi_dist _ _ _ H i j (dsc i)); [exact Hj|apply S; left; reflexivity|]. rewrite <- E. apply S. right. exact Hj. }
      assert (D : forall d, In d (map dsc is) -> ~ In d ex). { intros d A. apply in_map_iff in A. destruct A as (j & <- & Hj). exact (hi_sep _ _ _ H j _ (S j Hj)). }
      pose proof (hi_nd _ _ _ H) as X. clear - M D X. induction ex as [|a ex IH]; [exact M|]. inversion X as [|? ? X1 X2]; subst. cbn [app]. constructor; [|apply IH; [intros d A B; apply (D d A); right; exact B|exact X2]].
      rewrite in_app_iff. intros [A|A]; [exact (X1 A)|]. apply (D a A). left. reflexivity.
    - intros d. rewrite (hi_set _ _ _ H), in_app_iff, in_map_iff. split; (intros [A|A]; [left; exact A|right]).
      + destruct A as [i A]. exists i. assert (Hi : In i is) by (apply L; apply sdesc_some in A; destruct A as (c & B & _); eauto). specialize (S i Hi). split; [congruence|exact Hi].
      + destruct A as (i & <- & Hi). exists i. exact (S i Hi). }
  apply Permutation_length in P. unfold zlen. rewrite P, app_length, map_length. lia.
Qed.

(** ** C79. The publisher *)
(** The number of subscribers is the number of indices with an established connection. *)
Theorem c79_pub_subscribers : forall x g log, reached x g log ->
  exists l, lists l (connected x) /\ rmc_pub_get_subscriber_count x = zlen l.
Proof.
  intros x g log H. apply reached_inv in H. destruct H as (sp & L & Q & X). pose proof (xi_vec _ _ _ _ _ _ _ X) as V.
  destruct (count_lists (x_vec x)) as (l & [N I] & Z1). exists l. split.
  - split; [exact N|]. intros i. rewrite I. unfold connected. split; intros (c & A & B); exists c; (split; [exact A|]).
    + destruct (vi_mode _ _ V i c A) as (_ & _ & [Hc|Hc]); [contradiction|exact Hc].
    + rewrite B. discriminate.
  - unfold rmc_pub_get_subscriber_count, get_active_connection_count. rewrite (vi_active _ _ V). symmetry. exact Z1.
Qed.
(** If an active context is not activated again and the kernel hands out no open descriptor:
    the number of sockets is the number of descriptors opened and not closed. *)
Theorem c79_pub_sockets_partial : forall x g log, reached_by activated_once x g log -> kernel_ok (pub_polls log) ->
  rmc_pub_get_socket_count x = zlen (opened (pub_polls log)) /\ NoDup (opened (pub_polls log)).
Proof.
  intros x g log H K. split; [|exact (opened_NoDup _ K)]. rewrite (HI_count _ _ _ (reached_HI x g log H K) K).
  assert (R : reached x g log) by (destruct H as (x0 & ops & F & Hh & _); exists x0, ops; auto). apply reached_inv in R. destruct R as (sp & L & Q & X). pose proof (xi_vec _ _ _ _ _ _ _ X) as V.
  unfold rmc_pub_get_socket_count, rmc_pub_get_subscriber_count, get_active_connection_count. rewrite (vi_active _ _ V).
  pose proof (count_range (x_vec x)) as C. pose proof (vi_size _ _ V) as S. unfold RMC_LISTEN_INDEX in S.
  assert (B : forall d, 0 <= (if d =? -1 then 0 else 1) <= 1) by (intros d; destruct (d =? -1); lia). pose proof (B (x_mcast x)) as B1. pose proof (B (x_listen x)) as B2. clear B.
  unfold u32, exs, sock_in. rewrite Z.mod_small by lia. rewrite zlen_app. destruct (x_mcast x =? -1), (x_listen x =? -1); unfold zlen; cbn [length]; lia.
Qed.
Lemma pstep_size x g log o code x' evs : XInv false x g log -> xok x g o -> xstep x o = Ok (code, x', evs) -> v_size (x_vec x') = v_size (x_vec x).
Proof.
  intros XV Hok E. pose proof (ctx_size _ _ _ XV) as Hz.
  assert (KS : forall y z e, KP y z e -> v_size (x_vec z) = v_size (x_vec y)) by (intros y z e (_ & _ & _ & _ & S); exact S).
  destruct o as [ptr bs|ptr|ptr len ann|i [a cb|err|t]|i [outs|w]|now buf o|i|interval now|s r|bb|o|]; cbn [xstep] in E.
  - injection E as _ <- <-. reflexivity.
  - injection E as _ <- <-. reflexivity.
  - exact (KS _ _ _ (queue_KP _ _ _ _ _ _ _ E)).
  - destruct (rmc_pub_read x i (RdAccept a cb)) as [[[[cd op] x1] e1]| | |] eqn:Ed; cbn [bind] in E; [|discriminate E..]. injection E as _ <- <-.
    cbn [rmc_pub_read] in Ed. destruct (process_accept (x_listen x) (x_vec x) a) as [[[[cd1 ri] v] ce]| | |] eqn:E1; cbn [bind] in Ed; [|discriminate Ed..].
    assert (SN : v_size (x_vec x) <= RMC_NIL_INDEX) by (unfold RMC_NIL_INDEX, RMC_LISTEN_INDEX in *; lia).
    assert (Hn : match a with AccOk _ _ nd => nd = 0 | _ => True end) by (destruct a; [exact Logic.I|cbn in Hok; tauto]).
    assert (Sv : v_size v = v_size (x_vec x) /\ match ri with Some j => 0 <= j | None => True end).
    { destruct (accept_cases (x_listen x) (x_vec x) a SN) as [[_ Q]|(j & c & Hf & Hs & Hd & Q)]; [rewrite Q in E1; injection E1; intros; subst; auto|].
      pose proof (slot_range _ _ _ Hs) as Rj. destruct a as [e|d ad nd].
      - rewrite Q in E1. injection E1; intros; subst. split; [|exact Logic.I]. rewrite size_put. apply bumped_size.
      - subst nd. destruct Q as [[_ Q]|[Q _]]; [|congruence]. rewrite Q in E1. injection E1; intros; subst. split; [|lia]. change (v_size (set_active ?v _)) with (v_size v). rewrite size_put. apply bumped_size. }
    destruct Sv as [Sv Rj].
    destruct (negb _); [injection Ed as _ _ <- <-; exact Sv|]. destruct ri as [j|]; [|discriminate Ed].
    destruct (find_by_index v j) as [[c|]| | |]; cbn [bind] in Ed; [|discriminate Ed..]. destruct cb as [[|]|].
    + injection Ed as _ _ <- <-. exact Sv.
    + destruct (rmc_pub_close_connection _ j) as [[[cd2 x2] e2]| | |] eqn:E2; cbn [bind] in Ed; [|discriminate Ed..]. injection Ed as _ _ <- <-. rewrite (close_size _ _ _ _ _ Rj E2). exact Sv.
    + injection Ed as _ _ <- <-. exact Sv.
  - cbn [rmc_pub_read] in E. destruct (x_mcast x =? -1) eqn:Em; [cbn [bind] in E; injection E as _ <- <-; reflexivity|]. destruct err; cbn [bind] in E; injection E as _ <- <-; reflexivity.
  - destruct (rmc_pub_read x i (RdTcp t)) as [[[[cd op] x1] e1]| | |] eqn:Ed; cbn [bind] in E; [|discriminate E..]. injection E as _ <- <-. assert (Hi : 0 <= i) by (cbn in Hok; tauto).
    cbn [rmc_pub_read] in Ed. destruct (find_index_cases (x_vec x) i Hi) as [[Ef _]|(c & Ef & Ho)]; rewrite Ef in Ed; cbn [bind] in Ed; [injection Ed as _ _ <- <-; reflexivity|].
    destruct (negb (c_mode c =? CONNECTED)); [injection Ed as _ _ <- <-; reflexivity|].
    destruct (tcp_read _ _ (c_rbuf c) t) as [r| | |] eqn:Er; cbn [bind] in Ed; [|discriminate Ed..].
    pose proof (tcp_read_ok (pub_dispatch (eff_ack i) (ccb_set x) (eff_ctrl i)) (fun st => KP x (fst st) (snd st) /\ x_vec (fst st) = x_vec x)
      (pub_dispatch_ok _ _ _ _ (fun st iv st' => eff_ack_KP x i st iv st') (fun st p st' => eff_ctrl_KP x i st p st')) (x, []) (c_rbuf c) t r (conj (KP_refl x) eq_refl) Er) as [_ V].
    destruct (r_st r) as [x2 e2]. cbn [fst snd] in *. destruct (r_code r =? EPIPE).
    + destruct (rmc_pub_close_connection _ i) as [[[cd3 x3] e3]| | |] eqn:E2; cbn [bind] in Ed; [|discriminate Ed..]. injection Ed as _ _ <- <-.
      rewrite (close_size _ _ _ _ _ Hi E2). cbn [set_vec x_vec]. rewrite size_put, V. reflexivity.
    + injection Ed as _ _ <- <-. cbn [set_vec x_vec]. rewrite size_put, V. reflexivity.
  - cbn [rmc_pub_write] in E. destruct (process_multicast_write x outs) as [[[cd x1] e1]| | |] eqn:Ed; cbn [bind] in E; [|discriminate E..]. injection E as _ <- <-. exact (KS _ _ _ (mcast_KP _ _ _ _ _ Ed)).
  - cbn [rmc_pub_write] in E. destruct (_ <=? i); [cbn [bind] in E; injection E as _ <- <-; reflexivity|].
    destruct (find_by_index (x_vec x) i) as [[c|]| | |]; cbn [bind] in E; [| |discriminate E..]; [|injection E as _ <- <-; reflexivity].
    destruct (negb (c_mode c =? CONNECTED)); [cbn [bind] in E; injection E as _ <- <-; reflexivity|]. destruct (circ_buf_in_use (c_wbuf c) =? 0); [cbn [bind] in E; injection E as _ <- <-; reflexivity|].
    destruct (tcp_write (c_wbuf c) w) as [r| | |]; cbn [bind] in E; [|discriminate E..]. injection E as _ <- <-. cbn [set_vec x_vec]. apply size_put.
  - exact (KS _ _ _ (timeout_KP _ _ _ _ _ _ _ E)).
  - exact (close_size _ _ _ _ _ (proj1 Hok) E).
  - injection E as _ <- <-. reflexivity.
  - unfold rmc_pub_throttling in E. destruct (s <? r); injection E as _ <- <-; reflexivity.
  - injection E as _ <- <-. reflexivity.
  - unfold rmc_pub_activate_context in E. destruct o as [e ds ea|m l port]; injection E as _ <- <-; [reflexivity|]. destruct (x_lport x =? 0); reflexivity.
  - unfold rmc_pub_deactivate_context in E. match type of E with bind ?h _ = _ => destruct h as [[x2 e2]| | |] eqn:E2 end; cbn [bind fst snd] in E; [|discriminate E..].
    assert (S : v_size (x_vec x2) = v_size (x_vec x)) by (destruct (_ =? _); [injection E2 as <- <-; reflexivity|exact (proj2 (close_loop_frame None _ _ 0 _ _ ltac:(lia) E2))]).
    injection E as _ <- <-. exact S.
Qed.
Lemma init_size buf : zlen buf <= RMC_LISTEN_INDEX -> v_size (init_vec buf) = zlen buf.
Proof.
  intros H. unfold init_vec, v_size. cbn [v_conns]. unfold zlen, RMC_LISTEN_INDEX in *. rewrite map_length. unfold u16. rewrite Z.mod_small by lia. rewrite Nat2Z.id, firstn_all. reflexivity.
Qed.
(** The maximum is the number of connections whose storage was handed over at the start. *)
Theorem c79_pub_maximum : forall node lip lport buf m x g log ops,
  zlen buf <= RMC_LISTEN_INDEX -> (forall p bs, m p = Some bs -> bytes_ok bs) -> is_u32 node -> is_u32 lip -> is_u16 lport ->
  xhist (rmc_pub_init_context node lip lport buf m) ops x g log ->
  rmc_pub_get_max_subscriber_count x = zlen buf /\ 0 <= rmc_pub_get_subscriber_count x <= zlen buf.
Proof.
  intros node lip lport buf m x g log ops H1 H2 H3 H4 H5 H. assert (F : fresh_ctx (rmc_pub_init_context node lip lport buf m)) by (exists node, lip, lport, buf, m; auto 10).
  assert (S : v_size (x_vec x) = zlen buf).
  { induction H as [|ops x g log o code x' evs H IH Hok E]; [exact (init_size buf H1)|].
    rewrite (pstep_size x g log o code x' evs); auto. apply reached_inv. eexists _, ops. eauto. }
  assert (R : reached x g log) by (eexists _, ops; eauto). rewrite (pub_size _ _ _ R), S. split; [reflexivity|].
  apply reached_inv in R. destruct R as (sp & L & Q & X). unfold rmc_pub_get_subscriber_count, get_active_connection_count. rewrite (vi_active _ _ (xi_vec _ _ _ _ _ _ _ X)), <- S. apply count_range.
Qed.
(** Two subscribers accepted, one closed: one subscriber, three sockets. *)
Definition c79_ops : list xop := [XActivate (ActOk 3 4 0); XRead RMC_LISTEN_INDEX (RdAccept (AccOk 5 1 0) None);
  XRead RMC_LISTEN_INDEX (RdAccept (AccOk 6 2 0) (Some true)); XClose 0].
Example c79_pub_witness : exists x g log, reached_by activated_once x g log /\ kernel_ok (pub_polls log) /\ opened (pub_polls log) = [6; 4; 3] /\
  rmc_pub_get_subscriber_count x = 1 /\ rmc_pub_get_socket_count x = 3 /\ connected x 1 /\ ~ connected x 0.
Proof.
  destruct (xcheck_hist demo0 c79_ops (fun x g log => kernel_okb [] (pub_polls log) && listb (opened (pub_polls log)) [6; 4; 3] && (rmc_pub_get_subscriber_count x =? 1) && (rmc_pub_get_socket_count x =? 3) &&
     match slot (x_vec x) 0, slot (x_vec x) 1 with Ok c, Ok d => (c_mode c =? CLOSED) && (c_mode d =? CONNECTED) | _, _ => false end)) as (x & g & log & H & E); [vm_compute; reflexivity|]. bool_split.
  destruct (slot (x_vec x) 0) as [c| | |] eqn:E0; try discriminate. destruct (slot (x_vec x) 1) as [d| | |] eqn:E1; try discriminate. bool_split. exists x, g, log.
  split; [exact (once_ok demo0 _ _ _ _ _ demo0_fresh H eq_refl)|]. repeat match goal with |- _ /\ _ => split end; try (apply kernel_okb_nil; assumption); try (apply listb_eq; assumption); try lia.
  - exists d. split; [exact E1|lia].
  - intros (c' & A & B). assert (c' = c) as -> by congruence. rewrite B in *. discriminate.
Qed.
(** After a second activation the count misses the two sockets that were lost. *)
Theorem c79_pub_twice_refuted : exists x g log, reached x g log /\ kernel_ok (pub_polls log) /\ rmc_pub_get_socket_count x = 2 /\ zlen (opened (pub_polls log)) = 4.
Proof.
  destruct (xcheck_hist demo0 c76_twice (fun x g log => kernel_okb [] (pub_polls log) && (rmc_pub_get_socket_count x =? 2) && (zlen (opened (pub_polls log)) =? 4))) as (x & g & log & H & E); [vm_compute; reflexivity|].
  bool_split. exists x, g, log. split; [exists demo0, c76_twice; split; [exact demo0_fresh|exact H]|]. repeat match goal with |- _ /\ _ => split end; try (apply kernel_okb_nil; assumption); lia.
Qed.

(** ** C79. The subscriber *)
(** The number of publishers is the number of open connections, including those whose
    connect() has not finished. *)
Theorem c79_sub_publishers : forall t x log, sreached t x log ->
  exists l, lists l (fun i => exists c, is_open (t_vec x) i c) /\ rmc_sub_get_publisher_count x = zlen l.
Proof.
  intros t x log H. destruct (sreached_inv _ _ _ H) as (B & _). destruct (count_lists (t_vec x)) as (l & I & Z1). exists l. split; [exact I|].
  unfold rmc_sub_get_publisher_count, get_active_connection_count. rewrite (tv_active _ (bi_vec _ B)). symmetry. exact Z1.
Qed.
Theorem c79_sub_sockets : forall x log, sreached false x log -> kernel_ok (sub_polls log) ->
  rmc_sub_get_socket_count x = zlen (opened (sub_polls log)) /\ NoDup (opened (sub_polls log)).
Proof.
  intros x log H K. split; [|exact (opened_NoDup _ K)]. rewrite (HI_count _ _ _ (sreached_HI x log H K) K).
  destruct (sreached_inv _ _ _ H) as (B & _). unfold rmc_sub_get_socket_count, rmc_sub_get_publisher_count, get_active_connection_count. rewrite (tv_active _ (bi_vec _ B)).
  pose proof (count_range (t_vec x)) as C. pose proof (tv_size _ (bi_vec _ B)) as S. unfold RMC_LISTEN_INDEX in S.
  unfold u32, sock_in. rewrite Z.mod_small by (destruct (t_mcast x =? -1); lia). destruct (t_mcast x =? -1); unfold zlen; cbn [length]; lia.
Qed.
Theorem c79_sub_maximum : forall node buf m x log ops, zlen buf <= RMC_LISTEN_INDEX ->
  yhist false (rmc_sub_init_context node buf m) ops x log ->
  rmc_sub_get_max_publisher_count x = zlen buf /\ 0 <= rmc_sub_get_publisher_count x <= zlen buf.
Proof.
  intros node buf m x log ops L H. assert (F : fresh_sub (rmc_sub_init_context node buf m)) by (exists node, buf, m; auto).
  assert (S : v_size (t_vec x) = zlen buf).
  { induction H as [|ops x log o code x' evs H IH Hok Hr E]; [exact (init_size buf L)|].
    assert (S0 : v_size (t_vec x) <= RMC_NIL_INDEX) by (rewrite IH; unfold RMC_NIL_INDEX, RMC_LISTEN_INDEX in *; lia).
    destruct (sstep_SD x log o code x' evs S0 Hok E) as (_ & S). congruence. }
  assert (R : sreached false x log) by (eexists _, ops; eauto). destruct (sreached_inv _ _ _ R) as (B & _).
  unfold rmc_sub_get_max_publisher_count, get_vector_size, rmc_sub_get_publisher_count, get_active_connection_count. rewrite (tv_active _ (bi_vec _ B)), <- S. split; [|apply count_range].
  pose proof (zlen_nonneg buf). unfold u16. apply Z.mod_small. unfold RMC_LISTEN_INDEX in L. lia.
Qed.
(** The packets put up for dispatch, and those taken out again: by the application, or by
    deactivation. *)
Definition put_ev (e : sev) : bool := match e with SvPut _ _ _ => true | _ => false end.
Definition out_ev (e : sev) : bool := match e with SvTake _ _ | SvDrop _ => true | _ => false end.
Definition nput (log : list sev) : Z := zlen (filter put_ev log).
Definition nout (log : list sev) : Z := zlen (filter out_ev log).
Lemma n_app log evs : nput (log ++ evs) = nput log + nput evs /\ nout (log ++ evs) = nout log + nout evs.
Proof. unfold nput, nout. rewrite !filter_app, !zlen_app. auto. Qed.
Lemma n_put m i out : nput (put_evs m i out) = zlen out /\ nout (put_evs m i out) = 0.
Proof. unfold nput, nout, put_evs. induction out as [|p out [I1 I2]]; [auto|]. cbn [map filter put_ev out_ev]. rewrite !zlen_cons. split; [lia|exact I2]. Qed.
Lemma n_free l : nput (free_evs l) = 0 /\ nout (free_evs l) = 0.
Proof. unfold nput, nout, free_evs. induction l as [|p l [I1 I2]]; [auto|]. cbn [map filter put_ev out_ev]. auto. Qed.
Lemma n_step r log x evs x' : ustep r log x evs x' -> zlen (t_ready x') - zlen (t_ready x) = nput evs - nout evs.
Proof.
  intros U. destruct U; cbn [set_tvec set_tready set_tack set_tmem put_spub set_tpubs t_ready].
  - destruct e; cbn in H; try contradiction; cbn; lia.
  - rewrite H2. cbn. lia.
  - subst x'. cbn [t_ready]. rewrite zlen_app. destruct (n_put m i out) as [P1 P2]. unfold nput, nout in *. destruct src; cbn [app filter put_ev out_ev]; rewrite P1, P2; lia.
  - rewrite zlen_app. destruct (n_put (t_mem x) i out) as [-> ->]. lia.
  - destruct (unlink_perm _ _ _ _ H) as (P & _). apply Permutation_length in P. cbn [length] in P. unfold nput, nout, zlen. rewrite P. cbn. lia.
  - destruct (unlink_perm _ _ _ _ H) as (P & _). apply Permutation_length in P. cbn [length] in P. unfold nput, nout, zlen. rewrite P. cbn. lia.
  - rewrite H, zlen_cons. change (nput [_]) with 0. change (nout [_]) with 1. lia.
  - cbn. lia.
  - cbn. lia.
  - cbn. lia.
  - cbn. lia.
  - cbn. lia.
  - cbn. lia.
  - cbn. lia.
  - cbn. lia.
  - match goal with A : _ = [] \/ _ |- _ => destruct A as [-> | (d & _ & ->)] end; cbn; lia.
  - cbn. lia.
  - cbn. lia.
  - cbn. lia.
  - cbn. lia.
  - match goal with |- context [nput (?a ++ ?b)] => destruct (n_app a b) as [-> ->] end. destruct (n_free (s_recv s)) as [-> ->]. cbn. lia.
  - cbn. lia.
Qed.
(** The dispatch-ready count is the number of packets put up for dispatch and not taken. *)
Theorem c79_sub_ready : forall t x log, sreached t x log -> rmc_sub_get_dispatch_ready_count x = nput log - nout log.
Proof.
  intros t x log (x0 & ops & F & H). unfold rmc_sub_get_dispatch_ready_count. induction H as [|ops x log o code x' evs H IH Hok Hr E].
  - destruct F as (node & buf & m & -> & _). reflexivity.
  - assert (R : sreached t x log) by (exists x0, ops; auto). destruct (sreached_inv _ _ _ R) as (B & M & _). pose proof (step_dec x log o B M Hok) as U. rewrite E in U. cbn [ssafe fst snd] in U.
    destruct (n_app log evs) as [-> ->]. assert (D : zlen (t_ready x') - zlen (t_ready x) = nput evs - nout evs); [|lia].
    clear - U. induction U as [|e1 y1 e2 y2 U IH S]; [cbn; lia|]. apply n_step in S. destruct (n_app e1 e2) as [-> ->]. lia.
Qed.
(** One publisher, two sockets, and a packet that waits for dispatch. *)
Example c79_sub_witness : exists x log, sreached false x log /\ kernel_ok (sub_polls log) /\ opened (sub_polls log) = [4; 3] /\
  rmc_sub_get_publisher_count x = 1 /\ rmc_sub_get_socket_count x = 2 /\ rmc_sub_get_dispatch_ready_count x = 1 /\ nput log = 1.
Proof.
  destruct (ycheck_hist false sdemo0 sdemo_ops (fun x log => kernel_okb [] (sub_polls log) && listb (opened (sub_polls log)) [4; 3] && (rmc_sub_get_publisher_count x =? 1) &&
     (rmc_sub_get_socket_count x =? 2) && (rmc_sub_get_dispatch_ready_count x =? 1) && (nput log =? 1))) as (x & log & H & E); [vm_compute; reflexivity|]. bool_split. exists x, log.
  split; [exists sdemo0, sdemo_ops; split; [exact sdemo0_fresh|exact H]|]. repeat match goal with |- _ /\ _ => split end; try (apply kernel_okb_nil; assumption); try (apply listb_eq; assumption); lia.
Qed.

Print Assumptions c79_pub_subscribers.
Print Assumptions c79_pub_sockets_partial.
Print Assumptions c79_pub_maximum.
Print Assumptions c79_pub_twice_refuted.
Print Assumptions c79_sub_publishers.
Print Assumptions c79_sub_sockets.
Print Assumptions c79_sub_maximum.
Print Assumptions c79_sub_ready.
