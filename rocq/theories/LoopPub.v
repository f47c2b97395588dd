(** LoopPub.v — the publisher's event loop. *)
From Verif Require Import Base CircBuf CircBufProofs Wire SeqList Pub SpecPub PubProofs Proto SpecProto ProtoProofs Safe
  Conn SpecConn ConnProofs PubCtx SpecPubCtx PubCtxProofs PubCtxSteps PropPubCtx SpecPubRecv PubRecv SpecPoll PollPub PollMcast SpecDesc Desc
  SubCtx SpecSubCtx SubSteps SubInv PollSub Epoll SpecEpoll EpollProofs EpollPub Loop SpecLoop.

(** A call for index [i] leaves the other connections alone. *)
Definition fr (i : Z) (v v' : cvec) : Prop := (forall j c, j <> i -> is_open v j c -> slot v' j = Ok c) /\ v_size v' = v_size v.
Lemma fr_refl i v : fr i v v.
Proof. split; [|reflexivity]. intros j c _ [H _]. exact H. Qed.
Lemma fr_trans i u v w : fr i u v -> fr i v w -> fr i u w.
Proof.
  intros [A1 A2] [B1 B2]. split; [|congruence]. intros j c N O. apply B1; [exact N|]. split; [exact (A1 j c N O)|exact (proj2 O)].
Qed.
Lemma fr_put i v c' : 0 <= i -> fr i v (put_slot v i c').
Proof. intros Hi. split; [|apply size_put]. intros j c N [Hs _]. rewrite slot_put_other by (lia || exact N). exact Hs. Qed.
Lemma fr_eq i v v' : v' = v -> fr i v v'.
Proof. intros ->. apply fr_refl. Qed.
Lemma close_fr v i code v' evs : 0 <= i -> close_conn v i = Ok (code, v', evs) -> fr i v v'.
Proof.
  intros Hi E. destruct (close_cases v i Hi) as [[_ Ec]|[(c & _ & _ & Ec)|(c & Ho & Ec)]]; rewrite Ec in E; injection E as _ <- _; try apply fr_refl.
  split; [|destruct (i =? v_max v); apply (size_put v i)].
  intros j d N [Hs _]. rewrite slot_set_active. destruct (i =? v_max v); rewrite ?slot_reset_max; rewrite slot_put_other by (lia || exact N); exact Hs.
Qed.
Lemma close_shut v i code v' evs : 0 <= i -> close_conn v i = Ok (code, v', evs) -> forall c, ~ is_open v' i c.
Proof.
  intros Hi E c' [Hs' Hm']. destruct (close_cases v i Hi) as [[L Ec]|[(c & Hs & Hm & Ec)|(c & Ho & Ec)]]; rewrite Ec in E; injection E as _ <- _.
  - pose proof (slot_range _ _ _ Hs'). lia.
  - congruence.
  - pose proof (slot_range _ _ _ (proj1 Ho)) as R. rewrite slot_set_active in Hs'.
    assert (Q : slot (put_slot v i (reset_conn c)) i = Ok c') by (destruct (i =? v_max v); exact Hs'). rewrite slot_put_same in Q by exact R. injection Q as <-. apply Hm'. reflexivity.
Qed.
Definition same_socks (x x' : pctx) : Prop := x_mcast x' = x_mcast x /\ x_listen x' = x_listen x.
Lemma pclose_fr x i code x' evs : 0 <= i -> rmc_pub_close_connection x i = Ok (code, x', evs) ->
  fr i (x_vec x) (x_vec x') /\ same_socks x x' /\ (forall c, ~ is_open (x_vec x') i c) /\
  ((forall c, ~ is_open (x_vec x) i c) -> code = EINVAL /\ x' = x /\ evs = []).
Proof.
  intros Hi. unfold rmc_pub_close_connection. destruct (find_index_cases (x_vec x) i Hi) as [[-> Hn]|(c & -> & Ho)]; cbn [bind].
  - intros E. assert (code = EINVAL /\ x' = x /\ evs = []) as (-> & -> & ->) by (repeat split; congruence). split; [apply fr_refl|]. split; [split; reflexivity|]. split; [exact Hn|auto].
  - destruct (close_conn (x_vec x) i) as [[[cd v] ce]| | |] eqn:Ec; cbn [bind]; [|discriminate..]. destruct (pub_reset_subscriber _ _) as [[s f]| | |]; cbn [bind fst snd]; [|discriminate..].
    destruct (release_all _ _) as [[m e]| | |]; cbn [bind fst snd]; [|discriminate..]. intros E. assert (x' = set_mem (set_pub (set_vec x v) s) m) as -> by congruence.
    split; [exact (close_fr _ _ _ _ _ Hi Ec)|]. split; [split; reflexivity|]. split; [exact (close_shut _ _ _ _ _ Hi Ec)|]. intros Hn. destruct (Hn c Ho).
Qed.
(** The connection at [i] keeps its descriptor or is closed. *)
Definition own (i : Z) (v v' : cvec) : Prop := forall c, is_open v i c -> (exists c', is_open v' i c' /\ c_desc c' = c_desc c) \/ (forall c', ~ is_open v' i c').
Lemma own_refl i v : own i v v.
Proof. intros c H. left. eauto. Qed.
Lemma pread_tcp_fr x i t code op x' evs : 0 <= i -> rmc_pub_read x i (RdTcp t) = Ok (code, op, x', evs) ->
  fr i (x_vec x) (x_vec x') /\ same_socks x x' /\ own i (x_vec x) (x_vec x').
Proof.
  intros Hi. cbn [rmc_pub_read]. assert (Refl : fr i (x_vec x) (x_vec x) /\ same_socks x x /\ own i (x_vec x) (x_vec x)) by (split; [apply fr_refl|]; split; [split; reflexivity|apply own_refl]).
  destruct (find_index_cases (x_vec x) i Hi) as [[-> Hn]|(c & -> & Ho)]; cbn [bind]; [intros E; assert (x' = x) as -> by congruence; exact Refl|].
  destruct (negb (c_mode c =? CONNECTED)); [intros E; assert (x' = x) as -> by congruence; exact Refl|].
  destruct (tcp_read _ _ (c_rbuf c) t) as [r| | |] eqn:Er; cbn [bind]; [|discriminate..].
  pose proof (tcp_read_ok (pub_dispatch (eff_ack i) (ccb_set x) (eff_ctrl i)) (fun st => KP x (fst st) (snd st) /\ x_vec (fst st) = x_vec x)
    (pub_dispatch_ok _ _ _ _ (fun st iv st' => eff_ack_KP x i st iv st') (fun st p st' => eff_ctrl_KP x i st p st')) (x, []) (c_rbuf c) t r (conj (KP_refl x) eq_refl) Er) as [(_ & K1 & K2 & _) V].
  destruct (r_st r) as [x1 e1]. cbn [fst snd] in *. pose proof (slot_range _ _ _ (proj1 Ho)) as R.
  assert (P : forall c', fr i (x_vec x) (put_slot (x_vec x1) i c')) by (intros c'; rewrite V; apply fr_put; exact Hi).
  destruct (r_code r =? EPIPE).
  - destruct (rmc_pub_close_connection _ i) as [[[cd x2] e2]| | |] eqn:E2; cbn [bind]; [|discriminate..]. intros E. assert (x' = x2) as -> by congruence.
    destruct (pclose_fr _ _ _ _ _ Hi E2) as (A1 & (A2 & A3) & A4 & _). cbn [set_vec x_vec x_mcast x_listen] in A1, A2, A3. split; [exact (fr_trans _ _ _ _ (P _) A1)|]. split; [split; congruence|]. intros c' _. right. exact A4.
  - intros E. match type of E with Ok (_, _, ?y, _) = _ => assert (x' = y) as -> by congruence end. cbn [set_vec x_vec]. split; [apply P|]. split; [split; assumption|].
    intros c' Ho'. assert (c' = c) as -> by (destruct Ho, Ho'; congruence). left. eexists. split; [split; [apply slot_put_same; rewrite V; exact R|]|]; [|reflexivity]. exact (proj2 Ho).
Qed.
Lemma paccept_fr x i a cb code op x' evs : v_size (x_vec x) <= RMC_LISTEN_INDEX -> (forall j c, slot (x_vec x) j = Ok c -> c_desc c = -1 -> c_mode c = CLOSED) -> match a with AccOk _ _ nd => nd = 0 | _ => True end ->
  rmc_pub_read x i (RdAccept a cb) = Ok (code, op, x', evs) -> fr i (x_vec x) (x_vec x') /\ same_socks x x' /\ (forall c, is_open (x_vec x) i c -> slot (x_vec x') i = Ok c).
Proof.
  intros Hl Hc Hn. assert (Hz : v_size (x_vec x) <= RMC_NIL_INDEX) by (unfold RMC_NIL_INDEX, RMC_LISTEN_INDEX in *; lia).
  cbn [rmc_pub_read]. destruct (process_accept (x_listen x) (x_vec x) a) as [[[[cd ri] v] ce]| | |] eqn:E1; cbn [bind]; [|discriminate..].
  assert (A : forall k c0 v1, slot (x_vec x) k = Ok c0 -> c_desc c0 = -1 -> (forall j, j <> k -> slot v1 j = slot (x_vec x) j) -> forall j c, is_open (x_vec x) j c -> slot v1 j = Ok c).
  { intros k c0 v1 Hs Hd Ht j c [Hj Hm]. rewrite Ht; [exact Hj|]. intros ->. apply Hm. assert (c = c0) as -> by congruence. exact (Hc _ _ Hs Hd). }
  assert (B : v_size v = v_size (x_vec x) /\ match ri with
     | None => forall j c, is_open (x_vec x) j c -> slot v j = Ok c
     | Some k => 0 <= k /\ (forall c, ~ is_open (x_vec x) k c) /\ (forall j, j <> k -> slot v j = slot (x_vec x) j) end).
  { destruct (accept_cases (x_listen x) (x_vec x) a Hz) as [[_ Q]|(k & c0 & _ & Hs & Hd & Q)].
    - rewrite Q in E1. assert (v = x_vec x /\ ri = None) as [-> ->] by (split; congruence). split; [reflexivity|]. intros j c [H _]. exact H.
    - pose proof (slot_range _ _ _ Hs) as R. destruct a as [e|d ad nd].
      + rewrite Q in E1. match type of E1 with Ok (_, _, ?y, _) = _ => assert (v = y /\ ri = None) as [-> ->] by (split; congruence) end. split; [rewrite size_put; apply bumped_size|].
        apply (A k c0 _ Hs Hd). intros j N. rewrite slot_put_other by (lia || exact N). apply bumped_slot.
      + destruct Q as [[_ Q]|[Q _]]; [|congruence]. rewrite Q in E1. match type of E1 with Ok (_, _, ?y, _) = _ => assert (v = y /\ ri = Some k) as [-> ->] by (split; congruence) end.
        split; [transitivity (v_size (bumped (x_vec x) k)); [apply (size_put (bumped (x_vec x) k) k)|apply bumped_size]|]. split; [lia|]. split.
        * intros c [Hs' Hm]. apply Hm. assert (c = c0) as -> by congruence. exact (Hc _ _ Hs Hd).
        * intros j N. rewrite slot_set_active, slot_put_other by (lia || exact N). apply bumped_slot. }
  destruct B as [B0 B].
  assert (D : forall y, x_vec y = v -> same_socks x y -> (forall j c, is_open (x_vec x) j c -> slot v j = Ok c) -> fr i (x_vec x) (x_vec y) /\ same_socks x y /\ (forall c, is_open (x_vec x) i c -> slot (x_vec y) i = Ok c)).
  { intros y -> S H. split; [split; [intros j c _; apply H|exact B0]|]. split; [exact S|]. intros c. apply H. }
  assert (B' : forall j c, is_open (x_vec x) j c -> slot v j = Ok c).
  { destruct ri as [k|]; [|exact B]. destruct B as (_ & B1 & B2). intros j c Ho. rewrite B2; [exact (proj1 Ho)|]. intros ->. exact (B1 c Ho). }
  destruct (negb _); [intros E; assert (x' = set_vec x v) as -> by congruence; apply D; [reflexivity|split; reflexivity|exact B']|]. destruct ri as [k|]; [|discriminate]. destruct B as (Hk & B1 & B2).
  destruct (find_by_index v k) as [[c|]| | |]; cbn [bind]; [|discriminate..]. set (X1 := set_pub (set_vec x v) _). destruct cb as [[|]|].
  - intros E. assert (x' = X1) as -> by congruence. apply D; [reflexivity|split; reflexivity|exact B'].
  - destruct (rmc_pub_close_connection X1 k) as [[[cd2 x2] e2]| | |] eqn:E2; cbn [bind]; [|discriminate..]. intros E. assert (x' = x2) as -> by congruence.
    destruct (pclose_fr _ _ _ _ _ Hk E2) as ((F1 & F2) & (F3 & F4) & _). change (x_vec X1) with v in F1, F2. change (x_mcast X1) with (x_mcast x) in F3. change (x_listen X1) with (x_listen x) in F4.
    assert (G : forall j c, is_open (x_vec x) j c -> slot (x_vec x2) j = Ok c).
    { intros j d Ho. apply F1; [intros ->; exact (B1 d Ho)|]. split; [exact (B' j d Ho)|exact (proj2 Ho)]. }
    split; [split; [intros j d _; apply G|congruence]|]. split; [split; assumption|]. intros d. apply G.
  - intros E. assert (x' = X1) as -> by congruence. apply D; [reflexivity|split; reflexivity|exact B'].
Qed.
Lemma pread_fr x i n code op x' evs : 0 <= i -> v_size (x_vec x) <= RMC_LISTEN_INDEX -> (forall j c, slot (x_vec x) j = Ok c -> c_desc c = -1 -> c_mode c = CLOSED) -> pin_ok n ->
  rmc_pub_read x i (pub_rd i n) = Ok (code, op, x', evs) -> fr i (x_vec x) (x_vec x') /\ same_socks x x' /\ own i (x_vec x) (x_vec x').
Proof.
  intros Hi Hl Hc [Hn _]. unfold pub_rd. destruct (i =? RMC_LISTEN_INDEX).
  - intros E. assert (Hn' : match n_acc n with AccOk _ _ nd => nd = 0 | _ => True end) by (destruct (n_acc n); [exact Logic.I|exact (proj2 Hn)]). destruct (paccept_fr x i _ _ code op x' evs Hl Hc Hn' E) as (A & B & C). split; [exact A|]. split; [exact B|]. intros c Ho. left. exists c. split; [split; [exact (C c Ho)|exact (proj2 Ho)]|reflexivity].
  - destruct (i =? RMC_MULTICAST_INDEX); [|apply pread_tcp_fr; exact Hi]. cbn [rmc_pub_read]. intros E. assert (x' = x) as ->.
    { destruct (x_mcast x =? -1); [congruence|]. destruct (n_from n); congruence. }
    split; [apply fr_refl|]. split; [split; reflexivity|apply own_refl].
Qed.
Lemma send_vec x a o code x' evs : send_single_multicast_packet x a o = Ok (code, x', evs) -> x_vec x' = x_vec x.
Proof.
  unfold send_single_multicast_packet. assert (Same : forall c e, Ok (c, x, e) = Ok (code, x', evs) -> x_vec x' = x_vec x) by (intros; congruence).
  repeat match goal with
  | |- bind ?h _ = _ -> _ => destruct h; cbn [bind]; [|discriminate..]
  | |- (let (_, _) := ?h in _) = _ -> _ => destruct h
  | |- match ?h with _ => _ end = _ -> _ => destruct h
  | |- (if ?h then _ else _) = _ -> _ => destruct h
  end; try discriminate; try (apply Same); intros E; match type of E with Ok (_, ?y, _) = _ => assert (x' = y) as -> by congruence end; reflexivity.
Qed.
Lemma mcast_vec : forall outs x code x' evs, process_multicast_write x outs = Ok (code, x', evs) -> x_vec x' = x_vec x.
Proof.
  induction outs as [|o outs IH]; intros x code x' evs E; cbn [process_multicast_write] in E;
  (destruct (pub_next_queued (x_pub x)) as [a|]; [|congruence]).
  - exact (send_vec _ _ _ _ _ _ E).
  - destruct (send_single_multicast_packet x a o) as [[[cd x1] e1]| | |] eqn:E1; cbn [bind] in E; [|discriminate E..]. pose proof (send_vec _ _ _ _ _ _ E1) as V1.
    destruct (negb (cd =? 0)); [congruence|]. destruct (process_multicast_write x1 outs) as [[[cd2 x2] e2]| | |] eqn:E2; cbn [bind] in E; [|discriminate E..]. pose proof (IH _ _ _ _ E2). congruence.
Qed.
Lemma pwrite_fr x i n code op x' evs : 0 <= i -> v_size (x_vec x) <= RMC_LISTEN_INDEX -> rmc_pub_write x i (pub_wr i n) = Ok (code, op, x', evs) ->
  fr i (x_vec x) (x_vec x') /\ same_socks x x' /\ own i (x_vec x) (x_vec x') /\
  (i <> RMC_MULTICAST_INDEX -> i < v_size (x_vec x) -> (forall c, ~ is_open (x_vec x) i c) -> code = ENOTCONN /\ x' = x /\ evs = []) /\
  (i <> RMC_MULTICAST_INDEX -> forall c, is_open (x_vec x) i c -> (forall c, slot (x_vec x) i = Ok c -> c_mode c = CLOSED \/ c_mode c = CONNECTED) -> code = 0 \/ code = ENODATA \/ exists e, n_writev n = WErr e /\ code = e).
Proof.
  intros Hi Hl. unfold pub_wr. destruct (Z.eqb_spec i RMC_MULTICAST_INDEX) as [->|Nm].
  - cbn [rmc_pub_write]. destruct (process_multicast_write x (n_send n)) as [[[cd x1] e1]| | |] eqn:E1; cbn [bind]; [|discriminate..]. intros E. assert (x' = x1) as -> by congruence.
    pose proof (mcast_vec _ _ _ _ _ E1) as V. destruct (mcast_KP _ _ _ _ _ E1) as (_ & K1 & K2 & _). split; [rewrite V; apply fr_refl|]. split; [split; assumption|]. split; [rewrite V; apply own_refl|]. split; intros Q; congruence.
  - cbn [rmc_pub_write]. assert (Refl : fr i (x_vec x) (x_vec x) /\ same_socks x x /\ own i (x_vec x) (x_vec x)) by (split; [apply fr_refl|]; split; [split; reflexivity|apply own_refl]).
    unfold rmc_pub_get_max_subscriber_count, get_vector_size. replace (u16 (v_size (x_vec x))) with (v_size (x_vec x)) by (symmetry; apply Z.mod_small; unfold v_size, zlen, RMC_LISTEN_INDEX in *; lia).
    destruct (Z.leb_spec (v_size (x_vec x)) i) as [L|L].
    { intros E. assert (x' = x) as -> by congruence. destruct Refl as (R1 & R2 & R3). split; [exact R1|]. split; [exact R2|]. split; [exact R3|]. split; intros _; [intros; lia|]. intros c [Hs _]. pose proof (slot_range _ _ _ Hs). lia. }
    destruct (find_index_cases (x_vec x) i Hi) as [[-> Hn]|(c & -> & Ho)]; cbn [bind].
    { intros E. assert (code = ENOTCONN /\ x' = x /\ evs = []) as (-> & -> & ->) by (repeat split; congruence). destruct Refl as (R1 & R2 & R3). split; [exact R1|]. split; [exact R2|]. split; [exact R3|]. split; [auto|]. intros _ c Ho. destruct (Hn c Ho). }
    destruct (Z.eqb_spec (c_mode c) CONNECTED) as [Hm|Hm]; cbn [negb].
    2: { intros E. assert (x' = x) as -> by congruence. destruct Refl as (R1 & R2 & R3). split; [exact R1|]. split; [exact R2|]. split; [exact R3|]. split; [intros _ _ Q; destruct (Q c Ho)|]. intros _ c' _ Q. destruct (Q c (proj1 Ho)); [destruct (proj2 Ho); assumption|contradiction]. }
    destruct (circ_buf_in_use (c_wbuf c) =? 0).
    { intros E. assert (x' = x /\ code = ENODATA) as [-> ->] by (split; congruence). destruct Refl as (R1 & R2 & R3). split; [exact R1|]. split; [exact R2|]. split; [exact R3|]. split; [intros _ _ Q; destruct (Q c Ho)|]. auto. }
    destruct (tcp_write (c_wbuf c) (n_writev n)) as [r| | |] eqn:Ew; cbn [bind]; [|discriminate..]. intros E. match type of E with Ok (_, _, ?y, _) = _ => assert (code = w_code r /\ x' = y) as [-> ->] by (split; congruence) end. cbn [set_vec x_vec].
    split; [apply fr_put; exact Hi|]. split; [split; reflexivity|]. split; [|split; [intros _ _ Q; destruct (Q c Ho)|]].
    + intros c' Ho'. assert (c' = c) as -> by (destruct Ho, Ho'; congruence). left. eexists. split; [split; [apply slot_put_same; exact (slot_range _ _ _ (proj1 Ho))|]|]; [exact (proj2 Ho)|reflexivity].
    + intros _ c' _ _. unfold tcp_write in Ew. destruct (_ =? 0) in Ew; [injection Ew as <-; cbn; auto|]. destruct (segs_load _ _) as [data| | |]; cbn [bind] in Ew; [|discriminate..].
      destruct (n_writev n) as [e|m]; [injection Ew as <-; cbn; eauto|]. destruct (m =? 0); [injection Ew as <-; cbn; auto|]. destruct (circ_buf_free _ _) as [q| | |]; cbn [bind] in Ew; [|discriminate..]. injection Ew as <-. cbn. auto.
Qed.

(** ** Histories *)
Lemma xhist_det x0 ops x g log : xhist x0 ops x g log -> forall x1 g1 log1, xhist x0 ops x1 g1 log1 -> x1 = x /\ g1 = g /\ log1 = log.
Proof.
  induction 1 as [|ops x g log o code x' evs H IH Hok E]; intros x1 g1 log1 H1.
  - inversion H1 as [|ops' ? ? ? ? ? ? ? ? ? ? Q]; [auto|]. destruct ops'; discriminate Q.
  - inversion H1 as [Q|ops' y h lg o' code' y' evs' H1' Hok' E' Q]; [destruct ops; discriminate Q|]. subst. apply app_inj_tail in Q. destruct Q as [-> ->].
    destruct (IH _ _ _ H1') as (-> & -> & ->). assert (code' = code /\ x1 = x' /\ evs' = evs) as (-> & -> & ->) by (repeat split; congruence). auto.
Qed.
Lemma reached_by_step P x g log o code x' evs : reached_by P x g log -> P x o -> xok x g o -> xstep x o = Ok (code, x', evs) ->
  reached_by P x' (g_next g x o code evs) (log ++ evs).
Proof.
  intros (x0 & ops & F & H & D) HP Hok E. exists x0, (ops ++ [o]). split; [exact F|]. split; [eapply xh_step; eassumption|].
  intros pre o' post x1 g1 log1 Q H1. destruct post as [|o2 post] using rev_ind.
  - apply app_inj_tail in Q. destruct Q as [<- <-]. destruct (xhist_det _ _ _ _ _ H _ _ _ H1) as (-> & _). exact HP.
  - clear IHpost. rewrite app_comm_cons, app_assoc in Q. apply app_inj_tail in Q. destruct Q as [Q <-]. exact (D pre o' post x1 g1 log1 Q H1).
Qed.
Lemma reached_by_reached P x g log : reached_by P x g log -> reached x g log.
Proof. intros (x0 & ops & F & H & _). exists x0, ops. auto. Qed.

(** ** One element *)
(** What is promised about a call. *)
Definition pgood (k : pcall) : Prop :=
  let i := y_ind (fst (k_ent k)) in let d := y_desc (fst (k_ent k)) in
  match k_op k with
  | XRead j _ => j = i /\ pub_sock (k_pre k) i d
  | XWrite j _ => j = i /\ (pub_sock (k_pre k) i d \/ (forall c, ~ is_open (x_vec (k_pre k)) i c) /\ k_code k = ENOTCONN /\ k_evs k = [])
  | XClose j => j = i /\ ((k_code k = EINVAL /\ k_evs k = []) \/
                          (pub_sock (k_pre k) i d /\ exists e, n_writev (snd (k_ent k)) = WErr e /\ e <> EAGAIN))
  | _ => False
  end.
Definition plive (x : pctx) (e : ready * pin) : Prop :=
  pub_sock x (y_ind (fst e)) (y_desc (fst e)) /\ (y_ind (fst e) = RMC_LISTEN_INDEX -> has (y_ev (fst e)) EPOLLOUT = false) /\ pin_ok (snd e).
Lemma plive_range x g log e : reached x g log -> plive x e -> 0 <= y_ind (fst e) < 65536 /\ u16 (y_ind (fst e)) = y_ind (fst e).
Proof.
  intros R [S _]. pose proof (reached_inv _ _ _ R) as (sp & L & Q & X). pose proof (vi_size _ _ (xi_vec _ _ _ _ _ _ _ X)) as Hz.
  assert (H : 0 <= y_ind (fst e) < 65536). { destruct S as [[-> _]|[[-> _]|(c & Ho & _)]]; [cbv; intuition congruence..|]. pose proof (slot_range _ _ _ (proj1 Ho)). unfold RMC_LISTEN_INDEX in Hz. lia. }
  split; [exact H|]. apply Z.mod_small. exact H.
Qed.
Lemma pub_sock_frame x x' i j d : fr i (x_vec x) (x_vec x') -> same_socks x x' -> j <> i -> pub_sock x j d -> pub_sock x' j d.
Proof.
  intros [F _] [S1 S2] N [[A B]|[[A B]|(c & Ho & B)]]; [left; split; congruence|right; left; split; congruence|]. right. right. exists c. split; [split; [exact (F j c N Ho)|exact (proj2 Ho)]|exact B].
Qed.
Lemma special_shut x g log i : reached x g log -> i = RMC_MULTICAST_INDEX \/ i = RMC_LISTEN_INDEX -> forall c, ~ is_open (x_vec x) i c.
Proof.
  intros R Hi c [Hs _]. pose proof (reached_inv _ _ _ R) as (sp & L & Q & X). pose proof (vi_size _ _ (xi_vec _ _ _ _ _ _ _ X)) as Hz. pose proof (slot_range _ _ _ Hs).
  unfold RMC_LISTEN_INDEX, RMC_MULTICAST_INDEX in *. lia.
Qed.
Lemma pub_event_ok x g log e x' l : reached_by orderly x g log -> plive x e -> pub_event x e = Ok (x', l) ->
  (exists g', reached_by orderly x' g' (log ++ flat_map k_evs l)) /\ Forall pgood l /\ fr (y_ind (fst e)) (x_vec x) (x_vec x') /\ same_socks x x'.
Proof.
  intros R Lv. destruct (plive_range _ _ _ _ (reached_by_reached _ _ _ _ R) Lv) as [Hi Hu]. unfold pub_event. rewrite Hu. destruct Lv as (Sk & Nl & Ok1). destruct e as [y n]. cbn [fst snd] in *. set (i := y_ind y) in *.
  assert (INV : forall x g log, reached_by orderly x g log -> v_size (x_vec x) <= RMC_LISTEN_INDEX /\ (forall j c, slot (x_vec x) j = Ok c -> c_desc c = -1 -> c_mode c = CLOSED) /\ (forall j c, slot (x_vec x) j = Ok c -> c_mode c = CLOSED \/ c_mode c = CONNECTED)).
  { clear. intros x g log R. pose proof (reached_inv _ _ _ (reached_by_reached _ _ _ _ R)) as (sp & L & Q & X). split; [exact (vi_size _ _ (xi_vec _ _ _ _ _ _ _ X))|]. pose proof (vi_mode _ _ (xi_vec _ _ _ _ _ _ _ X)) as M. split; intros j c H; destruct (M j c H) as (A & _ & B); [apply A|exact B]. }
  (* the read *)
  assert (RD : forall a, (if Z.land (y_ev y) EPOLLIN =? 0 then Ok (x, []) else do r <- rmc_pub_read x i (pub_rd i n); let '(code, _, x1, evs) := r in Ok (x1, [mkCall (y, n) (XRead i (pub_rd i n)) x code evs])) = Ok a ->
    (exists g', reached_by orderly (fst a) g' (log ++ flat_map k_evs (snd a))) /\ Forall pgood (snd a) /\ fr i (x_vec x) (x_vec (fst a)) /\ same_socks x (fst a) /\ own i (x_vec x) (x_vec (fst a))).
  { intros a. destruct (Z.land (y_ev y) EPOLLIN =? 0).
    - intros E. assert (a = (x, [])) as -> by congruence. cbn [fst snd flat_map]. rewrite app_nil_r. split; [eauto|]. split; [constructor|]. split; [apply fr_refl|]. split; [split; reflexivity|apply own_refl].
    - destruct (rmc_pub_read x i (pub_rd i n)) as [[[[cd op] x1] e1]| | |] eqn:E1; cbn [bind]; [|discriminate..]. intros E. assert (a = (x1, [mkCall (y, n) (XRead i (pub_rd i n)) x cd e1])) as -> by congruence. cbn [fst snd flat_map k_evs]. rewrite app_nil_r.
      destruct (INV _ _ _ R) as (I1 & I2 & _). destruct (pread_fr x i n cd op x1 e1 (proj1 Hi) I1 I2 Ok1 E1) as (A1 & A2 & A3). split; [|split; [constructor; [split; [reflexivity|exact Sk]|constructor]|auto]].
      eexists. apply (reached_by_step orderly x g log (XRead i (pub_rd i n)) cd x1 e1 R Logic.I).
      + unfold pub_rd. destruct Ok1 as [O1 _]. destruct (i =? RMC_LISTEN_INDEX); [cbn [xok]; destruct (n_acc n); exact O1|]. destruct (i =? RMC_MULTICAST_INDEX); [exact Logic.I|exact Hi].
      + cbn [xstep]. rewrite E1. reflexivity. }
  match goal with |- bind ?h _ = _ -> _ => destruct h as [a| | |]; cbn [bind]; [|discriminate..] end. destruct (RD a eq_refl) as ((g1 & R1) & G1 & F1 & S1 & O1). clear RD.
  destruct (Z.land (y_ev y) EPOLLOUT =? 0) eqn:Eo.
  { intros E. assert (a = (x', l)) as -> by congruence. cbn [fst snd] in *. split; [eauto|auto]. }
  assert (Ni : i <> RMC_LISTEN_INDEX) by (intros Q; specialize (Nl Q); unfold has in Nl; rewrite Eo in Nl; discriminate).
  destruct (rmc_pub_write (fst a) i (pub_wr i n)) as [[[[cd op] x2] e2]| | |] eqn:E2; cbn [bind]; [|discriminate..].
  destruct (INV _ _ _ R1) as (I1 & I2 & I3). destruct (pwrite_fr _ i n cd op x2 e2 (proj1 Hi) I1 E2) as (B1 & B2 & B3 & B4 & B5).
  assert (Sz : i <> RMC_MULTICAST_INDEX -> i < v_size (x_vec (fst a))). { intros Nm. rewrite (proj2 F1). destruct Sk as [[Q _]|[[Q _]|(c & Ho & _)]]; [contradiction..|]. exact (proj2 (slot_range _ _ _ (proj1 Ho))). }
  set (k := mkCall (y, n) (XWrite i (pub_wr i n)) (fst a) cd e2).
  assert (R2 : exists g2, reached_by orderly x2 g2 (log ++ flat_map k_evs (snd a ++ [k]))).
  { eexists. rewrite flat_map_app, app_assoc. cbn [flat_map k k_evs]. rewrite app_nil_r. apply (reached_by_step orderly (fst a) g1 _ (XWrite i (pub_wr i n)) cd x2 e2 R1 Logic.I).
    - unfold pub_wr. destruct Ok1 as [_ O2]. destruct (i =? RMC_MULTICAST_INDEX); [exact Logic.I|]. cbn [xok]. destruct (n_writev n); split; assumption.
    - cbn [xstep]. rewrite E2. reflexivity. }
  (* where the write went *)
  assert (Wh : pub_sock (fst a) i (y_desc y) \/ (i <> RMC_MULTICAST_INDEX /\ forall c, ~ is_open (x_vec (fst a)) i c)).
  { destruct Sk as [[Q1 Q2]|[[Q _]|(c & Ho & Q)]]; [|contradiction|].
    - left. left. split; [exact Q1|]. rewrite (proj1 S1). exact Q2.
    - assert (Nm : i <> RMC_MULTICAST_INDEX) by (intros Q'; exact (special_shut _ _ _ i (reached_by_reached _ _ _ _ R) (or_introl Q') c Ho)).
      destruct (O1 c Ho) as [(c' & Ho' & Q')|Sh]; [|right; auto]. left. right. right. exists c'. split; [exact Ho'|congruence]. }
  assert (G2 : Forall pgood (snd a ++ [k])).
  { apply Forall_app. split; [exact G1|]. constructor; [|constructor]. split; [reflexivity|]. destruct Wh as [H|[Nm H]]; [left; exact H|]. right. destruct (B4 Nm (Sz Nm) H) as (Q1 & _ & Q2). split; [exact H|]. split; assumption. }
  assert (F2 : fr i (x_vec x) (x_vec x2)) by exact (fr_trans _ _ _ _ F1 B1). assert (S2 : same_socks x x2) by (split; [rewrite (proj1 B2)|rewrite (proj2 B2)]; apply S1).
  destruct ((cd =? 0) || (cd =? EAGAIN) || (cd =? ENODATA)) eqn:Ec.
  { intros E. assert (x' = x2 /\ l = snd a ++ [k]) as [-> ->] by (split; congruence). auto. }
  apply orb_false_iff in Ec. destruct Ec as [Ec Ec3]. apply orb_false_iff in Ec. destruct Ec as [Ec1 Ec2]. apply Z.eqb_neq in Ec1, Ec2, Ec3.
  destruct (rmc_pub_close_connection x2 i) as [[[cd3 x3] e3]| | |] eqn:E3; cbn [bind]; [|discriminate..]. intros E.
  set (k3 := mkCall (y, n) (XClose i) x2 cd3 e3). assert (x' = x3 /\ l = (snd a ++ [k]) ++ [k3]) as [-> ->] by (split; [congruence|injection E as _ <-; reflexivity]). clear E.
  destruct R2 as (g2 & R2). destruct (pclose_fr _ _ _ _ _ (proj1 Hi) E3) as (C1 & C2 & C3 & C4). split; [|split; [|split]].
  - eexists. rewrite flat_map_app, app_assoc. cbn [flat_map k3 k_evs]. rewrite app_nil_r. apply (reached_by_step orderly x2 g2 _ (XClose i) cd3 x3 e3 R2 Logic.I); [exact Hi|exact E3].
  - apply Forall_app. split; [exact G2|]. constructor; [|constructor]. split; [reflexivity|]. cbn [k3 k_ent k_pre k_code k_evs fst snd].
    assert (Shut : (forall c, ~ is_open (x_vec x2) i c) -> cd3 = EINVAL /\ e3 = []) by (intros Q; destruct (C4 Q) as (A & _ & B); split; assumption).
    destruct (Z.eq_dec i RMC_MULTICAST_INDEX) as [Q|Nm]; [left; apply Shut; apply (special_shut _ _ _ i (reached_by_reached _ _ _ _ R2)); left; exact Q|].
    destruct Wh as [H|[_ H]].
    + destruct H as [[Q _]|[[Q _]|(c & Ho & Q)]]; [contradiction..|]. destruct (B3 c Ho) as [(c' & Ho' & Q')|Q']; [|left; apply Shut; exact Q'].
      right. split; [right; right; exists c'; split; [exact Ho'|congruence]|]. destruct (B5 Nm c Ho (fun c => I3 i c)) as [Q2|[Q2|(er & Q2 & Q3)]]; [contradiction..|]. exists er. split; [exact Q2|congruence].
    + left. apply Shut. destruct (B4 Nm (Sz Nm) H) as (_ & -> & _). exact H.
  - exact (fr_trans _ _ _ _ F2 C1).
  - split; [rewrite (proj1 C2)|rewrite (proj2 C2)]; apply S2.
Qed.

(** ** The whole array *)
Lemma pub_events_ok : forall b x g log x' l, reached_by orderly x g log -> Forall (plive x) b -> NoDup (map (fun e => y_ind (fst e)) b) ->
  pub_events x b = Ok (x', l) -> (exists g', reached_by orderly x' g' (log ++ flat_map k_evs l)) /\ Forall pgood l.
Proof.
  induction b as [|e b IH]; intros x g log x' l R Lv Nd; cbn [pub_events].
  - intros E. assert (x' = x /\ l = []) as [-> ->] by (split; congruence). cbn [flat_map]. rewrite app_nil_r. split; [eauto|constructor].
  - destruct (pub_event x e) as [[x1 l1]| | |] eqn:E1; cbn [bind fst snd]; [|discriminate..]. inversion Lv as [|? ? L1 L2 Q1]; subst. inversion Nd as [|? ? N1 N2 Q2]; subst.
    destruct (pub_event_ok x g log e x1 l1 R L1 E1) as ((g1 & R1) & G1 & F & S).
    destruct (pub_events x1 b) as [[x2 l2]| | |] eqn:E2; cbn [bind fst snd]; [|discriminate..]. intros E. assert (x' = x2 /\ l = l1 ++ l2) as [-> ->] by (split; congruence). clear E.
    assert (L2' : Forall (plive x1) b).
    { apply Forall_forall. intros e' He'. rewrite Forall_forall in L2. destruct (L2 e' He') as [K1 K2]. split; [|exact K2]. apply (pub_sock_frame x x1 (y_ind (fst e))); try assumption.
      intros Q. apply N1. rewrite <- Q. exact (in_map (fun e => y_ind (fst e)) b e' He'). }
    destruct (IH x1 g1 _ x2 l2 R1 L2' N2 E2) as [(g2 & R2) G2]. split; [exists g2; rewrite flat_map_app, app_assoc; exact R2|]. apply Forall_app. auto.
Qed.
