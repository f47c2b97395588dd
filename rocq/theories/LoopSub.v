(** LoopSub.v — the subscriber's event loop. *)
From Verif Require Import Base CircBuf CircBufProofs Wire SeqList Sub SpecSub SubProofs Proto SpecProto ProtoProofs Safe
  Conn SpecConn ConnProofs PubCtx SpecPubCtx SubCtx SpecSubCtx SubSteps SubInv SpecPoll PollPub PollSub PropPollSub SpecDesc Desc
  Epoll SpecEpoll EpollProofs EpollPub EpollSub PropEpoll Loop SpecLoop LoopPub.

(** Slots without a descriptor are closed. *)
Definition CM (v : cvec) : Prop := forall j c, slot v j = Ok c -> c_desc c = -1 -> c_mode c = CLOSED.
(** Nothing that is open changes. *)
Definition st0 (v v' : cvec) : Prop := (forall j c, is_open v j c -> slot v' j = Ok c) /\ v_size v' = v_size v.
Lemma st0_refl v : st0 v v.
Proof. split; [|reflexivity]. intros j c [H _]. exact H. Qed.
Lemma st0_trans u v w : st0 u v -> st0 v w -> st0 u w.
Proof. intros [A1 A2] [B1 B2]. split; [|congruence]. intros j c O. apply B1. split; [exact (A1 j c O)|exact (proj2 O)]. Qed.
Lemma st0_fr i v v' : st0 v v' -> fr i v v'.
Proof. intros [A B]. split; [|exact B]. intros j c _ O. exact (A j c O). Qed.

Lemma connect_st0 v addr port node o code ri v' evs : v_size v <= RMC_LISTEN_INDEX -> CM v -> sock_good o ->
  connect_tcp v addr port node o = Ok (code, ri, v', evs) -> st0 v v' /\ CM v'.
Proof.
  intros Hl Hc Ho E. assert (Hz : v_size v <= RMC_NIL_INDEX) by (unfold RMC_NIL_INDEX, RMC_LISTEN_INDEX in *; lia).
  destruct (connect_cases v addr port node o Hz) as [[_ Q]|(k & c0 & _ & Hs & Hd & Q)].
  { rewrite Q in E. assert (v' = v) as -> by congruence. split; [apply st0_refl|exact Hc]. }
  pose proof (slot_range _ _ _ Hs) as R.
  assert (A : forall c1 v1, (forall j, slot v1 j = slot (put_slot (bumped v k) k c1) j) -> v_size v1 = v_size v -> (c_desc c1 = -1 -> c_mode c1 = CLOSED) -> st0 v v1 /\ CM v1).
  { intros c1 v1 Sl Sz Hc1. assert (S2 : forall j, j <> k -> slot v1 j = slot v j) by (intros j N; rewrite Sl, slot_put_other by (lia || exact N); apply bumped_slot).
    split; [split; [|exact Sz]|].
    - intros j c [Hj Hm]. rewrite S2; [exact Hj|]. intros ->. apply Hm. assert (c = c0) as -> by congruence. exact (Hc _ _ Hs Hd).
    - intros j c Hj. destruct (Z.eq_dec j k) as [->|N]; [|rewrite S2 in Hj by exact N; exact (Hc j c Hj)].
      rewrite Sl, slot_put_same in Hj by (rewrite bumped_size; exact R). assert (c = c1) as -> by congruence. exact Hc1. }
  destruct o as [e|d ok errno].
  - rewrite Q in E. assert (v' = put_slot (bumped v k) k (set_desc c0 (-1))) as -> by congruence. apply (A (set_desc c0 (-1))); [reflexivity|rewrite size_put; apply bumped_size|intros _; exact (Hc _ _ Hs Hd)].
  - destruct Q as [(_ & _ & Q)|(_ & Q)]; rewrite Q in E; match type of E with Ok (_, _, ?y, _) = _ => assert (v' = y) as -> by congruence end.
    + match goal with |- context [put_slot _ _ ?c] => apply (A c) end; [intros j; apply slot_reset_max|exact (eq_trans (size_put (bumped v k) k _) (bumped_size v k))|intros _; exact (Hc _ _ Hs Hd)].
    + match goal with |- context [put_slot _ _ ?c] => apply (A c) end; [intros j; apply slot_set_active|exact (eq_trans (size_put (bumped v k) k _) (bumped_size v k))|]. cbn. cbn in Ho. lia.
Qed.
Lemma smcast_st0 x src bs o code op x' evs : v_size (t_vec x) <= RMC_LISTEN_INDEX -> CM (t_vec x) -> sock_good (mi_sock o) ->
  process_multicast_read x src bs o = Ok (code, op, x', evs) -> st0 (t_vec x) (t_vec x') /\ CM (t_vec x') /\ t_mcast x' = t_mcast x.
Proof.
  intros Hl Hc Ho. assert (Same : forall y, t_vec y = t_vec x -> t_mcast y = t_mcast x -> st0 (t_vec x) (t_vec y) /\ CM (t_vec y) /\ t_mcast y = t_mcast x).
  { intros y A B. rewrite A. split; [apply st0_refl|]. split; [exact Hc|exact B]. }
  unfold process_multicast_read. destruct (_ <? _); [intros E; assert (x' = x) as -> by congruence; apply Same; reflexivity|]. cbv zeta.
  destruct (_ <? _); [intros E; assert (x' = x) as -> by congruence; apply Same; reflexivity|].
  set (h := if _ =? 0 then _ else _). set (pl := ztake _ _).
  assert (Un : forall cd op1 y e, (do r <- decode_unsubscribed x h pl o; Ok (0, Some RMC_READ_MULTICAST_NOT_READY, fst r, snd r)) = Ok (cd, op1, y, e) -> st0 (t_vec x) (t_vec y) /\ CM (t_vec y) /\ t_mcast y = t_mcast x).
  { intros cd op1 y e. destruct (decode_unsubscribed x h pl o) as [[x1 e1]| | |] eqn:E1; cbn [bind fst snd]; [|discriminate..]. intros E. assert (y = x1) as -> by congruence.
    unfold decode_unsubscribed in E1. destruct (negb (h_pid h =? 0)); [assert (x1 = x) as -> by congruence; apply Same; reflexivity|]. cbv zeta in E1.
    destruct (if t_acb x then mi_answer o else true); [|assert (x1 = x) as -> by congruence; apply Same; reflexivity].
    destruct (connect_tcp _ _ _ _ _) as [[[[? ?] v1] ?]| | |] eqn:Ec; cbn [bind] in E1; try discriminate E1. assert (x1 = set_tvec x v1) as -> by congruence.
    destruct (connect_st0 _ _ _ _ _ _ _ _ _ Hl Hc Ho Ec) as [A B]. auto. }
  destruct (find_by_address _ _ _) as [[i|]| | |]; cbn [bind]; [| |discriminate..]; [|apply Un].
  destruct (slot (t_vec x) i) as [c| | |]; cbn [bind]; [|discriminate..]. destruct (c_mode c =? CONNECTING); [apply Un|].
  destruct (decode_subscribed x i h pl (mi_acc o)) as [[x1 e1]| | |] eqn:E1; cbn [bind fst snd]; [|discriminate..]. intros E. assert (x' = x1) as -> by congruence.
  assert (F : FR x x1 e1).
  { unfold decode_subscribed in E1. destruct (h_pid h =? 0); [injection E1 as <- <-; apply FR_refl|]. destruct (get_spub x i) as [s| | |]; cbn [bind] in E1; try discriminate E1.
    destruct (sub_is_duplicate s (h_pid h)); [injection E1 as <- <-; apply FR_refl|]. exact (accept_FR _ _ _ _ _ _ _ _ E1). }
  apply Same; apply F.
Qed.
Lemma mread_st0 ins : forall x op code op' x' evs, v_size (t_vec x) <= RMC_LISTEN_INDEX -> CM (t_vec x) -> Forall mrecv_good ins -> mread_loop x op ins = Ok (code, op', x', evs) ->
  st0 (t_vec x) (t_vec x') /\ t_mcast x' = t_mcast x.
Proof.
  induction ins as [|m ins IH]; intros x op code op' x' evs Hl Hc Hi; cbn [mread_loop].
  { intros E; assert (x' = x) as -> by congruence. split; [apply st0_refl|reflexivity]. }
  pose proof (Forall_inv Hi) as Hm. pose proof (Forall_inv_tail Hi) as Hrest.
  destruct m as [|e|src bs o]; [intros E; assert (x' = x) as -> by congruence; split; [apply st0_refl|reflexivity]..|]. cbv zeta. destruct Hm as (_ & _ & Ho).
  destruct (process_multicast_read x src _ o) as [[[[cd op1] x1] e1]| | |] eqn:E1; cbn [bind]; [|discriminate..].
  destruct (smcast_st0 _ _ _ _ _ _ _ _ Hl Hc Ho E1) as (A1 & A2 & A3).
  destruct (negb (cd =? 0)); [intros E; assert (x' = x1) as -> by congruence; auto|].
  destruct (mread_loop x1 _ ins) as [[[[cd2 op3] x2] e2]| | |] eqn:E2; cbn [bind]; [|discriminate..]. intros E. assert (x' = x2) as -> by congruence.
  destruct (IH _ _ _ _ _ _ ltac:(rewrite (proj2 A1); exact Hl) A2 Hrest E2) as [B1 B2]. split; [exact (st0_trans _ _ _ A1 B1)|congruence].
Qed.
Lemma sclose_fr x i x' evs : 0 <= i -> rmc_sub_close_connection x i = Ok (x', evs) ->
  fr i (t_vec x) (t_vec x') /\ t_mcast x' = t_mcast x /\ (forall c, ~ is_open (t_vec x') i c) /\ ((forall c, ~ is_open (t_vec x) i c) -> sub_polls evs = []).
Proof.
  intros Hi. unfold rmc_sub_close_connection. destruct (close_conn (t_vec x) i) as [[[cd v] ce]| | |] eqn:Ec; cbn [bind]; [|discriminate..].
  destruct (get_spub (set_tvec x v) i) as [s| | |]; cbn [bind]; [|discriminate..]. destruct (sub_reset s) as [s' fl]. destruct (free_payloads _ _) as [[m fe]| | |] eqn:Ef; cbn [bind fst snd]; [|discriminate..]. intros E.
  assert (x' = set_tmem (put_spub (set_tvec x v) i s') m /\ evs = map SvConn ce ++ fe) as [-> ->] by (split; congruence).
  split; [exact (close_fr _ _ _ _ _ Hi Ec)|]. split; [reflexivity|]. split; [exact (close_shut _ _ _ _ _ Hi Ec)|]. intros Hn. rewrite spolls_app, spolls_conn, (free_polls _ _ _ _ Ef), app_nil_r.
  destruct (close_cases (t_vec x) i Hi) as [[_ Q]|[(c & _ & _ & Q)|(c & Ho & _)]]; [rewrite Q in Ec; congruence..|]. destruct (Hn c Ho).
Qed.
(** The connection at [i] keeps its descriptor, its state and the bytes to send, or is closed. *)
Definition sown (i : Z) (v v' : cvec) : Prop :=
  forall c, is_open v i c -> (exists c', is_open v' i c' /\ c_desc c' = c_desc c /\ c_mode c' = c_mode c /\ c_wbuf c' = c_wbuf c) \/ (forall c', ~ is_open v' i c').
Lemma sread_fr x i n code op x' evs : 0 <= i -> v_size (t_vec x) <= RMC_LISTEN_INDEX -> CM (t_vec x) -> sin_ok n -> rmc_sub_read x i (sub_rd i n) = Ok (code, op, x', evs) ->
  fr i (t_vec x) (t_vec x') /\ t_mcast x' = t_mcast x /\ sown i (t_vec x) (t_vec x').
Proof.
  intros Hi Hl Hc (Hm & _). unfold sub_rd. destruct (Z.eqb_spec i RMC_MULTICAST_INDEX) as [->|Nm].
  - cbn [rmc_sub_read]. assert (A : forall y, st0 (t_vec x) (t_vec y) -> t_mcast y = t_mcast x -> fr RMC_MULTICAST_INDEX (t_vec x) (t_vec y) /\ t_mcast y = t_mcast x /\ sown RMC_MULTICAST_INDEX (t_vec x) (t_vec y)).
    { intros y S M. split; [exact (st0_fr _ _ _ S)|]. split; [exact M|]. intros c Ho. left. exists c. split; [split; [exact (proj1 S _ c Ho)|exact (proj2 Ho)]|auto]. }
    unfold multicast_read. destruct (t_mcast x =? -1); cbn [bind]; [intros E; assert (x' = x) as -> by congruence; apply A; [apply st0_refl|reflexivity]|].
    destruct (mread_loop x RMC_ERROR (m_from n)) as [[[[cd op1] x1] e1]| | |] eqn:E1; cbn [bind]; [|discriminate..]. intros E. assert (x' = x1) as -> by congruence.
    destruct (mread_st0 _ _ _ _ _ _ _ Hl Hc Hm E1) as [S M]. apply A; assumption.
  - cbn [rmc_sub_read].
    assert (Refl : fr i (t_vec x) (t_vec x) /\ t_mcast x = t_mcast x /\ sown i (t_vec x) (t_vec x)) by (split; [apply fr_refl|]; split; [reflexivity|intros c Ho; left; eauto]).
    destruct (find_index_cases (t_vec x) i Hi) as [[-> Hn]|(c & -> & Ho)]; cbn [bind]; [intros E; assert (x' = x) as -> by congruence; exact Refl|].
    destruct (negb (c_mode c =? CONNECTED)); [intros E; assert (x' = x) as -> by congruence; exact Refl|]. cbv zeta. set (got := match m_readv n with RErr => _ | _ => _ end).
    assert (G : sub_polls got = []) by (unfold got; destruct (m_readv n) as [|[|? ?]]; reflexivity).
    destruct (tcp_read _ _ (c_rbuf c) _) as [[cd op1 [[x1 e1] ins1] rb]| | |] eqn:Et; cbn [bind]; [|discriminate..].
    assert (S : FR x x1 e1).
    { refine (tcp_read_ok _ (fun st : tst => FR x (fst (fst st)) (snd (fst st))) _ (x, got, m_accs n) (c_rbuf c) _ _ _ Et); [|split; [reflexivity|split; [reflexivity|exact G]]].
      apply sub_dispatch_ok. intros [[y1 f1] jns] hp [[y2 f2] kns] F. cbn [fst snd] in *. unfold tcp_eff. destruct jns as [|a jns]; [discriminate|].
      destruct (accept_packet y1 i (h_pid (fst hp)) (snd hp) false a) as [[y3 f3]| | |] eqn:Ea; cbn [bind fst snd]; [|discriminate..]. intros Q. injection Q as <- <- _.
      exact (FR_trans _ _ _ _ _ F (accept_FR _ _ _ _ _ _ _ _ Ea)). }
    cbn [r_st fst snd r_buf r_code r_op] in *. destruct S as (F1 & F2 & _). pose proof (slot_range _ _ _ (proj1 Ho)) as R.
    set (x2 := set_tvec x1 _).
    assert (B : fr i (t_vec x) (t_vec x2) /\ t_mcast x2 = t_mcast x /\ sown i (t_vec x) (t_vec x2)).
    { unfold x2. cbn [set_tvec t_vec t_mcast]. rewrite F1. split; [apply fr_put; exact Hi|]. split; [exact F2|]. intros c' Ho'. assert (c' = c) as -> by (destruct Ho, Ho'; congruence). left.
      exists (set_rbuf c rb). split; [split; [apply slot_put_same; exact R|exact (proj2 Ho)]|auto]. }
    assert (Sh : forall y y' e, fr i (t_vec x) (t_vec y) -> t_mcast y = t_mcast x -> rmc_sub_close_connection y i = Ok (y', e) -> fr i (t_vec x) (t_vec y') /\ t_mcast y' = t_mcast x /\ sown i (t_vec x) (t_vec y')).
    { intros y y' e A1 A2 E. destruct (sclose_fr _ _ _ _ Hi E) as (C1 & C2 & C3 & _). split; [exact (fr_trans _ _ _ _ A1 C1)|]. split; [congruence|]. intros c' _. right. exact C3. }
    destruct (cd =? ENOMEM); [intros Q; assert (x' = x2) as -> by congruence; exact B|].
    destruct (cd =? EPIPE).
    { destruct (rmc_sub_close_connection x2 i) as [[x3 e3]| | |] eqn:E3; cbn [bind fst snd]; [|discriminate..]. intros Q. assert (x' = x3) as -> by congruence. exact (Sh _ _ _ (proj1 B) (proj1 (proj2 B)) E3). }
    destruct (process_received x2 i) as [[x3 e3]| | |] eqn:E3; cbn [bind fst snd]; [|discriminate..]. destruct (process_FR _ _ _ _ E3) as (P1 & P2 & _).
    assert (B3 : fr i (t_vec x) (t_vec x3) /\ t_mcast x3 = t_mcast x /\ sown i (t_vec x) (t_vec x3)) by (rewrite P1, P2; exact B).
    destruct (cd =? EPROTO).
    + destruct (rmc_sub_close_connection x3 i) as [[x4 e4]| | |] eqn:E4; cbn [bind fst snd]; [|discriminate..]. intros Q. assert (x' = x4) as -> by congruence. exact (Sh _ _ _ (proj1 B3) (proj1 (proj2 B3)) E4).
    + intros Q. assert (x' = x3) as -> by congruence. exact B3.
Qed.
(** A write: what it leaves behind when it fails. *)
Lemma swrite_fr x i n code op x' evs : 0 <= i -> (forall j c, slot (t_vec x) j = Ok c -> c_mode c = CLOSED \/ c_mode c = CONNECTING \/ c_mode c = CONNECTED) -> match sw_tcp (m_wr n) with WOk k => is_u32 k | WErr _ => True end -> rmc_sub_write x i (m_wr n) = Ok (code, op, x', evs) ->
  fr i (t_vec x) (t_vec x') /\ t_mcast x' = t_mcast x /\
  ((forall c, ~ is_open (t_vec x) i c) -> code = ENOTCONN /\ x' = x /\ evs = []) /\
  (forall c, is_open (t_vec x) i c -> cb_wf (c_wbuf c) /\ cb_size (c_wbuf c) = RMC_MAX_PACKET -> c_mode c = CONNECTING \/ contents (c_wbuf c) <> [] -> code <> 0 ->
     (forall c', ~ is_open (t_vec x') i c') \/ (exists c' e, is_open (t_vec x') i c' /\ c_desc c' = c_desc c /\ c_mode c = CONNECTED /\ sw_tcp (m_wr n) = WErr e)).
Proof.
  intros Hi Hmd Hn0. unfold rmc_sub_write. destruct (find_index_cases (t_vec x) i Hi) as [[-> Hn]|(c & -> & Ho)]; cbn [bind].
  { intros E. assert (code = ENOTCONN /\ x' = x /\ evs = []) as (-> & -> & ->) by (repeat split; congruence). split; [apply fr_refl|]. split; [reflexivity|]. split; [auto|]. intros c Ho. destruct (Hn c Ho). }
  assert (Uniq : forall c', is_open (t_vec x) i c' -> c' = c) by (intros c' Ho'; destruct Ho, Ho'; congruence). pose proof (slot_range _ _ _ (proj1 Ho)) as R.
  destruct (Z.eqb_spec (c_mode c) CONNECTING) as [Hm|Hm].
  - cbv zeta. set (x1 := put_spub x i sub_init). destruct (complete_conn (t_vec x1) i (sw_cmp (m_wr n))) as [[[cd v] ce]| | |] eqn:Ec; cbn [bind]; [|discriminate..].
    assert (F1 : fr i (t_vec x) v).
    { unfold complete_conn in Ec. change (t_vec x1) with (t_vec x) in Ec. rewrite (proj1 Ho) in Ec. cbn [bind] in Ec.
      destruct (sw_cmp (m_wr n)) as [e|so nd]; [|destruct (negb (so =? 0)); [|destruct (negb (nd =? 0))]].
      1-3: destruct (close_conn (t_vec x) i) as [[[a w] e']| | |] eqn:Q; cbn [bind] in Ec; [|discriminate Ec..]; assert (v = w) as -> by congruence; exact (close_fr _ _ _ _ _ Hi Q).
      match type of Ec with Ok (_, ?y, _) = _ => assert (v = y) as -> by congruence end. apply fr_put. exact Hi. }
    destruct (Z.eqb_spec cd 0) as [Hc0|Hc0]; cbn [negb].
    + intros E. match type of E with Ok (_, _, ?y, _) = _ => assert (code = 0 /\ x' = y) as [-> ->] by (split; congruence) end. split; [exact F1|]. split; [reflexivity|]. split; [intros Hn; destruct (Hn c Ho)|]. intros c' _ _ _ Q. contradiction.
    + cbn [set_tvec t_vec]. destruct (close_conn v i) as [[[a w] e']| | |] eqn:Q; cbn [bind]; [|discriminate..]. intros E. match type of E with Ok (_, _, ?y, _) = _ => assert (x' = y) as -> by congruence end. cbn [set_tvec t_vec t_mcast].
      split; [exact (fr_trans _ _ _ _ F1 (close_fr _ _ _ _ _ Hi Q))|]. split; [reflexivity|]. split; [intros Hn; destruct (Hn c Ho)|]. intros c' _ _ _ _. left. exact (close_shut _ _ _ _ _ Hi Q).
  - destruct (circ_buf_in_use (c_wbuf c) =? 0) eqn:Eu.
    { intros E. assert (x' = x) as -> by congruence. split; [apply fr_refl|]. split; [reflexivity|]. split; [intros Hn; destruct (Hn c Ho)|].
      intros c' Ho' [W _] [Q|Q]; rewrite (Uniq c' Ho') in *; [contradiction|]. rewrite (in_use_contents _ W) in Eu. destruct (contents (c_wbuf c)); [contradiction|discriminate]. }
    destruct (tcp_write (c_wbuf c) (sw_tcp (m_wr n))) as [r| | |] eqn:Ew; cbn [bind]; [|discriminate..]. intros E. match type of E with Ok (_, _, ?y, _) = _ => assert (code = w_code r /\ x' = y) as [-> ->] by (split; congruence) end. cbn [set_tvec t_vec t_mcast].
    split; [apply fr_put; exact Hi|]. split; [reflexivity|]. split; [intros Hn; destruct (Hn c Ho)|]. intros c' Ho' [W Sz] Q Hc0. rewrite (Uniq c' Ho') in *. destruct Q as [Q|Q]; [contradiction|]. right.
    assert (exists e, sw_tcp (m_wr n) = WErr e) as [e He].
    { destruct (tcp_write_spec (c_wbuf c) (sw_tcp (m_wr n)) W ltac:(lia) Hn0) as (wb' & Ew' & _). rewrite Ew in Ew'. injection Ew' as ->. cbn [w_code] in Hc0. destruct (contents (c_wbuf c)); [contradiction|]. destruct (sw_tcp (m_wr n)) as [e|m]; [eauto|destruct (Hc0 eq_refl)]. }
    eexists. exists e. split; [split; [apply slot_put_same; exact R|exact (proj2 Ho)]|]. split; [reflexivity|]. split; [|exact He]. destruct (Hmd i c (proj1 Ho)) as [Q2|[Q2|Q2]]; [destruct (proj2 Ho Q2)|contradiction|exact Q2].
Qed.

(** ** One element *)
(** What is promised about a call. *)
Definition sgood (k : scall) : Prop :=
  let i := y_ind (fst (k_ent k)) in let d := y_desc (fst (k_ent k)) in
  match k_op k with
  | YRead j _ => j = i /\ sub_sock (k_pre k) i d
  | YWrite j _ => j = i /\ (sub_sock (k_pre k) i d \/ (forall c, ~ is_open (t_vec (k_pre k)) i c) /\ k_code k = ENOTCONN /\ k_evs k = [])
  | YClose j => j = i /\ 0 <= i < v_size (t_vec (k_pre k)) /\
                (sub_polls (k_evs k) = [] \/ (sub_sock (k_pre k) i d /\ exists e, sw_tcp (m_wr (snd (k_ent k))) = WErr e))
  | _ => False
  end.
Definition slive (x : sctx) (e : ready * sin) : Prop :=
  sin_ok (snd e) /\
  ((y_ind (fst e) = RMC_MULTICAST_INDEX /\ t_mcast x = y_desc (fst e) /\ has (y_ev (fst e)) EPOLLOUT = false) \/
   (exists c, is_open (t_vec x) (y_ind (fst e)) c /\ c_desc c = y_desc (fst e) /\ (has (y_ev (fst e)) EPOLLOUT = true -> c_mode c = CONNECTING \/ contents (c_wbuf c) <> []))).
Lemma slive_sock x e : slive x e -> sub_sock x (y_ind (fst e)) (y_desc (fst e)).
Proof. intros [_ [(A & B & _)|(c & A & B & _)]]; [left; auto|right; eauto]. Qed.
Lemma sinv x log : sreached false x log -> TV (t_vec x).
Proof. intros R. exact (bi_vec _ (proj1 (sreached_inv false x log R))). Qed.
Lemma sub_event_ok x log e x' l : sreached false x log -> slive x e -> sub_event x e = Ok (x', l) ->
  sreached false x' (log ++ flat_map k_evs l) /\ Forall sgood l /\ fr (y_ind (fst e)) (t_vec x) (t_vec x') /\ t_mcast x' = t_mcast x.
Proof.
  intros R Lv. pose proof (slive_sock _ _ Lv) as Sk. destruct e as [y n]. unfold slive in Lv. cbn [fst snd] in *. unfold sub_event. cbn [fst snd]. set (i := y_ind y) in *. destruct Lv as (Sn & Lv).
  assert (Hi : 0 <= i < 65536).
  { pose proof (tv_size _ (sinv _ _ R)) as Hz. destruct Lv as [(-> & _)|(c & Ho & _)]; [cbv; intuition congruence|]. pose proof (slot_range _ _ _ (proj1 Ho)). unfold RMC_LISTEN_INDEX in Hz. lia. }
  assert (Hu : u16 i = i) by (apply Z.mod_small; exact Hi). rewrite Hu.
  assert (INV : forall x log, sreached false x log -> v_size (t_vec x) <= RMC_LISTEN_INDEX /\ CM (t_vec x) /\ (forall j c, slot (t_vec x) j = Ok c -> c_mode c = CLOSED \/ c_mode c = CONNECTING \/ c_mode c = CONNECTED) /\ forall j c, slot (t_vec x) j = Ok c -> cb_wf (c_wbuf c) /\ cb_size (c_wbuf c) = RMC_MAX_PACKET).
  { clear. intros x log R. pose proof (sinv _ _ R) as T. split; [exact (tv_size _ T)|]. split; [intros j c H; apply (tv_mode _ T j c H)|]. split; [intros j c H; apply (tv_mode _ T j c H)|intros j c H; apply (tv_ring _ T j c H)]. }
  (* the read *)
  assert (RD : forall a, (if Z.land (y_ev y) EPOLLIN =? 0 then Ok (x, []) else do r <- rmc_sub_read x i (sub_rd i n); let '(code, _, x1, evs) := r in Ok (x1, [mkCall (y, n) (YRead i (sub_rd i n)) x code evs])) = Ok a ->
    sreached false (fst a) (log ++ flat_map k_evs (snd a)) /\ Forall sgood (snd a) /\ fr i (t_vec x) (t_vec (fst a)) /\ t_mcast (fst a) = t_mcast x /\ sown i (t_vec x) (t_vec (fst a))).
  { intros a. destruct (Z.land (y_ev y) EPOLLIN =? 0).
    - intros E. assert (a = (x, [])) as -> by congruence. cbn [fst snd flat_map]. rewrite app_nil_r. split; [exact R|]. split; [constructor|]. split; [apply fr_refl|]. split; [reflexivity|]. intros c Ho. left. eauto.
    - destruct (rmc_sub_read x i (sub_rd i n)) as [[[[cd op] x1] e1]| | |] eqn:E1; cbn [bind]; [|discriminate..]. intros E. assert (a = (x1, [mkCall (y, n) (YRead i (sub_rd i n)) x cd e1])) as -> by congruence. cbn [fst snd flat_map k_evs]. rewrite app_nil_r.
      destruct (INV _ _ R) as (I1 & I2 & _). destruct (sread_fr x i n cd op x1 e1 (proj1 Hi) I1 I2 Sn E1) as (A1 & A2 & A3). split; [|split; [constructor; [split; [reflexivity|exact Sk]|constructor]|auto]].
      apply (sreached_step false x log (YRead i (sub_rd i n)) cd x1 e1 R); [|discriminate|cbn [ystep]; rewrite E1; reflexivity].
      destruct Sn as (O1 & O2 & _). unfold sub_rd. destruct (i =? RMC_MULTICAST_INDEX); cbn [yok]; auto. }
  match goal with |- bind ?h _ = _ -> _ => destruct h as [a| | |]; cbn [bind]; [|discriminate..] end. destruct (RD a eq_refl) as (R1 & G1 & F1 & S1 & O1). clear RD.
  destruct (Z.land (y_ev y) EPOLLOUT =? 0) eqn:Eo.
  { intros E. assert (a = (x', l)) as -> by congruence. cbn [fst snd] in *. auto. }
  destruct Lv as [(_ & _ & Q)|(c & Ho & Hd & Hw)]; [unfold has in Q; rewrite Eo in Q; discriminate|]. specialize (Hw ltac:(unfold has; rewrite Eo; reflexivity)).
  destruct (rmc_sub_write (fst a) i (m_wr n)) as [[[[cd op] x2] e2]| | |] eqn:E2; cbn [bind]; [|discriminate..].
  destruct (INV _ _ R1) as (I1 & I2 & I3 & I4). assert (On : match sw_tcp (m_wr n) with WOk k => is_u32 k | WErr _ => True end) by (destruct Sn as (_ & _ & O2 & _); destruct (sw_tcp (m_wr n)); [exact Logic.I|exact O2]). destruct (swrite_fr _ i n cd op x2 e2 (proj1 Hi) I3 On E2) as (B1 & B2 & B3 & B4).
  set (k := mkCall (y, n) (YWrite i (m_wr n)) (fst a) cd e2).
  assert (R2 : sreached false x2 (log ++ flat_map k_evs (snd a ++ [k]))).
  { rewrite flat_map_app, app_assoc. cbn [flat_map k k_evs]. rewrite app_nil_r. apply (sreached_step false (fst a) _ (YWrite i (m_wr n)) cd x2 e2 R1); [|discriminate|cbn [ystep]; rewrite E2; reflexivity].
    destruct Sn as (_ & _ & O2 & O3). cbn [yok]. auto. }
  assert (Wh : (exists c', is_open (t_vec (fst a)) i c' /\ c_desc c' = y_desc y /\ (c_mode c' = CONNECTING \/ contents (c_wbuf c') <> [])) \/ (forall c', ~ is_open (t_vec (fst a)) i c')).
  { destruct (O1 c Ho) as [(c' & Ho' & Q1 & Q2 & Q3)|Sh]; [|right; exact Sh]. left. exists c'. rewrite Q1, Q2, Q3. auto. }
  assert (G2 : Forall sgood (snd a ++ [k])).
  { apply Forall_app. split; [exact G1|]. constructor; [|constructor]. split; [reflexivity|]. destruct Wh as [(c' & Q1 & Q2 & _)|H]; [left; right; exists c'; auto|]. right. destruct (B3 H) as (Q1 & _ & Q2). split; [exact H|]. split; assumption. }
  assert (F2 : fr i (t_vec x) (t_vec x2)) by exact (fr_trans _ _ _ _ F1 B1). assert (S2 : t_mcast x2 = t_mcast x) by congruence.
  destruct (Z.eqb_spec cd 0) as [Ec|Ec].
  { intros E. assert (x' = x2 /\ l = snd a ++ [k]) as [-> ->] by (split; congruence). auto. }
  destruct (rmc_sub_close_connection x2 i) as [[x3 e3]| | |] eqn:E3; cbn [bind fst snd]; [|discriminate..]. intros E.
  set (k3 := mkCall (y, n) (YClose i) x2 0 e3). assert (x' = x3 /\ l = (snd a ++ [k]) ++ [k3]) as [-> ->] by (split; [congruence|injection E as _ <-; reflexivity]). clear E.
  destruct (sclose_fr _ _ _ _ (proj1 Hi) E3) as (C1 & C2 & C3 & C4). split; [|split; [|split]].
  - rewrite flat_map_app, app_assoc. cbn [flat_map k3 k_evs]. rewrite app_nil_r. apply (sreached_step false x2 _ (YClose i) 0 x3 e3 R2); [exact Hi|discriminate|]. cbn [ystep]. rewrite E3. reflexivity.
  - apply Forall_app. split; [exact G2|]. constructor; [|constructor]. split; [reflexivity|]. cbn [k3 k_ent k_pre k_code k_evs fst snd].
    split; [rewrite (proj2 F2); exact (slot_range _ _ _ (proj1 Ho))|]. destruct Wh as [(c' & Q1 & Q2 & Q3)|H].
    + destruct (B4 c' Q1 (I4 i c' (proj1 Q1)) Q3 Ec) as [Sh|(c2 & er & D1 & D2 & _ & D3)]; [left; exact (C4 Sh)|]. right. split; [right; exists c2; split; [exact D1|congruence]|]. exists er. exact D3.
    + left. apply C4. destruct (B3 H) as (_ & -> & _). exact H.
  - exact (fr_trans _ _ _ _ F2 C1).
  - congruence.
Qed.

(** ** The whole array *)
Lemma slive_frame x x' i e : fr i (t_vec x) (t_vec x') -> t_mcast x' = t_mcast x -> y_ind (fst e) <> i -> slive x e -> slive x' e.
Proof.
  intros [F _] S N [A [(B1 & B2 & B3)|(c & Ho & B)]]; (split; [exact A|]); [left; split; [exact B1|]; split; congruence|]. right. exists c. split; [split; [exact (F _ c N Ho)|exact (proj2 Ho)]|exact B].
Qed.
Lemma sub_events_ok : forall b x log x' l, sreached false x log -> Forall (slive x) b -> NoDup (map (fun e => y_ind (fst e)) b) ->
  sub_events x b = Ok (x', l) -> sreached false x' (log ++ flat_map k_evs l) /\ Forall sgood l.
Proof.
  induction b as [|e b IH]; intros x log x' l R Lv Nd; cbn [sub_events].
  - intros E. assert (x' = x /\ l = []) as [-> ->] by (split; congruence). cbn [flat_map]. rewrite app_nil_r. split; [exact R|constructor].
  - destruct (sub_event x e) as [[x1 l1]| | |] eqn:E1; cbn [bind fst snd]; [|discriminate..]. inversion Lv as [|? ? L1 L2 Q1]; subst. inversion Nd as [|? ? N1 N2 Q2]; subst.
    destruct (sub_event_ok x log e x1 l1 R L1 E1) as (R1 & G1 & F & S).
    destruct (sub_events x1 b) as [[x2 l2]| | |] eqn:E2; cbn [bind fst snd]; [|discriminate..]. intros E. assert (x' = x2 /\ l = l1 ++ l2) as [-> ->] by (split; congruence). clear E.
    assert (L2' : Forall (slive x1) b).
    { apply Forall_forall. intros e' He'. rewrite Forall_forall in L2. apply (slive_frame x x1 (y_ind (fst e))); auto. intros Q. apply N1. rewrite <- Q. exact (in_map (fun e => y_ind (fst e)) b e' He'). }
    destruct (IH x1 _ x2 l2 R1 L2' N2 E2) as [R2 G2]. split; [rewrite flat_map_app, app_assoc; exact R2|]. apply Forall_app. auto.
Qed.
