(** SubSteps.v — every call on a subscriber context is a sequence of small steps. *)
From Coq Require Import Sorting.Permutation Sorting.Sorted.
From Verif Require Import Base CircBuf CircBufProofs Wire SeqList Sub SpecSub SubProofs Proto SpecProto ProtoProofs
  Conn SpecConn ConnProofs Safe SubCtx SpecSubCtx.

(** ** Small facts *)
Lemma tupd_same {X} (f : Z -> X) a x : tupd f a x a = x.
Proof. unfold tupd. rewrite Z.eqb_refl. reflexivity. Qed.
Lemma tupd_twice {X} (f : Z -> X) a x y b : tupd (tupd f a x) a y b = tupd f a y b.
Proof. unfold tupd. destruct (b =? a); reflexivity. Qed.
Lemma tupd_other {X} (f : Z -> X) a x b : b <> a -> tupd f a x b = f b.
Proof. intros H. unfold tupd. apply Z.eqb_neq in H. rewrite H. reflexivity. Qed.

(** ** The connection table *)
Record TV (v : cvec) : Prop := mkTV {
  tv_size : v_size v <= RMC_LISTEN_INDEX;
  tv_max : max_ok v;
  tv_mode : forall i c, slot v i = Ok c -> (c_desc c = -1 <-> c_mode c = CLOSED) /\ -1 <= c_desc c /\
              (c_mode c = CLOSED \/ c_mode c = CONNECTING \/ c_mode c = CONNECTED);
  tv_ring : forall i c, slot v i = Ok c -> cb_wf (c_wbuf c) /\ cb_size (c_wbuf c) = RMC_MAX_PACKET;
  tv_clean : clean v;
  tv_active : v_active v = count_open v
}.
Lemma count_conns v v1 : v_conns v1 = v_conns v -> count_open v1 = count_open v.
Proof. unfold count_open. intros ->. reflexivity. Qed.
Lemma slot_conns v v1 i : v_conns v1 = v_conns v -> slot v1 i = slot v i.
Proof. unfold slot. intros ->. reflexivity. Qed.
Lemma TV_put v i c c' v1 : TV v -> slot v i = Ok c -> v_conns v1 = v_conns (put_slot v i c') -> max_ok v1 ->
  v_active v1 = v_active v - b_open c + b_open c' ->
  (c_desc c' = -1 <-> c_mode c' = CLOSED) -> -1 <= c_desc c' ->
  (c_mode c' = CLOSED \/ c_mode c' = CONNECTING \/ c_mode c' = CONNECTED) ->
  cb_wf (c_wbuf c') -> cb_size (c_wbuf c') = RMC_MAX_PACKET -> (c_mode c' = CLOSED -> fresh_rings c') -> TV v1.
Proof.
  intros X Hs E M A D1 D2 D3 W1 W2 F. pose proof (slot_range _ _ _ Hs) as R. destruct X as [X1 X2 X3 X4 X5 X6].
  assert (Hcase : forall j d, slot v1 j = Ok d -> (j = i /\ d = c') \/ (j <> i /\ slot v j = Ok d)).
  { intros j d Hj. rewrite (slot_conns _ _ j E) in Hj. exact (slot_put v i c' j d R Hj). }
  constructor.
  - unfold v_size. rewrite E. change (v_size (put_slot v i c') <= RMC_LISTEN_INDEX). rewrite size_put. exact X1.
  - exact M.
  - intros j d Hj. destruct (Hcase j d Hj) as [[-> ->]|[_ Hj']]; [auto|exact (X3 j d Hj')].
  - intros j d Hj. destruct (Hcase j d Hj) as [[-> ->]|[_ Hj']]; [auto|exact (X4 j d Hj')].
  - exact (clean_put v i c' v1 X5 R E F).
  - rewrite A, (count_conns _ _ E), (count_put v i c c' Hs), X6. reflexivity.
Qed.
Lemma max_same v i c c' : max_ok v -> slot v i = Ok c -> c_desc c' = c_desc c -> max_ok (put_slot v i c').
Proof.
  intros [M1 M2] Hs Ed. pose proof (slot_range _ _ _ Hs) as R. split; [rewrite size_put; exact M1|].
  intros j d Hj D. cbn [put_slot v_max]. destruct (slot_put v i c' j d R Hj) as [[-> ->]|[N Hj']]; [|exact (M2 j d Hj' D)].
  apply (M2 i c Hs). congruence.
Qed.
Lemma TV_io v i c c' : TV v -> slot v i = Ok c -> c_mode c <> CLOSED -> c_mode c' = c_mode c -> c_desc c' = c_desc c ->
  cb_wf (c_wbuf c') -> cb_size (c_wbuf c') = RMC_MAX_PACKET -> TV (put_slot v i c').
Proof.
  intros X Hs Ho Em Ed W1 W2. destruct (tv_mode v X i c Hs) as (D1 & D2 & D3). apply (TV_put v i c c'); auto.
  - exact (max_same v i c c' (tv_max v X) Hs Ed).
  - cbn [put_slot v_active]. unfold b_open. rewrite Em. lia.
  - rewrite Ed, Em. exact D1.
  - rewrite Ed. exact D2.
  - rewrite Em. exact D3.
  - rewrite Em. intros H. contradiction.
Qed.
Lemma ring_fresh c : fresh_rings c -> cb_wf (c_wbuf c) /\ cb_size (c_wbuf c) = RMC_MAX_PACKET /\ contents (c_wbuf c) = [].
Proof.
  intros (_ & H1 & H2 & H3). destruct (init_wf RMC_MAX_PACKET (cb_mem (c_wbuf c))) as (W1 & W2 & W3).
  { unfold RMC_MAX_PACKET, cb_max. lia. }
  assert (E : c_wbuf c = circ_buf_init RMC_MAX_PACKET (cb_mem (c_wbuf c))).
  { destruct (c_wbuf c) as [sz st sp m]. cbn in *. subst. reflexivity. }
  rewrite E. auto.
Qed.
Lemma rring_fresh c : fresh_rings c -> cb_wf (c_rbuf c) /\ cb_size (c_rbuf c) = RMC_MAX_PACKET /\ contents (c_rbuf c) = [].
Proof.
  intros ((H1 & H2 & H3) & _). destruct (init_wf RMC_MAX_PACKET (cb_mem (c_rbuf c))) as (W1 & W2 & W3).
  { unfold RMC_MAX_PACKET, cb_max. lia. }
  assert (E : c_rbuf c = circ_buf_init RMC_MAX_PACKET (cb_mem (c_rbuf c))).
  { destruct (c_rbuf c) as [sz st sp m]. cbn in *. subst. reflexivity. }
  rewrite E. auto.
Qed.
Lemma TV_close v i c v' : TV v -> slot v i = Ok c -> c_mode c <> CLOSED ->
  close_conn v i = Ok (0, v', [EvRem (c_desc c) i; EvClose (c_desc c)]) ->
  TV v' /\ v_size v' = v_size v /\ slot v' i = Ok (reset_conn c) /\ (forall j, j <> i -> slot v' j = slot v j).
Proof.
  intros X Hs Ho Ec. pose proof (slot_range _ _ _ Hs) as R.
  destruct (close_cases v i) as [[H _]|[(c1 & H1 & H2 & _)|(c1 & [H1 H2] & E)]]; [lia|lia|congruence|].
  assert (c1 = c) by congruence. subst c1. cbv zeta in E. rewrite Ec in E.
  set (v2 := if i =? v_max v then reset_max (put_slot v i (reset_conn c)) else put_slot v i (reset_conn c)) in *.
  assert (Ev : v' = set_active v2 (u16 (v_active v - 1))) by congruence. clear E.
  assert (Ev2 : v_conns v' = v_conns (put_slot v i (reset_conn c))).
  { rewrite Ev. unfold v2. destruct (i =? v_max v); reflexivity. }
  assert (T : TV v').
  { apply (TV_put v i c (reset_conn c)); auto.
    - rewrite Ev. pose proof (closed_max v i c v2 (tv_size v X) (tv_max v X) R eq_refl) as [M1 M2]. split; assumption.
    - rewrite Ev. cbn [set_active v_active]. rewrite (tv_active v X), (u16_count_pred v i c (tv_size v X) (conj Hs Ho)).
      unfold b_open. destruct (Z.eqb_spec (c_mode c) CLOSED); [contradiction|]. cbn. lia.
    - cbn. unfold CLOSED. lia.
    - cbn. lia.
    - apply (ring_fresh _ (fresh_reset c)).
    - intros _. apply fresh_reset. }
  split; [exact T|]. split.
  - unfold v_size. rewrite Ev2. apply size_put.
  - split.
    + rewrite (slot_conns _ _ i Ev2). apply slot_put_same. exact R.
    + intros j N. rewrite (slot_conns _ _ j Ev2). apply slot_put_other; [lia|exact N].
Qed.
Lemma close_open v i c : slot v i = Ok c -> c_mode c <> CLOSED ->
  exists v', close_conn v i = Ok (0, v', [EvRem (c_desc c) i; EvClose (c_desc c)]).
Proof.
  intros Hs Ho. pose proof (slot_range _ _ _ Hs) as R.
  destruct (close_cases v i) as [[H _]|[(c1 & H1 & H2 & _)|(c1 & [H1 H2] & E)]]; [lia|lia|congruence|].
  assert (c1 = c) by congruence. subst c1. eexists. exact E.
Qed.
Lemma TV_connect v i c d addr port node act : TV v -> slot v i = Ok c -> c_desc c = -1 -> 0 <= d ->
  let c' := mkConn act d node (c_rbuf c) (c_wbuf c) CONNECTING port addr in
  let v' := set_active (put_slot (bumped v i) i c') (u16 (v_active v + 1)) in
  TV v' /\ slot v' i = Ok c' /\ (forall j, j <> i -> slot v' j = slot v j) /\ v_size v' = v_size v /\
  c_mode c = CLOSED /\ fresh_rings c.
Proof.
  intros X Hs Hd Hd0 c' v'. pose proof (slot_range _ _ _ Hs) as R.
  destruct (tv_mode v X i c Hs) as (D1 & _ & _). assert (Hc : c_mode c = CLOSED) by tauto.
  pose proof (tv_clean v X i c Hs Hc) as F. destruct (ring_fresh c F) as (F1 & F2 & _).
  assert (Ev : v_conns v' = v_conns (put_slot v i c')) by (unfold v', set_active, put_slot; cbn [v_conns]; rewrite bumped_conns; reflexivity).
  split; [|split; [apply slot_put_bumped; exact R|split; [|split; [|auto]]]].
  - apply (TV_put v i c c'); auto.
    + destruct (bump_max v i (tv_max v X) R (tv_size v X)) as (M1 & M2 & M3). fold (bumped v i) in M1, M2, M3.
      pose proof (max_put (bumped v i) i c' M1) as [P1 P2]; [rewrite bumped_size; exact R|exact M2|exact M3|]. split; assumption.
    + unfold v'. cbn [set_active v_active]. rewrite (tv_active v X), (u16_count_succ v (tv_size v X)). unfold b_open. rewrite Hc. cbn. lia.
    + unfold c'. cbn. unfold CONNECTING, CLOSED. lia.
    + unfold c'. cbn. lia.
  - intros j N. rewrite (slot_conns _ _ j Ev). apply slot_put_other; [lia|exact N].
  - unfold v_size. rewrite Ev. apply size_put.
Qed.
Lemma TV_same_closed v i c c' v1 : TV v -> slot v i = Ok c -> c_desc c = -1 -> v_conns v1 = v_conns (put_slot v i c') -> max_ok v1 ->
  v_active v1 = v_active v -> c_desc c' = -1 -> c_mode c' = c_mode c -> c_rbuf c' = c_rbuf c -> c_wbuf c' = c_wbuf c -> TV v1.
Proof.
  intros X Hs Hd E M A Ed Em Er Ew. destruct (tv_mode v X i c Hs) as (D1 & _ & D3). assert (Hc : c_mode c = CLOSED) by tauto.
  pose proof (tv_clean v X i c Hs Hc) as F. destruct (ring_fresh c F) as (F1 & F2 & _).
  apply (TV_put v i c c'); auto.
  - rewrite A. unfold b_open. rewrite Em. lia.
  - rewrite Ed, Em. tauto.
  - lia.
  - rewrite Em. exact D3.
  - rewrite Ew. exact F1.
  - rewrite Ew. exact F2.
  - intros _. unfold fresh_rings in *. rewrite Er, Ew. exact F.
Qed.

(** ** Small steps *)
(** Events that change nothing by themselves. *)
Definition calm_ev (x : sctx) (r : option Z) (e : sev) : Prop :=
  match e with
  | SvConn (EvAdd _ i _) => v_size (t_vec x) <= i
  | SvConn _ | SvAnnounce _ _ _ _ | SvComplete _ _ _ | SvReady | SvDgram _ _ => True
  | SvRecv i _ => r = Some i /\ exists c, sconnected x i c
  | _ => False
  end.
Definition same_conn (c c' : conn) : Prop :=
  c_mode c' = c_mode c /\ c_desc c' = c_desc c /\ c_node c' = c_node c /\ c_port c' = c_port c /\ c_addr c' = c_addr c.
Definition frees_of (l : list spacket) : list (Z * Z) := map (fun p => (sk_payload p, sk_len p)) l.
Definition free_evs (l : list spacket) : list sev := map (fun p => SvFree (sk_payload p) (sk_len p)) l.
Definition free_mem (m : Z -> option (list Z)) (l : list spacket) : Z -> option (list Z) :=
  fold_left (fun m p => tupd m (sk_payload p) None) l m.
Definition put_evs (m : Z -> option (list Z)) (i : Z) (out : list spacket) : list sev :=
  map (fun p => SvPut i (sk_pid p) (peek m (sk_payload p) (sk_len p))) out.
Definition mem_eq (m m' : Z -> option (list Z)) : Prop := forall p, m p = m' p.

(** The packet, the publisher and the ack list when a packet is accepted. *)
Definition new_packet (x : sctx) (i pid ptr len : Z) : spacket := mkSK (t_fresh x) (Z.to_nat i) pid ptr len i.
Definition ack_after (x : sctx) (i : Z) (s : spub) (mc : bool) : list Z :=
  if mc && (sub_oldest_unacked s =? 0) then seq_insert_sorted_rev (ack_compare x) i (t_ack x) else t_ack x.

(** [r]: the connection whose control channel is being read, -1 if the multicast socket is, -2 in
    a timeout, -3 when a control message is written. *)
Inductive ustep (r : option Z) (log : list sev) (x : sctx) : list sev -> sctx -> Prop :=
| u_event e : calm_ev x r e -> ustep r log x [e] x
| u_cfg x' : t_pubs x' = t_pubs x -> t_vec x' = t_vec x -> t_ack x' = t_ack x -> t_ready x' = t_ready x ->
    t_mem x' = t_mem x -> t_fresh x' = t_fresh x -> ustep r log x [] x'
| u_got i c s pid bs (src : option (Z * list Z)) ptr now x' s' out :
    sconnected x i c -> t_pubs x i = Some s -> sub_is_duplicate s pid = false ->
    match src with Some sd => r = Some (-1) /\ carries_packet (c_addr c) (c_port c) pid bs sd /\ bytes_ok (snd sd) /\
                              zlen (snd sd) <= RMC_MAX_PACKET | None => r = Some i end ->
    ptr <> 0 -> t_mem x ptr = None ->
    let mc := match src with Some _ => true | None => false end in
    sub_process (sub_received s (new_packet x i pid ptr (zlen bs)) mc now) = (s', out) ->
    let m := tupd (t_mem x) ptr (Some bs) in
    x' = mkT (tupd (tupd (t_pubs x) i (Some (sub_received s (new_packet x i pid ptr (zlen bs)) mc now))) i (Some s'))
           (t_vec x) (ack_after x i s mc) (t_ready x ++ out) m (S (t_fresh x)) (t_mcast x) (t_ato x) (t_node x) (t_acb x) (t_ccb x) (t_rcb x) ->
    ustep r log x (match src with Some sd => [SvDgram (fst sd) (snd sd)] | None => [] end ++
                   SvAlloc ptr (zlen bs) :: SvGot i pid mc bs :: put_evs m i out) x'
| u_proc i c s s' out : sconnected x i c -> t_pubs x i = Some s -> sub_process s = (s', out) ->
    ustep r log x (put_evs (t_mem x) i out) (set_tready (put_spub x i s') (t_ready x ++ out))
| u_take p rest a : unlink_packet a (t_ready x) = Some (p, rest) ->
    ustep r log x [SvTake p (peek (t_mem x) (sk_payload p) (sk_len p))] (set_tready x rest)
| u_takefree p rest a : unlink_packet a (t_ready x) = Some (p, rest) ->
    ustep r log x [SvTake p (peek (t_mem x) (sk_payload p) (sk_len p)); SvFree (sk_payload p) (sk_len p)]
      (set_tmem (set_tready x rest) (tupd (t_mem x) (sk_payload p) None))
| u_drop p rest : t_ready x = p :: rest -> ustep r log x [SvDrop p] (set_tready x rest)
| u_ack i c s iv rest wb act : sconnected x i c -> t_pubs x i = Some s -> s_intv s = iv :: rest ->
    cb_wf wb -> cb_size wb = RMC_MAX_PACKET -> contents wb = contents (c_wbuf c) ++ wire (CmdAck (iv_first iv) (iv_last iv)) -> r = Some (-2) ->
    ustep r log x [SvAck i (iv_first iv) (iv_last iv); SvConn (EvMod (c_desc c) i (c_action c) act)]
      (set_tvec (put_spub x i (mkSP (s_ready s) (s_maxrecv s) (s_recv s) rest))
         (put_slot (t_vec x) i (set_action (set_wbuf c wb) act)))
| u_lost i c s iv rest : sconnected x i c -> t_pubs x i = Some s -> s_intv s = iv :: rest -> r = Some (-2) ->
    ustep r log x [SvLost i (iv_first iv) (iv_last iv)] (put_spub x i (mkSP (s_ready s) (s_maxrecv s) (s_recv s) rest))
| u_next i rest : t_ack x = i :: rest -> pending_acks x i = [] -> ustep r log x [] (set_tack x rest)
| u_clear : (forall i, pending_acks x i = []) -> ustep r log x [] (set_tack x [])
| u_ctrl i c p wb act : sconnected x i c -> cb_wf wb -> cb_size wb = RMC_MAX_PACKET -> cmd_ok (CmdCtrl p) ->
    contents wb = contents (c_wbuf c) ++ wire (CmdCtrl p) -> r = Some (-3) ->
    ustep r log x [SvConn (EvMod (c_desc c) i (c_action c) act)]
      (set_tvec x (put_slot (t_vec x) i (set_action (set_wbuf c wb) act)))
| u_write i c wb act sent : sconnected x i c -> cb_wf wb -> cb_size wb = RMC_MAX_PACKET ->
    contents (c_wbuf c) = sent ++ contents wb ->
    ustep r log x [SvTcp i sent; SvConn (EvMod (c_desc c) i (c_action c) act)]
      (set_tvec x (put_slot (t_vec x) i (set_action (set_wbuf c wb) act)))
| u_rbuf i c rb : r = Some i -> sconnected x i c -> ustep r log x [] (set_tvec x (put_slot (t_vec x) i (set_rbuf c rb)))
| u_connect i c d addr port node : r = Some (-1) -> slot (t_vec x) i = Ok c -> c_desc c = -1 -> 0 <= d ->
    ustep r log x [SvConn (EvOpen d); SvConn (EvAdd d i POLLWRITE)]
      (set_tvec x (set_active (put_slot (bumped (t_vec x) i) i (mkConn POLLWRITE d node (c_rbuf c) (c_wbuf c) CONNECTING port addr))
                     (u16 (v_active (t_vec x) + 1))))
| u_noconn i c c' v evs : slot (t_vec x) i = Ok c -> c_desc c = -1 -> c_desc c' = -1 -> c_mode c' = c_mode c ->
    c_rbuf c' = c_rbuf c -> c_wbuf c' = c_wbuf c -> v_conns v = v_conns (put_slot (t_vec x) i c') -> max_ok v ->
    v_active v = v_active (t_vec x) -> (evs = [] \/ exists d, 0 <= d /\ evs = [SvConn (EvOpen d); SvConn (EvClose d)]) ->
    ustep r log x evs (set_tvec x v)
| u_reinit i : 0 <= i < v_size (t_vec x) -> (forall c, ~ sconnected x i c) -> ustep r log x [] (put_spub x i sub_init)
| u_idle i s : t_pubs x i = Some s -> (forall c, ~ sconnected x i c) ->
    ustep r log x [] (put_spub x i (mkSP (s_ready s) (s_maxrecv s) [] []))
| u_established i c : slot (t_vec x) i = Ok c -> c_mode c = CONNECTING -> t_pubs x i = Some sub_init ->
    ustep r log x [SvConn (EvMod (c_desc c) i (c_action c) POLLREAD)]
      (set_tvec x (put_slot (t_vec x) i (set_action (set_mode c CONNECTED) POLLREAD)))
| u_abort i c v : slot (t_vec x) i = Ok c -> c_mode c = CONNECTING ->
    close_conn (t_vec x) i = Ok (0, v, [EvRem (c_desc c) i; EvClose (c_desc c)]) ->
    ustep r log x [SvConn (EvRem (c_desc c) i); SvConn (EvClose (c_desc c))] (set_tvec x v)
| u_close i c v s : sconnected x i c -> t_pubs x i = Some s ->
    close_conn (t_vec x) i = Ok (0, v, [EvRem (c_desc c) i; EvClose (c_desc c)]) ->
    ustep r log x ([SvConn (EvRem (c_desc c) i); SvConn (EvClose (c_desc c))] ++ free_evs (s_recv s))
      (set_tmem (put_spub (set_tvec x v) i (mkSP (s_ready s) (s_maxrecv s) [] [])) (free_mem (t_mem x) (s_recv s)))
| u_appfree ptr : In ptr (kept log) -> ustep r log x [SvAppFree ptr] (set_tmem x (tupd (t_mem x) ptr None)).

Inductive usteps (r : option Z) (log : list sev) (x : sctx) : list sev -> sctx -> Prop :=
| us_nil : usteps r log x [] x
| us_snoc evs x1 evs1 x2 : usteps r log x evs x1 -> ustep r (log ++ evs) x1 evs1 x2 -> usteps r log x (evs ++ evs1) x2.
Lemma us_one r log x evs x' : ustep r log x evs x' -> usteps r log x evs x'.
Proof. intros H. change evs with ([] ++ evs). eapply us_snoc; [constructor|]. rewrite app_nil_r. exact H. Qed.
Lemma us_app r log x e1 x1 e2 x2 : usteps r log x e1 x1 -> usteps r (log ++ e1) x1 e2 x2 -> usteps r log x (e1 ++ e2) x2.
Proof.
  intros H1 H2. induction H2 as [|evs y1 evs1 y2 H IH Hs]; [rewrite app_nil_r; exact H1|].
  rewrite app_assoc. eapply us_snoc; [exact IH|]. rewrite app_assoc. exact Hs.
Qed.
Lemma us_then r log x e1 x1 e2 x2 : usteps r log x e1 x1 -> ustep r (log ++ e1) x1 e2 x2 -> usteps r log x (e1 ++ e2) x2.
Proof. intros. eapply us_snoc; eassumption. Qed.
Lemma us_event r log x e1 x1 e : usteps r log x e1 x1 -> calm_ev x1 r e -> usteps r log x (e1 ++ [e]) x1.
Proof. intros H He. eapply us_snoc; [exact H|]. apply u_event. exact He. Qed.
Lemma us_size_calm r log x evs : Forall (calm_ev x r) evs -> usteps r log x evs x.
Proof.
  induction evs as [|e evs IH] using rev_ind; intros H; [constructor|]. apply Forall_app in H. destruct H as [H He]. inversion He; subst.
  apply us_event; [exact (IH H)|assumption].
Qed.

(** ** Basic invariant *)
Record BI (x : sctx) : Prop := mkBI {
  bi_vec : TV (t_vec x);
  bi_init : forall i c, sconnected x i c -> t_pubs x i <> None;
  bi_range : forall i s, t_pubs x i = Some s -> 0 <= i < v_size (t_vec x);
  bi_idle : forall i s, t_pubs x i = Some s -> (forall c, ~ sconnected x i c) -> s_recv s = [] /\ s_intv s = [];
  bi_ack : forall i, In i (t_ack x) -> t_pubs x i <> None;
  bi_pend : forall i, pending_acks x i <> [] -> In i (t_ack x)
}.
Lemma ack_after_in x i s mc j : In j (ack_after x i s mc) <-> In j (t_ack x) \/ (j = i /\ mc = true /\ sub_oldest_unacked s = 0).
Proof.
  unfold ack_after. destruct mc; cbn [andb]; [|intuition congruence]. destruct (Z.eqb_spec (sub_oldest_unacked s) 0) as [E|E]; [|intuition congruence].
  unfold seq_insert_sorted_rev. rewrite <- in_rev.
  assert (G : forall l, In j (seq_insert_sorted (ack_compare x) i l) <-> In j l \/ j = i).
  { induction l as [|y l IH]; cbn; [intuition|]. destruct (0 <=? ack_compare x i y); cbn; [intuition|]. rewrite IH. intuition. }
  rewrite G, <- in_rev. intuition.
Qed.
Lemma sub_process_intv s s' out : sub_process s = (s', out) -> s_intv s' = s_intv s.
Proof. unfold sub_process. destruct (process_loop _ _) as [[a b] c]. intros E. injection E as <- <-. reflexivity. Qed.
Lemma process_loop_split l : forall r r' out rest, process_loop r l = (r', out, rest) -> l = out ++ rest.
Proof.
  induction l as [|p l IH]; intros r r' out rest; cbn [process_loop].
  - intros E. injection E as <- <- <-. reflexivity.
  - destruct (_ && _); [intros E; injection E as <- <- <-; reflexivity|].
    destruct (process_loop (u64 (r + 1)) l) as [[a b] c] eqn:Ep. intros E. injection E as <- <- <-. cbn. f_equal. exact (IH _ _ _ _ Ep).
Qed.
Lemma sub_process_split s s' out : sub_process s = (s', out) -> s_recv s = out ++ s_recv s'.
Proof.
  unfold sub_process. destruct (process_loop _ _) as [[a b] c] eqn:Ep. intros E. injection E as <- <-. cbn [s_recv].
  exact (process_loop_split _ _ _ _ _ Ep).
Qed.
Lemma conn_put_other x v i c' j c : 0 <= i < v_size (t_vec x) -> v_conns v = v_conns (put_slot (t_vec x) i c') -> j <> i ->
  (sconnected (set_tvec x v) j c <-> sconnected x j c).
Proof.
  intros R E N. unfold sconnected. cbn [set_tvec t_vec]. rewrite (slot_conns _ _ j E), slot_put_other by (lia || exact N). reflexivity.
Qed.
Lemma BI_pubs x i s' x' : BI x -> t_vec x' = t_vec x -> (forall j, t_pubs x' j = tupd (t_pubs x) i (Some s') j) -> 0 <= i < v_size (t_vec x) ->
  (forall j, In j (t_ack x') -> In j (t_ack x) \/ j = i) -> (forall j, In j (t_ack x) -> In j (t_ack x')) ->
  (s_intv s' <> [] -> In i (t_ack x')) -> ((forall c, ~ sconnected x i c) -> s_recv s' = [] /\ s_intv s' = []) -> BI x'.
Proof.
  intros [B1 B2 B3 B4 B5 B6] Ev Ep R A1 A2 A3 Hi.
  assert (C : forall j c, sconnected x' j c <-> sconnected x j c) by (intros; unfold sconnected; rewrite Ev; reflexivity).
  constructor; rewrite ?Ev.
  - exact B1.
  - intros j c Hc. rewrite Ep. destruct (Z.eq_dec j i) as [->|N]; [rewrite tupd_same; discriminate|rewrite tupd_other by exact N].
    apply (B2 j c), C. exact Hc.
  - intros j s. rewrite Ep. destruct (Z.eq_dec j i) as [->|N]; [intros; exact R|rewrite tupd_other by exact N; apply B3].
  - intros j s Hs Hc. assert (Hc' : forall c, ~ sconnected x j c) by (intros c Hx; apply (Hc c), C; exact Hx).
    rewrite Ep in Hs. destruct (Z.eq_dec j i) as [->|N].
    + rewrite tupd_same in Hs. injection Hs as <-. exact (Hi Hc').
    + rewrite tupd_other in Hs by exact N. exact (B4 j s Hs Hc').
  - intros j Hj. rewrite Ep. destruct (Z.eq_dec j i) as [->|N]; [rewrite tupd_same; discriminate|rewrite tupd_other by exact N].
    destruct (A1 j Hj) as [H|H]; [exact (B5 j H)|contradiction].
  - intros j. unfold pending_acks. rewrite Ep. destruct (Z.eq_dec j i) as [->|N].
    + rewrite tupd_same. exact A3.
    + rewrite tupd_other by exact N. intros H. apply A2. apply (B6 j H).
Qed.
Lemma BI_vec x i c c' x' : BI x -> t_pubs x' = t_pubs x -> t_ack x' = t_ack x -> slot (t_vec x) i = Ok c ->
  TV (t_vec x') -> v_conns (t_vec x') = v_conns (put_slot (t_vec x) i c') ->
  (c_mode c' = CONNECTED -> t_pubs x i <> None) ->
  (c_mode c' <> CONNECTED -> c_mode c <> CONNECTED \/ forall s, t_pubs x i = Some s -> s_recv s = [] /\ s_intv s = []) -> BI x'.
Proof.
  intros [B1 B2 B3 B4 B5 B6] Ep Ea Hs T Ec H1 H2. pose proof (slot_range _ _ _ Hs) as R.
  assert (Sz : v_size (t_vec x') = v_size (t_vec x)) by (unfold v_size; rewrite Ec; apply size_put).
  assert (O : forall j d, j <> i -> (sconnected x' j d <-> sconnected x j d)).
  { intros j d N. unfold sconnected. rewrite (slot_conns _ _ j Ec), slot_put_other by (lia || exact N). reflexivity. }
  assert (S : slot (t_vec x') i = Ok c') by (rewrite (slot_conns _ _ i Ec); apply slot_put_same; exact R).
  constructor; rewrite ?Ep, ?Ea; auto.
  - intros j d Hd. destruct (Z.eq_dec j i) as [->|N]; [|apply (B2 j d), O; assumption].
    destruct Hd as [Hd Hm]. rewrite S in Hd. injection Hd as <-. auto.
  - rewrite Sz. exact B3.
  - intros j s Hj Hc. destruct (Z.eq_dec j i) as [->|N].
    + assert (Hm : c_mode c' <> CONNECTED) by (intros X; apply (Hc c'); split; assumption).
      destruct (H2 Hm) as [H|H]; [|exact (H s Hj)]. apply (B4 i s Hj). intros d [Hd Hdm]. congruence.
    + apply (B4 j s Hj). intros d Hd. apply (Hc d), O; assumption.
  - unfold pending_acks. rewrite Ep. exact B6.
Qed.
Lemma BI_same x x' : BI x -> t_pubs x' = t_pubs x -> t_vec x' = t_vec x -> t_ack x' = t_ack x -> BI x'.
Proof. intros [B1 B2 B3 B4 B5 B6] E1 E2 E3. constructor; unfold sconnected, pending_acks in *; rewrite ?E1, ?E2, ?E3; assumption. Qed.
Lemma connected_mode x i c : sconnected x i c -> c_mode c <> CLOSED.
Proof. intros [_ ->]. discriminate. Qed.
Lemma BI_io x i c wb rb act x' : BI x -> sconnected x i c -> cb_wf wb -> cb_size wb = RMC_MAX_PACKET ->
  t_pubs x' = t_pubs x -> t_ack x' = t_ack x ->
  t_vec x' = put_slot (t_vec x) i (set_action (set_rbuf (set_wbuf c wb) rb) act) -> BI x'.
Proof.
  intros B Hc W1 W2 E1 E2 E3. destruct Hc as [Hs Hm].
  apply (BI_vec x i c (set_action (set_rbuf (set_wbuf c wb) rb) act)); auto.
  - rewrite E3. apply (TV_io _ i c); auto; [exact (bi_vec x B)|rewrite Hm; discriminate].
  - rewrite E3. reflexivity.
  - intros _. exact (bi_init x B i c (conj Hs Hm)).
Qed.
Lemma set_id c : set_action (set_rbuf (set_wbuf c (c_wbuf c)) (c_rbuf c)) (c_action c) = c.
Proof. destruct c. reflexivity. Qed.
Lemma set_rb c rb : set_action (set_rbuf (set_wbuf c (c_wbuf c)) rb) (c_action c) = set_rbuf c rb.
Proof. destruct c. reflexivity. Qed.
Lemma set_wb c wb act : set_action (set_rbuf (set_wbuf c wb) (c_rbuf c)) act = set_action (set_wbuf c wb) act.
Proof. destruct c. reflexivity. Qed.

Lemma step_BI r log x evs x' : BI x -> ustep r log x evs x' -> BI x'.
Proof.
  intros B Hu. destruct Hu.
  - exact B.
  - apply (BI_same x); auto.
  - subst x'. pose proof (slot_range _ _ _ (proj1 H)) as R.
    apply (BI_pubs x i s'); auto; cbn [t_ack].
    + intros j. apply tupd_twice.
    + intros j Hj. apply ack_after_in in Hj. destruct Hj as [Hj|[Hj _]]; auto.
    + intros j Hj. apply ack_after_in. auto.
    + intros Hn. apply ack_after_in. destruct mc eqn:Emc.
      * unfold sub_oldest_unacked. destruct (s_intv s) as [|iv ivs] eqn:Ei; [right; auto|]. left.
        apply (bi_pend x B). unfold pending_acks. rewrite H0, Ei. discriminate.
      * left. apply (bi_pend x B). unfold pending_acks. rewrite H0. rewrite (sub_process_intv _ _ _ H5) in Hn. exact Hn.
    + intros Hc. destruct (Hc c H).
  - pose proof (slot_range _ _ _ (proj1 H)) as R. apply (BI_pubs x i s'); auto; cbn [t_ack set_tready put_spub set_tpubs].
    + intros Hn. apply (bi_pend x B). unfold pending_acks. rewrite H0, <- (sub_process_intv _ _ _ H1). exact Hn.
    + intros Hc. destruct (Hc c H).
  - apply (BI_same x); auto.
  - apply (BI_same x); auto.
  - apply (BI_same x); auto.
  - pose proof (slot_range _ _ _ (proj1 H)) as R.
    set (s1 := mkSP (s_ready s) (s_maxrecv s) (s_recv s) rest).
    assert (B1 : BI (put_spub x i s1)).
    { apply (BI_pubs x i s1); auto; cbn [t_ack put_spub set_tpubs].
      - intros _. apply (bi_pend x B). unfold pending_acks. rewrite H0, H1. discriminate.
      - intros Hc. destruct (Hc c H). }
    apply (BI_io (put_spub x i s1) i c wb (c_rbuf c) act); auto.
  - pose proof (slot_range _ _ _ (proj1 H)) as R. apply (BI_pubs x i (mkSP (s_ready s) (s_maxrecv s) (s_recv s) rest)); auto; cbn [t_ack put_spub set_tpubs].
    + intros _. apply (bi_pend x B). unfold pending_acks. rewrite H0, H1. discriminate.
    + intros Hc. destruct (Hc c H).
  - destruct B as [B1 B2 B3 B4 B5 B6]. constructor; auto; cbn [set_tack t_ack].
    + intros j Hj. apply B5. rewrite H. right. exact Hj.
    + intros j Hj. pose proof (B6 j Hj) as Hin. rewrite H in Hin. destruct Hin as [<-|Hin]; [|exact Hin]. destruct (Hj H0).
  - destruct B as [B1 B2 B3 B4 B5 B6]. constructor; auto; cbn [set_tack t_ack].
    intros j Hj. destruct (Hj (H j)).
  - apply (BI_io x i c wb (c_rbuf c) act); auto.
  - apply (BI_io x i c wb (c_rbuf c) act); auto.
  - destruct (tv_ring _ (bi_vec x B) i c (proj1 H0)) as [W1 W2].
    apply (BI_io x i c (c_wbuf c) rb (c_action c)); auto.
  - destruct (TV_connect (t_vec x) i c d addr port node POLLWRITE (bi_vec x B) H0 H1 H2) as (T & _ & _ & _ & Hm & _).
    apply (BI_vec x i c (mkConn POLLWRITE d node (c_rbuf c) (c_wbuf c) CONNECTING port addr)); auto.
    + cbn [set_tvec t_vec set_active v_conns put_slot]. rewrite bumped_conns. reflexivity.
    + discriminate.
    + intros _. left. rewrite Hm. discriminate.
  - destruct (tv_mode _ (bi_vec x B) i c H) as (D1 & _). assert (Hm : c_mode c = CLOSED) by tauto.
    apply (BI_vec x i c c'); auto.
    + cbn [set_tvec t_vec]. apply (TV_same_closed (t_vec x) i c c'); auto. exact (bi_vec x B).
    + rewrite H2, Hm. discriminate.
    + intros _. left. rewrite Hm. discriminate.
  - apply (BI_pubs x i sub_init); auto. intros Hn. destruct (Hn eq_refl).
  - apply (BI_pubs x i (mkSP (s_ready s) (s_maxrecv s) [] [])); auto; [exact (bi_range x B i s H)|]. intros Hn. destruct (Hn eq_refl).
  - apply (BI_vec x i c (set_action (set_mode c CONNECTED) POLLREAD)); auto.
    + cbn [set_tvec t_vec]. destruct (tv_ring _ (bi_vec x B) i c H) as [W1 W2]. destruct (tv_mode _ (bi_vec x B) i c H) as (D1 & D2 & D3).
      apply (TV_put (t_vec x) i c (set_action (set_mode c CONNECTED) POLLREAD)); auto.
      * exact (bi_vec x B).
      * apply (max_same _ i c); auto. exact (tv_max _ (bi_vec x B)).
      * cbn [put_slot v_active]. unfold b_open. rewrite H0. cbn. lia.
      * cbn. rewrite D1, H0. unfold CONNECTING, CONNECTED, CLOSED. lia.
      * cbn. discriminate.
    + intros _. rewrite H1. discriminate.
  - destruct (TV_close (t_vec x) i c v (bi_vec x B) H ltac:(rewrite H0; discriminate) H1) as (T & Sz & S & O).
    pose proof (slot_range _ _ _ H) as R.
    destruct B as [B1 B2 B3 B4 B5 B6]. constructor; auto; cbn [set_tvec t_vec t_pubs t_ack].
    + intros j d [Hd Hm]. cbn [set_tvec t_vec] in Hd. destruct (Z.eq_dec j i) as [->|N].
      * rewrite S in Hd. injection Hd as <-. discriminate Hm.
      * rewrite O in Hd by exact N. exact (B2 j d (conj Hd Hm)).
    + rewrite Sz. exact B3.
    + intros j s Hj Hc. apply (B4 j s Hj). intros d [Hd Hm]. destruct (Z.eq_dec j i) as [->|N]; [rewrite H in Hd; injection Hd as <-; rewrite H0 in Hm; discriminate Hm|].
      apply (Hc d). split; [cbn [set_tvec t_vec]; rewrite O by exact N; exact Hd|exact Hm].
  - pose proof (slot_range _ _ _ (proj1 H)) as R.
    destruct (TV_close (t_vec x) i c v (bi_vec x B) (proj1 H) (connected_mode x i c H) H1) as (T & Sz & S & O).
    set (s1 := mkSP (s_ready s) (s_maxrecv s) [] []).
    assert (B0 : BI (put_spub x i s1)).
    { apply (BI_pubs x i s1); auto. intros Hn. destruct (Hn eq_refl). }
    destruct B0 as [B1 B2 B3 B4 B5 B6]. constructor; auto; cbn [set_tvec t_vec t_pubs t_ack set_tmem put_spub set_tpubs] in *.
    + intros j d [Hd Hm]. cbn [set_tvec t_vec set_tmem put_spub set_tpubs] in Hd. destruct (Z.eq_dec j i) as [->|N].
      * rewrite tupd_same. discriminate.
      * rewrite O in Hd by exact N. exact (B2 j d (conj Hd Hm)).
    + rewrite Sz. exact B3.
    + intros j s0 Hj Hc. destruct (Z.eq_dec j i) as [->|N].
      * rewrite tupd_same in Hj. injection Hj as <-. split; reflexivity.
      * apply (B4 j s0 Hj). intros d [Hd Hm]. apply (Hc d). split; [cbn [set_tvec t_vec]; rewrite O by exact N; exact Hd|exact Hm].
  - apply (BI_same x); auto.
Qed.
Lemma steps_BI r log x evs x' : BI x -> usteps r log x evs x' -> BI x'.
Proof. intros B Hu. induction Hu; [exact B|]. eapply step_BI; eassumption. Qed.
