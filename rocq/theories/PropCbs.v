(** PropCbs.v — theorems about the calls of the application's callbacks: C92. *)
From Verif Require Import Base CircBuf CircBufProofs Wire SeqList Sub SpecSub SubProofs SubTrace Proto SpecProto ProtoProofs
  Conn SpecConn ConnProofs SubCtx SpecSubCtx SubSteps SubMem SubDecomp SubInv PropSubCtx PropSubConn PropSubMem PropSubDeliver
  Pub PubCtx SpecPubCtx PubCtxSteps PropPubCtx PollSub Desc SpecCbs.

(** ** Segments of events *)
Definition notify (b : bool) (evs : list sev) : Prop := if b then told evs /\ due_cb evs else ~ In SvReady evs.
Definition quiet (e : sev) : bool := match e with SvPut _ _ _ | SvReady | SvAnnounce _ _ _ _ | SvComplete _ _ _ => false | _ => true end.
Definition puts_only (e : sev) : bool := match e with SvReady | SvAnnounce _ _ _ _ | SvComplete _ _ _ => false | _ => true end.
Lemma split_app {X} (l1 : list X) : forall l2 a e b, l1 ++ l2 = a ++ e :: b ->
  (exists b1, l1 = a ++ e :: b1 /\ b = b1 ++ l2) \/ (exists a2, a = l1 ++ a2 /\ l2 = a2 ++ e :: b).
Proof.
  induction l1 as [|y l1 IH]; intros l2 a e b E; [right; exists a; auto|]. destruct a as [|z a]; cbn in E.
  - left. exists l1. split; [|congruence]. cbn. congruence.
  - injection E as <- E. destruct (IH _ _ _ _ E) as [(b1 & -> & ->)|(a2 & -> & ->)]; [left; exists b1; auto|right; exists a2; auto].
Qed.
Lemma notify_nil b : notify b [].
Proof. destruct b; cbn; [split; intros a; intros; destruct a; discriminate|tauto]. Qed.
Lemma notify_app b l1 l2 : notify b l1 -> notify b l2 -> notify b (l1 ++ l2).
Proof.
  destruct b; cbn [notify].
  - intros [T1 D1] [T2 D2]. split.
    + intros a i pid bs r E. destruct (split_app _ _ _ _ _ E) as [(b1 & E1 & ->)|(a2 & -> & E2)]; [apply in_or_app; left; exact (T1 _ _ _ _ _ E1)|exact (T2 _ _ _ _ _ E2)].
    + intros a r E. destruct (split_app _ _ _ _ _ E) as [(b1 & E1 & ->)|(a2 & -> & E2)]; [exact (D1 _ _ E1)|].
      destruct (D2 _ _ E2) as (a1 & i & pid & bs & a3 & -> & N). exists (l1 ++ a1), i, pid, bs, a3. rewrite <- app_assoc. auto.
  - intros N1 N2 I. apply in_app_or in I. tauto.
Qed.
Lemma notify_quiet b l : forallb quiet l = true -> notify b l.
Proof.
  intros Q. rewrite forallb_forall in Q. assert (N : forall e, In e l -> quiet e = true) by exact Q. destruct b; cbn [notify].
  - split; intros a; intros; subst l.
    + assert (I : In (SvPut i pid bs) (a ++ SvPut i pid bs :: b)) by (apply in_or_app; right; left; reflexivity). specialize (N _ I). discriminate N.
    + assert (I : In SvReady (a ++ SvReady :: b)) by (apply in_or_app; right; left; reflexivity). specialize (N _ I). discriminate N.
  - intros I. specialize (N _ I). discriminate N.
Qed.
Lemma in_mid {X} (e : X) a b : In e (a ++ e :: b).
Proof. apply in_or_app. right. left. reflexivity. Qed.
(** A batch: packets become ready, then the callback. *)
Lemma notify_batch l e : forallb puts_only l = true -> forallb quiet e = true -> (exists i pid bs, In (SvPut i pid bs) l) -> notify true (l ++ SvReady :: e).
Proof.
  intros L Q (i & pid & bs & I). rewrite forallb_forall in L, Q. split.
  - intros a i1 p1 b1 r E. destruct (split_app _ _ _ _ _ E) as [(r1 & E1 & ->)|(a2 & -> & E2)]; [apply in_mid|].
    destruct a2 as [|y a2]; [discriminate E2|]. injection E2 as _ E2. rewrite E2 in Q. specialize (Q _ (in_mid _ _ _)). discriminate Q.
  - intros a r E. destruct (split_app _ _ _ _ _ E) as [(r1 & E1 & ->)|(a2 & -> & E2)]; [rewrite E1 in L; specialize (L _ (in_mid _ _ _)); discriminate L|].
    destruct a2 as [|y a2]; [|injection E2 as _ E2; rewrite E2 in Q; specialize (Q _ (in_mid _ _ _)); discriminate Q].
    apply in_split in I. destruct I as (l1 & l2 & ->). exists l1, i, pid, bs, l2. rewrite app_nil_r. split; [reflexivity|]. intros I.
    assert (I' : In SvReady (l1 ++ SvPut i pid bs :: l2)) by (apply in_or_app; right; right; exact I). specialize (L _ I'). discriminate L.
Qed.

(** ** What a call keeps *)
Definition RK (an : bool) (x : sctx) (evs : list sev) (x' : sctx) : Prop :=
  all_drained x -> all_drained x' /\ (t_acb x' = t_acb x /\ t_ccb x' = t_ccb x /\ t_rcb x' = t_rcb x) /\ notify (t_rcb x) evs /\
    (existsb is_announce evs = true -> an = true /\ t_acb x = true) /\ existsb is_complete evs = false.
Lemma RK_trans {an} x e1 y e2 z : RK an x e1 y -> RK an y e2 z -> RK an x (e1 ++ e2) z.
Proof.
  intros H1 H2 A. destruct (H1 A) as (A1 & (C1 & C2 & C3) & N1 & L1 & K1). destruct (H2 A1) as (A2 & (D1 & D2 & D3) & N2 & L2 & K2).
  split; [exact A2|]. split; [repeat split; congruence|]. split; [apply notify_app; [exact N1|rewrite <- C3; exact N2]|]. rewrite !existsb_app, K1, K2. split; [|reflexivity]. intros E; apply orb_true_iff in E; destruct E as [E|E]; auto. rewrite <- C1; auto.
Qed.
Lemma quiet_no l : forallb quiet l = true -> existsb is_announce l = false /\ existsb is_complete l = false.
Proof. induction l as [|e l IH]; [auto|]. cbn [forallb existsb]. intros E. apply andb_prop in E. destruct E as [E1 E2]. destruct (IH E2) as [-> ->]. destruct e; try discriminate E1; auto. Qed.
Lemma RK_quiet {an} x evs x' : (all_drained x -> all_drained x') -> t_acb x' = t_acb x -> t_ccb x' = t_ccb x -> t_rcb x' = t_rcb x -> forallb quiet evs = true -> RK an x evs x'.
Proof.
  intros D A B C Q I. split; [exact (D I)|]. split; [auto|]. split; [exact (notify_quiet _ _ Q)|]. destruct (quiet_no _ Q) as [-> ->]. split; [discriminate|reflexivity].
Qed.
Lemma RK_refl {an} x : RK an x [] x. Proof. apply RK_quiet; auto. Qed.
Lemma RK_same {an} x evs x' : t_pubs x' = t_pubs x -> t_acb x' = t_acb x -> t_ccb x' = t_ccb x -> t_rcb x' = t_rcb x -> forallb quiet evs = true -> RK an x evs x'.
Proof. intros P. apply RK_quiet. unfold all_drained. rewrite P. auto. Qed.
Lemma quiet_conn ce : forallb quiet (map SvConn ce) = true.
Proof. induction ce; auto. Qed.
Lemma quiet_app a b : forallb quiet a = true -> forallb quiet b = true -> forallb quiet (a ++ b) = true.
Proof. intros A B. rewrite forallb_app, A, B. reflexivity. Qed.
Lemma frees_quiet l : forall m r, free_payloads m l = Ok r -> forallb quiet (snd r) = true.
Proof.
  induction l as [|[p n] l IH]; intros m r; cbn [free_payloads]; [intros E; injection E as <-; reflexivity|].
  destruct (m p); [|discriminate]. destruct (free_payloads (tupd m p None) l) as [q| | |] eqn:Eq; cbn [bind]; [|discriminate..]. intros E. injection E as <-. cbn. exact (IH _ _ Eq).
Qed.
Definition SC (x x' : sctx) (evs : list sev) : Prop :=
  t_pubs x' = t_pubs x /\ t_acb x' = t_acb x /\ t_ccb x' = t_ccb x /\ t_rcb x' = t_rcb x /\ forallb quiet evs = true.
Lemma SC_RK {an} x x' evs : SC x x' evs -> RK an x evs x'.
Proof. intros (A & B & C & D & E). apply RK_same; auto. Qed.
Lemma SC_trans x y z e1 e2 : SC x y e1 -> SC y z e2 -> SC x z (e1 ++ e2).
Proof. intros (A & B & C & D & E) (A' & B' & C' & D' & E'). repeat split; try congruence. apply quiet_app; auto. Qed.
Lemma dispatched_SC x a k cd x' evs : rmc_sub_packet_dispatched x a k = Ok (cd, x', evs) -> SC x x' evs.
Proof.
  unfold rmc_sub_packet_dispatched, dispatched_keep_payload. destruct (unlink_packet a (t_ready x)) as [[p r]|].
  - destruct k; [intros E; injection E as _ <- <-; repeat split|]. destruct (free_payloads _ _) as [f| | |] eqn:Ef; cbn [bind]; [|discriminate..]. intros E. injection E as _ <- <-.
    split; [reflexivity|]. split; [reflexivity|]. split; [reflexivity|]. split; [reflexivity|]. cbn. exact (frees_quiet _ _ _ Ef).
  - intros E. injection E as _ <- <-. repeat split.
Qed.
Lemma ready_SC ops : forall x x' evs, ready_cb x ops = Ok (x', evs) -> SC x x' evs.
Proof.
  induction ops as [|[a k] ops IH]; intros x x' evs E; cbn [ready_cb] in E; [injection E as <- <-; repeat split|].
  destruct (rmc_sub_packet_dispatched x a k) as [[[c x1] e1]| | |] eqn:E1; cbn [bind] in E; [|discriminate E..].
  destruct (ready_cb x1 ops) as [[x2 e2]| | |] eqn:E2; cbn [bind fst snd] in E; [|discriminate E..]. injection E as <- <-.
  exact (SC_trans _ _ _ _ _ (dispatched_SC _ _ _ _ _ _ E1) (IH _ _ _ E2)).
Qed.
Lemma loop_keeps r l p rest : process_loop r l = (r, [], p :: rest) -> l = p :: rest.
Proof. destruct l as [|q l]; cbn [process_loop]; [discriminate|]. destruct (_ && _); [congruence|]. destruct (process_loop (u64 (r + 1)) l) as [[a b] c]. discriminate. Qed.
Lemma drained_idle s : drained s -> sub_process s = (s, []).
Proof.
  destruct s as [r m l iv]. unfold drained, sub_process. cbn [s_recv s_ready s_maxrecv s_intv]. destruct l as [|p l]; [reflexivity|]. intros [A B].
  replace (r =? 0) with false by lia. cbn [process_loop]. replace (r =? 0) with false by lia. replace (sk_pid p =? u64 (r + 1)) with false by lia. reflexivity.
Qed.
Lemma get_spub_some x i s : get_spub x i = Ok s -> t_pubs x i = Some s.
Proof. unfold get_spub. destruct (_ && _); [|discriminate]. destruct (t_pubs x i); [congruence|discriminate]. Qed.
(** At the end of a TCP read there is nothing left to hand out. *)
Lemma process_idle x i x' evs : all_drained x -> process_received x i = Ok (x', evs) -> evs = [].
Proof.
  intros A. unfold process_received. destruct (get_spub x i) as [s| | |] eqn:Es; cbn [bind]; [|discriminate..]. rewrite (drained_idle s (A i s (get_spub_some _ _ _ Es))). cbn [map]. congruence.
Qed.
Lemma process_RK {an} x i x' evs : process_received x i = Ok (x', evs) -> RK an x evs x'.
Proof.
  intros E A. pose proof (process_idle _ _ _ _ A E) as ->. revert A. apply RK_quiet; auto; revert E; unfold process_received;
    (destruct (get_spub x i) as [s| | |] eqn:Es; cbn [bind]; [|discriminate..]); destruct (sub_process s) as [s' out] eqn:Ep; intros E;
    match type of E with Ok (?y, _) = _ => assert (x' = y) as -> by congruence end; try reflexivity.
  intros A. unfold all_drained. cbn [set_tready put_spub set_tpubs t_pubs]. apply drained_upd; [exact A|exact (process_drained _ _ _ Ep)].
Qed.
Lemma accept_RK {an} x i pid bs mc o x' evs : accept_packet x i pid bs mc o = Ok (x', evs) -> RK an x evs x'.
Proof.
  unfold accept_packet. destruct (_ || _); [discriminate|]. set (x1 := set_tmem x _). intros E A.
  destruct (if mc then _ else _) as [x2| | |] eqn:E2; cbn [bind] in E; [|discriminate E..].
  assert (C2 : t_acb x2 = t_acb x /\ t_ccb x2 = t_ccb x /\ t_rcb x2 = t_rcb x /\ exists q, t_pubs x2 = tupd (t_pubs x) i (Some q)).
  { destruct mc; [unfold rmc_sub_packet_received in E2|unfold tcp_packet_received in E2];
      (destruct (get_spub x1 i) as [s| | |]; cbn [bind] in E2; [|discriminate E2..]; cbv zeta in E2).
    - match type of E2 with Ok ?y = _ => assert (x2 = y) as -> by congruence end. destruct (sub_oldest_unacked s =? 0); cbn; eauto 6.
    - match type of E2 with Ok ?y = _ => assert (x2 = y) as -> by congruence end. cbn; eauto 6. }
  destruct C2 as (C2 & C3 & C4 & q & C5).
  unfold process_received in E. destruct (get_spub x2 i) as [s| | |]; cbn [bind] in E; [|discriminate E..].
  destruct (sub_process s) as [s' out] eqn:Ep. cbn [bind fst snd] in E. set (puts := map _ out) in E.
  set (x3 := set_tready (put_spub x2 i s') (t_ready x2 ++ out)) in E.
  assert (A3 : all_drained x3).
  { unfold all_drained, x3. cbn [set_tready put_spub set_tpubs t_pubs]. intros j r. rewrite C5, tupd_twice. revert j r. apply drained_upd; [exact A|exact (process_drained _ _ _ Ep)]. }
  assert (Lp : forallb puts_only puts = true /\ existsb is_announce puts = false /\ existsb is_complete puts = false) by (unfold puts; clear; induction out as [|p l IH]; auto).
  destruct Lp as (Lp & Ap & Kp).
  assert (Sz : zlen (t_ready x3) =? zlen (t_ready x2) = match out with [] => true | _ => false end).
  { unfold x3. cbn [set_tready t_ready]. rewrite zlen_app. destruct out as [|p l]; [change (zlen (@nil spacket)) with 0; lia|]. rewrite zlen_cons. pose proof (zlen_nonneg l). lia. }
  rewrite Sz in E. destruct (t_rcb x) eqn:Er; cbn [andb] in E; [destruct out as [|p out]; cbn [negb] in E|].
  - match type of E with Ok (?y, ?e) = _ => assert (x' = y /\ evs = e) as [-> ->] by (split; congruence) end. split; [exact A3|]. unfold x3. cbn. split; [repeat split; congruence|]. split; [apply (notify_quiet true); reflexivity|]. split; [discriminate|reflexivity].
  - destruct (ready_cb x3 (ai_ops o)) as [[x4 e4]| | |] eqn:E4; cbn [bind fst snd] in E; [|discriminate E..].
    destruct (ready_SC _ _ _ _ E4) as (D1 & D2 & D3 & D4 & Q4).
    match type of E with Ok (?y, ?e) = _ => assert (x' = y /\ evs = e) as [-> ->] by (split; congruence) end.
    split; [unfold all_drained; rewrite D1; exact A3|]. split; [rewrite D2, D3, D4; unfold x3; cbn; repeat split; congruence|]. split.
    + apply (notify_batch (SvAlloc (ai_ptr o) (zlen bs) :: SvGot i pid mc bs :: puts) e4); [exact Lp|exact Q4|]. exists i, (sk_pid p), (peek (t_mem x2) (sk_payload p) (sk_len p)). right. right. left. reflexivity.
    + destruct (quiet_no _ Q4) as [N1 N2]. cbn [existsb is_announce is_complete orb]. rewrite !existsb_app. cbn [existsb is_announce is_complete orb]. rewrite Ap, Kp, N1, N2. split; [discriminate|reflexivity].
  - match type of E with Ok (?y, ?e) = _ => assert (x' = y /\ evs = e) as [-> ->] by (split; congruence) end. split; [exact A3|]. unfold x3. cbn. split; [repeat split; congruence|].
    split; [|rewrite Ap, Kp; split; [discriminate|reflexivity]]. rewrite forallb_forall in Lp. intros [I|[I|I]]; [discriminate I..|]. specialize (Lp _ I). discriminate Lp.
Qed.
Lemma unsub_RK x h p o x' evs : decode_unsubscribed x h p o = Ok (x', evs) -> RK true x evs x'.
Proof.
  unfold decode_unsubscribed. destruct (negb _); [intros E; injection E as <- <-; apply RK_refl|]. cbv zeta.
  set (e0 := if t_acb x then [SvAnnounce (h_ip h) (h_port h) (h_node h) p] else []).
  assert (E0 : RK true x e0 x).
  { intros A. split; [exact A|]. split; [auto|]. unfold e0. destruct (t_acb x); cbn [existsb is_announce is_complete orb]; (split; [|split; [auto; discriminate|reflexivity]]); [|apply notify_nil].
    destruct (t_rcb x); cbn; [split; intros a; intros; do 2 (destruct a; try discriminate)|intros [Q|[]]; discriminate Q]. }
  destruct (if t_acb x then mi_answer o else true).
  - destruct (connect_tcp _ _ _ _ _) as [[[[cd j] v] ce]| | |] eqn:Ec; cbn [bind]; [|discriminate..]. intros E. injection E as <- <-.
    eapply RK_trans; [exact E0|]. apply RK_same; try reflexivity. apply quiet_conn.
  - intros E. injection E as <- <-. exact E0.
Qed.
Lemma mcast_RK x src bs o code op x' evs : process_multicast_read x src bs o = Ok (code, op, x', evs) -> RK true x evs x'.
Proof.
  unfold process_multicast_read. destruct (_ <? _); [intros E; injection E as _ _ <- <-; apply RK_refl|]. cbv zeta.
  destruct (_ <? _); [intros E; injection E as _ _ <- <-; apply RK_refl|].
  set (h := if _ =? 0 then _ else _). set (pl := ztake _ _).
  assert (Un : forall cd op1 y e, (do r <- decode_unsubscribed x h pl o; Ok (0, Some RMC_READ_MULTICAST_NOT_READY, fst r, snd r)) = Ok (cd, op1, y, e) -> RK true x e y).
  { intros cd op1 y e. destruct (decode_unsubscribed x h pl o) as [[x1 e1]| | |] eqn:E1; cbn [bind fst snd]; [|discriminate..]. intros E. injection E as _ _ <- <-. exact (unsub_RK _ _ _ _ _ _ E1). }
  destruct (find_by_address _ _ _) as [[i|]| | |]; cbn [bind]; [| |discriminate..]; [|apply Un].
  destruct (slot (t_vec x) i) as [c| | |]; cbn [bind]; [|discriminate..]. destruct (c_mode c =? CONNECTING); [apply Un|].
  destruct (decode_subscribed x i h pl (mi_acc o)) as [[x1 e1]| | |] eqn:E1; cbn [bind fst snd]; [|discriminate..]. intros E. injection E as _ _ <- <-.
  unfold decode_subscribed in E1. destruct (h_pid h =? 0); [injection E1 as <- <-; apply RK_refl|]. destruct (get_spub x i) as [s| | |]; cbn [bind] in E1; try discriminate E1.
  destruct (sub_is_duplicate s (h_pid h)); [injection E1 as <- <-; apply RK_refl|]. exact (accept_RK _ _ _ _ _ _ _ _ E1).
Qed.
Lemma mread_RK ins : forall x op code op' x' evs, mread_loop x op ins = Ok (code, op', x', evs) -> RK true x evs x'.
Proof.
  induction ins as [|m ins IH]; intros x op code op' x' evs; cbn [mread_loop]; [intros E; injection E as _ _ <- <-; apply RK_refl|].
  destruct m as [|e|src bs o]; [intros E; injection E as _ _ <- <-; apply RK_refl..|]. cbv zeta.
  destruct (process_multicast_read x src _ o) as [[[[cd op1] x1] e1]| | |] eqn:E1; cbn [bind]; [|discriminate..].
  assert (V1 : RK true x (SvDgram src (ztake RMC_MAX_PACKET bs) :: e1) x1).
  { apply (RK_trans x [SvDgram src (ztake RMC_MAX_PACKET bs)] x); [apply RK_same; reflexivity|exact (mcast_RK _ _ _ _ _ _ _ _ E1)]. }
  destruct (negb (cd =? 0)); [intros E; injection E as _ _ <- <-; exact V1|].
  destruct (mread_loop x1 _ ins) as [[[[cd2 op3] x2] e2]| | |] eqn:E2; cbn [bind]; [|discriminate..]. intros E.
  match type of E with Ok (_, _, ?y, ?e) = _ => assert (x' = y /\ evs = e) as [-> ->] by (split; congruence) end.
  exact (RK_trans _ _ _ _ _ V1 (IH _ _ _ _ _ _ E2)).
Qed.
Lemma close_RK {an} x i x' evs : rmc_sub_close_connection x i = Ok (x', evs) -> RK an x evs x'.
Proof.
  unfold rmc_sub_close_connection. destruct (close_conn (t_vec x) i) as [[[cd v] ce]| | |]; cbn [bind]; [|discriminate..]. cbv zeta.
  destruct (get_spub (set_tvec x v) i) as [s| | |]; cbn [bind]; [|discriminate..]. unfold sub_reset. cbv iota beta.
  destruct (free_payloads _ _) as [f| | |] eqn:Ef; cbn [bind]; [|discriminate..]. intros E. injection E as <- <-.
  apply RK_quiet; try reflexivity; [|apply quiet_app; [apply quiet_conn|exact (frees_quiet _ _ _ Ef)]].
  intros A. unfold all_drained. cbn [set_tmem put_spub set_tpubs set_tvec t_pubs]. apply drained_upd; [exact A|exact Logic.I].
Qed.
Lemma wack_SC x i iv cd x' evs : rmc_sub_packet_interval_acknowledged x i iv = Ok (cd, x', evs) -> SC x x' evs.
Proof.
  unfold rmc_sub_packet_interval_acknowledged, write_interval_ack. destruct (slot (t_vec x) i) as [c| | |]; cbn [bind]; [|discriminate..].
  destruct (negb _); [intros E; injection E as _ <- <-; repeat split|]. destruct (write_ack _ _ _) as [[w1 w2]| | |]; cbn [bind fst snd]; [|discriminate..].
  destruct (negb (w1 =? 0)); intros E; injection E as _ <- <-; repeat split.
Qed.
Lemma ack_RK {an} l : forall x i s cd x' evs, drained s -> ack_loop x i s l = Ok (cd, x', evs) -> RK an x evs x'.
Proof.
  induction l as [|iv l IH]; intros x i s cd x' evs D; cbn [ack_loop]; [intros E; injection E as _ <- <-; apply RK_refl|]. cbv zeta.
  set (s1 := mkSP (s_ready s) (s_maxrecv s) (s_recv s) l). assert (D1 : drained s1) by exact D.
  assert (P : RK an x [] (put_spub x i s1)).
  { apply RK_quiet; try reflexivity. intros A. unfold all_drained. cbn [put_spub set_tpubs t_pubs]. apply drained_upd; [exact A|exact D1]. }
  destruct (rmc_sub_packet_interval_acknowledged (put_spub x i s1) i iv) as [[[c1 x1] e1]| | |] eqn:E1; cbn [bind]; [|discriminate..].
  pose proof (RK_trans _ _ _ _ _ P (SC_RK _ _ _ (wack_SC _ _ _ _ _ _ E1))) as Q. cbn [app] in Q.
  destruct (negb (c1 =? 0)).
  - intros E. injection E as _ <- <-. eapply RK_trans; [exact Q|]. apply RK_same; reflexivity.
  - destruct (ack_loop x1 i s1 l) as [[[c2 x2] e2]| | |] eqn:E2; cbn [bind]; [|discriminate..]. intros E. injection E as _ <- <-. exact (RK_trans _ _ _ _ _ Q (IH _ _ _ _ _ _ D1 E2)).
Qed.
Lemma timeout_RK {an} l : forall x now cd x' evs, timeout_loop x now l = Ok (cd, x', evs) -> RK an x evs x'.
Proof.
  induction l as [|i l IH]; intros x now cd x' evs; cbn [timeout_loop]; [intros E; injection E as _ <- <-; apply RK_refl|].
  destruct (get_spub x i) as [s| | |] eqn:Es; cbn [bind]; [|discriminate..]. destruct (_ <? _); [intros E; injection E as _ <- <-; apply RK_refl|].
  destruct (ack_loop x i s (s_intv s)) as [[[c1 x1] e1]| | |] eqn:E1; cbn [bind]; [|discriminate..].
  assert (Q : RK an x e1 x1) by (intros A; exact (ack_RK _ _ _ _ _ _ _ (A i s (get_spub_some _ _ _ Es)) E1 A)).
  destruct (negb (c1 =? 0)); [intros E; injection E as _ <- <-; exact Q|].
  destruct (timeout_loop (set_tack x1 l) now l) as [[[c2 x2] e2]| | |] eqn:E2; cbn [bind]; [|discriminate..]. intros E. injection E as _ <- <-.
  eapply RK_trans; [exact Q|]. apply (RK_trans x1 [] (set_tack x1 l)); [apply RK_same; reflexivity|exact (IH _ _ _ _ _ E2)].
Qed.
Lemma ctrl_SC x i p ptr cd x' evs : rmc_sub_write_control_message x i p ptr = Ok (cd, x', evs) -> SC x x' evs.
Proof.
  unfold rmc_sub_write_control_message. destruct (_ || _); [intros E; injection E as _ <- <-; repeat split|]. destruct (slot (t_vec x) i) as [c| | |]; cbn [bind]; [|discriminate..].
  destruct (negb _); [intros E; injection E as _ <- <-; repeat split|]. destruct (write_ctrl _ _ _) as [[w1 w2]| | |]; cbn [bind fst snd]; [|discriminate..].
  destruct (negb (w1 =? 0)); intros E; injection E as _ <- <-; repeat split.
Qed.
Lemma control_SC f x p ptr cd x' evs : control_by f x p ptr = Ok (cd, x', evs) -> SC x x' evs.
Proof.
  unfold control_by. destruct (_ || _); [intros E; injection E as _ <- <-; repeat split|]. destruct f as [[i|]| | |]; cbn [bind]; [| |discriminate..]; [|intros E; injection E as _ <- <-; repeat split].
  destruct (slot (t_vec x) i) as [c| | |]; cbn [bind]; [|discriminate..]. destruct (negb _); [intros E; injection E as _ <- <-; repeat split|]. apply ctrl_SC.
Qed.
(** The call of the subscription complete callback that is due in a step. *)
Definition completion (x : sctx) (set : bool) (o : yop) : list sev :=
  match o with
  | YWrite i w => match slot (t_vec x) i, sw_cmp w with
                  | Ok c, CmpOk 0 0 => if (c_mode c =? CONNECTING) && set then [SvComplete (c_addr c) (c_port c) (c_node c)] else []
                  | _, _ => []
                  end
  | _ => []
  end.
Lemma write_RK {an} x i o code op x' evs : 0 <= i -> match sw_cmp o with CmpErr e => e <> 0 | CmpOk _ _ => True end -> rmc_sub_write x i o = Ok (code, op, x', evs) ->
  exists e1, evs = e1 ++ completion x (t_ccb x) (YWrite i o) /\ RK an x e1 x'.
Proof.
  intros Hi He. unfold rmc_sub_write, completion. destruct (find_index_cases (t_vec x) i Hi) as [[-> N]|(c & -> & Ho)]; cbn [bind].
  { intros E. injection E as _ _ <- <-. exists []. split; [|apply RK_refl]. destruct (slot (t_vec x) i) as [c| | |] eqn:Es; try reflexivity.
    destruct (sw_cmp o) as [|[] []]; try reflexivity. destruct (Z.eqb_spec (c_mode c) CONNECTING) as [Q|Q]; [|reflexivity].
    exfalso. apply (N c). split; [exact Es|rewrite Q; discriminate]. }
  assert (P : RK an x [] (put_spub x i sub_init)).
  { apply RK_quiet; try reflexivity. intros A. unfold all_drained. cbn [put_spub set_tpubs t_pubs]. apply drained_upd; [exact A|exact Logic.I]. }
  destruct Ho as [Hs Ho]. rewrite Hs. destruct (Z.eqb_spec (c_mode c) CONNECTING) as [Hm|Hm]; cbv zeta.
  - destruct (complete_conn _ i _) as [[[c1 v] ce]| | |] eqn:Ec; cbn [bind]; [|discriminate..].
    assert (Hc : c1 = 0 <-> sw_cmp o = CmpOk 0 0).
    { unfold complete_conn in Ec. change (t_vec (put_spub x i sub_init)) with (t_vec x) in Ec. rewrite Hs in Ec. cbn [bind] in Ec. destruct (sw_cmp o) as [e|a b].
      - destruct (close_conn (t_vec x) i) as [[[q1 q2] q3]| | |]; cbn [bind] in Ec; try discriminate Ec. assert (c1 = e) as -> by congruence. split; [contradiction|discriminate].
      - destruct (Z.eqb_spec a 0) as [->|Na]; cbn [negb] in Ec.
        + destruct (Z.eqb_spec b 0) as [->|Nb]; cbn [negb] in Ec; [assert (c1 = 0) as -> by congruence; tauto|].
          destruct (close_conn (t_vec x) i) as [[[q1 q2] q3]| | |]; cbn [bind] in Ec; try discriminate Ec. assert (c1 = b) as -> by congruence. split; [contradiction|congruence].
        + destruct (close_conn (t_vec x) i) as [[[q1 q2] q3]| | |]; cbn [bind] in Ec; try discriminate Ec. assert (c1 = a) as -> by congruence. split; [contradiction|congruence]. }
    destruct (Z.eqb_spec c1 0) as [Q|Q]; cbn [negb].
    + intros E. injection E as _ _ <- <-. rewrite (proj1 Hc Q). exists (map SvConn ce). split; [cbn [andb]; destruct (t_ccb x); reflexivity|].
      apply (RK_trans x [] (put_spub x i sub_init) _ _ P). apply RK_same; try reflexivity; apply quiet_conn.
    + destruct (close_conn _ i) as [[[c2 v2] ce2]| | |]; cbn [bind]; [|discriminate..]. intros E. injection E as _ _ <- <-. exists (map SvConn (ce ++ ce2)). split.
      * destruct (sw_cmp o) as [|[] []]; try (rewrite app_nil_r; reflexivity). destruct (Q (proj2 Hc eq_refl)).
      * apply (RK_trans x [] (put_spub x i sub_init) _ _ P). apply RK_same; try reflexivity. apply quiet_conn.
  - assert (Z0 : forall l : list sev, l = l ++ match sw_cmp o with CmpOk 0 0 => if false && t_ccb x then [SvComplete (c_addr c) (c_port c) (c_node c)] else [] | _ => [] end) by (intros l; destruct (sw_cmp o) as [|[] []]; cbn [andb]; rewrite app_nil_r; reflexivity).
    destruct (circ_buf_in_use _ =? 0); [intros E; injection E as _ _ <- <-; exists []; split; [apply Z0|apply RK_refl]|]. destruct (tcp_write _ _) as [r| | |]; cbn [bind]; [|discriminate..]. intros E. injection E as _ _ <- <-.
    eexists. split; [apply Z0|apply RK_same; reflexivity].
Qed.
Lemma read_mcast_RK x i ins code op x' evs : rmc_sub_read x i (SrMcast ins) = Ok (code, op, x', evs) -> RK true x evs x'.
Proof.
  cbn [rmc_sub_read].
  unfold multicast_read. destruct (t_mcast x =? -1); cbn [bind]; [intros E; injection E as _ _ <- <-; apply RK_refl|].
    destruct (mread_loop x RMC_ERROR ins) as [[[[c1 op1] x1] e1]| | |] eqn:El; cbn [bind]; [|discriminate..]. intros E. injection E as _ _ <- <-.
    eapply RK_trans; [exact (mread_RK _ _ _ _ _ _ _ El)|]. apply RK_same; reflexivity.
Qed.
Lemma read_tcp_RK {an} x i t ins code op x' evs : rmc_sub_read x i (SrTcp t ins) = Ok (code, op, x', evs) -> RK an x evs x'.
Proof.
  cbn [rmc_sub_read].
  destruct (find_by_index (t_vec x) i) as [[c|]| | |]; cbn [bind]; [| |discriminate..]; [|intros E; injection E as _ _ <- <-; apply RK_refl].
    destruct (negb _); [intros E; injection E as _ _ <- <-; apply RK_refl|].
    set (got := match t with RErr => _ | _ => _ end). assert (G : forallb quiet got = true) by (unfold got; destruct t as [|[|? ?]]; reflexivity).
    destruct (tcp_read _ _ (c_rbuf c) t) as [[cd op1 [[x1 e1] ins1] rb]| | |] eqn:Et; cbn [bind]; [|discriminate..].
    assert (S : RK an x e1 x1).
    { refine (tcp_read_ok _ (fun st : tst => RK an x (snd (fst st)) (fst (fst st))) _ (x, got, ins) (c_rbuf c) t _ _ Et); [|apply RK_same; try reflexivity; exact G].
      apply sub_dispatch_ok. intros [[y1 f1] jns] hp [[y2 f2] kns] F. cbn [fst snd] in *. unfold tcp_eff. destruct jns as [|a jns]; [discriminate|].
      destruct (accept_packet y1 i (h_pid (fst hp)) (snd hp) false a) as [[y3 f3]| | |] eqn:Ea; cbn [bind fst snd]; [|discriminate..]. intros Q. injection Q as <- <- _.
      exact (RK_trans _ _ _ _ _ F (accept_RK _ _ _ _ _ _ _ _ Ea)). }
    cbn [r_st r_buf r_code r_op]. set (x2 := set_tvec x1 _).
    assert (S2 : RK an x e1 x2) by (rewrite <- (app_nil_r e1); apply (RK_trans x e1 x1); [exact S|apply RK_same; reflexivity]).
    assert (Re : forall y, RK an y [SvConn (EvMod (c_desc c) i POLLREAD POLLREAD)] y) by (intros y; apply RK_same; reflexivity).
    destruct (cd =? ENOMEM); [intros Q; injection Q as _ _ <- <-; eapply RK_trans; [exact S2|apply Re]|]. destruct (cd =? EPIPE).
    { destruct (rmc_sub_close_connection x2 i) as [[x3 e3]| | |] eqn:E3; cbn [bind fst snd]; [|discriminate..]. intros Q. injection Q as _ _ <- <-. eapply RK_trans; [exact S2|exact (close_RK _ _ _ _ E3)]. }
    destruct (process_received x2 i) as [[x3 e3]| | |] eqn:E3; cbn [bind fst snd]; [|discriminate..]. pose proof (RK_trans _ _ _ _ _ S2 (process_RK _ _ _ _ E3)) as S3.
    destruct (cd =? EPROTO).
    + destruct (rmc_sub_close_connection x3 i) as [[x4 e4]| | |] eqn:E4; cbn [bind fst snd]; [|discriminate..]. intros Q. injection Q as _ _ <- <-.
      rewrite app_assoc. eapply RK_trans; [exact S3|exact (close_RK _ _ _ _ E4)].
    + intros Q. injection Q as _ _ <- <-. rewrite app_assoc. eapply RK_trans; [exact S3|apply Re].
Qed.
Lemma drop_RK {an} l : forall x x' evs, drop_ready x l = Ok (x', evs) -> RK an x evs x'.
Proof.
  induction l as [|p l IH]; intros x x' evs; cbn [drop_ready]; [intros E; injection E as <- <-; apply RK_refl|].
  destruct (rmc_sub_packet_dispatched (set_tready x l) (sk_addr p) false) as [[[cd x1] e1]| | |] eqn:E1; cbn [bind]; [|discriminate..].
  destruct (drop_ready x1 l) as [[x2 e2]| | |] eqn:E2; cbn [bind fst snd]; [|discriminate..]. intros E. injection E as <- <-.
  apply (RK_trans x [SvDrop p] (set_tready x l)); [apply RK_same; reflexivity|]. exact (RK_trans _ _ _ _ _ (SC_RK _ _ _ (dispatched_SC _ _ _ _ _ _ E1)) (IH _ _ _ E2)).
Qed.
Lemma sclose_RK {an} n : forall x ind x' evs, sclose_loop n x ind = Ok (x', evs) -> RK an x evs x'.
Proof.
  induction n as [|n IH]; intros x ind x' evs; cbn [sclose_loop]; [intros E; injection E as <- <-; apply RK_refl|].
  destruct (find_by_index (t_vec x) ind) as [[c|]| | |]; cbn [bind]; [| |discriminate..]; [|apply IH].
  destruct (rmc_sub_close_connection x ind) as [[x1 e1]| | |] eqn:E1; cbn [bind fst snd]; [|discriminate..].
  destruct (sclose_loop n x1 (ind + 1)) as [[x2 e2]| | |] eqn:E2; cbn [bind fst snd]; [|discriminate..]. intros E. injection E as <- <-.
  exact (RK_trans _ _ _ _ _ (close_RK _ _ _ _ E1) (IH _ _ _ _ E2)).
Qed.
Definition from_mcast (o : yop) : bool := match o with YRead _ (SrMcast _) => true | _ => false end.
Lemma step_RK x log o code x' evs : (forall a c r, o <> YSetCbs a c r) -> yok x log o -> ystep x o = Ok (code, x', evs) ->
  exists e1, evs = e1 ++ completion x (t_ccb x) o /\ RK (from_mcast o) x e1 x'.
Proof.
  intros N Hok E.
  assert (J : forall an, RK an x evs x' -> completion x (t_ccb x) o = [] -> from_mcast o = an -> exists e1, evs = e1 ++ completion x (t_ccb x) o /\ RK (from_mcast o) x e1 x').
  { intros an R Q <-. exists evs. rewrite Q, app_nil_r. auto. }
  destruct o as [i [ins|q ins]|i o|now|i|a keep|ptr|i p ptr|a port p ptr|n p ptr|a c r|o|]; cbn [ystep] in E.
  - apply (J true); try reflexivity. destruct (rmc_sub_read x i _) as [[[[cd op] x1] e1]| | |] eqn:E1; cbn [bind] in E; [|discriminate E..]. injection E as _ <- <-. exact (read_mcast_RK _ _ _ _ _ _ _ E1).
  - apply (J false); try reflexivity. destruct (rmc_sub_read x i _) as [[[[cd op] x1] e1]| | |] eqn:E1; cbn [bind] in E; [|discriminate E..]. injection E as _ <- <-. exact (read_tcp_RK _ _ _ _ _ _ _ _ E1).
  - destruct (rmc_sub_write x i o) as [[[[cd op] x1] e1]| | |] eqn:E1; cbn [bind] in E; [|discriminate E..]. injection E as _ <- <-. cbn [yok] in Hok. exact (write_RK _ _ _ _ _ _ _ (proj1 (proj1 Hok)) (proj2 (proj2 Hok)) E1).
  - apply (J false); try reflexivity. exact (timeout_RK _ _ _ _ _ _ E).
  - apply (J false); try reflexivity. destruct (rmc_sub_close_connection x i) as [[x1 e1]| | |] eqn:E1; cbn [bind fst snd] in E; [|discriminate E..]. injection E as _ <- <-. exact (close_RK _ _ _ _ E1).
  - apply (J false); try reflexivity. exact (SC_RK _ _ _ (dispatched_SC _ _ _ _ _ _ E)).
  - apply (J false); try reflexivity. injection E as _ <- <-. apply RK_same; reflexivity.
  - apply (J false); try reflexivity. exact (SC_RK _ _ _ (ctrl_SC _ _ _ _ _ _ _ E)).
  - apply (J false); try reflexivity. exact (SC_RK _ _ _ (control_SC _ _ _ _ _ _ _ E)).
  - apply (J false); try reflexivity. exact (SC_RK _ _ _ (control_SC _ _ _ _ _ _ _ E)).
  - destruct (N a c r eq_refl).
  - apply (J false); try reflexivity. unfold rmc_sub_activate_context in E. destruct (negb _); [injection E as _ <- <-; apply RK_refl|]. destruct o; injection E as _ <- <-; apply RK_same; reflexivity.
  - apply (J false); try reflexivity. unfold rmc_sub_deactivate_context in E. destruct (drop_ready x (t_ready x)) as [[x1 e1]| | |] eqn:E1; cbn [bind fst snd] in E; [|discriminate E..]. cbv zeta in E.
    set (x2 := set_tmcast (set_tack x1 []) (-1)) in E. destruct (sclose_loop _ x2 0) as [[x3 e3]| | |] eqn:E3; cbn [bind fst snd] in E; [|discriminate E..]. injection E as _ <- <-.
    eapply RK_trans; [exact (drop_RK _ _ _ _ E1)|]. apply (RK_trans x1 [SvConn (EvClose (t_mcast x)); SvConn (EvRem (t_mcast x) RMC_MULTICAST_INDEX)] x2 e3 x3); [apply RK_same; reflexivity|exact (sclose_RK _ _ _ _ _ E3)].
Qed.
Lemma cbs_set_snoc ops o : cbs_set (ops ++ [o]) = cb_next (cbs_set ops) o.
Proof. unfold cbs_set. rewrite fold_left_app. reflexivity. Qed.
Lemma is_setting o : (exists a c r, o = YSetCbs a c r) \/ (forall a c r, o <> YSetCbs a c r).
Proof. destruct o; try (right; discriminate); left; eauto. Qed.
(** The context's fields are the last settings. *)
Lemma hist_cbs t x0 ops x log : fresh_sub x0 -> yhist t x0 ops x log -> cbs_set ops = (t_acb x, t_ccb x, t_rcb x).
Proof.
  intros F H. induction H as [|ops x log o code x' evs H IH Hok Hr E]; [destruct F as (node & buf & m & -> & _); reflexivity|].
  rewrite cbs_set_snoc, IH. assert (A : all_drained x) by (apply (sreached_drained t x log); exists x0, ops; auto).
  destruct (is_setting o) as [(a & c & r & ->)|N]; [cbn [ystep] in E; injection E as _ <- _; reflexivity|].
  destruct (step_RK _ _ _ _ _ _ N Hok E) as (e1 & _ & R). destruct (R A) as (_ & (-> & -> & ->) & _). destruct o; try reflexivity. destruct (N announce complete ready eq_refl).
Qed.
(** What one call does, in terms of the settings. *)
Lemma call_cbs t x0 ops x log o code x' evs : fresh_sub x0 -> yhist t x0 ops x log -> yok x log o -> ystep x o = Ok (code, x', evs) ->
  exists e1, evs = e1 ++ completion x (complete_set ops) o /\ notify (ready_set ops) e1 /\ (existsb is_announce e1 = true -> from_mcast o = true /\ announce_set ops = true) /\ existsb is_complete e1 = false.
Proof.
  intros F H Hok E. assert (A : all_drained x) by (apply (sreached_drained t x log); exists x0, ops; auto).
  unfold ready_set, announce_set, complete_set. rewrite (hist_cbs _ _ _ _ _ F H). cbn [fst snd].
  destruct (is_setting o) as [(a & c & r & ->)|N]; [cbn [ystep] in E; injection E as _ _ <-; exists []; split; [reflexivity|]; split; [apply notify_nil|]; split; [discriminate|reflexivity]|].
  destruct (step_RK _ _ _ _ _ _ N Hok E) as (e1 & Q & R). exists e1. destruct (R A) as (_ & _ & R1 & R2 & R3). auto.
Qed.
Lemma completion_one x b o : completion x b o = [] \/ exists i w c, o = YWrite i w /\ slot (t_vec x) i = Ok c /\ c_mode c = CONNECTING /\ sw_cmp w = CmpOk 0 0 /\ b = true /\ completion x b o = [SvComplete (c_addr c) (c_port c) (c_node c)].
Proof.
  destruct o; auto. cbn [completion]. destruct (slot (t_vec x) i) as [c| | |] eqn:Es; auto. destruct (sw_cmp o) as [|[] []] eqn:Ew; auto. destruct (Z.eqb_spec (c_mode c) CONNECTING) as [Q|Q]; auto. destruct b; auto.
  right. exists i, o, c. auto 10.
Qed.

(** ** C92. The callbacks *)
(** With a packet ready callback every packet that becomes ready during a call is reported by a
    call of the callback after it did, and the callback is called only when since its last call a packet became
    ready.  Without one there are no calls. *)
Theorem c92_ready : forall t x0 ops x log o code x' evs, fresh_sub x0 -> yhist t x0 ops x log -> yok x log o -> ystep x o = Ok (code, x', evs) ->
  (ready_set ops = true -> told evs /\ due_cb evs) /\ (ready_set ops = false -> ~ In SvReady evs).
Proof.
  intros t x0 ops x log o code x' evs F H Hok E. destruct (call_cbs _ _ _ _ _ _ _ _ _ F H Hok E) as (e1 & -> & N & _).
  assert (Q : notify (ready_set ops) (e1 ++ completion x (complete_set ops) o)).
  { apply notify_app; [exact N|]. destruct (completion_one x (complete_set ops) o) as [->|(i & w & c & _ & _ & _ & _ & _ & ->)]; [apply notify_nil|].
    destruct (ready_set ops); cbn; [split; intros a; intros; do 2 (destruct a; try discriminate)|intros [I|[]]; discriminate I]. }
  unfold notify in Q. destruct (ready_set ops); split; intros S; auto; discriminate S.
Qed.
(** The subscription complete callback, if it is set, is called once for each connection that is
    completed successfully, with what is known of the publisher, and otherwise never. *)
Theorem c92_complete : forall t x0 ops x log o code x' evs, fresh_sub x0 -> yhist t x0 ops x log -> yok x log o -> ystep x o = Ok (code, x', evs) ->
  (forall i w c, o = YWrite i w -> slot (t_vec x) i = Ok c -> c_mode c = CONNECTING -> sw_cmp w = CmpOk 0 0 -> complete_set ops = true ->
     filter is_complete evs = [SvComplete (c_addr c) (c_port c) (c_node c)]) /\
  (filter is_complete evs <> [] -> complete_set ops = true /\
     exists i w c, o = YWrite i w /\ slot (t_vec x) i = Ok c /\ c_mode c = CONNECTING /\ sw_cmp w = CmpOk 0 0).
Proof.
  intros t x0 ops x log o code x' evs F H Hok E. destruct (call_cbs _ _ _ _ _ _ _ _ _ F H Hok E) as (e1 & -> & _ & _ & N).
  assert (N1 : filter is_complete e1 = []) by (clear -N; induction e1 as [|e l IH]; [reflexivity|]; cbn [existsb filter] in *; destruct (is_complete e); [discriminate N|exact (IH N)]).
  rewrite filter_app, N1. cbn [app]. split.
  - intros i w c -> Hs Hm Hw Hc. cbn [completion]. rewrite Hs, Hw, Hm, Z.eqb_refl, Hc. reflexivity.
  - intros Q. destruct (completion_one x (complete_set ops) o) as [Z0|(i & w & c & E1 & E2 & E3 & E4 & E5 & _)]; [rewrite Z0 in Q; destruct (Q eq_refl)|]. split; [exact E5|]. exists i, w, c. auto.
Qed.
(** The announce callback is called only if it is set, and only while datagrams are being read. *)
Theorem c92_announce_only : forall t x0 ops x log o code x' evs ip port node bs, fresh_sub x0 -> yhist t x0 ops x log -> yok x log o -> ystep x o = Ok (code, x', evs) ->
  In (SvAnnounce ip port node bs) evs -> announce_set ops = true /\ exists i ins, o = YRead i (SrMcast ins).
Proof.
  intros t x0 ops x log o code x' evs ip port node bs F H Hok E I. destruct (call_cbs _ _ _ _ _ _ _ _ _ F H Hok E) as (e1 & -> & _ & N & _).
  apply in_app_or in I. destruct I as [I|I].
  - destruct N as [N1 N2]; [apply existsb_exists; exists (SvAnnounce ip port node bs); auto|]. split; [exact N2|]. destruct o; try discriminate N1. destruct o; [eauto|discriminate N1].
  - destruct (completion_one x (complete_set ops) o) as [Z0|(i & w & c & _ & _ & _ & _ & _ & Z0)]; rewrite Z0 in I; [destruct I|destruct I as [I|[]]; discriminate I].
Qed.
(** For a datagram it is called, exactly once and with the origin, the node id and the payload of the datagram,
    when that is a well-formed announce of a publisher to which no connection is established. *)
Lemma no_announce x i pid bs mc o x' evs : all_drained x -> accept_packet x i pid bs mc o = Ok (x', evs) -> filter is_announce evs = [].
Proof.
  intros A E. destruct (@accept_RK false _ _ _ _ _ _ _ _ E A) as (_ & _ & _ & N & _). clear -N. induction evs as [|e l IH]; [reflexivity|].
  cbn [existsb filter] in *. destruct (is_announce e); [destruct (N eq_refl); discriminate|apply IH; exact N].
Qed.
Lemma filter_conn_ann ce : filter is_announce (map SvConn ce) = [].
Proof. induction ce; auto. Qed.
Theorem c92_announce : forall t x0 ops x log i src bs m code op x' evs, fresh_sub x0 -> yhist t x0 ops x log -> t_mcast x <> -1 ->
  rmc_sub_read x i (SrMcast [McData src bs m]) = Ok (code, op, x', evs) ->
  let d := seen bs in let ap := origin src d in
  (announce_set ops = true -> ~ malformed d -> h_pid (dec_header d) = 0 -> (forall j c, leads x j c ap -> c_mode c <> CONNECTED) ->
     filter is_announce evs = [SvAnnounce (fst ap) (snd ap) (h_node (dec_header d)) (carried d)]) /\
  (announce_set ops = false \/ malformed d \/ h_pid (dec_header d) <> 0 \/ (single_conns x /\ exists j c, leads x j c ap /\ c_mode c = CONNECTED) ->
     filter is_announce evs = []).
Proof.
  intros t x0 ops x log i src bs m code op x' evs F H Hm E d ap. assert (R : sreached t x log) by (exists x0, ops; auto). pose proof (sreached_drained t x log R) as A.
  destruct (sreached_inv t x log R) as (B & _). replace (announce_set ops) with (t_acb x) by (unfold announce_set; rewrite (hist_cbs _ _ _ _ _ F H); reflexivity).
  cbn [rmc_sub_read] in E. unfold multicast_read in E. replace (t_mcast x =? -1) with false in E by lia. cbn [mread_loop] in E. cbv zeta in E. change (ztake RMC_MAX_PACKET bs) with (seen bs) in E.
  change (seen bs) with d in E.
  destruct (process_multicast_read x src d m) as [[[[cd op1] x1] e1]| | |] eqn:E1; cbn [bind] in E; [|discriminate E..].
  assert (Fe : filter is_announce evs = filter is_announce e1).
  { destruct (negb (cd =? 0)); cbn [bind] in E; match type of E with Ok (_, _, _, ?e) = _ => assert (evs = e) as -> by congruence end; [cbn [app filter is_announce]|rewrite app_nil_r]; cbn [app filter is_announce]; rewrite filter_app; cbn [filter is_announce]; rewrite app_nil_r; reflexivity. }
  rewrite Fe. clear E Fe. destruct (process_code _ _ _ _ _ _ _ _ E1) as [[Hf _]|[W _]].
  { rewrite (process_malformed x src d m Hf) in E1. assert (e1 = []) as -> by congruence. split; [intros _ N; contradiction|reflexivity]. }
  destruct (process_cases x src d m B W) as [(j & c & Hl & Hc & _ & Ep)|[Hn Ep]]; rewrite Ep in E1; clear Ep; fold ap in Hl || fold ap in Hn.
  - split; [intros _ _ _ N; destruct (N j c Hl Hc)|]. intros _. destruct (h_pid (dec_header d) =? 0); [assert (e1 = []) as -> by congruence; reflexivity|].
    destruct (get_spub x j) as [s| | |]; cbn [bind] in E1; [|discriminate E1..]. destruct (sub_is_duplicate s _); [assert (e1 = []) as -> by congruence; reflexivity|].
    destruct (accept_packet x j _ (carried d) true (mi_acc m)) as [[x2 e2]| | |] eqn:Ea; cbn [bind fst snd] in E1; [|discriminate E1..]. assert (e1 = e2) as -> by congruence. exact (no_announce _ _ _ _ _ _ _ _ A Ea).
  - destruct (Z.eqb_spec (h_pid (dec_header d)) 0) as [Hz|Hz]; cbn [negb] in E1; [|assert (e1 = []) as -> by congruence; split; [intros _ _ Q; contradiction|reflexivity]].
    cbv zeta in E1. fold ap in E1.
    assert (Fe : filter is_announce e1 = if t_acb x then [SvAnnounce (fst ap) (snd ap) (h_node (dec_header d)) (carried d)] else []).
    { destruct (if t_acb x then mi_answer m else true).
      - destruct (connect_tcp _ _ _ _ _) as [[[[q1 q2] q3] q4]| | |]; cbn [bind] in E1; [|discriminate E1..]. match type of E1 with Ok (_, _, _, ?e) = _ => assert (e1 = e) as -> by congruence end.
        rewrite filter_app, filter_conn_ann, app_nil_r. destruct (t_acb x); reflexivity.
      - match type of E1 with Ok (_, _, _, ?e) = _ => assert (e1 = e) as -> by congruence end. destruct (t_acb x); reflexivity. }
    rewrite Fe. split; [intros -> _ _ _; reflexivity|]. intros [->|[Q|[Q|(Sg & j & c & Hl & Hc)]]]; [reflexivity|contradiction|contradiction|]. exfalso.
    destruct Hn as [(k & e & Hk & Hke & _)|Hn]; [|exact (Hn j c Hl)]. pose proof (Sg _ _ _ _ _ Hl Hk) as ->. destruct Hl as (Hl & _), Hk as (Hk & _). assert (c = e) as -> by congruence. rewrite Hke in Hc. discriminate Hc.
Qed.

(** ** The publisher's control message callback *)
Definition is_ctrl (e : pev) : bool := match e with PvCtrl _ _ _ _ => true | _ => false end.
Definition KC (b : bool) (x : pctx) (evs : list pev) (x' : pctx) : Prop :=
  x_ccb x' = x_ccb x /\ (existsb is_ctrl evs = true -> b = true /\ x_ccb x = FpSet).
Lemma KC_trans {b} x y z e1 e2 : KC b x e1 y -> KC b y e2 z -> KC b x (e1 ++ e2) z.
Proof. intros [A1 A2] [B1 B2]. split; [congruence|]. rewrite existsb_app. intros E. apply orb_true_iff in E. destruct E as [E|E]; [auto|]. rewrite <- A1. auto. Qed.
Lemma KC_quiet {b} x evs x' : x_ccb x' = x_ccb x -> existsb is_ctrl evs = false -> KC b x evs x'.
Proof. intros A B. split; [exact A|]. rewrite B. discriminate. Qed.
Lemma noctrl_conn ce : existsb is_ctrl (map PvConn ce) = false.
Proof. induction ce; auto. Qed.
Lemma noctrl_release l : forall m r, release_all m l = Ok r -> existsb is_ctrl (snd r) = false.
Proof.
  induction l as [|[[p n] u] l IH]; intros m r; cbn [release_all]; [intros E; injection E as <-; reflexivity|]. destruct (m p); [|discriminate].
  destruct (release_all _ l) as [q| | |] eqn:Eq; cbn [bind]; [|discriminate..]. intros E. injection E as <-. cbn. exact (IH _ _ Eq).
Qed.
Ltac kc := apply KC_quiet; reflexivity.
Lemma packet_ack_KC {b} x i k x' evs : rmc_pub_packet_ack x i k = Ok (x', evs) -> KC b x evs x'.
Proof.
  unfold rmc_pub_packet_ack. destruct (pub_packet_ack _ _ _) as [r| | |]; cbn [bind]; [|discriminate..]. destruct (release_all _ _) as [f| | |] eqn:Ef; cbn [bind]; [|discriminate..]. cbv zeta.
  intros E. injection E as <- <-. apply KC_quiet; [destruct (_ && _); reflexivity|exact (noctrl_release _ _ _ Ef)].
Qed.
Lemma rounds_KC {b} i : forall n x k x' evs, ack_rounds n x i k = Ok (x', evs) -> KC b x evs x'.
Proof.
  induction n as [|n IH]; intros x k x' evs E; cbn [ack_rounds] in E; [assert (x' = x /\ evs = []) as [-> ->] by (split; congruence); kc|].
  destruct (rmc_pub_packet_ack x i k) as [[x1 e1]| | |] eqn:E1; cbn [bind fst snd] in E; [|discriminate E..].
  destruct (ack_rounds n x1 i (k + 1)) as [[x2 e2]| | |] eqn:E2; cbn [bind fst snd] in E; [|discriminate E..].
  assert (x' = x2 /\ evs = e1 ++ e2) as [-> ->] by (split; congruence). exact (KC_trans _ _ _ _ _ (packet_ack_KC _ _ _ _ _ E1) (IH _ _ _ _ E2)).
Qed.
Lemma resend_KC {b} x i a code x' evs : rmc_pub_resend_packet x i a = Ok (code, x', evs) -> KC b x evs x'.
Proof.
  unfold rmc_pub_resend_packet. destruct (slot (x_vec x) i) as [c| | |] eqn:Hs; cbn [bind]; [|discriminate..]. destruct (get_pack _ _) as [p| | |]; cbn [bind]; [|discriminate..].
  match goal with |- context [bind ?h _] => destruct h as [w| | |] end; cbn [bind]; [|discriminate..].
  destruct (_ =? 0); intros E; injection E as _ <- <-; kc.
Qed.
Lemma sent_timeout_KC {b} x i a code x' evs : process_sent_packet_timeout x i a = Ok (code, x', evs) -> KC b x evs x'.
Proof.
  unfold process_sent_packet_timeout. destruct (slot (x_vec x) i) as [c| | |] eqn:Hs; cbn [bind]; [|discriminate..]. destruct (get_pack _ _) as [p| | |]; cbn [bind]; [|discriminate..].
  destruct (negb _).
  - destruct (rmc_pub_packet_ack x i _) as [[x1 e1]| | |] eqn:E1; cbn [bind fst snd]; [|discriminate..]. intros E. assert (x' = x1 /\ evs = e1) as [-> ->] by (split; congruence). exact (packet_ack_KC _ _ _ _ _ E1).
  - destruct (rmc_pub_resend_packet x i a) as [[[cd x1] e1]| | |] eqn:E1; cbn [bind]; [|discriminate..]. pose proof (@resend_KC b _ _ _ _ _ _ E1) as K1. destruct (cd =? 0).
    + destruct (rmc_pub_packet_ack x1 i _) as [[x2 e2]| | |] eqn:E2; cbn [bind fst snd]; [|discriminate..]. intros E. assert (x' = x2 /\ evs = e1 ++ e2) as [-> ->] by (split; congruence). exact (KC_trans _ _ _ _ _ K1 (packet_ack_KC _ _ _ _ _ E2)).
    + intros E. assert (x' = x1 /\ evs = e1) as [-> ->] by (split; congruence). exact K1.
Qed.
Lemma resend_loop_KC {b} i : forall packs x code x' evs, resend_loop x i packs = Ok (code, x', evs) -> KC b x evs x'.
Proof.
  induction packs as [|a packs IH]; intros x code x' evs; cbn [resend_loop]; [intros E; injection E as _ <- <-; kc|].
  destruct (process_sent_packet_timeout x i a) as [[[cd x1] e1]| | |] eqn:E1; cbn [bind]; [|discriminate..]. pose proof (@sent_timeout_KC b _ _ _ _ _ _ E1) as K1.
  destruct (negb _); [intros E; injection E as _ <- <-; exact K1|]. destruct (resend_loop x1 i packs) as [[[cd2 x2] e2]| | |] eqn:E2; cbn [bind]; [|discriminate..].
  intros E. injection E as _ <- <-. exact (KC_trans _ _ _ _ _ K1 (IH _ _ _ _ E2)).
Qed.
Lemma subs_loop_KC {b} now : forall subs x code x' evs, subs_loop x now subs = Ok (code, x', evs) -> KC b x evs x'.
Proof.
  induction subs as [|a subs IH]; intros x code x' evs; cbn [subs_loop]; [intros E; injection E as _ <- <-; kc|].
  unfold process_subscriber_timeout. destruct (pub_get_timed_out_packets _ _ _ _) as [packs| | |]; cbn [bind]; [|discriminate..].
  destruct (resend_loop x (Z.of_nat a) packs) as [[[cd x1] e1]| | |] eqn:E1; cbn [bind]; [|discriminate..]. pose proof (@resend_loop_KC b _ _ _ _ _ _ E1) as K1.
  destruct (negb _); [intros E; injection E as _ <- <-; exact K1|]. destruct (subs_loop x1 now subs) as [[[cd2 x2] e2]| | |] eqn:E2; cbn [bind]; [|discriminate..].
  intros E. injection E as _ <- <-. exact (KC_trans _ _ _ _ _ K1 (IH _ _ _ _ E2)).
Qed.
Lemma queue_KC {b} x p l a code x' evs : rmc_pub_queue_packet x p l a = Ok (code, x', evs) -> KC b x evs x'.
Proof.
  unfold rmc_pub_queue_packet. destruct (_ =? _); [intros E; injection E as _ <- <-; kc|]. destruct (_ <? _); [intros E; injection E as _ <- <-; kc|].
  destruct (x_susp x); [intros E; injection E as _ <- <-; kc|]. match goal with |- context [bind ?h _] => destruct h as [w| | |] end; cbn [bind]; [|discriminate..].
  cbv zeta. intros E. injection E as _ <- <-. destruct (_ && _); kc.
Qed.
Lemma send_KC {b} x a o code x' evs : send_single_multicast_packet x a o = Ok (code, x', evs) -> KC b x evs x'.
Proof.
  unfold send_single_multicast_packet. destruct (_ =? _); [intros E; injection E as _ <- <-; kc|]. destruct (get_pack _ _) as [p| | |]; cbn [bind]; [|discriminate..].
  destruct (_ <? _); [intros E; injection E as _ <- <-; kc|]. destruct (load _ _ _) as [bs| | |]; cbn [bind]; [|discriminate..]. destruct o as [e|ts].
  - destruct (_ =? _); intros E; injection E as _ <- <-; kc.
  - destruct (pub_packet_sent _ _ _) as [s| | |]; cbn [bind]; [|discriminate..]. intros E. injection E as _ <- <-. kc.
Qed.
Lemma mcast_KC {b} : forall outs x code x' evs, process_multicast_write x outs = Ok (code, x', evs) -> KC b x evs x'.
Proof.
  induction outs as [|o outs IH]; intros x code x' evs; cbn [process_multicast_write]; (destruct (pub_next_queued (x_pub x)) as [a|]; [|intros E; injection E as _ <- <-; kc]).
  - apply send_KC.
  - destruct (send_single_multicast_packet x a o) as [[[cd x1] e1]| | |] eqn:E1; cbn [bind]; [|discriminate..]. pose proof (@send_KC b _ _ _ _ _ _ E1) as K1.
    destruct (negb _); [intros E; injection E as _ <- <-; exact K1|]. destruct (process_multicast_write x1 outs) as [[[cd2 x2] e2]| | |] eqn:E2; cbn [bind]; [|discriminate..].
    intros E. injection E as _ <- <-. exact (KC_trans _ _ _ _ _ K1 (IH _ _ _ _ E2)).
Qed.
Lemma ptimeout_KC {b} x now buf o code x' evs : rmc_pub_timeout_process x now buf o = Ok (code, x', evs) -> KC b x evs x'.
Proof.
  unfold rmc_pub_timeout_process. destruct (announce_due x now).
  - destruct (match o with AnnNone => _ | AnnNo => _ | AnnYes bs len => _ end) as [[bs len] send].
    match goal with |- context [bind ?h _] => destruct h as [[[cd x2] e2]| | |] eqn:E2 end; cbn [bind]; [|discriminate..].
    assert (K : KC b x e2 x2). { destruct send; [exact (queue_KC _ _ _ _ _ _ _ E2)|]. injection E2 as _ <- <-. kc. }
    intros E. injection E as _ <- <-. exact K.
  - destruct (pub_get_timed_out_subscribers _ _ _) as [subs| | |]; cbn [bind]; [|discriminate..]. apply subs_loop_KC.
Qed.
Lemma eff_ack_KC x i st iv st' : KC true x (snd st) (fst st) -> eff_ack i st iv = Ok st' -> KC true x (snd st') (fst st').
Proof.
  intros H. unfold eff_ack, ack_interval. destruct (_ && _); [discriminate|]. destruct (ack_rounds _ _ _ _) as [[x1 e1]| | |] eqn:E1; cbn [bind fst snd]; [|discriminate..]. intros E. injection E as <-. cbn [fst snd].
  apply (KC_trans _ (fst st) _ _ _ H). apply (KC_trans _ (fst st) _ [_]); [kc|exact (rounds_KC _ _ _ _ _ _ E1)].
Qed.
Lemma eff_ctrl_KC x i st p st' : KC true x (snd st) (fst st) -> eff_ctrl i st p = Ok st' -> KC true x (snd st') (fst st').
Proof.
  intros H. unfold eff_ctrl. destruct (x_ccb (fst st)) eqn:Ec; [discriminate|intros E; injection E as <-; auto|]. destruct (slot _ _) as [c| | |]; cbn [bind]; [|discriminate..]. intros E. injection E as <-. cbn [fst snd].
  apply (KC_trans _ (fst st) _ _ _ H). split; [reflexivity|]. intros _. auto.
Qed.
Lemma pclose_KC {b} x i code x' evs : rmc_pub_close_connection x i = Ok (code, x', evs) -> KC b x evs x'.
Proof.
  unfold rmc_pub_close_connection. destruct (find_by_index (x_vec x) i) as [[c|]| | |]; cbn [bind]; [| |discriminate..]; [|intros E; injection E as _ <- <-; kc].
  destruct (close_conn _ i) as [[[q v] ce]| | |]; cbn [bind]; [|discriminate..]. destruct (pub_reset_subscriber _ _) as [[s fr]| | |]; cbn [bind fst snd]; [|discriminate..].
  destruct (release_all _ _) as [[m e]| | |] eqn:Er; cbn [bind fst snd]; [|discriminate..]. intros E. injection E as _ <- <-. apply KC_quiet; [reflexivity|].
  cbn [existsb is_ctrl orb]. rewrite existsb_app, noctrl_conn. exact (noctrl_release _ _ _ Er).
Qed.
Lemma close_loop_KC {b} : forall n x ind x' evs, close_loop n x ind = Ok (x', evs) -> KC b x evs x'.
Proof.
  induction n as [|n IH]; intros x ind x' evs; cbn [close_loop]; [intros E; injection E as <- <-; kc|].
  destruct (find_by_index _ _) as [[c|]| | |]; cbn [bind]; [| |discriminate..]; [|apply IH].
  destruct (rmc_pub_close_connection x ind) as [[[cd x1] e1]| | |] eqn:E1; cbn [bind]; [|discriminate..]. destruct (close_loop n x1 (ind + 1)) as [[x2 e2]| | |] eqn:E2; cbn [bind fst snd]; [|discriminate..].
  intros E. injection E as <- <-. exact (KC_trans _ _ _ _ _ (pclose_KC _ _ _ _ _ E1) (IH x1 (ind + 1) x2 e2 E2)).
Qed.
Lemma pread_KC x i o code op x' evs : rmc_pub_read x i o = Ok (code, op, x', evs) -> KC (match o with RdTcp _ => true | _ => false end) x evs x'.
Proof.
  destruct o as [a cb|err|t]; cbn [rmc_pub_read].
  - destruct (process_accept _ _ _) as [[[[cd j] v] ce]| | |]; cbn [bind]; [|discriminate..].
    destruct (negb (cd =? 0)); [intros E; injection E as _ _ <- <-; apply KC_quiet; [reflexivity|apply noctrl_conn]|].
    destruct j as [j|]; [|discriminate]. destruct (find_by_index v j) as [[c|]| | |]; cbn [bind]; [| |discriminate..].
    + cbv zeta. destruct cb as [[|]|].
      * intros E. injection E as _ _ <- <-. apply KC_quiet; [reflexivity|]. rewrite existsb_app. rewrite noctrl_conn. reflexivity.
      * match goal with |- context [rmc_pub_close_connection ?y j] => destruct (rmc_pub_close_connection y j) as [[[cd2 x2] e2]| | |] eqn:E2 end; cbn [bind]; [|discriminate..]. intros E. injection E as _ _ <- <-.
        destruct (@pclose_KC false _ _ _ _ _ E2) as [K1 K2]. split; [exact K1|]. intros Q. rewrite existsb_app in Q. rewrite noctrl_conn in Q. cbn [existsb is_ctrl orb] in Q. destruct (K2 Q); auto.
      * intros E. injection E as _ _ <- <-. apply KC_quiet; [reflexivity|]. rewrite ?existsb_app. rewrite noctrl_conn. reflexivity.
    + intros E. discriminate E.
  - destruct (x_mcast x =? -1); [intros E; injection E as _ _ <- <-; kc|]. destruct err; intros E; injection E as _ _ <- <-; kc.
  - destruct (find_by_index (x_vec x) i) as [[c|]| | |]; cbn [bind]; [| |discriminate..]; [|intros E; injection E as _ _ <- <-; kc].
    destruct (negb (c_mode c =? CONNECTED)); [intros E; injection E as _ _ <- <-; kc|].
    destruct (tcp_read _ _ (c_rbuf c) t) as [r| | |] eqn:Er; cbn [bind]; [|discriminate..].
    assert (K0 : KC true x [] x) by kc.
    pose proof (tcp_read_ok (pub_dispatch (eff_ack i) (ccb_set x) (eff_ctrl i)) (fun st => KC true x (snd st) (fst st))
      (pub_dispatch_ok _ _ _ _ (fun st iv st' => eff_ack_KC x i st iv st') (fun st p st' => eff_ctrl_KC x i st p st')) (x, []) (c_rbuf c) t r K0 Er) as K.
    destruct (r_st r) as [x1 e1]. cbn [fst snd] in *. destruct (r_code r =? EPIPE).
    + destruct (rmc_pub_close_connection _ i) as [[[cd x2] e2]| | |] eqn:E2; cbn [bind]; [|discriminate..]. intros E. injection E as _ _ <- <-.
      apply (KC_trans x x1 _ _ _ K). exact (KC_trans x1 (set_vec x1 (put_slot (x_vec x1) i (set_rbuf c (r_buf r)))) _ [] e2 ltac:(kc) (pclose_KC _ _ _ _ _ E2)).
    + intros E. injection E as _ _ <- <-. apply (KC_trans x x1 _ _ _ K). kc.
Qed.
Definition from_tcp (o : xop) : bool := match o with XRead _ (RdTcp _) => true | _ => false end.
Lemma pstep_KC x o code x' evs : (forall b, o <> XSetCtrl b) -> xstep x o = Ok (code, x', evs) -> KC (from_tcp o) x evs x'.
Proof.
  intros N E. destruct o as [ptr bs|ptr|ptr len ann|i o|i [outs|w]|now buf o|i|interval now|s r|bb|o|]; cbn [xstep] in E.
  - injection E as _ <- <-. kc.
  - injection E as _ <- <-. kc.
  - exact (queue_KC _ _ _ _ _ _ _ E).
  - destruct (rmc_pub_read x i o) as [[[[cd op] x1] e1]| | |] eqn:Ed; cbn [bind] in E; [|discriminate E..]. injection E as _ <- <-. exact (pread_KC _ _ _ _ _ _ _ Ed).
  - cbn [rmc_pub_write] in E. destruct (process_multicast_write x outs) as [[[cd x1] e1]| | |] eqn:Ed; cbn [bind] in E; [|discriminate E..]. injection E as _ <- <-. exact (mcast_KC _ _ _ _ _ Ed).
  - cbn [rmc_pub_write] in E. destruct (_ <=? i); [cbn [bind] in E; injection E as _ <- <-; kc|]. destruct (find_by_index _ _) as [[c|]| | |]; cbn [bind] in E; [| |discriminate E..]; [|injection E as _ <- <-; kc].
    destruct (negb (c_mode c =? CONNECTED)); [cbn [bind] in E; injection E as _ <- <-; kc|]. destruct (circ_buf_in_use (c_wbuf c) =? 0); [cbn [bind] in E; injection E as _ <- <-; kc|].
    destruct (tcp_write (c_wbuf c) w) as [r| | |]; cbn [bind] in E; [|discriminate E..]. injection E as _ <- <-. kc.
  - exact (ptimeout_KC _ _ _ _ _ _ _ E).
  - exact (pclose_KC _ _ _ _ _ E).
  - injection E as _ <- <-. unfold rmc_pub_set_announce_interval. kc.
  - unfold rmc_pub_throttling in E. destruct (s <? r); injection E as _ <- <-; kc.
  - destruct (N bb eq_refl).
  - unfold rmc_pub_activate_context in E. destruct o as [e ds ea|m l port]; injection E as _ <- <-.
    + rewrite <- (map_map EvOpen PvConn ds), <- (map_map EvClose PvConn (ds ++ _)). apply KC_quiet; [reflexivity|]. rewrite existsb_app, !noctrl_conn. reflexivity.
    + apply KC_quiet; [destruct (x_lport x =? 0); reflexivity|reflexivity].
  - unfold rmc_pub_deactivate_context in E. match type of E with context [bind ?h _] => destruct h as [[x2 e2]| | |] eqn:E2 end; cbn [bind fst snd] in E; [|discriminate E..].
    assert (P : KC false x e2 x2). { destruct (_ =? _); [injection E2 as <- <-; kc|exact (close_loop_KC _ _ 0 _ _ E2)]. }
    injection E as _ <- <-. apply (KC_trans x x _ [PvConn (EvRem (x_mcast x) RMC_MULTICAST_INDEX); PvConn (EvRem (x_listen x) RMC_LISTEN_INDEX)]); [kc|]. apply (KC_trans x x2 _ _ _ P). kc.
Qed.
Lemma ctrl_set_snoc ops o : ctrl_set (ops ++ [o]) = ctrl_next (ctrl_set ops) o.
Proof. unfold ctrl_set. rewrite fold_left_app. reflexivity. Qed.
Lemma is_ctrl_setting o : (exists b, o = XSetCtrl b) \/ (forall b, o <> XSetCtrl b).
Proof. destruct o; try (right; discriminate); left; eauto. Qed.
Lemma hist_ccb x0 ops x g log : fresh_ctx x0 -> xhist x0 ops x g log -> (x_ccb x = FpSet <-> ctrl_set ops = true).
Proof.
  intros F H. induction H as [|ops x g log o code x' evs H IH Hok E]; [destruct F as (node & lip & lport & buf & m & -> & _); split; discriminate|].
  rewrite ctrl_set_snoc. destruct (is_ctrl_setting o) as [[b ->]|N].
  - cbn [xstep] in E. injection E as _ <- _. cbn. destruct b; split; congruence.
  - destruct (pstep_KC _ _ _ _ _ N E) as [-> _]. rewrite IH. destruct o; try reflexivity. destruct (N set eq_refl).
Qed.
(** A control message is handed to the callback only if one is set at the time, and only while a
    control connection is read.  That each message then is handed over is C65. *)
Theorem c92_pub_ctrl : forall x0 ops x g log o code x' evs a p n bs, fresh_ctx x0 -> xhist x0 ops x g log -> xstep x o = Ok (code, x', evs) ->
  In (PvCtrl a p n bs) evs -> ctrl_set ops = true /\ exists i t, o = XRead i (RdTcp t).
Proof.
  intros x0 ops x g log o code x' evs a p n bs F H E I. destruct (is_ctrl_setting o) as [[b ->]|N]; [cbn [xstep] in E; injection E as _ _ <-; destruct I|].
  destruct (pstep_KC _ _ _ _ _ N E) as [_ K]. destruct K as [K1 K2]; [apply existsb_exists; exists (PvCtrl a p n bs); auto|].
  split; [apply (hist_ccb _ _ _ _ _ F H); exact K2|]. destruct o; try discriminate K1. destruct o; try discriminate K1. eauto.
Qed.

(** All callbacks set; a publisher announces itself, is connected, sends 5, 7 and 6; then the callbacks are
    removed and it sends 8. *)
Definition c92_ops : list yop :=
  [YSetCbs true true true; YActivate (SaOk 3); mcast_in [ann 4]; establish 0;
   mcast_in [data 5 [50; 51] 100 1000 []; data 7 [70] 200 1100 []; data 6 [60] 300 1200 [(0%nat, false)]];
   YSetCbs true true false; mcast_in [data 8 [80] 400 1300 []]].
Definition tag (e : sev) : list (Z * Z) :=
  match e with
  | SvAnnounce ip port _ _ => [(1, port)] | SvComplete ip port _ => [(2, port)] | SvPut _ pid _ => [(3, pid)] | SvReady => [(4, 0)] | _ => []
  end.
Definition zz_dec : forall a b : Z * Z, {a = b} + {a <> b}.
Proof. decide equality; apply Z.eq_dec. Defined.
Example c92_witness : exists x log, yhist true sdemo0 c92_ops x log /\ ready_set c92_ops = false /\ complete_set c92_ops = true /\
  flat_map tag log = [(1, 4711); (2, 4711); (3, 5); (4, 0); (3, 6); (3, 7); (4, 0); (3, 8)].
Proof.
  destruct (ycheck_hist true sdemo0 c92_ops (fun x log => if list_eq_dec zz_dec (flat_map tag log) [(1, 4711); (2, 4711); (3, 5); (4, 0); (3, 6); (3, 7); (4, 0); (3, 8)] then true else false)) as (x & log & H & E); [vm_compute; reflexivity|].
  exists x, log. split; [exact H|]. split; [reflexivity|]. split; [reflexivity|]. destruct (list_eq_dec _ _ _); [assumption|discriminate].
Qed.
(** A control message with the callback set. *)
Example c92_pub_witness : exists x g log, xhist demo0 (demo_ops ++ [XSetCtrl true; XRead 0 (RdTcp (RData (wire (CmdCtrl [1; 2]))))]) x g log /\ exists a p n bs, In (PvCtrl a p n bs) log.
Proof.
  destruct (xcheck_hist demo0 (demo_ops ++ [XSetCtrl true; XRead 0 (RdTcp (RData (wire (CmdCtrl [1; 2]))))]) (fun x g log => existsb is_ctrl log)) as (x & g & log & H & E); [vm_compute; reflexivity|].
  exists x, g, log. split; [exact H|]. apply existsb_exists in E. destruct E as (e & I & Q). destruct e; try discriminate. eauto.
Qed.

Print Assumptions c92_ready. Print Assumptions c92_complete. Print Assumptions c92_announce_only. Print Assumptions c92_announce. Print Assumptions c92_pub_ctrl.
