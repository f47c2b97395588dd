(** PropIso.v — C95: what happens on one connection does not disturb the others. *)
From Verif Require Import Base CircBuf CircBufProofs Wire ListHeap SeqList Pub SpecPub PubProofs PubTrace Proto SpecProto ProtoProofs
  Sub SpecSub SubProofs Conn SpecConn ConnProofs Safe PubCtx SpecPubCtx PubCtxProofs PubCtxSteps PubCtxOwed PropPubCtx PropPubTime
  SubCtx SpecSubCtx SubSteps SubMem SubInv PropSubCtx PubRecv PollSub Desc Loop SpecLoop LoopPub LoopSub.

(** ** Specification *)
(** An effect of the library on connection [j]: bytes put on its socket, an acknowledgement
    taken from it, its socket added to, changed in or removed from what the application
    polls; or a datagram multicast, which every subscriber gets. *)
Definition concerns (j : Z) (e : pev) : Prop :=
  match e with
  | PvTcp i _ | PvAck i _ _ => i = j
  | PvConn (EvAdd _ i _) | PvConn (EvMod _ i _ _) | PvConn (EvRem _ i) => i = j
  | PvCast _ _ => True
  | _ => False
  end.
(** The calls for one connection: reading from it, writing to it, closing it; and the calls
    for the listening socket and for reading from the multicast socket, which are about no
    open connection. *)
Definition only_for (o : xop) (i : Z) : Prop :=
  match o with
  | XRead j (RdTcp _) | XWrite j (WrTcp _) | XClose j => j = i
  | XRead _ _ => True
  | _ => False
  end.

(** ** The publisher's packets *)
Definition JF (i : Z) (sp : spec) (Q : list (nat * (Z * pl))) (x' : pctx) : Prop :=
  exists sp' L', Inv (x_pub x') sp' L' Q /\ sp_ann sp' = sp_ann sp /\ sp_data sp' = sp_data sp /\
    forall m k ts, m <> Z.to_nat i -> claim sp' m k ts <-> claim sp m k ts.
Definition JA (i : Z) (x x' : pctx) : Prop :=
  forall sp L Q, Inv (x_pub x) sp L Q -> exists sp' L', Inv (x_pub x') sp' L' Q /\ sp_ann sp' = sp_ann sp /\ sp_data sp' = sp_data sp /\ sp_reg sp' = sp_reg sp /\
    forall m k ts, m <> Z.to_nat i -> claim sp' m k ts <-> claim sp m k ts.
Lemma JA_same i x x' : x_pub x' = x_pub x -> JA i x x'.
Proof. intros E sp L Q I. exists sp, L. rewrite E. tauto. Qed.
Lemma JA_trans i x y z : JA i x y -> JA i y z -> JA i x z.
Proof.
  intros A B sp L Q I. destruct (A _ _ _ I) as (s1 & L1 & I1 & A1 & A2 & A3 & A4). destruct (B _ _ _ I1) as (s2 & L2 & I2 & B1 & B2 & B3 & B4).
  exists s2, L2. split; [exact I2|]. split; [congruence|]. split; [congruence|]. split; [congruence|]. intros m k ts N. rewrite (B4 m k ts N). exact (A4 m k ts N).
Qed.
Lemma JA_JF i x x' sp L Q : Inv (x_pub x) sp L Q -> JA i x x' -> JF i sp Q x'.
Proof. intros I A. destruct (A _ _ _ I) as (s1 & L1 & I1 & A1 & A2 & A3 & A4). exists s1, L1. auto. Qed.
Lemma JF_owed i x x' sp L Q : Inv (x_pub x) sp L Q -> JF i sp Q x' -> 0 <= i -> (forall j k ts, 0 <= j -> j <> i -> owed x' j k ts <-> owed x j k ts) /\ queued x' = queued x.
Proof.
  intros I (s1 & L1 & I1 & A1 & A2 & A3) Hi. split.
  - intros j k ts Hj N. rewrite (owed_inv _ _ _ _ _ _ _ I1), (owed_inv _ _ _ _ _ _ _ I). apply A3. lia.
  - rewrite (queued_spec _ _ _ _ I1), (queued_spec _ _ _ _ I), A1, A2. reflexivity.
Qed.

Lemma packet_ack_JA x i k x' evs : rmc_pub_packet_ack x i k = Ok (x', evs) -> JA i x x'.
Proof.
  intros E sp L Q I. destruct (inv_ack _ _ _ _ (Z.to_nat i) k I) as (s' & L' & fr & Ea & _ & I' & _). exists (fst (spec_step sp (OpAck (Z.to_nat i) k))), L'.
  assert (P : x_pub x' = s').
  { revert E. unfold rmc_pub_packet_ack. rewrite Ea. cbn [bind fst snd]. destruct (release_all _ _) as [[m e]| | |]; cbn [bind fst snd]; [|discriminate..]. intros E. injection E as <- _. destruct (_ && _); reflexivity. }
  rewrite P. split; [exact I'|]. cbn [spec_step]. split; [|split; [|split]]; [destruct (release _ _ _); reflexivity..|].
  intros m j ts N. pose proof (claim_ack sp (Z.to_nat i) k m j ts) as C. cbn [spec_step] in C. rewrite C. tauto.
Qed.
Lemma rounds_JA : forall n x i pid x' evs, ack_rounds n x i pid = Ok (x', evs) -> JA i x x'.
Proof.
  induction n as [|n IH]; intros x i pid x' evs; cbn [ack_rounds]; [intros E; injection E as <- _; apply JA_same; reflexivity|].
  destruct (rmc_pub_packet_ack x i pid) as [[x1 e1]| | |] eqn:E1; cbn [bind fst snd]; [|discriminate..]. destruct (ack_rounds n x1 i (pid + 1)) as [[x2 e2]| | |] eqn:E2; cbn [bind fst snd]; [|discriminate..].
  intros E. injection E as <- _. exact (JA_trans _ _ _ _ (packet_ack_JA _ _ _ _ _ E1) (IH _ _ _ _ _ E2)).
Qed.

(** ** Events *)
Definition away (i : Z) (e : pev) : Prop := forall j, j <> i -> ~ concerns j e.
Lemma free_away i evs : Forall is_free_ev evs -> Forall (away i) evs.
Proof. intros H. eapply Forall_impl; [|exact H]. intros e He j _. destruct e; try destruct He. intros []. Qed.
Lemma away_since i j log evs : j <> i -> Forall (away i) evs -> since_open j (log ++ evs) = since_open j log.
Proof.
  intros N H. apply since_quiet. eapply Forall_impl; [|exact H]. intros e He s. specialize (He j N). destruct e as [[| | | |]| | | | | | |]; cbn [concerns since_ev] in *; try reflexivity; try tauto;
    match goal with |- context [?a =? j] => destruct (Z.eqb_spec a j); [tauto|reflexivity] end.
Qed.

(** ** The calls *)
Definition JE (x : pctx) (i : Z) (st : hst) : Prop := JA i x (fst st) /\ x_vec (fst st) = x_vec x /\ Forall (away i) (snd st).
Lemma eff_ack_JE x i st iv st' : JE x i st -> eff_ack i st iv = Ok st' -> JE x i st'.
Proof.
  intros (A & V & F). unfold eff_ack, ack_interval. destruct (_ && _); [discriminate|]. destruct (ack_rounds _ _ _ _) as [[x1 e1]| | |] eqn:E1; cbn [bind fst snd]; [|discriminate..]. intros E. injection E as <-. unfold JE. cbn [fst snd].
  destruct (rounds_frame _ _ _ _ _ _ E1) as [R1 R2]. split; [exact (JA_trans _ _ _ _ A (rounds_JA _ _ _ _ _ _ E1))|]. split; [congruence|].
  apply Forall_app. split; [exact F|]. constructor; [intros j N H; cbn in H; congruence|exact (free_away _ _ R2)].
Qed.
Lemma eff_ctrl_JE x i st p st' : JE x i st -> eff_ctrl i st p = Ok st' -> JE x i st'.
Proof.
  intros (A & V & F). unfold eff_ctrl. destruct (x_ccb _); [discriminate|intros E; injection E as <-; repeat split; assumption|]. destruct (slot _ _) as [c| | |]; cbn [bind]; [|discriminate..]. intros E. injection E as <-. unfold JE. cbn [fst snd].
  split; [exact A|]. split; [exact V|]. apply Forall_app. split; [exact F|]. constructor; [intros j _ []|constructor].
Qed.
Lemma pclose_J x i code x' evs sp L Q : 0 <= i -> Inv (x_pub x) sp L Q -> ((exists c, is_open (x_vec x) i c) -> In (Z.to_nat i) (sp_reg sp)) ->
  rmc_pub_close_connection x i = Ok (code, x', evs) -> JF i sp Q x' /\ Forall (away i) evs.
Proof.
  intros Hi I Hr. unfold rmc_pub_close_connection. destruct (find_index_cases (x_vec x) i Hi) as [[-> _]|(c & -> & Ho)]; cbn [bind].
  - intros E. injection E as _ <- <-. split; [exact (JA_JF _ _ _ _ _ _ I (JA_same i x x eq_refl))|constructor].
  - destruct (inv_unsubscribe _ _ _ _ (Z.to_nat i) I (Hr (ex_intro _ c Ho))) as (s' & L' & fr & Eu & _ & I' & _).
    destruct (close_open (x_vec x) i c (proj1 Ho) (proj2 Ho)) as (v' & ->). cbn [bind]. rewrite Eu. cbn [bind fst snd].
    destruct (release_all _ _) as [[m e]| | |] eqn:Er; cbn [bind fst snd]; [|discriminate..]. intros E. injection E as _ <- <-. split.
    + exists (fst (spec_step sp (OpUnsubscribe (Z.to_nat i)))), L'. split; [exact I'|]. split; [|split]; [cbn [spec_step]; destruct (release _ _ _); reflexivity..|].
      intros m0 k ts N. rewrite claim_unsub. tauto.
    + constructor; [intros j _ []|]. cbn [map app]. constructor; [intros j N H; cbn in H; congruence|]. constructor; [intros j _ []|]. exact (free_away _ _ (release_free _ _ _ _ Er)).
Qed.
Lemma pread_J x i t code op x' evs sp L Q : 0 <= i -> Inv (x_pub x) sp L Q -> ((exists c, is_open (x_vec x) i c) -> In (Z.to_nat i) (sp_reg sp)) ->
  rmc_pub_read x i (RdTcp t) = Ok (code, op, x', evs) -> JF i sp Q x' /\ Forall (away i) evs.
Proof.
  intros Hi I Hr. assert (Same : JF i sp Q x /\ Forall (away i) []) by (split; [exact (JA_JF _ _ _ _ _ _ I (JA_same i x x eq_refl))|constructor]).
  cbn [rmc_pub_read]. destruct (find_index_cases (x_vec x) i Hi) as [[-> _]|(c & -> & Ho)]; cbn [bind]; [intros E; injection E as _ _ <- <-; exact Same|].
  destruct (negb (c_mode c =? CONNECTED)); [intros E; injection E as _ _ <- <-; exact Same|].
  destruct (tcp_read _ _ (c_rbuf c) t) as [r| | |] eqn:Er; cbn [bind]; [|discriminate..].
  assert (J0 : JE x i (x, [])) by (split; [apply JA_same; reflexivity|split; [reflexivity|constructor]]).
  pose proof (tcp_read_ok (pub_dispatch (eff_ack i) (ccb_set x) (eff_ctrl i)) (JE x i)
    (pub_dispatch_ok _ _ _ _ (fun st iv st' => eff_ack_JE x i st iv st') (fun st p st' => eff_ctrl_JE x i st p st')) (x, []) (c_rbuf c) t r J0 Er) as (A & V & F).
  destruct (r_st r) as [x1 e1]. cbn [fst snd] in *. 
  destruct (r_code r =? EPIPE).
  - destruct (rmc_pub_close_connection _ i) as [[[cd x2] e2]| | |] eqn:E2; cbn [bind]; [|discriminate..]. intros E. injection E as _ _ <- <-.
    destruct (A _ _ _ I) as (s1 & L1 & I1 & A1 & A2 & A3 & A4).
    destruct (pclose_J (set_vec x1 (put_slot (x_vec x1) i (set_rbuf c (r_buf r)))) i _ _ _ s1 L1 Q Hi I1 ltac:(intros _; rewrite A3; apply Hr; exists c; exact Ho) E2) as ((s2 & L2 & I2 & B1 & B2 & B3) & F2).
    split; [|apply Forall_app; split; assumption]. exists s2, L2. split; [exact I2|]. split; [congruence|]. split; [congruence|]. intros m k ts N. rewrite (B3 m k ts N). exact (A4 m k ts N).
  - intros E. injection E as _ _ <- <-. split; [exact (JA_JF _ _ _ _ _ _ I A)|]. apply Forall_app. split; [exact F|]. constructor; [intros j N H; cbn in H; congruence|constructor].
Qed.
Lemma pwrite_J x i w code op x' evs sp L Q : Inv (x_pub x) sp L Q -> rmc_pub_write x i (WrTcp w) = Ok (code, op, x', evs) -> JF i sp Q x' /\ Forall (away i) evs.
Proof.
  intros I. assert (Same : forall y, x_pub y = x_pub x -> JF i sp Q y) by (intros y Ey; exact (JA_JF _ _ _ _ _ _ I (JA_same i x y Ey))).
  assert (S0 : JF i sp Q x /\ Forall (away i) []) by (split; [apply Same; reflexivity|constructor]).
  cbn [rmc_pub_write]. destruct (_ <=? i); [intros E; injection E as _ _ <- <-; exact S0|].
  destruct (find_by_index _ _) as [[c|]| | |]; cbn [bind]; [| |discriminate..]; [|intros E; injection E as _ _ <- <-; exact S0].
  destruct (negb (c_mode c =? CONNECTED)); [intros E; injection E as _ _ <- <-; exact S0|]. destruct (circ_buf_in_use (c_wbuf c) =? 0); [intros E; injection E as _ _ <- <-; exact S0|].
  destruct (tcp_write (c_wbuf c) w) as [r| | |]; cbn [bind]; [|discriminate..]. intros E. injection E as _ _ <- <-. split; [apply Same; reflexivity|].
  constructor; [intros j N H; cbn in H; congruence|]. constructor; [intros j N H; cbn in H; congruence|constructor].
Qed.

(** Accepting: the new connection takes a slot that was free. *)
Lemma paccept_J t x g log sp L Q i a cb code op x' evs : XI t x g log sp L Q -> match a with AccOk d _ nd => 0 <= d /\ nd = 0 | AccErr e => e <> 0 end ->
  rmc_pub_read x i (RdAccept a cb) = Ok (code, op, x', evs) ->
  exists k, 0 <= k /\ (forall c, ~ is_open (x_vec x) k c) /\ JF k sp Q x' /\ Forall (fun e => forall j, j <> k -> j <> RMC_LISTEN_INDEX -> ~ concerns j e) evs.
Proof.
  intros X Ha. pose proof (xi_pub _ _ _ _ _ _ _ X) as I. pose proof (xi_vec _ _ _ _ _ _ _ X) as V. pose proof (vi_size _ _ V) as Hl.
  assert (Hz : v_size (x_vec x) <= RMC_NIL_INDEX) by (unfold RMC_NIL_INDEX, RMC_LISTEN_INDEX in *; lia).
  assert (Same : forall k y, x_pub y = x_pub x -> JF k sp Q y) by (intros k y Ey; exact (JA_JF _ _ _ _ _ _ I (JA_same k x y Ey))).
  cbn [rmc_pub_read]. destruct (accept_cases (x_listen x) (x_vec x) a Hz) as [[_ Q0]|(k & c0 & Lf & Hs & Hd & Q0)].
  - rewrite Q0. cbn [bind]. change (ENOMEM =? 0) with false. cbn [negb]. intros E. injection E as _ _ <- <-. exists (Z.max 0 (v_size (x_vec x))). split; [lia|].
    split; [|split; [apply Same; reflexivity|constructor]]. intros c [H _]. pose proof (slot_range _ _ _ H). lia.
  - pose proof (slot_range _ _ _ Hs) as R. assert (Hno : forall c, ~ is_open (x_vec x) k c).
    { intros c [H Hm]. assert (c = c0) as -> by congruence. apply Hm. apply (vi_mode _ _ V k c0 Hs). exact Hd. }
    intros E. exists k. split; [lia|]. split; [exact Hno|]. revert E. destruct a as [e|d ad nd].
    + rewrite Q0. cbn [bind]. replace (e =? 0) with false by lia. cbn [negb]. intros E. injection E as _ _ <- <-. split; [apply Same; reflexivity|constructor].
    + destruct Ha as [Hd0 ->]. destruct Q0 as [[_ Q0]|[Q0 _]]; [|congruence]. rewrite Q0. cbn [bind]. change (0 =? 0) with true. cbn [negb].
      destruct (accept_xi t x g log sp L Q k c0 d ad X Lf Hs Hd Hd0) as [X1 Ho1]. set (c' := mkConn _ _ _ _ _ _ _ _) in *. set (v' := set_active _ _) in *. set (x1 := set_pub _ _) in *. set (ev1 := map PvConn _) in *.
      destruct (find_index_cases v' k (proj1 R)) as [[_ H]|(c1 & -> & Ho1')]; [destruct (H c' Ho1)|]. cbn [bind].
      assert (F1 : Forall (fun e => forall j, j <> k -> j <> RMC_LISTEN_INDEX -> ~ concerns j e) ev1).
      { unfold ev1. cbn [map]. repeat constructor; intros j N1 N2; cbn [concerns]; intros H; congruence || contradiction. }
      assert (C1 : JF k sp Q x1).
      { exists (fst (spec_step sp (OpSubscribe (Z.to_nat k)))), L. split; [exact (xi_pub _ _ _ _ _ _ _ X1)|]. split; [reflexivity|]. split; [reflexivity|]. intros m n ts _. reflexivity. }
      destruct cb as [[|]|].
      * intros E. assert (x' = x1 /\ evs = ev1 ++ [PvJoin (c_addr c1) (c_port c1)]) as [-> ->] by (split; congruence). split; [exact C1|]. apply Forall_app. split; [exact F1|]. constructor; [intros j _ _ []|constructor].
      * destruct (rmc_pub_close_connection x1 k) as [[[cd2 x2] e2]| | |] eqn:E2; cbn [bind]; [|discriminate..]. intros E. assert (x' = x2 /\ evs = ev1 ++ PvJoin (c_addr c1) (c_port c1) :: e2) as [-> ->] by (split; congruence).
        destruct (pclose_J x1 k cd2 x2 e2 _ L Q (proj1 R) (xi_pub _ _ _ _ _ _ _ X1) ltac:(intros _; cbn [spec_step fst sp_reg]; apply in_or_app; right; left; reflexivity) E2) as ((s2 & L2 & I2 & B1 & B2 & B3) & F2).
        split; [exists s2, L2; split; [exact I2|]; split; [exact B1|]; split; [exact B2|]; exact B3|].
        apply Forall_app. split; [exact F1|]. constructor; [intros j _ _ []|]. eapply Forall_impl; [|exact F2]. intros e He j N _. exact (He j N).
      * intros E. injection E as _ _ <- <-. split; [exact C1|exact F1].
Qed.

(** ** The theorem *)
(** A call for connection [i] leaves every other open connection as it was: its state with the
    bytes buffered for it in either direction, the packets it still has to acknowledge with
    their times, what was sent to it and acknowledged by it; the library does nothing to its
    socket; and the packets waiting to be multicast stay as they are. *)
Theorem c95_publisher : forall x g log o i code x' evs, reached x g log -> xok x g o -> only_for o i -> xstep x o = Ok (code, x', evs) ->
  queued x' = queued x /\
  forall j c, j <> i -> slot (x_vec x) j = Ok c -> c_mode c = CONNECTED ->
    slot (x_vec x') j = Ok c /\ (forall k ts, owed x' j k ts <-> owed x j k ts) /\
    since_open j (log ++ evs) = since_open j log /\ Forall (fun e => ~ concerns j e) evs.
Proof.
  intros x g log o i code x' evs R Hok Hf E. apply reached_inv in R. destruct R as (sp & L & Q & X).
  pose proof (xi_pub _ _ _ _ _ _ _ X) as I. pose proof (xi_vec _ _ _ _ _ _ _ X) as V. pose proof (vi_size _ _ V) as Hl.
  assert (Hreg : forall n, 0 <= n -> (exists c, is_open (x_vec x) n c) -> In (Z.to_nat n) (sp_reg sp)).
  { intros n Hn [c Hc]. apply (vi_reg _ _ V). exists c. rewrite Z2Nat.id by exact Hn. exact Hc. }
  assert (Fin : forall n, 0 <= n -> JF n sp Q x' -> Forall (away n) evs -> (forall j c, j <> n -> is_open (x_vec x) j c -> slot (x_vec x') j = Ok c) ->
    queued x' = queued x /\ forall j c, j <> n -> slot (x_vec x) j = Ok c -> c_mode c = CONNECTED ->
    slot (x_vec x') j = Ok c /\ (forall k ts, owed x' j k ts <-> owed x j k ts) /\ since_open j (log ++ evs) = since_open j log /\ Forall (fun e => ~ concerns j e) evs).
  { intros n Hn J F S. destruct (JF_owed n x x' sp L Q I J Hn) as [H1 H2]. split; [exact H2|]. intros j c N Hs Hm. pose proof (slot_range _ _ _ Hs) as Rj.
    split; [apply S; [exact N|split; [exact Hs|rewrite Hm; discriminate]]|]. split; [intros k ts; apply H1; [lia|exact N]|]. split; [exact (away_since n j log evs N F)|].
    eapply Forall_impl; [|exact F]. intros e He. exact (He j N). }
  destruct o; cbn [only_for] in Hf; try contradiction.
  - cbn [xstep] in E. destruct (rmc_pub_read x i0 o) as [[[[cd op] x1] e1]| | |] eqn:E1; cbn [bind] in E; [|discriminate..]. injection E as -> -> ->. destruct o as [a cb|err|t].
    + assert (Ha : match a with AccOk d _ nd => 0 <= d /\ nd = 0 | AccErr e => e <> 0 end) by (destruct a; exact Hok).
      destruct (paccept_J _ x g log sp L Q i0 a cb _ _ _ _ X Ha E1) as (k & Hk & Hno & J & F).
      assert (Hn' : match a with AccOk _ _ nd => nd = 0 | _ => True end) by (destruct a; [exact Logic.I|exact (proj2 Ha)]).
      assert (Hc : forall j c, slot (x_vec x) j = Ok c -> c_desc c = -1 -> c_mode c = CLOSED) by (intros j c H; exact (proj1 (proj1 (vi_mode _ _ V j c H)))).
      destruct (paccept_fr x i0 a cb code op x' evs Hl Hc Hn' E1) as ((Fr & _) & _ & Fi).
      destruct (JF_owed k x x' sp L Q I J Hk) as [H1 H2]. split; [exact H2|]. intros j c _ Hs Hm. pose proof (slot_range _ _ _ Hs) as Rj.
      assert (Ho : is_open (x_vec x) j c) by (split; [exact Hs|rewrite Hm; discriminate]). assert (Nk : j <> k) by (intros ->; exact (Hno c Ho)).
      assert (F' : Forall (fun e => ~ concerns j e) evs) by (eapply Forall_impl; [|exact F]; intros e He; apply He; [exact Nk|lia]).
      split; [destruct (Z.eq_dec j i0) as [->|N]; [exact (Fi c Ho)|exact (Fr j c N Ho)]|]. split; [intros n ts; apply H1; [lia|exact Nk]|]. split; [|exact F'].
      apply since_quiet. eapply Forall_impl; [|exact F']. intros e He s. destruct e as [[| | | |]| | | | | | |]; cbn [concerns since_ev] in *; try reflexivity; try tauto;
        match goal with |- context [?a =? j] => destruct (Z.eqb_spec a j); [tauto|reflexivity] end.
    + cbn [rmc_pub_read] in E1. assert (x' = x /\ Forall (fun e => e = PvConn (EvMod (x_mcast x) RMC_MULTICAST_INDEX POLLREAD POLLREAD)) evs) as [-> F].
      { destruct (x_mcast x =? -1); [|destruct err]; (split; [congruence|]); match type of E1 with Ok (_, _, _, ?l) = _ => assert (evs = l) as -> by congruence end; repeat constructor. }
      split; [reflexivity|]. intros j c _ Hs _. pose proof (slot_range _ _ _ Hs). split; [exact Hs|]. split; [tauto|]. split.
      * apply since_quiet. eapply Forall_impl; [|exact F]. intros e -> s. reflexivity.
      * eapply Forall_impl; [|exact F]. intros e ->. cbn [concerns]. unfold RMC_MULTICAST_INDEX, RMC_LISTEN_INDEX in *. lia.
    + subst i0. destruct Hok as [Hi _]. destruct (pread_J x i t _ _ _ _ sp L Q Hi I (Hreg i Hi) E1) as [J F]. destruct (pread_tcp_fr x i t _ _ _ _ Hi E1) as [(Fr & _) _]. exact (Fin i Hi J F Fr).
  - cbn [xstep] in E. destruct (rmc_pub_write x i0 o) as [[[[cd op] x1] e1]| | |] eqn:E1; cbn [bind] in E; [|discriminate..]. injection E as -> -> ->. destruct o as [outs|w]; [contradiction|]. subst i0.
    assert (Hi : 0 <= i) by (destruct w; apply Hok). destruct (pwrite_J x i w _ _ _ _ sp L Q I E1) as [J F]. apply (Fin i Hi J F). intros j c N Ho.
    pose proof (proj1 Ho) as Hs. revert E1. cbn [rmc_pub_write]. destruct (_ <=? i); [intros E; assert (x' = x) as -> by congruence; exact Hs|].
    destruct (find_by_index _ _) as [[c0|]| | |]; cbn [bind]; [| |discriminate..]; [|intros E; assert (x' = x) as -> by congruence; exact Hs].
    destruct (negb _); [intros E; assert (x' = x) as -> by congruence; exact Hs|]. destruct (_ =? 0); [intros E; assert (x' = x) as -> by congruence; exact Hs|].
    destruct (tcp_write _ _) as [r| | |]; cbn [bind]; [|discriminate..]. intros E. injection E as _ _ <- _. cbn [set_vec x_vec]. rewrite slot_put_other by (lia || exact N). exact Hs.
  - subst i0. destruct Hok as [Hi _]. cbn [xstep] in E. destruct (pclose_J x i _ _ _ sp L Q Hi I (Hreg i Hi) E) as [J F]. destruct (pclose_fr x i _ _ _ Hi E) as [(Fr & _) _]. exact (Fin i Hi J F Fr).
Qed.
Print Assumptions c95_publisher.

(** * The subscriber *)

(** ** Specification *)
(** An effect of the library on connection [j]. *)
Definition sconcerns (j : Z) (e : sev) : Prop :=
  match e with
  | SvTcp i _ | SvRecv i _ | SvGot i _ _ _ | SvPut i _ _ | SvAck i _ _ | SvLost i _ _ => i = j
  | SvConn (EvAdd _ i _) | SvConn (EvMod _ i _ _) | SvConn (EvRem _ i) => i = j
  | _ => False
  end.
(** What happened on a connection, the datagrams received by the whole context aside. *)
Definition own_part (s : tsince) : list Z * list Z * list (Z * bool * list Z) * list (Z * list Z) * list (Z * Z) * list (Z * Z) :=
  (ts_sent s, ts_recv s, ts_got s, ts_put s, ts_acks s, ts_lost s).
(** The calls that are not for connection [j], which leads to the publisher at [ap]: those for another
    connection, reading from the multicast socket when no well formed datagram comes from [ap], and
    taking a ready packet or freeing one. *)
Definition elsewhere (o : yop) (j : Z) (ap : Z * Z) : Prop :=
  match o with
  | YRead i (SrTcp _ _) | YWrite i _ | YClose i | YCtrl i _ _ => j <> i
  | YRead _ (SrMcast ins) => forall src bs m, In (McData src bs m) ins -> malformed (seen bs) \/ origin src (seen bs) <> ap
  | YTake _ _ | YAppFree _ => True
  | _ => False
  end.
(** The packets of connection [j] that are ready are the same, less those the application took. *)
Definition ready_same (j : Z) (x x' : sctx) (evs : list sev) : Prop :=
  forall p, sk_user p = j -> (In p (t_ready x') -> In p (t_ready x)) /\ (In p (t_ready x) -> In p (t_ready x') \/ exists bs, In (SvTake p bs) evs).

(** ** Frames *)
Definition Wn (j : Z) (x : sctx) : Prop := forall i p, i <> j -> In p (waiting x i) -> sk_user p <> j.
Definition SJ (j : Z) (x x' : sctx) (evs : list sev) : Prop :=
  Wn j x -> Wn j x' /\ t_pubs x' j = t_pubs x j /\ (In j (t_ack x') <-> In j (t_ack x)) /\ ready_same j x x' evs /\ Forall (fun e => ~ sconcerns j e) evs.
Lemma SJ_trans j x y z e1 e2 : SJ j x y e1 -> SJ j y z e2 -> SJ j x z (e1 ++ e2).
Proof.
  intros A B W. destruct (A W) as (A1 & A2 & A3 & A4 & A5). destruct (B A1) as (B1 & B2 & B3 & B4 & B5). split; [exact B1|]. split; [congruence|]. split; [rewrite B3; exact A3|]. split; [|apply Forall_app; auto].
  intros p Hp. destruct (A4 p Hp) as [C1 C2]. destruct (B4 p Hp) as [D1 D2]. split; [auto|]. intros H. destruct (C2 H) as [H1|[bs H1]]; [destruct (D2 H1) as [H2|[bs H2]]; [left; exact H2|]|]; right; exists bs; apply in_or_app; auto.
Qed.
(** Publisher [i]'s record, slots, memory and counters apart, everything is as before. *)
Lemma SJ_base j x x' evs : t_pubs x' = t_pubs x -> t_ack x' = t_ack x -> t_ready x' = t_ready x -> Forall (fun e => ~ sconcerns j e) evs -> SJ j x x' evs.
Proof.
  intros P A R F W. unfold Wn, waiting, ready_same. rewrite P, A, R. split; [exact W|]. split; [reflexivity|]. split; [tauto|]. split; [|exact F]. intros p _. auto.
Qed.
Lemma SJ_refl j x : SJ j x x [].
Proof. apply SJ_base; auto. Qed.
Lemma SJ_put j x i s x' evs : j <> i -> t_pubs x' = tupd (t_pubs x) i (Some s) -> t_ack x' = t_ack x -> t_ready x' = t_ready x ->
  (forall p, In p (s_recv s) -> In p (waiting x i) \/ sk_user p = i) -> Forall (fun e => ~ sconcerns j e) evs -> SJ j x x' evs.
Proof.
  intros N P A R H F W. split.
  { intros k p Nk. unfold waiting. rewrite P. unfold tupd. destruct (Z.eqb_spec k i) as [->|Nk2].
    - intros Hp. destruct (H p Hp) as [H1|H1]; [exact (W i p Nk H1)|congruence].
    - exact (W k p Nk). }
  rewrite P, A. unfold tupd. destruct (Z.eqb_spec j i) as [E|_]; [contradiction|]. split; [reflexivity|]. split; [tauto|]. split; [|exact F]. intros p _. rewrite R. auto.
Qed.
Lemma unlink_in a : forall l p r, unlink_packet a l = Some (p, r) -> forall q, In q l <-> q = p \/ In q r.
Proof.
  induction l as [|b l IH]; intros p r; cbn [unlink_packet]; [discriminate|]. destruct (Nat.eqb _ _).
  - intros E q. injection E as <- <-. cbn [In]. intuition.
  - destruct (unlink_packet a l) as [[q0 r0]|] eqn:E0; [|discriminate]. intros E q. injection E as <- <-. cbn [In]. rewrite (IH _ _ eq_refl q). tauto.
Qed.
Lemma free_events m l m' fe : free_payloads m l = Ok (m', fe) -> forall j, Forall (fun e => ~ sconcerns j e) fe.
Proof.
  revert m m' fe. induction l as [|[p n] l IH]; intros m m' fe; cbn [free_payloads]; [intros E; injection E as <- <-; constructor|].
  destruct (m p); [|discriminate]. destruct (free_payloads _ l) as [[m1 e1]| | |] eqn:E1; cbn [bind fst snd]; [|discriminate..]. intros E j. injection E as <- <-.
  constructor; [intros []|exact (IH _ _ _ E1 j)].
Qed.
Lemma dispatched_SJ j x a keep code x' evs : rmc_sub_packet_dispatched x a keep = Ok (code, x', evs) -> SJ j x x' evs.
Proof.
  unfold rmc_sub_packet_dispatched, dispatched_keep_payload. destruct (unlink_packet a (t_ready x)) as [[p r]|] eqn:Eu; [|intros E; injection E as _ <- <-; apply SJ_refl].
  cbv zeta beta. set (tk := SvTake p _). intros E.
  assert (H : exists fe, evs = tk :: fe /\ t_pubs x' = t_pubs x /\ t_ack x' = t_ack x /\ t_ready x' = r /\ Forall (fun e => ~ sconcerns j e) fe).
  { destruct keep; [injection E as _ <- <-; exists []; repeat split; constructor|].
    destruct (free_payloads _ _) as [[m fe]| | |] eqn:Ef; cbn [bind fst snd] in E; [|discriminate..]. injection E as _ <- <-. exists fe. split; [reflexivity|]. split; [reflexivity|]. split; [reflexivity|]. split; [reflexivity|]. exact (free_events _ _ _ _ Ef j). }
  destruct H as (fe & -> & P & A & R & F). intros W. unfold Wn, waiting. rewrite P, A. split; [exact W|]. split; [reflexivity|]. split; [tauto|]. split; [|constructor; [intros []|exact F]].
  intros q _. rewrite R. pose proof (unlink_in _ _ _ _ Eu q) as U. split; [tauto|]. intros H. apply U in H. destruct H as [->|H]; [|left; exact H]. right. eexists. left. reflexivity.
Qed.
Lemma ready_SJ j ops : forall x x' evs, ready_cb x ops = Ok (x', evs) -> SJ j x x' evs.
Proof.
  induction ops as [|[a keep] ops IH]; intros x x' evs; cbn [ready_cb]; [intros E; injection E as <- <-; apply SJ_refl|].
  destruct (rmc_sub_packet_dispatched x a keep) as [[[cd x1] e1]| | |] eqn:E1; cbn [bind]; [|discriminate..].
  destruct (ready_cb x1 ops) as [[x2 e2]| | |] eqn:E2; cbn [bind fst snd]; [|discriminate..]. intros E. injection E as <- <-.
  exact (SJ_trans _ _ _ _ _ _ (dispatched_SJ _ _ _ _ _ _ _ E1) (IH _ _ _ E2)).
Qed.
Lemma get_spub_eq x i s : get_spub x i = Ok s -> t_pubs x i = Some s.
Proof. unfold get_spub. repeat match goal with |- context [match ?h with _ => _ end] => destruct h eqn:?; try discriminate end; congruence. Qed.
Lemma process_SJ j x i x' evs : j <> i -> process_received x i = Ok (x', evs) -> SJ j x x' evs.
Proof.
  intros N. unfold process_received. destruct (get_spub x i) as [s| | |] eqn:Es; cbn [bind]; [|discriminate..]. apply get_spub_eq in Es. destruct (sub_process s) as [s' out] eqn:Ep. intros E. injection E as <- <-.
  pose proof (sub_process_split _ _ _ Ep) as Sp. intros W.
  assert (Wi : waiting x i = out ++ s_recv s') by (unfold waiting; rewrite Es; exact Sp).
  destruct (SJ_put j x i s' (put_spub x i s') [] N eq_refl eq_refl eq_refl ltac:(intros p Hp; left; rewrite Wi; apply in_or_app; right; exact Hp) ltac:(constructor) W) as (A1 & A2 & A3 & _).
  split; [exact A1|]. split; [exact A2|]. split; [exact A3|]. split.
  - intros p Hp. cbn [set_tready t_ready]. rewrite in_app_iff. split; [|auto]. intros [H|H]; [exact H|]. exfalso. apply (W i p ltac:(auto)); [rewrite Wi; apply in_or_app; left; exact H|exact Hp].
  - apply Forall_forall. intros e He. apply in_map_iff in He. destruct He as (p & <- & _). cbn. congruence.
Qed.
Lemma insert_in {X} (f : X -> X -> Z) a l b : In b (seq_insert_sorted_rev f a l) <-> In b l \/ b = a.
Proof.
  assert (G : forall l, In b (seq_insert_sorted f a l) <-> In b l \/ b = a).
  { clear l. induction l as [|y k IH]; cbn; [intuition|]. destruct (0 <=? f a y); cbn; [intuition|]. rewrite IH. intuition. }
  unfold seq_insert_sorted_rev. rewrite <- in_rev, G, <- in_rev. tauto.
Qed.
Lemma accept_SJ j x i pid bs mc o x' evs : j <> i -> accept_packet x i pid bs mc o = Ok (x', evs) -> SJ j x x' evs.
Proof.
  intros N. unfold accept_packet. destruct (_ || _); [discriminate|]. cbv zeta. set (x1 := set_tmem x _).
  match goal with |- bind ?h _ = _ -> _ => destruct h as [x2| | |] eqn:E2 end; cbn [bind]; [|discriminate..].
  assert (A : SJ j x x2 []).
  { destruct mc; [unfold rmc_sub_packet_received in E2|unfold tcp_packet_received in E2]; destruct (get_spub x1 i) as [s| | |] eqn:Es; cbn [bind] in E2; try discriminate E2; apply get_spub_eq in Es; change (t_pubs x1) with (t_pubs x) in Es.
    - cbv zeta in E2. injection E2 as <-. set (x1' := if _ =? 0 then _ else _). set (s' := sub_received _ _ _ _).
      assert (B : SJ j x x1' []).
      { unfold x1'. destruct (_ =? 0); [|apply SJ_base; reflexivity || constructor]. intros W. split; [exact W|]. split; [reflexivity|]. split; [|split; [intros p _; auto|constructor]].
        cbn [set_tack t_ack]. rewrite insert_in. change (t_ack x1) with (t_ack x). intuition. }
      apply (SJ_trans j x x1' _ [] [] B). apply (SJ_put j x1' i s'); [exact N|reflexivity|reflexivity|reflexivity| |constructor].
      intros p Hp. unfold s', sub_received in Hp. cbn [s_recv] in Hp. apply insert_in in Hp. destruct Hp as [Hp| ->]; [left|right; reflexivity].
      assert (Ew : t_pubs x1' i = Some s) by (unfold x1'; destruct (_ =? 0); exact Es). unfold waiting. rewrite Ew. exact Hp.
    - injection E2 as <-. apply (SJ_put j x i (sub_received s (mkSK (t_fresh x1) (Z.to_nat i) pid (ai_ptr o) (zlen bs) i) false (ai_now o))); [exact N|reflexivity|reflexivity|reflexivity| |constructor].
      intros p Hp. unfold sub_received in Hp. cbn [s_recv] in Hp. apply insert_in in Hp. destruct Hp as [Hp| ->]; [left|right; reflexivity]. unfold waiting. rewrite Es. exact Hp. }
  destruct (process_received x2 i) as [[x3 e3]| | |] eqn:E3; cbn [bind fst snd]; [|discriminate..]. pose proof (process_SJ j _ _ _ _ N E3) as B.
  assert (G : forall p n, SJ j x2 x2 [SvAlloc p n; SvGot i pid mc bs]) by (intros; apply SJ_base; try reflexivity; repeat constructor; cbn; congruence).
  assert (C : SJ j x x3 (SvAlloc (ai_ptr o) (zlen bs) :: SvGot i pid mc bs :: e3)) by exact (SJ_trans _ _ _ _ [] _ A (SJ_trans _ _ _ _ _ _ (G _ _) B)).
  destruct (_ && _).
  - destruct (ready_cb x3 _) as [[x4 e4]| | |] eqn:E4; cbn [bind fst snd]; [|discriminate..]. intros E.
    match type of E with Ok (?a, ?b) = _ => assert (x' = a /\ evs = b) as [-> ->] by (split; congruence) end. refine (SJ_trans _ _ _ _ _ ([SvReady] ++ e4) C _).
    apply (SJ_trans _ x3 x3); [|exact (ready_SJ _ _ _ _ _ E4)]. apply SJ_base; try reflexivity. repeat constructor; intros [].
  - intros E. injection E as <- <-. exact C.
Qed.
Lemma conns_away j i evs : j <> i -> Forall (fun e => match e with EvAdd _ k _ | EvMod _ k _ _ | EvRem _ k => k = i | _ => True end) evs -> Forall (fun e => ~ sconcerns j e) (map SvConn evs).
Proof. intros N. induction 1 as [|e l H _ IH]; cbn [map]; constructor; [|exact IH]. destruct e; cbn in *; congruence || tauto. Qed.
Lemma close_events v i code v' evs : 0 <= i -> close_conn v i = Ok (code, v', evs) -> Forall (fun e => match e with EvAdd _ k _ | EvMod _ k _ _ | EvRem _ k => k = i | _ => True end) evs.
Proof.
  intros Hi E. destruct (close_cases v i Hi) as [[_ Q]|[(c & _ & _ & Q)|(c & _ & Q)]]; rewrite Q in E; match type of E with Ok (_, _, ?l) = _ => assert (evs = l) as -> by congruence end; repeat constructor.
Qed.
Lemma sclose_SJ j x i x' evs : 0 <= i -> j <> i -> rmc_sub_close_connection x i = Ok (x', evs) -> SJ j x x' evs.
Proof.
  intros Hi N. unfold rmc_sub_close_connection. destruct (close_conn (t_vec x) i) as [[[cd v] ce]| | |] eqn:Ec; cbn [bind]; [|discriminate..].
  destruct (get_spub (set_tvec x v) i) as [s| | |]; cbn [bind]; [|discriminate..]. destruct (sub_reset s) as [s' fl] eqn:Er. destruct (free_payloads _ _) as [[m fe]| | |] eqn:Ef; cbn [bind fst snd]; [|discriminate..]. intros E.
  assert (x' = set_tmem (put_spub (set_tvec x v) i s') m /\ evs = map SvConn ce ++ fe) as [-> ->] by (split; congruence).
  apply (SJ_put j x i s'); [exact N|reflexivity|reflexivity|reflexivity| |].
  - unfold sub_reset in Er. assert (s_recv s' = []) as -> by (injection Er as <- _; reflexivity). intros p [].
  - apply Forall_app. split; [exact (conns_away j i ce N (close_events _ _ _ _ _ Hi Ec))|exact (free_events _ _ _ _ Ef j)].
Qed.
Lemma sread_SJ j x i t ins code op x' evs : 0 <= i -> j <> i -> rmc_sub_read x i (SrTcp t ins) = Ok (code, op, x', evs) -> SJ j x x' evs.
Proof.
  intros Hi N. cbn [rmc_sub_read]. destruct (find_by_index _ _) as [[c|]| | |]; cbn [bind]; [| |discriminate..]; [|intros E; injection E as _ _ <- <-; apply SJ_refl].
  destruct (negb _); [intros E; injection E as _ _ <- <-; apply SJ_refl|]. cbv zeta. set (got := match t with RErr => _ | _ => _ end).
  assert (G : SJ j x x got) by (apply SJ_base; try reflexivity; unfold got; destruct t as [|[|? ?]]; repeat constructor; cbn; congruence).
  destruct (tcp_read _ _ (c_rbuf c) _) as [[cd op1 [[x1 e1] ins1] rb]| | |] eqn:Et; cbn [bind]; [|discriminate..].
  assert (S : SJ j x x1 e1).
  { refine (tcp_read_ok _ (fun st : tst => SJ j x (fst (fst st)) (snd (fst st))) _ (x, got, ins) (c_rbuf c) _ _ G Et).
    apply sub_dispatch_ok. intros [[y1 f1] jns] hp [[y2 f2] kns] F. cbn [fst snd] in *. unfold tcp_eff. destruct jns as [|a jns]; [discriminate|].
    destruct (accept_packet y1 i (h_pid (fst hp)) (snd hp) false a) as [[y3 f3]| | |] eqn:Ea; cbn [bind fst snd]; [|discriminate..]. intros Q. injection Q as <- <- _.
    exact (SJ_trans _ _ _ _ _ _ F (accept_SJ _ _ _ _ _ _ _ _ _ N Ea)). }
  cbn [r_st fst snd r_buf r_code r_op] in *. set (x2 := set_tvec x1 _).
  assert (S2 : SJ j x x2 e1) by (rewrite <- (app_nil_r e1); apply (SJ_trans _ _ _ _ _ _ S); apply SJ_base; reflexivity || constructor).
  assert (Re : forall y, SJ j y y [SvConn (EvMod (c_desc c) i POLLREAD POLLREAD)]) by (intros y; apply SJ_base; try reflexivity; repeat constructor; cbn; congruence).
  destruct (cd =? ENOMEM).
  { intros Q. match type of Q with Ok (_, _, ?a, ?b) = _ => assert (x' = a /\ evs = b) as [-> ->] by (split; congruence) end. exact (SJ_trans _ _ _ _ _ _ S2 (Re _)). }
  destruct (cd =? EPIPE).
  { destruct (rmc_sub_close_connection x2 i) as [[x3 e3]| | |] eqn:E3; cbn [bind fst snd]; [|discriminate..]. intros Q. match type of Q with Ok (_, _, ?a, ?b) = _ => assert (x' = a /\ evs = b) as [-> ->] by (split; congruence) end.
    exact (SJ_trans _ _ _ _ _ _ S2 (sclose_SJ _ _ _ _ _ Hi N E3)). }
  destruct (process_received x2 i) as [[x3 e3]| | |] eqn:E3; cbn [bind fst snd]; [|discriminate..]. pose proof (process_SJ _ _ _ _ _ N E3) as S3.
  destruct (cd =? EPROTO).
  - destruct (rmc_sub_close_connection x3 i) as [[x4 e4]| | |] eqn:E4; cbn [bind fst snd]; [|discriminate..]. intros Q. match type of Q with Ok (_, _, ?a, ?b) = _ => assert (x' = a /\ evs = b) as [-> ->] by (split; congruence) end.
    exact (SJ_trans _ _ _ _ _ _ S2 (SJ_trans _ _ _ _ _ _ S3 (sclose_SJ _ _ _ _ _ Hi N E4))).
  - intros Q. match type of Q with Ok (_, _, ?a, ?b) = _ => assert (x' = a /\ evs = b) as [-> ->] by (split; congruence) end. exact (SJ_trans _ _ _ _ _ _ S2 (SJ_trans _ _ _ _ _ _ S3 (Re _))).
Qed.
Lemma swrite_SJ j x i o code op x' evs : 0 <= i -> j <> i -> rmc_sub_write x i o = Ok (code, op, x', evs) -> SJ j x x' evs.
Proof.
  intros Hi N. unfold rmc_sub_write. destruct (find_by_index _ _) as [[c|]| | |]; cbn [bind]; [| |discriminate..]; [|intros E; injection E as _ _ <- <-; apply SJ_refl].
  destruct (c_mode c =? CONNECTING).
  - cbv zeta. set (x1 := put_spub x i sub_init). destruct (complete_conn (t_vec x1) i (sw_cmp o)) as [[[cd v] ce]| | |] eqn:Ec; cbn [bind]; [|discriminate..].
    assert (P : forall v' evs', Forall (fun e => ~ sconcerns j e) evs' -> SJ j x (set_tvec x1 v') evs') by (intros v' evs' F; apply (SJ_put j x i sub_init); [exact N|reflexivity|reflexivity|reflexivity|intros p []|exact F]).
    assert (F1 : Forall (fun e => match e with EvAdd _ k _ | EvMod _ k _ _ | EvRem _ k => k = i | _ => True end) ce).
    { unfold complete_conn in Ec. destruct (slot _ _) as [c0| | |]; cbn [bind] in Ec; [|discriminate Ec..].
      destruct (sw_cmp o) as [e|so nd]; [|destruct (negb (so =? 0)); [|destruct (negb (nd =? 0))]].
      1-3: destruct (close_conn (t_vec x1) i) as [[[a w] e']| | |] eqn:Q; cbn [bind] in Ec; [|discriminate Ec..]; pose proof (close_events _ _ _ _ _ Hi Q); match type of Ec with Ok (_, _, ?l) = _ => assert (ce = l) as -> by congruence end; repeat constructor; assumption.
      match type of Ec with Ok (_, _, ?l) = _ => assert (ce = l) as -> by congruence end. repeat constructor. }
    destruct (negb (cd =? 0)).
    + cbn [set_tvec t_vec]. destruct (close_conn v i) as [[[a w] e']| | |] eqn:Q; cbn [bind]; [|discriminate..]. intros E. match type of E with Ok (_, _, ?a, ?b) = _ => assert (x' = a /\ evs = b) as [-> ->] by (split; congruence) end.
      apply (P w). apply (conns_away j i _ N). apply Forall_app. split; [exact F1|exact (close_events _ _ _ _ _ Hi Q)].
    + intros E. match type of E with Ok (_, _, ?a, ?b) = _ => assert (x' = a /\ evs = b) as [-> ->] by (split; congruence) end. apply (P v). apply Forall_app. split; [exact (conns_away j i _ N F1)|]. destruct (t_ccb x); repeat constructor; intros [].
  - destruct (_ =? 0); [intros E; injection E as _ _ <- <-; apply SJ_refl|]. destruct (tcp_write _ _) as [r| | |]; cbn [bind]; [|discriminate..]. intros E. injection E as _ _ <- <-. apply SJ_base; try reflexivity. repeat constructor; cbn; congruence.
Qed.
Lemma swrite_slot x i o code op x' evs : 0 <= i -> rmc_sub_write x i o = Ok (code, op, x', evs) -> fr i (t_vec x) (t_vec x').
Proof.
  intros Hi. unfold rmc_sub_write. destruct (find_by_index _ _) as [[c|]| | |] eqn:Ef; cbn [bind]; [| |discriminate..]; [|intros E; injection E as _ _ <- <-; apply fr_refl].
  destruct (c_mode c =? CONNECTING).
  - cbv zeta. set (x1 := put_spub x i sub_init). destruct (complete_conn (t_vec x1) i (sw_cmp o)) as [[[cd v] ce]| | |] eqn:Ec; cbn [bind]; [|discriminate..].
    assert (F1 : fr i (t_vec x) v).
    { unfold complete_conn in Ec. change (t_vec x1) with (t_vec x) in Ec. destruct (slot _ _) as [c0| | |]; cbn [bind] in Ec; [|discriminate Ec..].
      destruct (sw_cmp o) as [e|so nd]; [|destruct (negb (so =? 0)); [|destruct (negb (nd =? 0))]].
      1-3: destruct (close_conn (t_vec x) i) as [[[a w] e']| | |] eqn:Q; cbn [bind] in Ec; [|discriminate Ec..]; assert (v = w) as -> by congruence; exact (close_fr _ _ _ _ _ Hi Q).
      match type of Ec with Ok (_, ?y, _) = _ => assert (v = y) as -> by congruence end. apply fr_put. exact Hi. }
    destruct (negb (cd =? 0)).
    + cbn [set_tvec t_vec]. destruct (close_conn v i) as [[[a w] e']| | |] eqn:Q; cbn [bind]; [|discriminate..]. intros E. match type of E with Ok (_, _, ?a, ?b) = _ => assert (x' = a) as -> by congruence end.
      exact (fr_trans _ _ _ _ F1 (close_fr _ _ _ _ _ Hi Q)).
    + intros E. match type of E with Ok (_, _, ?a, ?b) = _ => assert (x' = a) as -> by congruence end. exact F1.
  - destruct (_ =? 0); [intros E; injection E as _ _ <- <-; apply fr_refl|]. destruct (tcp_write _ _) as [r| | |]; cbn [bind]; [|discriminate..]. intros E. injection E as _ _ <- <-. apply fr_put. exact Hi.
Qed.
Lemma sctrl_SJ j x i p ptr code x' evs : j <> i -> rmc_sub_write_control_message x i p ptr = Ok (code, x', evs) -> SJ j x x' evs /\ (0 <= i -> fr i (t_vec x) (t_vec x')).
Proof.
  intros N. assert (Same : forall c, Ok (c, x, []) = Ok (code, x', evs) -> SJ j x x' evs /\ (0 <= i -> fr i (t_vec x) (t_vec x'))).
  { intros c E. injection E as _ <- <-. split; [apply SJ_refl|intros _; apply fr_refl]. }
  unfold rmc_sub_write_control_message. destruct (_ || _); [apply Same|]. destruct (slot _ _) as [c| | |]; cbn [bind]; [|discriminate..]. destruct (negb _); [apply Same|].
  destruct (write_ctrl _ _ _) as [w| | |]; cbn [bind]; [|discriminate..]. destruct (negb _); [apply Same|]. cbv zeta. intros E. injection E as _ <- <-. split; [|intros Hi; apply fr_put; exact Hi].
  apply SJ_base; try reflexivity. repeat constructor; cbn; congruence.
Qed.

(** ** Multicast *)
Lemma find_from_slot v p : forall n ind i, find_from v p ind n = Ok (Some i) -> exists c, slot v i = Ok c /\ p c = true.
Proof.
  induction n as [|n IH]; intros ind i; cbn [find_from]; [discriminate|]. destruct (slot v ind) as [c| | |] eqn:Es; cbn [bind]; [|discriminate..].
  destruct (p c) eqn:Ep; [|apply IH]. intros E. assert (i = ind) as -> by congruence. exists c. auto.
Qed.
Lemma find_address_slot v a p i : find_by_address v a p = Ok (Some i) -> exists c, slot v i = Ok c /\ c_addr c = a /\ c_port c = p.
Proof.
  unfold find_by_address, find_conn. destruct (_ =? _); [discriminate|]. intros E. destruct (find_from_slot _ _ _ _ _ E) as (c & Hs & Hp). exists c. split; [exact Hs|].
  apply andb_prop in Hp. destruct Hp as [Hp H2]. apply andb_prop in Hp. destruct Hp as [_ H1]. lia.
Qed.
Lemma connect_events v addr port node o code ri v' evs : v_size v <= RMC_LISTEN_INDEX -> CM v -> connect_tcp v addr port node o = Ok (code, ri, v', evs) ->
  forall j c, is_open v j c -> Forall (fun e => ~ sconcerns j e) (map SvConn evs).
Proof.
  intros Hl Hc E j c Ho. assert (Hz : v_size v <= RMC_NIL_INDEX) by (unfold RMC_NIL_INDEX, RMC_LISTEN_INDEX in *; lia).
  destruct (connect_cases v addr port node o Hz) as [[_ Q]|(k & c0 & _ & Hs & Hd & Q)].
  { rewrite Q in E. assert (evs = []) as -> by congruence. constructor. }
  assert (Nk : j <> k) by (intros ->; destruct Ho as [H1 H2]; apply H2; assert (c = c0) as -> by congruence; exact (Hc _ _ Hs Hd)).
  apply (conns_away j k _ Nk). destruct o as [e|d ok errno]; [rewrite Q in E; assert (evs = []) as -> by congruence; constructor|].
  destruct Q as [(_ & _ & Q)|(_ & Q)]; rewrite Q in E; match type of E with Ok (_, _, _, ?l) = _ => assert (evs = l) as -> by congruence end; repeat constructor.
Qed.
Lemma smcast_SJ j c x src d o code op x' evs : v_size (t_vec x) <= RMC_LISTEN_INDEX -> CM (t_vec x) -> is_open (t_vec x) j c -> malformed d \/ origin src d <> (c_addr c, c_port c) -> sock_good (mi_sock o) -> 
  process_multicast_read x src d o = Ok (code, op, x', evs) -> SJ j x x' evs.
Proof.
  intros Hl Hc Ho Hd So. unfold process_multicast_read. destruct (Z.ltb_spec (zlen d) header_size) as [L1|L1]; [intros E; injection E as _ _ <- <-; apply SJ_refl|]. cbv zeta.
  destruct (Z.ltb_spec (zlen d) (header_size + h_len (dec_header d))) as [L2|L2]; [intros E; injection E as _ _ <- <-; apply SJ_refl|].
  destruct Hd as [Hd|Hd].
  { exfalso. apply malformed_dec in Hd. lia. }
  set (h := if _ =? 0 then _ else _). set (pl := ztake _ _).
  assert (Ho2 : (h_ip h, h_port h) = origin src d) by (unfold h, origin; destruct (_ =? 0); reflexivity).
  assert (Un : forall cd op1 y e, (do r <- decode_unsubscribed x h pl o; Ok (0, Some RMC_READ_MULTICAST_NOT_READY, fst r, snd r)) = Ok (cd, op1, y, e) -> SJ j x y e).
  { intros cd op1 y e. destruct (decode_unsubscribed x h pl o) as [[x1 e1]| | |] eqn:E1; cbn [bind fst snd]; [|discriminate..]. intros E. assert (y = x1 /\ e = e1) as [-> ->] by (split; congruence).
    unfold decode_unsubscribed in E1. destruct (negb (h_pid h =? 0)); [assert (x1 = x /\ e1 = []) as [-> ->] by (split; congruence); apply SJ_refl|]. cbv zeta in E1.
    set (ann := if t_acb x then [SvAnnounce (h_ip h) (h_port h) (h_node h) pl] else []) in *.
    assert (Fa : Forall (fun e => ~ sconcerns j e) ann) by (unfold ann; destruct (t_acb x); repeat constructor; intros []).
    destruct (if t_acb x then mi_answer o else true); [|assert (x1 = x /\ e1 = ann) as [-> ->] by (split; congruence); apply SJ_base; reflexivity || exact Fa].
    destruct (connect_tcp _ _ _ _ _) as [[[[? ?] v1] ce]| | |] eqn:Ec; cbn [bind] in E1; try discriminate E1. assert (x1 = set_tvec x v1 /\ e1 = ann ++ map SvConn ce) as [-> ->] by (split; congruence).
    apply SJ_base; try reflexivity. apply Forall_app. split; [exact Fa|exact (connect_events _ _ _ _ _ _ _ _ _ Hl Hc Ec j c Ho)]. }
  destruct (find_by_address (t_vec x) (h_ip h) (h_port h)) as [[i|]| | |] eqn:Ef; cbn [bind]; [| |discriminate..]; [|apply Un].
  destruct (find_address_slot _ _ _ _ Ef) as (c1 & Hs1 & A1 & A2). rewrite Hs1. cbn [bind]. destruct (c_mode c1 =? CONNECTING); [apply Un|].
  assert (Nj : j <> i) by (intros ->; apply Hd; rewrite <- Ho2; assert (c = c1) as -> by (destruct Ho; congruence); congruence).
  destruct (decode_subscribed x i h pl (mi_acc o)) as [[x1 e1]| | |] eqn:E1; cbn [bind fst snd]; [|discriminate..]. intros E. assert (x' = x1 /\ evs = e1) as [-> ->] by (split; congruence).
  unfold decode_subscribed in E1. destruct (h_pid h =? 0); [injection E1 as <- <-; apply SJ_refl|]. destruct (get_spub x i) as [s| | |]; cbn [bind] in E1; try discriminate E1.
  destruct (sub_is_duplicate s (h_pid h)); [injection E1 as <- <-; apply SJ_refl|]. exact (accept_SJ _ _ _ _ _ _ _ _ _ Nj E1).
Qed.
Lemma mread_SJ j c ins : forall x op code op' x' evs, v_size (t_vec x) <= RMC_LISTEN_INDEX -> CM (t_vec x) -> is_open (t_vec x) j c -> Forall mrecv_good ins ->
  (forall src bs m, In (McData src bs m) ins -> malformed (seen bs) \/ origin src (seen bs) <> (c_addr c, c_port c)) -> mread_loop x op ins = Ok (code, op', x', evs) -> SJ j x x' evs.
Proof.
  induction ins as [|m ins IH]; intros x op code op' x' evs Hl Hc Ho Hg Hd; cbn [mread_loop]; [intros E; injection E as _ _ <- <-; apply SJ_refl|].
  pose proof (Forall_inv Hg) as Hm. pose proof (Forall_inv_tail Hg) as Hrest.
  destruct m as [|e|src bs o]; [intros E; injection E as _ _ <- <-; apply SJ_refl..|]. cbv zeta. destruct Hm as (_ & _ & So).
  destruct (process_multicast_read x src _ o) as [[[[cd op1] x1] e1]| | |] eqn:E1; cbn [bind]; [|discriminate..].
  destruct (smcast_st0 _ _ _ _ _ _ _ _ Hl Hc So E1) as (A1 & A2 & _).
  pose proof (smcast_SJ j c _ _ _ _ _ _ _ _ Hl Hc Ho (Hd src bs o (or_introl eq_refl)) So E1) as S1.
  assert (S0 : SJ j x x1 (SvDgram src (ztake RMC_MAX_PACKET bs) :: e1)).
  { apply (SJ_trans j x x x1 [SvDgram src (ztake RMC_MAX_PACKET bs)] e1); [|exact S1]. apply SJ_base; try reflexivity. repeat constructor; intros []. }
  destruct (negb (cd =? 0)); [intros E; match type of E with Ok (_, _, ?a, ?b) = _ => assert (x' = a /\ evs = b) as [-> ->] by (split; congruence) end; exact S0|].
  destruct (mread_loop x1 _ ins) as [[[[cd2 op3] x2] e2]| | |] eqn:E2; cbn [bind]; [|discriminate..]. intros E. match type of E with Ok (_, _, ?a, ?b) = _ => assert (x' = a /\ evs = b) as [-> ->] by (split; congruence) end.
  refine (SJ_trans j x x1 x2 (_ :: e1) e2 S0 _). apply (IH x1 _ _ _ _ _ ltac:(rewrite (proj2 A1); exact Hl) A2 ltac:(split; [exact (proj1 A1 j c Ho)|exact (proj2 Ho)]) Hrest (fun s b m H => Hd s b m (or_intror H)) E2).
Qed.

(** ** The theorem *)
Lemma own_ev j s e : ~ sconcerns j e -> own_part (ts_ev j s e) = own_part s.
Proof.
  intros H. destruct s. unfold ts_ev, own_part. destruct e as [[| | | |]| | | | | | | | | | | | | | |]; cbn [sconcerns] in H; try reflexivity;
    match goal with |- context [?a =? j] => destruct (Z.eqb_spec a j); [contradiction|reflexivity] end.
Qed.
Lemma own_since j log evs : Forall (fun e => ~ sconcerns j e) evs -> own_part (ts_open j (log ++ evs)) = own_part (ts_open j log).
Proof.
  unfold ts_open. rewrite fold_left_app. generalize (fold_left (ts_ev j) log ts_empty). induction evs as [|e evs IH]; intros s H; [reflexivity|]. cbn [fold_left].
  rewrite (IH _ (Forall_inv_tail H)). exact (own_ev j s e (Forall_inv H)).
Qed.
(** A call that is not for connection [j] leaves that connection as it was: its state with the
    bytes buffered for it in either direction, the packets received but not in sequence, the
    identifiers still to be acknowledged and the times they wait since, whether it is in line for
    the acknowledgement timer; its packets stay ready until the application takes them and none is
    added; what was sent and received on it, accepted, delivered, acknowledged and given up; and
    the library does nothing to its socket. *)
Theorem c95_subscriber : forall x log o j c code x' evs, sreached false x log -> yok x log o ->
  slot (t_vec x) j = Ok c -> c_mode c <> CLOSED -> elsewhere o j (c_addr c, c_port c) -> ystep x o = Ok (code, x', evs) ->
  slot (t_vec x') j = Ok c /\ t_pubs x' j = t_pubs x j /\ (In j (t_ack x') <-> In j (t_ack x)) /\ ready_same j x x' evs /\
  own_part (ts_open j (log ++ evs)) = own_part (ts_open j log) /\ Forall (fun e => ~ sconcerns j e) evs.
Proof.
  intros x log o j c code x' evs R Hok Hs Hm He E. destruct (sreached_inv _ _ _ R) as (B & M & _). pose proof (bi_vec _ B) as V. pose proof (tv_size _ V) as Hl.
  assert (Hc : CM (t_vec x)) by (intros k d H; exact (proj1 (proj1 (tv_mode _ V k d H)))). assert (Ho : is_open (t_vec x) j c) by (split; assumption). pose proof (slot_range _ _ _ Hs) as Rj.
  assert (W : Wn j x) by (intros i p N H; rewrite (proj1 (mi_user _ _ M i p H)); exact N).
  assert (Fin : SJ j x x' evs -> slot (t_vec x') j = Ok c -> slot (t_vec x') j = Ok c /\ t_pubs x' j = t_pubs x j /\ (In j (t_ack x') <-> In j (t_ack x)) /\ ready_same j x x' evs /\
    own_part (ts_open j (log ++ evs)) = own_part (ts_open j log) /\ Forall (fun e => ~ sconcerns j e) evs).
  { intros S H. destruct (S W) as (_ & A2 & A3 & A4 & A5). split; [exact H|]. split; [exact A2|]. split; [exact A3|]. split; [exact A4|]. split; [exact (own_since j log evs A5)|exact A5]. }
  destruct o as [i o|i o|now|i|a keep|ptr|i p ptr|a port p ptr|n p ptr|a b d|o|]; cbn [elsewhere] in He; try contradiction; cbn [ystep] in E.
  - destruct (rmc_sub_read x i o) as [[[[cd op] x1] e1]| | |] eqn:E1; cbn [bind] in E; [|discriminate E..]. injection E as -> -> ->. destruct o as [ins|t ins].
    + cbn [rmc_sub_read] in E1. unfold multicast_read in E1. destruct (t_mcast x =? -1); cbn [bind] in E1.
      * assert (x' = x /\ evs = []) as [-> ->] by (split; congruence). apply Fin; [apply SJ_refl|exact Hs].
      * destruct (mread_loop x RMC_ERROR ins) as [[[[cd1 op1] x1] e1]| | |] eqn:E2; cbn [bind] in E1; [|discriminate E1..].
        match type of E1 with Ok (_, _, ?a, ?b) = _ => assert (x' = a /\ evs = b) as [-> ->] by (split; congruence) end.
        destruct (mread_st0 _ _ _ _ _ _ _ Hl Hc Hok E2) as [(S0 & _) _]. apply Fin; [|exact (S0 j c Ho)].
        apply (SJ_trans _ _ _ _ _ _ (mread_SJ j c ins _ _ _ _ _ _ Hl Hc Ho Hok He E2)). apply SJ_base; try reflexivity.
        repeat constructor; cbn [sconcerns]; unfold RMC_MULTICAST_INDEX, RMC_LISTEN_INDEX in *; lia.
    + destruct Hok as [Hi Hb]. apply Fin; [exact (sread_SJ j x i t ins _ _ _ _ (proj1 Hi) He E1)|].
      destruct (Z.eq_dec i RMC_MULTICAST_INDEX) as [Ei|Ni].
      * cbn [rmc_sub_read] in E1. destruct (find_index_cases (t_vec x) i (proj1 Hi)) as [[Q _]|(c0 & _ & [H0 _])].
        { rewrite Q in E1. cbn [bind] in E1. assert (x' = x) as -> by congruence. exact Hs. }
        pose proof (slot_range _ _ _ H0). unfold RMC_MULTICAST_INDEX, RMC_LISTEN_INDEX in *. lia.
      * set (n := mkSin [] t ins (mkSw (CmpOk 0 0) (WOk 0))). assert (En : SrTcp t ins = sub_rd i n) by (unfold sub_rd; rewrite (proj2 (Z.eqb_neq i _) Ni); reflexivity).
        rewrite En in E1. assert (Hn : sin_ok n) by (split; [constructor|split; [exact Hb|split; [cbn; unfold is_u32; lia|exact Logic.I]]]).
        destruct (sread_fr x i n _ _ _ _ (proj1 Hi) Hl Hc Hn E1) as ((Fr & _) & _). exact (Fr j c He Ho).
  - destruct (rmc_sub_write x i o) as [[[[cd op] x1] e1]| | |] eqn:E1; cbn [bind] in E; [|discriminate E..]. injection E as -> -> ->. destruct Hok as [Hi _].
    apply Fin; [exact (swrite_SJ j x i o _ _ _ _ (proj1 Hi) He E1)|]. exact (proj1 (swrite_slot x i o _ _ _ _ (proj1 Hi) E1) j c He Ho).
  - destruct (rmc_sub_close_connection x i) as [[x1 e1]| | |] eqn:E1; cbn [bind fst snd] in E; [|discriminate E..]. injection E as _ -> ->. cbn [yok] in Hok.
    apply Fin; [exact (sclose_SJ j x i _ _ (proj1 Hok) He E1)|]. exact (proj1 (proj1 (sclose_fr x i _ _ (proj1 Hok) E1)) j c He Ho).
  - apply Fin; [exact (dispatched_SJ j _ _ _ _ _ _ E)|]. revert E. unfold rmc_sub_packet_dispatched, dispatched_keep_payload. destruct (unlink_packet a (t_ready x)) as [[p r]|]; [|intros E; assert (x' = x) as -> by congruence; exact Hs].
    cbv zeta beta. destruct keep; [intros E; match type of E with Ok (_, ?a, _) = _ => assert (x' = a) as -> by congruence end; exact Hs|].
    destruct (free_payloads _ _) as [[m fe]| | |]; cbn [bind fst snd]; [|discriminate..]. intros E. match type of E with Ok (_, ?a, _) = _ => assert (x' = a) as -> by congruence end. exact Hs.
  - assert (x' = set_tmem x (tupd (t_mem x) ptr None) /\ evs = [SvAppFree ptr]) as [-> ->] by (split; congruence). apply Fin; [|exact Hs]. apply SJ_base; try reflexivity. repeat constructor; intros [].
  - destruct Hok as [Hi _]. destruct (sctrl_SJ j x i p ptr _ _ _ He E) as [S F]. apply Fin; [exact S|]. exact (proj1 (F Hi) j c He Ho).
Qed.
Print Assumptions c95_subscriber.

(** In the demo history both subscribers owe packets 1 and 2.  Reading subscriber 0's
    acknowledgement of packet 1, and closing its connection, leave subscriber 1 owing both. *)
Example c95_publisher_witness : exists x g log c, reached x g log /\ slot (x_vec x) 1 = Ok c /\ c_mode c = CONNECTED /\ owesb x 1 1 = true /\ owesb x 1 2 = true /\ queued x <> [] /\
  forall o, o = XRead 0 (RdTcp (RData (wire (CmdAck 1 1)))) \/ o = XClose 0 -> xok x g o /\ only_for o 0 /\
    exists code x' evs, xstep x o = Ok (code, x', evs) /\ evs <> [] /\ owesb x 0 1 = true /\ owesb x' 0 1 = false /\ owesb x' 1 1 = true /\ owesb x' 1 2 = true.
Proof.
  destruct (xcheck_hist demo0 demo_ops (fun x g log => match slot (x_vec x) 1 with Ok c => c_mode c =? CONNECTED | _ => false end && owesb x 1 1 && owesb x 1 2 && owesb x 0 1 &&
    match queued x with [] => false | _ => true end &&
    forallb (fun o => match xstep x o with Ok (_, x', e :: _) => negb (owesb x' 0 1) && owesb x' 1 1 && owesb x' 1 2 | _ => false end)
      [XRead 0 (RdTcp (RData (wire (CmdAck 1 1)))); XClose 0])) as (x & g & log & H & E); [vm_compute; reflexivity|].
  cbn [forallb] in E. bool_split. destruct (slot (x_vec x) 1) as [c| | |] eqn:Ec; try discriminate.
  exists x, g, log, c. split; [exists demo0, demo_ops; split; [exact demo0_fresh|exact H]|]. split; [exact Ec|]. split; [lia|]. split; [assumption|]. split; [assumption|]. split; [destruct (queued x); discriminate|].
  intros o [-> | ->]; (split; [cbn [xok]; lia || (split; [lia|]; apply bytesb_ok; vm_compute; reflexivity)|]); (split; [reflexivity|]);
    match goal with |- exists _ _ _, ?h = _ /\ _ => destruct h as [[[cd y] [|e l]]| | |]; try discriminate end; exists cd, y, (e :: l); bool_split; repeat split; try assumption; try discriminate; destruct (owesb y 0 1); (reflexivity || discriminate).
Qed.
(** Two publishers: 77 (connection 0) with a packet ready, one out of sequence and both to be
    acknowledged, and 78 (connection 1). *)
Definition from78 (pid : Z) (bs : list Z) (ptr now : Z) (s : sock_res) : mrecv := McData 78 (dgram pid bs) (mkMi true s (mkAi ptr now [])).
Definition two_ops : list yop := sdemo_ops ++ [mcast_in [from78 0 [65] 0 0 (SockOk 5 false EINPROGRESS)]; establish 1; mcast_in [from78 3 [30] 300 1200 (SockErr 1)]].
Definition two_calls : list yop := [YClose 1; mcast_in [from78 4 [40] 400 1300 (SockErr 1); from78 6 [60] 500 1400 (SockErr 1)]; YRead 1 (SrTcp (RData []) [])].
Example c95_subscriber_witness : exists x log c, sreached false x log /\ slot (t_vec x) 0 = Ok c /\ c_mode c <> CLOSED /\
  map sk_pid (waiting x 0) = [7] /\ map iv_first (pending_acks x 0) = [5; 7] /\ (exists p, In p (t_ready x) /\ sk_user p = 0) /\ In 0 (t_ack x) /\
  forall o, In o two_calls -> yok x log o /\ elsewhere o 0 (c_addr c, c_port c) /\ exists code x' evs, ystep x o = Ok (code, x', evs) /\ evs <> [].
Proof.
  destruct (ycheck_hist false sdemo0 two_ops (fun x log => match slot (t_vec x) 0 with Ok c => (c_mode c =? CONNECTED) && (c_addr c =? 77) | _ => false end &&
    match map sk_pid (waiting x 0), map iv_first (pending_acks x 0) with [b], [c; d] => (b =? 7) && (c =? 5) && (d =? 7) | _, _ => false end &&
    match t_ready x with p :: _ => sk_user p =? 0 | _ => false end && existsb (Z.eqb 0) (t_ack x) &&
    forallb (fun o => match ystep x o with Ok (_, _, _ :: _) => true | _ => false end) two_calls)) as (x & log & H & E); [vm_compute; reflexivity|].
  apply andb_prop in E. destruct E as [E Ec]. bsplit. destruct (slot (t_vec x) 0) as [c| | |] eqn:Es; try discriminate. bsplit.
  exists x, log, c. split; [exists sdemo0, two_ops; split; [exact sdemo0_fresh|exact H]|]. split; [exact Es|]. split; [unfold CONNECTED, CLOSED in *; lia|].
  destruct (map sk_pid (waiting x 0)) as [|b [|]]; try discriminate. destruct (map iv_first (pending_acks x 0)) as [|a [|d [|]]]; try discriminate. bsplit.
  split; [f_equal; lia|]. split; [f_equal; [lia|f_equal; lia]|]. split; [destruct (t_ready x) as [|p r]; [discriminate|]; exists p; split; [left; reflexivity|lia]|].
  split; [match goal with G : existsb _ _ = true |- _ => apply existsb_exists in G; destruct G as (z & G1 & G2); apply Z.eqb_eq in G2; subst z; exact G1 end|].
  rewrite forallb_forall in Ec. intros o Ho. specialize (Ec o Ho). split; [|split].
  - destruct Ho as [<-|[<-|[<-|[]]]]; cbn [yok mcast_in]; [lia| |split; [lia|constructor]]. repeat constructor; apply bytesb_ok || unfold is_u32; try (vm_compute; reflexivity); lia.
  - destruct Ho as [<-|[<-|[<-|[]]]]; cbn [elsewhere mcast_in]; try discriminate. intros src bs m [Q|[Q|[]]]; injection Q as <- <- _; right; replace (c_addr c) with 77 by lia; vm_compute; intros Q; discriminate Q.
  - destruct (ystep x o) as [[[cd y] [|e l]]| | |]; try discriminate. exists cd, y, (e :: l). split; [reflexivity|discriminate].
Qed.
