(** PollSub.v — the polling requests of a subscriber context. *)
From Verif Require Import Base CircBuf CircBufProofs Wire SeqList Sub SpecSub SubProofs Proto SpecProto ProtoProofs
  Conn SpecConn ConnProofs Safe PubCtx SpecPubCtx SubCtx SpecSubCtx SubSteps SubMem SubDecomp SubInv SpecPoll PollPub.

Lemma spolls_app a b : sub_polls (a ++ b) = sub_polls a ++ sub_polls b.
Proof. apply flat_map_app. Qed.
Lemma spolls_conn l : sub_polls (map SvConn l) = l.
Proof. induction l as [|e l IH]; [reflexivity|]. cbn. f_equal. exact IH. Qed.
Definition at_ind (i : Z) (e : cev) : Prop :=
  match e with EvAdd _ k _ | EvMod _ k _ _ | EvRem _ k => k = i | _ => True end.
Lemma asked_not_at i j l : j <> i -> Forall (at_ind i) l -> forall a, asked j (a ++ l) = asked j a.
Proof.
  intros N F a. rewrite asked_app. generalize (asked j a). clear a. induction F as [|e l He F IH]; intros a; [reflexivity|]. cbn [fold_left]. rewrite IH.
  destruct e; cbn in He |- *; try reflexivity; subst; replace (i =? j) with false by lia; reflexivity.
Qed.

Definition conn_asked (b : bool) (c : conn) (a : option (Z * Z)) : Prop :=
  (c_mode c = CLOSED -> a = None) /\
  (c_mode c = CONNECTING -> a = Some (c_desc c, POLLWRITE) /\ want (c_wbuf c) = POLLREAD) /\
  (c_mode c = CONNECTED -> c_action c = want (c_wbuf c) /\
     (a = Some (c_desc c, want (c_wbuf c)) \/ (b = false /\ a = Some (c_desc c, POLLREAD)))).
Record SPI (b b2 : bool) (x : sctx) (log : list sev) : Prop := mkSPI {
  sp_tv : TV (t_vec x);
  sp_conn : forall i c, slot (t_vec x) i = Ok c -> conn_asked b c (asked i (sub_polls log));
  sp_off : t_mcast x = -1 -> asked RMC_MULTICAST_INDEX (sub_polls log) = None;
  sp_on : t_mcast x <> -1 -> asked RMC_MULTICAST_INDEX (sub_polls log) = Some (t_mcast x, POLLREAD) \/
            (b2 = false /\ asked RMC_MULTICAST_INDEX (sub_polls log) = None)
}.
(** What the handlers maintain holds after tcp_read. *)
Section Read.
Context {St : Type} (dispatch : Z -> option (St -> cbuf -> res (Z * St * cbuf))) (P : St -> Prop).
Hypothesis handler : forall cmd h st rb code st' rb', dispatch cmd = Some h -> P st -> h st rb = Ok (code, st', rb') -> P st'.
Lemma round_ok st rb prev : P st ->
  match read_round dispatch (st, rb, prev) with
  | inl x => P (fst (fst x))
  | inr r => forall o, r = Ok o -> P (r_st o)
  end.
Proof.
  intros H. unfold read_round. destruct (read_cmd rb prev) as [[e cmd]|u| |]; [|discriminate..].
  destruct (negb (e =? 0)); [intros o E; injection E as <-; exact H|]. destruct (dispatch cmd) as [h|] eqn:Ed; [|intros o E; injection E as <-; exact H].
  destruct (h st rb) as [[[code st'] rb']|u| |] eqn:Eh; [|discriminate..]. pose proof (handler _ _ _ _ _ _ _ Ed H Eh) as H'.
  destruct (negb (code =? 0)); [intros o E; injection E as <-; exact H'|]. destruct (_ =? 0); [intros o E; injection E as <-; exact H'|exact H'].
Qed.
Lemma rounds_ok n : forall st rb prev, P st ->
  match iter_nat n (read_round dispatch) (st, rb, prev) with
  | inl x => P (fst (fst x))
  | inr r => forall o, r = Ok o -> P (r_st o)
  end.
Proof.
  induction n as [|n IH]; intros st rb prev H; cbn [iter_nat]; [exact H|]. pose proof (round_ok st rb prev H) as R.
  destruct (read_round dispatch (st, rb, prev)) as [[[st' rb'] prev']|r]; [|exact R]. apply IH. exact R.
Qed.
Lemma tcp_read_ok st rb o r : P st -> tcp_read dispatch st rb o = Ok r -> P (r_st r).
Proof.
  intros H. unfold tcp_read. destruct (tcp_fill rb o) as [[[code op] rb1]| | |]; cbn [bind]; [|discriminate..].
  destruct (code =? 0); [|intros E; injection E as <-; exact H]. unfold process_tcp_read. rewrite iterate_nat.
  pose proof (rounds_ok (Pos.to_nat 4294967296) st rb1 0 H) as R. destruct (iter_nat _ _ _) as [x|q]; [discriminate|]. apply R.
Qed.
End Read.
Lemma sub_dispatch_ok {St} (dup : St -> Z -> bool) (eff : St -> header * list Z -> res St) (P : St -> Prop) :
  (forall st hp st', P st -> eff st hp = Ok st' -> P st') ->
  forall cmd h st rb code st' rb', sub_dispatch dup eff cmd = Some h -> P st -> h st rb = Ok (code, st', rb') -> P st'.
Proof.
  intros He cmd h st rb code st' rb' E HP. unfold sub_dispatch in E. destruct (cmd =? RMC_CMD_PACKET); [|discriminate]. injection E as <-.
  destruct (parse_packet _ _) as [[e|[[hd [p|]] rb1]]| | |]; cbn [bind]; [| | |discriminate..]; [intros E; injection E as _ <- _; exact HP| |intros E; injection E as _ <- _; exact HP].
  destruct (eff st (hd, p)) as [s1| | |] eqn:Ee; cbn [bind]; [|discriminate..]. intros E. injection E as _ <- _. exact (He _ _ _ HP Ee).
Qed.

Section S.
Variables b b2 : bool.
Definition VP (x : sctx) (evs : list sev) (x' : sctx) : Prop := forall log, SPI b b2 x log -> SPI b b2 x' (log ++ evs).
Lemma VP_trans x e1 y e2 z : VP x e1 y -> VP y e2 z -> VP x (e1 ++ e2) z.
Proof. intros H1 H2 log I. rewrite app_assoc. apply H2, H1, I. Qed.
Lemma VP_same x x' evs : t_vec x' = t_vec x -> t_mcast x' = t_mcast x -> sub_polls evs = [] -> VP x evs x'.
Proof.
  intros E1 E2 E3 log [I1 I2 I3 I4]. constructor; rewrite ?E1, ?E2, ?spolls_app, ?E3, ?app_nil_r; assumption.
Qed.
Lemma VP_refl x : VP x [] x.
Proof. apply VP_same; reflexivity. Qed.
Lemma VP_upd x x' evs i c' : TV (t_vec x') -> slot (t_vec x') i = Ok c' -> (forall j, j <> i -> slot (t_vec x') j = slot (t_vec x) j) ->
  t_mcast x' = t_mcast x -> Forall (at_ind i) (sub_polls evs) ->
  forall log, SPI b b2 x log -> conn_asked b c' (asked i (sub_polls (log ++ evs))) -> SPI b b2 x' (log ++ evs).
Proof.
  intros T Hs Ho Em F log [I1 I2 I3 I4] A. constructor.
  - exact T.
  - intros j d Hd. destruct (Z.eq_dec j i) as [->|N]; [assert (d = c') as -> by congruence; exact A|].
    rewrite (Ho j N) in Hd. rewrite spolls_app, (asked_not_at i j _ N F). exact (I2 j d Hd).
  - pose proof (slot_range _ _ _ Hs) as R. pose proof (tv_size _ T) as Sz. rewrite Em, spolls_app, (asked_not_at i) by (assumption || (unfold RMC_LISTEN_INDEX, RMC_MULTICAST_INDEX in *; lia)). exact I3.
  - pose proof (slot_range _ _ _ Hs) as R. pose proof (tv_size _ T) as Sz. rewrite Em, spolls_app, (asked_not_at i) by (assumption || (unfold RMC_LISTEN_INDEX, RMC_MULTICAST_INDEX in *; lia)). exact I4.
Qed.
(** An open connection is updated in place. *)
Lemma VP_put x i c c' evs : slot (t_vec x) i = Ok c -> c_mode c <> CLOSED -> c_mode c' = c_mode c -> c_desc c' = c_desc c ->
  cb_wf (c_wbuf c') -> cb_size (c_wbuf c') = RMC_MAX_PACKET -> Forall (at_ind i) (sub_polls evs) ->
  (forall log, SPI b b2 x log -> conn_asked b c (asked i (sub_polls log)) -> conn_asked b c' (asked i (sub_polls (log ++ evs)))) ->
  forall v, v = put_slot (t_vec x) i c' -> VP x evs (set_tvec x v).
Proof.
  intros Hs Ho Em Ed W1 W2 F A v -> log I. pose proof (slot_range _ _ _ Hs) as R. apply (VP_upd x _ evs i c'); auto.
  - cbn [set_tvec t_vec]. exact (TV_io _ i c c' (sp_tv _ _ _ _ I) Hs Ho Em Ed W1 W2).
  - cbn [set_tvec t_vec]. apply slot_put_same. exact R.
  - intros j N. cbn [set_tvec t_vec]. apply slot_put_other; [lia|exact N].
  - apply A; [exact I|]. exact (sp_conn _ _ _ _ I i c Hs).
Qed.
Lemma VP_mod x evs : sub_polls evs = [] -> VP x (evs ++ [SvConn (EvMod (t_mcast x) RMC_MULTICAST_INDEX POLLREAD POLLREAD)]) x \/ t_mcast x = -1.
Proof.
  intros E. destruct (Z.eq_dec (t_mcast x) (-1)) as [?|N]; [right; assumption|left]. intros log [I1 I2 I3 I4].
  assert (P : sub_polls (log ++ evs ++ [SvConn (EvMod (t_mcast x) RMC_MULTICAST_INDEX POLLREAD POLLREAD)]) = sub_polls log ++ [EvMod (t_mcast x) RMC_MULTICAST_INDEX POLLREAD POLLREAD])
    by (rewrite !spolls_app, E; reflexivity).
  constructor; rewrite ?P; auto.
  - intros i c Hs. rewrite (asked_not_at RMC_MULTICAST_INDEX i); [exact (I2 i c Hs)| |repeat constructor].
    pose proof (slot_range _ _ _ Hs). pose proof (tv_size _ I1). unfold RMC_LISTEN_INDEX, RMC_MULTICAST_INDEX in *. lia.
  - intros Em. contradiction.
  - intros _. left. rewrite asked_app. reflexivity.
Qed.
(** Closing. *)
Lemma VP_close x i v code evs : 0 <= i -> close_conn (t_vec x) i = Ok (code, v, evs) -> forall pre,
  (forall c, slot (t_vec x) i = Ok c -> c_mode c = CLOSED -> pre = []) -> Forall (at_ind i) pre -> (v_size (t_vec x) <= i -> pre = []) -> VP x (map SvConn (pre ++ evs)) (set_tvec x v).
Proof.
  intros Hi E pre Hp Fp Hz. destruct (close_cases (t_vec x) i Hi) as [[L Ec]|[(c & Hs & Hm & Ec)|(c & [Hs Ho] & Ec)]].
  - rewrite (Hz L). assert (v = t_vec x /\ evs = []) as [-> ->] by (split; congruence). apply VP_same; reflexivity.
  - rewrite (Hp c Hs Hm). assert (v = t_vec x /\ evs = []) as [-> ->] by (split; congruence). apply VP_same; reflexivity.
  - cbv zeta in Ec. destruct (close_open _ _ _ Hs Ho) as [v1 E1]. assert (code = 0 /\ v1 = v /\ evs = [EvRem (c_desc c) i; EvClose (c_desc c)]) as (-> & -> & ->) by (repeat split; congruence).
    intros log I. destruct (TV_close _ i c v (sp_tv _ _ _ _ I) Hs Ho E1) as (T & Sz & S1 & S2).
    apply (VP_upd x _ _ i (reset_conn c)); auto.
    + rewrite spolls_conn. apply Forall_app. split; [exact Fp|]. repeat constructor.
    + rewrite spolls_app, spolls_conn, app_assoc, asked_app. cbn [fold_left asked_ev]. rewrite Z.eqb_refl.
      split; [reflexivity|]. split; intros H; discriminate H.
Qed.
Lemma sub_close_VP x i x' evs : 0 <= i -> rmc_sub_close_connection x i = Ok (x', evs) -> VP x evs x'.
Proof.
  intros Hi. unfold rmc_sub_close_connection. destruct (close_conn (t_vec x) i) as [[[code v] ce]| | |] eqn:E; cbn [bind]; [|discriminate..].
  destruct (get_spub _ i) as [s| | |]; cbn [bind]; [|discriminate..]. destruct (sub_reset s) as [s' fr]. destruct (free_payloads _ _) as [[m fe]| | |] eqn:Ef; cbn [bind fst snd]; [|discriminate..].
  intros H. injection H as <- <-.
  assert (F : sub_polls fe = []).
  { revert Ef. cbn [set_tvec t_mem]. generalize (map fst fr) (t_mem x). clear. intros l. revert m fe. induction l as [|[p n] l IH]; intros m fe m0; cbn [free_payloads]; [intros E; injection E as <- <-; reflexivity|].
    destruct (m0 p); cbn [bind]; try discriminate. destruct (free_payloads _ l) as [[m1 e1]| | |] eqn:E1; cbn [bind fst snd]; [|discriminate..]. intros E. injection E as <- <-. cbn [sub_polls flat_map app]. exact (IH _ _ _ E1). }
  eapply VP_trans; [|apply (VP_same (set_tvec x v)); [reflexivity|reflexivity|exact F]].
  exact (VP_close x i v code ce Hi E [] (fun _ _ _ => eq_refl) (Forall_nil _) (fun _ => eq_refl)).
Qed.

(** Calls that leave the connections alone. *)
Definition FR (x x' : sctx) (evs : list sev) : Prop := t_vec x' = t_vec x /\ t_mcast x' = t_mcast x /\ sub_polls evs = [].
Lemma FR_refl x : FR x x [].
Proof. repeat split. Qed.
Lemma FR_trans x y z e1 e2 : FR x y e1 -> FR y z e2 -> FR x z (e1 ++ e2).
Proof. intros (A1 & A2 & A3) (B1 & B2 & B3). unfold FR. rewrite spolls_app, A3, B3. split; [congruence|]. split; [congruence|reflexivity]. Qed.
Lemma FR_VP x x' evs : FR x x' evs -> VP x evs x'.
Proof. intros (A & B & C). apply VP_same; assumption. Qed.
Lemma free_polls l : forall m m' fe, free_payloads m l = Ok (m', fe) -> sub_polls fe = [].
Proof.
  induction l as [|[p n] l IH]; intros m m' fe; cbn [free_payloads]; [intros E; injection E as <- <-; reflexivity|].
  destruct (m p); cbn [bind]; try discriminate. destruct (free_payloads _ l) as [[m1 e1]| | |] eqn:E1; cbn [bind fst snd]; [|discriminate..]. intros E. injection E as <- <-. cbn [sub_polls flat_map app]. exact (IH _ _ _ E1).
Qed.
Lemma dispatched_FR x a keep code x' evs : rmc_sub_packet_dispatched x a keep = Ok (code, x', evs) -> FR x x' evs.
Proof.
  unfold rmc_sub_packet_dispatched, dispatched_keep_payload. destruct (unlink_packet a (t_ready x)) as [[p r]|].
  - destruct keep; [intros E; injection E as _ <- <-; repeat split|]. destruct (free_payloads _ _) as [[m fe]| | |] eqn:E1; cbn [bind fst snd]; [|discriminate..].
    intros E. injection E as _ <- <-. split; [reflexivity|]. split; [reflexivity|]. cbn [sub_polls flat_map app]. exact (free_polls _ _ _ _ E1).
  - intros E. injection E as _ <- <-. apply FR_refl.
Qed.
Lemma ready_FR ops : forall x x' evs, ready_cb x ops = Ok (x', evs) -> FR x x' evs.
Proof.
  induction ops as [|[a keep] ops IH]; intros x x' evs; cbn [ready_cb]; [intros E; injection E as <- <-; apply FR_refl|].
  destruct (rmc_sub_packet_dispatched x a keep) as [[[cd x1] e1]| | |] eqn:E1; cbn [bind]; [|discriminate..].
  destruct (ready_cb x1 ops) as [[x2 e2]| | |] eqn:E2; cbn [bind fst snd]; [|discriminate..]. intros E. injection E as <- <-.
  exact (FR_trans _ _ _ _ _ (dispatched_FR _ _ _ _ _ _ E1) (IH _ _ _ E2)).
Qed.
Lemma process_FR x i x' evs : process_received x i = Ok (x', evs) -> FR x x' evs.
Proof.
  unfold process_received. destruct (get_spub x i) as [s| | |]; cbn [bind]; [|discriminate..]. destruct (sub_process s) as [s' out]. intros E. injection E as <- <-.
  split; [reflexivity|]. split; [reflexivity|]. induction out as [|p out IH]; [reflexivity|exact IH].
Qed.
Lemma accept_FR x i pid bs mc o x' evs : accept_packet x i pid bs mc o = Ok (x', evs) -> FR x x' evs.
Proof.
  unfold accept_packet. destruct (_ || _); [discriminate|]. cbv zeta.
  match goal with |- bind ?h _ = _ -> _ => destruct h as [x2| | |] eqn:E2 end; cbn [bind]; [|discriminate..].
  assert (A : t_vec x2 = t_vec x /\ t_mcast x2 = t_mcast x).
  { destruct mc; [unfold rmc_sub_packet_received in E2|unfold tcp_packet_received in E2]; destruct (get_spub _ i) as [s| | |]; cbn [bind] in E2; try discriminate E2; injection E2 as <-; [destruct (_ =? 0)|]; split; reflexivity. }
  destruct (process_received x2 i) as [[x3 e3]| | |] eqn:E3; cbn [bind fst snd]; [|discriminate..]. pose proof (process_FR _ _ _ _ E3) as (B1 & B2 & B3).
  destruct (_ && _).
  - destruct (ready_cb x3 _) as [[x4 e4]| | |] eqn:E4; cbn [bind fst snd]; [|discriminate..]. intros E. injection E as <- <-. pose proof (ready_FR _ _ _ _ E4) as (C1 & C2 & C3).
    split; [rewrite C1, B1; tauto|]. split; [rewrite C2, B2; tauto|].
    change (sub_polls (e3 ++ SvReady :: e4) = []). rewrite spolls_app, B3. exact C3.
  - intros E. injection E as <- <-. split; [rewrite B1; tauto|]. split; [rewrite B2; tauto|]. exact B3.
Qed.
(** Connecting. *)
Lemma want_fresh c : fresh_rings c -> want (c_wbuf c) = POLLREAD.
Proof. intros F. destruct (ring_fresh c F) as (W & _ & C). unfold want. rewrite (in_use_contents _ W), C. reflexivity. Qed.
Lemma connect_VP x addr port node o code j v ce : sock_good o -> connect_tcp (t_vec x) addr port node o = Ok (code, j, v, ce) -> VP x (map SvConn ce) (set_tvec x v).
Proof.
  intros Ho E log I. pose proof (sp_tv _ _ _ _ I) as T. pose proof (tv_size _ T) as Sz.
  destruct (connect_cases (t_vec x) addr port node o) as [[_ Ec]|(i & c & Hlf & Hs & Hd & Ec)]; [unfold RMC_NIL_INDEX, RMC_LISTEN_INDEX in *; lia| |].
  - assert (v = t_vec x /\ ce = []) as [-> ->] by (split; congruence). rewrite set_tvec_id. cbn [map]. apply (VP_refl x). exact I.
  - pose proof (slot_range _ _ _ Hs) as R. destruct (tv_mode _ T i c Hs) as (D1 & _ & _). assert (Hc : c_mode c = CLOSED) by tauto.
    pose proof (sp_conn _ _ _ _ I i c Hs) as (Pc & _). specialize (Pc Hc).
    destruct (bump_max (t_vec x) i (tv_max _ T) R Sz) as (M1 & M2 & M3). fold (bumped (t_vec x) i) in M1, M2, M3.
    assert (Mp : forall c', max_ok (put_slot (bumped (t_vec x) i) i c')) by (intros c'; apply max_put; auto; rewrite bumped_size; exact R).
    assert (NC : forall c' v1 evs, c_desc c' = -1 -> c_mode c' = c_mode c -> c_rbuf c' = c_rbuf c -> c_wbuf c' = c_wbuf c ->
       v_conns v1 = v_conns (put_slot (t_vec x) i c') -> max_ok v1 -> v_active v1 = v_active (t_vec x) -> Forall (at_ind i) evs -> (forall a, fold_left (asked_ev i) evs a = a) ->
       SPI b b2 (set_tvec x v1) (log ++ map SvConn evs)).
    { intros c' v1 evs Q1 Q2 Q3 Q4 Q5 Q6 Q7 Q8 Q9. assert (Es : forall j, slot v1 j = slot (put_slot (t_vec x) i c') j) by (intros k; apply slot_conns; exact Q5).
      apply (VP_upd x _ _ i c'); auto.
      - cbn [set_tvec t_vec]. exact (TV_same_closed _ i c c' v1 T Hs Hd Q5 Q6 Q7 Q1 Q2 Q3 Q4).
      - cbn [set_tvec t_vec]. rewrite Es. apply slot_put_same. exact R.
      - intros k N. cbn [set_tvec t_vec]. rewrite Es. apply slot_put_other; [lia|exact N].
      - rewrite spolls_conn. exact Q8.
      - rewrite spolls_app, spolls_conn, asked_app, Q9, Pc. split; [reflexivity|]. rewrite Q2, Hc. split; intros H; discriminate H. }
    destruct o as [e|d ok errno].
    + assert (v = put_slot (bumped (t_vec x) i) i (set_desc c (-1)) /\ ce = []) as [-> ->] by (split; congruence).
      apply (NC (set_desc c (-1))); auto.
      * cbn [put_slot v_conns]. rewrite bumped_conns. reflexivity.
      * cbn [put_slot v_active]. apply bumped_active.
    + destruct Ec as [(_ & _ & Ec)|(_ & Ec)].
      * match type of Ec with _ = Ok (_, _, ?w, _) => assert (v = w /\ ce = [EvOpen d; EvClose d]) as [-> ->] by (split; congruence) end.
        apply (NC (mkConn (c_action c) (-1) node (c_rbuf c) (c_wbuf c) (c_mode c) (c_port c) addr)); auto.
        -- unfold put_slot, reset_max, set_max. cbn [v_conns]. rewrite bumped_conns. reflexivity.
        -- apply reset_max_ok. rewrite size_put, bumped_size. unfold RMC_LISTEN_INDEX, RMC_NIL_INDEX in *. lia.
        -- cbn [reset_max set_max put_slot v_active]. apply bumped_active.
        -- repeat constructor.
      * match type of Ec with _ = Ok (_, _, ?w, _) => assert (v = w /\ ce = [EvOpen d; EvAdd d i POLLWRITE]) as [-> ->] by (split; congruence) end.
        destruct (TV_connect (t_vec x) i c d addr port node POLLWRITE T Hs Hd Ho) as (T' & S1 & S2 & _ & _ & Fr).
        eapply VP_upd; [exact T'|exact S1|exact S2|reflexivity|rewrite spolls_conn; repeat constructor|exact I|].
        rewrite spolls_app, spolls_conn, asked_app. cbn [fold_left asked_ev]. rewrite Z.eqb_refl.
        split; [intros H; discriminate H|]. cbn [c_desc c_wbuf]. rewrite (want_fresh c Fr). split; [auto|]. intros H; discriminate H.
Qed.
Lemma unsub_VP x h p o x' evs : sock_good (mi_sock o) -> decode_unsubscribed x h p o = Ok (x', evs) -> VP x evs x'.
Proof.
  intros Ho. unfold decode_unsubscribed. destruct (negb _); [intros E; injection E as <- <-; apply VP_refl|]. cbv zeta.
  set (e0 := if t_acb x then [SvAnnounce (h_ip h) (h_port h) (h_node h) p] else []). assert (E0 : sub_polls e0 = []) by (unfold e0; destruct (t_acb x); reflexivity).
  destruct (if t_acb x then mi_answer o else true).
  - destruct (connect_tcp _ _ _ _ _) as [[[[cd j] v] ce]| | |] eqn:Ec; cbn [bind]; [|discriminate..]. intros E. injection E as <- <-.
    eapply VP_trans; [apply (VP_same x x); [reflexivity|reflexivity|exact E0]|]. exact (connect_VP _ _ _ _ _ _ _ _ _ Ho Ec).
  - intros E. injection E as <- <-. apply VP_same; [reflexivity|reflexivity|exact E0].
Qed.
Lemma mcast_VP x src bs o code op x' evs : sock_good (mi_sock o) -> process_multicast_read x src bs o = Ok (code, op, x', evs) -> VP x evs x' /\ t_mcast x' = t_mcast x.
Proof.
  intros Ho. unfold process_multicast_read. destruct (_ <? _); [intros E; injection E as _ _ <- <-; split; [apply VP_refl|reflexivity]|]. cbv zeta.
  destruct (_ <? _); [intros E; injection E as _ _ <- <-; split; [apply VP_refl|reflexivity]|].
  set (h := if _ =? 0 then _ else _). set (pl := ztake _ _).
  assert (Un : forall cd op1 y e, (do r <- decode_unsubscribed x h pl o; Ok (0, Some RMC_READ_MULTICAST_NOT_READY, fst r, snd r)) = Ok (cd, op1, y, e) -> VP x e y /\ t_mcast y = t_mcast x).
  { intros cd op1 y e. destruct (decode_unsubscribed x h pl o) as [[x1 e1]| | |] eqn:E1; cbn [bind fst snd]; [|discriminate..]. intros E. injection E as _ _ <- <-.
    split; [exact (unsub_VP _ _ _ _ _ _ Ho E1)|]. unfold decode_unsubscribed in E1. destruct (negb (h_pid h =? 0)); [injection E1 as <- _; reflexivity|]. cbv zeta in E1.
    destruct (if t_acb x then mi_answer o else true); [|injection E1 as <- _; reflexivity].
    destruct (connect_tcp _ _ _ _ _) as [[[[? ?] ?] ?]| | |]; cbn [bind] in E1; try discriminate E1. injection E1 as <- _. reflexivity. }
  destruct (find_by_address _ _ _) as [[i|]| | |]; cbn [bind]; [| |discriminate..]; [|apply Un].
  destruct (slot (t_vec x) i) as [c| | |]; cbn [bind]; [|discriminate..]. destruct (c_mode c =? CONNECTING); [apply Un|].
  destruct (decode_subscribed x i h pl (mi_acc o)) as [[x1 e1]| | |] eqn:E1; cbn [bind fst snd]; [|discriminate..]. intros E. injection E as _ _ <- <-.
  assert (F : FR x x1 e1).
  { unfold decode_subscribed in E1. destruct (h_pid h =? 0); [injection E1 as <- <-; apply FR_refl|]. destruct (get_spub x i) as [s| | |]; cbn [bind] in E1; try discriminate E1.
    destruct (sub_is_duplicate s (h_pid h)); [injection E1 as <- <-; apply FR_refl|]. exact (accept_FR _ _ _ _ _ _ _ _ E1). }
  split; [exact (FR_VP _ _ _ F)|apply F].
Qed.
Lemma mread_VP ins : forall x op code op' x' evs, Forall mrecv_good ins -> mread_loop x op ins = Ok (code, op', x', evs) -> VP x evs x' /\ t_mcast x' = t_mcast x.
Proof.
  induction ins as [|m ins IH]; intros x op code op' x' evs Hi; cbn [mread_loop]; [intros E; injection E as _ _ <- <-; split; [apply VP_refl|reflexivity]|].
  pose proof (Forall_inv Hi) as Hm. pose proof (Forall_inv_tail Hi) as Hrest.
  destruct m as [|e|src bs o]; [intros E; injection E as _ _ <- <-; split; [apply VP_refl|reflexivity]..|]. cbv zeta. destruct Hm as (_ & _ & Ho).
  destruct (process_multicast_read x src _ o) as [[[[cd op1] x1] e1]| | |] eqn:E1; cbn [bind]; [|discriminate..].
  destruct (mcast_VP _ _ _ _ _ _ _ _ Ho E1) as [V1 M1].
  assert (V1' : VP x (SvDgram src (ztake RMC_MAX_PACKET bs) :: e1) x1).
  { apply (VP_trans x [SvDgram src (ztake RMC_MAX_PACKET bs)] x); [apply VP_same; reflexivity|exact V1]. }
  destruct (negb (cd =? 0)); [intros E; injection E as _ _ <- <-; split; assumption|].
  destruct (mread_loop x1 _ ins) as [[[[cd2 op3] x2] e2]| | |] eqn:E2; cbn [bind]; [|discriminate..]. intros E. injection E as _ _ <- <-.
  destruct (IH _ _ _ _ _ _ Hrest E2) as [V2 M2]. split; [exact (VP_trans _ _ _ _ _ V1' V2)|congruence].
Qed.
Lemma read_mcast_VP x i ins code op x' evs : Forall mrecv_good ins -> rmc_sub_read x i (SrMcast ins) = Ok (code, op, x', evs) -> VP x evs x'.
Proof.
  intros Hi. cbn [rmc_sub_read]. unfold multicast_read. destruct (Z.eqb_spec (t_mcast x) (-1)) as [Em|Em]; cbn [bind]; [intros E; injection E as _ _ <- <-; apply VP_refl|].
  destruct (mread_loop x RMC_ERROR ins) as [[[[cd op1] x1] e1]| | |] eqn:E1; cbn [bind]; [|discriminate..]. intros E. injection E as _ _ <- <-.
  destruct (mread_VP _ _ _ _ _ _ _ Hi E1) as [V1 M1]. eapply VP_trans; [exact V1|]. rewrite <- M1.
  destruct (VP_mod x1 [] eq_refl) as [V|V]; [exact V|congruence].
Qed.
(** Acknowledgements. *)
Lemma want_lor wb : Z.lor (want wb) POLLWRITE = Z.lor POLLREAD POLLWRITE.
Proof. unfold want. destruct (_ =? 0); reflexivity. Qed.
Lemma want_more wb : cb_wf wb -> contents wb <> [] -> want wb = Z.lor POLLREAD POLLWRITE.
Proof. intros W C. unfold want. rewrite (in_use_contents _ W). destruct (contents wb); [contradiction|reflexivity]. Qed.
Lemma more_VP x i c wb : slot (t_vec x) i = Ok c -> c_mode c = CONNECTED -> cb_wf wb -> cb_size wb = RMC_MAX_PACKET -> contents wb <> [] ->
  forall pre, sub_polls pre = [] ->
  VP x (pre ++ [SvConn (EvMod (c_desc c) i (c_action c) (Z.lor (c_action c) POLLWRITE))])
       (set_tvec x (put_slot (t_vec x) i (set_action (set_wbuf c wb) (Z.lor (c_action c) POLLWRITE)))).
Proof.
  intros Hs Hm W1 W2 C pre Hpre. apply (VP_put x i c (set_action (set_wbuf c wb) (Z.lor (c_action c) POLLWRITE))); [exact Hs|rewrite Hm; discriminate|reflexivity|reflexivity|exact W1|exact W2| | |reflexivity].
  - rewrite spolls_app, Hpre. repeat constructor.
  - intros log I (_ & _ & A). destruct (A Hm) as [A1 _]. rewrite !spolls_app, Hpre. cbn [app]. rewrite asked_app. cbn [sub_polls flat_map app fold_left asked_ev]. rewrite Z.eqb_refl.
    unfold conn_asked. cbn [set_action set_wbuf c_mode c_desc c_wbuf c_action]. rewrite A1, want_lor, (want_more wb W1 C).
    split; [rewrite Hm; discriminate|]. split; [rewrite Hm; discriminate|]. intros _. auto.
Qed.
Lemma iack_VP x i iv code x' evs : TV (t_vec x) -> rmc_sub_packet_interval_acknowledged x i iv = Ok (code, x', evs) -> VP x evs x' /\ TV (t_vec x').
Proof.
  intros T. unfold rmc_sub_packet_interval_acknowledged, write_interval_ack. destruct (slot (t_vec x) i) as [c| | |] eqn:Hs; cbn [bind]; [|discriminate..].
  destruct (Z.eqb_spec (c_mode c) CONNECTED) as [Hm|Hm]; cbn [negb]; [|intros E; injection E as _ <- <-; split; [apply VP_refl|exact T]].
  destruct (tv_ring _ T i c Hs) as [W1 W2]. destruct (write_ack_spec (c_wbuf c) (iv_first iv) (iv_last iv) W1) as (A1 & A2 & A3).
  destruct (Z_lt_ge_dec (circ_buf_available (c_wbuf c)) 17) as [L|L].
  { rewrite (A1 L). cbn [bind fst snd]. change (negb (ENOMEM =? 0)) with true. cbv iota. intros E. injection E as _ <- <-. split; [apply VP_refl|exact T]. }
  destruct (Z.eq_dec (cb_stop (c_wbuf c)) (cb_size (c_wbuf c))) as [Q|Q]; [rewrite A3 by (lia || exact Q); discriminate|].
  destruct A2 as (wb & Ew & X1 & X2 & _ & X3); [lia|destruct W1; unfold cb_wf in *; lia|]. rewrite Ew. cbn [bind fst snd]. change (negb (0 =? 0)) with false. cbv iota. intros E. injection E as _ <- <-.
  assert (C : contents wb <> []) by (rewrite X3; cbn [wire]; destruct (contents (c_wbuf c)); discriminate). split.
  - apply (more_VP x i c wb Hs Hm X1 ltac:(congruence) C [SvAck i (iv_first iv) (iv_last iv)] eq_refl).
  - cbn [set_tvec t_vec]. apply (TV_io _ i c); auto; [rewrite Hm; discriminate|cbn; congruence].
Qed.
Lemma ack_loop_VP l : forall x i s code x' evs, TV (t_vec x) -> ack_loop x i s l = Ok (code, x', evs) -> VP x evs x' /\ TV (t_vec x').
Proof.
  induction l as [|iv l IH]; intros x i s code x' evs T; cbn [ack_loop]; [intros E; injection E as _ <- <-; split; [apply VP_refl|exact T]|]. cbv zeta.
  set (x0 := put_spub x i _). assert (V0 : VP x [] x0) by (apply VP_same; reflexivity).
  destruct (rmc_sub_packet_interval_acknowledged x0 i iv) as [[[cd x1] e1]| | |] eqn:E1; cbn [bind]; [|discriminate..].
  destruct (iack_VP x0 _ _ _ _ _ T E1) as [V1 T1]. pose proof (VP_trans _ _ _ _ _ V0 V1) as V. cbn [app] in V.
  destruct (negb (cd =? 0)).
  - intros E. injection E as _ <- <-. split; [|exact T1]. eapply VP_trans; [exact V|]. apply VP_same; reflexivity.
  - destruct (ack_loop x1 i _ l) as [[[cd2 x2] e2]| | |] eqn:E2; cbn [bind]; [|discriminate..]. intros E. injection E as _ <- <-.
    destruct (IH _ _ _ _ _ _ T1 E2) as [V2 T2]. split; [exact (VP_trans _ _ _ _ _ V V2)|exact T2].
Qed.
Lemma timeout_VP l now : forall x code x' evs, TV (t_vec x) -> timeout_loop x now l = Ok (code, x', evs) -> VP x evs x'.
Proof.
  induction l as [|i l IH]; intros x code x' evs T; cbn [timeout_loop]; [intros E; injection E as _ <- <-; apply VP_refl|].
  destruct (get_spub x i) as [s| | |]; cbn [bind]; [|discriminate..]. destruct (_ <? _); [intros E; injection E as _ <- <-; apply VP_refl|].
  destruct (ack_loop x i s (s_intv s)) as [[[cd x1] e1]| | |] eqn:E1; cbn [bind]; [|discriminate..]. destruct (ack_loop_VP _ _ _ _ _ _ _ T E1) as [V1 T1].
  destruct (negb (cd =? 0)); [intros E; injection E as _ <- <-; exact V1|].
  destruct (timeout_loop (set_tack x1 l) now l) as [[[cd2 x2] e2]| | |] eqn:E2; cbn [bind]; [|discriminate..]. intros E. injection E as _ <- <-.
  eapply VP_trans; [exact V1|]. pose proof (IH (set_tack x1 l) _ _ _ T1 E2) as V2. change e2 with ([] ++ e2). eapply VP_trans; [|exact V2]. apply VP_same; reflexivity.
Qed.
Lemma ctrl_VP x i p ptr code x' evs : TV (t_vec x) -> rmc_sub_write_control_message x i p ptr = Ok (code, x', evs) -> VP x evs x'.
Proof.
  intros T. unfold rmc_sub_write_control_message. destruct (_ || _) eqn:E0; [intros E; injection E as _ <- <-; apply VP_refl|]. apply orb_false_iff in E0. destruct E0 as [E1 E2].
  destruct (slot (t_vec x) i) as [c| | |] eqn:Hs; cbn [bind]; [|discriminate..].
  destruct (Z.eqb_spec (c_mode c) CONNECTED) as [Hm|Hm]; cbn [negb]; [|intros E; injection E as _ <- <-; apply VP_refl].
  destruct (tv_ring _ T i c Hs) as [W1 W2]. pose proof (zlen_nonneg p) as Hp0.
  destruct (write_ctrl_spec (c_wbuf c) p ptr W1 ltac:(lia) ltac:(lia)) as (A1 & A2 & A3 & A4 & A5). cbv zeta in *.
  destruct (Z_lt_ge_dec (circ_buf_available (c_wbuf c)) (4 + zlen p)) as [L|L].
  { rewrite (A1 L). cbn [bind fst snd]. change (negb (ENOMEM =? 0)) with true. cbv iota. intros E. injection E as _ <- <-. apply VP_refl. }
  assert (F : forall wb l, write_ctrl (c_wbuf c) p ptr = Ok (0, wb) -> cb_wf wb -> cb_size wb = cb_size (c_wbuf c) -> contents wb = contents (c_wbuf c) ++ 3 :: l ->
     (do w <- write_ctrl (c_wbuf c) p ptr;
      if negb (fst w =? 0) then Ok (fst w, x, [])
      else Ok (0, set_tvec x (put_slot (t_vec x) i (set_action (set_wbuf c (snd w)) (Z.lor (c_action c) POLLWRITE))),
               [SvConn (EvMod (c_desc c) i (c_action c) (Z.lor (c_action c) POLLWRITE))])) = Ok (code, x', evs) -> VP x evs x').
  { intros wb l Ew X1 X2 X3. rewrite Ew. cbn [bind fst snd]. change (negb (0 =? 0)) with false. cbv iota. intros E. injection E as _ <- <-.
    apply (more_VP x i c wb Hs Hm X1 ltac:(congruence)) with (pre := []); [|reflexivity]. rewrite X3. destruct (contents (c_wbuf c)); discriminate. }
  destruct (Z.eq_dec (cb_stop (c_wbuf c)) (cb_size (c_wbuf c))) as [Q|Q]; [rewrite A5 by (lia || exact Q); discriminate|].
  assert (Hst : cb_stop (c_wbuf c) < cb_size (c_wbuf c)) by (destruct W1; unfold cb_wf in *; lia).
  destruct (Z_le_gt_dec (cb_stop (c_wbuf c) + 3 + zlen p) (cb_size (c_wbuf c))) as [C1|C1].
  { destruct A2 as (wb & Ew & X1 & X2 & X3 & _); [lia|lia|auto|]. eapply F; [exact Ew|exact X1|exact X2|exact X3]. }
  destruct (Z_lt_ge_dec (cb_size (c_wbuf c)) (cb_stop (c_wbuf c) + 3)) as [C2|C2].
  { destruct A2 as (wb & Ew & X1 & X2 & X3 & _); [lia|lia|auto|]. eapply F; [exact Ew|exact X1|exact X2|exact X3]. }
  destruct (Z_le_gt_dec (zlen p) 8) as [C3|C3].
  - destruct A3 as (wb & Ew & X1 & X2 & X3); [lia|lia|lia|lia|]. eapply F; [exact Ew|exact X1|exact X2|exact X3].
  - rewrite A4 by lia. discriminate.
Qed.
Lemma control_VP f x p ptr code x' evs : TV (t_vec x) -> control_by f x p ptr = Ok (code, x', evs) -> VP x evs x'.
Proof.
  intros T. unfold control_by. destruct (_ || _); [intros E; injection E as _ <- <-; apply VP_refl|]. destruct f as [[i|]| | |]; cbn [bind]; [| |discriminate..].
  - destruct (slot (t_vec x) i) as [c| | |]; cbn [bind]; [|discriminate..]. destruct (negb _); [intros E; injection E as _ <- <-; apply VP_refl|]. apply ctrl_VP. exact T.
  - intros E. injection E as _ <- <-. apply VP_refl.
Qed.
(** Writing. *)
Lemma write_VP x i o code op x' evs : TV (t_vec x) -> yok x [] (YWrite i o) -> rmc_sub_write x i o = Ok (code, op, x', evs) -> VP x evs x'.
Proof.
  intros T (Hi & Hw & Hcm). unfold rmc_sub_write. destruct (find_index_cases (t_vec x) i (proj1 Hi)) as [[E Hn]|(c & E & Hs & Ho)]; rewrite E; cbn [bind]; [intros Q; injection Q as _ _ <- <-; apply VP_refl|].
  destruct (Z.eqb_spec (c_mode c) CONNECTING) as [Hm|Hm].
  - cbv zeta. set (x1 := put_spub x i sub_init). assert (V0 : VP x [] x1) by (apply VP_same; reflexivity).
    destruct (complete_conn (t_vec x1) i (sw_cmp o)) as [[[cd v] ce]| | |] eqn:Ec; cbn [bind]; [|discriminate..].
    unfold complete_conn in Ec. change (t_vec x1) with (t_vec x) in Ec. rewrite Hs in Ec. cbn [bind] in Ec.
    destruct (close_open (t_vec x) i c Hs Ho) as [w Ew]. destruct (TV_close _ i c w T Hs Ho Ew) as (_ & Sz & S1 & _). pose proof (slot_range _ _ _ Hs) as R.
    assert (Ew2 : close_conn w i = Ok (ENOTCONN, w, [])).
    { destruct (close_cases w i) as [[L _]|[(d & Hd & Hmd & Q)|(d & [Hd Hmd] & _)]]; [lia|lia|exact Q|]. rewrite S1 in Hd. injection Hd as <-. destruct (Hmd eq_refl). }
    assert (Fin : forall pre, Forall (at_ind i) pre -> cd <> 0 -> v = w -> ce = pre ++ [EvRem (c_desc c) i; EvClose (c_desc c)] ->
      (if negb (cd =? 0) then do q <- close_conn (t_vec (set_tvec x1 v)) i; let '(_, v2, evs2) := q in Ok (cd, RMC_COMPLETE_CONNECTION, set_tvec (set_tvec x1 v) v2, map SvConn (ce ++ evs2))
       else Ok (0, RMC_COMPLETE_CONNECTION, set_tvec x1 v, map SvConn ce ++ (if t_ccb x then [SvComplete (c_addr c) (c_port c) (c_node c)] else []))) = Ok (code, op, x', evs) -> VP x evs x').
    { intros pre Fp Hcd -> ->. replace (cd =? 0) with false by lia. cbn [negb set_tvec t_vec]. rewrite Ew2. cbn [bind]. intros Q. injection Q as _ _ <- <-. rewrite app_nil_r.
      change (map SvConn (pre ++ [EvRem (c_desc c) i; EvClose (c_desc c)])) with ([] ++ map SvConn (pre ++ [EvRem (c_desc c) i; EvClose (c_desc c)])). apply (VP_trans _ [] x1 _ _ V0).
      apply (VP_close x1 i w 0 _ (proj1 Hi) Ew pre); [|exact Fp|change (t_vec x1) with (t_vec x); lia].
      intros d Hd Hmd. change (t_vec x1) with (t_vec x) in Hd. assert (d = c) as -> by congruence. contradiction. }
    destruct (sw_cmp o) as [e|so nd].
    + rewrite Ew in Ec. cbn [bind] in Ec. assert (Q3 : cd <> 0 /\ v = w /\ ce = [] ++ [EvRem (c_desc c) i; EvClose (c_desc c)]) by (injection Ec as <- <- <-; auto); destruct Q3 as (Q3 & Q4 & Q5); apply (Fin []); [exact (Forall_nil _)|exact Q3|exact Q4|exact Q5].
    + destruct (Z.eqb_spec so 0) as [Es|Es]; cbn [negb] in Ec; [destruct (Z.eqb_spec nd 0) as [En|En]; cbn [negb] in Ec|].
      * assert (cd = 0 /\ v = put_slot (t_vec x) i (set_action (set_mode c CONNECTED) POLLREAD) /\ ce = [EvMod (c_desc c) i (c_action c) POLLREAD]) as (-> & -> & ->) by (repeat split; congruence).
        change (negb (0 =? 0)) with false. cbv iota. intros Q. injection Q as _ _ <- <-. clear Fin.
        set (x2 := set_tvec x1 _). set (cbe := if t_ccb x then _ else _). apply (VP_trans x [] x1 (map SvConn [EvMod (c_desc c) i (c_action c) POLLREAD] ++ cbe) x2 V0).
        apply (VP_trans x1 _ x2); [|apply VP_same; [reflexivity|reflexivity|unfold cbe; destruct (t_ccb x); reflexivity]]. unfold x2.
        intros log I. destruct (sp_conn _ _ _ _ I i c Hs) as (_ & A & _). destruct (A Hm) as [_ A2]. destruct (tv_mode _ T i c Hs) as (D1 & D2 & D3). destruct (tv_ring _ T i c Hs) as [W1 W2].
        eapply (VP_upd x1 _ _ i (set_action (set_mode c CONNECTED) POLLREAD)); [| | |reflexivity| |exact I|]; cbn [set_tvec t_vec].
        -- apply (TV_put (t_vec x) i c (set_action (set_mode c CONNECTED) POLLREAD)); auto; cbn [set_action set_mode c_mode c_desc c_wbuf].
           ++ apply (max_same _ i c); [exact (tv_max _ T)|exact Hs|reflexivity].
           ++ cbn [put_slot v_active]. unfold b_open. cbn [set_action set_mode c_mode]. rewrite Hm. cbn. lia.
           ++ split; [intros Q; apply D1 in Q; contradiction|intros Q; discriminate Q].
           ++ intros Q. discriminate Q.
        -- apply slot_put_same. exact R.
        -- intros j N. change (t_vec x1) with (t_vec x). apply slot_put_other; [lia|exact N].
        -- repeat constructor.
        -- rewrite spolls_app, spolls_conn, asked_app. cbn [fold_left asked_ev]. rewrite Z.eqb_refl. unfold conn_asked. cbn [set_action set_mode c_mode c_desc c_wbuf c_action].
           rewrite A2. split; [intros Q; discriminate Q|]. split; [intros Q; discriminate Q|]. auto.
      * rewrite Ew in Ec. cbn [bind] in Ec. assert (Q3 : cd <> 0 /\ v = w /\ ce = [EvRem (c_desc c) i] ++ [EvRem (c_desc c) i; EvClose (c_desc c)]) by (injection Ec as <- <- <-; auto); destruct Q3 as (Q3 & Q4 & Q5); apply (Fin [EvRem (c_desc c) i]); [repeat constructor|exact Q3|exact Q4|exact Q5].
      * rewrite Ew in Ec. cbn [bind] in Ec. assert (Q3 : cd <> 0 /\ v = w /\ ce = [EvRem (c_desc c) i] ++ [EvRem (c_desc c) i; EvClose (c_desc c)]) by (injection Ec as <- <- <-; auto); destruct Q3 as (Q3 & Q4 & Q5); apply (Fin [EvRem (c_desc c) i]); [repeat constructor|exact Q3|exact Q4|exact Q5].
  - destruct (tv_mode _ T i c Hs) as (_ & _ & D3). assert (Hmc : c_mode c = CONNECTED) by (destruct D3 as [D3|[D3|D3]]; [contradiction|contradiction|exact D3]).
    destruct (circ_buf_in_use (c_wbuf c) =? 0); [intros Q; injection Q as _ _ <- <-; apply VP_refl|]. destruct (tv_ring _ T i c Hs) as [W1 W2].
    destruct (tcp_write_spec (c_wbuf c) (sw_tcp o) W1) as (wb & Ew & X1 & X2 & X3 & _); [lia|destruct (sw_tcp o); auto|].
    rewrite Ew. cbn [bind w_sent w_buf w_left w_code]. set (act := if zlen (contents wb) =? 0 then _ else _). intros Q. injection Q as _ _ <- <-.
    apply (VP_put x i c (set_action (set_wbuf c wb) act)); auto; [cbn; congruence|repeat constructor|].
    intros log I (_ & _ & A). destruct (A Hmc) as [A1 _]. rewrite spolls_app, asked_app. cbn [sub_polls flat_map app fold_left asked_ev]. rewrite Z.eqb_refl.
    unfold conn_asked. cbn [set_action set_wbuf c_mode c_desc c_wbuf c_action].
    assert (Ea : act = want wb).
    { unfold act. rewrite A1. unfold want at 3. rewrite (in_use_contents _ X1). destruct (contents wb) as [|z l]; [change (zlen (@nil Z) =? 0) with true; unfold want; destruct (circ_buf_in_use (c_wbuf c) =? 0); reflexivity|].
      replace (zlen (z :: l) =? 0) with false by (unfold zlen; cbn [length]; lia). apply want_lor. }
    rewrite Ea. split; [rewrite Hmc; discriminate|]. split; [rewrite Hmc; discriminate|]. auto.
Qed.
(** Reading a control channel. *)
Lemma read_tcp_VP x i t ins code op x' evs : 0 <= i -> (b = true -> forall c, sconnected x i c -> contents (c_wbuf c) = []) ->
  rmc_sub_read x i (SrTcp t ins) = Ok (code, op, x', evs) -> VP x evs x'.
Proof.
  intros Hi Hd. cbn [rmc_sub_read]. destruct (find_index_cases (t_vec x) i Hi) as [[E Hn]|(c & E & Hs & Ho)]; rewrite E; cbn [bind]; [intros Q; injection Q as _ _ <- <-; apply VP_refl|].
  destruct (Z.eqb_spec (c_mode c) CONNECTED) as [Hm|Hm]; cbn [negb]; [|intros Q; injection Q as _ _ <- <-; apply VP_refl]. cbv zeta.
  set (got := match t with RErr => _ | _ => _ end).
  assert (G : sub_polls got = []) by (unfold got; destruct t as [|[|? ?]]; reflexivity).
  destruct (tcp_read _ _ (c_rbuf c) t) as [[cd op1 [[x1 e1] ins1] rb]| | |] eqn:Et; cbn [bind]; [|discriminate..].
  assert (S : FR x x1 e1).
  { refine (tcp_read_ok _ (fun st : tst => FR x (fst (fst st)) (snd (fst st))) _ (x, got, ins) (c_rbuf c) t _ _ Et); [|split; [reflexivity|split; [reflexivity|exact G]]].
    apply sub_dispatch_ok. intros [[y1 f1] jns] hp [[y2 f2] kns] F. cbn [fst snd] in *. unfold tcp_eff. destruct jns as [|a jns]; [discriminate|].
    destruct (accept_packet y1 i (h_pid (fst hp)) (snd hp) false a) as [[y3 f3]| | |] eqn:Ea; cbn [bind fst snd]; [|discriminate..]. intros Q. injection Q as <- <- _.
    exact (FR_trans _ _ _ _ _ F (accept_FR _ _ _ _ _ _ _ _ Ea)). }
  cbn [r_st fst snd r_buf r_code r_op] in *. destruct S as (F1 & F2 & F3).
  set (x2 := set_tvec x1 _).
  assert (Put : forall b', b' = b -> VP x1 [] x2).
  { intros b' _ log I. destruct (tv_ring _ (sp_tv _ _ _ _ I) i c) as [W1 W2]; [rewrite F1; exact Hs|].
    refine (VP_put x1 i c (set_rbuf c rb) [] _ Ho eq_refl eq_refl W1 W2 (Forall_nil _) _ _ eq_refl log I); [rewrite F1; exact Hs|].
    intros log1 _ A. rewrite app_nil_r. exact A. }
  specialize (Put b eq_refl).
  assert (V1 : VP x e1 x2).
  { rewrite <- (app_nil_r e1). apply (VP_trans x e1 x1); [apply VP_same; assumption|exact Put]. }
  assert (Hs2 : slot (t_vec x2) i = Ok (set_rbuf c rb)) by (unfold x2; cbn [set_tvec t_vec]; apply slot_put_same; rewrite F1; exact (slot_range _ _ _ Hs)).
  assert (Re : forall y, t_vec y = t_vec x2 -> VP y [SvConn (EvMod (c_desc c) i POLLREAD POLLREAD)] y).
  { intros y Ey log I. pose proof (sp_conn _ _ _ _ I i (set_rbuf c rb)) as A. rewrite Ey in A. specialize (A Hs2). destruct A as (_ & _ & A). destruct (A Hm) as [A1 A2].
    apply (VP_upd y y _ i (set_rbuf c rb)); auto; [exact (sp_tv _ _ _ _ I)|rewrite Ey; exact Hs2|repeat constructor|].
    rewrite spolls_app, asked_app. cbn [sub_polls flat_map app fold_left asked_ev]. rewrite Z.eqb_refl. split; [intros Q; change (c_mode c = CLOSED) in Q; congruence|].
    split; [intros Q; change (c_mode c = CONNECTING) in Q; rewrite Hm in Q; discriminate Q|]. intros _. split; [exact A1|]. destruct b; [left|right; auto].
    change (c_wbuf (set_rbuf c rb)) with (c_wbuf c). specialize (Hd eq_refl c (conj Hs Hm)).
    destruct (tv_ring _ (sp_tv _ _ _ _ I) i (set_rbuf c rb)) as [W1 _]; [rewrite Ey; exact Hs2|]. change (c_wbuf (set_rbuf c rb)) with (c_wbuf c) in W1.
    unfold want. rewrite (in_use_contents _ W1), Hd. reflexivity. }
  destruct (cd =? ENOMEM); [intros Q; injection Q as _ _ <- <-; eapply VP_trans; [exact V1|apply Re; reflexivity]|].
  destruct (cd =? EPIPE).
  { destruct (rmc_sub_close_connection x2 i) as [[x3 e3]| | |] eqn:E3; cbn [bind fst snd]; [|discriminate..]. intros Q. injection Q as _ _ <- <-.
    eapply VP_trans; [exact V1|]. exact (sub_close_VP _ _ _ _ Hi E3). }
  destruct (process_received x2 i) as [[x3 e3]| | |] eqn:E3; cbn [bind fst snd]; [|discriminate..]. pose proof (process_FR _ _ _ _ E3) as F.
  pose proof (VP_trans _ _ _ _ _ V1 (FR_VP _ _ _ F)) as V3.
  destruct (cd =? EPROTO).
  - destruct (rmc_sub_close_connection x3 i) as [[x4 e4]| | |] eqn:E4; cbn [bind fst snd]; [|discriminate..]. intros Q. injection Q as _ _ <- <-.
    rewrite app_assoc. eapply VP_trans; [exact V3|]. exact (sub_close_VP _ _ _ _ Hi E4).
  - intros Q. injection Q as _ _ <- <-. rewrite app_assoc. eapply VP_trans; [exact V3|]. apply Re. apply F.
Qed.
(** Activation and deactivation. *)
Lemma activate_VP x o code x' evs : (b2 = true -> binds x (YActivate o)) -> yok x [] (YActivate o) -> rmc_sub_activate_context x o = (code, x', evs) -> VP x evs x'.
Proof.
  intros Hb Hok. unfold rmc_sub_activate_context. destruct (Z.eqb_spec (t_mcast x) (-1)) as [Em|Em]; cbn [negb]; [|intros E; injection E as _ <- <-; apply VP_refl].
  destruct o as [e|d e|d e|d]; intros E; injection E as _ <- <-.
  - apply VP_refl.
  - intros log [I1 I2 I3 I4]. assert (A : forall i, asked i (sub_polls (log ++ [SvConn (EvOpen d); SvConn (EvClose d)])) = asked i (sub_polls log)) by (intros i; rewrite spolls_app, asked_app; reflexivity).
    constructor; intros; rewrite ?A; auto.
  - intros log [I1 I2 I3 I4]. assert (A : forall i, asked i (sub_polls (log ++ [SvConn (EvOpen d)])) = asked i (sub_polls log)) by (intros i; rewrite spolls_app, asked_app; reflexivity).
    constructor; cbn [set_tmcast t_vec t_mcast]; intros; rewrite ?A; auto. right. split; [destruct b2; [destruct (Hb eq_refl)|reflexivity]|auto].
  - intros log [I1 I2 I3 I4]. constructor; cbn [set_tmcast t_vec t_mcast]; auto.
    + intros i c Hs. rewrite spolls_app, (asked_not_at RMC_MULTICAST_INDEX i); [exact (I2 i c Hs)| |repeat constructor].
      pose proof (slot_range _ _ _ Hs). pose proof (tv_size _ I1). unfold RMC_LISTEN_INDEX, RMC_MULTICAST_INDEX in *. lia.
    + intros ->. cbn in Hok. lia.
    + intros _. left. rewrite spolls_app, asked_app. reflexivity.
Qed.
Lemma drop_FR l : forall x x' evs, drop_ready x l = Ok (x', evs) -> FR x x' evs.
Proof.
  induction l as [|p l IH]; intros x x' evs; cbn [drop_ready]; [intros E; injection E as <- <-; apply FR_refl|].
  destruct (rmc_sub_packet_dispatched (set_tready x l) (sk_addr p) false) as [[[cd x1] e1]| | |] eqn:E1; cbn [bind]; [|discriminate..].
  destruct (drop_ready x1 l) as [[x2 e2]| | |] eqn:E2; cbn [bind fst snd]; [|discriminate..]. intros E. injection E as <- <-.
  pose proof (FR_trans _ _ _ _ _ (dispatched_FR _ _ _ _ _ _ E1) (IH _ _ _ E2)) as (A & B & C). split; [exact A|]. split; [exact B|exact C].
Qed.
Lemma sclose_VP n : forall x ind x' evs, 0 <= ind -> sclose_loop n x ind = Ok (x', evs) -> VP x evs x'.
Proof.
  induction n as [|n IH]; intros x ind x' evs Hi; cbn [sclose_loop]; [intros E; injection E as <- <-; apply VP_refl|].
  destruct (find_by_index (t_vec x) ind) as [[c|]| | |]; cbn [bind]; [| |discriminate..]; [|apply IH; lia].
  destruct (rmc_sub_close_connection x ind) as [[x1 e1]| | |] eqn:E1; cbn [bind fst snd]; [|discriminate..].
  destruct (sclose_loop n x1 (ind + 1)) as [[x2 e2]| | |] eqn:E2; cbn [bind fst snd]; [|discriminate..]. intros E. injection E as <- <-.
  eapply VP_trans; [exact (sub_close_VP _ _ _ _ Hi E1)|]. refine (IH x1 (ind + 1) _ _ _ E2); lia.
Qed.
Lemma deactivate_VP x code x' evs : rmc_sub_deactivate_context x = Ok (code, x', evs) -> VP x evs x'.
Proof.
  unfold rmc_sub_deactivate_context. destruct (drop_ready x (t_ready x)) as [[x1 e1]| | |] eqn:E1; cbn [bind fst snd]; [|discriminate..]. cbv zeta.
  set (x2 := set_tmcast (set_tack x1 []) (-1)). destruct (sclose_loop _ x2 0) as [[x3 e3]| | |] eqn:E3; cbn [bind fst snd]; [|discriminate..]. intros E. injection E as _ <- <-.
  pose proof (drop_FR _ _ _ _ E1) as F. eapply VP_trans; [exact (FR_VP _ _ _ F)|].
  apply (VP_trans x1 [SvConn (EvClose (t_mcast x)); SvConn (EvRem (t_mcast x) RMC_MULTICAST_INDEX)] x2 e3 x3); [|refine (sclose_VP _ _ 0 _ _ _ E3); lia].
  intros log [I1 I2 I3 I4]. unfold x2. constructor; cbn [set_tmcast set_tack t_vec t_mcast]; auto.
  - intros i c Hs. rewrite spolls_app, (asked_not_at RMC_MULTICAST_INDEX i); [exact (I2 i c Hs)| |repeat constructor].
    pose proof (slot_range _ _ _ Hs). pose proof (tv_size _ I1). unfold RMC_LISTEN_INDEX, RMC_MULTICAST_INDEX in *. lia.
  - intros _. rewrite spolls_app, asked_app. reflexivity.
  - intros Q. destruct (Q eq_refl).
Qed.
Lemma step_VP x log0 o code x' evs : TV (t_vec x) -> yok x log0 o -> (b = true -> sdrained x o) -> (b2 = true -> binds x o) -> ystep x o = Ok (code, x', evs) -> VP x evs x'.
Proof.
  intros T Hok Hd Hb E. destruct o as [i [ins|t ins]|i o|now|i|a keep|ptr|i p ptr|a port p ptr|n p ptr|a c r|o|]; cbn [ystep] in E.
  - destruct (rmc_sub_read x i (SrMcast ins)) as [[[[cd op] x1] e1]| | |] eqn:E1; cbn [bind] in E; [|discriminate E..]. injection E as _ <- <-. exact (read_mcast_VP _ _ _ _ _ _ _ Hok E1).
  - destruct (rmc_sub_read x i (SrTcp t ins)) as [[[[cd op] x1] e1]| | |] eqn:E1; cbn [bind] in E; [|discriminate E..]. injection E as _ <- <-.
    refine (read_tcp_VP _ _ _ _ _ _ _ _ _ _ E1); [apply Hok|exact Hd].
  - destruct (rmc_sub_write x i o) as [[[[cd op] x1] e1]| | |] eqn:E1; cbn [bind] in E; [|discriminate E..]. injection E as _ <- <-. exact (write_VP _ _ _ _ _ _ _ T Hok E1).
  - exact (timeout_VP _ _ _ _ _ _ T E).
  - destruct (rmc_sub_close_connection x i) as [[x1 e1]| | |] eqn:E1; cbn [bind fst snd] in E; [|discriminate E..]. injection E as _ <- <-. exact (sub_close_VP _ _ _ _ (proj1 Hok) E1).
  - exact (FR_VP _ _ _ (dispatched_FR _ _ _ _ _ _ E)).
  - injection E as _ <- <-. apply VP_same; reflexivity.
  - exact (ctrl_VP _ _ _ _ _ _ _ T E).
  - exact (control_VP _ _ _ _ _ _ _ T E).
  - exact (control_VP _ _ _ _ _ _ _ T E).
  - injection E as _ <- <-. apply VP_same; reflexivity.
  - assert (E1 : rmc_sub_activate_context x o = (code, x', evs)) by congruence. exact (activate_VP x o _ _ _ Hb Hok E1).
  - exact (deactivate_VP _ _ _ _ E).
Qed.
End S.
Lemma init_SPI b b2 x0 : fresh_sub x0 -> SPI b b2 x0 [].
Proof.
  intros F. assert (B : BI x0) by (apply (sreached_inv false x0 []); exists x0, []; split; [exact F|constructor]).
  constructor; [exact (bi_vec _ B)| |reflexivity|]; destruct F as (node & buf & m & -> & _).
  - intros i c Hs. cbn in Hs. destruct (slot_init buf i c Hs) as [_ Hc]. unfold conn_asked. rewrite Hc. split; [reflexivity|]. split; intros Q; discriminate Q.
  - intros Q. destruct (Q eq_refl).
Qed.
Lemma reached_SPI b b2 (P : sctx -> yop -> Prop) x log : (forall y o, P y o -> (b = true -> sdrained y o) /\ (b2 = true -> binds y o)) -> sreached_by P x log -> SPI b b2 x log.
Proof.
  intros HP (x0 & ops & F & H & D). revert D. induction H as [|ops x log o code x' evs H IH Hok Hr E]; intros D; [apply init_SPI; exact F|].
  assert (S : SPI b b2 x log).
  { apply IH. intros pre o' post x1 log1 Eo H1. apply (D pre o' (post ++ [o]) x1 log1); [|exact H1]. rewrite Eo, <- app_assoc. reflexivity. }
  destruct (HP x o (D ops o [] x log eq_refl H)) as [D1 D2].
  exact (step_VP b b2 x log o code x' evs (sp_tv _ _ _ _ S) Hok D1 D2 E log S).
Qed.
