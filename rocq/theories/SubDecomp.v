(** SubDecomp.v — every allowed call on a subscriber context that satisfies the invariants is a
    sequence of small steps, and does not use freed memory. *)
From Coq Require Import Sorting.Permutation.
From Verif Require Import Base CircBuf CircBufProofs Wire SeqList Sub SpecSub SubProofs Proto SpecProto ProtoProofs
  Conn SpecConn ConnProofs Safe SubCtx SpecSubCtx SubSteps SubMem.

(** ** Outcomes: [Ok] results satisfy [P], freed memory is not used *)
Definition ssafe {A} (r : res A) (P : A -> Prop) : Prop :=
  match r with Ok a => P a | UB UseAfterFree => False | _ => True end.
Lemma ssafe_bind {A B} (m : res A) (f : A -> res B) (P : A -> Prop) (Q : B -> Prop) :
  ssafe m P -> (forall a, m = Ok a -> P a -> ssafe (f a) Q) -> ssafe (bind m f) Q.
Proof. destruct m as [a|u| |]; cbn; auto. Qed.
Lemma ssafe_imp {A} (m : res A) (P Q : A -> Prop) : ssafe m P -> (forall a, m = Ok a -> P a -> Q a) -> ssafe m Q.
Proof. destruct m as [a|[]| |]; cbn; auto. Qed.
Lemma ssafe_of {A} (m : res A) (P : A -> Prop) : safe true m P -> ssafe m P.
Proof. destruct m as [a|[]| |]; cbn; auto. discriminate. Qed.

Section Read.
Context {St : Type} (dispatch : Z -> option (St -> cbuf -> res (Z * St * cbuf))) (P : St -> Prop).
Hypothesis handler : forall cmd h st rb, dispatch cmd = Some h -> P st -> ssafe (h st rb) (fun r => P (snd (fst r))).
Lemma round_ssafe st rb prev : P st ->
  match read_round dispatch (st, rb, prev) with
  | inl x => P (fst (fst x))
  | inr r => ssafe r (fun o => P (r_st o))
  end.
Proof.
  intros H. unfold read_round. assert (S : safe true (read_cmd rb prev) (fun _ => True)).
  { unfold read_cmd, circ_buf_read. apply (safe_bind true _ _ (fun _ => True)); [apply safe_read_offset|]. intros. exact Logic.I. }
  apply ssafe_of in S.
  destruct (read_cmd rb prev) as [[e cmd]|u| |]; [|exact S|exact S|exact S].
  destruct (negb (e =? 0)); [exact H|]. destruct (dispatch cmd) as [h|] eqn:Ed; [|exact H].
  specialize (handler cmd h st rb Ed H). destruct (h st rb) as [[[code st'] rb']|u| |]; [|exact handler|exact handler|exact handler].
  cbn [ssafe fst snd] in handler. destruct (negb (code =? 0)); [exact handler|]. destruct (_ =? 0); exact handler.
Qed.
Lemma rounds_ssafe n : forall st rb prev, P st ->
  match iter_nat n (read_round dispatch) (st, rb, prev) with
  | inl x => P (fst (fst x))
  | inr r => ssafe r (fun o => P (r_st o))
  end.
Proof.
  induction n as [|n IH]; intros st rb prev H; cbn [iter_nat]; [exact H|]. pose proof (round_ssafe st rb prev H) as R.
  destruct (read_round dispatch (st, rb, prev)) as [[[st' rb'] prev']|r]; [|exact R]. apply IH. exact R.
Qed.
Lemma tcp_read_ssafe st rb o : P st -> ssafe (tcp_read dispatch st rb o) (fun r => P (r_st r)).
Proof.
  intros H. unfold tcp_read. apply (ssafe_bind _ _ (fun _ => True)); [apply ssafe_of, safe_fill|]. intros [[code op] rb1] _ _.
  destruct (code =? 0); [|exact H]. unfold process_tcp_read. rewrite iterate_nat.
  pose proof (rounds_ssafe (Pos.to_nat 4294967296) st rb1 0 H) as R. destruct (iter_nat _ _ _) as [x|r]; [exact Logic.I|exact R].
Qed.
End Read.
(** The subscriber's handler. *)
Lemma sub_dispatch_ssafe {St} (dup : St -> Z -> bool) (eff : St -> header * list Z -> res St) (P : St -> Prop) :
  (forall st h p, P st -> dup st (h_pid h) = false -> ssafe (eff st (h, p)) P) ->
  forall cmd h st rb, sub_dispatch dup eff cmd = Some h -> P st -> ssafe (h st rb) (fun r => P (snd (fst r))).
Proof.
  intros He cmd h st rb E HP. unfold sub_dispatch in E. destruct (cmd =? RMC_CMD_PACKET); [|discriminate]. injection E as <-.
  apply (ssafe_bind _ _ (fun q => match q with inr ((h, Some p), _) => dup st (h_pid h) = false | _ => True end)).
  - apply ssafe_of. unfold parse_packet. destruct (_ <? _); [exact Logic.I|].
    apply (safe_bind true _ _ (fun _ => True)); [apply safe_read_exact|]. intros d _ _. cbv zeta.
    destruct (_ <? _); [exact Logic.I|]. apply (safe_bind true _ _ (fun _ => True)); [apply safe_free|]. intros r _ _.
    destruct (dup st (h_pid (dec_header d))) eqn:Ed.
    + apply (safe_bind true _ _ (fun _ => True)); [apply safe_free|]. intros. exact Logic.I.
    + apply (safe_bind true _ _ (fun _ => True)); [apply safe_read_exact|]. intros p _ _.
      apply (safe_bind true _ _ (fun _ => True)); [apply safe_free|]. intros. exact Ed.
  - intros [e|[[hd [p|]] rb']] _ Hd; [exact HP| |exact HP]. apply (ssafe_bind _ _ P); [apply He; assumption|]. intros st' _ H. exact H.
Qed.

(** ** Small facts *)
Lemma set_tvec_id x : set_tvec x (t_vec x) = x.
Proof. destruct x. reflexivity. Qed.
Lemma set_tmem_id x : set_tmem x (t_mem x) = x.
Proof. destruct x. reflexivity. Qed.
Lemma get_spub_some x i s : BI x -> t_pubs x i = Some s -> get_spub x i = Ok s.
Proof.
  intros B H. unfold get_spub. rewrite H. pose proof (bi_range x B i s H) as R.
  replace ((0 <=? i) && (i <? v_size (t_vec x))) with true by lia. reflexivity.
Qed.
Lemma conn_spub x i c : BI x -> sconnected x i c -> exists s, t_pubs x i = Some s.
Proof. intros B H. pose proof (bi_init x B i c H) as N. destruct (t_pubs x i) as [s|]; [eauto|congruence]. Qed.

Lemma NoDup_app_l {A} (a b : list A) : NoDup (a ++ b) -> NoDup a.
Proof.
  induction a as [|y a IH]; intros H; [constructor|]. inversion H as [|? ? N1 N2]; subst. constructor; [|exact (IH N2)].
  intros Hi. apply N1, in_or_app. left. exact Hi.
Qed.

(** ** The application is done with packets *)
Section Dec.
Variable r : option Z.
Lemma taken_dec x log a keep : BI x -> MI x log ->
  ssafe (rmc_sub_packet_dispatched x a keep) (fun q => usteps r log x (snd q) (snd (fst q)) /\ t_vec (snd (fst q)) = t_vec x).
Proof.
  intros B M. unfold rmc_sub_packet_dispatched, dispatched_keep_payload. destruct (unlink_packet a (t_ready x)) as [[p rest]|] eqn:E.
  - destruct keep; cbn [ssafe].
    + split; [|reflexivity]. apply us_one. apply (u_take r log x p rest a). exact E.
    + destruct (unlink_perm _ _ _ _ E) as (Pm & _).
      assert (Hh : In p (held x)) by (unfold held; apply in_or_app; right; apply (Permutation_in _ (Permutation_sym Pm)); left; reflexivity).
      destruct (mi_held x log M p Hh) as (_ & Hm & _).
      cbn [free_payloads set_tready t_mem]. rewrite Hm. cbn [bind fst snd ssafe].
      split; [|reflexivity]. apply us_one. exact (u_takefree r log x p rest a E).
  - cbn [ssafe fst snd]. split; [constructor|reflexivity].
Qed.
Lemma ready_dec ops : forall x log, BI x -> MI x log ->
  ssafe (ready_cb x ops) (fun q => usteps r log x (snd q) (fst q) /\ t_vec (fst q) = t_vec x).
Proof.
  induction ops as [|[a keep] ops IH]; intros x log B M; cbn [ready_cb].
  - cbn. split; [constructor|reflexivity].
  - eapply ssafe_bind; [exact (taken_dec x log a keep B M)|]. intros [[code x1] evs] _ [U1 V1]. cbn [fst snd] in *.
    destruct (steps_BMI r log x evs x1 B M U1) as [B1 M1].
    eapply ssafe_bind; [exact (IH x1 (log ++ evs) B1 M1)|]. intros [x2 evs2] _ [U2 V2]. cbn [fst snd ssafe] in *.
    split; [exact (us_app r log x evs x1 evs2 x2 U1 U2)|congruence].
Qed.

(** ** Accepting a packet *)
Definition src_evs (src : option (Z * list Z)) : list sev := match src with Some sd => [SvDgram (fst sd) (snd sd)] | None => [] end.
Lemma proc_dec x log i c : BI x -> sconnected x i c ->
  ssafe (process_received x i) (fun q => usteps r log x (snd q) (fst q) /\ t_vec (fst q) = t_vec x).
Proof.
  intros B Hc. destruct (conn_spub x i c B Hc) as [s Hs]. unfold process_received. rewrite (get_spub_some x i s B Hs). cbn [bind].
  destruct (sub_process s) as [s' out] eqn:Ep. cbn [ssafe fst snd]. split; [|reflexivity].
  apply us_one. exact (u_proc r log x i c s s' out Hc Hs Ep).
Qed.
Lemma accept_dec x log i c s pid bs src o : BI x -> MI x log -> sconnected x i c -> t_pubs x i = Some s ->
  sub_is_duplicate s pid = false ->
  match src with Some sd => r = Some (-1) /\ carries_packet (c_addr c) (c_port c) pid bs sd /\ bytes_ok (snd sd) /\
                            zlen (snd sd) <= RMC_MAX_PACKET | None => r = Some i end ->
  ssafe (accept_packet x i pid bs (match src with Some _ => true | None => false end) o)
    (fun q => usteps r log x (src_evs src ++ snd q) (fst q) /\ t_vec (fst q) = t_vec x).
Proof.
  intros B M Hc Hs Hd Hsrc. unfold accept_packet. destruct (_ || _) eqn:E0; [exact Logic.I|]. apply orb_false_iff in E0. destruct E0 as [E1 E2].
  assert (Hp : ai_ptr o <> 0) by lia. unfold is_valid in E2. destruct (t_mem x (ai_ptr o)) eqn:Em; [discriminate|].
  pose proof (slot_range _ _ _ (proj1 Hc)) as R.
  set (mc := match src with Some _ => true | None => false end).
  set (x1 := set_tmem x _).
  set (pk := new_packet x i pid (ai_ptr o) (zlen bs)).
  set (x2 := set_tfresh (put_spub (set_tack x1 (ack_after x i s mc)) i (sub_received s pk mc (ai_now o))) (S (t_fresh x))).
  assert (G1 : get_spub x1 i = Ok s).
  { unfold get_spub, x1. cbn [set_tmem t_vec t_pubs]. rewrite Hs. replace ((0 <=? i) && (i <? v_size (t_vec x))) with true by lia. reflexivity. }
  assert (E3 : (if mc then rmc_sub_packet_received x1 i pid (ai_ptr o) (zlen bs) (ai_now o)
                else tcp_packet_received x1 i pid (ai_ptr o) (zlen bs) (ai_now o)) = Ok x2).
  { unfold rmc_sub_packet_received, tcp_packet_received. rewrite G1. cbn [bind]. unfold x2, ack_after. unfold mc in *.
    destruct src as [sd|]; cbn [andb]; [|reflexivity]. destruct (sub_oldest_unacked s =? 0); reflexivity. }
  change (match src with Some _ => true | None => false end) with mc. rewrite E3. cbn [bind].
  unfold process_received. assert (G2 : get_spub x2 i = Ok (sub_received s pk mc (ai_now o))).
  { unfold get_spub, x2, x1. cbn [set_tmem set_tfresh put_spub set_tpubs set_tack t_vec t_pubs]. rewrite tupd_same.
    replace ((0 <=? i) && (i <? v_size (t_vec x))) with true by lia. reflexivity. }
  rewrite G2. cbn [bind]. destruct (sub_process (sub_received s pk mc (ai_now o))) as [s' out] eqn:Ep. cbn [bind fst snd].
  set (x3 := set_tready (put_spub x2 i s') (t_ready x2 ++ out)).
  assert (U : usteps r log x (src_evs src ++ SvAlloc (ai_ptr o) (zlen bs) :: SvGot i pid mc bs :: put_evs (tupd (t_mem x) (ai_ptr o) (Some bs)) i out) x3).
  { apply us_one. apply (u_got r log x i c s pid bs src (ai_ptr o) (ai_now o) x3 s' out); auto. }
  cbv zeta. change (t_rcb x1) with (t_rcb x).
  destruct (t_rcb x && negb (zlen (t_ready x3) =? zlen (t_ready x2))).
  - destruct (steps_BMI r log x _ x3 B M U) as [B3 M3].
    pose proof (us_event r log x _ x3 SvReady U Logic.I) as U'.
    destruct (steps_BMI r log x _ x3 B M U') as [B4 M4].
    eapply ssafe_bind; [exact (ready_dec (ai_ops o) x3 _ B4 M4)|]. intros [x4 evs4] _ [U4 V4]. cbn [fst snd ssafe] in *.
    split; [|rewrite V4; reflexivity].
    pose proof (us_app r log x _ x3 evs4 x4 U' U4) as UU. rewrite <- !app_assoc in UU. exact UU.
  - cbn [ssafe fst snd]. split; [exact U|reflexivity].
Qed.

(** ** Connecting *)
Lemma connect_dec x log addr port node o : r = Some (-1) -> BI x -> sock_good o ->
  exists code i v ce, connect_tcp (t_vec x) addr port node o = Ok (code, i, v, ce) /\ usteps r log x (map SvConn ce) (set_tvec x v).
Proof.
  intros Hr B Ho. pose proof (tv_size _ (bi_vec x B)) as Sz. pose proof (tv_max _ (bi_vec x B)) as Mx.
  destruct (connect_cases (t_vec x) addr port node o) as [[_ E]|(i & c & _ & Hs & Hd & E)]; [unfold RMC_LISTEN_INDEX, RMC_NIL_INDEX in *; lia| |].
  - do 4 eexists. split; [exact E|]. rewrite set_tvec_id. constructor.
  - pose proof (slot_range _ _ _ Hs) as R.
    destruct (bump_max (t_vec x) i Mx R Sz) as (M1 & M2 & M3). fold (bumped (t_vec x) i) in M1, M2, M3.
    assert (Mp : forall c', max_ok (put_slot (bumped (t_vec x) i) i c')) by (intros c'; apply max_put; auto; rewrite bumped_size; exact R).
    destruct o as [e|d ok errno].
    + do 4 eexists. split; [exact E|]. apply us_one. apply (u_noconn r log x i c (set_desc c (-1))); auto.
      * unfold put_slot. cbn [v_conns]. rewrite bumped_conns. reflexivity.
      * cbn [put_slot v_active]. apply bumped_active.
    + destruct E as [(_ & _ & E)|(_ & E)]; (do 4 eexists; split; [exact E|]); apply us_one; cbn [map].
      * apply (u_noconn r log x i c (mkConn (c_action c) (-1) node (c_rbuf c) (c_wbuf c) (c_mode c) (c_port c) addr)); auto.
        -- unfold put_slot, reset_max, set_max. cbn [v_conns]. rewrite bumped_conns. reflexivity.
        -- apply reset_max_ok. rewrite size_put, bumped_size. unfold RMC_LISTEN_INDEX, RMC_NIL_INDEX in *. lia.
        -- cbn [reset_max set_max put_slot v_active]. apply bumped_active.
        -- right. exists d. split; [exact Ho|reflexivity].
      * apply u_connect; auto.
Qed.

(** ** Datagrams *)
Lemma mcast_dec x log src bs o : r = Some (-1) -> BI x -> MI x log -> bytes_ok bs -> zlen bs <= RMC_MAX_PACKET -> sock_good (mi_sock o) ->
  ssafe (process_multicast_read x src bs o) (fun q => usteps r log x (SvDgram src bs :: snd q) (snd (fst q))).
Proof.
  intros Hr B M Hb Hl Ho. unfold process_multicast_read.
  assert (U0 : usteps r log x [SvDgram src bs] x) by (apply us_one, u_event; exact Logic.I).
  destruct (_ <? _); [exact U0|]. cbv zeta. destruct (Z.ltb_spec (zlen bs) (header_size + h_len (dec_header bs))) as [L|L]; [exact U0|].
  set (h := if h_ip (dec_header bs) =? 0 then _ else _). set (payload := ztake _ _).
  assert (Eh : h_pid h = h_pid (dec_header bs) /\ h_len h = h_len (dec_header bs) /\ h_port h = h_port (dec_header bs) /\ h_ip h = (if h_ip (dec_header bs) =? 0 then src else h_ip (dec_header bs))).
  { unfold h. destruct (_ =? 0); cbn; auto. }
  assert (Un : ssafe (do q <- decode_unsubscribed x h payload o; Ok (0, Some RMC_READ_MULTICAST_NOT_READY, fst q, snd q))
                 (fun q => usteps r log x (SvDgram src bs :: snd q) (snd (fst q)))).
  { unfold decode_unsubscribed. destruct (negb (h_pid h =? 0)); [exact U0|]. cbv zeta.
    set (evs := if t_acb x then [SvAnnounce (h_ip h) (h_port h) (h_node h) payload] else []).
    assert (U1 : usteps r log x (SvDgram src bs :: evs) x).
    { unfold evs. destruct (t_acb x); [|exact U0]. apply (us_event r log x [SvDgram src bs] x _ U0). exact Logic.I. }
    destruct (if t_acb x then mi_answer o else true); [|exact U1].
    destruct (connect_dec x (log ++ SvDgram src bs :: evs) (h_ip h) (h_port h) (h_node h) (mi_sock o) Hr B Ho) as (code & i & v & ce & E & U2).
    rewrite E. cbn [bind fst snd ssafe]. exact (us_app r log x _ x _ _ U1 U2). }
  destruct (find_conn_spec (t_vec x) (fun c => negb (c_desc c =? -1) && (h_ip h =? c_addr c) && (h_port h =? c_port c)) (tv_max _ (bi_vec x B)))
    as [(i & c & E & Hs & Hp & _)|[E _]].
  { pose proof (tv_size _ (bi_vec x B)). unfold RMC_LISTEN_INDEX, RMC_NIL_INDEX in *. lia. }
  { intros c Hc. lia. }
  - unfold find_by_address. rewrite E. cbn [bind]. rewrite Hs. cbn [bind].
    destruct (Z.eqb_spec (c_mode c) CONNECTING) as [Hm|Hm]; [exact Un|].
    apply andb_prop in Hp. destruct Hp as [Hp Hp3]. apply andb_prop in Hp. destruct Hp as [Hp1 Hp2].
    destruct (tv_mode _ (bi_vec x B) i c Hs) as (D1 & _ & D3).
    assert (Hc : sconnected x i c).
    { split; [exact Hs|]. destruct D3 as [D3|[D3|D3]]; [|contradiction|exact D3]. apply D1 in D3. rewrite D3 in Hp1. discriminate. }
    unfold decode_subscribed. destruct (Z.eqb_spec (h_pid h) 0) as [Hz|Hz]; [exact U0|].
    destruct (conn_spub x i c B Hc) as [s Hsp]. rewrite (get_spub_some x i s B Hsp). cbn [bind].
    destruct (sub_is_duplicate s (h_pid h)) eqn:Ed; [exact U0|].
    pose proof (accept_dec x log i c s (h_pid h) payload (Some (src, bs)) (mi_acc o) B M Hc Hsp Ed) as A. cbn [src_evs fst snd app] in A.
    eapply ssafe_bind; [apply A|].
    + split; [exact Hr|]. split; [|auto]. unfold carries_packet. cbn [fst snd]. destruct Eh as (E1 & E2 & E3 & E4).
      rewrite <- E4, <- E1, <- E3. split; [lia|]. split; [reflexivity|]. split; [exact Hz|]. split; [lia|]. split; [lia|].
      unfold payload. rewrite E2. reflexivity.
    + intros [x1 evs1] _ [U1 _]. exact U1.
  - unfold find_by_address. rewrite E. cbn [bind]. exact Un.
Qed.
Lemma mread_dec ins : r = Some (-1) -> forall x log op, BI x -> MI x log -> Forall mrecv_good ins ->
  ssafe (mread_loop x op ins) (fun q => usteps r log x (snd q) (snd (fst q))).
Proof.
  intros Hr. induction ins as [|m ins IH]; intros x log op B M Hi; cbn [mread_loop]; [constructor|]. pose proof (Forall_inv Hi) as Hm. pose proof (Forall_inv_tail Hi) as Hrest.
  destruct m as [|e|src bs o]; [constructor|constructor|]. cbv zeta. destruct Hm as (_ & Hb & Ho).
  eapply ssafe_bind.
  { apply (mcast_dec x log src (ztake RMC_MAX_PACKET bs) o Hr B M); auto.
    - apply bytes_take. exact Hb.
    - unfold zlen, ztake. rewrite firstn_length. unfold RMC_MAX_PACKET. lia. }
  intros [[[code op1] x1] evs0] _ U. cbn [fst snd] in U. destruct (negb (code =? 0)); [exact U|].
  destruct (steps_BMI r log x _ x1 B M U) as [B1 M1].
  eapply ssafe_bind; [apply (IH x1 _ _ B1 M1 Hrest)|]. intros [[[code2 op3] x2] evs2] _ U2. cbn [fst snd ssafe] in *.
  exact (us_app r log x _ x1 _ x2 U U2).
Qed.

(** ** Closing *)
Lemma close_conn_dec x log i c : BI x -> MI x log -> sconnected x i c ->
  ssafe (rmc_sub_close_connection x i) (fun q => usteps r log x (snd q) (fst q) /\ t_ack (fst q) = t_ack x /\ (forall j, j <> i -> slot (t_vec (fst q)) j = slot (t_vec x) j) /\ exists d, slot (t_vec (fst q)) i = Ok d /\ c_mode d = CLOSED).
Proof.
  intros B M Hc. destruct (conn_spub x i c B Hc) as [s Hs]. pose proof (slot_range _ _ _ (proj1 Hc)) as R.
  destruct (close_open (t_vec x) i c (proj1 Hc) (connected_mode x i c Hc)) as [v Ev].
  destruct (TV_close _ i c v (bi_vec x B) (proj1 Hc) (connected_mode x i c Hc) Ev) as (_ & Sz & S1 & S2).
  unfold rmc_sub_close_connection. rewrite Ev. cbn [bind].
  assert (G : get_spub (set_tvec x v) i = Ok s).
  { unfold get_spub. cbn [set_tvec t_vec t_pubs]. rewrite Sz, Hs. replace ((0 <=? i) && (i <? v_size (t_vec x))) with true by lia. reflexivity. }
  rewrite G. cbn [bind sub_reset]. rewrite map_map.
  change (map (fun p : spacket => fst (sk_payload p, sk_len p, sk_user p)) (s_recv s)) with (frees_of (s_recv s)).
  assert (Hin : forall p, In p (s_recv s) -> In p (held x)).
  { intros p Hp. apply in_held. left. exists i. split; [exact R|]. unfold waiting. rewrite Hs. exact Hp. }
  rewrite free_payloads_ok; [| |].
  - cbn [bind ssafe fst snd]. split; [apply us_one; exact (u_close r log x i c v s Hc Hs Ev)|]. split; [reflexivity|].
    cbn [set_tmem put_spub set_tpubs set_tvec t_vec]. split; [exact S2|]. exists (reset_conn c). split; [exact S1|reflexivity].
  - assert (Q := mi_owned x log M). unfold owned in Q. destruct (held_split x i R) as (Rs & P1 & _).
    assert (Ww : waiting x i = s_recv s) by (unfold waiting; rewrite Hs; reflexivity). rewrite Ww in P1.
    apply (Permutation_map sk_payload) in P1. rewrite map_app in P1.
    assert (N : NoDup (ptrs (held x))) by (eapply NoDup_app_l; exact Q).
    apply (Permutation_NoDup P1) in N. eapply NoDup_app_l; exact N.
  - intros q Hq. apply in_map_iff in Hq. destruct Hq as (p & <- & Hp). cbn [set_tvec t_mem].
    destruct (mi_held x log M p (Hin p Hp)) as (_ & E & _). rewrite E. discriminate.
Qed.
(** Closing anything else: an index that was never initialised is undefined behaviour. *)
Lemma close_any_dec x log i : BI x -> MI x log -> 0 <= i ->
  ssafe (rmc_sub_close_connection x i) (fun q => usteps r log x (snd q) (fst q) /\ t_ack (fst q) = t_ack x /\
     (forall j, j <> i -> slot (t_vec (fst q)) j = slot (t_vec x) j) /\
     (forall d, slot (t_vec (fst q)) i = Ok d -> c_mode d = CLOSED)).
Proof.
  intros B M Hi. destruct (close_cases (t_vec x) i Hi) as [[L E]|[(c & Hs & Hm & E)|(c & [Hs Ho] & E)]].
  - unfold rmc_sub_close_connection. rewrite E. cbn [bind]. rewrite set_tvec_id. unfold get_spub.
    replace ((0 <=? i) && (i <? v_size (t_vec x))) with false by lia. exact Logic.I.
  - unfold rmc_sub_close_connection. rewrite E. cbn [bind]. rewrite set_tvec_id. destruct (t_pubs x i) as [s|] eqn:Es.
    + rewrite (get_spub_some x i s B Es). cbn [bind sub_reset].
      assert (Hn : forall d, ~ sconnected x i d) by (intros d [Hd Hmd]; rewrite Hs in Hd; injection Hd as <-; rewrite Hm in Hmd; discriminate).
      destruct (bi_idle x B i s Es Hn) as [Er _]. rewrite Er. cbn [map free_payloads bind ssafe fst snd app].
      change (t_mem x) with (t_mem (put_spub x i (mkSP (s_ready s) (s_maxrecv s) [] []))). rewrite set_tmem_id.
      split; [apply us_one; exact (u_idle r log x i s Es Hn)|]. split; [reflexivity|]. split; [reflexivity|].
      cbn [put_spub set_tpubs t_vec]. intros d Hd. congruence.
    + unfold get_spub. rewrite Es. destruct (_ && _); exact Logic.I.
  - destruct (tv_mode _ (bi_vec x B) i c Hs) as (_ & _ & D3). destruct D3 as [D3|[D3|D3]]; [contradiction| |].
    + destruct (close_open (t_vec x) i c Hs Ho) as [v Ev].
      destruct (TV_close _ i c v (bi_vec x B) Hs Ho Ev) as (_ & Sz & S1 & S2).
      pose proof (slot_range _ _ _ Hs) as R.
      assert (U1 : ustep r log x [SvConn (EvRem (c_desc c) i); SvConn (EvClose (c_desc c))] (set_tvec x v)) by (exact (u_abort r log x i c v Hs D3 Ev)).
      pose proof (step_BI _ _ _ _ _ B U1) as B1.
      unfold rmc_sub_close_connection. rewrite Ev. cbn [bind]. destruct (t_pubs x i) as [s|] eqn:Es.
      * rewrite (get_spub_some (set_tvec x v) i s B1 Es). cbn [bind sub_reset].
        assert (Hn : forall d, ~ sconnected (set_tvec x v) i d).
        { intros d [Hd Hmd]. cbn [set_tvec t_vec] in Hd. rewrite S1 in Hd. injection Hd as <-. discriminate Hmd. }
        destruct (bi_idle _ B1 i s Es Hn) as [Er _]. rewrite Er. cbn [map free_payloads bind ssafe fst snd app].
        change (t_mem (set_tvec x v)) with (t_mem (put_spub (set_tvec x v) i (mkSP (s_ready s) (s_maxrecv s) [] []))). rewrite set_tmem_id.
        split.
        -- apply (us_app r log x [SvConn (EvRem (c_desc c) i); SvConn (EvClose (c_desc c))] (set_tvec x v) []); [apply us_one; exact U1|].
           apply us_one. exact (u_idle r _ (set_tvec x v) i s Es Hn).
        -- split; [reflexivity|]. cbn [put_spub set_tpubs set_tvec t_vec]. split; [exact S2|]. intros d Hd. rewrite S1 in Hd. injection Hd as <-. reflexivity.
      * unfold get_spub. cbn [set_tvec t_vec t_pubs]. rewrite Es. destruct (_ && _); exact Logic.I.
    + eapply ssafe_imp; [exact (close_conn_dec x log i c B M (conj Hs D3))|].
      intros q _ (U & A & S2 & d & S1 & Hd). split; [exact U|]. split; [exact A|]. split; [exact S2|]. intros e He. congruence.
Qed.

(** ** Deactivation *)
Lemma unlink_notin a l : ~ In a (map sk_addr l) -> unlink_packet a l = None.
Proof.
  induction l as [|p l IH]; intros H; [reflexivity|]. cbn [unlink_packet]. cbn [map In] in H.
  destruct (Nat.eqb_spec (sk_addr p) a) as [E|E]; [tauto|]. rewrite IH by tauto. reflexivity.
Qed.
Lemma drop_dec l : forall x log, BI x -> MI x log -> t_ready x = l ->
  exists x' evs, drop_ready x l = Ok (x', evs) /\ usteps r log x evs x' /\ t_vec x' = t_vec x /\ t_ready x' = [] /\ t_mcast x' = t_mcast x.
Proof.
  induction l as [|p l IH]; intros x log B M E; cbn [drop_ready].
  - do 2 eexists. split; [reflexivity|]. split; [constructor|auto].
  - assert (Hn : ~ In (sk_addr p) (map sk_addr l)).
    { pose proof (mi_addr x log M) as N. unfold held in N. rewrite E, map_app in N. cbn [map] in N. apply NoDup_remove_2 in N.
      intros H. apply N. apply in_or_app. right. exact H. }
    unfold rmc_sub_packet_dispatched, dispatched_keep_payload. cbn [set_tready t_ready]. rewrite (unlink_notin _ _ Hn). cbn [bind].
    assert (U : ustep r log x [SvDrop p] (set_tready x l)) by (exact (u_drop r log x p l E)).
    pose proof (step_BI _ _ _ _ _ B U) as B1. pose proof (step_MI _ _ _ _ _ B M U) as M1.
    destruct (IH (set_tready x l) (log ++ [SvDrop p]) B1 M1 eq_refl) as (x' & evs & E2 & U2 & V & R2 & C2). rewrite E2. cbn [bind fst snd app].
    do 2 eexists. split; [reflexivity|]. split; [|split; [rewrite V; reflexivity|split; [exact R2|exact C2]]].
    exact (us_app r log x [SvDrop p] (set_tready x l) evs x' (us_one _ _ _ _ _ U) U2).
Qed.
Lemma close_ack x l i : rmc_sub_close_connection (set_tack x l) i =
  (do q <- rmc_sub_close_connection x i; Ok (set_tack (fst q) l, snd q)).
Proof.
  unfold rmc_sub_close_connection. cbn [set_tack t_vec]. destruct (close_conn (t_vec x) i) as [[[code v] evs]|u| |]; [|reflexivity|reflexivity|reflexivity].
  cbn [bind]. change (get_spub (set_tvec (set_tack x l) v) i) with (get_spub (set_tvec x v) i).
  destruct (get_spub (set_tvec x v) i) as [s|u| |]; [|reflexivity|reflexivity|reflexivity]. cbn [bind sub_reset].
  change (t_mem (set_tvec (set_tack x l) v)) with (t_mem (set_tvec x v)).
  destruct (free_payloads (t_mem (set_tvec x v)) _) as [f|u| |]; reflexivity.
Qed.
Lemma sclose_ack n : forall x l ind, sclose_loop n (set_tack x l) ind = (do q <- sclose_loop n x ind; Ok (set_tack (fst q) l, snd q)).
Proof.
  induction n as [|n IH]; intros x l ind; cbn [sclose_loop]; [reflexivity|]. change (t_vec (set_tack x l)) with (t_vec x).
  destruct (find_by_index (t_vec x) ind) as [[c|]|u| |]; cbn [bind]; [|apply IH|reflexivity|reflexivity|reflexivity].
  rewrite close_ack. destruct (rmc_sub_close_connection x ind) as [q|u| |]; cbn [bind]; [|reflexivity|reflexivity|reflexivity].
  cbn [fst snd]. rewrite IH. destruct (sclose_loop n (fst q) (ind + 1)) as [q2|u| |]; reflexivity.
Qed.
Lemma sclose_dec n : forall x log ind, BI x -> MI x log -> 0 <= ind ->
  ssafe (sclose_loop n x ind) (fun q => usteps r log x (snd q) (fst q) /\ t_ack (fst q) = t_ack x /\
    forall j d, slot (t_vec (fst q)) j = Ok d -> c_mode d <> CLOSED -> slot (t_vec x) j = Ok d /\ ~ ind <= j < ind + Z.of_nat n).
Proof.
  induction n as [|n IH]; intros x log ind B M Hi; cbn [sclose_loop].
  - cbn. split; [constructor|]. split; [reflexivity|]. intros j d Hj _. split; [exact Hj|lia].
  - destruct (find_index_cases (t_vec x) ind Hi) as [[E Hn]|(c & E & Ho)]; rewrite E; cbn [bind].
    + eapply ssafe_imp; [apply (IH x log (ind + 1) B M); lia|]. intros q _ (U & A & S). split; [exact U|]. split; [exact A|].
      intros j d Hj Hd. destruct (S j d Hj Hd) as [S1 S2]. split; [exact S1|]. intros Hr. assert (j = ind) by lia. subst j.
      apply (Hn d). split; assumption.
    + eapply ssafe_bind; [exact (close_any_dec x log ind B M Hi)|]. intros [x1 e1] _ (U1 & A1 & S1 & S2). cbn [fst snd] in *.
      destruct (steps_BMI r log x e1 x1 B M U1) as [B1 M1].
      eapply ssafe_bind; [apply (IH x1 (log ++ e1) (ind + 1) B1 M1); lia|]. intros [x2 e2] _ (U2 & A2 & S3). cbn [fst snd ssafe] in *.
      split; [exact (us_app r log x e1 x1 e2 x2 U1 U2)|]. split; [congruence|].
      intros j d Hj Hd. destruct (S3 j d Hj Hd) as [S4 S5]. destruct (Z.eq_dec j ind) as [->|N]; [destruct (Hd (S2 d S4))|].
      rewrite S1 in S4 by exact N. split; [exact S4|lia].
Qed.
Lemma deactivate_dec x log : BI x -> MI x log ->
  ssafe (rmc_sub_deactivate_context x) (fun q => usteps r log x (snd q) (snd (fst q)) /\ forall j d, slot (t_vec (snd (fst q))) j = Ok d -> c_mode d = CLOSED).
Proof.
  intros B M. unfold rmc_sub_deactivate_context. destruct (drop_dec (t_ready x) x log B M eq_refl) as (x1 & e1 & E1 & U1 & V1 & R1 & C1).
  rewrite E1. cbn [bind fst snd]. destruct (steps_BMI r log x e1 x1 B M U1) as [B1 M1].
  change (set_tmcast (set_tack x1 []) (-1)) with (set_tack (set_tmcast x1 (-1)) []). rewrite sclose_ack.
  change (t_vec (set_tack (set_tmcast x1 (-1)) [])) with (t_vec x1).
  set (x2 := set_tmcast x1 (-1)). set (ev := [SvConn (EvClose (t_mcast x)); SvConn (EvRem (t_mcast x) RMC_MULTICAST_INDEX)]).
  assert (U2 : usteps r log x (e1 ++ ev) x2).
  { apply (us_app r log x e1 x1 ev x2 U1). apply (us_app r _ x1 ev x1 [] x2).
    - apply us_size_calm. unfold ev. repeat constructor.
    - apply us_one. apply u_cfg; reflexivity. }
  destruct (steps_BMI r log x _ x2 B M U2) as [B2 M2].
  pose proof (sclose_dec (Z.to_nat (get_max_index_in_use (t_vec x1) + 1)) x2 (log ++ e1 ++ ev) 0 B2 M2 ltac:(lia)) as S.
  destruct (sclose_loop _ x2 0) as [[x3 e3]|u| |]; [|exact S|exact S|exact S]. cbn [ssafe fst snd bind] in *. destruct S as (U3 & A3 & S3).
  assert (Hc : forall j d, slot (t_vec x3) j = Ok d -> c_mode d = CLOSED).
  { intros j d Hj. destruct (Z.eq_dec (c_mode d) CLOSED) as [Hm|Hm]; [exact Hm|]. destruct (S3 j d Hj Hm) as [S4 S5].
    exfalso. apply S5. change (t_vec x2) with (t_vec x1) in S4. destruct (tv_mode _ (bi_vec x1 B1) j d S4) as (D1 & _ & _).
    destruct (tv_max _ (bi_vec x1 B1)) as [_ Mx]. destruct (Mx j d S4) as [N L]; [intros H; apply D1 in H; contradiction|].
    pose proof (slot_range _ _ _ S4). unfold get_max_index_in_use. lia. }
  split; [|exact Hc].
  pose proof (us_app r log x _ x2 e3 x3 U2 U3) as U4. destruct (steps_BMI r log x _ x3 B M U4) as [B3 _].
  replace (e1 ++ ev ++ e3) with (((e1 ++ ev) ++ e3) ++ []) by (rewrite app_nil_r, <- app_assoc; reflexivity).
  eapply us_then; [exact U4|]. apply u_clear. intros i. unfold pending_acks. destruct (t_pubs x3 i) as [s|] eqn:Es; [|reflexivity].
  apply (bi_idle x3 B3 i s Es). intros c [Hs Hm]. rewrite (Hc i c Hs) in Hm. discriminate.
Qed.

(** ** Timeouts *)
Lemma ack_loop_dec l : r = Some (-2) -> forall x log i s, BI x -> MI x log -> t_pubs x i = Some s -> s_intv s = l ->
  ssafe (ack_loop x i s l) (fun q => usteps r log x (snd q) (snd (fst q)) /\ t_ack (snd (fst q)) = t_ack x /\ t_ato (snd (fst q)) = t_ato x /\
    (fst (fst q) = 0 -> pending_acks (snd (fst q)) i = [])).
Proof.
  intros Hr. induction l as [|iv l IH]; intros x log i s B M Hs Hl; cbn [ack_loop].
  - cbn. split; [constructor|]. split; [reflexivity|]. split; [reflexivity|]. intros _. unfold pending_acks. rewrite Hs. exact Hl.
  - assert (Hc : exists c, sconnected x i c).
    { pose proof (bi_range x B i s Hs) as R. destruct (slot_ex (t_vec x) i R) as [c Hc]. exists c. split; [exact Hc|].
      destruct (Z.eq_dec (c_mode c) CONNECTED) as [Hm|Hm]; [exact Hm|]. exfalso.
      destruct (bi_idle x B i s Hs) as [_ Hi]; [|rewrite Hl in Hi; discriminate]. intros d [Hd Hmd]. congruence. }
    destruct Hc as [c Hc]. set (s1 := mkSP (s_ready s) (s_maxrecv s) (s_recv s) l).
    unfold rmc_sub_packet_interval_acknowledged. change (t_vec (put_spub x i s1)) with (t_vec x). rewrite (proj1 Hc). cbn [bind].
    rewrite (proj2 Hc). cbn [negb Z.eqb CONNECTED Pos.eqb]. unfold write_interval_ack. change (t_vec (put_spub x i s1)) with (t_vec x). rewrite (proj1 Hc). cbn [bind].
    rewrite (proj2 Hc). cbn [negb Z.eqb CONNECTED Pos.eqb].
    destruct (tv_ring _ (bi_vec x B) i c (proj1 Hc)) as [W1 W2].
    destruct (write_ack_spec (c_wbuf c) (iv_first iv) (iv_last iv) W1) as (A1 & A2 & A3).
    destruct (Z_lt_ge_dec (circ_buf_available (c_wbuf c)) 17) as [L|L].
    + rewrite (A1 L). cbn [bind fst snd]. change (negb (ENOMEM =? 0)) with true. cbn [ssafe fst snd app].
      split; [apply us_one; exact (u_lost r log x i c s iv l Hc Hs Hl Hr)|]. split; [reflexivity|]. split; [reflexivity|]. intros E. discriminate E.
    + destruct (Z.eq_dec (cb_stop (c_wbuf c)) (cb_size (c_wbuf c))) as [E|E]; [rewrite A3 by (lia || exact E); exact Logic.I|].
      destruct A2 as (wb & Ew & X1 & X2 & _ & X3); [lia|destruct W1; unfold cb_wf in *; lia|]. rewrite Ew. cbn [bind fst snd].
      change (negb (0 =? 0)) with false. cbn [bind]. change (negb (0 =? 0)) with false.
      set (x1 := set_tvec _ _).
      set (evs := [_; _]).
      assert (U : ustep r log x evs x1) by (refine (u_ack r log x i c s iv l wb _ Hc Hs Hl X1 _ X3 Hr); congruence).
      pose proof (step_BI _ _ _ _ _ B U) as B1. pose proof (step_MI _ _ _ _ _ B M U) as M1. cbn [bind].
      eapply ssafe_bind; [apply (IH x1 (log ++ evs) i s1 B1 M1); [apply tupd_same|reflexivity]|].
      intros [[code2 x2] evs2] _ (U2 & T2 & T3 & P2). cbn [fst snd ssafe] in *.
      split; [exact (us_app r log x evs x1 evs2 x2 (us_one _ _ _ _ _ U) U2)|]. auto.
Qed.
Lemma timeout_dec now l : r = Some (-2) -> forall x log, BI x -> MI x log -> t_ack x = l ->
  ssafe (timeout_loop x now l) (fun q => usteps r log x (snd q) (snd (fst q))).
Proof.
  intros Hr. induction l as [|i l IH]; intros x log B M E; cbn [timeout_loop]; [constructor|].
  assert (Hs : exists s, t_pubs x i = Some s).
  { pose proof (bi_ack x B i) as H. rewrite E in H. specialize (H (or_introl eq_refl)). destruct (t_pubs x i); [eauto|congruence]. }
  destruct Hs as [s Hs]. rewrite (get_spub_some x i s B Hs). cbn [bind]. destruct (now <? _); [constructor|].
  eapply ssafe_bind; [exact (ack_loop_dec (s_intv s) Hr x log i s B M Hs eq_refl)|].
  intros [[code x1] evs] _ (U1 & A1 & _ & P1). cbn [fst snd] in *. destruct (Z.eqb_spec code 0) as [->|N]; cbn [negb]; [|exact U1].
  rewrite E in A1. specialize (P1 eq_refl).
  assert (U2 : usteps r log x evs (set_tack x1 l)).
  { replace evs with (evs ++ []) by apply app_nil_r. eapply us_then; [exact U1|]. exact (u_next r _ x1 i l A1 P1). }
  destruct (steps_BMI r log x evs _ B M U2) as [B2 M2].
  eapply ssafe_bind; [apply (IH (set_tack x1 l) (log ++ evs) B2 M2 eq_refl)|].
  intros [[code2 x2] evs2] _ U3. cbn [fst snd ssafe] in *. exact (us_app r log x evs _ evs2 x2 U2 U3).
Qed.

(** ** Writing *)
Lemma garbled_len p n ptr : 0 <= n <= zlen p -> zlen p <= 8 ->
  zlen (ztake n p ++ ztake (zlen p - n) (zdrop n (le_bytes 8 ptr))) = zlen p.
Proof.
  intros H1 H2. unfold zlen, ztake, zdrop in *. rewrite app_length, !firstn_length, skipn_length, le_bytes_length. lia.
Qed.
Lemma ctrl_dec (Hr3 : r = Some (-3)) x log i p ptr : BI x -> MI x log -> 0 <= i -> bytes_ok p -> is_u16 (zlen p) ->
  ssafe (rmc_sub_write_control_message x i p ptr) (fun q => usteps r log x (snd q) (snd (fst q))).
Proof.
  intros B M Hi Hb Hl. unfold rmc_sub_write_control_message. destruct (_ || _) eqn:E0; [constructor|]. apply orb_false_iff in E0. destruct E0 as [E1 E2].
  destruct (slot (t_vec x) i) as [c|u| |] eqn:Hs; [|unfold slot in Hs; destruct (0 <=? i); [destruct (nth_error _ _)|]; try discriminate; injection Hs as <-; exact Logic.I|exact Logic.I|exact Logic.I].
  cbn [bind]. destruct (Z.eqb_spec (c_mode c) CONNECTED) as [Hm|Hm]; cbn [negb]; [|constructor].
  assert (Hc : sconnected x i c) by (split; assumption).
  destruct (tv_ring _ (bi_vec x B) i c Hs) as [W1 W2]. pose proof (zlen_nonneg p) as Hp0.
  destruct (write_ctrl_spec (c_wbuf c) p ptr W1 ltac:(lia) ltac:(lia)) as (A1 & A2 & A3 & A4 & A5). cbv zeta in *.
  destruct (Z_lt_ge_dec (circ_buf_available (c_wbuf c)) (4 + zlen p)) as [L|L].
  { rewrite (A1 L). cbn [bind fst snd]. change (negb (ENOMEM =? 0)) with true. constructor. }
  assert (F : forall wb p', write_ctrl (c_wbuf c) p ptr = Ok (0, wb) -> cb_wf wb -> cb_size wb = cb_size (c_wbuf c) ->
     contents wb = contents (c_wbuf c) ++ wire (CmdCtrl p') -> cmd_ok (CmdCtrl p') ->
     ssafe (do w <- write_ctrl (c_wbuf c) p ptr;
      if negb (fst w =? 0) then Ok (fst w, x, [])
      else Ok (0, set_tvec x (put_slot (t_vec x) i (set_action (set_wbuf c (snd w)) (Z.lor (c_action c) POLLWRITE))),
               [SvConn (EvMod (c_desc c) i (c_action c) (Z.lor (c_action c) POLLWRITE))]))
      (fun q => usteps r log x (snd q) (snd (fst q)))).
  { intros wb p' Ew X1 X2 X3 X4. rewrite Ew. cbn [bind fst snd]. change (negb (0 =? 0)) with false. cbn [ssafe fst snd].
    apply us_one. apply (u_ctrl r log x i c p' wb); auto. congruence. }
  destruct (Z.eq_dec (cb_stop (c_wbuf c)) (cb_size (c_wbuf c))) as [E|E]; [rewrite A5 by (lia || exact E); exact Logic.I|].
  assert (Hst : cb_stop (c_wbuf c) < cb_size (c_wbuf c)) by (destruct W1; unfold cb_wf in *; lia).
  destruct (Z_le_gt_dec (cb_stop (c_wbuf c) + 3 + zlen p) (cb_size (c_wbuf c))) as [C1|C1].
  { destruct A2 as (wb & Ew & X1 & X2 & X3 & _); [lia|lia|auto|]. apply (F wb p Ew X1 X2 X3). split; assumption. }
  destruct (Z_lt_ge_dec (cb_size (c_wbuf c)) (cb_stop (c_wbuf c) + 3)) as [C2|C2].
  { destruct A2 as (wb & Ew & X1 & X2 & X3 & _); [lia|lia|auto|]. apply (F wb p Ew X1 X2 X3). split; assumption. }
  destruct (Z_le_gt_dec (zlen p) 8) as [C3|C3].
  - destruct A3 as (wb & Ew & X1 & X2 & X3); [lia|lia|lia|lia|].
    set (n := cb_size (c_wbuf c) - cb_stop (c_wbuf c) - 3) in *.
    pose proof (garbled_len p n ptr ltac:(lia) C3) as Gl.
    apply (F wb (ztake n p ++ ztake (zlen p - n) (zdrop n (le_bytes 8 ptr))) Ew X1 X2).
    + rewrite X3. cbn [wire]. rewrite Gl. reflexivity.
    + split; [rewrite Gl; exact Hl|]. apply Forall_app. split; [apply bytes_take; exact Hb|]. apply bytes_take, bytes_drop, le_bytes_ok.
  - rewrite A4 by lia. exact Logic.I.
Qed.
Lemma control_dec (Hr3 : r = Some (-3)) f x log p ptr : BI x -> MI x log -> bytes_ok p -> is_u16 (zlen p) ->
  ((exists i, f = Ok (Some i) /\ 0 <= i) \/ f = Ok None) ->
  ssafe (control_by f x p ptr) (fun q => usteps r log x (snd q) (snd (fst q))).
Proof.
  intros B M Hb Hl Hf. unfold control_by. destruct (_ || _); [constructor|].
  destruct Hf as [(i & -> & Hi)| ->]; cbn [bind]; [|constructor].
  apply (ssafe_bind _ _ (fun _ => True)).
  - unfold slot. destruct (0 <=? i); [destruct (nth_error _ _)|]; exact Logic.I.
  - intros c _ _. destruct (negb _); [constructor|]. apply ctrl_dec; assumption.
Qed.
Lemma finder_cases x p : BI x -> (forall c, p c = true -> c_desc c <> -1) ->
  (exists i, find_conn (t_vec x) p = Ok (Some i) /\ 0 <= i) \/ find_conn (t_vec x) p = Ok None.
Proof.
  intros B H. destruct (find_conn_spec (t_vec x) p (tv_max _ (bi_vec x B))) as [(i & c & E & Hs & _)|[E _]]; [|exact H| |right; exact E].
  - pose proof (tv_size _ (bi_vec x B)). unfold RMC_LISTEN_INDEX, RMC_NIL_INDEX in *. lia.
  - left. exists i. split; [exact E|]. apply (slot_range _ _ _ Hs).
Qed.
Lemma abort_dec x log i c : BI x -> slot (t_vec x) i = Ok c -> c_mode c = CONNECTING ->
  exists v, close_conn (t_vec x) i = Ok (0, v, [EvRem (c_desc c) i; EvClose (c_desc c)]) /\
    close_conn v i = Ok (ENOTCONN, v, []) /\
    usteps r log x [SvConn (EvRem (c_desc c) i); SvConn (EvClose (c_desc c))] (set_tvec x v).
Proof.
  intros B Hs Hm. assert (Ho : c_mode c <> CLOSED) by (rewrite Hm; discriminate).
  destruct (close_open (t_vec x) i c Hs Ho) as [v Ev]. pose proof (slot_range _ _ _ Hs) as R.
  destruct (TV_close _ i c v (bi_vec x B) Hs Ho Ev) as (_ & Sz & S1 & _). exists v. split; [exact Ev|]. split.
  - destruct (close_cases v i) as [[L _]|[(d & Hd & Hmd & E)|(d & [Hd Hmd] & _)]]; [lia|lia|exact E|]. rewrite S1 in Hd. injection Hd as <-. destruct (Hmd eq_refl).
  - apply us_one. exact (u_abort r log x i c v Hs Hm Ev).
Qed.
Lemma write_dec x log i o : BI x -> MI x log -> 0 <= i ->
  match sw_tcp o with WOk n => is_u32 n | WErr e => e <> 0 end -> match sw_cmp o with CmpErr e => e <> 0 | CmpOk _ _ => True end ->
  ssafe (rmc_sub_write x i o) (fun q => usteps r log x (snd q) (snd (fst q))).
Proof.
  intros B M Hi Hw Hcm. unfold rmc_sub_write. destruct (find_index_cases (t_vec x) i Hi) as [[E Hn]|(c & E & Hs & Ho)]; rewrite E; cbn [bind]; [constructor|].
  pose proof (slot_range _ _ _ Hs) as R.
  destruct (Z.eqb_spec (c_mode c) CONNECTING) as [Hm|Hm].
  - cbv zeta. set (x1 := put_spub x i sub_init).
    assert (Hnc : forall d, ~ sconnected x i d) by (intros d [Hd Hmd]; rewrite Hs in Hd; injection Hd as <-; rewrite Hm in Hmd; discriminate).
    assert (U1 : usteps r log x [] x1) by (apply us_one; exact (u_reinit r log x i R Hnc)).
    pose proof (steps_BI _ _ _ _ _ B U1) as B1.
    assert (Fin : forall pre, Forall (fun e => exists d j, e = EvRem d j) pre -> forall code v, code <> 0 ->
       close_conn (t_vec x1) i = Ok (0, v, [EvRem (c_desc c) i; EvClose (c_desc c)]) ->
       close_conn v i = Ok (ENOTCONN, v, []) ->
       usteps r log x1 [SvConn (EvRem (c_desc c) i); SvConn (EvClose (c_desc c))] (set_tvec x1 v) ->
       ssafe (if negb (code =? 0) then
          do q <- close_conn (t_vec (set_tvec x1 v)) i;
          let '(_, v2, evs2) := q in
          Ok (code, RMC_COMPLETE_CONNECTION, set_tvec (set_tvec x1 v) v2, map SvConn ((pre ++ [EvRem (c_desc c) i; EvClose (c_desc c)]) ++ evs2))
        else Ok (0, RMC_COMPLETE_CONNECTION, set_tvec x1 v,
                 map SvConn (pre ++ [EvRem (c_desc c) i; EvClose (c_desc c)]) ++ (if t_ccb x then [SvComplete (c_addr c) (c_port c) (c_node c)] else [])))
        (fun q => usteps r log x (snd q) (snd (fst q)))).
    { intros pre Hpre code v Hc Ec Ec2 U. replace (code =? 0) with false by lia. cbn [negb]. change (t_vec (set_tvec x1 v)) with v.
      rewrite Ec2. cbn [bind ssafe fst snd]. change (set_tvec (set_tvec x1 v) v) with (set_tvec x1 v). rewrite app_nil_r, map_app.
      apply (us_app r log x (map SvConn pre) x1).
      - apply (us_app r log x [] x1 _ x1 U1). apply us_size_calm. clear -Hpre. induction Hpre as [|e l He _ IH]; [constructor|].
        cbn [map]. constructor; [|exact IH]. destruct He as (d & j & ->). exact Logic.I.
      - apply us_one. exact (u_abort r _ x1 i c v Hs Hm Ec). }
    unfold complete_conn. change (t_vec x1) with (t_vec x). rewrite Hs. cbn [bind].
    destruct (abort_dec x1 log i c B1 Hs Hm) as (v & Ev & Ev2 & U2). change (t_vec x1) with (t_vec x) in Ev.
    destruct (sw_cmp o) as [e|so nd].
    + rewrite Ev. cbn [bind]. exact (Fin [] (Forall_nil _) e v Hcm Ev Ev2 U2).
    + destruct (Z.eqb_spec so 0) as [Es|Es]; cbn [negb].
      * destruct (Z.eqb_spec nd 0) as [En|En]; cbn [negb].
        -- cbn [bind]. change (negb (0 =? 0)) with false. cbn [ssafe fst snd map].
           change (t_vec x) with (t_vec x1).
           assert (U3 : usteps r log x [SvConn (EvMod (c_desc c) i (c_action c) POLLREAD)]
                          (set_tvec x1 (put_slot (t_vec x1) i (set_action (set_mode c CONNECTED) POLLREAD)))).
           { apply (us_app r log x [] x1 _ _ U1). apply us_one. apply (u_established r _ x1 i c Hs Hm). apply tupd_same. }
           destruct (t_ccb x); [|exact U3]. apply (us_event r log x _ _ _ U3). exact Logic.I.
        -- rewrite Ev. cbn [bind]. apply (Fin [EvRem (c_desc c) i]); auto. constructor; [eauto|constructor].
      * rewrite Ev. cbn [bind]. apply (Fin [EvRem (c_desc c) i]); auto. constructor; [eauto|constructor].
  - destruct (tv_mode _ (bi_vec x B) i c Hs) as (_ & _ & D3). assert (Hmc : c_mode c = CONNECTED) by (destruct D3 as [D3|[D3|D3]]; [contradiction|contradiction|exact D3]).
    destruct (_ =? 0); [constructor|]. destruct (tv_ring _ (bi_vec x B) i c Hs) as [W1 W2].
    destruct (tcp_write_spec (c_wbuf c) (sw_tcp o) W1) as (wb & Ew & X1 & X2 & X3 & _); [lia|destruct (sw_tcp o); auto|].
    rewrite Ew. cbn [bind ssafe fst snd w_sent w_buf w_left]. apply us_one. apply (u_write r log x i c wb); auto.
    + split; assumption.
    + congruence.
    + rewrite X3. destruct (sw_tcp o) as [e|n]; [reflexivity|]. symmetry. apply ztake_zdrop.
Qed.
Lemma activate_dec x log o : BI x -> usteps r log x (snd (rmc_sub_activate_context x o)) (snd (fst (rmc_sub_activate_context x o))).
Proof.
  intros B. unfold rmc_sub_activate_context. destruct (negb _); [constructor|].
  assert (F : forall d ev, Forall (calm_ev x r) ev -> usteps r log x ev (set_tmcast x d)).
  { intros d ev He. replace ev with (ev ++ []) by apply app_nil_r. eapply us_then; [apply us_size_calm; exact He|]. apply u_cfg; reflexivity. }
  destruct o as [e|d e|d e|d]; cbn [fst snd].
  - constructor.
  - apply us_size_calm. repeat constructor.
  - apply F. repeat constructor.
  - apply F. constructor; [exact Logic.I|]. constructor; [|constructor]. cbn. pose proof (tv_size _ (bi_vec x B)). unfold RMC_LISTEN_INDEX, RMC_MULTICAST_INDEX in *. lia.
Qed.
End Dec.

(** ** Reading the control channel *)
Lemma tcp_dec x log i o ins : BI x -> MI x log -> 0 <= i ->
  ssafe (rmc_sub_read x i (SrTcp o ins)) (fun q => usteps (Some i) log x (snd q) (snd (fst q))).
Proof.
  intros B M Hi. cbn [rmc_sub_read]. destruct (find_index_cases (t_vec x) i Hi) as [[E Hn]|(c & E & Hs & Ho)]; rewrite E; cbn [bind]; [constructor|].
  destruct (Z.eqb_spec (c_mode c) CONNECTED) as [Hm|Hm]; cbn [negb]; [|constructor]. cbv zeta.
  assert (Hc : sconnected x i c) by (split; assumption).
  set (got := match o with RErr => _ | _ => _ end).
  set (P := fun st : tst => usteps (Some i) log x (snd (fst st)) (fst (fst st)) /\ t_vec (fst (fst st)) = t_vec x).
  assert (P0 : P (x, got, ins)).
  { split; [|reflexivity]. cbn [fst snd]. apply us_size_calm. unfold got. destruct o as [|[|b bs]]; [constructor|constructor|]. constructor; [split; [reflexivity|eauto]|constructor]. }
  apply (ssafe_bind _ _ (fun q => P (r_st q))).
  { apply (tcp_read_ssafe _ P); [|exact P0]. apply sub_dispatch_ssafe.
    intros [[x1 evs] ins1] h p [U V] Hd. cbn [fst snd] in *. unfold tcp_eff. destruct ins1 as [|a ins1]; [exact Logic.I|].
    destruct (steps_BMI (Some i) log x evs x1 B M U) as [B1 M1].
    assert (Hc1 : sconnected x1 i c) by (unfold sconnected; rewrite V; exact Hc).
    destruct (conn_spub x1 i c B1 Hc1) as [s Hsp]. unfold tcp_dup in Hd. cbn [fst] in Hd. rewrite Hsp in Hd.
    eapply ssafe_bind; [exact (accept_dec (Some i) x1 (log ++ evs) i c s (h_pid h) p None a B1 M1 Hc1 Hsp Hd eq_refl)|].
    intros [x2 evs2] _ [U2 V2]. cbn [fst snd ssafe src_evs app] in *. unfold P. cbn [fst snd].
    split; [exact (us_app (Some i) log x evs x1 evs2 x2 U U2)|congruence]. }
  intros [code op [[x1 evs] ins1] rb] _ [U V]. cbn [r_st r_code r_op r_buf fst snd] in *.
  destruct (steps_BMI (Some i) log x evs x1 B M U) as [B1 M1].
  assert (Hc1 : sconnected x1 i c) by (unfold sconnected; rewrite V; exact Hc).
  set (x2 := set_tvec x1 _).
  assert (U2 : usteps (Some i) log x evs x2).
  { replace evs with (evs ++ []) by apply app_nil_r. eapply us_then; [exact U|]. exact (u_rbuf (Some i) _ x1 i c rb eq_refl Hc1). }
  destruct (steps_BMI (Some i) log x evs x2 B M U2) as [B2 M2].
  assert (Hc2 : sconnected x2 i (set_rbuf c rb)).
  { split; [|exact Hm]. unfold x2. cbn [set_tvec t_vec]. apply slot_put_same. rewrite V. exact (slot_range _ _ _ Hs). }
  destruct (code =? ENOMEM); [apply (us_event (Some i) log x _ _ _ U2); exact Logic.I|].
  destruct (code =? EPIPE).
  { eapply ssafe_bind; [exact (close_conn_dec (Some i) x2 _ i _ B2 M2 Hc2)|]. intros [x3 e3] _ (U3 & _). cbn [fst snd ssafe] in *.
    exact (us_app (Some i) log x evs x2 e3 x3 U2 U3). }
  eapply ssafe_bind; [exact (proc_dec (Some i) x2 (log ++ evs) i _ B2 Hc2)|]. intros [x3 e3] _ (U3 & V3). cbn [fst snd] in *.
  pose proof (us_app (Some i) log x evs x2 e3 x3 U2 U3) as U4. destruct (steps_BMI (Some i) log x _ x3 B M U4) as [B3 M3].
  assert (Hc3 : sconnected x3 i (set_rbuf c rb)) by (unfold sconnected; rewrite V3; exact Hc2).
  destruct (code =? EPROTO).
  - eapply ssafe_bind; [exact (close_conn_dec (Some i) x3 _ i _ B3 M3 Hc3)|]. intros [x4 e4] _ (U5 & _). cbn [fst snd ssafe] in *.
    rewrite app_assoc. exact (us_app (Some i) log x _ x3 e4 x4 U4 U5).
  - cbn [ssafe fst snd]. rewrite app_assoc. apply (us_event (Some i) log x _ _ _ U4). exact Logic.I.
Qed.

(** ** Every call *)
Definition reads (o : yop) : option Z := match o with YRead i (SrTcp _ _) => Some i | YRead _ (SrMcast _) => Some (-1) | YTimeout _ => Some (-2)
  | YCtrl _ _ _ | YCtrlAddr _ _ _ _ | YCtrlNode _ _ _ => Some (-3) | _ => None end.
Lemma step_dec x log o : BI x -> MI x log -> yok x log o ->
  ssafe (ystep x o) (fun q => usteps (reads o) log x (snd q) (snd (fst q))).
Proof.
  intros B M Hok. destruct o as [i [ins|o ins]|i o|now|i|a keep|ptr|i p ptr|ad port p ptr|node p ptr|a c k|o|]; cbn [ystep reads yok] in *.
  - cbn [rmc_sub_read]. unfold multicast_read. destruct (_ =? -1); [constructor|].
    apply (ssafe_bind _ _ (fun q => usteps (Some (-1)) log x (snd q) (snd (fst q)))).
    + apply (ssafe_bind _ _ (fun q => usteps (Some (-1)) log x (snd q) (snd (fst q)))).
      * eapply ssafe_bind; [exact (mread_dec (Some (-1)) ins eq_refl x log RMC_ERROR B M Hok)|]. intros [[[code op] x1] evs] _ U. cbn [fst snd] in *.
        apply (us_event (Some (-1)) log x evs x1 (SvConn (EvMod (t_mcast x) RMC_MULTICAST_INDEX POLLREAD POLLREAD)) U Logic.I).
      * intros [[[code op] x1] evs] _ U. exact U.
    + intros [[[code op] x1] evs] _ U. exact U.
  - destruct Hok as [Hi _]. eapply ssafe_bind; [exact (tcp_dec x log i o ins B M (proj1 Hi))|]. intros [[[code op] x1] evs] _ U. exact U.
  - destruct Hok as (Hi & Hw & Hc). eapply ssafe_bind; [exact (write_dec None x log i o B M (proj1 Hi) Hw Hc)|]. intros [[[code op] x1] evs] _ U. exact U.
  - exact (timeout_dec (Some (-2)) now (t_ack x) eq_refl x log B M eq_refl).
  - eapply ssafe_bind; [exact (close_any_dec None x log i B M (proj1 Hok))|]. intros [x1 evs] _ (U & _). exact U.
  - eapply ssafe_imp; [exact (taken_dec None x log a keep B M)|]. intros q _ [U _]. exact U.
  - cbn [ssafe fst snd]. apply us_one. exact (u_appfree None log x ptr Hok).
  - destruct Hok as (Hi & Hb & Hl & _). exact (ctrl_dec (Some (-3)) eq_refl x log i p ptr B M Hi Hb Hl).
  - destruct Hok as (Hb & Hl & _). apply control_dec; auto. apply finder_cases; [exact B|]. intros d Hd. lia.
  - destruct Hok as (Hb & Hl & _). apply control_dec; auto. apply finder_cases; [exact B|]. intros d Hd. lia.
  - cbn [ssafe fst snd]. apply us_one. apply u_cfg; reflexivity.
  - pose proof (activate_dec None x log o B) as U. destruct (rmc_sub_activate_context x o) as [[code x1] evs]. exact U.
  - eapply ssafe_imp; [exact (deactivate_dec None x log B M)|]. intros q _ [U _]. exact U.
Qed.
