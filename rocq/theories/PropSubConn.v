(** PropSubConn.v — theorems about the connections of a subscriber context: C51, C53 (example), C71. *)
From Coq Require Import Sorting.Permutation.
From Verif Require Import Base CircBuf CircBufProofs Wire SeqList Sub SpecSub SubProofs SubTrace Proto SpecProto ProtoProofs
  Conn SpecConn ConnProofs SubCtx SpecSubCtx SubSteps SubMem SubDecomp SubInv PropSubCtx.

(** C53: in the example, a packet of the subscribed publisher (1.2.3.4:4711 with sender 77 and
    header address 0) is delivered and one with another port is not. *)
Definition other (pid : Z) (bs : list Z) : list Z := enc_header (Wire.mkHdr pid 7 (zlen bs) 0 4712) ++ bs.
Definition gots (log : list sev) : list (Z * Z) := flat_map (fun e => match e with SvGot i k _ _ => [(i, k)] | _ => [] end) log.
Example c53_witness : exists x log x' log',
  yhist true sdemo0 [YActivate (SaOk 3); mcast_in [ann 4]; establish 0] x log /\ (exists c, sconnected x 0 c /\ leads x 0 c (77, 4711)) /\
  origin 77 (dgram 5 [50; 51]) = (77, 4711) /\ origin 77 (other 5 [50; 51]) = (77, 4712) /\
  (forall j c, ~ leads x j c (77, 4712)) /\
  yhist true sdemo0 ([YActivate (SaOk 3); mcast_in [ann 4]; establish 0] ++
    [mcast_in [McData 77 (other 5 [50; 51]) (mkMi true (SockErr 1) (mkAi 100 1000 [])); data 6 [60] 200 1100 []]]) x' log' /\ gots log' = [(0, 6)].
Proof.
  destruct (yrun sdemo0 [] [YActivate (SaOk 3); mcast_in [ann 4]; establish 0]) as [[x log]|] eqn:E1; [|vm_compute in E1; discriminate E1].
  exists x, log. pose proof (yrun_hist true sdemo0 _ sdemo0 [] [] x log (yh_nil _ _) E1) as H1.
  set (l2 := [mcast_in _]) in *. destruct (yrun x log l2) as [[x' log']|] eqn:E2.
  2: { exfalso. revert E2. vm_compute in E1. injection E1 as <- <-. vm_compute. discriminate. }
  exists x', log'. split; [exact H1|]. pose proof (yrun_hist true sdemo0 _ x log _ x' log' H1 E2) as H2. cbn [app] in *.
  split; [|split; [reflexivity|split; [reflexivity|split; [|split; [exact H2|]]]]].
  - vm_compute in E1. injection E1 as <- <-. eexists. split; [split; [vm_compute; reflexivity|reflexivity]|]. split; [vm_compute; reflexivity|]. split; [discriminate|reflexivity].
  - vm_compute in E1. injection E1 as <- <-. intros j c (Hs & Hm & Hp). pose proof (slot_range _ _ _ Hs) as R. cbn in R.
    assert (j = 0 \/ j = 1 \/ j = 2) as [-> | [-> | ->]] by lia; vm_compute in Hs; injection Hs as <-; vm_compute in Hp; congruence.
  - vm_compute in E1. injection E1 as <- <-. vm_compute in E2. injection E2 as <- <-. reflexivity.
Qed.

(** ** C51. One connection per publisher *)
(** [m] is an announce of the publisher at [ap] that the application, if asked, accepts. *)
Definition accepts (x : sctx) (m : mrecv) (ap : Z * Z) : Prop :=
  match m with
  | McData src bs o => ~ malformed (seen bs) /\ h_pid (dec_header (seen bs)) = 0 /\ (t_acb x = true -> mi_answer o = true) /\ origin src (seen bs) = ap
  | _ => False
  end.
(** The application accepts no announce of a publisher while a connection to it is being
    established, and none twice. *)
Definition careful_read (x : sctx) (ins : list mrecv) : Prop :=
  (forall m ap i c, In m ins -> accepts x m ap -> leads x i c ap -> c_mode c = CONNECTED) /\
  (forall l1 m1 l2 m2 l3 ap, ins = l1 ++ m1 :: l2 ++ m2 :: l3 -> accepts x m1 ap -> accepts x m2 ap -> exists i c, leads x i c ap).
Definition careful (x : sctx) (o : yop) : Prop := match o with YRead _ (SrMcast ins) => careful_read x ins | _ => True end.
Definition careful_history (x0 : sctx) (ops : list yop) : Prop :=
  forall t pre o post x log, ops = pre ++ o :: post -> yhist t x0 pre x log -> careful x o.

(** Only datagrams open connections. *)
Lemma put_leads x i c c' v j e q : slot (t_vec x) i = Ok c -> v_conns v = v_conns (put_slot (t_vec x) i c') ->
  (c_mode c' <> CLOSED -> c_mode c <> CLOSED /\ c_addr c' = c_addr c /\ c_port c' = c_port c) ->
  leads (set_tvec x v) j e q -> exists e0, leads x j e0 q.
Proof.
  intros Hs Ev Hc (H1 & H2 & H3). pose proof (slot_range _ _ _ Hs) as R. cbn [set_tvec t_vec] in H1. rewrite (slot_conns _ _ j Ev) in H1.
  destruct (slot_put _ _ _ _ _ R H1) as [[-> ->]|[N Hj]]; [|exists e; split; auto].
  exists c. destruct (Hc H2) as (C1 & C2 & C3). split; [exact Hs|]. split; [exact C1|]. rewrite <- C2, <- C3. exact H3.
Qed.
Lemma close_leads x i c v j e q : BI x -> slot (t_vec x) i = Ok c -> c_mode c <> CLOSED -> close_conn (t_vec x) i = Ok (0, v, [EvRem (c_desc c) i; EvClose (c_desc c)]) ->
  slot v j = Ok e -> c_mode e <> CLOSED -> (c_addr e, c_port e) = q -> leads x j e q.
Proof.
  intros B Hs Hm Ec H1 H2 H3. destruct (TV_close _ i c v (bi_vec x B) Hs Hm Ec) as (_ & _ & S1 & S2).
  destruct (Z.eq_dec j i) as [->|N]; [rewrite S1 in H1; injection H1 as <-; destruct (H2 eq_refl)|]. rewrite S2 in H1 by exact N. split; auto.
Qed.
Lemma step_leads r log x evs x' : r <> Some (-1) -> BI x -> ustep r log x evs x' -> forall j e q, leads x' j e q -> exists e0, leads x j e0 q.
Proof.
  intros Hr B Hu j e q Hl. destruct Hu; try (exists e; exact Hl).
  - exists e. unfold leads in *. rewrite <- H0. exact Hl.
  - exists e. unfold leads in *. rewrite H6 in Hl. exact Hl.
  - apply (put_leads (put_spub x i (mkSP (s_ready s) (s_maxrecv s) (s_recv s) rest)) i c _ _ j e q (proj1 H) eq_refl) in Hl; [exact Hl|]. cbn. rewrite (proj2 H). auto.
  - apply (put_leads x i c _ _ j e q (proj1 H) eq_refl) in Hl; [exact Hl|]. cbn. rewrite (proj2 H). auto.
  - apply (put_leads x i c _ _ j e q (proj1 H) eq_refl) in Hl; [exact Hl|]. cbn. rewrite (proj2 H). auto.
  - apply (put_leads x i c _ _ j e q (proj1 H0) eq_refl) in Hl; [exact Hl|]. cbn. rewrite (proj2 H0). auto.
  - contradiction.
  - destruct (tv_mode _ (bi_vec x B) i c H) as (D1 & _). apply (put_leads x i c c' v j e q H H5) in Hl; [exact Hl|]. rewrite H2. tauto.
  - apply (put_leads x i c _ _ j e q H eq_refl) in Hl; [exact Hl|]. cbn. rewrite H0. intros _. split; [discriminate|auto].
  - exists e. destruct Hl as (L1 & L2 & L3). apply (close_leads x i c v j e q B H); auto. rewrite H0. discriminate.
  - exists e. destruct Hl as (L1 & L2 & L3). apply (close_leads x i c v j e q B (proj1 H)); auto. exact (connected_mode x i c H).
Qed.
Lemma steps_leads r log x evs x' : r <> Some (-1) -> BI x -> usteps r log x evs x' -> forall j e q, leads x' j e q -> exists e0, leads x j e0 q.
Proof.
  intros Hr B Hu. induction Hu as [|evs x1 evs1 x2 Hu IH Hs]; intros j e q Hl; [eauto|].
  destruct (step_leads _ _ _ _ _ Hr (steps_BI _ _ _ _ _ B Hu) Hs j e q Hl) as [e1 H1]. exact (IH j e1 q H1).
Qed.
Lemma accepts_dec x m : (exists ap, accepts x m ap) \/ (forall ap, ~ accepts x m ap).
Proof.
  destruct m as [|e|src bs o]; [right; cbn; tauto|right; cbn; tauto|]. cbn [accepts].
  assert (D : malformed (seen bs) \/ ~ malformed (seen bs)) by (unfold malformed; lia).
  destruct D as [D|D]; [right; tauto|]. destruct (Z.eq_dec (h_pid (dec_header (seen bs))) 0) as [Hz|Hz]; [|right; tauto].
  destruct (t_acb x) eqn:Ea; [destruct (mi_answer o) eqn:Eb; [left|right; intros ap (_ & _ & H & _); discriminate (H eq_refl)]|left]; eexists; repeat split; auto. discriminate.
Qed.
(** What one datagram does to the connections. *)
Lemma dgram_leads x src bs o code op x' evs : BI x -> sock_good (mi_sock o) -> process_multicast_read x src (seen bs) o = Ok (code, op, x', evs) ->
  t_acb x' = t_acb x /\
  ((forall j c q, leads x' j c q <-> leads x j c q) \/
   exists ap, accepts x (McData src bs o) ap /\ ((forall j c, ~ leads x j c ap) \/ exists i c, leads x i c ap /\ c_mode c = CONNECTING) /\
     (forall j c q, leads x' j c q -> leads x j c q \/ (c_mode c = CONNECTING /\ q = ap)) /\
     (forall j c q, leads x j c q -> leads x' j c q) /\
     (forall j c k e q, leads x' j c q -> leads x' k e q -> j = k \/ leads x j c q \/ leads x k e q)).
Proof.
  intros B Ho E. pose proof (dgram_facts x src bs o code op x' evs B Ho E) as F. split; [apply (mf_cfg _ _ _ _ F)|].
  destruct (process_code _ _ _ _ _ _ _ _ E) as [[Hm _]|[W _]].
  { left. rewrite (process_malformed x src (seen bs) o Hm) in E. assert (x' = x) as -> by congruence. tauto. }
  destruct (process_cases x src (seen bs) o B W) as [(i & c & Hl & Hm & _ & Ep)|[Hc Ep]]; rewrite Ep in E; clear Ep; cbv zeta in E.
  - left. destruct (Z.eqb_spec (h_pid (dec_header (seen bs))) 0) as [Hz|Hz]; [assert (x' = x) as -> by congruence; tauto|].
    destruct (get_spub x i) as [s| | |]; cbn [bind] in E; [|discriminate E..].
    destruct (sub_is_duplicate s _); [assert (x' = x) as -> by congruence; tauto|].
    destruct (accept_packet x i _ (carried (seen bs)) true (mi_acc o)) as [[x1 e1]| | |] eqn:Ea; cbn [bind fst snd] in E; [|discriminate E..].
    assert (x' = x1) as -> by congruence. destruct (accept_shape _ _ _ _ _ _ _ _ Ea) as (_ & _ & _ & C1 & _). unfold leads. rewrite C1. tauto.
  - destruct (Z.eqb_spec (h_pid (dec_header (seen bs))) 0) as [Hz|Hz]; cbn [negb] in E; [|left; assert (x' = x) as -> by congruence; tauto].
    set (ev0 := if t_acb x then [SvAnnounce _ _ _ _] else []) in E.
    destruct (if t_acb x then mi_answer o else true) eqn:Ea; [|left; assert (x' = x) as -> by congruence; tauto].
    destruct (connect_tcp (t_vec x) _ _ _ _) as [[[[cd n] v] ce]| | |] eqn:Ec; cbn [bind] in E; [|discriminate E..].
    destruct (connect_effect x (origin src (seen bs)) _ _ _ _ _ _ B Ho Ec) as (F1 & F2 & F3 & F4 & F5).
    assert (x' = set_tvec x v) as -> by congruence. right. exists (origin src (seen bs)). split.
    { cbn [accepts]. split; [exact W|]. split; [exact Hz|]. split; [intros H; rewrite H in Ea; exact Ea|reflexivity]. }
    split; [destruct Hc as [(i & c & H1 & H2 & _)|H]; [right; eauto|left; exact H]|]. split; [|auto].
    intros j c q H. destruct (F4 j c q H) as [H'|(H1 & H2 & _)]; auto.
Qed.
Lemma accepts_same x x' m ap : t_acb x' = t_acb x -> accepts x' m ap <-> accepts x m ap.
Proof. intros E. destruct m; cbn [accepts]; [tauto|tauto|]. rewrite E. tauto. Qed.
Lemma mread_single ins : forall x log op code op' x' evs, BI x -> MI x log -> Forall mrecv_good ins -> single_conns x -> careful_read x ins ->
  mread_loop x op ins = Ok (code, op', x', evs) -> single_conns x'.
Proof.
  induction ins as [|m ins IH]; intros x log op code op' x' evs B M G S [C1 C2] E; cbn [mread_loop] in E; [assert (x' = x) as -> by congruence; exact S|].
  pose proof (Forall_inv G) as Gm. pose proof (Forall_inv_tail G) as Gr.
  destruct m as [|e|src bs o]; cbv iota in E; [assert (x' = x) as -> by congruence; exact S|assert (x' = x) as -> by congruence; exact S|].
  cbv zeta in E. fold (seen bs) in E. destruct Gm as (_ & Gb & Go).
  destruct (process_multicast_read x src (seen bs) o) as [[[[c1 op1] x1] e1]| | |] eqn:Ep; cbn [bind] in E; [|discriminate E..].
  destruct (dgram_leads _ _ _ _ _ _ _ _ B Go Ep) as (Ea & D).
  assert (S1 : single_conns x1 /\ careful_read x1 ins).
  { destruct D as [D|(ap & A & A2 & D1 & D2 & D3)].
    - split; [intros i j c d q Hi Hj; apply (S i j c d q); apply D; assumption|]. split.
      + intros m ap i c Hm Ha Hl. apply (C1 m ap i c); [right; exact Hm|apply (accepts_same x x1); assumption|apply D; exact Hl].
      + intros l1 m1 l2 m2 l3 ap -> H1 H2. destruct (C2 (McData src bs o :: l1) m1 l2 m2 l3 ap eq_refl) as (i & c & Hl); [apply (accepts_same x x1); assumption..|].
        exists i, c. apply D. exact Hl.
    - assert (Nl : forall j c, ~ leads x j c ap).
      { destruct A2 as [A2|(i & c & A2 & A3)]; [exact A2|]. rewrite (C1 _ ap i c (or_introl eq_refl) A A2) in A3. discriminate A3. }
      split.
      + intros i j c d q Hi Hj. destruct (D3 i c j d q Hi Hj) as [H|[H|H]]; [exact H| |].
        * destruct (D1 j d q Hj) as [Hd|[_ ->]]; [exact (S i j c d q H Hd)|destruct (Nl i c H)].
        * destruct (D1 i c q Hi) as [Hd|[_ ->]]; [exact (S i j c d q Hd H)|destruct (Nl j d H)].
      + split.
        * intros m q i c Hm Ha Hl. apply (accepts_same x x1) in Ha; [|exact Ea]. destruct (D1 i c q Hl) as [Hd|[_ ->]].
          -- apply (C1 m q i c); [right; exact Hm|exact Ha|exact Hd].
          -- exfalso. apply in_split in Hm. destruct Hm as (l1 & l2 & ->). destruct (C2 [] (McData src bs o) l1 m l2 ap eq_refl A Ha) as (k & d & Hk). exact (Nl k d Hk).
        * intros l1 m1 l2 m2 l3 q -> H1 H2. destruct (C2 (McData src bs o :: l1) m1 l2 m2 l3 q eq_refl) as (i & c & Hl); [apply (accepts_same x x1); assumption..|].
          exists i, c. apply D2. exact Hl. }
  destruct S1 as [S1 C1']. destruct (negb (c1 =? 0)); [assert (x' = x1) as -> by congruence; exact S1|].
  destruct (mread_loop x1 _ ins) as [[[[c2 op3] x2] e2]| | |] eqn:El; cbn [bind] in E; [|discriminate E..]. assert (x' = x2) as -> by congruence.
  pose proof (mcast_dec (Some (-1)) x log src (seen bs) o eq_refl B M) as U. rewrite Ep in U. cbn [ssafe fst snd] in U.
  destruct (steps_BMI (Some (-1)) log x (SvDgram src (seen bs) :: e1) x1 B M) as [B1 M1].
  { apply U; [apply bytes_take; exact Gb| |exact Go]. unfold seen, zlen, ztake. rewrite firstn_length. unfold RMC_MAX_PACKET. lia. }
  exact (IH x1 _ _ _ _ _ _ B1 M1 Gr S1 C1' El).
Qed.
Lemma step_single t x log o code x' evs : sreached t x log -> single_conns x -> yok x log o -> careful x o -> ystep x o = Ok (code, x', evs) -> single_conns x'.
Proof.
  intros R S Hok C E. destruct (sreached_inv t x log R) as (B & M & _).
  assert (D : reads o = Some (-1) -> exists i ins, o = YRead i (SrMcast ins)).
  { destruct o as [i [ins|t0 ins]| | | | | | | | | | |]; cbn [reads]; try discriminate; eauto. intros H. injection H as ->. cbn [yok] in Hok. lia. }
  assert (N : reads o <> Some (-1) \/ reads o = Some (-1)) by (destruct (reads o) as [k|]; [destruct (Z.eq_dec k (-1)) as [->|]; [right; reflexivity|left; congruence]|left; discriminate]).
  destruct N as [N|N].
  - destruct (step_bmi x log o code x' evs B M Hok E) as (U & _). intros i j c d ap Hi Hj.
    destruct (steps_leads _ _ _ _ _ N B U i c ap Hi) as [c0 Hc0]. destruct (steps_leads _ _ _ _ _ N B U j d ap Hj) as [d0 Hd0]. exact (S i j c0 d0 ap Hc0 Hd0).
  - destruct (D N) as (i & ins & ->). cbn [ystep rmc_sub_read] in E. unfold multicast_read in E. cbn [yok careful] in *.
    destruct (t_mcast x =? -1); cbn [bind] in E; [assert (x' = x) as -> by congruence; exact S|].
    destruct (mread_loop x RMC_ERROR ins) as [[[[c1 op1] x1] e1]| | |] eqn:El; cbn [bind] in E; [|discriminate E..].
    assert (x' = x1) as -> by congruence. exact (mread_single ins x log _ _ _ _ _ B M Hok S C El).
Qed.
(** The library by itself does not ensure it: if the application takes care, there is never more
    than one connection to a publisher. *)
Theorem c51_single_if_careful_partial : forall t x0 ops x log, fresh_sub x0 -> yhist t x0 ops x log -> careful_history x0 ops -> single_conns x.
Proof.
  intros t x0 ops x log F Hh. induction Hh as [|ops x log o code x' evs Hh IH Hok Hr E]; intros C.
  - destruct F as (node & buf & m & -> & L). intros i j c d ap (H1 & H2 & _). exfalso.
    cbn [rmc_sub_init_context t_vec] in H1. apply slot_init in H1. tauto.
  - apply (step_single t x log o code x' evs); auto.
    + exists x0, ops. auto.
    + apply IH. intros t' pre o' post y l -> Hy. apply (C t' pre o' (post ++ [o]) y l); [rewrite <- app_assoc; reflexivity|exact Hy].
    + apply (C t ops o [] x log); auto.
Qed.
(** The library opens connections only while it reads the multicast socket. *)
Theorem c51_only_datagrams_connect : forall t x log o code x' evs j c ap, sreached t x log -> yok x log o -> (forall i ins, o <> YRead i (SrMcast ins)) ->
  ystep x o = Ok (code, x', evs) -> leads x' j c ap -> exists c0, leads x j c0 ap.
Proof.
  intros t x log o code x' evs j c ap R Hok N E Hl. destruct (sreached_inv t x log R) as (B & M & _).
  destruct (step_bmi x log o code x' evs B M Hok E) as (U & _). apply (steps_leads (reads o) log x evs x') with (e := c); auto.
  destruct o as [i [ins|t0 ins]| | | | | | | | | | |]; cbn [reads]; try discriminate; [destruct (N i ins eq_refl)|]. cbn [yok] in Hok. intros H. injection H as ->. lia.
Qed.
(** An announce of a publisher with an established connection, no other having been opened, is
    ignored: the callback is not even asked. *)
Theorem c51_announce_while_connected : forall t x log i src bs o j c, sreached t x log -> t_mcast x <> -1 -> ~ malformed (seen bs) ->
  h_pid (dec_header (seen bs)) = 0 -> single_conns x -> leads x j c (origin src (seen bs)) -> c_mode c = CONNECTED ->
  rmc_sub_read x i (SrMcast [McData src bs o]) = Ok (0, RMC_READ_MULTICAST, x,
    [SvDgram src (seen bs); SvConn (EvMod (t_mcast x) RMC_MULTICAST_INDEX POLLREAD POLLREAD)]).
Proof.
  intros t x log i src bs o j c H Hm W Hz S Hl Hc. destruct (sreached_inv t x log H) as (B & _ & _).
  cbn [rmc_sub_read]. unfold multicast_read. replace (t_mcast x =? -1) with false by lia. cbn [mread_loop]. cbv zeta. fold (seen bs).
  destruct (process_cases x src (seen bs) o B W) as [(k & d & Hk & Hd & _ & Ep)|[[(k & d & Hk & Hd & _)|Hn] _]].
  - cbv zeta in Ep. rewrite Ep, Hz. reflexivity.
  - assert (k = j) by exact (S _ _ _ _ _ Hk Hl). subst k. destruct Hk as (Hk & _), Hl as (Hl & _). rewrite Hk in Hl. injection Hl as <-. rewrite Hc in Hd. discriminate Hd.
  - destruct (Hn j c Hl).
Qed.
(** But an accepted announce of a publisher whose connection is still being established opens a
    second one. *)
Theorem c51_second_connection_refuted : forall t x log i src bs o d ok errno j c, sreached t x log -> t_mcast x <> -1 -> ~ malformed (seen bs) ->
  h_pid (dec_header (seen bs)) = 0 -> (t_acb x = true -> mi_answer o = true) -> single_conns x ->
  leads x j c (origin src (seen bs)) -> c_mode c = CONNECTING ->
  mi_sock o = SockOk d ok errno -> 0 <= d -> (ok = true \/ errno = EINPROGRESS) -> (exists f, free_slot (t_vec x) f) ->
  exists x' k e evs, rmc_sub_read x i (SrMcast [McData src bs o]) = Ok (0, RMC_READ_MULTICAST_NOT_READY, x', evs) /\
    leads x' j c (origin src (seen bs)) /\ leads x' k e (origin src (seen bs)) /\ k <> j.
Proof.
  intros t x log i src bs o d ok errno j c H Hm W Hz Ha S Hl Hc Hs Hd Hk [f Hf]. destruct (sreached_inv t x log H) as (B & _ & _).
  cbn [rmc_sub_read]. unfold multicast_read. replace (t_mcast x =? -1) with false by lia. cbn [mread_loop]. cbv zeta. fold (seen bs).
  destruct (process_cases x src (seen bs) o B W) as [(k & e & Hk1 & Hk2 & _)|[_ Ep]].
  { assert (k = j) by exact (S _ _ _ _ _ Hk1 Hl). subst k. destruct Hk1 as (Hk1 & _), Hl as (Hl & _). rewrite Hk1 in Hl. injection Hl as <-. rewrite Hc in Hk2. discriminate Hk2. }
  cbv zeta in Ep. rewrite Ep, Hz. change (negb (0 =? 0)) with false. cbv iota.
  replace (if t_acb x then mi_answer o else true) with true by (destruct (t_acb x); [symmetry; auto|reflexivity]).
  pose proof (tv_size _ (bi_vec x B)) as Sz. rewrite Hs.
  destruct (connect_cases (t_vec x) (fst (origin src (seen bs))) (snd (origin src (seen bs))) (h_node (dec_header (seen bs))) (SockOk d ok errno))
    as [[E _]|(n & c0 & _ & Hsl & Hdc & E')]; [unfold RMC_LISTEN_INDEX, RMC_NIL_INDEX in *; lia|destruct (E f Hf)|].
  destruct E' as [(E1 & E2 & _)|(_ & E')]; [destruct Hk; congruence|]. rewrite E'. cbn [bind].
  destruct (connect_effect x (origin src (seen bs)) _ (SockOk d ok errno) _ _ _ _ B Hd E') as (_ & F2 & F3 & _).
  destruct (F3 d n POLLWRITE) as (c1 & L1 & L2 & L3); [right; left; reflexivity|].
  change (negb (0 =? 0)) with false. cbv iota. cbn [bind]. change (EAGAIN =? EAGAIN) with true. cbv iota.
  eexists _, n, c1, _. split; [reflexivity|]. split; [apply F2; exact Hl|]. split; [exact L1|].
  intros ->. destruct Hl as (Hl & _ & _). rewrite Hsl in Hl. injection Hl as ->. destruct (tv_mode _ (bi_vec x B) j c Hsl) as (D1 & _).
  apply D1 in Hdc. rewrite Hc in Hdc. discriminate Hdc.
Qed.
(** Two announces, two connections. *)
Example c51_witness : exists x log c d, yhist true sdemo0 [YActivate (SaOk 3); mcast_in [ann 4; ann 5]] x log /\
  leads x 0 c (77, 4711) /\ leads x 1 d (77, 4711).
Proof.
  destruct (yrun sdemo0 [] [YActivate (SaOk 3); mcast_in [ann 4; ann 5]]) as [[x log]|] eqn:E1; [|vm_compute in E1; discriminate E1].
  pose proof (yrun_hist true sdemo0 _ sdemo0 [] [] x log (yh_nil _ _) E1) as H1. vm_compute in E1. injection E1 as <- <-.
  do 4 eexists. split; [exact H1|]. split; (split; [vm_compute; reflexivity|]; split; [discriminate|reflexivity]).
Qed.
(** A careful history: the second announce comes when the connection is established. *)
Example c51_careful_witness : careful_history sdemo0 [YActivate (SaOk 3); mcast_in [ann 4]; establish 0; mcast_in [ann 5]] /\
  exists x log, yhist true sdemo0 [YActivate (SaOk 3); mcast_in [ann 4]; establish 0; mcast_in [ann 5]] x log /\ single_conns x /\ exists c, leads x 0 c (77, 4711).
Proof.
  set (ops := [YActivate (SaOk 3); mcast_in [ann 4]; establish 0; mcast_in [ann 5]]).
  assert (Det : forall t pre x1 l1, yhist t sdemo0 pre x1 l1 -> forall y, yrun sdemo0 [] pre = Some y -> y = (x1, l1)).
  { assert (R : forall pre x log o, yrun x log (pre ++ [o]) = match yrun x log pre with Some (y, l) => yrun y l [o] | None => None end).
    { induction pre as [|o pre IH]; intros x log o0; [reflexivity|]. cbn [app yrun]. destruct (yokb x log o && rgoodb x o); [|reflexivity].
      destruct (ystep x o) as [[[c0 x1] e0]| | |]; [exact (IH _ _ _)|reflexivity..]. }
    induction 1 as [|pre x1 l1 o code x2 evs Hh IH Hok Hr E]; intros y Hy; [cbn in Hy; congruence|].
    rewrite R in Hy. destruct (yrun sdemo0 [] pre) as [[x3 l3]|]; [|discriminate Hy]. specialize (IH _ eq_refl). injection IH as -> ->.
    cbn [yrun] in Hy. destruct (yokb x1 l1 o && rgoodb x1 o); [|discriminate Hy]. rewrite E in Hy. congruence. }
  assert (C : careful_history sdemo0 ops).
  { intros t pre o post x log E Hh. destruct pre as [|o1 [|o2 [|o3 [|o4 pre]]]]; injection E; intros; subst; try exact Logic.I.
    - pose proof (Det t _ x log Hh) as D. destruct (yrun sdemo0 [] _) as [y|] eqn:E1 in D; [|vm_compute in E1; discriminate E1].
      specialize (D _ eq_refl). subst y. vm_compute in E1. injection E1 as <- <-. split.
      + intros m ap i c _ _ (Hs & Hm & _). exfalso. apply Hm. pose proof (slot_range _ _ _ Hs) as R. cbn in R.
        assert (i = 0 \/ i = 1 \/ i = 2) as [-> | [-> | ->]] by lia; vm_compute in Hs; injection Hs as <-; reflexivity.
      + intros l1 m1 l2 m2 l3 ap El. exfalso. destruct l1 as [|a [|]]; [|discriminate El|discriminate El]. destruct l2; discriminate El.
    - pose proof (Det t _ x log Hh) as D. destruct (yrun sdemo0 [] _) as [y|] eqn:E1 in D; [|vm_compute in E1; discriminate E1].
      specialize (D _ eq_refl). subst y. vm_compute in E1. injection E1 as <- <-. split.
      + intros m ap i c _ _ (Hs & Hm & _). pose proof (slot_range _ _ _ Hs) as R. cbn in R.
        assert (i = 0 \/ i = 1 \/ i = 2) as [-> | [-> | ->]] by lia; vm_compute in Hs; injection Hs as <-; try reflexivity; destruct (Hm eq_refl).
      + intros l1 m1 l2 m2 l3 ap El. exfalso. destruct l1 as [|a [|]]; [|discriminate El|discriminate El]. destruct l2; discriminate El.
    - destruct pre; discriminate. }
  split; [exact C|]. destruct (yrun sdemo0 [] ops) as [[x log]|] eqn:E1; [|vm_compute in E1; discriminate E1].
  pose proof (yrun_hist true sdemo0 _ sdemo0 [] [] x log (yh_nil _ _) E1) as H1. cbn [app] in H1. exists x, log. split; [exact H1|].
  split; [exact (c51_single_if_careful_partial true sdemo0 ops x log sdemo0_fresh H1 C)|]. vm_compute in E1. injection E1 as <- <-.
  eexists. split; [vm_compute; reflexivity|]. split; [discriminate|reflexivity].
Qed.

(** ** C71. Deactivation closes everything *)
Lemma step_closes r log x evs x' i c : BI x -> ustep r log x evs x' -> slot (t_vec x) i = Ok c -> c_mode c <> CLOSED ->
  (exists c', slot (t_vec x') i = Ok c' /\ c_mode c' <> CLOSED /\ c_desc c' = c_desc c) \/ In (SvConn (EvClose (c_desc c))) evs.
Proof.
  intros B Hu Hs Hm. pose proof (slot_range _ _ _ Hs) as R.
  assert (P : forall y j d d', t_vec y = t_vec x -> slot (t_vec x) j = Ok d -> c_desc d' = c_desc d -> (c_mode d <> CLOSED -> c_mode d' <> CLOSED) ->
    exists c', slot (put_slot (t_vec y) j d') i = Ok c' /\ c_mode c' <> CLOSED /\ c_desc c' = c_desc c).
  { intros y j d d' -> Hj Ed Ho. destruct (Z.eq_dec j i) as [->|N].
    - rewrite slot_put_same by exact R. exists d'. assert (d = c) by congruence. subst d. auto.
    - rewrite slot_put_other; [exists c; auto|pose proof (slot_range _ _ _ Hj); lia|congruence]. }
  assert (Q : forall j d v, slot (t_vec x) j = Ok d -> c_mode d <> CLOSED -> close_conn (t_vec x) j = Ok (0, v, [EvRem (c_desc d) j; EvClose (c_desc d)]) ->
    (j = i /\ d = c) \/ slot v i = Ok c).
  { intros j d v Hj Ho Ec. destruct (TV_close _ j d v (bi_vec x B) Hj Ho Ec) as (_ & _ & S1 & S2).
    destruct (Z.eq_dec j i) as [->|N]; [left; split; congruence|right; rewrite S2; congruence]. }
  destruct Hu; try (left; exists c; split; [exact Hs|auto]; fail).
  - left. exists c. rewrite H0. auto.
  - left. exists c. rewrite H6. auto.
  - left. apply (P (put_spub x i0 (mkSP (s_ready s) (s_maxrecv s) (s_recv s) rest)) i0 c0); auto. exact (proj1 H).
  - left. apply (P x i0 c0); auto. exact (proj1 H).
  - left. apply (P x i0 c0); auto. exact (proj1 H).
  - left. apply (P x i0 c0); auto. exact (proj1 H0).
  - left. cbn [set_tvec t_vec].
    destruct (TV_connect (t_vec x) i0 c0 d addr port node POLLWRITE (bi_vec x B) H0 H1 H2) as (_ & S1 & S2 & _ & Hc & _).
    exists c. rewrite S2; [auto|]. intros ->. congruence.
  - left. destruct (tv_mode _ (bi_vec x B) i0 c0 H) as (D1 & _). cbn [set_tvec t_vec]. rewrite (slot_conns _ _ i H5). exists c.
    rewrite slot_put_other; [auto|pose proof (slot_range _ _ _ H); lia|]. intros ->. apply Hm. apply D1 in H0. congruence.
  - left. apply (P x i0 c0); auto. cbn. intros _. discriminate.
  - destruct (Q i0 c0 v H ltac:(rewrite H0; discriminate) H1) as [[-> ->]|Hv]; [right; right; left; reflexivity|left; exists c; auto].
  - destruct (Q i0 c0 v (proj1 H) (connected_mode _ _ _ H) H1) as [[-> ->]|Hv]; [right; right; left; reflexivity|left; exists c; auto].
Qed.
Lemma steps_closes r log x evs x' i c : BI x -> usteps r log x evs x' -> slot (t_vec x) i = Ok c -> c_mode c <> CLOSED ->
  (exists c', slot (t_vec x') i = Ok c' /\ c_mode c' <> CLOSED /\ c_desc c' = c_desc c) \/ In (SvConn (EvClose (c_desc c))) evs.
Proof.
  intros B Hu Hs Hm. induction Hu as [|evs x1 evs1 x2 Hu IH Hst]; [left; eauto|].
  destruct IH as [(c1 & S1 & M1 & D1)|H]; [|right; apply in_or_app; auto].
  destruct (step_closes _ _ _ _ _ i c1 (steps_BI _ _ _ _ _ B Hu) Hst S1 M1) as [(c2 & S2 & M2 & D2)|H].
  - left. exists c2. rewrite D2. auto.
  - right. apply in_or_app. right. rewrite <- D1. exact H.
Qed.
Lemma flat_nil {A B} (f : A -> list B) l : (forall a, In a l -> f a = []) -> flat_map f l = [].
Proof. induction l as [|a l IH]; intros H; [reflexivity|]. cbn. rewrite (H a (or_introl eq_refl)), IH; [reflexivity|]. intros; apply H; right; assumption. Qed.
Lemma sclose_other n : forall x ind q, sclose_loop n x ind = Ok q -> t_ready (fst q) = t_ready x /\ t_ack (fst q) = t_ack x /\ t_mcast (fst q) = t_mcast x.
Proof.
  induction n as [|n IH]; intros x ind q E; cbn [sclose_loop] in E; [assert (q = (x, [])) as -> by congruence; auto|].
  destruct (find_by_index (t_vec x) ind) as [[c|]| | |]; cbn [bind] in E; [|exact (IH _ _ _ E)|discriminate E..].
  destruct (rmc_sub_close_connection x ind) as [[x1 e1]| | |] eqn:Ec; cbn [bind fst snd] in E; [|discriminate E..].
  destruct (sclose_loop n x1 (ind + 1)) as [[x2 e2]| | |] eqn:E2; cbn [bind fst snd] in E; [|discriminate E..].
  assert (q = (x2, e1 ++ e2)) as -> by congruence. destruct (IH _ _ _ E2) as (I1 & I2 & I3). cbn [fst] in *. rewrite I1, I2, I3.
  unfold rmc_sub_close_connection in Ec. destruct (close_conn (t_vec x) ind) as [[[cd v] ce]| | |]; cbn [bind] in Ec; [|discriminate Ec..].
  destruct (get_spub (set_tvec x v) ind) as [s| | |]; cbn [bind] in Ec; [|discriminate Ec..]. destruct (sub_reset s) as [s1 fr].
  destruct (free_payloads _ _) as [f| | |]; cbn [bind] in Ec; [|discriminate Ec..].
  assert (x1 = set_tmem (put_spub (set_tvec x v) ind s1) (fst f)) as -> by congruence. auto.
Qed.
Lemma deactivate_state t x log code x' evs : sreached t x log -> rmc_sub_deactivate_context x = Ok (code, x', evs) ->
  code = 0 /\ t_ready x' = [] /\ t_ack x' = [] /\ t_mcast x' = -1 /\ In (SvConn (EvClose (t_mcast x))) evs.
Proof.
  intros R E. destruct (sreached_inv t x log R) as (B & M & _). unfold rmc_sub_deactivate_context in E.
  destruct (drop_dec None (t_ready x) x log B M eq_refl) as (x1 & e1 & E1 & U1 & V1 & R1 & C1). rewrite E1 in E. cbn [bind fst snd] in E.
  destruct (sclose_loop _ _ 0) as [[x2 e2]| | |] eqn:E2; cbn [bind fst snd] in E; [|discriminate E..].
  destruct (sclose_other _ _ _ _ E2) as (I1 & I2 & I3). cbn [fst set_tmcast set_tack t_ready t_ack t_mcast] in *.
  assert (x' = x2) as -> by congruence. repeat split; try congruence.
  match type of E with Ok (_, _, ?a) = _ => assert (evs = a) as -> by congruence end. apply in_or_app. right. left. reflexivity.
Qed.
(** After rmc_sub_deactivate_context no connection is open, nothing is ready, nothing waits for
    acknowledgement, no packet is held, and every descriptor that was open has been closed. *)
Theorem c71_deactivated : forall t x log code x' evs, sreached t x log -> rmc_sub_deactivate_context x = Ok (code, x', evs) ->
  code = 0 /\ (forall j c, slot (t_vec x') j = Ok c -> c_mode c = CLOSED) /\ held x' = [] /\ (forall i, pending_acks x' i = []) /\
  t_mcast x' = -1 /\ rmc_sub_get_publisher_count x' = 0 /\ rmc_sub_get_socket_count x' = 0 /\
  rmc_sub_get_dispatch_ready_count x' = 0 /\ rmc_sub_get_next_dispatch_ready x' = None /\ rmc_sub_timeout_get_next x' = Ok (-1) /\
  In (SvConn (EvClose (t_mcast x))) evs /\
  (forall i c, slot (t_vec x) i = Ok c -> c_mode c <> CLOSED -> In (SvConn (EvClose (c_desc c))) evs).
Proof.
  intros t x log code x' evs R E. destruct (deactivate_state _ _ _ _ _ _ R E) as (S1 & S2 & S3 & S4 & S5).
  destruct (sreached_inv t x log R) as (B & M & _). pose proof (deactivate_dec None x log B M) as D. rewrite E in D. cbn [ssafe fst snd] in D. destruct D as [U Hc].
  destruct (steps_BMI _ _ _ _ _ B M U) as [B1 M1].
  assert (Id : forall i s, t_pubs x' i = Some s -> s_recv s = [] /\ s_intv s = []).
  { intros i s Hs. apply (bi_idle x' B1 i s Hs). intros c [H1 H2]. rewrite (Hc i c H1) in H2. discriminate H2. }
  assert (Ct : rmc_sub_get_publisher_count x' = 0).
  { unfold rmc_sub_get_publisher_count, get_active_connection_count. rewrite (tv_active _ (bi_vec x' B1)). unfold count_open.
    assert (Hf : forall c, In c (v_conns (t_vec x')) -> negb (c_mode c =? CLOSED) = false).
    { intros c Hi. apply In_nth_error in Hi. destruct Hi as [n Hn]. rewrite (Hc (Z.of_nat n) c); [reflexivity|]. apply slot_ok. split.
      - unfold v_size, zlen. assert (n < length (v_conns (t_vec x')))%nat by (apply nth_error_Some; congruence). lia.
      - rewrite Nat2Z.id. exact Hn. }
    induction (v_conns (t_vec x')) as [|a l IH]; [reflexivity|]. cbn [filter]. rewrite (Hf a (or_introl eq_refl)). apply IH. intros c Hi. apply Hf. right. exact Hi. }
  split; [exact S1|]. split; [exact Hc|]. split.
  { unfold held. rewrite S2, app_nil_r. apply flat_nil. intros i _. unfold waiting. destruct (t_pubs x' i) as [s|] eqn:Es; [|reflexivity]. exact (proj1 (Id i s Es)). }
  split; [intros i; unfold pending_acks; destruct (t_pubs x' i) as [s|] eqn:Es; [exact (proj2 (Id i s Es))|reflexivity]|].
  split; [exact S4|]. split; [exact Ct|]. split; [unfold rmc_sub_get_socket_count; rewrite Ct, S4; reflexivity|].
  split; [unfold rmc_sub_get_dispatch_ready_count; rewrite S2; reflexivity|]. split; [unfold rmc_sub_get_next_dispatch_ready; rewrite S2; reflexivity|].
  split; [unfold rmc_sub_timeout_get_next; rewrite S3; reflexivity|]. split; [exact S5|].
  intros i c Hs Hm. destruct (steps_closes None log x evs x' i c B U Hs Hm) as [(c' & H1 & H2 & _)|H]; [|exact H]. destruct (H2 (Hc i c' H1)).
Qed.
(** It always succeeds when no connection is being established. *)
Lemma close_succeeds x log i c : BI x -> MI x log -> sconnected x i c -> exists x1 e1, rmc_sub_close_connection x i = Ok (x1, e1) /\
  BI x1 /\ MI x1 (log ++ e1) /\ (forall j, j <> i -> slot (t_vec x1) j = slot (t_vec x) j) /\ exists d, slot (t_vec x1) i = Ok d /\ c_mode d = CLOSED.
Proof.
  intros B M Hc. pose proof (close_conn_dec None x log i c B M Hc) as D.
  assert (K : exists q, rmc_sub_close_connection x i = Ok q).
  { destruct (conn_spub x i c B Hc) as [s Hs]. destruct (close_open (t_vec x) i c (proj1 Hc) (connected_mode x i c Hc)) as [v Ev].
    destruct (TV_close _ i c v (bi_vec x B) (proj1 Hc) (connected_mode x i c Hc) Ev) as (_ & Sz & _). pose proof (slot_range _ _ _ (proj1 Hc)) as R.
    unfold rmc_sub_close_connection. rewrite Ev. cbn [bind]. unfold get_spub. cbn [set_tvec t_vec t_pubs]. rewrite Sz, Hs.
    replace ((0 <=? i) && (i <? v_size (t_vec x))) with true by lia. cbn [bind sub_reset]. rewrite map_map.
    change (map (fun p : spacket => fst (sk_payload p, sk_len p, sk_user p)) (s_recv s)) with (frees_of (s_recv s)).
    assert (Hin : forall p, In p (s_recv s) -> In p (held x)).
    { intros p Hp. apply in_held. left. exists i. split; [exact R|]. unfold waiting. rewrite Hs. exact Hp. }
    rewrite free_payloads_ok; [eexists; reflexivity| |].
    - assert (Q := mi_owned x log M). unfold owned in Q. destruct (held_split x i R) as (Rs & P1 & _).
      assert (Ww : waiting x i = s_recv s) by (unfold waiting; rewrite Hs; reflexivity). rewrite Ww in P1.
      apply (Permutation_map sk_payload) in P1. rewrite map_app in P1. apply NoDup_app_l in Q.
      apply (Permutation_NoDup P1) in Q. apply NoDup_app_l in Q. exact Q.
    - intros q Hq. apply in_map_iff in Hq. destruct Hq as (p & <- & Hp). destruct (mi_held x log M p (Hin p Hp)) as (_ & E & _). cbn [set_tvec t_mem]. rewrite E. discriminate. }
  destruct K as [[x1 e1] E]. rewrite E in D. cbn [ssafe fst snd] in D. destruct D as (U & _ & S2 & S1).
  destruct (steps_BMI _ _ _ _ _ B M U) as [B1 M1]. exists x1, e1. auto 10.
Qed.
Lemma sclose_succeeds n : forall x log ind, BI x -> MI x log -> 0 <= ind -> (forall i c, slot (t_vec x) i = Ok c -> c_mode c <> CONNECTING) ->
  exists q, sclose_loop n x ind = Ok q.
Proof.
  induction n as [|n IH]; intros x log ind B M Hi Hn; cbn [sclose_loop]; [eauto|].
  destruct (find_index_cases (t_vec x) ind Hi) as [[E _]|(c & E & Hs & Ho)]; rewrite E; cbn [bind]; [apply (IH x log); auto; lia|].
  assert (Hc : sconnected x ind c).
  { split; [exact Hs|]. destruct (tv_mode _ (bi_vec x B) ind c Hs) as (_ & _ & [D|[D|D]]); [contradiction|destruct (Hn ind c Hs D)|exact D]. }
  destruct (close_succeeds x log ind c B M Hc) as (x1 & e1 & -> & B1 & M1 & S2 & d & S1 & Hd). cbn [bind fst snd].
  destruct (IH x1 (log ++ e1) (ind + 1) B1 M1) as [q ->]; [lia| |eexists; reflexivity].
  intros i e He. destruct (Z.eq_dec i ind) as [->|N]; [rewrite S1 in He; injection He as <-; rewrite Hd; discriminate|]. rewrite S2 in He by exact N. exact (Hn i e He).
Qed.
Theorem c71_deactivation_succeeds : forall t x log, sreached t x log -> (forall i c, slot (t_vec x) i = Ok c -> c_mode c <> CONNECTING) ->
  exists x' evs, rmc_sub_deactivate_context x = Ok (0, x', evs).
Proof.
  intros t x log R Hn. destruct (sreached_inv t x log R) as (B & M & _). unfold rmc_sub_deactivate_context.
  destruct (drop_dec None (t_ready x) x log B M eq_refl) as (x1 & e1 & E1 & U1 & V1 & R1 & C1). rewrite E1. cbn [bind fst snd].
  destruct (steps_BMI _ _ _ _ _ B M U1) as [B1 M1].
  change (set_tmcast (set_tack x1 []) (-1)) with (set_tack (set_tmcast x1 (-1)) []). rewrite sclose_ack.
  destruct (sclose_succeeds (Z.to_nat (get_max_index_in_use (t_vec (set_tack (set_tmcast x1 (-1)) [])) + 1)) (set_tmcast x1 (-1)) (log ++ e1) 0) as [q ->].
  - apply (BI_same x1); auto.
  - rewrite <- (app_nil_r (log ++ e1)). apply (step_MI None (log ++ e1) x1 [] (set_tmcast x1 (-1)) B1 M1). apply u_cfg; reflexivity.
  - lia.
  - intros i c. cbn [set_tmcast t_vec]. rewrite V1. apply Hn.
  - cbn [bind fst snd]. eauto.
Qed.
(** If the first connection on some index is still being established, deactivation reads
    uninitialised memory. *)
Example c71_pending_connect_refuted_witness : exists x log, yhist true sdemo0 [YActivate (SaOk 3); mcast_in [ann 4]] x log /\
  rmc_sub_deactivate_context x = UB UninitRead /\ rmc_sub_close_connection x 0 = UB UninitRead.
Proof.
  destruct (yrun sdemo0 [] [YActivate (SaOk 3); mcast_in [ann 4]]) as [[x log]|] eqn:E1; [|vm_compute in E1; discriminate E1].
  pose proof (yrun_hist true sdemo0 _ sdemo0 [] [] x log (yh_nil _ _) E1) as H1. vm_compute in E1. injection E1 as <- <-.
  do 2 eexists. split; [exact H1|]. split; vm_compute; reflexivity.
Qed.
Theorem c71_pending_connect_refuted : forall t x log i c, sreached t x log -> slot (t_vec x) i = Ok c -> c_mode c = CONNECTING -> t_pubs x i = None ->
  rmc_sub_close_connection x i = UB UninitRead.
Proof.
  intros t x log i c R0 Hs Hm Hp. destruct (sreached_inv t x log R0) as (B & _). destruct (close_open (t_vec x) i c Hs ltac:(rewrite Hm; discriminate)) as [v Ev].
  destruct (TV_close _ i c v (bi_vec x B) Hs ltac:(rewrite Hm; discriminate) Ev) as (_ & Sz & _). pose proof (slot_range _ _ _ Hs) as R.
  unfold rmc_sub_close_connection. rewrite Ev. cbn [bind]. unfold get_spub. cbn [set_tvec t_vec t_pubs]. rewrite Sz, Hp.
  replace ((0 <=? i) && (i <? v_size (t_vec x))) with true by lia. reflexivity.
Qed.
(** The example: one established connection with a packet ready and one waiting. *)
Example c71_witness : exists x log x' evs, yhist true sdemo0 sdemo_ops x log /\ (exists c, sconnected x 0 c /\ c_desc c = 4) /\ map sk_pid (held x) = [7; 5] /\
  rmc_sub_deactivate_context x = Ok (0, x', evs) /\ In (SvConn (EvClose 4)) evs /\ held x' = [].
Proof.
  destruct (yrun sdemo0 [] sdemo_ops) as [[x log]|] eqn:E1; [|vm_compute in E1; discriminate E1].
  pose proof (yrun_hist true sdemo0 _ sdemo0 [] [] x log (yh_nil _ _) E1) as H1. exists x, log.
  assert (R : sreached true x log) by (exists sdemo0, sdemo_ops; split; [exact sdemo0_fresh|exact H1]).
  assert (Hc : (exists c, sconnected x 0 c /\ c_desc c = 4) /\ map sk_pid (held x) = [7; 5] /\ forall i c, slot (t_vec x) i = Ok c -> c_mode c <> CONNECTING).
  { vm_compute in E1. injection E1 as <- <-. split; [eexists; split; [split; [vm_compute; reflexivity|reflexivity]|reflexivity]|]. split; [reflexivity|].
    intros i c Hs. pose proof (slot_range _ _ _ Hs) as Rg. cbn in Rg.
    assert (i = 0 \/ i = 1 \/ i = 2) as [-> | [-> | ->]] by lia; vm_compute in Hs; injection Hs as <-; discriminate. }
  destruct Hc as ((c & Hc & Hd) & Hp & Hn). destruct (c71_deactivation_succeeds true x log R Hn) as (x' & evs & E). exists x', evs.
  destruct (c71_deactivated true x log 0 x' evs R E) as (_ & _ & Hh & _ & _ & _ & _ & _ & _ & _ & _ & Hcl).
  split; [exact H1|]. split; [eauto|]. split; [exact Hp|]. split; [exact E|]. split; [|exact Hh]. rewrite <- Hd. apply (Hcl 0 c (proj1 Hc)). exact (connected_mode x 0 c Hc).
Qed.
