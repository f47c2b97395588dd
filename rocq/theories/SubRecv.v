(** SubRecv.v — what a subscriber has received on a control channel and what it made of it. *)
From Coq Require Import Sorting.Permutation.
From Verif Require Import Base CircBuf CircBufProofs Wire SeqList Sub SpecSub SubProofs SubTrace Proto SpecProto ProtoProofs ProtoRead
  Conn SpecConn ConnProofs SubCtx SpecSubCtx SubSteps SubMem SubDecomp SubInv PropSub PropSubCtx.

(** ** Steps that do not read the connection *)
Definition mild (j : Z) (e : sev) : Prop :=
  match e with
  | SvConn (EvAdd _ k _) => k <> j
  | SvRecv k _ => k <> j
  | SvGot k _ mc _ => k = j -> mc = true
  | _ => True
  end.
Record grows (T T' : tsince) : Prop := mkGrow {
  gr_recv : ts_recv T' = ts_recv T;
  gr_got : exists g, ts_got T' = ts_got T ++ g /\ Forall (fun a => snd (fst a) = true) g;
  gr_put : exists p, ts_put T' = ts_put T ++ p
}.
Lemma grows_refl T : grows T T.
Proof. constructor; [reflexivity| |]; exists []; rewrite app_nil_r; auto. Qed.
Lemma grows_trans A B C : grows A B -> grows B C -> grows A C.
Proof.
  intros [A1 (g & A2 & A3) (p & A4)] [B1 (g' & B2 & B3) (p' & B4)]. constructor; [congruence| |].
  - exists (g ++ g'). rewrite B2, A2, app_assoc. split; [reflexivity|]. apply Forall_app. auto.
  - exists (p ++ p'). rewrite B4, A4, app_assoc. reflexivity.
Qed.
Lemma mild_one j T e : mild j e -> grows T (ts_ev j T e).
Proof.
  intros H. destruct T as [a b c d f g h]. destruct e as [[]| | | | | | | | | | | | | | |]; cbn [ts_ev mild] in *; try apply grows_refl;
  try (destruct (Z.eqb_spec i j) as [E|E]; [|apply grows_refl]); try contradiction;
  (constructor; cbn; [reflexivity| |]; try (exists []; rewrite app_nil_r; auto; fail)); eauto.
Qed.
Lemma mild_many j evs : forall T, Forall (mild j) evs -> grows T (fold_left (ts_ev j) evs T).
Proof.
  induction evs as [|e evs IH]; intros T H; [apply grows_refl|]. inversion H; subst. cbn [fold_left].
  eapply grows_trans; [apply mild_one; eassumption|]. apply IH. assumption.
Qed.
Lemma mild_log j log evs : Forall (mild j) evs -> grows (ts_open j log) (ts_open j (log ++ evs)).
Proof. intros H. rewrite ts_app. apply mild_many. exact H. Qed.

Definition kept_conn (x : sctx) (log : list sev) (x' : sctx) (log' : list sev) (j : Z) (c' : conn) : Prop :=
  exists c, sconnected x j c /\ c_rbuf c' = c_rbuf c /\ grows (ts_open j log) (ts_open j log').
Definition new_conn (log' : list sev) (j : Z) (c' : conn) : Prop := ts_new (ts_open j log') /\ fresh_rings c'.

Lemma puts_mild m i out j : Forall (mild j) (put_evs m i out).
Proof. unfold put_evs. apply Forall_forall. intros e He. apply in_map_iff in He. destruct He as (p & <- & _). exact Logic.I. Qed.
Lemma frees_mild l j : Forall (mild j) (free_evs l).
Proof. unfold free_evs. apply Forall_forall. intros e He. apply in_map_iff in He. destruct He as (p & <- & _). exact Logic.I. Qed.

Lemma step_recv r log x evs x' j c' : BI x -> TI x log -> r <> Some j -> ustep r log x evs x' -> sconnected x' j c' ->
  kept_conn x log x' (log ++ evs) j c' \/ new_conn (log ++ evs) j c'.
Proof.
  intros B T Hr Hu Hj.
  assert (Same : Forall (mild j) evs -> t_vec x' = t_vec x -> kept_conn x log x' (log ++ evs) j c' \/ new_conn (log ++ evs) j c').
  { intros Hm Ev. left. exists c'. split; [unfold sconnected in *; rewrite Ev in Hj; exact Hj|]. split; [reflexivity|]. apply mild_log. exact Hm. }
  assert (Put : forall i c d, Forall (mild j) evs -> sconnected x i c -> t_vec x' = put_slot (t_vec x) i d -> (i = j -> c_rbuf d = c_rbuf c) ->
     kept_conn x log x' (log ++ evs) j c' \/ new_conn (log ++ evs) j c').
  { intros i c d Hm Hc Ev Er. left. destruct Hj as [Hj Hjm]. rewrite Ev in Hj.
    destruct (slot_put (t_vec x) i d j c' (slot_range _ _ _ (proj1 Hc)) Hj) as [[-> ->]|[N Hj']].
    - exists c. split; [exact Hc|]. split; [auto|]. apply mild_log. exact Hm.
    - exists c'. split; [split; assumption|]. split; [reflexivity|]. apply mild_log. exact Hm. }
  destruct Hu as
    [e He|x' E1 E2 E3 E4 E5 E6|i c s pid bs src ptr now x' s' out Hc Hp Hd Hsrc Hptr Hm mc Hproc m Ex'|i c s s' out Hc Hp Hproc
    |p rest a Hu|p rest a Hu|p rest Hu|i c s iv rest wb act Hc Hp Hiv W1 W2 W3|i c s iv rest Hc Hp Hiv|i rest Ha Hpe|Ha
    |i c p wb act Hc W1 W2 Hk W3 Hr3|i c wb act sent Hc W1 W2 W3|i c rb Hi Hc|i c d addr port node Hi Hs Hd Hd0
    |i c d v evs Hs Hd Hd' Hm Er Ew Ev Mx Ac Hev|i R Hn|i s Hp Hn|i c Hs Hm Hp|i c v Hs Hm Ec|i c v s Hc Hp Ec|ptr Hk].
  - apply Same; [|reflexivity]. constructor; [|constructor]. pose proof (slot_range _ _ _ (proj1 Hj)) as R.
    destruct e as [[]| | | | | | | | | | | | | | |]; cbn in *; try tauto; try lia. destruct He as [He _]. congruence.
  - apply Same; [constructor|exact E2].
  - apply Same; [|rewrite Ex'; reflexivity]. apply Forall_app. split; [destruct src; repeat constructor|].
    constructor; [exact Logic.I|]. constructor; [|apply puts_mild]. cbn. intros ->. unfold mc. destruct src; [reflexivity|contradiction].
  - apply Same; [apply puts_mild|reflexivity].
  - apply Same; [repeat constructor|reflexivity].
  - apply Same; [repeat constructor|reflexivity].
  - apply Same; [repeat constructor|reflexivity].
  - eapply (Put i c); [repeat constructor|exact Hc|reflexivity|reflexivity].
  - apply Same; [repeat constructor|reflexivity].
  - apply Same; [repeat constructor|reflexivity].
  - apply Same; [repeat constructor|reflexivity].
  - eapply (Put i c); [repeat constructor|exact Hc|reflexivity|reflexivity].
  - eapply (Put i c); [repeat constructor|exact Hc|reflexivity|reflexivity].
  - eapply (Put i c); [constructor|exact Hc|reflexivity|]. intros ->. contradiction.
  - (* connect *) destruct (TV_connect (t_vec x) i c d addr port node POLLWRITE (bi_vec x B) Hs Hd Hd0) as (_ & S & O & _).
    destruct Hj as [Hj Hjm]. cbn [set_tvec t_vec] in Hj. destruct (Z.eq_dec j i) as [->|N].
    + rewrite S in Hj. injection Hj as <-. discriminate Hjm.
    + rewrite (O j N) in Hj. left. exists c'. split; [split; assumption|]. split; [reflexivity|]. apply mild_log. repeat constructor. cbn. congruence.
  - (* no connection *) destruct Hj as [Hj Hjm]. cbn [set_tvec t_vec] in Hj. rewrite (slot_conns _ _ j Ev) in Hj.
    destruct (slot_put (t_vec x) i d j c' (slot_range _ _ _ Hs) Hj) as [[-> ->]|[N Hj']].
    + destruct (tv_mode _ (bi_vec x B) i c Hs) as ([D1 _] & _). rewrite Hm, (D1 Hd) in Hjm. discriminate Hjm.
    + left. exists c'. split; [split; assumption|]. split; [reflexivity|]. apply mild_log. destruct Hev as [->|(e & _ & ->)]; repeat constructor.
  - apply Same; [repeat constructor|reflexivity].
  - apply Same; [repeat constructor|reflexivity].
  - (* established *) destruct Hj as [Hj Hjm]. cbn [set_tvec t_vec] in Hj.
    destruct (slot_put (t_vec x) i _ j c' (slot_range _ _ _ Hs) Hj) as [[-> ->]|[N Hj']].
    + right. destruct (ti_wait x log T i c Hs Hm) as [Hn Hf]. split; [|exact Hf]. rewrite ts_app. cbn [fold_left ts_ev].
      destruct (ts_open i log). exact Hn.
    + left. exists c'. split; [split; assumption|]. split; [reflexivity|]. apply mild_log. repeat constructor.
  - destruct (TV_close (t_vec x) i c v (bi_vec x B) Hs ltac:(rewrite Hm; discriminate) Ec) as (_ & _ & S & O).
    destruct Hj as [Hj Hjm]. cbn [set_tvec t_vec] in Hj. destruct (Z.eq_dec j i) as [->|N].
    + rewrite S in Hj. injection Hj as <-. discriminate Hjm.
    + rewrite (O j N) in Hj. left. exists c'. split; [split; assumption|]. split; [reflexivity|]. apply mild_log. repeat constructor.
  - destruct (TV_close (t_vec x) i c v (bi_vec x B) (proj1 Hc) (connected_mode x i c Hc) Ec) as (_ & _ & S & O).
    destruct Hj as [Hj Hjm]. cbn [set_tvec t_vec set_tmem put_spub set_tpubs] in Hj. destruct (Z.eq_dec j i) as [->|N].
    + rewrite S in Hj. injection Hj as <-. discriminate Hjm.
    + rewrite (O j N) in Hj. left. exists c'. split; [split; assumption|]. split; [reflexivity|]. apply mild_log.
      apply Forall_app. split; [repeat constructor|apply frees_mild].
  - apply Same; [repeat constructor|reflexivity].
Qed.

(** ** The commands received *)
(** Packet [k] was accepted, or is older than the first packet handed out. *)
Definition accounted (T : tsince) (k : Z) : Prop :=
  In k (map (fun g => fst (fst g)) (ts_got T)) \/ exists f bs rest, ts_put T = (f, bs) :: rest /\ k < f.
Definition ids_accounted (T : tsince) (cmds : list cmd) : Prop := forall h p, In (CmdPacket h p) cmds -> accounted T (h_pid h).
Record takes (cmds : list cmd) (T T' : tsince) : Prop := mkTakes {
  tk_recv : ts_recv T' = ts_recv T;
  tk_got : exists g, ts_got T' = ts_got T ++ g /\ Forall (fun a => exists h, In (CmdPacket h (snd a)) cmds /\ fst a = (h_pid h, false)) g;
  tk_put : exists p, ts_put T' = ts_put T ++ p;
  tk_ids : ids_accounted T' cmds
}.
Lemma accounted_more T T' k g p : accounted T k -> ts_got T' = ts_got T ++ g -> ts_put T' = ts_put T ++ p -> accounted T' k.
Proof.
  intros [H|(f & bs & rest & H1 & H2)] Eg Ep; [left; rewrite Eg, map_app; apply in_or_app; auto|].
  right. exists f, bs, (rest ++ p). rewrite Ep, H1. auto.
Qed.
Lemma takes_cons c cmds T T1 T2 : takes [c] T T1 -> takes cmds T1 T2 -> takes (c :: cmds) T T2.
Proof.
  intros [A1 (g & A2 & A3) (p & A4) A5] [B1 (g' & B2 & B3) (p' & B4) B5]. constructor.
  - congruence.
  - exists (g ++ g'). rewrite B2, A2, app_assoc. split; [reflexivity|]. apply Forall_app. split.
    + eapply Forall_impl; [|exact A3]. intros a (h & [H|[]] & E). exists h. split; [left; exact H|exact E].
    + eapply Forall_impl; [|exact B3]. intros a (h & H & E). exists h. split; [right; exact H|exact E].
  - exists (p ++ p'). rewrite B4, A4, app_assoc. reflexivity.
  - intros h q [->|Hin]; [|exact (B5 h q Hin)]. apply (accounted_more T1 T2 _ g' p'); auto. apply (A5 h q). left. reflexivity.
Qed.
(** A packet that counts as a duplicate is accounted for. *)
Lemma dup_accounted x log i c s k : BI x -> TI x log -> sconnected x i c -> t_pubs x i = Some s -> sub_is_duplicate s k = true ->
  accounted (ts_open i log) k.
Proof.
  intros B T Hc Hs Hd. destruct (ti_conn x log T i c s Hc Hs) as (ops & cmds & Tc).
  destruct (dispatched (snd (sub_run sub_init ops))) as [|f l] eqn:Ed.
  - exfalso. destruct (tc_start _ _ _ _ _ _ Tc) as [E|E].
    + pose proof (tc_run _ _ _ _ _ _ Tc) as Er. rewrite E in Er. cbn in Er. subst s. discriminate Hd.
    + pose proof (H_run ops E (tc_good _ _ _ _ _ _ Tc)) as Hh. destruct Hh as [_ Hh _ _ _ _ _ _]. contradiction.
  - pose proof (tc_run _ _ _ _ _ _ Tc) as Er.
    destruct (sub_run sub_init ops) as [s1 outs] eqn:Eo. cbn [fst snd] in *. subst s1.
    apply (c24_duplicate_exact ops s outs f l k (tc_good _ _ _ _ _ _ Tc) Eo Ed) in Hd. destruct Hd as [Hd|Hd].
    + right. pose proof (tc_put _ _ _ _ _ _ Tc) as Ep. rewrite Eo in Ep. cbn [snd] in Ep. rewrite Ed in Ep. cbn [map] in Ep.
      exists (sk_pid f), (cont log (sk_addr f)), (map (put_of log) l). split; [symmetry; exact Ep|exact Hd].
    + left. rewrite <- (tc_got _ _ _ _ _ _ Tc), map_map, Eo. exact Hd.
Qed.
Lemma late_grows i tail T : Forall (late i) tail -> grows T (fold_left (ts_ev i) tail T) /\ ts_got (fold_left (ts_ev i) tail T) = ts_got T.
Proof.
  intros H. split; [apply mild_many; eapply Forall_impl; [|exact H]; intros e; destruct e; cbn; tauto|].
  revert T. induction tail as [|e tail IH]; intros T; [reflexivity|]. inversion H; subst. cbn [fold_left]. rewrite (IH H3).
  destruct T as [a b d f g h k]. destruct e; cbn [late ts_ev] in *; try tauto. subst. rewrite Z.eqb_refl. reflexivity.
Qed.
Lemma run_takes x log i c : BI x -> MI x log -> TI x log -> sconnected x i c ->
  forall cmds x1 evs ins x2 evs2 ins2, Forall for_sub cmds ->
  usteps (Some i) log x evs x1 -> t_vec x1 = t_vec x ->
  run_cmds (sub_eff (tcp_dup i) (tcp_eff i)) (x1, evs, ins) cmds = Ok (x2, evs2, ins2) -> good_ids (log ++ evs2) ->
  usteps (Some i) log x evs2 x2 /\ t_vec x2 = t_vec x /\ (exists more, evs2 = evs ++ more) /\
  takes cmds (ts_open i (log ++ evs)) (ts_open i (log ++ evs2)).
Proof.
  intros B M T Hc. induction cmds as [|cm cmds IH]; intros x1 evs ins x2 evs2 ins2 Hf U V E G.
  - cbn [run_cmds] in E. injection E as <- <- <-. split; [exact U|]. split; [exact V|]. split; [exists []; symmetry; apply app_nil_r|].
    constructor; [reflexivity| | |intros h p []]; exists []; rewrite app_nil_r; auto.
  - inversion Hf as [|? ? Hf1 Hf2]; subst. destruct cm as [h p|a b|p]; [|destruct Hf1..].
    cbn [run_cmds sub_eff] in E. destruct (steps_BMI (Some i) log x evs x1 B M U) as [B1 M1].
    assert (Hc1 : sconnected x1 i c) by (unfold sconnected; rewrite V; exact Hc).
    destruct (conn_spub x1 i c B1 Hc1) as [s Hs]. destruct (tcp_dup i (x1, evs, ins) (h_pid h)) eqn:Ed.
    + cbn [bind] in E. destruct (IH x1 evs ins x2 evs2 ins2 Hf2 U V E G) as (U2 & V2 & (more & Em) & Tk).
      split; [exact U2|]. split; [exact V2|]. split; [eauto|]. apply (takes_cons _ _ _ (ts_open i (log ++ evs))); [|exact Tk].
      constructor; [reflexivity| | |].
      * exists []. rewrite app_nil_r. auto.
      * exists []. rewrite app_nil_r. auto.
      * intros h' p' [Hh|[]]. injection Hh as <- <-. unfold tcp_dup in Ed. cbn [fst] in Ed. rewrite Hs in Ed.
        rewrite Em, app_assoc in G. apply (dup_accounted x1 (log ++ evs) i c s); auto.
        exact (steps_TI _ _ _ _ _ B M T (good_ids_app _ _ G) U).
    + unfold tcp_eff in E. destruct ins as [|o ins]; [discriminate E|]. cbn [fst snd] in E.
      destruct (accept_packet x1 i (h_pid h) p false o) as [[x3 e3]| | |] eqn:Ea; cbn [bind fst snd] in E; [|discriminate E..].
      unfold tcp_dup in Ed. cbn [fst] in Ed. rewrite Hs in Ed.
      pose proof (accept_dec (Some i) x1 (log ++ evs) i c s (h_pid h) p None o B1 M1 Hc1 Hs Ed eq_refl) as A. cbn [src_evs app] in A.
      rewrite Ea in A. cbn [ssafe fst snd] in A. destruct A as [U3 V3].
      assert (U4 : usteps (Some i) log x (evs ++ e3) x3) by exact (us_app (Some i) log x evs x1 e3 x3 U U3).
      destruct (IH x3 (evs ++ e3) ins x2 evs2 ins2 Hf2 U4 ltac:(congruence) E G) as (U2 & V2 & (more & Em) & Tk).
      split; [exact U2|]. split; [exact V2|]. split; [exists (e3 ++ more); rewrite app_assoc; exact Em|].
      apply (takes_cons _ _ _ (ts_open i (log ++ evs ++ e3))); [|exact Tk].
      destruct (accept_shape _ _ _ _ _ _ _ _ Ea) as (tail & -> & Lt & _).
      set (T0 := ts_open i (log ++ evs)).
      assert (ET : ts_open i (log ++ evs ++ SvAlloc (ai_ptr o) (zlen p) :: SvGot i (h_pid h) false p :: tail) =
                   fold_left (ts_ev i) tail (ts_ev i T0 (SvGot i (h_pid h) false p))).
      { rewrite app_assoc, ts_app. cbn [fold_left]. fold T0. destruct T0; reflexivity. }
      rewrite ET. destruct (late_grows i tail (ts_ev i T0 (SvGot i (h_pid h) false p)) Lt) as [[L1 _ (q & L3)] L4].
      assert (A : ts_recv (ts_ev i T0 (SvGot i (h_pid h) false p)) = ts_recv T0 /\
                  ts_got (ts_ev i T0 (SvGot i (h_pid h) false p)) = ts_got T0 ++ [(h_pid h, false, p)] /\
                  ts_put (ts_ev i T0 (SvGot i (h_pid h) false p)) = ts_put T0).
      { destruct T0. cbn [ts_ev]. rewrite Z.eqb_refl. auto. }
      destruct A as (A1 & A2 & A3). constructor.
      * congruence.
      * exists [(h_pid h, false, p)]. rewrite L4. split; [exact A2|]. constructor; [|constructor]. exists h. split; [left; reflexivity|reflexivity].
      * exists q. rewrite L3, A3. reflexivity.
      * intros h' p' [Hh|[]]. injection Hh as <- <-. left. rewrite L4, A2, map_app. apply in_or_app. right. left. reflexivity.
Qed.

(** ** One read of the control channel *)
Lemma sub_read_cases {St} (dup : St -> Z -> bool) (eff : St -> header * list Z -> res St) st rb o q :
  cb_wf rb -> bytes_ok (contents rb) ->
  match o with RData bs => bytes_ok bs /\ (bs <> [] -> read_ok (cb_size rb) (cb_start rb) (circ_buf_in_use rb + zlen (ztake (circ_buf_available rb) bs))) | RErr => True end ->
  tcp_read (sub_dispatch dup eff) st rb o = Ok q ->
  (q = mkR ENOMEM RMC_ERROR st rb /\ circ_buf_available rb = 0) \/
  (r_code q = EPIPE /\ r_st q = st /\ (o = RErr \/ o = RData [])) \/
  exists bs cmds l, o = RData bs /\ bs <> [] /\ parses for_sub (contents rb ++ ztake (circ_buf_available rb) bs) cmds l /\
    run_cmds (sub_eff dup eff) st cmds = Ok (r_st q) /\ r_code q = left_code sub_next l /\ r_op q = left_op sub_next l /\
    cb_wf (r_buf q) /\ cb_size (r_buf q) = cb_size rb /\ contents (r_buf q) = l.
Proof.
  intros W Hb Ho E. destruct (Z.eq_dec (circ_buf_available rb) 0) as [Ea|Ea].
  - left. rewrite (tcp_read_full _ st rb o Ea) in E. split; [congruence|exact Ea].
  - right. pose proof (available_val rb W) as Av. pose proof (in_use_bounds rb W) as Ib.
    assert (Pipe : o = RErr \/ o = RData [] -> r_code q = EPIPE /\ r_st q = st).
    { intros Hoo. unfold tcp_read, tcp_fill in E. apply Z.eqb_neq in Ea. rewrite Ea in E.
      destruct (alloc_cases rb (circ_buf_available rb) W) as (rb1 & s & Eal & _); [lia|lia|]. rewrite Eal in E.
      assert (E' : (do rb2 <- circ_buf_trim rb1 (circ_buf_available rb); Ok (mkR EPIPE RMC_READ_DISCONNECT st rb2)) = Ok q).
      { rewrite <- E. destruct Hoo as [-> | ->]; destruct (circ_buf_trim rb1 (circ_buf_available rb)); reflexivity. }
      clear E. destruct (circ_buf_trim rb1 (circ_buf_available rb)) as [rb2| | |]; cbn [bind] in E'; [|discriminate E'..]. assert (q = mkR EPIPE RMC_READ_DISCONNECT st rb2) as -> by congruence. auto. }
    destruct o as [|bs]; [left; destruct Pipe; auto|]. destruct (list_eq_dec Z.eq_dec bs []) as [->|Hne]; [left; destruct Pipe; auto|].
    right. destruct Ho as [Hbs Ho]. set (c := ztake (circ_buf_available rb) bs) in *.
    assert (Hcb : bytes_ok (contents rb ++ c)).
    { apply Forall_app. split; [exact Hb|]. unfold c. apply bytes_take. exact Hbs. }
    destruct (parses_exists for_sub sub_next sub_next_sound sub_next_complete (S (length (contents rb ++ c))) (contents rb ++ c)) as (cmds & l & P); [lia|exact Hcb|].
    pose proof (tcp_read_total (sub_dispatch dup eff) (sub_eff dup eff) for_sub sub_next false sub_next_sound sub_next_complete
      (fun st rb c rest W B N _ => sub_handler_cmd dup eff st rb c rest W B N) (sub_handler_more dup eff) (sub_handler_bad dup eff) st rb bs cmds l
      W Hb Hbs Hne Ea (Ho Hne) P ltac:(discriminate)) as Tt. exists bs, cmds, l. split; [reflexivity|]. split; [exact Hne|]. split; [exact P|].
    destruct (run_cmds (sub_eff dup eff) st cmds) as [st'| | |]; [|congruence..].
    destruct Tt as (rb' & E1 & W' & Z' & C' & S0'). rewrite E1 in E. assert (q = mkR (left_code sub_next l) (left_op sub_next l) st' rb') as -> by congruence.
    cbn [r_st r_code r_op r_buf]. auto 10.
Qed.

(** The receive ring holds what is left of the stream after the commands in it, and all of these
    were seen. *)
Record RC (T : tsince) (rb : cbuf) : Prop := mkRC {
  rc_wf : cb_wf rb; rc_size : cb_size rb = RMC_MAX_PACKET; rc_bytes : bytes_ok (ts_recv T); rc_good : sub_next (contents rb) <> NBad;
  rc_cmds : exists cmds, parses for_sub (ts_recv T) cmds (contents rb) /\ ids_accounted T cmds /\
    (forall k bs, In (k, false, bs) (ts_got T) -> exists h, In (CmdPacket h bs) cmds /\ h_pid h = k)
}.
Definition RI (x : sctx) (log : list sev) : Prop := forall i c, sconnected x i c -> RC (ts_open i log) (c_rbuf c).
Lemma rc_bytes_left T rb : RC T rb -> bytes_ok (contents rb).
Proof.
  intros [_ _ Hb _ (cmds & (E & _) & _)]. rewrite E in Hb. apply Forall_app in Hb. exact (proj2 Hb).
Qed.
Lemma RC_grows T T' rb : RC T rb -> grows T T' -> RC T' rb.
Proof.
  intros [W Sz Hb Hg (cmds & P & A & F)] [G1 (g & G2 & G3) (p & G4)]. constructor; rewrite ?G1; auto.
  exists cmds. split; [exact P|]. split.
  - intros h q Hin. exact (accounted_more T T' _ g p (A h q Hin) G2 G4).
  - intros k bs Hin. rewrite G2 in Hin. apply in_app_or in Hin. destruct Hin as [Hin|Hin]; [exact (F k bs Hin)|].
    rewrite Forall_forall in G3. specialize (G3 _ Hin). discriminate G3.
Qed.
Lemma RC_new T c : ts_new T -> fresh_rings c -> RC T (c_rbuf c).
Proof.
  intros (N1 & N2 & N3 & N4 & _) F. destruct (rring_fresh c F) as (W & Sz & C). constructor; auto.
  - rewrite N2. constructor.
  - rewrite C. discriminate.
  - exists []. rewrite N2, N3, C. split; [|split; [intros h p []|intros k bs []]]. split; [reflexivity|]. split; [constructor|].
    intros c0 rest _ _ E. pose proof (wire_len c0) as L. destruct (wire c0); [change (zlen (@nil Z)) with 0 in L; lia|discriminate E].
Qed.
Lemma RI_frame r log x evs x' j c' : BI x -> MI x log -> TI x log -> good_ids (log ++ evs) -> RI x log -> usteps r log x evs x' ->
  r <> Some j -> sconnected x' j c' -> RC (ts_open j (log ++ evs)) (c_rbuf c').
Proof.
  intros B M T G R U Hr. revert c'. induction U as [|e1 x1 e2 x2 U IH Hs]; intros c' Hj; [rewrite app_nil_r; exact (R j c' Hj)|].
  rewrite app_assoc in *. destruct (steps_BMI _ _ _ _ _ B M U) as [B1 _].
  pose proof (steps_TI _ _ _ _ _ B M T (good_ids_app _ _ G) U) as T1.
  destruct (step_recv r (log ++ e1) x1 e2 x2 j c' B1 T1 Hr Hs Hj) as [(c & Hc & Er & Gr)|[Hn Hf]].
  - rewrite Er. apply (RC_grows (ts_open j (log ++ e1))); [|exact Gr]. apply IH; [exact (good_ids_app _ _ G)|exact Hc].
  - exact (RC_new _ _ Hn Hf).
Qed.
Lemma left_not_pipe l : left_code sub_next l <> EPIPE /\ left_code sub_next l <> ENOMEM.
Proof. unfold left_code. destruct l; [split; discriminate|]. destruct (sub_next _); split; discriminate. Qed.
Lemma read_RC x log i o ins code op x' evs c' : BI x -> MI x log -> TI x log -> RI x log -> 0 <= i ->
  match o with RData bs => bytes_ok bs | RErr => True end -> read_good x (YRead i (SrTcp o ins)) ->
  rmc_sub_read x i (SrTcp o ins) = Ok (code, op, x', evs) -> good_ids (log ++ evs) -> sconnected x' i c' ->
  RC (ts_open i (log ++ evs)) (c_rbuf c').
Proof.
  intros B M T R Hi Hb Hg E G Hc'. cbn [rmc_sub_read] in E.
  destruct (find_index_cases (t_vec x) i Hi) as [[Ef Hn]|(c & Ef & Hs & Ho)]; rewrite Ef in E; cbn [bind] in E.
  { assert (x' = x /\ evs = []) as [-> ->] by (split; congruence). rewrite app_nil_r. exact (R i c' Hc'). }
  destruct (Z.eqb_spec (c_mode c) CONNECTED) as [Hm|Hm]; cbn [negb] in E.
  2:{ assert (x' = x /\ evs = []) as [-> ->] by (split; congruence). rewrite app_nil_r. exact (R i c' Hc'). }
  assert (Hc : sconnected x i c) by (split; assumption). pose proof (R i c Hc) as Rc. pose proof (rc_bytes_left _ _ Rc) as Rb.
  set (got := match o with RErr => _ | _ => _ end) in E.
  destruct (tcp_read _ _ (c_rbuf c) o) as [q| | |] eqn:Et; cbn [bind] in E; [|discriminate E..].
  assert (Hro : match o with RData bs => bytes_ok bs /\ (bs <> [] -> read_ok (cb_size (c_rbuf c)) (cb_start (c_rbuf c)) (circ_buf_in_use (c_rbuf c) + zlen (ztake (circ_buf_available (c_rbuf c)) bs))) | RErr => True end).
  { destruct o as [|bs]; [exact Logic.I|]. split; [exact Hb|]. intros Hne. rewrite (rc_size _ _ Rc). exact (Hg c Hs Hm Hne). }
  assert (Calm : Forall (calm_ev x (Some i)) got).
  { unfold got. destruct o as [|[|b bs]]; [constructor|constructor|]. constructor; [split; [reflexivity|eauto]|constructor]. }
  pose proof (us_size_calm (Some i) log x got Calm) as U0.
  destruct (sub_read_cases _ _ _ (c_rbuf c) o q (rc_wf _ _ Rc) Rb Hro Et) as [[-> Eav]|[(Ec & Est & Eo)|(bs & cmds & l & Eo & Hne & P & Run & Ec & _ & W' & Z' & C')]].
  - (* no room *) cbn [r_st r_code r_op r_buf] in E. change (ENOMEM =? ENOMEM) with true in E. cbv iota in E.
    assert (x' = set_tvec x (put_slot (t_vec x) i (set_rbuf c (c_rbuf c))) /\ evs = got ++ [SvConn (EvMod (c_desc c) i POLLREAD POLLREAD)]) as [-> ->] by (split; congruence).
    destruct Hc' as [Hc' _]. cbn [set_tvec t_vec] in Hc'. rewrite slot_put_same in Hc' by exact (slot_range _ _ _ Hs).
    assert (c' = set_rbuf c (c_rbuf c)) as -> by congruence.
    cbn [set_rbuf c_rbuf]. apply (RC_grows (ts_open i log)); [exact Rc|].
    assert (Es : ts_open i (log ++ got ++ [SvConn (EvMod (c_desc c) i POLLREAD POLLREAD)]) = ts_open i log); [|rewrite Es; apply grows_refl].
    rewrite ts_app, fold_left_app. cbn [fold_left]. unfold got. rewrite Eav. destruct (ts_open i log) as [a1 a2 a3 a4 a5 a6 a7].
    destruct o as [|[|b bs]]; cbn [fold_left ts_ev]; try reflexivity. rewrite Z.eqb_refl. change (ztake 0 (b :: bs)) with (@nil Z). rewrite app_nil_r. reflexivity.
  - (* peer gone *) exfalso. rewrite Est, Ec in E. change (EPIPE =? ENOMEM) with false in E. change (EPIPE =? EPIPE) with true in E. cbv iota zeta in E.
    set (x2 := set_tvec x _) in E.
    assert (U2 : usteps (Some i) log x got x2).
    { replace got with (got ++ []) by apply app_nil_r. eapply us_then; [exact U0|]. exact (u_rbuf (Some i) _ x i c (r_buf q) eq_refl Hc). }
    destruct (steps_BMI (Some i) log x got x2 B M U2) as [B2 M2].
    assert (Hc2 : sconnected x2 i (set_rbuf c (r_buf q))).
    { split; [|exact Hm]. unfold x2. cbn [set_tvec t_vec]. apply slot_put_same. exact (slot_range _ _ _ Hs). }
    pose proof (close_conn_dec (Some i) x2 (log ++ got) i _ B2 M2 Hc2) as Cl.
    destruct (rmc_sub_close_connection x2 i) as [w| | |]; cbn [bind] in E; [|discriminate E..]. destruct Cl as (_ & _ & _ & d & Hd & Hdm).
    assert (x' = fst w) as -> by congruence. destruct Hc' as [Hc' Hcm]. congruence.
  - destruct (r_st q) as [[x1 evs1] ins1] eqn:Est. cbv iota zeta in E.
    destruct (left_not_pipe l) as [L1 L2]. rewrite <- Ec in L1, L2. apply Z.eqb_neq in L1, L2. rewrite L1, L2 in E. cbv iota in E.
    set (x2 := set_tvec x1 _) in E.
    assert (Hmore : exists more, evs = evs1 ++ more).
    { destruct (process_received x2 i) as [w| | |]; cbn [bind] in E; [|discriminate E..]. destruct (r_code q =? EPROTO).
      - destruct (rmc_sub_close_connection (fst w) i) as [w2| | |]; cbn [bind] in E; [|discriminate E..]. exists (snd w ++ snd w2). congruence.
      - exists (snd w ++ [SvConn (EvMod (c_desc c) i POLLREAD POLLREAD)]). congruence. }
    destruct Hmore as [more Hmore].
    assert (G1 : good_ids (log ++ evs1)) by (rewrite Hmore, app_assoc in G; exact (good_ids_app _ _ G)).
    assert (Ff : Forall for_sub cmds). { destruct P as (_ & F & _). eapply Forall_impl; [|exact F]. cbn. tauto. }
    destruct (run_takes x log i c B M T Hc cmds x got ins x1 evs1 ins1 Ff U0 eq_refl Run G1) as (U1 & V1 & _ & [K1 (g & K2 & K3) (p & K4) K5]).
    assert (U2 : usteps (Some i) log x evs1 x2).
    { replace evs1 with (evs1 ++ []) by apply app_nil_r. eapply us_then; [exact U1|]. apply (u_rbuf (Some i) _ x1 i c (r_buf q) eq_refl).
      unfold sconnected. rewrite V1. exact Hc. }
    destruct (steps_BMI (Some i) log x evs1 x2 B M U2) as [B2 M2].
    assert (Hc2 : sconnected x2 i (set_rbuf c (r_buf q))).
    { split; [|exact Hm]. unfold x2. cbn [set_tvec t_vec]. apply slot_put_same. rewrite V1. exact (slot_range _ _ _ Hs). }
    pose proof (proc_dec (Some i) x2 (log ++ evs1) i _ B2 Hc2) as Pd.
    destruct (process_received x2 i) as [[x3 e3]| | |] eqn:Epr; cbn [bind fst snd] in E; [|discriminate E..]. destruct Pd as [U3 V3]. cbn [fst snd] in U3, V3.
    destruct (r_code q =? EPROTO) eqn:Epo.
    { exfalso. pose proof (us_app (Some i) log x evs1 x2 e3 x3 U2 U3) as U4. destruct (steps_BMI (Some i) log x _ x3 B M U4) as [B3 M3].
      assert (Hc3 : sconnected x3 i (set_rbuf c (r_buf q))) by (unfold sconnected; rewrite V3; exact Hc2).
      pose proof (close_conn_dec (Some i) x3 _ i _ B3 M3 Hc3) as Cl.
      destruct (rmc_sub_close_connection x3 i) as [w| | |]; cbn [bind] in E; [|discriminate E..]. destruct Cl as (_ & _ & _ & d & Hd & Hdm).
      assert (x' = fst w) as -> by congruence. destruct Hc' as [Hc' Hcm]. congruence. }
    assert (x' = x3 /\ evs = evs1 ++ e3 ++ [SvConn (EvMod (c_desc c) i POLLREAD POLLREAD)]) as [-> ->] by (split; congruence).
    destruct Hc' as [Hc' _]. rewrite V3 in Hc'. destruct Hc2 as [Hc2 _]. assert (c' = set_rbuf c (r_buf q)) as -> by congruence. cbn [set_rbuf c_rbuf].
    apply (RC_grows (ts_open i (log ++ evs1))).
    2:{ rewrite (app_assoc log). apply mild_log. apply Forall_app. split; [|repeat constructor].
        unfold process_received in Epr. destruct (get_spub x2 i); cbn [bind] in Epr; [|discriminate Epr..]. destruct (sub_process _) as [s' out].
        assert (e3 = put_evs (t_mem x2) i out) as -> by (unfold put_evs; congruence). apply puts_mild. }
    destruct Rc as [Rw Rz Rby Rgd (cmds0 & P0 & A0 & F0)].
    set (T0 := ts_open i log) in *.
    assert (EG : ts_recv (ts_open i (log ++ got)) = ts_recv T0 ++ ztake (circ_buf_available (c_rbuf c)) bs /\ ts_got (ts_open i (log ++ got)) = ts_got T0 /\ ts_put (ts_open i (log ++ got)) = ts_put T0).
    { rewrite ts_app. fold T0. unfold got. rewrite Eo. destruct bs as [|b0 bs0]; [contradiction|]. destruct T0. cbn [fold_left ts_ev]. rewrite Z.eqb_refl. auto. }
    destruct EG as (EG1 & EG2 & EG3). rewrite EG1 in K1. rewrite EG2 in K2. rewrite EG3 in K4. constructor.
    + exact W'.
    + congruence.
    + rewrite K1. apply Forall_app. split; [exact Rby|]. apply bytes_take. rewrite Eo in Hb. exact Hb.
    + rewrite C'. intros Nb. rewrite Ec in Epo. unfold left_code in Epo. rewrite Nb in Epo. destruct l; [discriminate Nb|discriminate Epo].
    + exists (cmds0 ++ cmds). split; [rewrite K1, C'; exact (parses_app for_sub _ _ _ _ _ _ P0 P)|]. split.
      * intros h b Hin. apply in_app_or in Hin. destruct Hin as [Hin|Hin]; [|exact (K5 h b Hin)].
        exact (accounted_more T0 _ _ g p (A0 h b Hin) K2 K4).
      * intros k b Hin. rewrite K2 in Hin. apply in_app_or in Hin. destruct Hin as [Hin|Hin].
        -- destruct (F0 k b Hin) as (h & H1 & H2). exists h. split; [apply in_or_app; auto|exact H2].
        -- rewrite Forall_forall in K3. destruct (K3 _ Hin) as (h & H1 & H2). cbn [fst snd] in *. exists h. split; [apply in_or_app; auto|congruence].
Qed.
Lemma sreached_RI x log : sreached true x log -> good_ids log -> RI x log.
Proof.
  intros (x0 & ops & F & Hh). induction Hh as [|ops x log o code x' evs Hh IH Hok Hr E]; intros G.
  - destruct F as (node & buf & m & -> & L). intros i c [Hs Hm]. apply slot_init in Hs. destruct Hs as [_ Hs]. rewrite Hs in Hm. discriminate.
  - destruct (hist_inv_y true x0 ops x log F Hh) as (B & M & T). destruct (step_bmi x log o code x' evs B M Hok E) as (U & _).
    pose proof (good_ids_app _ _ G) as G0. specialize (T G0). specialize (IH G0).
    intros j c Hj. assert (Dec : {reads o = Some j} + {reads o <> Some j}) by (decide equality; apply Z.eq_dec). destruct Dec as [Er|Er]; [|exact (RI_frame _ _ _ _ _ j c B M T G IH U Er Hj)].
    pose proof (slot_range _ _ _ (proj1 Hj)) as R0.
    destruct o as [i [ins|t ins]| | | | | | | | | | |]; cbn [reads] in Er; try discriminate Er; injection Er as Er; try lia. subst i.
    cbn [ystep] in E. destruct (rmc_sub_read x j (SrTcp t ins)) as [[[[cd op] x1] e1]| | |] eqn:Ed; cbn [bind] in E; [|discriminate E..].
    assert (x' = x1 /\ evs = e1) as [-> ->] by (split; congruence).
    apply (read_RC x log j t ins cd op x1 e1 c B M T IH); auto; [lia|exact (proj2 Hok)].
Qed.
