(** CtrlSub.v — the bytes a subscriber puts on a control connection are the acknowledgements and
    messages it queued there, in order. *)
From Verif Require Import Base CircBuf CircBufProofs Wire SeqList Sub SpecSub SubProofs Proto SpecProto ProtoProofs
  Conn SpecConn ConnProofs Safe SubCtx SpecSubCtx SubSteps SubMem SubDecomp SubInv SubRecv PubCtx SpecPubCtx SpecPubRecv SpecSys SpecCtrl.

Definition still (j : Z) (e : sev) : Prop :=
  match e with SvConn (EvAdd _ i _) => i <> j | SvTcp i _ => i <> j | SvAck i _ _ => i <> j | _ => True end.
Lemma still_log j log evs l : Forall (still j) evs -> ts_sent (ts_open j (log ++ evs)) = ts_sent (ts_open j log) /\ fold_left (outq_ev j) evs l = l.
Proof.
  intros H. rewrite ts_app. generalize (ts_open j log). revert l. induction H as [|e evs H _ IH]; intros l s; [auto|]. cbn [fold_left].
  destruct (IH (outq_ev j l e) (ts_ev j s e)) as [I1 I2]. rewrite I1, I2. destruct s as [a b c d f g h].
  destruct e as [[]| | | | | | | | | | | | | | |]; cbn [ts_ev outq_ev still ts_sent] in *; auto; destruct (Z.eqb_spec i j); try contradiction; auto.
Qed.
Lemma sent_tcp j log bs d i a a' : ts_sent (ts_open j (log ++ [SvTcp j bs; SvConn (EvMod d i a a')])) = ts_sent (ts_open j log) ++ bs.
Proof. rewrite ts_app. destruct (ts_open j log) as [a1 a2 a3 a4 a5 a6 a7]. cbn. rewrite Z.eqb_refl. reflexivity. Qed.
Definition SJ (c : conn) (s : list Z) (q : list cmd) : Prop :=
  (c_mode c = CONNECTED -> s ++ contents (c_wbuf c) = flat_map wire q) /\ (c_mode c = CONNECTING -> s = [] /\ contents (c_wbuf c) = [] /\ q = []).
Definition SW (x : sctx) (log : list sev) (q : Z -> list cmd) : Prop :=
  forall j c, slot (t_vec x) j = Ok c -> SJ c (ts_sent (ts_open j log)) (q j).
Lemma puts_still m i out j : Forall (still j) (put_evs m i out).
Proof. unfold put_evs. apply Forall_forall. intros e He. apply in_map_iff in He. destruct He as (p & <- & _). exact Logic.I. Qed.
Lemma frees_still l j : Forall (still j) (free_evs l).
Proof. unfold free_evs. apply Forall_forall. intros e He. apply in_map_iff in He. destruct He as (p & <- & _). exact Logic.I. Qed.

Lemma step_SW r log x evs x' q : BI x -> r <> Some (-3) -> ustep r log x evs x' -> SW x log q ->
  SW x' (log ++ evs) (fun j => fold_left (outq_ev j) evs (q j)).
Proof.
  intros B Hr Hu S j c' Hj.
  assert (Keep : forall c, slot (t_vec x) j = Ok c -> Forall (still j) evs -> c_mode c' = c_mode c -> contents (c_wbuf c') = contents (c_wbuf c) ->
     SJ c' (ts_sent (ts_open j (log ++ evs))) (fold_left (outq_ev j) evs (q j))).
  { intros c Hc Hs Hm Hw. destruct (still_log j log evs (q j) Hs) as [-> ->]. unfold SJ. rewrite Hm, Hw. exact (S j c Hc). }
  assert (Same : Forall (still j) evs -> t_vec x' = t_vec x -> SJ c' (ts_sent (ts_open j (log ++ evs))) (fold_left (outq_ev j) evs (q j))).
  { intros Hm Ev. rewrite Ev in Hj. apply (Keep c'); auto. }
  assert (Shut : c_mode c' = CLOSED -> SJ c' (ts_sent (ts_open j (log ++ evs))) (fold_left (outq_ev j) evs (q j))).
  { intros Hm. split; rewrite Hm; discriminate. }
  assert (Put : forall i c d, sconnected x i c -> t_vec x' = put_slot (t_vec x) i d -> c_mode d = CONNECTED -> (i <> j -> Forall (still j) evs) ->
     (i = j -> c' = d -> ts_sent (ts_open j (log ++ evs)) ++ contents (c_wbuf d) = flat_map wire (fold_left (outq_ev j) evs (q j))) ->
     SJ c' (ts_sent (ts_open j (log ++ evs))) (fold_left (outq_ev j) evs (q j))).
  { intros i c d Hc Ev Hm Hs Hi. rewrite Ev in Hj. destruct (slot_put (t_vec x) i d j c' (slot_range _ _ _ (proj1 Hc)) Hj) as [[-> ->]|[N Hj']].
    - split; [intros _; auto|rewrite Hm; discriminate].
    - apply (Keep c'); auto. }
  destruct Hu as
    [e He|x' E1 E2 E3 E4 E5 E6|i c s pid bs src ptr now x' s' out Hc Hp Hd Hsrc Hptr Hm mc Hproc m Ex'|i c s s' out Hc Hp Hproc
    |p rest a Hu|p rest a Hu|p rest Hu|i c s iv rest wb act Hc Hp Hiv W1 W2 W3|i c s iv rest Hc Hp Hiv|i rest Ha Hpe|Ha
    |i c p wb act Hc W1 W2 Hk W3 Hr3|i c wb act sent Hc W1 W2 W3|i c rb Hi Hc|i c d addr port node Hi Hs Hd Hd0
    |i c d v evs Hs Hd Hd' Hm Er Ew Ev Mx Ac Hev|i R Hn|i s Hp Hn|i c Hs Hm Hp|i c v Hs Hm Ec|i c v s Hc Hp Ec|ptr Hk].
  - apply Same; [|reflexivity]. constructor; [|constructor]. pose proof (slot_range _ _ _ Hj) as R.
    destruct e as [[]| | | | | | | | | | | | | | |]; cbn in *; try tauto; try lia.
  - apply Same; [constructor|exact E2].
  - apply Same; [|rewrite Ex'; reflexivity]. apply Forall_app. split; [destruct src; repeat constructor|].
    constructor; [exact Logic.I|]. constructor; [exact Logic.I|apply puts_still].
  - apply Same; [apply puts_still|reflexivity].
  - apply Same; [repeat constructor|reflexivity].
  - apply Same; [repeat constructor|reflexivity].
  - apply Same; [repeat constructor|reflexivity].
  - eapply (Put i c); [exact Hc|reflexivity|exact (proj2 Hc)|intros N; repeat constructor; cbn; congruence|]. intros -> _. cbn [c_wbuf set_action set_wbuf]. rewrite ts_app. cbn [fold_left ts_ev outq_ev].
    destruct (ts_open j log) as [a b cc dd f g h] eqn:Et. rewrite Z.eqb_refl. cbn [ts_sent]. rewrite flat_map_app. cbn [flat_map]. rewrite app_nil_r, W3.
    destruct (S j c (proj1 Hc)) as [S1 _]. rewrite Et in S1. cbn [ts_sent] in S1. rewrite <- (S1 (proj2 Hc)), <- app_assoc. cbn [ts_ev ts_sent]. rewrite ?Z.eqb_refl. reflexivity.
  - apply Same; [repeat constructor|reflexivity].
  - apply Same; [repeat constructor|reflexivity].
  - apply Same; [repeat constructor|reflexivity].
  - contradiction.
  - eapply (Put i c); [exact Hc|reflexivity|exact (proj2 Hc)|intros N; repeat constructor; cbn; congruence|]. intros -> _. cbn [c_wbuf set_action set_wbuf]. rewrite sent_tcp. cbn [fold_left outq_ev].
    rewrite <- app_assoc, <- W3. exact (proj1 (S j c (proj1 Hc)) (proj2 Hc)).
  - eapply (Put i c); [exact Hc|reflexivity|exact (proj2 Hc)|constructor|]. intros -> _. rewrite app_nil_r. exact (proj1 (S j c (proj1 Hc)) (proj2 Hc)).
  - (* connect *) destruct (TV_connect (t_vec x) i c d addr port node POLLWRITE (bi_vec x B) Hs Hd Hd0) as (_ & Si & O & _ & _ & Hf).
    cbn [set_tvec t_vec] in Hj. destruct (Z.eq_dec j i) as [->|N].
    + rewrite Si in Hj. injection Hj as <-. split; [discriminate|]. intros _. rewrite ts_app. cbn [fold_left ts_ev outq_ev c_wbuf].
      destruct (ts_open i log) as [a1 a2 a3 a4 a5 a6 a7]. cbn [ts_ev]. rewrite Z.eqb_refl. cbn [ts_sent ts_empty]. split; [reflexivity|]. split; [exact (proj2 (proj2 (ring_fresh c Hf)))|reflexivity].
    + rewrite (O j N) in Hj. apply (Keep c'); auto. repeat constructor. cbn. congruence.
  - (* no connection *) cbn [set_tvec t_vec] in Hj. rewrite (slot_conns _ _ j Ev) in Hj.
    destruct (slot_put (t_vec x) i d j c' (slot_range _ _ _ Hs) Hj) as [[-> ->]|[N Hj']].
    + apply Shut. destruct (tv_mode _ (bi_vec x B) i c Hs) as ([D1 _] & _). rewrite Hm. exact (D1 Hd).
    + apply (Keep c'); auto. destruct Hev as [->|(e & _ & ->)]; repeat constructor.
  - apply Same; [repeat constructor|reflexivity].
  - apply Same; [repeat constructor|reflexivity].
  - (* established *) cbn [set_tvec t_vec] in Hj.
    destruct (slot_put (t_vec x) i _ j c' (slot_range _ _ _ Hs) Hj) as [[-> ->]|[N Hj']].
    + split; [|discriminate]. intros _. cbn [set_action set_mode c_wbuf]. destruct (S i c Hs) as [_ S2]. destruct (S2 Hm) as (S3 & S4 & S5).
      destruct (still_log i log [SvConn (EvMod (c_desc c) i (c_action c) POLLREAD)] (q i)) as [-> ->]; [repeat constructor|]. rewrite S3, S4, S5. reflexivity.
    + apply (Keep c'); auto. repeat constructor.
  - destruct (TV_close (t_vec x) i c v (bi_vec x B) Hs ltac:(rewrite Hm; discriminate) Ec) as (_ & _ & Si & O).
    cbn [set_tvec t_vec] in Hj. destruct (Z.eq_dec j i) as [->|N].
    + rewrite Si in Hj. injection Hj as <-. apply Shut. reflexivity.
    + rewrite (O j N) in Hj. apply (Keep c'); auto. repeat constructor.
  - destruct (TV_close (t_vec x) i c v (bi_vec x B) (proj1 Hc) (connected_mode x i c Hc) Ec) as (_ & _ & Si & O).
    cbn [set_tvec t_vec set_tmem put_spub set_tpubs] in Hj. destruct (Z.eq_dec j i) as [->|N].
    + rewrite Si in Hj. injection Hj as <-. apply Shut. reflexivity.
    + rewrite (O j N) in Hj. apply (Keep c'); auto. apply Forall_app. split; [repeat constructor|apply frees_still].
  - apply Same; [repeat constructor|reflexivity].
Qed.
Lemma steps_SW r log x evs x' q : BI x -> MI x log -> r <> Some (-3) -> usteps r log x evs x' -> SW x log q ->
  SW x' (log ++ evs) (fun j => fold_left (outq_ev j) evs (q j)).
Proof.
  intros B M Hr U S. induction U as [|evs x1 evs1 x2 U IH Hs]; [rewrite app_nil_r; exact S|].
  destruct (steps_BMI r log x evs x1 B M U) as [B1 _]. rewrite app_assoc. intros j c Hj. rewrite fold_left_app. exact (step_SW r _ x1 evs1 x2 _ B1 Hr Hs IH j c Hj).
Qed.

(** A control message. *)
Lemma ctrl_SW x log q i p ptr code x' evs (o : yop) : BI x -> 0 <= i -> message x o = Some (i, p) -> write_good x o ->
  rmc_sub_write_control_message x i p ptr = Ok (code, x', evs) -> SW x log q -> SW x' (log ++ evs) (outq_next q x o code evs).
Proof.
  intros B Hi Hm Hg E S. assert (Id : code <> 0 -> x' = x -> evs = [] -> SW x' (log ++ evs) (outq_next q x o code evs)).
  { intros N -> ->. rewrite app_nil_r. unfold outq_next, said_now. rewrite Hm. replace (code =? 0) with false by lia. intros j c Hj. rewrite andb_false_r. cbn [map fold_left]. rewrite app_nil_r. exact (S j c Hj). }
  unfold rmc_sub_write_control_message in E. destruct (_ || _) eqn:E0; [injection E as <- <- <-; apply Id; auto; discriminate|]. apply orb_false_iff in E0. destruct E0 as [E1 E2].
  destruct (slot (t_vec x) i) as [c| | |] eqn:Hs; cbn [bind] in E; [|discriminate E..].
  destruct (Z.eqb_spec (c_mode c) CONNECTED) as [Hc|Hc]; cbn [negb] in E; [|injection E as <- <- <-; apply Id; auto; discriminate].
  destruct (tv_ring _ (bi_vec x B) i c Hs) as [W1 W2]. pose proof (zlen_nonneg p) as Hp0.
  destruct (write_ctrl_spec (c_wbuf c) p ptr W1 ltac:(lia) ltac:(lia)) as (A1 & A2 & _). cbv zeta in *.
  destruct (Z_lt_ge_dec (circ_buf_available (c_wbuf c)) (4 + zlen p)) as [L|L].
  { rewrite (A1 L) in E. cbn [bind fst snd] in E. change (negb (ENOMEM =? 0)) with true in E. cbv iota in E. injection E as <- <- <-. apply Id; auto; discriminate. }
  destruct (Hg i p c Hm (conj Hs Hc) ltac:(lia)) as [G1 G2]. rewrite <- W2 in G1, G2. destruct (A2 ltac:(lia) G1 G2) as (wb & Ew & _ & _ & X3 & _).
  rewrite Ew in E. cbn [bind fst snd] in E. change (negb (0 =? 0)) with false in E. cbv iota in E. injection E as <- <- <-.
  intros j c' Hj. cbn [set_tvec t_vec] in Hj. unfold outq_next, said_now. rewrite Hm. change (0 =? 0) with true. rewrite andb_true_r.
  destruct (still_log j log [SvConn (EvMod (c_desc c) i (c_action c) (Z.lor (c_action c) POLLWRITE))] (q j ++ map CmdCtrl (if i =? j then [p] else []))) as [-> ->]; [repeat constructor|].
  destruct (slot_put (t_vec x) i _ j c' (slot_range _ _ _ Hs) Hj) as [[-> ->]|[N Hj']].
  - rewrite Z.eqb_refl. split; [|cbn; rewrite Hc; discriminate]. intros _. cbn [c_wbuf set_action set_wbuf map]. rewrite X3, flat_map_app. cbn [flat_map]. rewrite app_nil_r.
    destruct (S i c Hs) as [S1 _]. rewrite <- (S1 Hc), <- app_assoc. reflexivity.
  - replace (i =? j) with false by lia. cbn [map]. rewrite app_nil_r. exact (S j c' Hj').
Qed.
Lemma noctrl x o : message x o = None -> forall q code evs i, outq_next q x o code evs i = fold_left (outq_ev i) evs (q i).
Proof. intros H q code evs i. unfold outq_next, said_now. rewrite H. cbn [map]. rewrite app_nil_r. reflexivity. Qed.
Lemma by_SW (find : res (option Z)) x log q p ptr code x' evs (o : yop) : BI x -> (forall i, find = Ok (Some i) -> 0 <= i) ->
  message x o = match find with Ok (Some i) => Some (i, p) | _ => None end -> write_good x o ->
  control_by find x p ptr = Ok (code, x', evs) -> SW x log q -> SW x' (log ++ evs) (outq_next q x o code evs).
Proof.
  intros B Hi Hm Hg E S. assert (Id : code <> 0 \/ message x o = None -> x' = x -> evs = [] -> SW x' (log ++ evs) (outq_next q x o code evs)).
  { intros N -> ->. rewrite app_nil_r. unfold outq_next, said_now. intros j c Hj. destruct N as [N|N]; [|rewrite N; cbn [map fold_left]; rewrite app_nil_r; exact (S j c Hj)].
    destruct (message x o) as [[a b]|]; replace (code =? 0) with false by lia; rewrite ?andb_false_r; cbn [map fold_left]; rewrite app_nil_r; exact (S j c Hj). }
  unfold control_by in E. destruct (_ || _); [injection E as <- <- <-; apply Id; auto; left; discriminate|].
  destruct find as [[i|]| | |]; cbn [bind] in E; [|injection E as <- <- <-; apply Id; auto|discriminate E..].
  destruct (slot (t_vec x) i) as [c| | |]; cbn [bind] in E; [|discriminate E..]. destruct (negb _); [injection E as <- <- <-; apply Id; auto; left; discriminate|].
  exact (ctrl_SW x log q i p ptr code x' evs o B (Hi i eq_refl) Hm Hg E S).
Qed.
Lemma call_SW x log q o code x' evs : BI x -> MI x log -> yok x log o -> write_good x o -> ystep x o = Ok (code, x', evs) -> SW x log q ->
  SW x' (log ++ evs) (outq_next q x o code evs).
Proof.
  intros B M Hok Hg E S. assert (Plain : message x o = None -> reads o <> Some (-3) -> SW x' (log ++ evs) (outq_next q x o code evs)).
  { intros Hm Hr. destruct (step_bmi x log o code x' evs B M Hok E) as (U & _). intros j c Hj. rewrite (noctrl x o Hm). exact (steps_SW _ log x evs x' q B M Hr U S j c Hj). }
  destruct o as [i [ins|t ins]|i w|now|i|a keep|ptr|i p ptr|ad port p ptr|node p ptr|a c k|sa|]; try (apply Plain; [reflexivity|cbn [reads]; discriminate]).
  - apply Plain; [reflexivity|]. cbn [reads yok] in *. intros Q. injection Q as Q. lia.
  - cbn [ystep yok] in *. exact (ctrl_SW x log q i p ptr code x' evs (YCtrl i p ptr) B (proj1 Hok) eq_refl Hg E S).
  - cbn [ystep] in E. apply (by_SW (find_by_address (t_vec x) ad port) x log q p ptr code x' evs); auto.
    intros i Ef. destruct (finder_cases x (fun c => negb (c_desc c =? -1) && (ad =? c_addr c) && (port =? c_port c)) B) as [(j & Ej & Hj)|Ej]; [intros c Hc; lia| |]; unfold find_by_address in Ef; rewrite Ej in Ef; [injection Ef as <-; exact Hj|discriminate Ef].
  - cbn [ystep] in E. apply (by_SW (find_by_node_id (t_vec x) node) x log q p ptr code x' evs); auto.
    intros i Ef. destruct (finder_cases x (fun c => negb (c_desc c =? -1) && (c_node c =? node)) B) as [(j & Ej & Hj)|Ej]; [intros c Hc; lia| |]; unfold find_by_node_id in Ef; rewrite Ej in Ef; [injection Ef as <-; exact Hj|discriminate Ef].
Qed.
Lemma ohist_yhist t x0 ops x log q : ohist t x0 ops x log q -> yhist t x0 ops x log.
Proof. induction 1; econstructor; eassumption. Qed.
Lemma fresh_SW x0 : fresh_sub x0 -> SW x0 [] (fun _ => []).
Proof.
  intros (node & buf & m & -> & _) j c Hj. destruct (slot_init buf j c Hj) as [_ Hm]. split; rewrite Hm; discriminate.
Qed.
Lemma ohist_SW t x0 ops x log q : fresh_sub x0 -> ohist t x0 ops x log q -> SW x log q.
Proof.
  intros F H. induction H as [|ops x log q o code x' evs H IH Hok Hr Hg E]; [exact (fresh_SW x0 F)|].
  destruct (hist_inv_y t x0 ops x log F (ohist_yhist _ _ _ _ _ _ H)) as (B & M & _). exact (call_SW x log q o code x' evs B M Hok Hg E IH).
Qed.

(** What is queued are acknowledgements that were announced and messages that fit. *)
Definition QI (q : Z -> list cmd) (log : list sev) : Prop :=
  forall i, acks_of (q i) = ts_acks (ts_open i log) /\ Forall (fun m => match m with CmdPacket _ _ => False | CmdAck _ _ => True | CmdCtrl p => is_u16 (zlen p) /\ bytes_ok p end) (q i).
Lemma events_QI i evs : forall l s, acks_of l = ts_acks s ->
  Forall (fun m => match m with CmdPacket _ _ => False | CmdAck _ _ => True | CmdCtrl p => is_u16 (zlen p) /\ bytes_ok p end) l ->
  acks_of (fold_left (outq_ev i) evs l) = ts_acks (fold_left (ts_ev i) evs s) /\
  Forall (fun m => match m with CmdPacket _ _ => False | CmdAck _ _ => True | CmdCtrl p => is_u16 (zlen p) /\ bytes_ok p end) (fold_left (outq_ev i) evs l).
Proof.
  induction evs as [|e evs IH]; intros l s H1 H2; [auto|]. cbn [fold_left]. apply IH.
  - destruct s as [a1 a2 a3 a4 a5 a6 a7]. destruct e as [[]| | | | | | | | | | | | | | |]; cbn [outq_ev ts_ev ts_acks] in *; auto; destruct (_ =? _); cbn [ts_acks ts_empty]; auto.
    rewrite acks_app, H1. reflexivity.
  - destruct e as [[]| | | | | | | | | | | | | | |]; cbn [outq_ev] in *; auto; destruct (_ =? _); auto. apply Forall_app. split; [exact H2|]. repeat constructor.
Qed.
Lemma ohist_QI t x0 ops x log q : ohist t x0 ops x log q -> QI q log.
Proof.
  induction 1 as [|ops x log q o code x' evs H IH Hok Hr Hg E]; [intros i; split; [reflexivity|constructor]|].
  intros i. destruct (IH i) as [I1 I2]. unfold outq_next. unfold ts_open. rewrite fold_left_app. apply events_QI.
  - rewrite acks_app. fold (ts_open i log). rewrite <- I1. replace (acks_of (map CmdCtrl (said_now x o code i))) with (@nil (Z * Z)); [apply app_nil_r|].
    induction (said_now x o code i); auto.
  - apply Forall_app. split; [exact I2|]. unfold said_now. destruct (message x o) as [[j p]|] eqn:Em; [|constructor]. destruct (_ && _); [|constructor].
    constructor; [|constructor]. destruct o; cbn [message yok] in *; try discriminate Em.
    + injection Em as <- <-. tauto.
    + destruct (find_by_address _ _ _) as [[]| | |]; try discriminate Em. injection Em as <- <-. tauto.
    + destruct (find_by_node_id _ _) as [[]| | |]; try discriminate Em. injection Em as <- <-. tauto.
Qed.
Lemma QI_good q log i cmds : QI q log -> Forall (fun m => cmd_ok m /\ for_pub m) cmds -> acks_of cmds = ts_acks (ts_open i log) ->
  Forall (fun m => cmd_ok m /\ for_pub m) (q i).
Proof.
  intros H F Ea. destruct (H i) as [H1 H2]. rewrite <- Ea in H1. apply Forall_forall. intros m Hm. rewrite Forall_forall in H2. specialize (H2 m Hm).
  destruct m as [h p|a b|p]; [destruct H2| |split; [exact H2|exact Logic.I]]. split; [|exact Logic.I].
  assert (Hi : In (a, b) (acks_of cmds)). { rewrite <- H1. unfold acks_of. apply in_flat_map. exists (CmdAck a b). split; [exact Hm|left; reflexivity]. }
  unfold acks_of in Hi. apply in_flat_map in Hi. destruct Hi as (m & Hm2 & Hi). rewrite Forall_forall in F. specialize (F m Hm2).
  destruct m as [|a' b'|]; cbn in Hi; try contradiction. destruct Hi as [Hi|[]]. injection Hi as <- <-. exact (proj1 F).
Qed.
