(** PropSubProgram.v — C97: the test subscriber as a whole program. *)
From Coq Require Import Permutation.
From Verif Require Import Base CircBuf CircBufProofs Wire SeqList Sub SpecSub SubProofs SubTrace Proto SpecProto ProtoProofs
  Conn SpecConn ConnProofs SubCtx SpecSubCtx SubSteps SubMem SubDecomp SubInv PropSubCtx PropSubConn PropSubMem PropSubDeliver PropSubAck
  PubCtx SpecPubCtx Epoll Loop SpecLoop PollSub Desc SpecCbs PropCbs TestPeers SpecPeers PeersProofs PropPeers SubProgram.

(** ** Without a packet ready callback only the application's own calls take packets *)
Definition stays (e : sev) : bool := match e with SvTake _ _ | SvDrop _ => false | _ => true end.
Definition NT (x : sctx) (evs : list sev) (x' : sctx) : Prop := t_rcb x' = t_rcb x /\ (t_rcb x = false -> forallb stays evs = true).
Lemma NT_trans x e1 y e2 z : NT x e1 y -> NT y e2 z -> NT x (e1 ++ e2) z.
Proof. intros [A B] [C D]. split; [congruence|]. intros H. rewrite forallb_app, (B H), D by congruence. reflexivity. Qed.
Lemma NT_same x evs x' : t_rcb x' = t_rcb x -> forallb stays evs = true -> NT x evs x'.
Proof. split; auto. Qed.
Lemma NT_refl x : NT x [] x. Proof. split; auto. Qed.
Lemma stays_conn ce : forallb stays (map SvConn ce) = true.
Proof. induction ce; auto. Qed.
Lemma frees_stay l : forall m r, free_payloads m l = Ok r -> forallb stays (snd r) = true.
Proof.
  induction l as [|[p n] l IH]; intros m r; cbn [free_payloads]; [intros E; injection E as <-; reflexivity|].
  destruct (m p); [|discriminate]. destruct (free_payloads (tupd m p None) l) as [q| | |] eqn:Eq; cbn [bind]; [|discriminate..]. intros E. injection E as <-. cbn. exact (IH _ _ Eq).
Qed.
Lemma dispatched_rcb x a k cd x' evs : rmc_sub_packet_dispatched x a k = Ok (cd, x', evs) -> t_rcb x' = t_rcb x.
Proof. intros E. exact (proj1 (proj2 (proj2 (proj2 (dispatched_SC _ _ _ _ _ _ E))))). Qed.
Lemma process_NT x i x' evs : process_received x i = Ok (x', evs) -> NT x evs x'.
Proof.
  unfold process_received. destruct (get_spub x i) as [s| | |]; cbn [bind]; [|discriminate..]. destruct (sub_process s) as [s' out]. intros E.
  match type of E with Ok (?y, ?e) = _ => assert (x' = y /\ evs = e) as [-> ->] by (split; congruence) end. apply NT_same; [reflexivity|]. clear. induction out; auto.
Qed.
Lemma accept_NT x i pid bs mc o x' evs : accept_packet x i pid bs mc o = Ok (x', evs) -> NT x evs x'.
Proof.
  unfold accept_packet. destruct (_ || _); [discriminate|]. set (x1 := set_tmem x _). intros E.
  destruct (if mc then _ else _) as [x2| | |] eqn:E2; cbn [bind] in E; [|discriminate E..].
  assert (C2 : t_rcb x2 = t_rcb x).
  { destruct mc; [unfold rmc_sub_packet_received in E2|unfold tcp_packet_received in E2];
      (destruct (get_spub x1 i) as [s| | |]; cbn [bind] in E2; [|discriminate E2..]; cbv zeta in E2);
      match type of E2 with Ok ?y = _ => assert (x2 = y) as -> by congruence end; [destruct (sub_oldest_unacked s =? 0)|]; reflexivity. }
  destruct (process_received x2 i) as [[x3 e3]| | |] eqn:E3; cbn [bind fst snd] in E; [|discriminate E..]. destruct (process_NT _ _ _ _ E3) as [P1 P2].
  destruct (t_rcb x) eqn:Er; cbn [andb] in E.
  - split; [|congruence]. destruct (negb _).
    + destruct (ready_cb x3 (ai_ops o)) as [[x4 e4]| | |] eqn:E4; cbn [bind fst snd] in E; [|discriminate E..]. destruct (ready_SC _ _ _ _ E4) as (_ & _ & _ & D4 & _). assert (x' = x4) as -> by congruence. congruence.
    + assert (x' = x3) as -> by congruence. congruence.
  - match type of E with Ok (?y, ?e) = _ => assert (x' = y /\ evs = e) as [-> ->] by (split; congruence) end. split; [congruence|]. intros _. exact (P2 C2).
Qed.
Lemma unsub_NT x h p o x' evs : decode_unsubscribed x h p o = Ok (x', evs) -> NT x evs x'.
Proof.
  unfold decode_unsubscribed. destruct (negb _); [intros E; injection E as <- <-; apply NT_refl|]. cbv zeta.
  set (e0 := if t_acb x then [SvAnnounce (h_ip h) (h_port h) (h_node h) p] else []).
  assert (E0 : NT x e0 x) by (apply NT_same; [reflexivity|unfold e0; destruct (t_acb x); reflexivity]).
  destruct (if t_acb x then mi_answer o else true).
  - destruct (connect_tcp _ _ _ _ _) as [[[[cd j] v] ce]| | |] eqn:Ec; cbn [bind]; [|discriminate..]. intros E. injection E as <- <-.
    eapply NT_trans; [exact E0|]. apply NT_same; [reflexivity|]. apply stays_conn.
  - intros E. injection E as <- <-. exact E0.
Qed.
Lemma mcast_NT x src bs o code op x' evs : process_multicast_read x src bs o = Ok (code, op, x', evs) -> NT x evs x'.
Proof.
  unfold process_multicast_read. destruct (_ <? _); [intros E; injection E as _ _ <- <-; apply NT_refl|]. cbv zeta.
  destruct (_ <? _); [intros E; injection E as _ _ <- <-; apply NT_refl|].
  set (h := if _ =? 0 then _ else _). set (pl := ztake _ _).
  assert (Un : forall cd op1 y e, (do r <- decode_unsubscribed x h pl o; Ok (0, Some RMC_READ_MULTICAST_NOT_READY, fst r, snd r)) = Ok (cd, op1, y, e) -> NT x e y).
  { intros cd op1 y e. destruct (decode_unsubscribed x h pl o) as [[x1 e1]| | |] eqn:E1; cbn [bind fst snd]; [|discriminate..]. intros E. injection E as _ _ <- <-. exact (unsub_NT _ _ _ _ _ _ E1). }
  destruct (find_by_address _ _ _) as [[i|]| | |]; cbn [bind]; [| |discriminate..]; [|apply Un].
  destruct (slot (t_vec x) i) as [c| | |]; cbn [bind]; [|discriminate..]. destruct (c_mode c =? CONNECTING); [apply Un|].
  destruct (decode_subscribed x i h pl (mi_acc o)) as [[x1 e1]| | |] eqn:E1; cbn [bind fst snd]; [|discriminate..]. intros E. injection E as _ _ <- <-.
  unfold decode_subscribed in E1. destruct (h_pid h =? 0); [injection E1 as <- <-; apply NT_refl|]. destruct (get_spub x i) as [s| | |]; cbn [bind] in E1; try discriminate E1.
  destruct (sub_is_duplicate s (h_pid h)); [injection E1 as <- <-; apply NT_refl|]. exact (accept_NT _ _ _ _ _ _ _ _ E1).
Qed.
Lemma mread_NT ins : forall x op code op' x' evs, mread_loop x op ins = Ok (code, op', x', evs) -> NT x evs x'.
Proof.
  induction ins as [|m ins IH]; intros x op code op' x' evs; cbn [mread_loop]; [intros E; injection E as _ _ <- <-; apply NT_refl|].
  destruct m as [|e|src bs o]; [intros E; injection E as _ _ <- <-; apply NT_refl..|]. cbv zeta.
  destruct (process_multicast_read x src _ o) as [[[[cd op1] x1] e1]| | |] eqn:E1; cbn [bind]; [|discriminate..].
  assert (V1 : NT x (SvDgram src (ztake RMC_MAX_PACKET bs) :: e1) x1).
  { apply (NT_trans x [SvDgram src (ztake RMC_MAX_PACKET bs)] x); [apply NT_same; reflexivity|exact (mcast_NT _ _ _ _ _ _ _ _ E1)]. }
  destruct (negb (cd =? 0)); [intros E; injection E as _ _ <- <-; exact V1|].
  destruct (mread_loop x1 _ ins) as [[[[cd2 op3] x2] e2]| | |] eqn:E2; cbn [bind]; [|discriminate..]. intros E.
  match type of E with Ok (_, _, ?y, ?e) = _ => assert (x' = y /\ evs = e) as [-> ->] by (split; congruence) end.
  exact (NT_trans _ _ _ _ _ V1 (IH _ _ _ _ _ _ E2)).
Qed.
Lemma close_NT x i x' evs : rmc_sub_close_connection x i = Ok (x', evs) -> NT x evs x'.
Proof.
  unfold rmc_sub_close_connection. destruct (close_conn (t_vec x) i) as [[[cd v] ce]| | |]; cbn [bind]; [|discriminate..]. cbv zeta.
  destruct (get_spub (set_tvec x v) i) as [s| | |]; cbn [bind]; [|discriminate..]. unfold sub_reset. cbv iota beta.
  destruct (free_payloads _ _) as [f| | |] eqn:Ef; cbn [bind]; [|discriminate..]. intros E. injection E as <- <-.
  apply NT_same; [reflexivity|]. rewrite forallb_app, stays_conn, (frees_stay _ _ _ Ef). reflexivity.
Qed.
Lemma wack_NT x i iv cd x' evs : rmc_sub_packet_interval_acknowledged x i iv = Ok (cd, x', evs) -> NT x evs x'.
Proof.
  unfold rmc_sub_packet_interval_acknowledged, write_interval_ack. destruct (slot (t_vec x) i) as [c| | |]; cbn [bind]; [|discriminate..].
  destruct (negb _); [intros E; injection E as _ <- <-; split; auto|]. destruct (write_ack _ _ _) as [[w1 w2]| | |]; cbn [bind fst snd]; [|discriminate..].
  destruct (negb (w1 =? 0)); intros E; injection E as _ <- <-; split; auto.
Qed.
Lemma ack_NT l : forall x i s cd x' evs, ack_loop x i s l = Ok (cd, x', evs) -> NT x evs x'.
Proof.
  induction l as [|iv l IH]; intros x i s cd x' evs; cbn [ack_loop]; [intros E; injection E as _ <- <-; apply NT_refl|]. cbv zeta.
  set (s1 := mkSP (s_ready s) (s_maxrecv s) (s_recv s) l).
  assert (P : NT x [] (put_spub x i s1)) by (apply NT_same; reflexivity).
  destruct (rmc_sub_packet_interval_acknowledged (put_spub x i s1) i iv) as [[[c1 x1] e1]| | |] eqn:E1; cbn [bind]; [|discriminate..].
  pose proof (NT_trans _ _ _ _ _ P (wack_NT _ _ _ _ _ _ E1)) as Q. cbn [app] in Q.
  destruct (negb (c1 =? 0)).
  - intros E. injection E as _ <- <-. eapply NT_trans; [exact Q|]. apply NT_same; reflexivity.
  - destruct (ack_loop x1 i s1 l) as [[[c2 x2] e2]| | |] eqn:E2; cbn [bind]; [|discriminate..]. intros E. injection E as _ <- <-. exact (NT_trans _ _ _ _ _ Q (IH _ _ _ _ _ _ E2)).
Qed.
Lemma timeout_NT l : forall x now cd x' evs, timeout_loop x now l = Ok (cd, x', evs) -> NT x evs x'.
Proof.
  induction l as [|i l IH]; intros x now cd x' evs; cbn [timeout_loop]; [intros E; injection E as _ <- <-; apply NT_refl|].
  destruct (get_spub x i) as [s| | |] eqn:Es; cbn [bind]; [|discriminate..]. destruct (_ <? _); [intros E; injection E as _ <- <-; apply NT_refl|].
  destruct (ack_loop x i s (s_intv s)) as [[[c1 x1] e1]| | |] eqn:E1; cbn [bind]; [|discriminate..].
  pose proof (ack_NT _ _ _ _ _ _ _ E1) as Q.
  destruct (negb (c1 =? 0)); [intros E; injection E as _ <- <-; exact Q|].
  destruct (timeout_loop (set_tack x1 l) now l) as [[[c2 x2] e2]| | |] eqn:E2; cbn [bind]; [|discriminate..]. intros E. injection E as _ <- <-.
  eapply NT_trans; [exact Q|]. apply (NT_trans x1 [] (set_tack x1 l)); [apply NT_same; reflexivity|exact (IH _ _ _ _ _ E2)].
Qed.
Lemma write_NT x i o code op x' evs : rmc_sub_write x i o = Ok (code, op, x', evs) -> NT x evs x'.
Proof.
  unfold rmc_sub_write. destruct (find_by_index (t_vec x) i) as [[c|]| | |]; cbn [bind]; [| |discriminate..]; [|intros E; injection E as _ _ <- <-; apply NT_refl].
  destruct (_ =? CONNECTING); cbv zeta.
  - destruct (complete_conn _ i _) as [[[c1 v] ce]| | |] eqn:Ec; cbn [bind]; [|discriminate..]. destruct (negb (c1 =? 0)).
    + destruct (close_conn _ i) as [[[c2 v2] ce2]| | |]; cbn [bind]; [|discriminate..]. intros E. injection E as _ _ <- <-. apply NT_same; [reflexivity|]. apply stays_conn.
    + intros E. injection E as _ _ <- <-. apply NT_same; [reflexivity|]. rewrite forallb_app, stays_conn. match goal with |- context [if ?b then _ else _] => destruct b end; reflexivity.
  - destruct (circ_buf_in_use _ =? 0); [intros E; injection E as _ _ <- <-; apply NT_refl|]. destruct (tcp_write _ _) as [r| | |]; cbn [bind]; [|discriminate..]. intros E. injection E as _ _ <- <-.
    apply NT_same; reflexivity.
Qed.
Lemma read_NT x i o code op x' evs : rmc_sub_read x i o = Ok (code, op, x', evs) -> NT x evs x'.
Proof.
  destruct o as [ins|t ins]; cbn [rmc_sub_read].
  { unfold multicast_read. destruct (t_mcast x =? -1); cbn [bind]; [intros E; injection E as _ _ <- <-; apply NT_refl|].
    destruct (mread_loop x RMC_ERROR ins) as [[[[c1 op1] x1] e1]| | |] eqn:El; cbn [bind]; [|discriminate..]. intros E. injection E as _ _ <- <-.
    eapply NT_trans; [exact (mread_NT _ _ _ _ _ _ _ El)|]. apply NT_same; reflexivity. }
  destruct (find_by_index (t_vec x) i) as [[c|]| | |]; cbn [bind]; [| |discriminate..]; [|intros E; injection E as _ _ <- <-; apply NT_refl].
    destruct (negb _); [intros E; injection E as _ _ <- <-; apply NT_refl|].
    set (got := match t with RErr => _ | _ => _ end). assert (G : forallb stays got = true) by (unfold got; destruct t as [|[|? ?]]; reflexivity).
    destruct (tcp_read _ _ (c_rbuf c) t) as [[cd op1 [[x1 e1] ins1] rb]| | |] eqn:Et; cbn [bind]; [|discriminate..].
    assert (S : NT x e1 x1).
    { refine (tcp_read_ok _ (fun st : tst => NT x (snd (fst st)) (fst (fst st))) _ (x, got, ins) (c_rbuf c) t _ _ Et); [|apply NT_same; try reflexivity; exact G].
      apply sub_dispatch_ok. intros [[y1 f1] jns] hp [[y2 f2] kns] F. cbn [fst snd] in *. unfold tcp_eff. destruct jns as [|a jns]; [discriminate|].
      destruct (accept_packet y1 i (h_pid (fst hp)) (snd hp) false a) as [[y3 f3]| | |] eqn:Ea; cbn [bind fst snd]; [|discriminate..]. intros Q. injection Q as <- <- _.
      exact (NT_trans _ _ _ _ _ F (accept_NT _ _ _ _ _ _ _ _ Ea)). }
    cbn [r_st r_buf r_code r_op]. set (x2 := set_tvec x1 _).
    assert (S2 : NT x e1 x2) by (rewrite <- (app_nil_r e1); apply (NT_trans x e1 x1); [exact S|apply NT_same; reflexivity]).
    assert (Re : forall y, NT y [SvConn (EvMod (c_desc c) i POLLREAD POLLREAD)] y) by (intros y; apply NT_same; reflexivity).
    destruct (cd =? ENOMEM); [intros Q; injection Q as _ _ <- <-; eapply NT_trans; [exact S2|apply Re]|]. destruct (cd =? EPIPE).
    { destruct (rmc_sub_close_connection x2 i) as [[x3 e3]| | |] eqn:E3; cbn [bind fst snd]; [|discriminate..]. intros Q. injection Q as _ _ <- <-. eapply NT_trans; [exact S2|exact (close_NT _ _ _ _ E3)]. }
    destruct (process_received x2 i) as [[x3 e3]| | |] eqn:E3; cbn [bind fst snd]; [|discriminate..]. pose proof (NT_trans _ _ _ _ _ S2 (process_NT _ _ _ _ E3)) as S3.
    destruct (cd =? EPROTO).
    + destruct (rmc_sub_close_connection x3 i) as [[x4 e4]| | |] eqn:E4; cbn [bind fst snd]; [|discriminate..]. intros Q. injection Q as _ _ <- <-.
      rewrite app_assoc. eapply NT_trans; [exact S3|exact (close_NT _ _ _ _ E4)].
    + intros Q. injection Q as _ _ <- <-. rewrite app_assoc. eapply NT_trans; [exact S3|apply Re].
Qed.

(** ** What is handed out is what is taken and what is ready *)
(** A packet: its publisher's index, its id and its payload. *)
Definition handed_ev (e : sev) : list (Z * Z * list Z) := match e with SvPut i k bs => [(i, k, bs)] | _ => [] end.
Definition taken_ev (e : sev) : list (Z * Z * list Z) := match e with SvTake p bs => [(sk_user p, sk_pid p, bs)] | _ => [] end.
Definition view (log : list sev) (p : spacket) : Z * Z * list Z := (sk_user p, sk_pid p, cont log (sk_addr p)).
Lemma view_app x log evs p : MI x log -> In p (held x) -> view (log ++ evs) p = view log p.
Proof.
  intros M Hp. unfold view, cont. rewrite got_app. destruct (mi_held x log M p Hp) as (A & _). rewrite (mi_fresh _ _ M) in A. rewrite app_nth1 by exact A. reflexivity.
Qed.
Lemma stays_no_take evs : forallb stays evs = true -> flat_map taken_ev evs = [].
Proof. induction evs as [|e l IH]; [reflexivity|]. cbn [forallb flat_map]. intros E. apply andb_prop in E. destruct E as [E1 E2]. rewrite (IH E2). destruct e; try discriminate E1; reflexivity. Qed.
Lemma loop_out : forall l r r' out rest, process_loop r l = (r', out, rest) -> l = out ++ rest.
Proof.
  induction l as [|p l IH]; intros r r' out rest; cbn [process_loop]; [intros E; injection E as _ <- <-; reflexivity|]. destruct (_ && _); [intros E; injection E as _ <- <-; reflexivity|].
  destruct (process_loop (u64 (r + 1)) l) as [[a b] c] eqn:El. intros E. injection E as _ <- <-. cbn [app]. f_equal. exact (IH _ _ _ _ El).
Qed.
Lemma process_out s s' out p : sub_process s = (s', out) -> In p out -> In p (s_recv s).
Proof.
  unfold sub_process. destruct (process_loop _ (s_recv s)) as [[a b] c] eqn:El. intros E. injection E as _ <-. intros H. rewrite (loop_out _ _ _ _ _ El). apply in_or_app. auto.
Qed.
Lemma handed_puts m i out : flat_map handed_ev (put_evs m i out) = map (fun p => (i, sk_pid p, peek m (sk_payload p) (sk_len p))) out.
Proof. induction out as [|p l IH]; [reflexivity|]. cbn [put_evs map flat_map handed_ev app] in *. f_equal. exact IH. Qed.
Lemma puts_view x' log' i out : MI x' log' -> (forall p, In p out -> In p (t_ready x') /\ sk_user p = i) ->
  map (fun p => (i, sk_pid p, peek (t_mem x') (sk_payload p) (sk_len p))) out = map (view log') out.
Proof.
  intros M H. apply map_ext_in. intros p Hp. destruct (H p Hp) as [H1 H2]. unfold view. rewrite H2, (peek_held x' log' p M); [reflexivity|]. apply in_held. right. exact H1.
Qed.
Lemma u_ready r log x evs x' : MI x log -> MI x' (log ++ evs) -> ustep r log x evs x' -> forallb stays evs = true ->
  exists out, t_ready x' = t_ready x ++ out /\ flat_map handed_ev evs = map (view (log ++ evs)) out.
Proof.
  intros M M' H. destruct H; intros St; try discriminate St; try (exists []; rewrite app_nil_r; split; [solve [reflexivity | assumption | congruence]|solve [reflexivity]]).
  - exists []. rewrite app_nil_r. split; [reflexivity|]. destruct e; cbn in *; try reflexivity; contradiction.
  - exists out. subst x'. split; [reflexivity|]. rewrite flat_map_app. replace (flat_map handed_ev (match src with Some sd => _ | None => _ end)) with (@nil (Z * Z * list Z)) by (destruct src; reflexivity).
    cbn [app flat_map handed_ev]. rewrite handed_puts. apply (puts_view _ _ i out M'). intros p Hp. split; [cbn [t_ready]; apply in_or_app; right; exact Hp|].
    match goal with E : sub_process _ = _ |- _ => pose proof (process_out _ _ _ _ E Hp) as I end. unfold sub_received in I. cbn [s_recv] in I.
    apply (Permutation_in _ (Permutation_sym (insert_perm _ _))) in I. destruct I as [<-|I]; [reflexivity|]. apply (mi_user _ _ M i p). unfold waiting. match goal with E : t_pubs x i = _ |- _ => rewrite E end. exact I.
  - exists out. split; [reflexivity|]. rewrite handed_puts. apply (puts_view _ _ i out M'). intros p Hp. split; [cbn [set_tready t_ready]; apply in_or_app; right; exact Hp|].
    match goal with E : sub_process _ = _ |- _ => pose proof (process_out _ _ _ _ E Hp) as I end. apply (mi_user _ _ M i p). unfold waiting. match goal with E : t_pubs x i = _ |- _ => rewrite E end. exact I.
  - exists []. rewrite app_nil_r. split; [reflexivity|]. destruct H8 as [->|(d & _ & ->)]; reflexivity.
  - exists []. rewrite app_nil_r. split; [reflexivity|]. cbn [app flat_map handed_ev]. clear. induction (s_recv s) as [|p l IH]; [reflexivity|]. exact IH.
Qed.
Lemma us_ready r log x evs x' : BI x -> MI x log -> usteps r log x evs x' -> forallb stays evs = true ->
  exists out, t_ready x' = t_ready x ++ out /\ flat_map handed_ev evs = map (view (log ++ evs)) out.
Proof.
  intros B M Hu. induction Hu as [|e1 x1 e2 x2 Hu IH Hs]; intros St; [exists []; rewrite app_nil_r; auto|]. rewrite forallb_app in St. apply andb_prop in St. destruct St as [S1 S2].
  destruct (IH S1) as (o1 & R1 & H1). destruct (steps_BMI _ _ _ _ _ B M Hu) as [B1 M1]. pose proof (step_MI _ _ _ _ _ B1 M1 Hs) as M2.
  destruct (u_ready _ _ _ _ _ M1 M2 Hs S2) as (o2 & R2 & H2). exists (o1 ++ o2). split; [rewrite R2, R1, app_assoc; reflexivity|]. rewrite flat_map_app, map_app, H1, H2, app_assoc. f_equal.
  apply map_ext_in. intros p Hp. symmetry. apply (view_app x1); [exact M1|]. apply in_held. right. rewrite R1. apply in_or_app. auto.
Qed.

(** ** Calls of the event loops *)
Section Calls.
Variable x0 : sctx.
Hypothesis F0 : fresh_sub x0.
Definition RD (x : sctx) (log : list sev) : Prop := flat_map handed_ev log = flat_map taken_ev log ++ map (view log) (t_ready x).
Definition HK (ops : list yop) (x : sctx) (log : list sev) : Prop := yhist false x0 ops x log /\ t_rcb x = false /\ RD x log.
Definition looped (o : yop) : Prop := match o with YRead _ _ | YWrite _ _ | YClose _ | YTimeout _ => True | _ => False end.
Lemma looped_NT x o code x' evs : looped o -> ystep x o = Ok (code, x', evs) -> NT x evs x'.
Proof.
  destruct o as [i o|i o|now|i|a keep|ptr|i p ptr|a port p ptr|n p ptr|a c r|o|]; intros []; cbn [ystep].
  - destruct (rmc_sub_read x i o) as [[[[cd op] x1] e1]| | |] eqn:E1; cbn [bind]; [|discriminate..]. intros E. assert (x' = x1 /\ evs = e1) as [-> ->] by (split; congruence). exact (read_NT _ _ _ _ _ _ _ E1).
  - destruct (rmc_sub_write x i o) as [[[[cd op] x1] e1]| | |] eqn:E1; cbn [bind]; [|discriminate..]. intros E. assert (x' = x1 /\ evs = e1) as [-> ->] by (split; congruence). exact (write_NT _ _ _ _ _ _ _ E1).
  - exact (timeout_NT _ _ _ _ _ _).
  - destruct (rmc_sub_close_connection x i) as [[x1 e1]| | |] eqn:E1; cbn [bind fst snd]; [|discriminate..]. intros E. assert (x' = x1 /\ evs = e1) as [-> ->] by (split; congruence). exact (close_NT _ _ _ _ E1).
Qed.
Lemma RD_step ops x log o code x' evs : HK ops x log -> yok x log o -> ystep x o = Ok (code, x', evs) -> forallb stays evs = true -> RD x' (log ++ evs).
Proof.
  intros (H & _ & D) Hok E St. destruct (hist_inv_y _ _ _ _ _ F0 H) as (B & M & _). destruct (step_bmi x log o code x' evs B M Hok E) as (U & _ & M').
  destruct (us_ready _ _ _ _ _ B M U St) as (out & R & P). unfold RD. rewrite !flat_map_app, (stays_no_take _ St), app_nil_r, D, P, R, map_app, <- app_assoc. f_equal. f_equal.
  apply map_ext_in. intros p Hp. symmetry. apply (view_app x); [exact M|]. apply in_held. auto.
Qed.
Lemma call_HK ops x log o code x' evs : HK ops x log -> looped o -> yok x log o -> ystep x o = Ok (code, x', evs) ->
  HK (ops ++ [o]) x' (log ++ evs) /\ flat_map taken_ev evs = [] /\ ((forall now, o <> YTimeout now) -> forall i, sent_acks i evs = []).
Proof.
  intros K L Hok E. pose proof K as (H & C & D). destruct (looped_NT _ _ _ _ _ L E) as [N1 N2]. specialize (N2 C). split; [|split].
  - split; [exact (yh_step _ _ _ _ _ _ _ _ _ H Hok ltac:(discriminate) E)|]. split; [congruence|]. exact (RD_step _ _ _ _ _ _ _ K Hok E N2).
  - exact (stays_no_take _ N2).
  - intros N i. exact (proj1 (c49_acks_only_in_timeout false x log o code x' evs i (ex_intro _ x0 (ex_intro _ ops (conj F0 H))) Hok E N)).
Qed.
Definition QS (ops : list yop) (log : list sev) (l : list scall) (x' : sctx) : Prop :=
  HK (ops ++ map k_op l) x' (log ++ flat_map k_evs l) /\ flat_map taken_ev (flat_map k_evs l) = [] /\ forall i, sent_acks i (flat_map k_evs l) = [].
Lemma QS_nil ops x log : HK ops x log -> QS ops log [] x.
Proof. intros H. unfold QS. cbn [map flat_map]. rewrite !app_nil_r. auto. Qed.
Lemma QS_snoc ops log l x (e : ready * sin) o y code evs x' : QS ops log l x -> looped o -> (forall now, o <> YTimeout now) -> yok x (log ++ flat_map k_evs l) o -> ystep x o = Ok (code, x', evs) ->
  QS ops log (l ++ [mkCall e o y code evs]) x'.
Proof.
  intros (K & T & A) L N Hok E. destruct (call_HK _ _ _ _ _ _ _ K L Hok E) as (K' & T' & A'). unfold QS.
  assert (F : flat_map k_evs (l ++ [mkCall e o y code evs]) = flat_map k_evs l ++ evs) by (rewrite flat_map_app; cbn [flat_map k_evs]; rewrite app_nil_r; reflexivity). rewrite F, map_app. cbn [map k_op].
  split; [rewrite !app_assoc; exact K'|]. split; [rewrite flat_map_app, T, T'; reflexivity|]. intros i. rewrite sent_app, (A i), (A' N i). reflexivity.
Qed.
Lemma QS_trans ops log l1 l2 x1 x2 : QS ops log l1 x1 -> (HK (ops ++ map k_op l1) x1 (log ++ flat_map k_evs l1) -> QS (ops ++ map k_op l1) (log ++ flat_map k_evs l1) l2 x2) -> QS ops log (l1 ++ l2) x2.
Proof.
  intros (K & T & A) H. destruct (H K) as (K' & T' & A'). unfold QS.
  assert (F : flat_map k_evs (l1 ++ l2) = flat_map k_evs l1 ++ flat_map k_evs l2) by apply flat_map_app. rewrite F, map_app, !app_assoc. split; [exact K'|]. split; [rewrite flat_map_app, T, T'; reflexivity|]. intros i. rewrite sent_app, (A i), (A' i). reflexivity.
Qed.
Lemma u16_bounds a : 0 <= u16 a < 65536.
Proof. unfold u16. apply Z.mod_pos_bound. lia. Qed.
Lemma sub_event_QS ops x log e x' l : HK ops x log -> sin_ok (snd e) -> sub_event x e = Ok (x', l) -> QS ops log l x'.
Proof.
  intros K (S1 & S2 & S3 & S4). unfold sub_event. cbv zeta. set (i := u16 (y_ind (fst e))). set (n := snd e) in *. pose proof (u16_bounds (y_ind (fst e))) as Hi. fold i in Hi.
  assert (A : forall a, (if Z.land (y_ev (fst e)) EPOLLIN =? 0 then Ok (x, []) else do r <- rmc_sub_read x i (sub_rd i n); let '(code, _, x1, evs) := r in Ok (x1, [mkCall e (YRead i (sub_rd i n)) x code evs])) = Ok a -> QS ops log (snd a) (fst a)).
  { intros a. destruct (_ =? 0); [intros E; assert (a = (x, [])) as -> by congruence; exact (QS_nil _ _ _ K)|].
    destruct (rmc_sub_read x i (sub_rd i n)) as [[[[cd op] x1] e1]| | |] eqn:E1; cbn [bind]; [|discriminate..]. intros E. match type of E with Ok ?q = _ => assert (a = q) as -> by congruence end. cbn [fst snd].
    change ([mkCall e (YRead i (sub_rd i n)) x cd e1]) with ([] ++ [mkCall e (YRead i (sub_rd i n)) x cd e1]). eapply QS_snoc; [exact (QS_nil _ _ _ K)|exact Logic.I|discriminate| |cbn [ystep]; rewrite E1; reflexivity].
    unfold sub_rd. destruct (i =? RMC_MULTICAST_INDEX); cbn [yok]; [exact S1|]. split; [lia|]. destruct (m_readv n); auto. }
  match goal with |- context [bind ?h _] => revert A; destruct h as [a| | |]; intros A end; cbn [bind]; [|discriminate..]. specialize (A a eq_refl).
  destruct (_ =? 0); [intros E; injection E as ->; exact A|].
  destruct (rmc_sub_write (fst a) i (m_wr n)) as [[[[cd op] x2] e2]| | |] eqn:E2; cbn [bind]; [|discriminate..].
  assert (W : QS ops log (snd a ++ [mkCall e (YWrite i (m_wr n)) (fst a) cd e2]) x2).
  { eapply QS_snoc; [exact A|exact Logic.I|discriminate| |cbn [ystep]; rewrite E2; reflexivity]. cbn [yok]. split; [lia|]. split; assumption. }
  destruct (cd =? 0); [intros E; match type of E with Ok (?y, ?q) = _ => assert (x' = y /\ l = q) as [-> ->] by (split; congruence) end; exact W|].
  destruct (rmc_sub_close_connection x2 i) as [[x3 e3]| | |] eqn:E3; cbn [bind fst snd]; [|discriminate..]. intros E. match type of E with Ok (?y, ?q) = _ => assert (x' = y /\ l = q) as [-> ->] by (split; congruence) end.
  eapply QS_snoc; [exact W|exact Logic.I|discriminate| |cbn [ystep]; rewrite E3; reflexivity]. cbn [yok]. lia.
Qed.
Lemma sub_events_QS : forall b ops x log x' l, HK ops x log -> Forall (fun e => sin_ok (snd e)) b -> sub_events x b = Ok (x', l) -> QS ops log l x'.
Proof.
  induction b as [|e b IH]; intros ops x log x' l K W; cbn [sub_events]; [intros E; assert (x' = x /\ l = []) as [-> ->] by (split; congruence); exact (QS_nil _ _ _ K)|].
  inversion W as [|? ? W1 W2 Q]; subst. destruct (sub_event x e) as [[x1 l1]| | |] eqn:E1; cbn [bind fst snd]; [|discriminate..]. destruct (sub_events x1 b) as [[x2 l2]| | |] eqn:E2; cbn [bind fst snd]; [|discriminate..].
  intros E. assert (x' = x2 /\ l = l1 ++ l2) as [-> ->] by (split; congruence). apply (QS_trans _ _ _ _ _ _ (sub_event_QS _ _ _ _ _ _ K W1 E1)). intros K1. exact (IH _ _ _ _ _ K1 W2 E2).
Qed.
Lemma agree_ok m : mrecv_good m -> mrecv_good (agree m).
Proof. destruct m; exact (fun h => h). Qed.
Lemma agreed_ok b : Forall (fun e : ready * sin => sin_ok (snd e)) b -> Forall (fun e : ready * sin => sin_ok (snd e)) (map agreed b).
Proof.
  intros H. apply Forall_map. eapply Forall_impl; [|exact H]. intros [y n] (A & B). split; [|exact B]. cbn [agreed snd fst m_from]. apply Forall_map. eapply Forall_impl; [|exact A]. exact agree_ok.
Qed.
(** What process_events does. *)
Lemma sserve_HK s b code s' : HK (w_calls s) (w_x s) (w_log s) -> Forall (fun e : ready * sin => sin_ok (snd e)) b -> sserve s b = Ok (code, s') ->
  HK (w_calls s') (w_x s') (w_log s') /\ w_loc s' = w_loc s /\ w_exp s' = w_exp s /\ (code = ETIME <-> b = []) /\ (b = [] -> s' = s) /\
  exists evs, w_log s' = w_log s ++ evs /\ flat_map taken_ev evs = [] /\ forall i, sent_acks i evs = [].
Proof.
  intros K W. unfold sserve. destruct (sub_process_events _ _) as [[[cd x'] l]| | |] eqn:E1; cbn [bind]; [|discriminate..]. intros E. match type of E with Ok (?c, ?q) = _ => assert (code = c /\ s' = q) as [-> ->] by (split; congruence) end. cbn [w_calls w_x w_log w_loc w_exp].
  assert (Q : QS (w_calls s) (w_log s) l x' /\ (cd = ETIME <-> b = []) /\ (b = [] -> l = [] /\ x' = w_x s)).
  { unfold sub_process_events in E1. destruct b as [|e b]; cbn [map] in E1.
    - assert (cd = ETIME /\ x' = w_x s /\ l = []) as (-> & -> & ->) by (repeat split; congruence). split; [exact (QS_nil _ _ _ K)|]. split; [split; reflexivity|auto].
    - destruct (sub_events (w_x s) _) as [[x2 l2]| | |] eqn:E2; cbn [bind fst snd] in E1; [|discriminate..]. assert (cd = 0 /\ x' = x2 /\ l = l2) as (-> & -> & ->) by (repeat split; congruence).
      split; [|split; [split; discriminate|discriminate]]. apply (sub_events_QS _ _ _ _ _ _ K) in E2; [exact E2|]. apply Forall_rev. exact (agreed_ok _ W). }
  destruct Q as ((K' & T & A) & C & N). split; [exact K'|]. split; [reflexivity|]. split; [reflexivity|]. split; [exact C|]. split; [|exists (flat_map k_evs l); auto].
  intros Eb. destruct (N Eb) as [-> ->]. destruct s as [s1 s2 s3 s4 s5]. cbn [map flat_map w_calls w_log w_x w_loc w_exp]. rewrite !app_nil_r. reflexivity.
Qed.
End Calls.

(** ** Executions of the program *)
(** What the outside world may do: descriptors the system gives out, and what may arrive. *)
Definition su_ok (n : sinput) : Prop :=
  Forall (fun e : ready * sin => sin_ok (snd e)) (j_ready n) /\ match j_act n with SaBind d _ | SaOk d | SaOpt d _ => 0 <= d | SaSock _ => True end.
Inductive sruns (map_ : list bool) (x0 : sctx) : sprog -> Prop :=
| sr_init : sruns map_ x0 (sprog_init map_ x0)
| sr_step s n s' : sruns map_ x0 s -> su_ok n -> sprog_step s n = Ok s' -> sruns map_ x0 s'.
(** The packets the library has put on the list of ready packets so far, and those the program has been
    through and given back, in order. *)
Definition handed (s : sprog) : list (Z * Z * list Z) := flat_map handed_ev (w_log s).
Definition taken (s : sprog) : list (Z * Z * list Z) := flat_map taken_ev (w_log s).

Lemma receive_loop_app a : forall e b, receive_loop e (a ++ b) = match receive_loop e a with Goes e' => receive_loop e' b | v => v end.
Proof. induction a as [|p a IH]; intros e b; [reflexivity|]. cbn [app receive_loop]. destruct (process_incoming_packet e p); [apply IH|reflexivity..]. Qed.
Lemma drop_quiet l : forall x x' evs, NoDup (map sk_addr l) -> drop_ready x l = Ok (x', evs) -> flat_map handed_ev evs = [] /\ flat_map taken_ev evs = [].
Proof.
  induction l as [|p l IH]; intros x x' evs N; cbn [drop_ready]; [intros E; injection E as _ <-; auto|].
  cbn [map] in N. inversion N as [|? ? N1 N2]; subst. rewrite c54_not_ready by exact N1. cbn [bind]. destruct (drop_ready _ l) as [[x2 e2]| | |] eqn:E2; cbn [bind fst snd]; [|discriminate..].
  intros E. injection E as _ <-. cbn [app flat_map handed_ev taken_ev]. exact (IH _ _ _ N2 E2).
Qed.
Lemma frees_quiet l : forall m r, free_payloads m l = Ok r -> flat_map handed_ev (snd r) = [] /\ flat_map taken_ev (snd r) = [].
Proof.
  induction l as [|[p n] l IH]; intros m r; cbn [free_payloads]; [intros E; injection E as <-; auto|].
  destruct (m p); [|discriminate]. destruct (free_payloads (tupd m p None) l) as [q| | |] eqn:Eq; cbn [bind]; [|discriminate..]. intros E. injection E as <-. cbn. exact (IH _ _ Eq).
Qed.
Lemma conn_quiet ce : flat_map handed_ev (map SvConn ce) = [] /\ flat_map taken_ev (map SvConn ce) = [].
Proof. induction ce; auto. Qed.
Lemma close_quiet x i x' evs : rmc_sub_close_connection x i = Ok (x', evs) -> flat_map handed_ev evs = [] /\ flat_map taken_ev evs = [].
Proof.
  unfold rmc_sub_close_connection. destruct (close_conn (t_vec x) i) as [[[cd v] ce]| | |]; cbn [bind]; [|discriminate..]. cbv zeta.
  destruct (get_spub (set_tvec x v) i) as [s| | |]; cbn [bind]; [|discriminate..]. unfold sub_reset. cbv iota beta.
  destruct (free_payloads _ _) as [f| | |] eqn:Ef; cbn [bind]; [|discriminate..]. intros E. injection E as <- <-.
  destruct (conn_quiet ce) as [A B]. destruct (frees_quiet _ _ _ Ef) as [C D]. rewrite !flat_map_app, A, B, C, D. auto.
Qed.
Lemma sclose_quiet n : forall x i x' evs, sclose_loop n x i = Ok (x', evs) -> flat_map handed_ev evs = [] /\ flat_map taken_ev evs = [].
Proof.
  induction n as [|n IH]; intros x i x' evs; cbn [sclose_loop]; [intros E; injection E as _ <-; auto|].
  destruct (find_by_index (t_vec x) i) as [[c|]| | |]; cbn [bind]; [| |discriminate..]; [|apply IH].
  destruct (rmc_sub_close_connection x i) as [[x1 e1]| | |] eqn:E1; cbn [bind fst snd]; [|discriminate..]. destruct (sclose_loop n x1 (i + 1)) as [[x2 e2]| | |] eqn:E2; cbn [bind fst snd]; [|discriminate..].
  intros E. injection E as _ <-. destruct (close_quiet _ _ _ _ E1) as [A B]. destruct (IH _ _ _ _ E2) as [C D]. rewrite !flat_map_app, A, B, C, D. auto.
Qed.
Lemma deact_quiet x code x' evs : NoDup (map sk_addr (t_ready x)) -> rmc_sub_deactivate_context x = Ok (code, x', evs) -> flat_map handed_ev evs = [] /\ flat_map taken_ev evs = [].
Proof.
  intros N. unfold rmc_sub_deactivate_context. destruct (drop_ready x (t_ready x)) as [[x1 e1]| | |] eqn:E1; cbn [bind fst snd]; [|discriminate..]. cbv zeta.
  destruct (sclose_loop _ _ 0) as [[x2 e2]| | |] eqn:E2; cbn [bind fst snd]; [|discriminate..]. intros E. injection E as _ _ <-.
  destruct (drop_quiet _ _ _ _ N E1) as [A B]. destruct (sclose_quiet _ _ _ _ _ E2) as [C D]. rewrite !flat_map_app, A, B. cbn [app flat_map handed_ev taken_ev]. auto.
Qed.

(** ** What holds where *)
Section Run.
Variable map_ : list bool.
Variable x0 : sctx.
Hypothesis F0 : fresh_sub x0.
(** The verdict on what has been taken and the packet after it. *)
Definition decided (s : sprog) (v : verdict) : Prop :=
  exists k rest, handed s = taken s ++ k :: rest /\ receive_loop (expect_init map_) (map snd (taken s ++ [k])) = v /\ exists e, receive_loop (expect_init map_) (map snd (taken s)) = Goes e.
Definition SI (s : sprog) : Prop :=
  match w_loc s with
  | SuStart => s = sprog_init map_ x0
  | SuTop | SuCatch _ _ | SuTake => HK x0 (w_calls s) (w_x s) (w_log s) /\ receive_loop (expect_init map_) (map snd (taken s)) = Goes (w_exp s)
  | SuFlush => HK x0 (w_calls s) (w_x s) (w_log s) /\ decided s Passed
  | SuDone => decided s Passed
  | SuExit c => (handed s = [] /\ taken s = [] /\ c = 255) \/ decided s (Exits c)
  end.
Lemma fresh_ready : t_ready x0 = [].
Proof. destruct F0 as (node & buf & m & -> & _). reflexivity. Qed.
Lemma goto_id s l : handed (sgoto s l) = handed s /\ taken (sgoto s l) = taken s. Proof. auto. Qed.
Lemma HK_nodup ops x log : HK x0 ops x log -> NoDup (map sk_addr (t_ready x)).
Proof.
  intros (H & _). destruct (hist_inv_y _ _ _ _ _ F0 H) as (_ & M & _). pose proof (mi_addr _ _ M) as N. unfold held in N. rewrite map_app in N. exact (nd_app_r _ _ N).
Qed.
(** The packet at the head of the list. *)
Lemma head_facts ops x log p l : HK x0 ops x log -> t_ready x = p :: l ->
  t_mem x (sk_payload p) = Some (cont log (sk_addr p)) /\ ztake (sk_len p) (cont log (sk_addr p)) = cont log (sk_addr p) /\
  flat_map handed_ev log = flat_map taken_ev log ++ (sk_user p, sk_pid p, cont log (sk_addr p)) :: map (view log) l /\
  (exists x' , rmc_sub_packet_dispatched x (sk_addr p) false = Ok (0, x', [SvTake p (cont log (sk_addr p)); SvFree (sk_payload p) (sk_len p)]) /\ t_ready x' = l /\ t_rcb x' = t_rcb x).
Proof.
  intros (H & _ & D) E. destruct (hist_inv_y _ _ _ _ _ F0 H) as (B & M & _). assert (Hp : In p (held x)) by (apply in_held; right; rewrite E; left; reflexivity).
  destruct (mi_held x log M p Hp) as (_ & A & L & _). split; [exact A|]. split; [rewrite L; apply ztake_all; lia|]. split; [unfold RD in D; rewrite E in D; exact D|].
  destruct (c54_dispatched false x log [] p l (ex_intro _ x0 (ex_intro _ ops (conj F0 H))) E) as (x' & bs & C1 & C2 & C3 & _). assert (bs = cont log (sk_addr p)) as -> by congruence.
  exists x'. split; [exact C1|]. split; [exact C3|exact (dispatched_rcb _ _ _ _ _ _ C1)].
Qed.
Lemma HK_same ops x log : HK x0 ops x log -> forall p, In p (t_ready x) -> forall evs, view (log ++ evs) p = view log p.
Proof. intros (H & _) p Hp evs. destruct (hist_inv_y _ _ _ _ _ F0 H) as (_ & M & _). apply (view_app x); [exact M|]. apply in_held. auto. Qed.
Lemma take_HK ops x log p l x' bs : HK x0 ops x log -> t_ready x = p :: l -> rmc_sub_packet_dispatched x (sk_addr p) false = Ok (0, x', [SvTake p bs; SvFree (sk_payload p) (sk_len p)]) ->
  HK x0 (ops ++ [YTake (sk_addr p) false]) x' (log ++ [SvTake p bs; SvFree (sk_payload p) (sk_len p)]) /\ bs = cont log (sk_addr p).
Proof.
  intros K E C. destruct (head_facts _ _ _ _ _ K E) as (_ & _ & D & x2 & C1 & C2 & C3). rewrite C1 in C. assert (x2 = x' /\ bs = cont log (sk_addr p)) as [-> ->] by (split; congruence). split; [|reflexivity].
  pose proof K as (H & R & _). split; [|split].
  - refine (yh_step false x0 ops x log (YTake (sk_addr p) false) _ _ _ H Logic.I _ C1). discriminate.
  - congruence.
  - unfold RD. rewrite !flat_map_app. cbn [flat_map handed_ev taken_ev app]. rewrite D, C2, app_nil_r, <- app_assoc. cbn [app]. f_equal. f_equal. apply map_ext_in. intros q Hq. symmetry. apply (HK_same _ _ _ K). rewrite E. right. exact Hq.
Qed.
Lemma start_HK a c1 x1 e1 : su_ok a -> ystep x0 (YActivate (j_act a)) = Ok (c1, x1, e1) ->
  HK x0 [YActivate (j_act a); YSetCbs true false false] (set_tcbs x1 true false false) e1 /\ flat_map handed_ev e1 = [] /\ flat_map taken_ev e1 = [].
Proof.
  intros (_ & W) E. assert (R : t_ready x1 = [] /\ flat_map handed_ev e1 = [] /\ flat_map taken_ev e1 = []).
  { cbn [ystep] in E. unfold rmc_sub_activate_context in E. pose proof fresh_ready as R. destruct (negb _); [assert (x1 = x0 /\ e1 = []) as [-> ->] by (split; congruence); auto|].
    destruct (j_act a); match type of E with Ok (_, ?y, ?q) = _ => assert (x1 = y /\ e1 = q) as [-> ->] by (split; congruence) end; auto. }
  destruct R as (R1 & R2 & R3). split; [|auto]. split; [|split; [reflexivity|]].
  - change [YActivate (j_act a); YSetCbs true false false] with (([] ++ [YActivate (j_act a)]) ++ [YSetCbs true false false]). rewrite <- (app_nil_r e1). eapply yh_step; [|exact Logic.I|discriminate|reflexivity].
    rewrite <- (app_nil_l e1). eapply yh_step; [apply yh_nil| |discriminate|exact E]. cbn [yok]. exact W.
  - unfold RD. cbn [set_tcbs t_ready]. rewrite R1, R2, R3. reflexivity.
Qed.
Lemma step_SI s n s' : SI s -> su_ok n -> sprog_step s n = Ok s' -> SI s'.
Proof.
  intros I W. unfold SI in I. unfold sprog_step. destruct (w_loc s) as [| |tout cur| | | |c] eqn:Hl.
  - subst s. unfold slib at 1. cbn [sprog_init w_x w_loc w_exp w_calls w_log]. destruct (ystep x0 (YActivate (j_act n))) as [[[c1 x1] e1]| | |] eqn:E1; cbn [bind fst snd]; [|discriminate..].
    destruct (start_HK n c1 x1 e1 W E1) as (K & Q1 & Q2). destruct (c1 =? 0).
    + unfold slib. cbn [w_x w_loc w_exp w_calls w_log ystep bind fst snd app]. intros E. match type of E with Ok ?q = _ => assert (s' = q) as -> by congruence end. unfold SI. cbn [sgoto w_loc w_x w_exp w_calls w_log].
      rewrite app_nil_r. split; [exact K|]. unfold taken. cbn [sgoto w_log]. rewrite Q2. reflexivity.
    + intros E. match type of E with Ok ?q = _ => assert (s' = q) as -> by congruence end. unfold SI. cbn [sgoto w_loc]. left. unfold handed, taken. cbn [sgoto w_log app]. auto.
  - destruct (rmc_sub_timeout_get_next (w_x s)) as [t| | |]; cbn [bind]; [|discriminate..]. intros E. match type of E with Ok ?q = _ => assert (s' = q) as -> by congruence end. exact I.
  - destruct I as [K V]. destruct (negb _ && _).
    + unfold slib. destruct (ystep (w_x s) (YTimeout (j_now n))) as [[[c1 x1] e1]| | |] eqn:E1; cbn [bind fst snd w_x]; [|discriminate..].
      destruct (rmc_sub_timeout_get_next x1) as [t| | |]; cbn [bind]; [|discriminate..]. intros E. match type of E with Ok ?q = _ => assert (s' = q) as -> by congruence end.
      destruct (call_HK x0 F0 _ _ _ (YTimeout (j_now n)) _ _ _ K Logic.I Logic.I E1) as (K1 & T & _). unfold SI. cbn [sgoto w_loc w_x w_exp w_calls w_log]. split; [exact K1|]. unfold taken. cbn [sgoto w_log]. rewrite flat_map_app, T, app_nil_r. exact V.
    + destruct (sserve s (j_ready n)) as [[c1 s1]| | |] eqn:E1; cbn [bind fst snd]; [|discriminate..]. destruct (sserve_HK x0 F0 s _ _ _ K (proj1 W) E1) as (K1 & L & X & _ & _ & evs & G & T & _).
      intros E. match type of E with Ok ?q = _ => assert (s' = q) as -> by congruence end. assert (J : HK x0 (w_calls s1) (w_x s1) (w_log s1) /\ receive_loop (expect_init map_) (map snd (taken s1)) = Goes (w_exp s1)).
      { split; [exact K1|]. unfold taken. rewrite G, flat_map_app, T, app_nil_r, X. exact V. }
      unfold SI. destruct (c1 =? ETIME); exact J.
  - destruct I as [K V]. unfold rmc_sub_get_next_dispatch_ready. destruct (t_ready (w_x s)) as [|p l] eqn:Er.
    + intros E. match type of E with Ok ?q = _ => assert (s' = q) as -> by congruence end. split; [exact K|exact V].
    + destruct (head_facts _ _ _ _ _ K Er) as (M & Z & D & x' & C1 & _). rewrite M, Z. set (bs := cont (w_log s) (sk_addr p)) in *.
      assert (G : forall v, process_incoming_packet (w_exp s) bs = v -> match v with Goes _ => True | _ => decided s v end).
      { intros v Ev. assert (B : v = match v with Goes _ => v | _ => receive_loop (expect_init map_) (map snd (taken s ++ [(sk_user p, sk_pid p, bs)])) end).
        { rewrite map_app, receive_loop_app, V. cbn [map snd receive_loop]. rewrite Ev. destruct v; reflexivity. }
        destruct v; auto; (exists (sk_user p, sk_pid p, bs), (map (view (w_log s)) l); split; [exact D|split; [symmetry; exact B|eauto]]). }
      destruct (process_incoming_packet (w_exp s) bs) as [e| |c|] eqn:Ep; [| | |discriminate].
      * unfold slib. cbn [sexpect w_x w_loc w_exp w_calls w_log ystep]. rewrite C1. cbn [bind fst snd]. intros E. match type of E with Ok ?q = _ => assert (s' = q) as -> by congruence end.
        destruct (take_HK _ _ _ _ _ _ _ K Er C1) as [K' _]. unfold SI. cbn [sgoto w_loc w_x w_exp w_calls w_log]. rewrite Hl. split; [exact K'|].
        unfold taken. cbn [w_log]. rewrite flat_map_app, map_app, receive_loop_app. unfold taken in V. rewrite V. cbn [flat_map taken_ev app map snd receive_loop]. rewrite Ep. reflexivity.
      * intros E. match type of E with Ok ?q = _ => assert (s' = q) as -> by congruence end. split; [exact K|exact (G _ eq_refl)].
      * intros E. match type of E with Ok ?q = _ => assert (s' = q) as -> by congruence end. right. exact (G _ eq_refl).
  - destruct I as [K (k & rest & D & V)]. destruct (sserve s (j_ready n)) as [[c1 s1]| | |] eqn:E1; cbn [bind fst snd]; [|discriminate..]. destruct (sserve_HK x0 F0 s _ _ _ K (proj1 W) E1) as (K1 & L & X & _ & _ & evs & G & T & _).
    assert (Tk : taken s1 = taken s) by (unfold taken; rewrite G, flat_map_app, T, app_nil_r; reflexivity).
    assert (J : decided s1 Passed).
    { unfold decided. rewrite Tk. exists k, (rest ++ flat_map handed_ev evs). split; [|exact V]. unfold handed. rewrite G, flat_map_app. unfold handed in D. rewrite D, <- app_assoc. reflexivity. }
    destruct (c1 =? ETIME).
    + unfold slib. destruct (ystep (w_x s1) YDeactivate) as [[[c2 x2] e2]| | |] eqn:E2; cbn [bind fst snd]; [|discriminate..]. intros E. match type of E with Ok ?q = _ => assert (s' = q) as -> by congruence end.
      destruct (deact_quiet _ _ _ _ (HK_nodup _ _ _ K1) E2) as [Q1 Q2]. unfold SI. cbn [sgoto w_loc]. unfold decided, handed, taken in *. cbn [sgoto w_log]. rewrite !flat_map_app, Q1, Q2, !app_nil_r. exact J.
    + intros E. assert (s' = s1) as -> by congruence. unfold SI. rewrite L, Hl. split; [exact K1|exact J].
  - intros E. assert (s' = s) as -> by congruence. unfold SI. rewrite Hl. exact I.
  - intros E. assert (s' = s) as -> by congruence. unfold SI. rewrite Hl. exact I.
Qed.
Lemma runs_SI s : sruns map_ x0 s -> SI s.
Proof. intros H. induction H as [|s n s' H IH W E]; [reflexivity|]. exact (step_SI s n s' IH W E). Qed.
End Run.

(** ** No packet becomes ready in rmc_sub_timeout_process *)
Lemma wack_put x i iv cd x' evs : rmc_sub_packet_interval_acknowledged x i iv = Ok (cd, x', evs) -> flat_map handed_ev evs = [] /\ t_ready x' = t_ready x.
Proof.
  unfold rmc_sub_packet_interval_acknowledged, write_interval_ack. destruct (slot (t_vec x) i) as [c| | |]; cbn [bind]; [|discriminate..].
  destruct (negb _); [intros E; injection E as _ <- <-; split; auto|]. destruct (write_ack _ _ _) as [[w1 w2]| | |]; cbn [bind fst snd]; [|discriminate..].
  destruct (negb (w1 =? 0)); intros E; injection E as _ <- <-; split; auto.
Qed.
Lemma ack_put l : forall x i s cd x' evs, ack_loop x i s l = Ok (cd, x', evs) -> flat_map handed_ev evs = [] /\ t_ready x' = t_ready x.
Proof.
  induction l as [|iv l IH]; intros x i s cd x' evs; cbn [ack_loop]; [intros E; injection E as _ <- <-; auto|]. cbv zeta.
  set (s1 := mkSP (s_ready s) (s_maxrecv s) (s_recv s) l).
  destruct (rmc_sub_packet_interval_acknowledged (put_spub x i s1) i iv) as [[[c1 x1] e1]| | |] eqn:E1; cbn [bind]; [|discriminate..].
  destruct (wack_put _ _ _ _ _ _ E1) as [A B]. change (t_ready (put_spub x i s1)) with (t_ready x) in B. destruct (negb (c1 =? 0)).
  - intros E. injection E as _ <- <-. rewrite flat_map_app, A. auto.
  - destruct (ack_loop x1 i s1 l) as [[[c2 x2] e2]| | |] eqn:E2; cbn [bind]; [|discriminate..]. intros E. injection E as _ <- <-. destruct (IH _ _ _ _ _ _ E2) as [C D]. rewrite flat_map_app, A, C. split; [reflexivity|congruence].
Qed.
Lemma timeout_put l : forall x now cd x' evs, timeout_loop x now l = Ok (cd, x', evs) -> flat_map handed_ev evs = [] /\ t_ready x' = t_ready x.
Proof.
  induction l as [|i l IH]; intros x now cd x' evs; cbn [timeout_loop]; [intros E; injection E as _ <- <-; auto|].
  destruct (get_spub x i) as [s| | |] eqn:Es; cbn [bind]; [|discriminate..]. destruct (_ <? _); [intros E; injection E as _ <- <-; auto|].
  destruct (ack_loop x i s (s_intv s)) as [[[c1 x1] e1]| | |] eqn:E1; cbn [bind]; [|discriminate..]. destruct (ack_put _ _ _ _ _ _ _ E1) as [A B].
  destruct (negb (c1 =? 0)); [intros E; injection E as _ <- <-; auto|].
  destruct (timeout_loop (set_tack x1 l) now l) as [[[c2 x2] e2]| | |] eqn:E2; cbn [bind]; [|discriminate..]. intros E. injection E as _ <- <-. destruct (IH _ _ _ _ _ E2) as [C D]. cbn [set_tack t_ready] in D.
  rewrite flat_map_app, A, C. split; [reflexivity|congruence].
Qed.

(** ** The theorems *)
(** The program goes through the packets in the order in which they became ready, skipping none and
    none twice; and it never waits with a ready packet it has not been through. *)
Theorem c97_checked : forall map_ x0 s, fresh_sub x0 -> sruns map_ x0 s ->
  (exists rest, handed s = taken s ++ rest) /\
  (match w_loc s with SuStart | SuTop | SuCatch _ _ => True | _ => False end -> handed s = taken s).
Proof.
  intros map_ x0 s F R. split.
  - pose proof (runs_SI map_ x0 F s R) as I. unfold SI in I. destruct (w_loc s).
    + subst s. exists []. reflexivity.
    + destruct I as [(_ & _ & D) _]. unfold RD in D. eauto.
    + destruct I as [(_ & _ & D) _]. unfold RD in D. eauto.
    + destruct I as [(_ & _ & D) _]. unfold RD in D. eauto.
    + destruct I as [_ (k & r & D & _)]. eauto.
    + destruct I as (k & r & D & _). eauto.
    + destruct I as [(A & B & _)|(k & r & D & _)]; [exists []; rewrite A, B; reflexivity|eauto].
  - assert (G : match w_loc s with SuStart | SuTop | SuCatch _ _ => t_ready (w_x s) = [] | _ => True end).
    { induction R as [|s n s' R IH W E]; [exact (fresh_ready x0 F)|]. pose proof (runs_SI map_ x0 F s R) as I. unfold SI in I. unfold sprog_step in E. destruct (w_loc s) as [| |tout cur| | | |c] eqn:Hl.
      - subst s. revert E. unfold slib at 1. cbn [sprog_init w_x w_loc w_exp w_calls w_log]. destruct (ystep x0 (YActivate (j_act n))) as [[[c1 x1] e1]| | |] eqn:E1; cbn [bind fst snd]; [|discriminate..].
        destruct (c1 =? 0); [|intros E; match type of E with Ok ?q = _ => assert (s' = q) as -> by congruence end; exact Logic.I].
        unfold slib. cbn [w_x w_loc w_exp w_calls w_log ystep bind fst snd app]. intros E. match type of E with Ok ?q = _ => assert (s' = q) as -> by congruence end. cbn [sgoto w_loc w_x set_tcbs t_ready].
        cbn [ystep] in E1. unfold rmc_sub_activate_context in E1. pose proof (fresh_ready x0 F) as Q. destruct (negb _); [congruence|].
        destruct (j_act n); match type of E1 with Ok (_, ?y, _) = _ => assert (x1 = y) as -> by congruence end; exact Q.
      - destruct (rmc_sub_timeout_get_next (w_x s)) as [t| | |]; cbn [bind] in E; [|discriminate E..]. match type of E with Ok ?q = _ => assert (s' = q) as -> by congruence end. exact IH.
      - destruct (negb _ && _).
        + revert E. unfold slib. destruct (ystep (w_x s) (YTimeout (j_now n))) as [[[c1 x1] e1]| | |] eqn:E1; cbn [bind fst snd w_x]; [|discriminate..].
          destruct (rmc_sub_timeout_get_next x1) as [t| | |]; cbn [bind]; [|discriminate..]. intros E. match type of E with Ok ?q = _ => assert (s' = q) as -> by congruence end. cbn [sgoto w_loc w_x].
          destruct (timeout_put _ _ _ _ _ _ E1) as [_ B]. congruence.
        + destruct (sserve s (j_ready n)) as [[c1 s1]| | |] eqn:E1; cbn [bind fst snd] in E; [|discriminate E..]. match type of E with Ok ?q = _ => assert (s' = q) as -> by congruence end.
          destruct (sserve_HK x0 F s _ _ _ (proj1 I) (proj1 W) E1) as (_ & _ & _ & C & N & _). cbn [sgoto w_loc w_x]. destruct (Z.eqb_spec c1 ETIME) as [Ec|]; [|exact Logic.I].
          rewrite (N (proj1 C Ec)). exact IH.
      - revert E. unfold rmc_sub_get_next_dispatch_ready. destruct (t_ready (w_x s)) as [|p l] eqn:Er.
        + intros E. match type of E with Ok ?q = _ => assert (s' = q) as -> by congruence end. exact Er.
        + destruct (t_mem _ _) as [bs|]; [|discriminate]. destruct (process_incoming_packet _ _); [| | |discriminate].
          * unfold slib. cbn [sexpect w_x w_loc w_exp w_calls w_log]. destruct (ystep _ _) as [[[c1 x1] e1]| | |]; cbn [bind fst snd]; [|discriminate..]. intros E. match type of E with Ok ?q = _ => assert (s' = q) as -> by congruence end.
            cbn [w_loc]. rewrite Hl. exact Logic.I.
          * intros E. match type of E with Ok ?q = _ => assert (s' = q) as -> by congruence end. exact Logic.I.
          * intros E. match type of E with Ok ?q = _ => assert (s' = q) as -> by congruence end. exact Logic.I.
      - destruct (sserve s (j_ready n)) as [[c1 s1]| | |] eqn:E1; cbn [bind fst snd] in E; [|discriminate E..]. destruct (sserve_HK x0 F s _ _ _ (proj1 I) (proj1 W) E1) as (_ & L & _). destruct (c1 =? ETIME).
        + revert E. unfold slib. destruct (ystep (w_x s1) YDeactivate) as [[[c2 x2] e2]| | |]; cbn [bind fst snd]; [|discriminate..]. intros E. match type of E with Ok ?q = _ => assert (s' = q) as -> by congruence end. exact Logic.I.
        + assert (s' = s1) as -> by congruence. rewrite L, Hl. exact Logic.I.
      - assert (s' = s) as -> by congruence. rewrite Hl. exact Logic.I.
      - assert (s' = s) as -> by congruence. rewrite Hl. exact Logic.I. }
    pose proof (runs_SI map_ x0 F s R) as I. unfold SI in I. destruct (w_loc s); try contradiction; intros _.
    + subst s. reflexivity.
    + destruct I as [(_ & _ & D) _]. unfold RD in D. rewrite G in D. cbn [map] in D. rewrite app_nil_r in D. exact D.
    + destruct I as [(_ & _ & D) _]. unfold RD in D. rewrite G in D. cbn [map] in D. rewrite app_nil_r in D. exact D.
Qed.

(** The payloads of these packets are made up of these signals. *)
Definition made_of (l : list (Z * Z * list Z)) (packets : list (list signal)) : Prop := map snd l = map payload_of packets /\ Forall (Forall sig_ok) packets.
Lemma verdict_kinds map_ packets : (exists n, expected map_ n) -> Forall (Forall sig_ok) packets ->
  (exists e, receive_loop (expect_init map_) (map payload_of packets) = Goes e) \/ receive_loop (expect_init map_) (map payload_of packets) = Passed \/ receive_loop (expect_init map_) (map payload_of packets) = Exits 255.
Proof.
  intros (n0 & N0) F. assert (N : ~ everything map_ []).
  { intros H. destruct (H n0 N0) as (m & Hm & E). destruct (Z.to_nat m) eqn:Em; [lia|]. rewrite numbered_snoc in E. destruct (numbered n0 m n); discriminate. }
  rewrite receive_check by (eapply Forall_impl; [|exact F]; intros p Hp; eapply Forall_impl; [|exact Hp]; exact sig_ok_u32).
  pose proof (check_verdict map_ (concat packets) (expect_init map_) [] (INV_init map_) N (proj2 (Forall_concat sig_ok packets) F)) as V. cbn [app] in V.
  destruct (check _ _); cbn [good_result] in V; [eauto|auto|destruct V as [-> _]; auto|contradiction].
Qed.
(** It runs as long as the test is undecided by what it has been through; it goes to its end after the
    packet with which the test passes, and to exit(255) after the packet with which it fails. *)
Theorem c97_state : forall map_ x0 s, fresh_sub x0 -> (exists n, expected map_ n) -> sruns map_ x0 s ->
  match w_loc s with
  | SuStart | SuTop | SuCatch _ _ | SuTake => forall packets, made_of (taken s) packets -> undecided map_ (concat packets)
  | SuFlush | SuDone => exists k rest, handed s = taken s ++ k :: rest /\
      forall packets last, made_of (taken s ++ [k]) (packets ++ [last]) -> undecided map_ (concat packets) /\ passes map_ (concat packets ++ last)
  | SuExit c => (handed s = [] /\ c = 255) \/ exists k rest, handed s = taken s ++ k :: rest /\
      forall packets last, made_of (taken s ++ [k]) (packets ++ [last]) -> c = 255 /\ undecided map_ (concat packets) /\ fails map_ (concat packets ++ last)
  end.
Proof.
  intros map_ x0 s F N R. pose proof (runs_SI map_ x0 F s R) as I. unfold SI in I.
  assert (U : forall e packets l, receive_loop (expect_init map_) (map snd l) = Goes e -> made_of l packets -> undecided map_ (concat packets)).
  { intros e packets l V [M O]. destruct (c89_verdict_partial map_ packets N O) as (_ & _ & V3 & _). rewrite <- M in V3. apply V3. eauto. }
  assert (De : forall l k packets last, made_of (l ++ [k]) (packets ++ [last]) -> made_of l packets /\ concat packets ++ last = concat (packets ++ [last])).
  { intros l k packets last [M O]. rewrite !map_app in M. apply app_inj_tail in M. destruct M as [M _]. apply Forall_app in O. split; [split; [exact M|exact (proj1 O)]|]. rewrite concat_app. cbn [concat]. rewrite app_nil_r. reflexivity. }
  destruct (w_loc s) as [| | | | | |c].
  - subst s. intros packets. apply (U (expect_init map_)). reflexivity.
  - intros packets. exact (U _ _ _ (proj2 I)).
  - intros packets. exact (U _ _ _ (proj2 I)).
  - intros packets. exact (U _ _ _ (proj2 I)).
  - destruct I as [_ (k & rest & D & V & e & G)]. exists k, rest. split; [exact D|]. intros packets last M. destruct (De _ _ _ _ M) as [M1 ->]. split; [exact (U _ _ _ G M1)|].
    destruct M as [M O]. destruct (c89_verdict_partial map_ _ N O) as (V1 & _). rewrite <- M in V1. apply V1. exact V.
  - destruct I as (k & rest & D & V & e & G). exists k, rest. split; [exact D|]. intros packets last M. destruct (De _ _ _ _ M) as [M1 ->]. split; [exact (U _ _ _ G M1)|].
    destruct M as [M O]. destruct (c89_verdict_partial map_ _ N O) as (V1 & _). rewrite <- M in V1. apply V1. exact V.
  - destruct I as [(A & _ & B)|(k & rest & D & V & e & G)]; [left; auto|right]. exists k, rest. split; [exact D|]. intros packets last M. destruct (De _ _ _ _ M) as [M1 ->].
    destruct M as [M O]. pose proof (c89_verdict_partial map_ _ N O) as (V1 & V2 & V3 & V4). rewrite <- M in V1, V2, V3, V4. pose proof (U _ _ _ G M1) as Un.
    assert (c = 255) as -> ; [|split; [reflexivity|]; split; [exact Un|]; apply V2; exact V].
    destruct (verdict_kinds map_ _ N O) as [(e' & T)|[T|T]]; rewrite <- M in T; congruence.
Qed.
(** The decision over the packet at the head of the list, at the top of the loop over the ready packets. *)
Theorem c97_decides : forall map_ x0 s n, fresh_sub x0 -> (exists n, expected map_ n) -> sruns map_ x0 s -> w_loc s = SuTake -> su_ok n ->
  (handed s = taken s -> exists s', sprog_step s n = Ok s' /\ w_loc s' = SuTop /\ w_log s' = w_log s) /\
  (forall k rest packets, handed s = taken s ++ k :: rest -> made_of (taken s ++ [k]) packets ->
     exists s', sprog_step s n = Ok s' /\ handed s' = handed s /\
       (undecided map_ (concat packets) -> w_loc s' = SuTake /\ taken s' = taken s ++ [k]) /\
       (passes map_ (concat packets) -> w_loc s' = SuFlush /\ taken s' = taken s) /\
       (fails map_ (concat packets) -> w_loc s' = SuExit 255 /\ taken s' = taken s)).
Proof.
  intros map_ x0 s n F N R Hl W. pose proof (runs_SI map_ x0 F s R) as I. unfold SI in I. rewrite Hl in I. destruct I as [K V]. unfold sprog_step. rewrite Hl. unfold rmc_sub_get_next_dispatch_ready.
  pose proof K as (_ & _ & D0). unfold RD in D0. destruct (t_ready (w_x s)) as [|p l] eqn:Er.
  - cbn [map] in D0. rewrite app_nil_r in D0. split; [intros _; eexists; split; [reflexivity|split; reflexivity]|]. intros k rest packets D. unfold handed, taken in D. rewrite D0 in D. apply (f_equal (@length _)) in D. rewrite app_length in D. cbn [length] in D. lia.
  - split. { intros D. unfold handed, taken in D. rewrite D0 in D. apply (f_equal (@length _)) in D. rewrite app_length in D. cbn [map length] in D. lia. }
    intros k rest packets D [M O]. destruct (head_facts x0 F _ _ _ _ _ K Er) as (Mm & Z & D1 & x' & C1 & _). rewrite Mm, Z. set (bs := cont (w_log s) (sk_addr p)) in *.
    assert (Ek : k = (sk_user p, sk_pid p, bs)).
    { unfold handed, taken in D. rewrite D1 in D. apply app_inv_head in D. congruence. }
    subst k. pose proof (c89_verdict_partial map_ packets N O) as (V1 & V2 & V3 & _). rewrite <- M in V1, V2, V3.
    assert (Rl : receive_loop (expect_init map_) (map snd (taken s ++ [(sk_user p, sk_pid p, bs)])) = process_incoming_packet (w_exp s) bs).
    { rewrite map_app, receive_loop_app, V. cbn [map snd receive_loop]. destruct (process_incoming_packet (w_exp s) bs); reflexivity. }
    rewrite Rl in V1, V2, V3. destruct (verdict_kinds map_ packets N O) as [(e & T)|[T|T]]; rewrite <- M, Rl in T; rewrite T in *.
    + unfold slib. cbn [sexpect w_x w_loc w_exp w_calls w_log ystep]. rewrite C1. cbn [bind fst snd]. eexists. split; [reflexivity|]. unfold handed, taken. cbn [w_log w_loc]. rewrite !flat_map_app. cbn [flat_map handed_ev taken_ev app].
      rewrite app_nil_r. split; [reflexivity|]. split; [auto|]. split; [intros P; apply V1 in P; discriminate P|intros P; apply V2 in P; discriminate P].
    + eexists. split; [reflexivity|]. split; [reflexivity|]. split; [intros P; apply V3 in P; destruct P as (e & P); discriminate P|]. split; [auto|intros P; apply V2 in P; discriminate P].
    + eexists. split; [reflexivity|]. split; [reflexivity|]. split; [intros P; apply V3 in P; destruct P as (e & P); discriminate P|]. split; [intros P; apply V1 in P; discriminate P|auto].
Qed.
(** The end: once the test has passed it goes on handling what arrives until nothing does, then shuts
    down and exits with 0; it takes no other way out. *)
Theorem c97_end : forall map_ x0 s n s', fresh_sub x0 -> sruns map_ x0 s -> su_ok n -> sprog_step s n = Ok s' ->
  (w_loc s = SuFlush -> w_loc s' = if match j_ready n with [] => true | _ => false end then SuDone else SuFlush) /\
  (w_loc s' = SuDone -> w_loc s = SuFlush \/ w_loc s = SuDone) /\ (w_loc s' = SuFlush -> w_loc s = SuTake \/ w_loc s = SuFlush).
Proof.
  intros map_ x0 s n s' F R W E. pose proof (runs_SI map_ x0 F s R) as I. unfold SI in I. unfold sprog_step in E. destruct (w_loc s) as [| |tout cur| | | |c] eqn:Hl; (split; [try discriminate|]).
  - revert E. unfold slib at 1. destruct (ystep _ (YActivate _)) as [[[c1 x1] e1]| | |]; cbn [bind fst snd]; [|discriminate..]. destruct (c1 =? 0).
    + unfold slib. cbn [ystep bind fst snd]. intros E. match type of E with Ok ?q = _ => assert (s' = q) as -> by congruence end. split; discriminate.
    + intros E. match type of E with Ok ?q = _ => assert (s' = q) as -> by congruence end. split; discriminate.
  - destruct (rmc_sub_timeout_get_next (w_x s)) as [t| | |]; cbn [bind] in E; [|discriminate E..]. match type of E with Ok ?q = _ => assert (s' = q) as -> by congruence end. split; discriminate.
  - destruct (negb _ && _).
    + revert E. unfold slib. destruct (ystep (w_x s) (YTimeout (j_now n))) as [[[c1 x1] e1]| | |]; cbn [bind fst snd w_x]; [|discriminate..].
      destruct (rmc_sub_timeout_get_next x1) as [t| | |]; cbn [bind]; [|discriminate..]. intros E. match type of E with Ok ?q = _ => assert (s' = q) as -> by congruence end. split; discriminate.
    + destruct (sserve s (j_ready n)) as [[c1 s1]| | |]; cbn [bind fst snd] in E; [|discriminate E..]. match type of E with Ok ?q = _ => assert (s' = q) as -> by congruence end. cbn [sgoto w_loc]. destruct (c1 =? ETIME); split; discriminate.
  - split; [|auto]. destruct (rmc_sub_get_next_dispatch_ready (w_x s)) as [p|]; [|match type of E with Ok ?q = _ => assert (s' = q) as -> by congruence end; discriminate].
    destruct (t_mem _ _) as [bs|]; [|discriminate E]. destruct (process_incoming_packet _ _) as [e| |c|]; [| | |discriminate E].
    + revert E. unfold slib. cbn [sexpect w_loc]. destruct (ystep _ _) as [[[c1 x1] e1]| | |]; cbn [bind fst snd]; [|discriminate..]. intros E. match type of E with Ok ?q = _ => assert (s' = q) as -> by congruence end. cbn [w_loc]. rewrite Hl. discriminate.
    + match type of E with Ok ?q = _ => assert (s' = q) as -> by congruence end. discriminate.
    + match type of E with Ok ?q = _ => assert (s' = q) as -> by congruence end. discriminate.
  - intros _. destruct (sserve s (j_ready n)) as [[c1 s1]| | |] eqn:E1; cbn [bind fst snd] in E; [|discriminate E..]. destruct (sserve_HK x0 F s _ _ _ (proj1 I) (proj1 W) E1) as (_ & L & _ & C & _). destruct (Z.eqb_spec c1 ETIME) as [Ec|Ec].
    + rewrite (proj1 C Ec). revert E. unfold slib. destruct (ystep (w_x s1) YDeactivate) as [[[c2 x2] e2]| | |]; cbn [bind fst snd]; [|discriminate..]. intros E. match type of E with Ok ?q = _ => assert (s' = q) as -> by congruence end. reflexivity.
    + assert (s' = s1) as -> by congruence. rewrite L, Hl. destruct (j_ready n); [destruct Ec; apply C; reflexivity|reflexivity].
  - split; auto.
  - assert (s' = s) as -> by congruence. rewrite Hl. split; [auto|discriminate].
  - assert (s' = s) as -> by congruence. rewrite Hl. split; discriminate.
Qed.
(** While the test goes on, acknowledgements that were due when the round began are sent before the program
    waits; and only when it has waited in vain does it look at the clock again without looking for packets. *)
Theorem c97_acks_due : forall map_ x0 s n s' t cur, fresh_sub x0 -> sruns map_ x0 s -> w_loc s = SuCatch t cur -> su_ok n -> sprog_step s n = Ok s' ->
  rmc_sub_timeout_get_next (w_x s) = Ok t /\
  (t <> -1 /\ t < cur -> w_calls s' = w_calls s ++ [YTimeout (j_now n)] /\ exists t', w_loc s' = SuCatch t' cur) /\
  (t = -1 \/ cur <= t -> w_loc s' = match j_ready n with [] => SuTop | _ => SuTake end).
Proof.
  intros map_ x0 s n s' t cur F R Hl W E. split.
  - clear E W n s'. inversion R as [Q|s1 n s2 R1 W E Q]; subst; [discriminate Hl|]. unfold sprog_step in E. destruct (w_loc s1) as [| |tout c1| | | |c] eqn:Hl1.
    + revert E. unfold slib at 1. destruct (ystep _ (YActivate _)) as [[[c1 x1] e1]| | |]; cbn [bind fst snd]; [|discriminate..]. destruct (c1 =? 0).
      * unfold slib. cbn [ystep bind fst snd]. intros E. match type of E with Ok ?q = _ => assert (s = q) as -> by congruence end. discriminate Hl.
      * intros E. match type of E with Ok ?q = _ => assert (s = q) as -> by congruence end. discriminate Hl.
    + destruct (rmc_sub_timeout_get_next (w_x s1)) as [t1| | |] eqn:Et; cbn [bind] in E; [|discriminate E..]. match type of E with Ok ?q = _ => assert (s = q) as -> by congruence end. cbn [sgoto w_loc w_x] in *. congruence.
    + destruct (negb _ && _).
      * revert E. unfold slib. destruct (ystep (w_x s1) (YTimeout (j_now n))) as [[[c2 x1] e1]| | |]; cbn [bind fst snd w_x]; [|discriminate..].
        destruct (rmc_sub_timeout_get_next x1) as [t1| | |] eqn:Et; cbn [bind]; [|discriminate..]. intros E. match type of E with Ok ?q = _ => assert (s = q) as -> by congruence end. cbn [sgoto w_loc w_x] in *. congruence.
      * destruct (sserve s1 (j_ready n)) as [[c2 s3]| | |]; cbn [bind fst snd] in E; [|discriminate E..]. match type of E with Ok ?q = _ => assert (s = q) as -> by congruence end. cbn [sgoto w_loc] in Hl. destruct (c2 =? ETIME); discriminate Hl.
    + destruct (rmc_sub_get_next_dispatch_ready (w_x s1)) as [p|]; [|match type of E with Ok ?q = _ => assert (s = q) as -> by congruence end; discriminate Hl].
      destruct (t_mem _ _) as [bs|]; [|discriminate E]. destruct (process_incoming_packet _ _) as [e| |c|]; [| | |discriminate E].
      * revert E. unfold slib. cbn [sexpect w_loc]. destruct (ystep _ _) as [[[c1 x1] e1]| | |]; cbn [bind fst snd]; [|discriminate..]. intros E. match type of E with Ok ?q = _ => assert (s = q) as -> by congruence end. cbn [w_loc] in Hl. congruence.
      * match type of E with Ok ?q = _ => assert (s = q) as -> by congruence end. discriminate Hl.
      * match type of E with Ok ?q = _ => assert (s = q) as -> by congruence end. discriminate Hl.
    + pose proof (proj1 (c97_end map_ x0 s1 n s F R1 W ltac:(unfold sprog_step; rewrite Hl1; exact E)) Hl1) as Q. rewrite Hl in Q. destruct (j_ready n); discriminate Q.
    + assert (s = s1) as -> by congruence. congruence.
    + assert (s = s1) as -> by congruence. congruence.
  - pose proof (runs_SI map_ x0 F s R) as I. unfold SI in I. rewrite Hl in I. unfold sprog_step in E. rewrite Hl in E. split; intros H.
    + replace (negb (t =? -1) && (t <? cur)) with true in E by (destruct H; symmetry; apply andb_true_intro; split; [apply negb_true_iff; lia|lia]).
      revert E. unfold slib. destruct (ystep (w_x s) (YTimeout (j_now n))) as [[[c2 x1] e1]| | |]; cbn [bind fst snd w_x]; [|discriminate..].
      destruct (rmc_sub_timeout_get_next x1) as [t1| | |]; cbn [bind]; [|discriminate..]. intros E. match type of E with Ok ?q = _ => assert (s' = q) as -> by congruence end. split; [reflexivity|]. exists t1. reflexivity.
    + replace (negb (t =? -1) && (t <? cur)) with false in E by (symmetry; apply andb_false_iff; destruct H; [left; apply negb_false_iff; lia|right; lia]).
      destruct (sserve s (j_ready n)) as [[c1 s1]| | |] eqn:E1; cbn [bind fst snd] in E; [|discriminate E..]. match type of E with Ok ?q = _ => assert (s' = q) as -> by congruence end.
      destruct (sserve_HK x0 F s _ _ _ (proj1 I) (proj1 W) E1) as (_ & _ & _ & C & _). cbn [sgoto w_loc]. destruct (Z.eqb_spec c1 ETIME) as [Ec|Ec]; [rewrite (proj1 C Ec); reflexivity|]. destruct (j_ready n); [destruct Ec; apply C; reflexivity|reflexivity].
Qed.
(** What happens after the test has passed. *)
Inductive on_to : sprog -> sprog -> Prop :=
| on_refl s : on_to s s
| on_step s s1 n s2 : on_to s s1 -> su_ok n -> sprog_step s1 n = Ok s2 -> on_to s s2.
Lemma on_runs map_ x0 s s' : sruns map_ x0 s -> on_to s s' -> sruns map_ x0 s'.
Proof. intros R H. induction H as [|s s1 n s2 H IH W E]; [exact R|]. exact (sr_step _ _ _ _ _ (IH R) W E). Qed.
(** Whatever arrives after that, no packet is acknowledged any more and none given back: not even the
    packet with which the test passed. *)
Theorem c97_flush_refuted : forall map_ x0 s s', fresh_sub x0 -> sruns map_ x0 s -> w_loc s = SuFlush -> on_to s s' ->
  (w_loc s' = SuFlush \/ w_loc s' = SuDone) /\ taken s' = taken s /\ exists evs, w_log s' = w_log s ++ evs /\ forall i, sent_acks i evs = [].
Proof.
  intros map_ x0 s s' F R Hl H. induction H as [s|s s1 n s2 H IH W E]; [split; [auto|]; split; [reflexivity|]; exists []; rewrite app_nil_r; auto|].
  destruct (IH R Hl) as (L & T & evs & G & A). pose proof (on_runs _ _ _ _ R H) as R1. pose proof (runs_SI map_ x0 F s1 R1) as I. unfold SI in I. unfold sprog_step in E. destruct L as [L|L]; rewrite L in I, E.
  - destruct I as [K _]. destruct (sserve s1 (j_ready n)) as [[c1 s3]| | |] eqn:E1; cbn [bind fst snd] in E; [|discriminate E..]. destruct (sserve_HK x0 F s1 _ _ _ K (proj1 W) E1) as (K1 & L1 & _ & _ & _ & e1 & G1 & T1 & A1).
    assert (T3 : taken s3 = taken s) by (rewrite <- T; unfold taken; rewrite G1, flat_map_app, T1, app_nil_r; reflexivity).
    destruct (c1 =? ETIME).
    + revert E. unfold slib. destruct (ystep (w_x s3) YDeactivate) as [[[c2 x2] e2]| | |] eqn:E2; cbn [bind fst snd]; [|discriminate..]. intros E. match type of E with Ok ?q = _ => assert (s2 = q) as -> by congruence end.
      split; [right; reflexivity|]. destruct (deact_quiet _ _ _ _ (HK_nodup x0 F _ _ _ K1) E2) as [_ Q2]. split; [rewrite <- T3; unfold taken; cbn [sgoto w_log]; rewrite flat_map_app, Q2, app_nil_r; reflexivity|].
      exists ((evs ++ e1) ++ e2). cbn [sgoto w_log]. rewrite G1, G, !app_assoc. split; [reflexivity|]. intros i. rewrite !sent_app, (A i), (A1 i). cbn [app].
      exact (proj1 (c49_acks_only_in_timeout false (w_x s3) (w_log s3) YDeactivate c2 x2 e2 i (ex_intro _ x0 (ex_intro _ _ (conj F (proj1 K1)))) Logic.I E2 ltac:(discriminate))).
    + assert (s2 = s3) as -> by congruence. split; [left; congruence|]. split; [exact T3|]. exists (evs ++ e1). rewrite G1, G, app_assoc. split; [reflexivity|]. intros i. rewrite sent_app, (A i), (A1 i). reflexivity.
  - assert (s2 = s1) as -> by congruence. split; [auto|]. split; [exact T|]. exists evs. auto.
Qed.

(** The program agrees to every announcement. *)
Definition says_yes (o : yop) : Prop := match o with YRead _ (SrMcast ins) => Forall (fun m => match m with McData _ _ o => mi_answer o = true | _ => True end) ins | _ => True end.
Lemma event_yes x e x' l : sub_event x (agreed e) = Ok (x', l) -> Forall says_yes (map k_op l).
Proof.
  unfold sub_event. cbv zeta. set (i := u16 _). intros E.
  assert (Y : says_yes (YRead i (sub_rd i (snd (agreed e))))).
  { unfold sub_rd. destruct (i =? RMC_MULTICAST_INDEX); [|exact Logic.I]. cbn [says_yes agreed snd m_from]. apply Forall_map. apply Forall_forall. intros m _. destruct m; cbn; auto. }
  match type of E with bind ?h _ = _ => assert (A : forall a, h = Ok a -> Forall says_yes (map k_op (snd a))) end.
  { intros a. destruct (_ =? 0); [intros Q; injection Q as <-; constructor|]. destruct (rmc_sub_read _ _ _) as [[[[cd op] x1] e1]| | |]; cbn [bind]; [|discriminate..]. intros Q. injection Q as <-. cbn [snd map k_op]. constructor; [exact Y|constructor]. }
  match type of E with bind ?h _ = _ => revert A; destruct h as [a| | |]; intros A end; cbn [bind] in E; [|discriminate E..]. specialize (A a eq_refl).
  destruct (_ =? 0); [injection E as ->; exact A|]. destruct (rmc_sub_write _ _ _) as [[[[cd op] x2] e2]| | |]; cbn [bind] in E; [|discriminate E..].
  assert (B : Forall says_yes (map k_op (snd a) ++ [YWrite i (m_wr (snd (agreed e)))])) by (apply Forall_app; split; [exact A|repeat constructor]).
  destruct (cd =? 0); [injection E as _ <-; rewrite map_app; exact B|]. destruct (rmc_sub_close_connection _ _) as [[x3 e3]| | |]; cbn [bind fst snd] in E; [|discriminate E..]. injection E as _ <-.
  rewrite !map_app. apply Forall_app. split; [exact B|repeat constructor].
Qed.
Lemma events_yes : forall b x x' l, sub_events x (map agreed b) = Ok (x', l) -> Forall says_yes (map k_op l).
Proof.
  induction b as [|e b IH]; intros x x' l; cbn [map sub_events]; [intros E; injection E as _ <-; constructor|]. destruct (sub_event x (agreed e)) as [[x1 l1]| | |] eqn:E1; cbn [bind fst snd]; [|discriminate..].
  destruct (sub_events x1 (map agreed b)) as [[x2 l2]| | |] eqn:E2; cbn [bind fst snd]; [|discriminate..]. intros E. injection E as _ <-. rewrite map_app. apply Forall_app. split; [exact (event_yes _ _ _ _ E1)|exact (IH _ _ _ E2)].
Qed.
Lemma sserve_yes s b c s' : sserve s b = Ok (c, s') -> Forall says_yes (w_calls s) -> Forall says_yes (w_calls s').
Proof.
  unfold sserve. destruct (sub_process_events _ _) as [[[cd x'] l]| | |] eqn:E1; cbn [bind]; [|discriminate..]. intros E H. match type of E with Ok (_, ?q) = _ => assert (s' = q) as -> by congruence end. cbn [w_calls].
  apply Forall_app. split; [exact H|]. unfold sub_process_events in E1. destruct b as [|e b]; cbn [map] in E1; [injection E1 as _ _ <-; constructor|].
  destruct (sub_events (w_x s) _) as [[x2 l2]| | |] eqn:E2; cbn [bind fst snd] in E1; [|discriminate..]. injection E1 as _ _ <-. change (agreed e :: map agreed b) with (map agreed (e :: b)) in E2. rewrite <- map_rev in E2. exact (events_yes _ _ _ _ E2).
Qed.
Lemma slib_yes s o c s' : slib s o = Ok (c, s') -> says_yes o -> Forall says_yes (w_calls s) -> Forall says_yes (w_calls s').
Proof.
  unfold slib. destruct (ystep _ _) as [[[cd x'] e]| | |]; cbn [bind]; [|discriminate..]. intros E O H. match type of E with Ok (_, ?q) = _ => assert (s' = q) as -> by congruence end. cbn [w_calls]. apply Forall_app. split; [exact H|constructor; [exact O|constructor]].
Qed.
Theorem c97_agrees : forall map_ x0 s, sruns map_ x0 s -> Forall says_yes (w_calls s).
Proof.
  intros map_ x0 s R. induction R as [|s n s' R IH W E]; [constructor|]. unfold sprog_step in E. destruct (w_loc s) as [| |tout cur| | | |c].
  - destruct (slib s _) as [[c1 s1]| | |] eqn:E1; cbn [bind fst snd] in E; [|discriminate E..]. apply slib_yes in E1; [|exact Logic.I|exact IH]. destruct (c1 =? 0); [|match type of E with Ok ?q = _ => assert (s' = q) as -> by congruence end; exact E1].
    destruct (slib s1 _) as [[c2 s2]| | |] eqn:E2; cbn [bind fst snd] in E; [|discriminate E..]. apply slib_yes in E2; [|exact Logic.I|exact E1]. match type of E with Ok ?q = _ => assert (s' = q) as -> by congruence end. exact E2.
  - destruct (rmc_sub_timeout_get_next _); cbn [bind] in E; [|discriminate E..]. match type of E with Ok ?q = _ => assert (s' = q) as -> by congruence end. exact IH.
  - destruct (negb _ && _).
    + destruct (slib s _) as [[c1 s1]| | |] eqn:E1; cbn [bind fst snd] in E; [|discriminate E..]. apply slib_yes in E1; [|exact Logic.I|exact IH]. destruct (rmc_sub_timeout_get_next _); cbn [bind] in E; [|discriminate E..]. match type of E with Ok ?q = _ => assert (s' = q) as -> by congruence end. exact E1.
    + destruct (sserve s _) as [[c1 s1]| | |] eqn:E1; cbn [bind fst snd] in E; [|discriminate E..]. match type of E with Ok ?q = _ => assert (s' = q) as -> by congruence end. exact (sserve_yes _ _ _ _ E1 IH).
  - destruct (rmc_sub_get_next_dispatch_ready _) as [p|]; [|match type of E with Ok ?q = _ => assert (s' = q) as -> by congruence end; exact IH]. destruct (t_mem _ _); [|discriminate E].
    destruct (process_incoming_packet _ _); [|match type of E with Ok ?q = _ => assert (s' = q) as -> by congruence end; exact IH|match type of E with Ok ?q = _ => assert (s' = q) as -> by congruence end; exact IH|discriminate E].
    destruct (slib _ _) as [[c1 s1]| | |] eqn:E1; cbn [bind fst snd] in E; [|discriminate E..]. apply slib_yes in E1; [|exact Logic.I|exact IH]. match type of E with Ok ?q = _ => assert (s' = q) as -> by congruence end. exact E1.
  - destruct (sserve s _) as [[c1 s1]| | |] eqn:E1; cbn [bind fst snd] in E; [|discriminate E..]. apply sserve_yes in E1; [|exact IH]. destruct (c1 =? ETIME); [|assert (s' = s1) as -> by congruence; exact E1].
    destruct (slib s1 _) as [[c2 s2]| | |] eqn:E2; cbn [bind fst snd] in E; [|discriminate E..]. apply slib_yes in E2; [|exact Logic.I|exact E1]. match type of E with Ok ?q = _ => assert (s' = q) as -> by congruence end. exact E2.
  - assert (s' = s) as -> by congruence. exact IH.
  - assert (s' = s) as -> by congruence. exact IH.
Qed.

(** ** A run *)
Definition bytesb (l : list Z) : bool := forallb (fun b => (0 <=? b) && (b <? 256)) l.
Lemma bytesb_ok l : bytesb l = true -> bytes_ok l.
Proof. unfold bytesb, bytes_ok. rewrite forallb_forall, Forall_forall. intros H b Hb. specialize (H b Hb). unfold is_u8. lia. Qed.
Definition mrecvb (m : mrecv) : bool :=
  match m with McData src bs o => (0 <=? src) && (src <? 4294967296) && bytesb bs && match mi_sock o with SockOk d _ e => (0 <=? d) && negb (e =? 0) | SockErr e => negb (e =? 0) end | McErr e => negb (e =? 0) | McNone => true end.
Lemma mrecvb_ok m : mrecvb m = true -> mrecv_good m.
Proof.
  destruct m as [|e|src bs o]; cbn [mrecvb mrecv_good]; [auto|intros H; lia|]. intros H. apply andb_prop in H. destruct H as [H1 H2]. apply andb_prop in H1. destruct H1 as [H1 H3]. split; [unfold is_u32; lia|].
  split; [exact (bytesb_ok _ H3)|]. destruct (mi_sock o); cbn [sock_good]; lia.
Qed.
(** Inputs of one kind: datagrams, or a connection coming about. *)
Definition dse (i ev : Z) (l : list mrecv) : ready * sin := (mkRdy 0 i ev, mkSin l RErr [] (mkSw (CmpOk 0 0) (WErr 1))).
Definition dsu (now : Z) (b : list (ready * sin)) : sinput := mkSu now now b (SaOk 3).
Definition dsub (b : list (ready * sin)) : bool := forallb (fun e : ready * sin => forallb mrecvb (m_from (snd e))) b.
Inductive dround := DNone (now : Z) | DData (now : Z) (l : list mrecv) | DConn (now i : Z).
Definition din_of (d : dround) : sinput :=
  match d with DNone now => dsu now [] | DData now l => dsu now [dse RMC_MULTICAST_INDEX EPOLLIN l] | DConn now i => dsu now [dse i EPOLLOUT []] end.
Definition dokb (d : dround) : bool := match d with DData _ l => forallb mrecvb l | _ => true end.
Lemma dok_ok d : dokb d = true -> su_ok (din_of d).
Proof.
  intros H. split; [|destruct d; cbn; lia].
  assert (G : forall i ev l, forallb mrecvb l = true -> sin_ok (snd (dse i ev l))).
  { intros i ev l Hf. split; [|cbn; repeat split; lia]. cbn [dse snd m_from]. rewrite Forall_forall. rewrite forallb_forall in Hf. intros m Hm. exact (mrecvb_ok m (Hf m Hm)). }
  destruct d; cbn [din_of dsu j_ready]; [constructor|constructor; [apply G; exact H|constructor]|constructor; [apply G; reflexivity|constructor]].
Qed.
Fixpoint sprun (s : sprog) (l : list dround) : option sprog :=
  match l with [] => Some s | d :: r => if dokb d then match sprog_step s (din_of d) with Ok s' => sprun s' r | _ => None end else None end.
Lemma sprun_runs map_ x0 : forall l s s', sruns map_ x0 s -> sprun s l = Some s' -> sruns map_ x0 s'.
Proof.
  induction l as [|d l IH]; intros s s' R; cbn [sprun]; [congruence|]. destruct (dokb d) eqn:W; [|discriminate]. destruct (sprog_step s (din_of d)) as [s1| | |] eqn:E; try discriminate.
  apply IH. exact (sr_step _ _ _ _ _ R (dok_ok _ W) E).
Qed.
Lemma sprog_check map_ x0 l (f : sprog -> bool) : (match sprun (sprog_init map_ x0) l with Some s => f s | None => false end) = true -> exists s, sruns map_ x0 s /\ f s = true.
Proof. destruct (sprun (sprog_init map_ x0) l) as [s|] eqn:E; [|discriminate]. intros H. exists s. split; [exact (sprun_runs _ _ _ _ _ (sr_init _ _) E)|exact H]. Qed.
Definition pay (id max : Z) : list Z := payload_of [mkSig 1 id max].
(** Activation; the publisher announces itself; the connection comes about; two packets arrive. *)
Definition c97_in : list dround :=
  [DNone 0; DNone 10; DData 20 [ann 4]; DNone 30; DNone 40; DConn 50 0; DNone 60; DNone 70; DData 80 [data 5 (pay 1 2) 100 81 []; data 6 (pay 2 2) 200 82 []]].
Definition k5 : Z * Z * list Z := (0, 5, pay 1 2).
Definition k6 : Z * Z * list Z := (0, 6, pay 2 2).
Definition kdec (a b : Z * Z * list Z) : {a = b} + {a <> b}.
Proof. repeat decide equality. Defined.
Definition packsb (a b : list (Z * Z * list Z)) : bool := if list_eq_dec kdec a b then true else false.
Lemma packsb_ok a b : packsb a b = true -> a = b.
Proof. unfold packsb. destruct (list_eq_dec kdec a b); congruence. Qed.
Definition slocb (a b : sloc) : bool :=
  match a, b with SuTop, SuTop | SuTake, SuTake | SuFlush, SuFlush | SuDone, SuDone => true | SuExit c, SuExit d => c =? d | _, _ => false end.
Lemma slocb_ok a b : slocb a b = true -> a = b.
Proof. destruct a, b; try discriminate; auto. cbn. intros H. f_equal. lia. Qed.
Definition ackless (log : list sev) : bool := forallb (fun e => match e with SvAck _ _ _ => false | _ => true end) log.
Lemma ackless_ok log : ackless log = true -> forall i, sent_acks i log = [].
Proof. unfold ackless. intros H i. induction log as [|e l IH]; [reflexivity|]. cbn [forallb] in H. apply andb_prop in H. destruct H as [H1 H2]. specialize (IH H2). unfold sent_acks in *. cbn [flat_map]. rewrite IH. destruct e; try discriminate H1; reflexivity. Qed.
Definition map01 : list bool := [false; true].
Lemma map01_expected : exists n, expected map01 n.
Proof. exists 1. split; [lia|reflexivity]. Qed.
(** The two packets have come in; after them the test passes, with the first alone it is undecided. *)
Example c97_run_nonvacuous : fresh_sub sdemo0 /\ (exists n, expected map01 n) /\
  exists s, sruns map01 sdemo0 s /\ w_loc s = SuTake /\ handed s = [k5; k6] /\ taken s = [] /\ made_of [k5] [[mkSig 1 1 2]] /\ made_of [k5; k6] [[mkSig 1 1 2]; [mkSig 1 2 2]] /\
    undecided map01 [mkSig 1 1 2] /\ passes map01 [mkSig 1 1 2; mkSig 1 2 2].
Proof.
  split; [exact sdemo0_fresh|]. split; [exact map01_expected|].
  destruct (sprog_check map01 sdemo0 c97_in (fun s => slocb (w_loc s) SuTake && packsb (handed s) [k5; k6] && packsb (taken s) [])) as (s & R & E); [vm_compute; reflexivity|].
  apply andb_prop in E. destruct E as [E E3]. apply andb_prop in E. destruct E as [E1 E2]. exists s. split; [exact R|]. split; [exact (slocb_ok _ _ E1)|]. split; [exact (packsb_ok _ _ E2)|]. split; [exact (packsb_ok _ _ E3)|].
  assert (O1 : Forall (Forall sig_ok) [[mkSig 1 1 2]]) by (repeat constructor; unfold is_u32, INT_MAX; cbn; lia).
  assert (O2 : Forall (Forall sig_ok) [[mkSig 1 1 2]; [mkSig 1 2 2]]) by (repeat constructor; unfold is_u32, INT_MAX; cbn; lia).
  split; [split; [reflexivity|exact O1]|]. split; [split; [reflexivity|exact O2]|].
  split; [apply (c89_verdict_partial map01 [[mkSig 1 1 2]] map01_expected O1); eexists; vm_compute; reflexivity|].
  apply (c89_verdict_partial map01 [[mkSig 1 1 2]; [mkSig 1 2 2]] map01_expected O2). vm_compute. reflexivity.
Qed.
(** The same in the wrong order: exit(255). *)
Example c97_fail_witness : exists s, sruns map01 sdemo0 s /\ w_loc s = SuExit 255 /\ handed s = [(0, 5, pay 2 2); (0, 6, pay 1 2)] /\ taken s = [] /\ fails map01 [mkSig 1 2 2].
Proof.
  destruct (sprog_check map01 sdemo0 [DNone 0; DNone 10; DData 20 [ann 4]; DNone 30; DNone 40; DConn 50 0; DNone 60; DNone 70; DData 80 [data 5 (pay 2 2) 100 81 []; data 6 (pay 1 2) 200 82 []]; DNone 90]
    (fun s => slocb (w_loc s) (SuExit 255) && packsb (handed s) [(0, 5, pay 2 2); (0, 6, pay 1 2)] && packsb (taken s) [])) as (s & R & E); [vm_compute; reflexivity|].
  apply andb_prop in E. destruct E as [E E3]. apply andb_prop in E. destruct E as [E1 E2]. exists s. split; [exact R|]. split; [exact (slocb_ok _ _ E1)|]. split; [exact (packsb_ok _ _ E2)|]. split; [exact (packsb_ok _ _ E3)|].
  assert (O : Forall (Forall sig_ok) [[mkSig 1 2 2]]) by (repeat constructor; unfold is_u32, INT_MAX; cbn; lia).
  apply (c89_verdict_partial map01 [[mkSig 1 2 2]] map01_expected O). vm_compute. reflexivity.
Qed.
(** A test that passes, with exit(0), without a single acknowledgement sent: the publisher never learns that
    its packets arrived; and the memory of the packet with which the test passes is never released. *)
Theorem c97_unacked_refuted : exists s, sruns map01 sdemo0 s /\ w_loc s = SuDone /\ handed s = [k5; k6] /\ taken s = [k5] /\ (forall i, sent_acks i (w_log s) = []) /\
  In (SvAlloc 200 20) (w_log s) /\ forall n, ~ In (SvFree 200 n) (w_log s).
Proof.
  destruct (sprog_check map01 sdemo0 (c97_in ++ [DNone 90; DNone 91; DNone 92]) (fun s => slocb (w_loc s) SuDone && packsb (handed s) [k5; k6] && packsb (taken s) [k5] && ackless (w_log s) &&
    existsb (fun e => match e with SvAlloc p n => (p =? 200) && (n =? 20) | _ => false end) (w_log s) && forallb (fun e => match e with SvFree p _ => negb (p =? 200) | _ => true end) (w_log s))) as (s & R & E); [vm_compute; reflexivity|].
  do 5 (apply andb_prop in E; let H := fresh "H" in destruct E as [E H]). exists s. split; [exact R|]. split; [exact (slocb_ok _ _ E)|]. split; [exact (packsb_ok _ _ H3)|]. split; [exact (packsb_ok _ _ H2)|]. split; [exact (ackless_ok _ H1)|].
  split.
  - apply existsb_exists in H0. destruct H0 as (e & He & Q). destruct e; try discriminate Q. assert (ptr = 200 /\ len = 20) as [-> ->] by lia. exact He.
  - intros n Hn. rewrite forallb_forall in H. specialize (H _ Hn). discriminate H.
Qed.
(** After 20 ms without the last signal the acknowledgement of the first packet is due, and sent. *)
Example c97_acks_witness : exists s t cur, sruns map01 sdemo0 s /\ w_loc s = SuCatch t cur /\ t <> -1 /\ t < cur /\ exists s', sprog_step s (din_of (DNone 900000)) = Ok s' /\ sent_acks 0 (w_log s') = [(5, 5)].
Proof.
  destruct (sprog_check map01 sdemo0 [DNone 0; DNone 10; DData 20 [ann 4]; DNone 30; DNone 40; DConn 50 0; DNone 60; DNone 70; DData 80 [data 5 (pay 1 2) 100 81 []]; DNone 90; DNone 91; DNone 800000]
    (fun s => match w_loc s with SuCatch t cur => negb (t =? -1) && (t <? cur) | _ => false end && match sprog_step s (din_of (DNone 900000)) with Ok s' => if list_eq_dec zz_dec (sent_acks 0 (w_log s')) [(5, 5)] then true else false | _ => false end)) as (s & R & E); [vm_compute; reflexivity|].
  apply andb_prop in E. destruct E as [E1 E2]. destruct (w_loc s) as [| |t cur| | | |] eqn:Hl; try discriminate E1. exists s, t, cur. split; [exact R|]. split; [exact Hl|]. apply andb_prop in E1. destruct E1 as [A B]. apply negb_true_iff in A. split; [lia|]. split; [lia|].
  destruct (sprog_step s _) as [s'| | |]; try discriminate E2. exists s'. split; [reflexivity|]. destruct (list_eq_dec zz_dec (sent_acks 0 (w_log s')) [(5, 5)]); [assumption|discriminate E2].
Qed.
Example c97_flush_nonvacuous : exists s s', sruns map01 sdemo0 s /\ w_loc s = SuFlush /\ on_to s s' /\ w_loc s' = SuDone.
Proof.
  destruct (sprog_check map01 sdemo0 (c97_in ++ [DNone 90; DNone 91]) (fun s => slocb (w_loc s) SuFlush && match sprog_step s (din_of (DNone 92)) with Ok s' => slocb (w_loc s') SuDone | _ => false end)) as (s & R & E); [vm_compute; reflexivity|].
  apply andb_prop in E. destruct E as [E1 E2]. destruct (sprog_step s (din_of (DNone 92))) as [s'| | |] eqn:Es; try discriminate E2. exists s, s'. split; [exact R|]. split; [exact (slocb_ok _ _ E1)|].
  split; [exact (on_step _ _ _ _ (on_refl s) (dok_ok (DNone 92) eq_refl) Es)|exact (slocb_ok _ _ E2)].
Qed.

Print Assumptions c97_checked.
Print Assumptions c97_state.
Print Assumptions c97_decides.
Print Assumptions c97_end.
Print Assumptions c97_agrees.
Print Assumptions c97_acks_due.
Print Assumptions c97_flush_refuted.
Print Assumptions c97_unacked_refuted.
