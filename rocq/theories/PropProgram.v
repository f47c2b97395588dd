(** PropProgram.v — C96: the test publisher as a whole program. *)
From Coq Require Import Permutation.
From Verif Require Import Base CircBuf CircBufProofs Wire ListHeap SeqList Pub SpecPub PubProofs Proto SpecProto ProtoProofs
  Conn SpecConn ConnProofs Safe PubCtx SpecPubCtx PubCtxProofs PubCtxSteps PropPubCtx PropPubFlow PropPubTime PropPubMem PropDrain
  PubRecv PollSub Desc Epoll SubCtx SpecSubCtx Loop SpecLoop SpecSub TestPeers SpecPeers PeersProofs PropPeers PropGuests Program.

(** ** What the calls of the event loop leave alone *)
Definition qlen (x : pctx) : Z := zlen (p_queued (x_pub x)).
Definition FR (x x' : pctx) : Prop :=
  MS x x' /\ x_sthr x' = x_sthr x /\ (x_susp x = false -> x_susp x' = false) /\ x_aint x' = x_aint x /\ x_anext x' = x_anext x /\ qlen x' <= qlen x.
Lemma FR_refl x : FR x x.
Proof. split; [exact (fun p h => h)|]. split; [reflexivity|]. split; [auto|]. split; [reflexivity|]. split; [reflexivity|lia]. Qed.
Lemma FR_trans x y z : FR x y -> FR y z -> FR x z.
Proof.
  intros (A1 & A2 & A3 & A4 & A5 & A6) (B1 & B2 & B3 & B4 & B5 & B6). split; [exact (MS_trans _ _ _ A1 B1)|]. split; [congruence|]. split; [auto|]. split; [congruence|]. split; [congruence|lia].
Qed.
Lemma FR_same x x' : p_queued (x_pub x') = p_queued (x_pub x) -> x_mem x' = x_mem x -> x_sthr x' = x_sthr x -> x_susp x' = x_susp x -> x_aint x' = x_aint x -> x_anext x' = x_anext x -> FR x x'.
Proof.
  intros A B C D E F. split; [intros p; rewrite B; auto|]. split; [exact C|]. split; [rewrite D; auto|]. split; [exact E|]. split; [exact F|]. unfold qlen. rewrite A. lia.
Qed.
Lemma unlink_q s a s' : unlink_parent s a = Ok s' -> zlen (p_queued s') <= zlen (p_queued s).
Proof.
  unfold unlink_parent. destruct (mem a (p_queued s)); [intros E; injection E as <-; cbn [set_queued p_queued]; unfold zlen; pose proof (rm1_len (Nat.eqb a) (p_queued s)); lia|].
  destruct (mem a (p_inflight s)); [|discriminate]. intros E. injection E as <-. cbn. lia.
Qed.
Lemma ack_q s sub pid s' fr : pub_packet_ack s sub pid = Ok (s', fr) -> zlen (p_queued s') <= zlen (p_queued s).
Proof.
  unfold pub_packet_ack. destruct (check_live s (p_sinf s sub)) as [[]| | |]; cbn [bind]; [|discriminate..].
  destruct (find _ _) as [a|]; [|intros E; injection E as <- <-; lia].
  match goal with |- context [set_sinf s sub ?l'] => set (s1 := set_sinf s sub l') end.
  destruct (get_pack s1 a) as [p| | |]; cbn [bind]; [|discriminate..].
  match goal with |- (if ?b then _ else _) = _ -> _ => destruct b end.
  - match goal with |- context [unlink_parent ?z a] => destruct (unlink_parent z a) as [s3| | |] eqn:Eu end; cbn [bind]; [|discriminate..].
    intros E. injection E as <- <-. apply unlink_q in Eu. exact Eu.
  - intros E. injection E as <- <-. apply Z.le_refl.
Qed.
Lemma packet_ack_FR x i k x' evs : rmc_pub_packet_ack x i k = Ok (x', evs) -> FR x x'.
Proof.
  intros E. split; [exact (ack_MS _ _ _ _ _ E)|]. revert E. unfold rmc_pub_packet_ack.
  destruct (pub_packet_ack _ _ _) as [[s fr]| | |] eqn:Ea; cbn [bind fst snd]; [|discriminate..]. apply ack_q in Ea.
  destruct (release_all (x_mem x) fr) as [[m e]| | |]; cbn [bind fst snd]; [|discriminate..]. cbv zeta.
  match goal with |- context [if ?b then _ else _] => destruct b end; intros E; injection E as <- _; unfold qlen; cbn [set_susp set_mem set_pub x_sthr x_susp x_aint x_anext x_pub]; repeat split; auto.
Qed.
Lemma rounds_FR i : forall n x k x' evs, ack_rounds n x i k = Ok (x', evs) -> FR x x'.
Proof.
  induction n as [|n IH]; intros x k x' evs; cbn [ack_rounds]; [intros E; injection E as <- _; apply FR_refl|].
  destruct (rmc_pub_packet_ack x i k) as [[x1 e1]| | |] eqn:E1; cbn [bind fst snd]; [|discriminate..]. destruct (ack_rounds n x1 i (k + 1)) as [[x2 e2]| | |] eqn:E2; cbn [bind fst snd]; [|discriminate..].
  intros E. injection E as <- _. exact (FR_trans _ _ _ (packet_ack_FR _ _ _ _ _ E1) (IH _ _ _ _ E2)).
Qed.
Lemma eff_ack_FR x i (st : hst) iv st' : FR x (fst st) -> eff_ack i st iv = Ok st' -> FR x (fst st').
Proof.
  intros F. unfold eff_ack, ack_interval. destruct (_ && _); [discriminate|]. destruct (ack_rounds _ _ _ _) as [[x1 e1]| | |] eqn:E1; cbn [bind fst snd]; [|discriminate..].
  intros E. injection E as <-. cbn [fst]. exact (FR_trans _ _ _ F (rounds_FR _ _ _ _ _ _ E1)).
Qed.
Lemma eff_ctrl_FR x i (st : hst) p st' : FR x (fst st) -> eff_ctrl i st p = Ok st' -> FR x (fst st').
Proof.
  intros F. unfold eff_ctrl. destruct (x_ccb _); [discriminate|intros E; injection E as <-; exact F|]. destruct (slot _ _) as [c| | |]; cbn [bind]; [|discriminate..]. intros E. injection E as <-. exact F.
Qed.
Lemma reset_q sub : forall fuel s fr r, reset_loop fuel s sub fr = Ok r -> zlen (p_queued (fst r)) <= zlen (p_queued s).
Proof.
  induction fuel as [|fuel IH]; intros s0 fr0 r; cbn [reset_loop]; destruct (last_opt _) as [a|]; try discriminate; try (intros E; injection E as <-; cbn; lia).
  destruct (get_pack s0 a) as [p| | |]; cbn [bind]; [|discriminate..].
  destruct (pub_packet_ack s0 sub (pk_pid p)) as [[s1 f1]| | |] eqn:Ea; cbn [bind fst snd]; [|discriminate..].
  intros E. apply IH in E. apply ack_q in Ea. lia.
Qed.
Lemma pclose_FR x i code x' evs : rmc_pub_close_connection x i = Ok (code, x', evs) -> FR x x'.
Proof.
  unfold rmc_pub_close_connection. destruct (find_by_index (x_vec x) i) as [[c|]| | |]; cbn [bind]; try discriminate; [|intros E; injection E as _ <- _; apply FR_refl].
  destruct (close_conn _ _) as [[[cd v] ev]| | |]; cbn [bind]; [|discriminate..].
  destruct (pub_reset_subscriber (x_pub x) (Z.to_nat i)) as [[s fr]| | |] eqn:Er; cbn [bind fst snd]; [|discriminate..].
  destruct (release_all _ _) as [[m fe]| | |] eqn:El; cbn [bind fst snd]; [|discriminate..]. intros E. injection E as _ <- _.
  split; [exact (release_MS _ _ _ _ El)|]. cbn [set_mem set_pub set_vec x_sthr x_susp x_aint x_anext]. split; [reflexivity|]. split; [auto|]. split; [reflexivity|]. split; [reflexivity|]. unfold qlen. cbn [set_mem set_pub x_pub].
  unfold pub_reset_subscriber in Er. destruct (reset_loop _ _ _ _) as [[s1 f1]| | |] eqn:E2; cbn [bind fst snd] in Er; [|discriminate..]. apply reset_q in E2. cbn [fst] in E2.
  destruct (mem _ _); [|discriminate]. injection Er as <- _. exact E2.
Qed.
Lemma pread_FR x i o code op x' evs : rmc_pub_read x i o = Ok (code, op, x', evs) -> FR x x'.
Proof.
  destruct o as [a cb|err|t]; cbn [rmc_pub_read].
  - destruct (process_accept (x_listen x) (x_vec x) a) as [[[[cd ind] v] ev]| | |]; cbn [bind]; [|discriminate..].
    destruct (negb _); [intros E; injection E as _ _ <- _; apply FR_same; reflexivity|]. destruct ind as [j|]; [|discriminate]. destruct (find_by_index v j) as [[c|]| | |]; cbn [bind]; try discriminate.
    set (x1 := set_pub _ _). assert (S1 : FR x x1) by (apply FR_same; reflexivity). destruct cb as [[|]|]; [intros E; injection E as _ _ <- _; exact S1| |intros E; injection E as _ _ <- _; exact S1].
    destruct (rmc_pub_close_connection x1 j) as [[[cd2 x2] e2]| | |] eqn:E2; cbn [bind]; [|discriminate..]. intros E. injection E as _ _ <- _. exact (FR_trans _ _ _ S1 (pclose_FR _ _ _ _ _ E2)).
  - destruct (x_mcast x =? -1); [intros E; injection E as _ _ <- _; apply FR_refl|]. destruct err; intros E; injection E as _ _ <- _; apply FR_refl.
  - destruct (find_by_index _ _) as [[c|]| | |]; cbn [bind]; try discriminate; [|intros E; injection E as _ _ <- _; apply FR_refl]. destruct (negb _); [intros E; injection E as _ _ <- _; apply FR_refl|].
    destruct (tcp_read _ _ (c_rbuf c) t) as [r| | |] eqn:Er; cbn [bind]; [|discriminate..].
    pose proof (tcp_read_ok (pub_dispatch (eff_ack i) (ccb_set x) (eff_ctrl i)) (fun st : hst => FR x (fst st))
      (pub_dispatch_ok _ _ _ _ (fun st iv st' => eff_ack_FR x i st iv st') (fun st p st' => eff_ctrl_FR x i st p st')) (x, []) (c_rbuf c) t r (FR_refl x) Er) as F.
    cbv zeta. destruct (r_code r =? EPIPE).
    + destruct (rmc_pub_close_connection _ i) as [[[cd x2] e2]| | |] eqn:E2; cbn [bind]; [|discriminate..]. intros E. injection E as _ _ <- _.
      apply (FR_trans _ _ _ F). refine (FR_trans _ _ _ _ (pclose_FR _ _ _ _ _ E2)). apply FR_same; reflexivity.
    + intros E. injection E as _ _ <- _. apply (FR_trans _ _ _ F). apply FR_same; reflexivity.
Qed.
Lemma sent_loop_q : forall subs s a s', sent_loop s a subs = Ok s' -> p_queued s' = p_queued s.
Proof.
  induction subs as [|n subs IH]; intros s a s'; cbn [sent_loop]; [intros E; injection E as <-; reflexivity|].
  destruct (check_live _ _) as [[]| | |]; cbn [bind]; [|discriminate..]. destruct (get_pack _ _) as [p| | |]; cbn [bind]; [|discriminate..]. intros E. apply IH in E. exact E.
Qed.
Lemma sent_q s a ts s' : pub_packet_sent s a ts = Ok s' -> zlen (p_queued s') <= zlen (p_queued s).
Proof.
  unfold pub_packet_sent. destruct (get_pack s a) as [p| | |]; cbn [bind]; [|discriminate..]. cbv zeta.
  match goal with |- context [unlink_parent ?z a] => destruct (unlink_parent z a) as [s2| | |] eqn:Eu end; cbn [bind]; [|discriminate..]. apply unlink_q in Eu. cbn [set_pack p_queued] in Eu.
  destruct (_ =? 0); [intros E; injection E as <-; exact Eu|]. destruct (check_live _ _) as [[]| | |]; cbn [bind]; [|discriminate..]. intros E. apply sent_loop_q in E. rewrite E. exact Eu.
Qed.
Lemma send_FR x a o code x' evs : send_single_multicast_packet x a o = Ok (code, x', evs) -> FR x x'.
Proof.
  unfold send_single_multicast_packet. destruct (_ =? -1); [intros E; injection E as _ <- _; apply FR_refl|]. destruct (get_pack _ _) as [p| | |]; cbn [bind]; [|discriminate..].
  destruct (_ <? _); [intros E; injection E as _ <- _; apply FR_refl|]. destruct (load _ _ _) as [pl| | |]; cbn [bind]; [|discriminate..]. destruct o as [e|ts]; [destruct (_ =? _); intros E; injection E as _ <- _; apply FR_refl|].
  destruct (pub_packet_sent _ _ _) as [s| | |] eqn:Ep; cbn [bind]; [|discriminate..]. intros E; injection E as _ <- _. apply sent_q in Ep.
  split; [exact (fun p h => h)|]. cbn [set_pub x_sthr x_susp x_aint x_anext]. repeat split; auto.
Qed.
Lemma mcast_FR : forall outs x code x' evs, process_multicast_write x outs = Ok (code, x', evs) -> FR x x'.
Proof.
  induction outs as [|o outs IH]; intros x code x' evs; cbn [process_multicast_write]; (destruct (pub_next_queued _) as [a|]; [|intros E; injection E as _ <- _; apply FR_refl]); [apply send_FR|].
  destruct (send_single_multicast_packet x a o) as [[[cd x1] e1]| | |] eqn:E1; cbn [bind]; [|discriminate..]. apply send_FR in E1. destruct (negb _); [intros E; injection E as _ <- _; exact E1|].
  destruct (process_multicast_write x1 outs) as [[[cd2 x2] e2]| | |] eqn:E2; cbn [bind]; [|discriminate..]. intros E; injection E as _ <- _. exact (FR_trans _ _ _ E1 (IH _ _ _ _ E2)).
Qed.
Lemma pwrite_FR x i o code op x' evs : rmc_pub_write x i o = Ok (code, op, x', evs) -> FR x x'.
Proof.
  destruct o as [outs|w]; cbn [rmc_pub_write].
  - destruct (process_multicast_write x outs) as [[[cd x1] e1]| | |] eqn:E1; cbn [bind]; [|discriminate..]. intros E. injection E as _ _ <- _. exact (mcast_FR _ _ _ _ _ E1).
  - destruct (_ <=? i); [intros E; injection E as _ _ <- _; apply FR_refl|]. destruct (find_by_index _ _) as [[c|]| | |]; cbn [bind]; [| |discriminate..]; [|intros E; injection E as _ _ <- _; apply FR_refl].
    destruct (negb _); [intros E; injection E as _ _ <- _; apply FR_refl|]. destruct (_ =? 0); [intros E; injection E as _ _ <- _; apply FR_refl|].
    destruct (tcp_write _ w) as [r| | |]; cbn [bind]; [|discriminate..]. intros E. injection E as _ _ <- _. apply FR_same; reflexivity.
Qed.
Lemma sent_timeout_FR x i a code x' evs : process_sent_packet_timeout x i a = Ok (code, x', evs) -> FR x x'.
Proof.
  unfold process_sent_packet_timeout. destruct (slot _ _) as [c| | |]; cbn [bind]; [|discriminate..]. destruct (get_pack _ _) as [p| | |]; cbn [bind]; [|discriminate..].
  destruct (negb _).
  - destruct (rmc_pub_packet_ack _ _ _) as [[x1 e1]| | |] eqn:E1; cbn [bind fst snd]; [|discriminate..]. intros E. injection E as _ <- _. exact (packet_ack_FR _ _ _ _ _ E1).
  - destruct (rmc_pub_resend_packet _ _ _) as [[[cd x1] e1]| | |] eqn:E1; cbn [bind]; [|discriminate..].
    assert (S1 : FR x x1).
    { unfold rmc_pub_resend_packet in E1. destruct (slot _ _) as [c1| | |]; cbn [bind] in E1; [|discriminate..]. destruct (get_pack _ _) as [p1| | |]; cbn [bind] in E1; [|discriminate..].
      match type of E1 with bind ?h _ = _ => destruct h as [w| | |] end; cbn [bind] in E1; [|discriminate..].
      destruct (_ =? 0); injection E1 as _ <- _; apply FR_same; reflexivity. }
    destruct (cd =? 0); [|intros E; injection E as _ <- _; exact S1].
    destruct (rmc_pub_packet_ack _ _ _) as [[x2 e2]| | |] eqn:E2; cbn [bind fst snd]; [|discriminate..]. intros E. injection E as _ <- _. exact (FR_trans _ _ _ S1 (packet_ack_FR _ _ _ _ _ E2)).
Qed.
Lemma resend_loop_FR i : forall packs x code x' evs, resend_loop x i packs = Ok (code, x', evs) -> FR x x'.
Proof.
  induction packs as [|a packs IH]; intros x code x' evs; cbn [resend_loop]; [intros E; injection E as _ <- _; apply FR_refl|].
  destruct (process_sent_packet_timeout x i a) as [[[cd x1] e1]| | |] eqn:E1; cbn [bind]; [|discriminate..]. apply sent_timeout_FR in E1.
  destruct (negb _); [intros E; injection E as _ <- _; exact E1|].
  destruct (resend_loop x1 i packs) as [[[cd2 x2] e2]| | |] eqn:E2; cbn [bind]; [|discriminate..]. intros E. injection E as _ <- _. exact (FR_trans _ _ _ E1 (IH _ _ _ _ E2)).
Qed.
Lemma subs_loop_FR now : forall subs x code x' evs, subs_loop x now subs = Ok (code, x', evs) -> FR x x'.
Proof.
  induction subs as [|n subs IH]; intros x code x' evs; cbn [subs_loop]; [intros E; injection E as _ <- _; apply FR_refl|].
  destruct (process_subscriber_timeout x n now) as [[[cd x1] e1]| | |] eqn:E1; cbn [bind]; [|discriminate..].
  assert (S1 : FR x x1).
  { unfold process_subscriber_timeout in E1. destruct (pub_get_timed_out_packets _ _ _ _) as [packs| | |]; cbn [bind] in E1; [|discriminate..]. exact (resend_loop_FR _ _ _ _ _ _ E1). }
  destruct (negb _); [intros E; injection E as _ <- _; exact S1|].
  destruct (subs_loop x1 now subs) as [[[cd2 x2] e2]| | |] eqn:E2; cbn [bind]; [|discriminate..]. intros E. injection E as _ <- _. exact (FR_trans _ _ _ S1 (IH _ _ _ _ E2)).
Qed.
(** Processing timeouts; only with announces on may it queue something. *)
Lemma queue_inv x p l a code x' evs : rmc_pub_queue_packet x p l a = Ok (code, x', evs) -> x_sthr x = 0 -> x_mem x' = x_mem x /\ x_sthr x' = 0 /\ (x_susp x = false -> x_susp x' = false) /\ x_aint x' = x_aint x /\ x_anext x' = x_anext x.
Proof.
  intros E H0. revert E. unfold rmc_pub_queue_packet. destruct (_ =? _); [intros E; injection E as _ <- _; auto|]. destruct (_ <? _); [intros E; injection E as _ <- _; auto|].
  destruct (x_susp x) eqn:Hx; [intros E; injection E as _ <- _; repeat split; congruence|]. cbv zeta. match goal with |- context [bind ?h _] => destruct h as [w| | |] end; cbn [bind]; [|discriminate..].
  cbn [set_pub set_susp x_sthr]. rewrite H0. change (0 <? 0) with false. cbn [andb]. intros E. injection E as _ <- _. cbn. auto.
Qed.
Lemma timeout_off x now buf o code x' evs : x_aint x = 0 -> rmc_pub_timeout_process x now buf o = Ok (code, x', evs) -> FR x x'.
Proof.
  intros H. unfold rmc_pub_timeout_process, announce_due. rewrite H. cbn [negb andb Z.eqb]. destruct (pub_get_timed_out_subscribers _ _ _) as [subs| | |]; cbn [bind]; [|discriminate..]. apply subs_loop_FR.
Qed.
(** What the waiting phase keeps. *)
Definition WR (x x' : pctx) : Prop := MS x x' /\ (x_sthr x = 0 -> x_sthr x' = 0 /\ (x_susp x = false -> x_susp x' = false)).
Lemma FR_WR x x' : FR x x' -> WR x x'.
Proof. intros (A & B & C & _). split; [exact A|]. intros H. split; [congruence|exact C]. Qed.
Lemma WR_trans x y z : WR x y -> WR y z -> WR x z.
Proof. intros [A B] [C D]. split; [exact (MS_trans _ _ _ A C)|]. intros H. destruct (B H) as [B1 B2]. destruct (D B1) as [D1 D2]. auto. Qed.
Lemma timeout_WR x now buf o code x' evs : x_mem x buf = None -> rmc_pub_timeout_process x now buf o = Ok (code, x', evs) -> x_sthr x = 0 -> WR x x'.
Proof.
  intros Hb E Hs. revert E. unfold rmc_pub_timeout_process. destruct (announce_due x now).
  - destruct (match o with AnnNone => _ | AnnNo => _ | AnnYes bs len => _ end) as [[bs len] send]. cbv zeta.
    match goal with |- context [bind ?h _] => destruct h as [[[cd x2] e2]| | |] eqn:E2 end; cbn [bind]; [|discriminate..]. intros E. injection E as _ <- _.
    assert (K : x_mem x2 = updz (x_mem x) buf (Some bs) /\ x_sthr x2 = 0 /\ (x_susp x = false -> x_susp x2 = false)).
    { destruct send; [destruct (queue_inv _ _ _ _ _ _ _ E2 Hs) as (A & B & C & _); auto|]. injection E2 as _ <- _. auto. }
    destruct K as (K1 & K2 & K3). split; [|intros _; auto]. intros p Hp. cbn [set_mem set_ann x_mem]. destruct (Z.eq_dec p buf) as [->|N]; [apply updz_same|]. rewrite updz_other by exact N. rewrite K1, updz_other by exact N. exact Hp.
  - destruct (pub_get_timed_out_subscribers _ _ _) as [subs| | |]; cbn [bind]; [|discriminate..]. intros E. exact (FR_WR _ _ (subs_loop_FR _ _ _ _ _ _ E)).
Qed.
Lemma pdeactivate_FR x code x' evs : rmc_pub_deactivate_context x = Ok (code, x', evs) -> FR x x'.
Proof.
  assert (L : forall n x ind r, close_loop n x ind = Ok r -> FR x (fst r)).
  { clear. induction n as [|n IH]; intros x ind r; cbn [close_loop]; [intros E; injection E as <-; apply FR_refl|].
    destruct (find_by_index _ _) as [[c|]| | |]; cbn [bind]; try discriminate; [|apply IH].
    destruct (rmc_pub_close_connection x ind) as [[[cd x1] e1]| | |] eqn:E1; cbn [bind]; [|discriminate..]. destruct (close_loop n x1 (ind + 1)) as [r2| | |] eqn:E2; cbn [bind]; [|discriminate..]. intros E. injection E as <-. cbn [fst].
    exact (FR_trans _ _ _ (pclose_FR _ _ _ _ _ E1) (IH _ _ _ E2)). }
  unfold rmc_pub_deactivate_context. cbv zeta. match goal with |- context [bind ?h _] => destruct h as [r| | |] eqn:E2 end; cbn [bind]; [|discriminate..]. intros E. injection E as _ <- _.
  assert (K : FR x (fst r)) by (destruct (_ =? _); [injection E2 as <-; apply FR_refl|exact (L _ _ _ _ E2)]). apply (FR_trans _ _ _ K). apply FR_same; reflexivity.
Qed.

(** ** Histories *)
Lemma g_next_data g x o code evs : (forall p l a, o <> XQueue p l a) -> g_data (g_next g x o code evs) = g_data g /\ g_pin (g_next g x o code evs) = g_pin g.
Proof. intros H. destruct o; try (split; reflexivity). destruct (H ptr len announce eq_refl). Qed.
Definition quiet_step (x0 : pctx) (ops : list xop) (x : pctx) (g : ghost) (log : list pev) (l : list pcall) (x' : pctx) : Prop :=
  exists g', xhist x0 (ops ++ map k_op l) x' g' (log ++ flat_map k_evs l) /\ Forall announced_in (map k_op l) /\ FR x x' /\ g_data g' = g_data g /\ g_pin g' = g_pin g.
Lemma quiet_nil x0 ops x g log : xhist x0 ops x g log -> quiet_step x0 ops x g log [] x.
Proof. intros H. exists g. cbn [map flat_map]. rewrite !app_nil_r. split; [exact H|]. split; [constructor|]. split; [apply FR_refl|auto]. Qed.
Lemma quiet_add x0 ops x g log l x1 e o code x2 evs : quiet_step x0 ops x g log l x1 -> (forall g1, xok x1 g1 o) -> announced_in o -> (forall p l a, o <> XQueue p l a) ->
  xstep x1 o = Ok (code, x2, evs) -> FR x1 x2 -> quiet_step x0 ops x g log (l ++ [mkCall e o x1 code evs]) x2.
Proof.
  intros (g1 & H & A & F & D & P) Hok An Nq E F2. exists (g_next g1 x1 o code evs). rewrite map_app, flat_map_app, !app_assoc. cbn [map flat_map k_op k_evs]. rewrite app_nil_r.
  split; [exact (xh_step _ _ _ _ _ _ _ _ _ H (Hok g1) E)|]. split; [apply Forall_app; split; [exact A|constructor; [exact An|constructor]]|]. split; [exact (FR_trans _ _ _ F F2)|].
  destruct (g_next_data g1 x1 o code evs Nq) as [-> ->]. auto.
Qed.
Lemma quiet_trans x0 ops x g log l1 x1 : quiet_step x0 ops x g log l1 x1 -> forall l2 x2,
  (forall g1, xhist x0 (ops ++ map k_op l1) x1 g1 (log ++ flat_map k_evs l1) -> quiet_step x0 (ops ++ map k_op l1) x1 g1 (log ++ flat_map k_evs l1) l2 x2) -> quiet_step x0 ops x g log (l1 ++ l2) x2.
Proof.
  intros (g1 & H & A & F & D & P) l2 x2 K. destruct (K g1 H) as (g2 & H2 & A2 & F2 & D2 & P2). exists g2. rewrite map_app, flat_map_app, !app_assoc.
  split; [exact H2|]. split; [apply Forall_app; auto|]. split; [exact (FR_trans _ _ _ F F2)|]. split; congruence.
Qed.
Definition welcoming (e : ready * pin) : Prop := pin_ok (snd e) /\ n_cb (snd e) = Some true.
Lemma pub_event_quiet x0 ops x g log e x' l : xhist x0 ops x g log -> welcoming e -> pub_event x e = Ok (x', l) -> quiet_step x0 ops x g log l x'.
Proof.
  intros H [[O1 O2] Cb]. unfold pub_event. destruct e as [y n]. cbn [fst snd] in *. set (i := u16 (y_ind y)). assert (Hi : 0 <= i < 65536) by (apply Z.mod_pos_bound; lia).
  assert (RD : forall a, (if Z.land (y_ev y) EPOLLIN =? 0 then Ok (x, []) else do r <- rmc_pub_read x i (pub_rd i n); let '(code, _, x1, evs) := r in Ok (x1, [mkCall (y, n) (XRead i (pub_rd i n)) x code evs])) = Ok a ->
    quiet_step x0 ops x g log (snd a) (fst a)).
  { intros a. destruct (Z.land (y_ev y) EPOLLIN =? 0); [intros E; assert (a = (x, [])) as -> by congruence; exact (quiet_nil _ _ _ _ _ H)|].
    destruct (rmc_pub_read x i (pub_rd i n)) as [[[[cd op] x1] e1]| | |] eqn:E1; cbn [bind]; [|discriminate..]. intros E. assert (a = (x1, [mkCall (y, n) (XRead i (pub_rd i n)) x cd e1])) as -> by congruence. cbn [fst snd].
    apply (quiet_add x0 ops x g log [] x (y, n) (XRead i (pub_rd i n)) cd x1 e1 (quiet_nil _ _ _ _ _ H)).
    - intros g1. unfold pub_rd. destruct (i =? RMC_LISTEN_INDEX); [cbn [xok]; destruct (n_acc n); exact O1|]. destruct (i =? RMC_MULTICAST_INDEX); [exact Logic.I|exact Hi].
    - unfold pub_rd. rewrite Cb. destruct (i =? RMC_LISTEN_INDEX); [exact Logic.I|]. destruct (i =? RMC_MULTICAST_INDEX); exact Logic.I.
    - discriminate.
    - cbn [xstep]. rewrite E1. reflexivity.
    - exact (pread_FR _ _ _ _ _ _ _ E1). }
  match goal with |- bind ?h _ = _ -> _ => destruct h as [a| | |]; cbn [bind]; [|discriminate..] end. specialize (RD a eq_refl).
  destruct (Z.land (y_ev y) EPOLLOUT =? 0); [intros E; assert (a = (x', l)) as -> by congruence; exact RD|].
  destruct (rmc_pub_write (fst a) i (pub_wr i n)) as [[[[cd op] x2] e2]| | |] eqn:E2; cbn [bind]; [|discriminate..].
  assert (W : quiet_step x0 ops x g log (snd a ++ [mkCall (y, n) (XWrite i (pub_wr i n)) (fst a) cd e2]) x2).
  { apply (quiet_add x0 ops x g log (snd a) (fst a)); [exact RD| | |discriminate| |exact (pwrite_FR _ _ _ _ _ _ _ E2)].
    - intros g1. unfold pub_wr. destruct (i =? RMC_MULTICAST_INDEX); [exact Logic.I|]. cbn [xok]. destruct (n_writev n); split; assumption.
    - exact Logic.I.
    - cbn [xstep]. rewrite E2. reflexivity. }
  cbv zeta. destruct (_ || _); [intros E; assert (x' = x2) as -> by congruence; match type of E with Ok (_, ?q) = _ => assert (l = q) as -> by congruence end; exact W|].
  destruct (rmc_pub_close_connection x2 i) as [[[cd3 x3] e3]| | |] eqn:E3; cbn [bind]; [|discriminate..]. intros E. assert (x' = x3) as -> by congruence. match type of E with Ok (_, ?q) = _ => assert (l = q) as -> by congruence end.
  apply (quiet_add x0 ops x g log _ x2); [exact W|intros g1; exact Hi|exact Logic.I|discriminate|exact E3|exact (pclose_FR _ _ _ _ _ E3)].
Qed.
Lemma pub_events_quiet x0 : forall b ops x g log x' l, xhist x0 ops x g log -> Forall welcoming b -> pub_events x b = Ok (x', l) -> quiet_step x0 ops x g log l x'.
Proof.
  induction b as [|e b IH]; intros ops x g log x' l H W; cbn [pub_events]; [intros E; assert (x' = x /\ l = []) as [-> ->] by (split; congruence); exact (quiet_nil _ _ _ _ _ H)|].
  inversion W as [|? ? W1 W2 Q]; subst. destruct (pub_event x e) as [[x1 l1]| | |] eqn:E1; cbn [bind fst snd]; [|discriminate..]. destruct (pub_events x1 b) as [[x2 l2]| | |] eqn:E2; cbn [bind fst snd]; [|discriminate..].
  intros E. assert (x' = x2 /\ l = l1 ++ l2) as [-> ->] by (split; congruence). apply (quiet_trans _ _ _ _ _ _ _ (pub_event_quiet _ _ _ _ _ _ _ _ H W1 E1)). intros g1 H1. exact (IH _ _ _ _ _ _ H1 W2 E2).
Qed.

(** ** Specification *)
(** The outside world during one round: the results of the system calls are as in the
    specification of the context; malloc() returns memory that is free; the local array of
    rmc_pub_timeout_process is on the stack, where malloc() takes nothing from; activation fails
    with an error code; and the queue holds less than 2^32 packets (its counter has 32 bits). *)
Definition world_ok (stack : Z -> Prop) (x : pctx) (n : pinput) : Prop :=
  Forall (fun e => pin_ok (snd e)) (i_ready n) /\ i_buf n <> 0 /\ stack (i_buf n) /\ i_ptr n <> 0 /\ ~ stack (i_ptr n) /\ x_mem x (i_ptr n) = None /\
  match i_act n with ActOk _ _ port => is_u16 port | ActErr e _ _ => e <> 0 end /\ zlen (queued x) < 4294967296.
(** The states the program goes through. *)
Inductive runs (stack : Z -> Prop) (a : pargs) (x0 : pctx) : pprog -> Prop :=
| runs_init : runs stack a x0 (prog_init x0)
| runs_step s n s' : runs stack a x0 s -> world_ok stack (q_x s) n -> prog_step a s n = Ok s' -> runs stack a x0 s'.
(** The context is new, and no payload is on the stack; the number of signals is a uint64_t below its maximum. *)
Definition setting (stack : Z -> Prop) (a : pargs) (x0 : pctx) : Prop :=
  fresh_ctx x0 /\ (forall p, stack p -> x_mem x0 p = None) /\ 0 <= a_count a < 18446744073709551615.
(** All packets are queued. *)
Definition finished (l : ploc) : Prop := match l with AtDrain | AtCatch _ _ | AtDone => True | _ => False end.

(** ** The invariant *)
Definition PH (x0 : pctx) (s : pprog) (g : ghost) : Prop :=
  xhist x0 (q_calls s) (q_x s) g (q_log s) /\ Forall announced_in (q_calls s) /\ q_count s = fold_left counted (q_log s) 0.
Lemma PH_goto x0 s g l : PH x0 s g -> PH x0 (goto s l) g.
Proof. exact (fun h => h). Qed.
Lemma lib_ok x0 s g o code s' : PH x0 s g -> xok (q_x s) g o -> announced_in o -> lib s o = Ok (code, s') ->
  exists evs, xstep (q_x s) o = Ok (code, q_x s', evs) /\ PH x0 s' (g_next g (q_x s) o code evs) /\ q_loc s' = q_loc s /\ q_calls s' = q_calls s ++ [o].
Proof.
  intros (H & A & C) Hok An. unfold lib. destruct (xstep (q_x s) o) as [[[cd x'] evs]| | |] eqn:E1; cbn [bind]; [|discriminate..]. intros E.
  match type of E with Ok (_, ?q) = _ => assert (code = cd /\ s' = q) as [-> ->] by (split; congruence) end. cbn [q_x q_loc q_calls]. exists evs. split; [reflexivity|]. split; [|auto].
  split; [|split]; cbn [q_x q_calls q_log q_count].
  - exact (xh_step _ _ _ _ _ _ _ _ _ H Hok E1).
  - apply Forall_app. split; [exact A|]. constructor; [exact An|constructor].
  - rewrite C, fold_left_app. reflexivity.
Qed.
Lemma welcome_ok b : Forall (fun e : ready * pin => pin_ok (snd e)) b -> Forall welcoming (map welcome b).
Proof. intros H. apply Forall_map. eapply Forall_impl; [|exact H]. intros [y n] Hn. split; [exact Hn|reflexivity]. Qed.
Lemma serve_ok x0 s g b code s' : PH x0 s g -> Forall (fun e : ready * pin => pin_ok (snd e)) b -> serve s b = Ok (code, s') ->
  exists g', PH x0 s' g' /\ FR (q_x s) (q_x s') /\ g_data g' = g_data g /\ g_pin g' = g_pin g /\ q_loc s' = q_loc s.
Proof.
  intros (H & A & C) Hb. unfold serve. destruct (pub_process_events _ _) as [[[cd x'] l]| | |] eqn:E1; cbn [bind]; [|discriminate..]. intros E.
  match type of E with Ok (_, ?q) = _ => assert (s' = q) as -> by congruence end. cbn [q_x q_loc].
  assert (K : quiet_step x0 (q_calls s) (q_x s) g (q_log s) l x').
  { unfold pub_process_events in E1. pose proof (welcome_ok b Hb) as W. destruct (map welcome b) as [|e r] eqn:Em; [assert (x' = q_x s /\ l = []) as [-> ->] by (split; congruence); exact (quiet_nil _ _ _ _ _ H)|].
    rewrite <- Em in *. destruct (pub_events (q_x s) (rev (map welcome b))) as [[x2 l2]| | |] eqn:E2; cbn [bind fst snd] in E1; [|discriminate..]. assert (x' = x2 /\ l = l2) as [-> ->] by (split; congruence).
    apply (pub_events_quiet x0 (rev (map welcome b)) _ _ _ _ _ _ H); [|exact E2]. apply Forall_rev. exact W. }
  destruct K as (g' & H' & A' & F & D & P). exists g'. split; [|auto]. split; [exact H'|]. split; cbn [q_calls q_log q_count]; [apply Forall_app; auto|]. rewrite C, fold_left_app. reflexivity.
Qed.

Section Inv.
Context (stack : Z -> Prop) (a : pargs) (x0 : pctx).
Let N : nat := S (Z.to_nat (a_count a)).
(** Signals before [ind] are queued. *)
Definition upto (g : ghost) (ind : Z) : Prop :=
  1 <= ind <= a_count a + 1 /\ zlen (g_data g) < ind /\
  exists k rest, a_count a + 1 - ind < Z.of_nat k /\ send_loop k (a_node a) (a_count a) ind = Ok rest /\ test_payloads N (a_node a) (a_count a) = Ok (g_data g ++ rest).
Definition at_loc (s : pprog) (g : ghost) : Prop :=
  match q_loc s with
  | AtStart | AtWait => g_data g = []
  | AtSend ind => x_aint (q_x s) = 0 /\ upto g ind /\ (ind = 1 \/ qlen (q_x s) <= 100)
  | AtPace ind _ _ => x_aint (q_x s) = 0 /\ upto g ind /\ 1 < ind
  | AtDrain | AtCatch _ _ | AtDone => x_aint (q_x s) = 0 /\ test_payloads N (a_node a) (a_count a) = Ok (g_data g)
  | AtFail => g_data g = [] /\ exists e ds early, In (XActivate (ActErr e ds early)) (q_calls s)
  end.
Definition gen (s : pprog) (g : ghost) : Prop :=
  PH x0 s g /\ (forall p, stack p -> x_mem (q_x s) p = None) /\ g_pin g = [] /\ x_sthr (q_x s) = 0 /\ x_susp (q_x s) = false.
Definition PI (s : pprog) : Prop := exists g, gen s g /\ at_loc s g.

Lemma gen_goto s g l : gen s g -> gen (goto s l) g.
Proof. exact (fun h => h). Qed.
Lemma gen_WR s g s' g' : gen s g -> PH x0 s' g' -> g_pin g' = g_pin g -> WR (q_x s) (q_x s') -> gen s' g'.
Proof. intros (A & B & C & D & E) H P [W1 W2]. destruct (W2 D) as [W3 W4]. split; [exact H|]. split; [auto|]. split; [congruence|auto]. Qed.
Lemma serve_gen s g b code s' : gen s g -> Forall (fun e : ready * pin => pin_ok (snd e)) b -> serve s b = Ok (code, s') ->
  exists g', gen s' g' /\ FR (q_x s) (q_x s') /\ g_data g' = g_data g /\ q_loc s' = q_loc s.
Proof.
  intros G Hb E. destruct (serve_ok x0 s g b code s' (proj1 G) Hb E) as (g' & P & F & D & Q & L). exists g'. split; [exact (gen_WR _ _ _ _ G P Q (FR_WR _ _ F))|auto].
Qed.
Lemma interval_gen s g i now code s' : gen s g -> lib s (XInterval i now) = Ok (code, s') -> exists g', gen s' g' /\ g_data g' = g_data g /\ q_loc s' = q_loc s /\ x_aint (q_x s') = i /\ qlen (q_x s') = qlen (q_x s).
Proof.
  intros G E. destruct (lib_ok x0 s g (XInterval i now) _ _ (proj1 G) Logic.I Logic.I E) as (evs & X & P & L & _). eexists. cbn [xstep] in X. assert (Q : q_x s' = rmc_pub_set_announce_interval (q_x s) i now) by congruence.
  split; [apply (gen_WR s g _ _ G P); [reflexivity|]; rewrite Q; split; [exact (fun p h => h)|auto]|]. split; [reflexivity|]. split; [exact L|]. rewrite Q. split; reflexivity.
Qed.
Lemma timeout_gen s g now buf code s' : gen s g -> buf <> 0 -> stack buf -> lib s (XTimeout now buf AnnNone) = Ok (code, s') ->
  exists g', gen s' g' /\ g_data g' = g_data g /\ q_loc s' = q_loc s /\ (x_aint (q_x s) = 0 -> FR (q_x s) (q_x s')).
Proof.
  intros G B1 B2 E. pose proof (proj1 (proj2 G) buf B2) as B3. destruct (lib_ok x0 s g (XTimeout now buf AnnNone) _ _ (proj1 G) ltac:(split; [exact B1|split; [exact B3|exact Logic.I]]) Logic.I E) as (evs & X & P & L & _). cbn [xstep] in X.
  eexists. split; [apply (gen_WR s g _ _ G P); [reflexivity|]; exact (timeout_WR _ _ _ _ _ _ _ B3 X (proj1 (proj2 (proj2 (proj2 G)))))|]. split; [reflexivity|]. split; [exact L|]. intros H. exact (timeout_off _ _ _ _ _ _ _ H X).
Qed.
Lemma sot_gen s g b now buf s' : gen s g -> Forall (fun e : ready * pin => pin_ok (snd e)) b -> buf <> 0 -> stack buf -> serve_or_timeout s b now buf = Ok s' ->
  exists g', gen s' g' /\ g_data g' = g_data g /\ q_loc s' = q_loc s /\ (x_aint (q_x s) = 0 -> FR (q_x s) (q_x s')).
Proof.
  intros G Hb B1 B2. unfold serve_or_timeout. destruct (serve s b) as [[cd s1]| | |] eqn:E1; cbn [bind fst snd]; [|discriminate..]. destruct (serve_gen _ _ _ _ _ G Hb E1) as (g1 & G1 & F1 & D1 & L1).
  destruct (cd =? ETIME); [|intros E; assert (s' = s1) as -> by congruence; exists g1; auto]. destruct (lib s1 _) as [[cd2 s2]| | |] eqn:E2; cbn [bind snd]; [|discriminate..]. intros E. assert (s' = s2) as -> by congruence.
  destruct (timeout_gen _ _ _ _ _ _ G1 B1 B2 E2) as (g2 & G2 & D2 & L2 & F2). exists g2. split; [exact G2|]. split; [congruence|]. split; [congruence|]. intros H. apply (FR_trans _ _ _ F1). apply F2. destruct F1 as (_ & _ & _ & F1 & _). congruence.
Qed.
Lemma FR_off x x' : FR x x' -> x_aint x = 0 -> x_aint x' = 0.
Proof. intros (_ & _ & _ & A & _) H. congruence. Qed.

Lemma payload_bytes sigs : bytes_ok (payload_of sigs).
Proof. unfold payload_of. apply Forall_flat_map. apply Forall_forall. intros s _. unfold enc_signal. repeat (apply Forall_app; split); apply le_bytes_ok. Qed.
Lemma lent_valid g t m sp q : MI t m g sp -> In q (g_lent g) -> m q <> None.
Proof.
  intros M H. apply (mi_lent _ _ _ _ M) in H. rewrite <- kpls_snd, map_map in H. apply in_map_iff in H. destruct H as ([k p] & <- & H). destruct (mi_data _ _ _ _ M k p H) as (_ & bs & B & _). cbn [snd]. congruence.
Qed.
(** Handing over one payload. *)
Lemma queue_gen s g ptr bs r1 r2 : fresh_ctx x0 -> gen s g -> ptr <> 0 -> ~ stack ptr -> x_mem (q_x s) ptr = None -> bytes_ok bs -> 0 <= zlen bs <= RMC_MAX_PAYLOAD -> zlen (g_data g) < 18446744073709551614 ->
  lib s (XAlloc ptr bs) = Ok r1 -> lib (snd r1) (XQueue ptr (zlen bs) false) = Ok r2 ->
  fst r2 = 0 /\ exists g', gen (snd r2) g' /\ g_data g' = g_data g ++ [bs] /\ x_aint (q_x (snd r2)) = x_aint (q_x s).
Proof.
  intros F G P1 P2 P3 Hb Hl Hn E1 E2. destruct r1 as [c1 s1]. destruct r2 as [c2 s2]. cbn [fst snd] in *. destruct G as (H & K & Pn & T & U).
  destruct (hist_inv_x false _ _ _ _ _ F ltac:(discriminate) (proj1 H)) as (sp & L & Q & X). pose proof (xi_mem _ _ _ _ _ _ _ X) as M.
  assert (NL : ~ In ptr (g_lent g)) by (intros I; exact (lent_valid _ _ _ _ _ M I P3)).
  destruct (lib_ok x0 s g (XAlloc ptr bs) c1 s1 H ltac:(split; [exact P1|split; [exact P3|exact Hb]]) Logic.I E1) as (ev1 & X1 & H1 & _). cbn [xstep] in X1.
  assert (Q1 : q_x s1 = set_mem (q_x s) (updz (x_mem (q_x s)) ptr (Some bs)) /\ ev1 = [] /\ c1 = 0) by (repeat split; congruence). destruct Q1 as (Q1 & -> & ->).
  assert (Mp : x_mem (q_x s1) ptr = Some bs) by (rewrite Q1; apply updz_same).
  destruct (lib_ok x0 s1 _ (XQueue ptr (zlen bs) false) c2 s2 H1) as (ev2 & X2 & H2 & _); [|exact Logic.I|exact E2|].
  { split; [change RMC_MAX_PAYLOAD with 65312 in Hl; unfold is_u16; lia|]. split; [intros _; rewrite Q1; cbn [set_mem x_pub]; rewrite (i_next _ _ _ _ (xi_pub _ _ _ _ _ _ _ X)); pose proof (mi_count _ _ _ _ M); lia|].
    intros _. split; [exists bs; split; [exact Mp|lia]|]. cbn [g_next fold_left g_lent g_pin fst]. split; [exact NL|]. rewrite Pn. intros _ []. }
  cbn [xstep] in X2. assert (C0 : c2 = 0).
  { revert X2. unfold rmc_pub_queue_packet. replace (ptr =? 0) with false by lia. replace (RMC_MAX_PAYLOAD <? zlen bs) with false by lia. rewrite Q1. cbn [set_mem x_susp]. rewrite U. cbv zeta.
    match goal with |- context [bind ?h _] => destruct h as [w| | |] end; cbn [bind]; [|discriminate..]. intros E. congruence. }
  subst c2. split; [reflexivity|]. eexists. destruct (queue_inv _ _ _ _ _ _ _ X2) as (I1 & I2 & I3 & I4 & _); [rewrite Q1; exact T|]. split; [|split].
  - split; [exact H2|]. split; [|split; [exact Pn|split; [exact I2|apply I3; rewrite Q1; exact U]]]. intros p Hp. rewrite I1, Q1. cbn [set_mem x_mem]. rewrite updz_other by (intros ->; exact (P2 Hp)). exact (K p Hp).
  - unfold g_next at 1. change (0 =? 0) with true. cbn [g_data]. rewrite Mp, ztake_all by lia. reflexivity.
  - rewrite I4, Q1. reflexivity.
Qed.
Lemma qlen_queued x : zlen (queued x) = qlen x.
Proof. unfold queued, qlen. apply zlen_map. Qed.

Lemma PI_init : setting stack a x0 -> PI (prog_init x0).
Proof.
  intros (F & K & _). exists g_init. split; [|reflexivity]. split; [split; [constructor|split; [constructor|reflexivity]]|]. split; [exact K|]. split; [reflexivity|]. destruct F as (node & lip & lport & buf & m & -> & _). split; reflexivity.
Qed.
Lemma PI_step s n s' : setting stack a x0 -> PI s -> world_ok stack (q_x s) n -> prog_step a s n = Ok s' -> PI s'.
Proof.
  intros (F & _ & Hc) (g & G & Lc) (W1 & W2 & W3 & W4 & W5 & W6 & W7 & W8). unfold prog_step. unfold at_loc in Lc. destruct (q_loc s) as [| |ind|ind tout cur| |tout cur| |] eqn:El.
  - (* AtStart *)
    destruct (lib s _) as [[c1 s1]| | |] eqn:E1; cbn [bind fst snd]; [|discriminate..]. destruct (interval_gen _ _ _ _ _ _ G E1) as (g1 & G1 & D1 & L1 & _).
    destruct (lib s1 _) as [[c2 s2]| | |] eqn:E2; cbn [bind fst snd]; [|discriminate..]. intros E. match type of E with Ok ?q = _ => assert (s' = q) as -> by congruence end.
    destruct (lib_ok x0 s1 g1 (XActivate (i_act n)) c2 s2 (proj1 G1) ltac:(cbn [xok]; destruct (i_act n); [exact Logic.I|exact W7]) Logic.I E2) as (evs & X & P & L & Cl). cbn [xstep] in X.
    assert (V : WR (q_x s1) (q_x s2) /\ (c2 = 0 \/ exists e ds early, i_act n = ActErr e ds early)).
    { destruct (i_act n) as [e ds early|m l port]; cbn [rmc_pub_activate_context] in X.
      - split; [|right; eauto]. assert (Q : q_x s2 = set_descs (q_x s1) (-1) (-1)) by congruence. rewrite Q. split; [exact (fun p h => h)|auto].
      - split; [|left; congruence]. match type of X with Ok (_, ?q, _) = _ => assert (Q : q_x s2 = q) by congruence end. rewrite Q. destruct (x_lport (q_x s1) =? 0); (split; [exact (fun p h => h)|auto]). }
    destruct V as [V1 V2]. exists (g_next g1 (q_x s1) (XActivate (i_act n)) c2 evs). assert (G2 : gen s2 (g_next g1 (q_x s1) (XActivate (i_act n)) c2 evs)) by exact (gen_WR _ _ _ _ G1 P eq_refl V1).
    assert (D2 : g_data (g_next g1 (q_x s1) (XActivate (i_act n)) c2 evs) = []) by (transitivity (g_data g1); [reflexivity|congruence]).
    split; [exact (gen_goto _ _ _ G2)|]. unfold at_loc. cbn [goto q_loc q_calls]. destruct (Z.eqb_spec c2 0) as [C|C]; [exact D2|]. split; [exact D2|]. destruct V2 as [V2|(e & ds & early & V2)]; [contradiction|]. exists e, ds, early. rewrite Cl. apply in_or_app. right. left. congruence.
  - (* AtWait *)
    destruct (q_count s <? a_expected a).
    + destruct (rmc_pub_timeout_get_next _) as [t| | |]; cbn [bind]; [|discriminate..]. intros E. destruct (sot_gen _ _ _ _ _ _ G W1 W2 W3 E) as (g1 & G1 & D1 & L1 & _). exists g1. split; [exact G1|]. unfold at_loc. rewrite L1, El. congruence.
    + destruct (lib s _) as [[c1 s1]| | |] eqn:E1; cbn [bind fst snd]; [|discriminate..]. intros E. match type of E with Ok ?q = _ => assert (s' = q) as -> by congruence end. destruct (interval_gen _ _ _ _ _ _ G E1) as (g1 & G1 & D1 & L1 & A1 & _).
      exists g1. split; [exact (gen_goto _ _ _ G1)|]. unfold at_loc. cbn [goto q_loc q_x]. split; [exact A1|]. split; [|left; reflexivity]. unfold upto. rewrite D1, Lc. split; [lia|]. split; [rewrite zlen_nil; lia|].
      destruct (send_ok (a_node a) (a_count a) ltac:(lia) N 1 ltac:(lia) ltac:(unfold N; lia)) as (ps & Ep & _). exists N, (map payload_of ps). split; [unfold N; lia|]. split; [exact Ep|exact Ep].
  - (* AtSend *)
    destruct Lc as (Off & (U1 & U2 & k & rest & U3 & U4 & U5) & Pc). destruct (Z.leb_spec ind (a_count a)) as [Li|Li].
    + rewrite (fill_ok (a_node a) (a_count a) ltac:(lia) _ ind [] 0) by (try reflexivity; change RMC_MAX_PAYLOAD with 65312; lia). cbn [bind fst snd app]. set (m := Z.min (3265 - 0) (a_count a + 1 - ind)). assert (Hm : 1 <= m <= a_count a + 1 - ind /\ m <= 3265) by lia.
      set (bs := payload_of (test_signals (a_node a) (a_count a) ind (Z.to_nat m))). assert (Hz : zlen bs = 20 * m) by (unfold bs; rewrite payload_zlen, test_signals_zlen; lia).
      destruct (lib s (XAlloc _ _)) as [r1| | |] eqn:E1; cbn [bind]; [|discriminate..]. destruct (lib (snd r1) _) as [r2| | |] eqn:E2; cbn [bind]; [|discriminate..].
      destruct (queue_gen s g (i_ptr n) bs r1 r2 F G W4 W5 W6 (payload_bytes _) ltac:(change RMC_MAX_PAYLOAD with 65312; lia) ltac:(lia) E1 E2) as (C0 & g2 & G2 & D2 & A2). rewrite C0. change (0 =? 0) with true. cbv beta iota zeta.
      intros E. match type of E with Ok ?q = _ => assert (s' = q) as -> by congruence end. exists g2. split; [exact (gen_goto _ _ _ G2)|]. unfold at_loc. cbn [goto q_loc q_x]. split; [congruence|]. split; [|lia].
      split; [lia|]. split; [rewrite D2, zlen_app; change (zlen [bs]) with 1; lia|]. destruct k as [|k]; [lia|]. cbn [send_loop] in U4. replace (ind <=? a_count a) with true in U4 by lia.
      rewrite (fill_ok (a_node a) (a_count a) ltac:(lia) _ ind [] 0) in U4 by (try reflexivity; change RMC_MAX_PAYLOAD with 65312; lia). cbn [bind fst snd app] in U4. fold m in U4. fold bs in U4.
      destruct (send_loop k (a_node a) (a_count a) (ind + m)) as [more| | |] eqn:Es; cbn [bind] in U4; [|discriminate..]. exists k, more. split; [lia|]. split; [exact Es|]. rewrite D2, <- app_assoc. cbn [app]. rewrite U5. do 2 f_equal. congruence.
    + destruct (lib s _) as [[c1 s1]| | |] eqn:E1; cbn [bind fst snd]; [|discriminate..]. intros E. match type of E with Ok ?q = _ => assert (s' = q) as -> by congruence end. destruct (interval_gen _ _ _ _ _ _ G E1) as (g1 & G1 & D1 & L1 & A1 & _).
      exists g1. split; [exact (gen_goto _ _ _ G1)|]. unfold at_loc. cbn [goto q_loc q_x]. split; [exact A1|]. destruct k as [|k]; [lia|]. cbn [send_loop] in U4. replace (ind <=? a_count a) with false in U4 by lia. assert (rest = []) as -> by congruence. rewrite U5, app_nil_r, D1. reflexivity.
  - (* AtPace *)
    destruct Lc as (Off & U & Hi). destruct ((cur <? tout) || (100 <? rmc_pub_queue_length (q_x s))) eqn:Eb.
    + destruct (rmc_pub_timeout_get_next _) as [t| | |]; cbn [bind]; [|discriminate..]. destruct (serve_or_timeout _ _ _ _) as [s1| | |] eqn:E1; cbn [bind]; [|discriminate..]. intros E. match type of E with Ok ?q = _ => assert (s' = q) as -> by congruence end.
      destruct (sot_gen _ _ _ _ _ _ G W1 W2 W3 E1) as (g1 & G1 & D1 & L1 & Fr). exists g1. split; [exact (gen_goto _ _ _ G1)|]. unfold at_loc. cbn [goto q_loc q_x]. split; [exact (FR_off _ _ (Fr Off) Off)|]. split; [unfold upto; rewrite D1; exact U|exact Hi].
    + apply orb_false_iff in Eb. destruct Eb as [_ Eb]. assert (Q0 : qlen (q_x s) <= 100).
      { unfold rmc_pub_queue_length, pub_queue_size in Eb. rewrite qlen_queued in W8. fold (qlen (q_x s)) in Eb. rewrite u32_small in Eb by (unfold is_u32, qlen, zlen in *; lia). lia. }
      destruct (serve s _) as [[c1 s1]| | |] eqn:E1; cbn [bind fst snd]; [|discriminate..]. destruct (serve_gen _ _ _ _ _ G W1 E1) as (g1 & G1 & F1 & D1 & L1).
      destruct (lib s1 _) as [[c2 s2]| | |] eqn:E2; cbn [bind fst snd]; [|discriminate..]. intros E. match type of E with Ok ?q = _ => assert (s' = q) as -> by congruence end.
      destruct (timeout_gen _ _ _ _ _ _ G1 W2 W3 E2) as (g2 & G2 & D2 & L2 & F2). specialize (F2 (FR_off _ _ F1 Off)). pose proof (FR_trans _ _ _ F1 F2) as F3. exists g2. split; [exact (gen_goto _ _ _ G2)|]. unfold at_loc. cbn [goto q_loc q_x].
      split; [exact (FR_off _ _ F3 Off)|]. split; [unfold upto; rewrite D2, D1; exact U|]. right. destruct F3 as (_ & _ & _ & _ & _ & F3). lia.
  - (* AtDrain *)
    destruct Lc as (Off & U). destruct (0 <? q_count s).
    + destruct (rmc_pub_timeout_get_next _) as [t| | |]; cbn [bind]; [|discriminate..]. intros E. match type of E with Ok ?q = _ => assert (s' = q) as -> by congruence end. exists g. split; [exact (gen_goto _ _ _ G)|]. split; assumption.
    + destruct (lib s _) as [[c1 s1]| | |] eqn:E1; cbn [bind fst snd]; [|discriminate..]. intros E. match type of E with Ok ?q = _ => assert (s' = q) as -> by congruence end.
      destruct (lib_ok x0 s g XDeactivate c1 s1 (proj1 G) Logic.I Logic.I E1) as (evs & X & P & L & _). cbn [xstep] in X. pose proof (pdeactivate_FR _ _ _ _ X) as Fr.
      exists (g_next g (q_x s) XDeactivate c1 evs). split; [exact (gen_goto _ _ _ (gen_WR _ _ _ _ G P eq_refl (FR_WR _ _ Fr)))|]. unfold at_loc. cbn [goto q_loc q_x]. split; [exact (FR_off _ _ Fr Off)|exact U].
  - (* AtCatch *)
    destruct Lc as (Off & U). destruct (_ && _).
    + destruct (lib s _) as [[c1 s1]| | |] eqn:E1; cbn [bind fst snd]; [|discriminate..]. destruct (timeout_gen _ _ _ _ _ _ G W2 W3 E1) as (g1 & G1 & D1 & L1 & F1). specialize (F1 Off).
      destruct (rmc_pub_timeout_get_next _) as [t| | |]; cbn [bind]; [|discriminate..]. destruct (serve s1 _) as [[c2 s2]| | |] eqn:E2; cbn [bind fst snd]; [|discriminate..]. destruct (serve_gen _ _ _ _ _ G1 W1 E2) as (g2 & G2 & F2 & D2 & L2).
      intros E. match type of E with Ok ?q = _ => assert (s' = q) as -> by congruence end. exists g2. split; [exact (gen_goto _ _ _ G2)|]. unfold at_loc. cbn [goto q_loc q_x]. split; [exact (FR_off _ _ (FR_trans _ _ _ F1 F2) Off)|]. rewrite D2, D1. exact U.
    + destruct (serve s _) as [[c2 s2]| | |] eqn:E2; cbn [bind fst snd]; [|discriminate..]. destruct (serve_gen _ _ _ _ _ G W1 E2) as (g2 & G2 & F2 & D2 & L2).
      intros E. match type of E with Ok ?q = _ => assert (s' = q) as -> by congruence end. exists g2. split; [exact (gen_goto _ _ _ G2)|]. unfold at_loc. cbn [goto q_loc q_x]. split; [exact (FR_off _ _ F2 Off)|]. rewrite D2. exact U.
  - intros E. assert (s' = s) as -> by congruence. exists g. split; [exact G|]. unfold at_loc. rewrite El. exact Lc.
  - intros E. assert (s' = s) as -> by congruence. exists g. split; [exact G|]. unfold at_loc. rewrite El. exact Lc.
Qed.
Lemma runs_PI s : setting stack a x0 -> runs stack a x0 s -> PI s.
Proof. intros S R. induction R as [|s n s' R IH W E]; [exact (PI_init S)|exact (PI_step _ _ _ S IH W E)]. Qed.
End Inv.

(** ** C96. The program *)
Lemma zlen_pos {A} (l : list A) : 0 < zlen l <-> l <> [].
Proof. destruct l as [|b l]; [cbv; intuition congruence|]. pose proof (zlen_nonneg l). unfold zlen in *. cbn [length]. split; [discriminate|lia]. Qed.
Lemma note_counted : forall log l0 l, fold_left note log (Some l0) = Some l -> fold_left counted log (zlen l0) = zlen l.
Proof.
  induction log as [|e log IH]; intros l0 l E; cbn [fold_left] in *; [congruence|]. destruct e; cbn [note counted] in *; try (exact (IH _ _ E)).
  - replace (zlen l0 + 1) with (zlen ((addr, port) :: l0)) by (rewrite zlen_cons; lia). exact (IH _ _ E).
  - destruct (take_out (addr, port) l0) as [l1|] eqn:Et; [|rewrite note_none in E; discriminate]. apply take_out_perm, Permutation_length in Et. replace (zlen l0 - 1) with (zlen l1) by (unfold zlen; cbn [length] in Et; lia). exact (IH _ _ E).
Qed.
(** subscriber_count is the number of open connections. *)
Theorem c96_audience : forall stack a x0 s, setting stack a x0 -> runs stack a x0 s -> q_count s = zlen (guests (q_x s)).
Proof.
  intros stack a x0 s S R. destruct (runs_PI _ _ _ _ S R) as (g & ((H & An & C) & _) & _). destruct (c81_attendance _ _ _ _ _ (proj1 S) H An) as (l & A & P). unfold attendance in A.
  rewrite C. change 0 with (zlen (@nil (Z * Z))). rewrite (note_counted _ _ _ A). unfold zlen. rewrite (Permutation_length P). reflexivity.
Qed.
(** The first packet is queued only, and as soon as, the expected number of subscribers is
    connected; until then nothing is. *)
Theorem c96_start : forall stack a x0 s n s', setting stack a x0 -> runs stack a x0 s -> world_ok stack (q_x s) n -> q_loc s = AtWait -> prog_step a s n = Ok s' ->
  (q_loc s' = AtSend 1 <-> a_expected a <= zlen (guests (q_x s))) /\ (q_loc s' = AtSend 1 \/ q_loc s' = AtWait) /\ exists g, xhist x0 (q_calls s) (q_x s) g (q_log s) /\ g_data g = [].
Proof.
  intros stack a x0 s n s' S R W El E. pose proof (c96_audience _ _ _ _ S R) as C. destruct (runs_PI _ _ _ _ S R) as (g & G & Lc). unfold at_loc in Lc. rewrite El in Lc.
  assert (K : (q_loc s' = AtSend 1 <-> a_expected a <= zlen (guests (q_x s))) /\ (q_loc s' = AtSend 1 \/ q_loc s' = AtWait)).
  { unfold prog_step in E. rewrite El, C in E. destruct (Z.ltb_spec (zlen (guests (q_x s))) (a_expected a)) as [Lt|Ge].
    - destruct (rmc_pub_timeout_get_next _) as [t| | |]; cbn [bind] in E; [|discriminate..]. destruct W as (W1 & W2 & W3 & _). destruct (sot_gen _ _ _ _ _ _ _ _ G W1 W2 W3 E) as (g1 & _ & _ & L1 & _). rewrite L1, El. split; [split; [discriminate|lia]|auto].
    - destruct (lib s _) as [[c1 s1]| | |]; cbn [bind fst snd] in E; [|discriminate..]. assert (q_loc s' = AtSend 1) as -> by (match type of E with Ok ?q = _ => assert (s' = q) as -> by congruence end; reflexivity). split; [split; auto|auto]. }
  split; [exact (proj1 K)|]. split; [exact (proj2 K)|]. exists g. split; [exact (proj1 (proj1 G))|exact Lc].
Qed.
(** What is handed to the library is, packet for packet, a part of the signals 1 to count from the
    beginning on, and all of them once the program is past the loop; its calls are ones the
    library's other properties speak of. *)
Theorem c96_payloads : forall stack a x0 s, setting stack a x0 -> runs stack a x0 s ->
  exists g packets rest, xhist x0 (q_calls s) (q_x s) g (q_log s) /\ concat packets = map (fun i => mkSig (u32 (a_node a)) (u32 i) (u32 (a_count a))) (upfrom 1 (Z.to_nat (a_count a))) /\
    map payload_of packets = g_data g ++ rest /\ (finished (q_loc s) -> rest = []).
Proof.
  intros stack a x0 s S R. destruct (runs_PI _ _ _ _ S R) as (g & G & Lc). destruct (c89_payloads (a_node a) (a_count a) (Datatypes.S (Z.to_nat (a_count a)))) as (ps & E & C & _); [apply S|lia|].
  exists g, ps. unfold at_loc in Lc. assert (K : exists rest, map payload_of ps = g_data g ++ rest /\ (finished (q_loc s) -> rest = [])).
  { destruct (q_loc s); cbn [finished] in *.
    - exists (map payload_of ps). rewrite Lc. split; [reflexivity|intros []].
    - exists (map payload_of ps). rewrite Lc. split; [reflexivity|intros []].
    - destruct Lc as (_ & (_ & _ & k & rest & _ & _ & U) & _). exists rest. split; [congruence|intros []].
    - destruct Lc as (_ & (_ & _ & k & rest & _ & _ & U) & _). exists rest. split; [congruence|intros []].
    - exists []. rewrite app_nil_r. destruct Lc as [_ U]. split; [congruence|reflexivity].
    - exists []. rewrite app_nil_r. destruct Lc as [_ U]. split; [congruence|reflexivity].
    - exists []. rewrite app_nil_r. destruct Lc as [_ U]. split; [congruence|reflexivity].
    - exists (map payload_of ps). rewrite (proj1 Lc). split; [reflexivity|intros []]. }
  destruct K as (rest & K1 & K2). exists rest. split; [exact (proj1 (proj1 G))|auto].
Qed.
(** It exits with 255 only if the context could not be activated. *)
Theorem c96_failure : forall stack a x0 s, setting stack a x0 -> runs stack a x0 s -> q_loc s = AtFail -> exists e ds early, In (XActivate (ActErr e ds early)) (q_calls s).
Proof. intros stack a x0 s S R El. destruct (runs_PI _ _ _ _ S R) as (g & _ & Lc). unfold at_loc in Lc. rewrite El in Lc. exact (proj2 Lc). Qed.
(** When it queues a packet other than the first, at most 100 are waiting. *)
Theorem c96_pace : forall stack a x0 s ind, setting stack a x0 -> runs stack a x0 s -> q_loc s = AtSend ind -> 1 < ind -> rmc_pub_queue_length (q_x s) <= 100 /\ zlen (queued (q_x s)) <= 100.
Proof.
  intros stack a x0 s ind S R El Hi. destruct (runs_PI _ _ _ _ S R) as (g & _ & Lc). unfold at_loc in Lc. rewrite El in Lc. destruct Lc as (_ & _ & [Q|Q]); [lia|]. rewrite qlen_queued. split; [|exact Q].
  unfold rmc_pub_queue_length, pub_queue_size. fold (qlen (q_x s)). rewrite u32_small; [exact Q|]. unfold is_u32, qlen, zlen in *. lia.
Qed.
(** It ends, deactivating the context, only once all packets are queued and every subscriber has
    gone; and then it does. *)
Theorem c96_end : forall stack a x0 s n s', setting stack a x0 -> runs stack a x0 s -> q_loc s <> AtDone -> prog_step a s n = Ok s' ->
  (q_loc s' = AtDone -> q_loc s = AtDrain /\ guests (q_x s) = [] /\ q_calls s' = q_calls s ++ [XDeactivate]) /\ (q_loc s = AtDrain -> guests (q_x s) = [] -> q_loc s' = AtDone).
Proof.
  intros stack a x0 s n s' S R Nd E. pose proof (c96_audience _ _ _ _ S R) as C.
  assert (Ll : forall s o c s1, lib s o = Ok (c, s1) -> q_loc s1 = q_loc s /\ q_calls s1 = q_calls s ++ [o]).
  { clear. intros s o c s1. unfold lib. destruct (xstep _ _) as [[[cd x'] evs]| | |]; cbn [bind]; [|discriminate..]. intros E. match type of E with Ok (_, ?q) = _ => assert (s1 = q) as -> by congruence end. split; reflexivity. }
  assert (Ls : forall s b c s1, serve s b = Ok (c, s1) -> q_loc s1 = q_loc s).
  { clear. intros s b c s1. unfold serve. destruct (pub_process_events _ _) as [[[cd x'] evs]| | |]; cbn [bind]; [|discriminate..]. intros E. match type of E with Ok (_, ?q) = _ => assert (s1 = q) as -> by congruence end. reflexivity. }
  unfold prog_step in E. destruct (q_loc s) as [| |ind|ind tout cur| |tout cur| |] eqn:El; try contradiction.
  - destruct (lib s _) as [[c1 s1]| | |]; cbn [bind fst snd] in E; [|discriminate..]. destruct (lib s1 _) as [[c2 s2]| | |]; cbn [bind fst snd] in E; [|discriminate..].
    match type of E with Ok ?q = _ => assert (s' = q) as -> by congruence end. cbn [goto q_loc]. split; [destruct (c2 =? 0); discriminate|discriminate].
  - split; [|discriminate]. destruct (_ <? _).
    + destruct (rmc_pub_timeout_get_next _) as [t| | |]; cbn [bind] in E; [|discriminate..]. unfold serve_or_timeout in E. destruct (serve s _) as [[c1 s1]| | |] eqn:E1; cbn [bind fst snd] in E; [|discriminate..]. apply Ls in E1.
      destruct (c1 =? ETIME); [destruct (lib s1 _) as [[c2 s2]| | |] eqn:E2; cbn [bind fst snd] in E; [|discriminate..]; apply Ll in E2; destruct E2 as [E2 _]|]; intros Q; exfalso; congruence.
    + destruct (lib s _) as [[c1 s1]| | |]; cbn [bind fst snd] in E; [|discriminate..]. match type of E with Ok ?q = _ => assert (s' = q) as -> by congruence end. discriminate.
  - split; [|discriminate]. destruct (_ <=? _).
    + destruct (fill _ _ _ _ _) as [f| | |]; cbn [bind] in E; [|discriminate..]. destruct (lib s _) as [[c1 s1]| | |]; cbn [bind fst snd] in E; [|discriminate..]. destruct (lib s1 _) as [[c2 s2]| | |]; cbn [bind fst snd] in E; [|discriminate..].
      destruct (c2 =? 0); match type of E with Ok ?q = _ => assert (s' = q) as -> by congruence end; discriminate.
    + destruct (lib s _) as [[c1 s1]| | |]; cbn [bind fst snd] in E; [|discriminate..]. match type of E with Ok ?q = _ => assert (s' = q) as -> by congruence end. discriminate.
  - split; [|discriminate]. destruct (_ || _).
    + destruct (rmc_pub_timeout_get_next _) as [t| | |]; cbn [bind] in E; [|discriminate..]. destruct (serve_or_timeout _ _ _ _) as [s1| | |]; cbn [bind] in E; [|discriminate..]. match type of E with Ok ?q = _ => assert (s' = q) as -> by congruence end. discriminate.
    + destruct (serve s _) as [[c1 s1]| | |]; cbn [bind fst snd] in E; [|discriminate..]. destruct (lib s1 _) as [[c2 s2]| | |]; cbn [bind fst snd] in E; [|discriminate..]. match type of E with Ok ?q = _ => assert (s' = q) as -> by congruence end. discriminate.
  - rewrite C in E. pose proof (zlen_pos (guests (q_x s))) as Zz.
    destruct (Z.ltb_spec 0 (zlen (guests (q_x s)))) as [Lt|Ge].
    + destruct (rmc_pub_timeout_get_next _) as [t| | |]; cbn [bind] in E; [|discriminate..]. match type of E with Ok ?q = _ => assert (s' = q) as -> by congruence end. split; [discriminate|]. intros _ Q. apply Zz in Lt. contradiction.
    + destruct (lib s _) as [[c1 s1]| | |] eqn:E1; cbn [bind fst snd] in E; [|discriminate..]. match type of E with Ok ?q = _ => assert (s' = q) as -> by congruence end. split; [|reflexivity]. intros _. split; [reflexivity|]. split; [destruct (guests (q_x s)) as [|p l]; [reflexivity|]; rewrite zlen_cons in Ge; pose proof (zlen_nonneg l); lia|]. exact (proj2 (Ll _ _ _ _ E1)).
  - split; [|discriminate]. destruct (_ && _).
    + destruct (lib s _) as [[c1 s1]| | |]; cbn [bind fst snd] in E; [|discriminate..]. destruct (rmc_pub_timeout_get_next _) as [t| | |]; cbn [bind] in E; [|discriminate..]. destruct (serve s1 _) as [[c2 s2]| | |]; cbn [bind fst snd] in E; [|discriminate..]. match type of E with Ok ?q = _ => assert (s' = q) as -> by congruence end. discriminate.
    + destruct (serve s _) as [[c2 s2]| | |]; cbn [bind fst snd] in E; [|discriminate..]. match type of E with Ok ?q = _ => assert (s' = q) as -> by congruence end. discriminate.
  - assert (Q : s' = s) by congruence. split; [intros Q2; exfalso; congruence|discriminate].
Qed.

(** Once it has begun to send, the rounds of its event loops queue nothing: there are no more
    announces. *)
Theorem c96_silence : forall stack a x0 s n s', setting stack a x0 -> runs stack a x0 s -> world_ok stack (q_x s) n -> prog_step a s n = Ok s' ->
  match q_loc s with AtPace _ _ _ | AtCatch _ _ => zlen (queued (q_x s')) <= zlen (queued (q_x s)) | _ => True end.
Proof.
  intros stack a x0 s n s' S R W E. destruct (runs_PI _ _ _ _ S R) as (g & G & Lc). unfold at_loc in Lc. destruct W as (W1 & W2 & W3 & _). rewrite !qlen_queued. unfold prog_step in E.
  assert (Q : forall x x', FR x x' -> qlen x' <= qlen x) by (intros x x' F; apply F).
  destruct (q_loc s) as [| |ind|ind tout cur| |tout cur| |] eqn:El; try exact Logic.I; destruct Lc as [La _].
  - destruct (_ || _).
    + destruct (rmc_pub_timeout_get_next _) as [t| | |]; cbn [bind] in E; [|discriminate..]. destruct (serve_or_timeout _ _ _ _) as [s1| | |] eqn:E1; cbn [bind] in E; [|discriminate..]. match type of E with Ok ?q = _ => assert (s' = q) as -> by congruence end.
      destruct (sot_gen _ _ _ _ _ _ _ _ G W1 W2 W3 E1) as (g1 & _ & _ & _ & F). exact (Q _ _ (F La)).
    + destruct (serve s _) as [[c1 s1]| | |] eqn:E1; cbn [bind fst snd] in E; [|discriminate..]. destruct (lib s1 _) as [[c2 s2]| | |] eqn:E2; cbn [bind fst snd] in E; [|discriminate..]. match type of E with Ok ?q = _ => assert (s' = q) as -> by congruence end.
      destruct (serve_gen _ _ _ _ _ _ _ G W1 E1) as (g1 & G1 & F1 & _). destruct (timeout_gen _ _ _ _ _ _ _ _ G1 W2 W3 E2) as (g2 & _ & _ & _ & F2). exact (Q _ _ (FR_trans _ _ _ F1 (F2 (FR_off _ _ F1 La)))).
  - destruct (_ && _).
    + destruct (lib s _) as [[c1 s1]| | |] eqn:E1; cbn [bind fst snd] in E; [|discriminate..]. destruct (rmc_pub_timeout_get_next _) as [t| | |]; cbn [bind] in E; [|discriminate..]. destruct (serve s1 _) as [[c2 s2]| | |] eqn:E2; cbn [bind fst snd] in E; [|discriminate..]. match type of E with Ok ?q = _ => assert (s' = q) as -> by congruence end.
      destruct (timeout_gen _ _ _ _ _ _ _ _ G W2 W3 E1) as (g1 & G1 & _ & _ & F1). destruct (serve_gen _ _ _ _ _ _ _ G1 W1 E2) as (g2 & _ & F2 & _). exact (Q _ _ (FR_trans _ _ _ (F1 La) F2)).
    + destruct (serve s _) as [[c2 s2]| | |] eqn:E2; cbn [bind fst snd] in E; [|discriminate..]. match type of E with Ok ?q = _ => assert (s' = q) as -> by congruence end. destruct (serve_gen _ _ _ _ _ _ _ G W1 E2) as (g2 & _ & F2 & _). exact (Q _ _ F2).
Qed.

(** ** Runs *)
Definition pin_okb (n : pin) : bool :=
  match n_acc n with AccOk d _ nodelay => (0 <=? d) && (nodelay =? 0) | AccErr e => negb (e =? 0) end &&
  match n_writev n with WOk k => (0 <=? k) && (k <? 4294967296) | WErr e => negb (e =? 0) end.
Definition world_okb (x : pctx) (n : pinput) : bool :=
  forallb (fun e : ready * pin => pin_okb (snd e)) (i_ready n) && (i_buf n <? 0) && (0 <? i_ptr n) && match x_mem x (i_ptr n) with None => true | _ => false end &&
  match i_act n with ActOk _ _ port => (0 <=? port) && (port <? 65536) | ActErr e _ _ => negb (e =? 0) end && (zlen (queued x) <? 4294967296).
Definition below (p : Z) : Prop := p < 0.
Lemma world_okb_ok x n : world_okb x n = true -> world_ok below x n.
Proof.
  unfold world_okb. intros E. repeat match goal with H : _ && _ = true |- _ => apply andb_prop in H; destruct H end. unfold world_ok, below. split.
  - apply Forall_forall. intros e He. match goal with H : forallb _ _ = true |- _ => rewrite forallb_forall in H; pose proof (H e He) as K end. unfold pin_okb in K. apply andb_prop in K. destruct K as [K1 K2].
    split; [destruct (n_acc (snd e)); lia|]. unfold is_u32. destruct (n_writev (snd e)); lia.
  - split; [lia|]. split; [lia|]. split; [lia|]. split; [lia|]. split; [destruct (x_mem x (i_ptr n)); [discriminate|reflexivity]|]. split; [unfold is_u16; destruct (i_act n); lia|lia].
Qed.
Fixpoint prog_run (a : pargs) (s : pprog) (l : list pinput) : option pprog :=
  match l with
  | [] => Some s
  | n :: r => if world_okb (q_x s) n then match prog_step a s n with Ok s' => prog_run a s' r | _ => None end else None
  end.
Lemma prog_run_runs a x0 : forall l s s', runs below a x0 s -> prog_run a s l = Some s' -> runs below a x0 s'.
Proof.
  induction l as [|n l IH]; intros s s' R; cbn [prog_run]; [congruence|]. destruct (world_okb (q_x s) n) eqn:W; [|discriminate]. destruct (prog_step a s n) as [s1| | |] eqn:E; try discriminate.
  apply IH. exact (runs_step _ _ _ _ _ _ R (world_okb_ok _ _ W) E).
Qed.
Lemma prog_check a x0 l (f : pprog -> bool) : (match prog_run a (prog_init x0) l with Some s => f s | None => false end) = true -> exists s, runs below a x0 s /\ f s = true.
Proof. destruct (prog_run a (prog_init x0) l) as [s|] eqn:E; [|discriminate]. intros H. exists s. split; [exact (prog_run_runs _ _ _ _ _ (runs_init _ _ _) E)|exact H]. Qed.
Definition locb (l : ploc) (k : Z) : bool := match l with AtSend i => k =? i | _ => false end.
Definition doneb (l : ploc) : bool := match l with AtDone => true | _ => false end.
(** One subscriber is awaited; there are two signals, in one packet. *)
Definition demo_args : pargs := mkPa 7 2 1 0 (fun _ => true).
Definition din (now : Z) (b : list (ready * pin)) : pinput := mkPi now now b (-8) (ActOk 3 4 0) (100 + now) 0 0.
Definition dev (i ev : Z) (r : rres) : ready * pin := (mkRdy 0 i ev, mkPin (AccOk 5 1 0) None None r [SndOk 500000] (WOk 0)).
(** Activation; an announce is due; it is sent and a subscriber comes; the announces stop. *)
Definition demo_wait : list pinput := [din 0 []; din 400000 []; din 400001 [dev RMC_LISTEN_INDEX EPOLLIN RErr; dev RMC_MULTICAST_INDEX EPOLLOUT RErr]; din 400002 []].
(** The packet is queued, and multicast; the loop ends; the acknowledgement comes; the subscriber goes; the end. *)
Definition demo_send : list pinput :=
  [din 400003 []; din 400004 [dev RMC_MULTICAST_INDEX EPOLLOUT RErr]; din 400005 []; din 400006 []; din 400007 [dev 0 EPOLLIN (RData (wire (CmdAck 1 1)))]; din 400008 []; din 400009 [dev 0 EPOLLIN (RData [])]; din 400010 []].
Lemma demo_setting : setting below demo_args demo0.
Proof. split; [exact demo0_fresh|]. split; [reflexivity|]. cbn. lia. Qed.
Example c96_witness_wait : exists s, runs below demo_args demo0 s /\ q_loc s = AtSend 1 /\ zlen (guests (q_x s)) = 1 /\ length (flat_map cast_ev (q_log s)) = 1%nat.
Proof.
  destruct (prog_check demo_args demo0 demo_wait (fun s => locb (q_loc s) 1 && (zlen (guests (q_x s)) =? 1) && Nat.eqb (length (flat_map cast_ev (q_log s))) 1)) as (s & R & E); [vm_compute; reflexivity|].
  apply andb_prop in E. destruct E as [E E3]. apply andb_prop in E. destruct E as [E1 E2]. exists s. split; [exact R|]. split; [destruct (q_loc s); try discriminate; cbn [locb] in E1; f_equal; lia|]. split; [lia|]. apply Nat.eqb_eq. exact E3.
Qed.
Example c96_witness : exists s, runs below demo_args demo0 s /\ q_loc s = AtDone /\ length (flat_map cast_ev (q_log s)) = 2%nat /\ flat_map freed_ev (q_log s) = [(400103, 40)].
Proof.
  destruct (prog_check demo_args demo0 (demo_wait ++ demo_send) (fun s => doneb (q_loc s) && Nat.eqb (length (flat_map cast_ev (q_log s))) 2 && pairsb (flat_map freed_ev (q_log s)) [(400103, 40)])) as (s & R & E); [vm_compute; reflexivity|].
  apply andb_prop in E. destruct E as [E E3]. apply andb_prop in E. destruct E as [E1 E2]. exists s. split; [exact R|]. split; [destruct (q_loc s); try discriminate; reflexivity|]. split; [apply Nat.eqb_eq; exact E2|]. unfold pairsb in E3. destruct (list_eq_dec _ _ _) in E3; [assumption|discriminate].
Qed.
(** It need not send anything: when nobody is connected it ends at once, with exit code 0, however
    much it has queued. *)
Definition hasty_args : pargs := mkPa 7 2 0 0 (fun _ => false).
Theorem c96_unsent_refuted : exists s g, runs below hasty_args demo0 s /\ setting below hasty_args demo0 /\ q_loc s = AtDone /\ xhist demo0 (q_calls s) (q_x s) g (q_log s) /\
  g_data g = [payload_of [mkSig 7 1 2; mkSig 7 2 2]] /\ flat_map cast_ev (q_log s) = [] /\ map fst (queued (q_x s)) = [1].
Proof.
  assert (S : setting below hasty_args demo0) by (split; [exact demo0_fresh|]; split; [reflexivity|]; cbn; lia).
  destruct (prog_check hasty_args demo0 [din 0 []; din 1 []; din 2 []; din 3 []; din 4 []; din 5 []] (fun s => doneb (q_loc s) && Nat.eqb (length (flat_map cast_ev (q_log s))) 0 && listb (map fst (queued (q_x s))) [1])) as (s & R & E); [vm_compute; reflexivity|].
  apply andb_prop in E. destruct E as [E E3]. apply andb_prop in E. destruct E as [E1 E2].
  destruct (runs_PI _ _ _ _ S R) as (g & (H & _) & Lc). exists s, g. split; [exact R|]. split; [exact S|].
  assert (K : q_loc s = AtDone /\ flat_map cast_ev (q_log s) = [] /\ map fst (queued (q_x s)) = [1]) by (split; [destruct (q_loc s); try discriminate; reflexivity|]; split; [apply length_zero_iff_nil, Nat.eqb_eq; exact E2|exact (listb_eq _ _ E3)]).
  destruct K as (K1 & K2 & K3). split; [exact K1|]. split; [exact (proj1 H)|]. split; [|auto]. unfold at_loc in Lc. rewrite K1 in Lc. destruct Lc as [_ Lc].
  assert (T : test_payloads (Datatypes.S (Z.to_nat (a_count hasty_args))) (a_node hasty_args) (a_count hasty_args) = Ok [payload_of [mkSig 7 1 2; mkSig 7 2 2]]) by (vm_compute; reflexivity). congruence.
Qed.
(** ** The announce timer *)
(** C44: nothing but rmc_pub_set_announce_interval and an announce that is due changes the announce
    interval or the time of the next announce; in particular (de)activation, traffic, acknowledgements
    and retransmissions leave both alone. *)
Lemma queue_timer x p l a code x' evs : rmc_pub_queue_packet x p l a = Ok (code, x', evs) -> x_aint x' = x_aint x /\ x_anext x' = x_anext x.
Proof.
  unfold rmc_pub_queue_packet. destruct (_ =? _); [intros E; injection E as _ <- _; auto|]. destruct (_ <? _); [intros E; injection E as _ <- _; auto|].
  destruct (x_susp x); [intros E; injection E as _ <- _; auto|]. cbv zeta. match goal with |- context [bind ?h _] => destruct h as [w| | |] end; cbn [bind]; [|discriminate..].
  intros E. injection E as _ <- _. match goal with |- context [if ?b then _ else _] => destruct b end; auto.
Qed.
Lemma close_loop_timer n : forall x i x' evs, close_loop n x i = Ok (x', evs) -> x_aint x' = x_aint x /\ x_anext x' = x_anext x.
Proof.
  induction n as [|n IH]; intros x i x' evs; cbn [close_loop]; [intros E; injection E as <- _; auto|]. destruct (find_by_index _ _) as [[c|]| | |]; cbn [bind]; [| |discriminate..]; [|apply IH].
  destruct (rmc_pub_close_connection x i) as [[[cd x1] e1]| | |] eqn:E1; cbn [bind]; [|discriminate..]. destruct (close_loop n x1 (i + 1)) as [[x2 e2]| | |] eqn:E2; cbn [bind fst snd]; [|discriminate..].
  intros E. injection E as <- _. destruct (pclose_FR _ _ _ _ _ E1) as (_ & _ & _ & A & B & _). destruct (IH _ _ _ _ E2) as [C D]. split; congruence.
Qed.
Theorem c44_timer_kept : forall x o code x' evs, xstep x o = Ok (code, x', evs) ->
  match o with XInterval _ _ => False | XTimeout now _ _ => announce_due x now = false | _ => True end ->
  x_aint x' = x_aint x /\ x_anext x' = x_anext x.
Proof.
  intros x o code x' evs E H. assert (G : FR x x' -> x_aint x' = x_aint x /\ x_anext x' = x_anext x) by (intros (_ & _ & _ & A & B & _); auto).
  destruct o as [ptr bs|ptr|ptr len an|i o|i o|now buf o|i|iv now|su re|b|o|]; cbn [xstep] in E.
  - assert (x' = set_mem x (updz (x_mem x) ptr (Some bs))) as -> by congruence. auto.
  - assert (x' = set_mem x (updz (x_mem x) ptr None)) as -> by congruence. auto.
  - exact (queue_timer _ _ _ _ _ _ _ E).
  - destruct (rmc_pub_read x i o) as [[[[cd op] x1] e1]| | |] eqn:E1; cbn [bind] in E; [|discriminate E..]. assert (x' = x1) as -> by congruence. exact (G (pread_FR _ _ _ _ _ _ _ E1)).
  - destruct (rmc_pub_write x i o) as [[[[cd op] x1] e1]| | |] eqn:E1; cbn [bind] in E; [|discriminate E..]. assert (x' = x1) as -> by congruence. exact (G (pwrite_FR _ _ _ _ _ _ _ E1)).
  - revert E. unfold rmc_pub_timeout_process. rewrite H. destruct (pub_get_timed_out_subscribers _ _ _) as [subs| | |]; cbn [bind]; [|discriminate..]. intros E. exact (G (subs_loop_FR _ _ _ _ _ _ E)).
  - exact (G (pclose_FR _ _ _ _ _ E)).
  - contradiction.
  - revert E. unfold rmc_pub_throttling. repeat match goal with |- context [if ?b then _ else _] => destruct b end; intros E; match type of E with Ok (_, ?y, _) = _ => assert (x' = y) as -> by congruence end; auto.
  - assert (x' = rmc_pub_set_control_message_callback x b) as -> by congruence. auto.
  - revert E. unfold rmc_pub_activate_context. repeat match goal with |- context [if ?b then _ else _] => destruct b | |- context [match ?q with ActOk _ _ _ => _ | _ => _ end] => destruct q end; intros E;
      match type of E with Ok ?q = _ => assert (x' = snd (fst q)) as -> by (injection E; intros; subst; reflexivity) end; cbn [fst snd]; repeat match goal with |- context [if ?b then _ else _] => destruct b end; auto.
  - revert E. unfold rmc_pub_deactivate_context. cbv zeta. match goal with |- context [bind ?h _] => destruct h as [[x1 e1]| | |] eqn:E1 end; cbn [bind fst snd]; [|discriminate..]. intros E.
    assert (x' = set_descs x1 (-1) (-1)) as -> by congruence. cbn [set_descs x_aint x_anext]. destruct (_ =? RMC_NIL_INDEX); [assert (x1 = x) as -> by congruence; auto|exact (close_loop_timer _ _ _ _ _ E1)].
Qed.
(** An announce interval set before activation is still there afterwards. *)
Example c44_timer_nonvacuous : exists x x' evs, xstep x (XActivate (ActOk 3 4 0)) = Ok (0, x', evs) /\ x_aint x' = 500 /\ x_anext x' = 9500.
Proof.
  exists (rmc_pub_set_announce_interval demo0 500 9000). destruct (xstep (rmc_pub_set_announce_interval demo0 500 9000) (XActivate (ActOk 3 4 0))) as [[[c x'] evs]| | |] eqn:E; [|vm_compute in E; discriminate..].
  exists x', evs. destruct (c44_timer_kept _ _ _ _ _ E Logic.I) as [A B]. rewrite A, B. split; [vm_compute in E; injection E as <- <- <-; reflexivity|split; reflexivity].
Qed.
(** While the program waits it announces every 0.3 s: that is the interval set, and when the time has come in
    a round without events one announcement is queued and the next one is due 0.3 s later. *)
Lemma timeout_aint x now buf o code x' evs : rmc_pub_timeout_process x now buf o = Ok (code, x', evs) -> x_aint x' = x_aint x.
Proof.
  destruct (announce_due x now) eqn:D; intros E.
  2:{ exact (proj1 (c44_timer_kept x (XTimeout now buf o) code x' evs E D)). }
  revert E. unfold rmc_pub_timeout_process. rewrite D. destruct o as [| |bs len]; cbv zeta; cbn [bind].
  2:{ intros E. match type of E with Ok ?q = _ => assert (x' = snd (fst q)) as -> by (injection E; intros; subst; reflexivity) end. reflexivity. }
  all: match goal with |- context [bind ?h _] => destruct h as [[[c x2] e2]| | |] eqn:E2 end; cbn [bind]; [|discriminate..]; intros E;
    match type of E with Ok ?q = _ => assert (x' = snd (fst q)) as -> by (injection E; intros; subst; reflexivity) end; exact (proj1 (queue_timer _ _ _ _ _ _ _ E2)).
Qed.
Theorem c96_interval : forall stack a x0 s, setting stack a x0 -> runs stack a x0 s -> q_loc s = AtWait -> x_aint (q_x s) = 300000.
Proof.
  intros stack a x0 s S R. induction R as [|s n s' R IH W E]; [discriminate|]. destruct (runs_PI _ _ _ _ S R) as (g & G & _). destruct W as (W1 & W2 & W3 & W4 & W5 & W6 & W7 & W8).
  revert E. unfold prog_step. destruct (q_loc s) as [| |ind|ind tout cur| |tout cur| |] eqn:El.
  - destruct (lib s _) as [[c1 s1]| | |] eqn:E1; cbn [bind fst snd]; [|discriminate..]. destruct (interval_gen _ _ _ _ _ _ _ _ G E1) as (g1 & G1 & _ & _ & A1 & _).
    destruct (lib s1 _) as [[c2 s2]| | |] eqn:E2; cbn [bind fst snd]; [|discriminate..]. intros E. match type of E with Ok ?q = _ => assert (s' = q) as -> by congruence end. intros _. cbn [goto q_x].
    destruct (lib_ok x0 s1 g1 (XActivate (i_act n)) c2 s2 (proj1 G1) ltac:(cbn [xok]; destruct (i_act n); [exact Logic.I|exact W7]) Logic.I E2) as (evs & X & _). destruct (c44_timer_kept _ _ _ _ _ X Logic.I) as [A _]. congruence.
  - destruct (q_count s <? a_expected a).
    + destruct (rmc_pub_timeout_get_next _) as [t| | |]; cbn [bind]; [|discriminate..]. unfold serve_or_timeout. destruct (serve s _) as [[cd s1]| | |] eqn:E1; cbn [bind fst snd]; [|discriminate..].
      destruct (serve_gen _ _ _ _ _ _ _ G W1 E1) as (g1 & G1 & (_ & _ & _ & F1 & _) & _ & L1). destruct (cd =? ETIME); [|intros E; assert (s' = s1) as -> by congruence; intros _; rewrite F1; auto].
      destruct (lib s1 _) as [[c2 s2]| | |] eqn:E2; cbn [bind snd]; [|discriminate..]. intros E. assert (s' = s2) as -> by congruence. intros _.
      destruct (lib_ok x0 s1 g1 (XTimeout (i_now n) (i_buf n) AnnNone) c2 s2 (proj1 G1) ltac:(split; [exact W2|split; [exact (proj1 (proj2 G1) _ W3)|exact Logic.I]]) Logic.I E2) as (evs & X & _). cbn [xstep] in X.
      rewrite (timeout_aint _ _ _ _ _ _ _ X), F1. auto.
    + destruct (lib s _) as [[c1 s1]| | |]; cbn [bind fst snd]; [|discriminate..]. intros E. match type of E with Ok ?q = _ => assert (s' = q) as -> by congruence end. discriminate.
  - destruct (ind <=? a_count a).
    + destruct (fill _ _ _ _ _) as [f| | |]; cbn [bind]; [|discriminate..]. cbv zeta. destruct (lib s _) as [r1| | |]; cbn [bind]; [|discriminate..]. destruct (lib (snd r1) _) as [r2| | |]; cbn [bind]; [|discriminate..].
      destruct (fst r2 =? 0); intros E; match type of E with Ok ?q = _ => assert (s' = q) as -> by congruence end; discriminate.
    + destruct (lib s _) as [r1| | |]; cbn [bind]; [|discriminate..]. intros E. match type of E with Ok ?q = _ => assert (s' = q) as -> by congruence end; discriminate.
  - destruct (_ || _).
    + destruct (rmc_pub_timeout_get_next _) as [t| | |]; cbn [bind]; [|discriminate..]. destruct (serve_or_timeout _ _ _ _) as [s1| | |]; cbn [bind]; [|discriminate..]. intros E. match type of E with Ok ?q = _ => assert (s' = q) as -> by congruence end; discriminate.
    + destruct (serve _ _) as [r1| | |]; cbn [bind]; [|discriminate..]. destruct (lib _ _) as [r2| | |]; cbn [bind]; [|discriminate..]. intros E. match type of E with Ok ?q = _ => assert (s' = q) as -> by congruence end; discriminate.
  - destruct (_ <? _).
    + destruct (rmc_pub_timeout_get_next _) as [t| | |]; cbn [bind]; [|discriminate..]. intros E. match type of E with Ok ?q = _ => assert (s' = q) as -> by congruence end; discriminate.
    + destruct (lib _ _) as [r2| | |]; cbn [bind]; [|discriminate..]. intros E. match type of E with Ok ?q = _ => assert (s' = q) as -> by congruence end; discriminate.
  - destruct (_ && _).
    + destruct (lib _ _) as [r1| | |]; cbn [bind]; [|discriminate..]. destruct (rmc_pub_timeout_get_next _) as [t| | |]; cbn [bind]; [|discriminate..]. destruct (serve _ _) as [r2| | |]; cbn [bind]; [|discriminate..].
      intros E. match type of E with Ok ?q = _ => assert (s' = q) as -> by congruence end; discriminate.
    + destruct (serve _ _) as [r2| | |]; cbn [bind]; [|discriminate..]. intros E. match type of E with Ok ?q = _ => assert (s' = q) as -> by congruence end; discriminate.
  - intros E. assert (s' = s) as -> by congruence. rewrite El. discriminate.
  - intros E. assert (s' = s) as -> by congruence. rewrite El. discriminate.
Qed.
Theorem c96_announces : forall stack a x0 s n s', setting stack a x0 -> runs stack a x0 s -> world_ok stack (q_x s) n -> prog_step a s n = Ok s' ->
  q_loc s = AtWait -> q_loc s' = AtWait -> i_ready n = [] -> x_anext (q_x s) <> 0 -> x_anext (q_x s) <= i_now n ->
  Permutation (queued (q_x s')) ((0, (i_buf n, 0)) :: queued (q_x s)) /\ x_aint (q_x s') = 300000 /\ x_anext (q_x s') = i_now n + 300000.
Proof.
  intros stack a x0 s n s' S R W E El El' Hr Hn Hd. pose proof (c96_interval _ _ _ _ S R El) as Hi. pose proof (c96_interval _ _ _ _ S (runs_step _ _ _ _ _ _ R W E) El') as Hi'.
  destruct (runs_PI _ _ _ _ S R) as (g & G & _). destruct W as (W1 & W2 & W3 & _). revert E. unfold prog_step. rewrite El. destruct (q_count s <? a_expected a).
  2:{ destruct (lib s _) as [r1| | |]; cbn [bind]; [|discriminate..]. intros E. match type of E with Ok ?q = _ => assert (s' = q) as -> by congruence end. discriminate El'. }
  destruct (rmc_pub_timeout_get_next _) as [t| | |]; cbn [bind]; [|discriminate..]. unfold serve_or_timeout, serve. rewrite Hr. cbn [map pub_process_events bind]. cbv zeta. cbn [fst snd flat_map map fold_left]. change (ETIME =? ETIME) with true. cbv iota.
  rewrite !app_nil_r. match goal with |- context [lib ?q _] => replace q with s by (destruct s; reflexivity) end.
  destruct (lib s _) as [[c2 s2]| | |] eqn:E2; cbn [bind snd]; [|discriminate..]. intros E. assert (s' = s2) as -> by congruence.
  assert (K : xok (q_x s) g (XTimeout (i_now n) (i_buf n) AnnNone)) by (split; [exact W2|split; [exact (proj1 (proj2 G) _ W3)|exact Logic.I]]).
  destruct (lib_ok x0 s g (XTimeout (i_now n) (i_buf n) AnnNone) c2 s2 (proj1 G) K Logic.I E2) as (evs & X & _). cbn [xstep] in X.
  assert (Rx : reached (q_x s) g (q_log s)) by (exists x0, (q_calls s); split; [exact (proj1 S)|exact (proj1 (proj1 G))]).
  destruct (c44_announce_due _ _ _ _ _ _ _ _ _ Rx K ltac:(lia) Hn Hd X) as (_ & _ & A & _ & _ & _ & _ & Q). cbn [announced] in Q. destruct G as (_ & _ & _ & _ & Su). unfold rmc_pub_traffic_suspended in Q. rewrite Su in Q. cbv iota in Q. change (0 =? 0) with true in Q. cbv iota in Q.
  split; [exact Q|]. split; [exact Hi'|]. rewrite A, Hi. reflexivity.
Qed.

Definition waitb (l : ploc) : bool := match l with AtWait => true | _ => false end.
Example c96_announces_witness : exists s n s', runs below demo_args demo0 s /\ world_ok below (q_x s) n /\ prog_step demo_args s n = Ok s' /\
  q_loc s = AtWait /\ q_loc s' = AtWait /\ i_ready n = [] /\ x_anext (q_x s) <> 0 /\ x_anext (q_x s) <= i_now n.
Proof.
  destruct (prog_check demo_args demo0 [din 0 []] (fun s => waitb (q_loc s) && world_okb (q_x s) (din 400000 []) && (x_anext (q_x s) =? 300000) &&
    match prog_step demo_args s (din 400000 []) with Ok s' => waitb (q_loc s') | _ => false end)) as (s & R & E); [vm_compute; reflexivity|].
  apply andb_prop in E. destruct E as [E E4]. apply andb_prop in E. destruct E as [E E3]. apply andb_prop in E. destruct E as [E1 E2].
  destruct (prog_step demo_args s (din 400000 [])) as [s'| | |] eqn:Es; try discriminate E4. exists s, (din 400000 []), s'.
  split; [exact R|]. split; [exact (world_okb_ok _ _ E2)|]. split; [exact Es|]. split; [destruct (q_loc s); (discriminate || reflexivity)|]. split; [destruct (q_loc s'); (discriminate || reflexivity)|].
  split; [reflexivity|]. apply Z.eqb_eq in E3. rewrite E3. split; [discriminate|]. cbn [din i_now]. lia.
Qed.

Print Assumptions c96_interval. Print Assumptions c96_announces.
Print Assumptions c44_timer_kept.
Print Assumptions c96_audience. Print Assumptions c96_start. Print Assumptions c96_payloads. Print Assumptions c96_failure. Print Assumptions c96_pace. Print Assumptions c96_end. Print Assumptions c96_silence. Print Assumptions c96_unsent_refuted.
