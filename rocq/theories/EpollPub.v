(** EpollPub.v — the epoll set of a publisher context. *)
From Verif Require Import Base CircBuf CircBufProofs Wire SeqList Pub SpecPub PubProofs Proto SpecProto ProtoProofs Safe
  Conn SpecConn ConnProofs PubCtx SpecPubCtx PubCtxProofs PubCtxSteps PropPubCtx SpecPubRecv PubRecv SpecPoll PollPub PollMcast
  SubCtx PollSub SpecDesc Desc Epoll SpecEpoll EpollProofs.

Definition PW (x x' : pctx) (evs : list pev) : Prop :=
  v_size (x_vec x') = v_size (x_vec x) /\
  (v_size (x_vec x) <= RMC_LISTEN_INDEX -> forall S, special S -> WT (ovw S (x_vec x)) (pub_polls evs) (ovw S (x_vec x'))).
Lemma PW_trans x y z e1 e2 : PW x y e1 -> PW y z e2 -> PW x z (e1 ++ e2).
Proof.
  intros [A1 A2] [B1 B2]. split; [congruence|]. intros Hz S HS. rewrite polls_app. refine (WT_trans _ _ _ _ _ (A2 Hz S HS) (B2 _ S HS)). rewrite A1. exact Hz.
Qed.
Lemma PW_same x x' evs : x_vec x' = x_vec x -> pub_polls evs = [] -> PW x x' evs.
Proof. intros A B. split; [rewrite A; reflexivity|]. intros Hz S HS. rewrite A, B. apply WT_nil. reflexivity. Qed.
Lemma PW_refl x : PW x x [].
Proof. apply PW_same; reflexivity. Qed.
Lemma PW_put x x1 i c c' pre : is_open (x_vec x) i c -> c_mode c' <> CLOSED -> c_desc c' = c_desc c -> x_vec x1 = put_slot (x_vec x) i c' -> pub_polls pre = [] ->
  PW x x1 (pre ++ [PvConn (EvMod (c_desc c) i (c_action c) (c_action c'))]).
Proof. intros Ho Hm Hd E P. split; [rewrite E; apply size_put|]. intros Hz S HS. rewrite polls_app, P, E. exact (put_WT S HS _ i c c' Hz Ho Hm Hd). Qed.
Lemma PW_keep x x1 i c c' : slot (x_vec x) i = Ok c -> c_mode c' = c_mode c -> c_desc c' = c_desc c -> c_action c' = c_action c -> x_vec x1 = put_slot (x_vec x) i c' -> PW x x1 [].
Proof.
  intros Hs Hm Hd Ha E. split; [rewrite E; apply size_put|]. intros Hz S HS. rewrite E. apply (keep_WT S _ i c); [exact Hs|rewrite Hm; reflexivity|]. intros _. split; assumption.
Qed.
Lemma packet_ack_PW x i k x' evs : rmc_pub_packet_ack x i k = Ok (x', evs) -> PW x x' evs.
Proof. intros E. destruct (ack_frame _ _ _ _ _ E) as [V F]. apply PW_same; [exact V|exact (polls_free _ F)]. Qed.
Lemma resend_PW x i a code x' evs : (exists c, is_open (x_vec x) i c) -> rmc_pub_resend_packet x i a = Ok (code, x', evs) -> PW x x' evs.
Proof.
  intros [c Ho]. unfold rmc_pub_resend_packet. rewrite (proj1 Ho). cbn [bind]. destruct (get_pack _ _) as [p| | |]; cbn [bind]; [|discriminate..].
  match goal with |- context [bind ?h _] => destruct h as [w| | |] end; cbn [bind]; [|discriminate..].
  destruct (_ =? 0); intros E; injection E as _ <- <-.
  - apply (PW_put x _ i c (set_action (set_wbuf c (snd w)) (Z.lor (c_action c) POLLWRITE)) []); [exact Ho|exact (proj2 Ho)|reflexivity|reflexivity|reflexivity].
  - eapply (PW_keep x _ i c); [exact (proj1 Ho)| | | |reflexivity]; reflexivity.
Qed.
(** Open connections stay open. *)
Definition KO (x x' : pctx) : Prop := forall i, (exists c, is_open (x_vec x) i c) -> exists c, is_open (x_vec x') i c.
Lemma KO_KP x x' evs : KP x x' evs -> KO x x'.
Proof. intros (A & _) i [c Ho]. assert (Q : sdesc (x_vec x') i = Some (c_desc c)) by (rewrite A; exact (sdesc_open _ _ _ Ho)). apply sdesc_some in Q. destruct Q as (c' & Q & _). eauto. Qed.
Lemma sent_timeout_PW x i a code x' evs : (exists c, is_open (x_vec x) i c) -> process_sent_packet_timeout x i a = Ok (code, x', evs) -> PW x x' evs.
Proof.
  intros Ho. unfold process_sent_packet_timeout. destruct (slot (x_vec x) i) as [c| | |] eqn:Hs; cbn [bind]; [|discriminate..]. destruct (get_pack _ _) as [p| | |]; cbn [bind]; [|discriminate..].
  destruct (negb _).
  - destruct (rmc_pub_packet_ack x i _) as [[x1 e1]| | |] eqn:E1; cbn [bind fst snd]; [|discriminate..]. intros E. assert (x' = x1 /\ evs = e1) as [-> ->] by (split; congruence). exact (packet_ack_PW _ _ _ _ _ E1).
  - destruct (rmc_pub_resend_packet x i a) as [[[cd x1] e1]| | |] eqn:E1; cbn [bind]; [|discriminate..]. pose proof (resend_PW _ _ _ _ _ _ Ho E1) as K1. destruct (cd =? 0).
    + destruct (rmc_pub_packet_ack x1 i _) as [[x2 e2]| | |] eqn:E2; cbn [bind fst snd]; [|discriminate..]. intros E. assert (x' = x2 /\ evs = e1 ++ e2) as [-> ->] by (split; congruence). exact (PW_trans _ _ _ _ _ K1 (packet_ack_PW _ _ _ _ _ E2)).
    + intros E. assert (x' = x1 /\ evs = e1) as [-> ->] by (split; congruence). exact K1.
Qed.
Lemma resend_loop_PW i : forall packs x code x' evs, (exists c, is_open (x_vec x) i c) -> resend_loop x i packs = Ok (code, x', evs) -> PW x x' evs.
Proof.
  induction packs as [|a packs IH]; intros x code x' evs Ho; cbn [resend_loop]; [intros E; injection E as _ <- <-; apply PW_refl|].
  destruct (process_sent_packet_timeout x i a) as [[[cd x1] e1]| | |] eqn:E1; cbn [bind]; [|discriminate..]. pose proof (sent_timeout_PW _ _ _ _ _ _ Ho E1) as K1.
  pose proof (KO_KP _ _ _ (sent_timeout_KP _ _ _ _ _ _ E1)) as O1.
  destruct (negb _); [intros E; injection E as _ <- <-; exact K1|]. destruct (resend_loop x1 i packs) as [[[cd2 x2] e2]| | |] eqn:E2; cbn [bind]; [|discriminate..].
  intros E. injection E as _ <- <-. exact (PW_trans _ _ _ _ _ K1 (IH _ _ _ _ (O1 i Ho) E2)).
Qed.
Lemma subs_loop_PW now : forall subs x code x' evs, (forall n, In n subs -> exists c, is_open (x_vec x) (Z.of_nat n) c) -> subs_loop x now subs = Ok (code, x', evs) -> PW x x' evs.
Proof.
  induction subs as [|a subs IH]; intros x code x' evs Ho; cbn [subs_loop]; [intros E; injection E as _ <- <-; apply PW_refl|].
  unfold process_subscriber_timeout. destruct (pub_get_timed_out_packets _ _ _ _) as [packs| | |]; cbn [bind]; [|discriminate..].
  destruct (resend_loop x (Z.of_nat a) packs) as [[[cd x1] e1]| | |] eqn:E1; cbn [bind]; [|discriminate..]. pose proof (resend_loop_PW _ _ _ _ _ _ (Ho a (or_introl eq_refl)) E1) as K1.
  pose proof (KO_KP _ _ _ (resend_loop_KP _ _ _ _ _ _ E1)) as O1.
  destruct (negb _); [intros E; injection E as _ <- <-; exact K1|]. destruct (subs_loop x1 now subs) as [[[cd2 x2] e2]| | |] eqn:E2; cbn [bind]; [|discriminate..].
  intros E. injection E as _ <- <-. refine (PW_trans _ _ _ _ _ K1 (IH _ _ _ _ _ E2)). intros n Hn. apply O1, Ho. right. exact Hn.
Qed.
Lemma pclose_PW x i code x' evs : 0 <= i -> rmc_pub_close_connection x i = Ok (code, x', evs) -> PW x x' evs.
Proof.
  intros Hi E. split; [exact (close_size _ _ _ _ _ Hi E)|]. revert E. unfold rmc_pub_close_connection. destruct (find_by_index _ _) as [[c|]| | |]; cbn [bind]; [| |discriminate..]; [|intros E; injection E as _ <- <-; apply PW_refl].
  destruct (close_conn (x_vec x) i) as [[[cd v] ce]| | |] eqn:Ec; cbn [bind]; [|discriminate..]. destruct (pub_reset_subscriber _ _) as [[s fr]| | |]; cbn [bind fst snd]; [|discriminate..].
  destruct (release_all _ _) as [[m e]| | |] eqn:Er; cbn [bind fst snd]; [|discriminate..]. intros E. injection E as _ <- <-. intros Hz S HS.
  change (PvLeave (c_addr c) (c_port c) :: map PvConn ce ++ e) with ([PvLeave (c_addr c) (c_port c)] ++ map PvConn ce ++ e). rewrite !polls_app, polls_conn, (polls_free e (release_free _ _ _ _ Er)), app_nil_r.
  exact (close_WT S HS _ _ _ _ _ Hz Hi Ec).
Qed.
Lemma close_loop_PW : forall n x ind x' evs, 0 <= ind -> close_loop n x ind = Ok (x', evs) -> PW x x' evs.
Proof.
  induction n as [|n IH]; intros x ind x' evs Hi; cbn [close_loop]; [intros E; injection E as <- <-; apply PW_refl|].
  destruct (find_by_index _ _) as [[c|]| | |]; cbn [bind]; [| |discriminate..]; [|apply IH; lia].
  destruct (rmc_pub_close_connection x ind) as [[[cd x1] e1]| | |] eqn:E1; cbn [bind]; [|discriminate..]. destruct (close_loop n x1 (ind + 1)) as [[x2 e2]| | |] eqn:E2; cbn [bind fst snd]; [|discriminate..].
  intros E. injection E as <- <-. refine (PW_trans _ _ _ _ _ (pclose_PW _ _ _ _ _ Hi E1) (IH x1 (ind + 1) _ _ _ E2)). lia.
Qed.
Definition EV (x : pctx) (st : hst) : Prop := x_vec (fst st) = x_vec x /\ pub_polls (snd st) = [].
Lemma eff_ack_EV x i st iv st' : EV x st -> eff_ack i st iv = Ok st' -> EV x st'.
Proof.
  intros [V P]. unfold eff_ack, ack_interval. destruct (_ && _); [discriminate|]. destruct (ack_rounds _ _ _ _) as [[x1 e1]| | |] eqn:E1; cbn [bind fst snd]; [|discriminate..]. intros E. injection E as <-. unfold EV. cbn [fst snd].
  destruct (rounds_frame _ _ _ _ _ _ E1) as [R1 R2]. split; [congruence|]. rewrite polls_app, P. cbn [pub_polls flat_map app]. exact (polls_free _ R2).
Qed.
Lemma eff_ctrl_EV x i st p st' : EV x st -> eff_ctrl i st p = Ok st' -> EV x st'.
Proof.
  intros [V P]. unfold eff_ctrl. destruct (x_ccb _); [discriminate|intros E; injection E as <-; split; assumption|]. destruct (slot _ _) as [c| | |]; cbn [bind]; [|discriminate..]. intros E. injection E as <-. unfold EV. cbn [fst snd].
  split; [exact V|]. rewrite polls_app, P. reflexivity.
Qed.
Lemma pread_tcp_PW x i t code op x' evs : 0 <= i -> rmc_pub_read x i (RdTcp t) = Ok (code, op, x', evs) -> PW x x' evs.
Proof.
  intros Hi. cbn [rmc_pub_read]. destruct (find_index_cases (x_vec x) i Hi) as [[-> _]|(c & -> & Ho)]; cbn [bind]; [intros E; injection E as _ _ <- <-; apply PW_refl|].
  destruct (negb (c_mode c =? CONNECTED)); [intros E; injection E as _ _ <- <-; apply PW_refl|].
  destruct (tcp_read _ _ (c_rbuf c) t) as [r| | |] eqn:Er; cbn [bind]; [|discriminate..].
  pose proof (tcp_read_ok (pub_dispatch (eff_ack i) (ccb_set x) (eff_ctrl i)) (EV x)
    (pub_dispatch_ok _ _ _ _ (fun st iv st' => eff_ack_EV x i st iv st') (fun st p st' => eff_ctrl_EV x i st p st')) (x, []) (c_rbuf c) t r (conj eq_refl eq_refl) Er) as [V P].
  destruct (r_st r) as [x1 e1]. cbn [fst snd] in *. assert (Ho1 : is_open (x_vec x1) i c) by (rewrite V; exact Ho).
  pose proof (PW_same x x1 e1 V P) as H1.
  destruct (r_code r =? EPIPE).
  - destruct (rmc_pub_close_connection _ i) as [[[cd x2] e2]| | |] eqn:E2; cbn [bind]; [|discriminate..]. intros E. injection E as _ _ <- <-.
    apply (PW_trans x x1 _ _ _ H1). apply (PW_trans x1 (set_vec x1 (put_slot (x_vec x1) i (set_rbuf c (r_buf r)))) _ [] e2); [|exact (pclose_PW _ _ _ _ _ Hi E2)].
    eapply (PW_keep x1 _ i c); [exact (proj1 Ho1)| | | |reflexivity]; reflexivity.
  - intros E. injection E as _ _ <- <-. apply (PW_trans x x1 _ _ _ H1).
    match goal with |- PW _ (set_vec _ (put_slot _ _ ?c')) _ => apply (PW_put x1 _ i c c' []) end; [exact Ho1|exact (proj2 Ho)|reflexivity|reflexivity|reflexivity].
Qed.
Lemma paccept_PW x i a cb code op x' evs : v_size (x_vec x) <= RMC_NIL_INDEX -> match a with AccOk _ _ nd => nd = 0 | _ => True end ->
  rmc_pub_read x i (RdAccept a cb) = Ok (code, op, x', evs) -> PW x x' evs.
Proof.
  intros Hz Hn. cbn [rmc_pub_read]. destruct (process_accept (x_listen x) (x_vec x) a) as [[[[cd ri] v] ce]| | |] eqn:E1; cbn [bind]; [|discriminate..].
  assert (Sz : v_size v = v_size (x_vec x)).
  { destruct (accept_cases (x_listen x) (x_vec x) a Hz) as [[_ Q]|(k & c & _ & Hs & _ & Q)]; [congruence|]. destruct a as [e|d ad nd]; [|destruct Q as [[_ Q]|[Q _]]; [|congruence]]; rewrite Q in E1; injection E1 as _ _ <- _.
    - rewrite size_put. apply bumped_size.
    - rewrite <- (bumped_size (x_vec x) k). apply (size_put (bumped (x_vec x) k) k). }
  assert (P : forall y, x_vec y = v -> PW x y (map PvConn ce)).
  { intros y A. split; [congruence|]. intros Hl S HS. rewrite A, polls_conn. exact (accept_WT S HS _ _ _ _ _ _ _ Hl Hn E1). }
  destruct (negb _); [intros E; injection E as _ _ <- <-; apply P; reflexivity|]. destruct ri as [j|]; [|discriminate].
  assert (Hj : 0 <= j) by (destruct (accept_cases (x_listen x) (x_vec x) a Hz) as [[_ Q]|(k & c & _ & Hs & _ & Q)]; [congruence|]; pose proof (slot_range _ _ _ Hs); destruct a as [e|d ad nd]; [congruence|]; subst nd; destruct Q as [[_ Q]|[Q _]]; [rewrite Q in E1; injection E1; intros; subst; lia|congruence]).
  destruct (find_by_index v j) as [[c|]| | |]; cbn [bind]; [|discriminate..]. set (X1 := set_pub (set_vec x v) _). destruct cb as [[|]|].
  - intros E. injection E as _ _ <- <-. apply (PW_trans x X1 _ (map PvConn ce) _ (P X1 eq_refl)). apply PW_same; reflexivity.
  - destruct (rmc_pub_close_connection _ j) as [[[cd2 x2] e2]| | |] eqn:E2; cbn [bind]; [|discriminate..]. intros E. injection E as _ _ <- <-.
    apply (PW_trans x X1 _ (map PvConn ce) _ (P X1 eq_refl)). refine (PW_trans X1 X1 _ [_] e2 _ (pclose_PW _ _ _ _ _ Hj E2)). apply PW_same; reflexivity.
  - intros E. injection E as _ _ <- <-. apply P; reflexivity.
Qed.
Lemma write_tcp_PW x i w code op x' evs : 0 <= i -> rmc_pub_write x i (WrTcp w) = Ok (code, op, x', evs) -> PW x x' evs.
Proof.
  intros Hi. cbn [rmc_pub_write]. destruct (_ <=? i); [intros E; injection E as _ _ <- <-; apply PW_refl|].
  destruct (find_index_cases (x_vec x) i Hi) as [[-> _]|(c & -> & Ho)]; cbn [bind]; [intros E; injection E as _ _ <- <-; apply PW_refl|].
  destruct (negb (c_mode c =? CONNECTED)); [intros E; injection E as _ _ <- <-; apply PW_refl|]. destruct (circ_buf_in_use (c_wbuf c) =? 0); [intros E; injection E as _ _ <- <-; apply PW_refl|].
  destruct (tcp_write (c_wbuf c) w) as [r| | |]; cbn [bind]; [|discriminate..]. intros E. injection E as _ _ <- <-.
  match goal with |- PW _ (set_vec _ (put_slot _ _ ?c')) _ => apply (PW_put x _ i c c' [PvTcp i (w_sent r)]) end; [exact Ho|exact (proj2 Ho)|reflexivity|reflexivity|reflexivity].
Qed.

(** ** The sockets of the context *)
Definition sp_pub (x : pctx) (a : Z) (j : Z) : option (option (Z * Z)) :=
  if j =? RMC_MULTICAST_INDEX then Some (if x_mcast x =? -1 then None else Some (x_mcast x, a))
  else if j =? RMC_LISTEN_INDEX then Some (if x_listen x =? -1 then None else Some (x_listen x, POLLREAD))
  else None.
Lemma sp_special x a : special (sp_pub x a).
Proof. intros j Hj. unfold sp_pub, RMC_LISTEN_INDEX, RMC_MULTICAST_INDEX in *. replace (j =? 32766) with false by lia. replace (j =? 32765) with false by lia. reflexivity. Qed.
(** What the multicast socket is registered for. *)
Definition mact (x : pctx) (a : Z) : Prop := (queued x <> [] -> a = POLLWRITE) /\ (queued x = [] -> a = POLLREAD \/ a = 0).
Definition EPX (x : pctx) (l : list cev) : Prop := exists a, EP (ovw (sp_pub x a) (x_vec x)) l /\ (x_mcast x <> -1 -> mact x a).
Definition PT (x x' : pctx) (evs : list pev) : Prop := forall l, kernel_ok (l ++ pub_polls evs) -> EPX x l -> EPX x' (l ++ pub_polls evs).
Lemma PT_trans x y z e1 e2 : PT x y e1 -> PT y z e2 -> PT x z (e1 ++ e2).
Proof. intros A B l K H. rewrite polls_app, app_assoc in *. apply B; [exact K|]. apply A; [exact (kernel_pre _ _ K)|exact H]. Qed.
Lemma PT_conn x x' evs : v_size (x_vec x) <= RMC_LISTEN_INDEX -> PW x x' evs -> x_mcast x' = x_mcast x -> x_listen x' = x_listen x -> queued x' = queued x -> PT x x' evs.
Proof.
  intros Hz [_ H] E1 E2 E3 l K (a & P & M). exists a. split.
  - apply (EP_ext (ovw (sp_pub x a) (x_vec x'))); [intros j; unfold ovw, sp_pub; rewrite E1, E2; reflexivity|]. exact (H Hz _ (sp_special x a) l K P).
  - unfold mact. rewrite E1, E3. exact M.
Qed.
Lemma PT_same x x' evs : x_vec x' = x_vec x -> x_mcast x' = x_mcast x -> x_listen x' = x_listen x -> queued x' = queued x -> pub_polls evs = [] -> PT x x' evs.
Proof.
  intros V E1 E2 E3 Q l K (a & P & M). rewrite Q, app_nil_r. exists a. split; [|unfold mact; rewrite E1, E3; exact M].
  apply (EP_ext (ovw (sp_pub x a) (x_vec x))); [|exact P]. intros j. unfold ovw, sp_pub. rewrite V, E1, E2. reflexivity.
Qed.
Lemma PT_mod x x' pre old new : x_vec x' = x_vec x -> x_mcast x' = x_mcast x -> x_listen x' = x_listen x -> x_mcast x <> -1 -> pub_polls pre = [] ->
  (forall a, mact x a -> old = new -> a = new) -> mact x' new -> PT x x' (pre ++ [PvConn (EvMod (x_mcast x) RMC_MULTICAST_INDEX old new)]).
Proof.
  intros V E1 E2 Hm Q Ho Hn l K (a & P & M). rewrite polls_app, Q in *. cbn [pub_polls flat_map app] in *. exists new. split; [|intros _; exact Hn].
  specialize (M Hm). refine (WT_mod (ovw (sp_pub x a) (x_vec x)) _ (x_mcast x) RMC_MULTICAST_INDEX a old new _ (Ho a M) _ _ l K P).
  - unfold ovw, sp_pub. rewrite Z.eqb_refl. replace (x_mcast x =? -1) with false by lia. reflexivity.
  - unfold ovw, sp_pub. rewrite Z.eqb_refl, E1. replace (x_mcast x =? -1) with false by lia. reflexivity.
  - intros k N. unfold ovw, sp_pub. replace (k =? RMC_MULTICAST_INDEX) with false by lia. rewrite V, E2. reflexivity.
Qed.
Lemma queue_PT x p l a code x' evs : x_mcast x <> -1 -> rmc_pub_queue_packet x p l a = Ok (code, x', evs) -> PT x x' evs.
Proof.
  intros Hm. unfold rmc_pub_queue_packet.
  assert (Same : forall c x1 e1, Ok (c, x, []) = Ok (code, x1, e1) -> PT x x1 e1).
  { intros c x1 e1 E. assert (x1 = x /\ e1 = []) as [-> ->] by (split; congruence). apply PT_same; reflexivity. }
  destruct (_ =? _); [apply Same|]. destruct (_ <? _); [apply Same|]. destruct (x_susp x); [apply Same|].
  match goal with |- context [bind ?h _] => destruct h as [[[s' pd] nd]| | |] eqn:Eq end; cbn [bind fst snd]; [|discriminate..].
  assert (Hq : p_queued s' <> []).
  { assert (W : forall pb k r, pub_queue_with_pid pb k p l 0 = Ok r -> p_queued (fst (fst r)) <> []).
    { intros pb k r. unfold pub_queue_with_pid. destruct (p =? 0); [discriminate|]. destruct (check_live _ _); cbn [bind]; [|discriminate..].
      intros E. injection E as <-. cbn [fst set_queued p_queued]. apply insert_ne. }
    destruct a; [exact (W _ _ _ Eq)|exact (W _ _ _ Eq)]. }
  intros E. injection E as _ <- <-.
  match goal with |- PT x ?z _ => assert (Z1 : x_vec z = x_vec x /\ x_mcast z = x_mcast x /\ x_listen z = x_listen x /\ queued z <> []) end.
  { destruct (_ && _); repeat split; cbn; unfold queued; cbn [set_susp set_pub x_pub]; intros N; apply map_eq_nil in N; congruence. }
  destruct Z1 as (Z0 & Z1 & Z2 & Z3). apply (PT_mod x _ []); [exact Z0|exact Z1|exact Z2|exact Hm|reflexivity| |].
  - intros b [B1 B2] Q. destruct (pub_next_queued (x_pub x)) eqn:En; [|discriminate Q]. apply B1. intros H. apply next_none in H. congruence.
  - split; [reflexivity|]. intros H. contradiction.
Qed.
Lemma send_PT x a o code x' evs : pub_next_queued (x_pub x) = Some a -> send_single_multicast_packet x a o = Ok (code, x', evs) -> PT x x' evs.
Proof.
  intros Hn. assert (Hq : queued x <> []) by (intros H; apply next_none in H; congruence). unfold send_single_multicast_packet.
  assert (Same : forall c x1 e1, Ok (c, x, []) = Ok (code, x1, e1) -> PT x x1 e1).
  { intros c x1 e1 E. assert (x1 = x /\ e1 = []) as [-> ->] by (split; congruence). apply PT_same; reflexivity. }
  destruct (Z.eqb_spec (x_mcast x) (-1)) as [|Hm]; [apply Same|]. destruct (get_pack _ _) as [p| | |]; cbn [bind]; [|discriminate..]. destruct (_ <? _); [apply Same|].
  destruct (load _ _ _) as [bs| | |]; cbn [bind]; [|discriminate..]. destruct o as [e|ts].
  - destruct (_ =? _); [|apply Same]. intros E. injection E as _ <- <-. rewrite Hn. apply (PT_mod x x []); auto; [intros b [B1 _] _; auto|]. split; [reflexivity|]. intros H. contradiction.
  - destruct (pub_packet_sent _ _ _) as [s| | |]; cbn [bind]; [|discriminate..]. intros E. injection E as _ <- <-.
    pose proof (next_none (set_pub x s)) as N. cbn [set_pub x_pub] in N. cbv zeta.
    match goal with |- PT _ _ [?e; _] => apply (PT_mod x (set_pub x s) [e]) end; auto.
    + intros b [B1 _] Q. rewrite (B1 Hq). destruct (pub_next_queued s); [reflexivity|]. discriminate Q.
    + unfold mact. destruct (pub_next_queued s) eqn:En; split; auto.
      * intros H. apply N in H. discriminate.
      * intros H. destruct H. apply N. reflexivity.
Qed.
Lemma mcast_PT : forall outs x code x' evs, process_multicast_write x outs = Ok (code, x', evs) -> PT x x' evs.
Proof.
  induction outs as [|o outs IH]; intros x code x' evs E; cbn [process_multicast_write] in E;
  (destruct (pub_next_queued (x_pub x)) as [a|] eqn:Hn; [|assert (x' = x /\ evs = []) as [-> ->] by (split; congruence); apply PT_same; reflexivity]).
  - exact (send_PT _ _ _ _ _ _ Hn E).
  - destruct (send_single_multicast_packet x a o) as [[[cd x1] e1]| | |] eqn:E1; cbn [bind] in E; [|discriminate E..].
    pose proof (send_PT _ _ _ _ _ _ Hn E1) as M1. destruct (negb (cd =? 0)); [assert (x' = x1 /\ evs = e1) as [-> ->] by (split; congruence); exact M1|].
    destruct (process_multicast_write x1 outs) as [[[cd2 x2] e2]| | |] eqn:E2; cbn [bind] in E; [|discriminate E..].
    assert (x' = x2 /\ evs = e1 ++ e2) as [-> ->] by (split; congruence). exact (PT_trans _ _ _ _ _ M1 (IH _ _ _ _ E2)).
Qed.

Lemma timeout_PT x g log now buf o code x' evs : XInv false x g log -> x_mcast x <> -1 \/ x_aint x = 0 ->
  rmc_pub_timeout_process x now buf o = Ok (code, x', evs) -> PT x x' evs.
Proof.
  intros XV Hm. pose proof (ctx_size _ _ _ XV) as Hz. unfold rmc_pub_timeout_process. destruct (announce_due x now) eqn:Ea.
  - destruct Hm as [Hm|Hm]; [|unfold announce_due in Ea; rewrite Hm in Ea; discriminate Ea].
    destruct (match o with AnnNone => _ | AnnNo => _ | AnnYes bs len => _ end) as [[bs len] send].
    match goal with |- context [bind ?h _] => destruct h as [[[cd x2] e2]| | |] eqn:E2 end; cbn [bind]; [|discriminate..].
    set (x1 := set_mem x _) in *. assert (P1 : PT x x1 []) by (apply PT_same; reflexivity).
    assert (P2 : PT x1 x2 e2). { destruct send; [refine (queue_PT x1 _ _ _ _ _ _ _ E2); exact Hm|]. injection E2 as _ <- <-. apply PT_same; reflexivity. }
    intros E. injection E as _ <- <-. rewrite <- (app_nil_r e2). apply (PT_trans x x1 _ [] (e2 ++ [])); [exact P1|]. apply (PT_trans x1 x2 _ e2 []); [exact P2|]. apply PT_same; reflexivity.
  - pose proof XV as (sp & L & Q & X). unfold pub_get_timed_out_subscribers.
    destruct (timed_out_subs_ok _ now (x_resend x) _ _ _ (xi_pub _ _ _ _ _ _ _ X) (p_subs (x_pub x))) as (subs & -> & Hi). cbn [bind].
    assert (Ho : forall n, In n subs -> exists c, is_open (x_vec x) (Z.of_nat n) c).
    { intros n Hn'. apply (vi_reg _ _ (xi_vec _ _ _ _ _ _ _ X)). rewrite <- (i_subs _ _ _ _ (xi_pub _ _ _ _ _ _ _ X)). exact (Hi n Hn'). }
    intros E. destruct (safe_ok false _ _ _ (subs_loop_ck false now subs x g log XV Ho) E) as (A1 & A2 & A3 & _).
    exact (PT_conn _ _ _ Hz (subs_loop_PW _ _ _ _ _ _ Ho E) A1 A2 A3).
Qed.
(** Closing a connection adds nothing to the table. *)
Definition WS (v v' : cvec) : Prop := forall j r, wdesc v' j = Some r -> wdesc v j = Some r.
Lemma close_WS v i code v' evs : 0 <= i -> close_conn v i = Ok (code, v', evs) -> WS v v'.
Proof.
  intros Hi E j r. destruct (close_cases v i Hi) as [[_ Ec]|[(c & _ & _ & Ec)|(c & Ho & Ec)]]; rewrite Ec in E; injection E as _ <- _; auto.
  pose proof (slot_range _ _ _ (proj1 Ho)) as R. destruct (Z.eq_dec j i) as [->|N].
  - unfold wdesc. rewrite slot_set_active. replace (slot _ i) with (Ok (reset_conn c)) by (destruct (i =? v_max v); rewrite ?slot_reset_max, slot_put_same by exact R; reflexivity). cbn. discriminate.
  - rewrite (wdesc_ext v); [auto|]. rewrite slot_set_active. destruct (i =? v_max v); rewrite ?slot_reset_max; apply slot_put_other; lia || exact N.
Qed.
Lemma close_loop_WS : forall n x ind x' evs, 0 <= ind -> close_loop n x ind = Ok (x', evs) -> WS (x_vec x) (x_vec x').
Proof.
  induction n as [|n IH]; intros x ind x' evs Hi; cbn [close_loop]; [intros E; injection E as <- _; intros j r; auto|].
  destruct (find_by_index _ _) as [[c|]| | |]; cbn [bind]; [| |discriminate..]; [|apply IH; lia].
  destruct (rmc_pub_close_connection x ind) as [[[cd x1] e1]| | |] eqn:E1; cbn [bind]; [|discriminate..]. destruct (close_loop n x1 (ind + 1)) as [[x2 e2]| | |] eqn:E2; cbn [bind fst snd]; [|discriminate..].
  intros E. injection E as <- _. intros j r H. apply (IH x1 (ind + 1) _ _ ltac:(lia) E2) in H. revert H. revert E1. unfold rmc_pub_close_connection.
  destruct (find_by_index _ _) as [[c'|]| | |]; cbn [bind]; [| |discriminate..]; [|intros E; injection E as _ <- _; auto].
  destruct (close_conn (x_vec x) ind) as [[[cd' v] ce]| | |] eqn:Ec; cbn [bind]; [|discriminate..]. destruct (pub_reset_subscriber _ _) as [[s fr]| | |]; cbn [bind fst snd]; [|discriminate..].
  destruct (release_all _ _) as [[m e]| | |] eqn:Er; cbn [bind fst snd]; [|discriminate..]. intros E. injection E as _ <- _. exact (close_WS _ _ _ _ _ Hi Ec j r).
Qed.
Lemma deactivate_PT x g log code x' evs : XInv false x g log -> rmc_pub_deactivate_context x = Ok (code, x', evs) -> PT x x' evs.
Proof.
  intros XV. pose proof (ctx_size _ _ _ XV) as Hz. unfold rmc_pub_deactivate_context. match goal with |- context [bind ?h _] => destruct h as [[x2 e2]| | |] eqn:E2 end; cbn [bind fst snd]; [|discriminate..].
  assert (W : PW x x2 e2) by (destruct (_ =? _); [injection E2 as <- <-; apply PW_refl|]; refine (close_loop_PW _ _ 0 _ _ _ E2); lia).
  assert (Sb : WS (x_vec x) (x_vec x2)) by (destruct (_ =? _); [injection E2 as <- _; intros j r; auto|]; refine (close_loop_WS _ _ 0 _ _ _ E2); lia).
  intros E. injection E as _ <- <-. intros l K (a & P & _). exists 0. split; [|cbn [set_descs x_mcast]; congruence].
  set (S1 := fun j => if j =? RMC_MULTICAST_INDEX then Some (@None (Z * Z)) else sp_pub x a j).
  set (S2 := fun j => if j =? RMC_MULTICAST_INDEX then Some (@None (Z * Z)) else if j =? RMC_LISTEN_INDEX then Some None else None).
  assert (HS2 : special S2) by (intros j Hj; unfold S2, RMC_LISTEN_INDEX, RMC_MULTICAST_INDEX in *; replace (j =? 32766) with false by lia; replace (j =? 32765) with false by lia; reflexivity).
  change (pub_polls _) with ([EvRem (x_mcast x) RMC_MULTICAST_INDEX] ++ [EvRem (x_listen x) RMC_LISTEN_INDEX] ++ pub_polls (e2 ++ [PvConn (EvClose (x_mcast x)); PvConn (EvClose (x_listen x))])) in *.
  rewrite polls_app in *. change (pub_polls [PvConn (EvClose (x_mcast x)); PvConn (EvClose (x_listen x))]) with ([EvClose (x_mcast x)] ++ [EvClose (x_listen x)]) in *.
  rewrite !app_assoc in *.
  pose proof (kernel_pre _ _ K) as K4. pose proof (kernel_pre _ _ K4) as K3. pose proof (kernel_pre _ _ K3) as K2. pose proof (kernel_pre _ _ K2) as K1.
  assert (U0 : unwatched (ovw (sp_pub x a) (x_vec x)) (-1)) by (exact (EP_nil _ _ (kernel_pre _ _ K1) P)).
  assert (P1 : EP (ovw S1 (x_vec x)) (l ++ [EvRem (x_mcast x) RMC_MULTICAST_INDEX])).
  { destruct (Z.eq_dec (x_mcast x) (-1)) as [Hm|Hm].
    - apply (EP_ext (ovw (sp_pub x a) (x_vec x))); [|rewrite Hm in *; exact (WT_nil_rem _ _ l K1 P)]. intros j. unfold ovw, S1. destruct (j =? RMC_MULTICAST_INDEX) eqn:Ej; [|reflexivity]. unfold sp_pub. rewrite Ej, Hm. reflexivity.
    - refine (WT_rem (ovw (sp_pub x a) (x_vec x)) _ _ RMC_MULTICAST_INDEX _ a _ _ _ l K1 P).
      + unfold ovw, sp_pub. rewrite Z.eqb_refl. replace (x_mcast x =? -1) with false by lia. reflexivity.
      + reflexivity.
      + intros k N. unfold ovw, S1. replace (k =? RMC_MULTICAST_INDEX) with false by lia. reflexivity. }
  assert (P2 : EP (ovw S2 (x_vec x)) ((l ++ [EvRem (x_mcast x) RMC_MULTICAST_INDEX]) ++ [EvRem (x_listen x) RMC_LISTEN_INDEX])).
  { destruct (Z.eq_dec (x_listen x) (-1)) as [Hm|Hm].
    - apply (EP_ext (ovw S1 (x_vec x))); [|rewrite Hm in *; exact (WT_nil_rem _ _ _ K2 P1)]. intros j. unfold ovw, S1, S2, sp_pub. destruct (j =? RMC_MULTICAST_INDEX) eqn:Ej; [reflexivity|]. rewrite Hm. reflexivity.
    - refine (WT_rem (ovw S1 (x_vec x)) _ _ RMC_LISTEN_INDEX _ POLLREAD _ _ _ _ K2 P1).
      + unfold ovw, S1, sp_pub. rewrite Z.eqb_refl. change (RMC_LISTEN_INDEX =? RMC_MULTICAST_INDEX) with false. replace (x_listen x =? -1) with false by lia. reflexivity.
      + reflexivity.
      + intros k N. unfold ovw, S1, S2, sp_pub. destruct (k =? RMC_MULTICAST_INDEX) eqn:Ek; [reflexivity|]. replace (k =? RMC_LISTEN_INDEX) with false by lia. reflexivity. }
  pose proof (proj2 W Hz S2 HS2 _ K3 P2) as P3.
  assert (U : forall d, (d = x_mcast x \/ d = x_listen x) -> unwatched (ovw S2 (x_vec x2)) d).
  { intros d Hd j b Q. unfold ovw in Q. assert (S2j : S2 j = None) by (destruct (S2 j) as [r|] eqn:Ej; [|reflexivity]; unfold S2 in Ej; destruct (j =? RMC_MULTICAST_INDEX), (j =? RMC_LISTEN_INDEX); congruence).
    rewrite S2j in Q. apply Sb in Q. assert (Nj : j <> RMC_MULTICAST_INDEX /\ j <> RMC_LISTEN_INDEX) by (split; intros ->; discriminate S2j).
    assert (Q' : ovw (sp_pub x a) (x_vec x) j = Some (d, b)).
    { unfold ovw, sp_pub. replace (j =? RMC_MULTICAST_INDEX) with false by lia. replace (j =? RMC_LISTEN_INDEX) with false by lia. exact Q. }
    destruct (Z.eq_dec d (-1)) as [->|Nd]; [exact (U0 _ _ Q')|].
    destruct Hd as [->| ->].
    - assert (Q2 : ovw (sp_pub x a) (x_vec x) RMC_MULTICAST_INDEX = Some (x_mcast x, a)) by (unfold ovw, sp_pub; rewrite Z.eqb_refl; replace (x_mcast x =? -1) with false by lia; reflexivity).
      pose proof (EP_inj _ _ _ _ _ _ _ P Q' Q2). tauto.
    - assert (Q2 : ovw (sp_pub x a) (x_vec x) RMC_LISTEN_INDEX = Some (x_listen x, POLLREAD)) by (unfold ovw, sp_pub; rewrite Z.eqb_refl; change (RMC_LISTEN_INDEX =? RMC_MULTICAST_INDEX) with false; replace (x_listen x =? -1) with false by lia; reflexivity).
      pose proof (EP_inj _ _ _ _ _ _ _ P Q' Q2). tauto. }
  apply (EP_ext (ovw S2 (x_vec x2))).
  - intros j. unfold ovw, sp_pub, S2. reflexivity.
  - apply EP_noclose; [|apply U; auto]. apply EP_noclose; [exact P3|apply U; auto].
Qed.
Lemma activate_PT x o code x' evs : orderly x (XActivate o) -> rmc_pub_activate_context x o = (code, x', evs) -> PT x x' evs.
Proof.
  unfold rmc_pub_activate_context. destruct o as [e ds ea|m l port]; cbn [orderly].
  - intros [A1 A2] E. injection E as _ <- <-. rewrite A2. change (negb (-1 =? -1)) with false. rewrite andb_false_r, app_nil_r. intros lg K (a & P & _).
    assert (Ep : forall z, pub_polls (map (fun d => PvConn (EvOpen d)) z ++ map (fun d => PvConn (EvClose d)) z) = map EvOpen z ++ map EvClose z).
    { intros z. rewrite polls_app. rewrite <- (map_map EvOpen PvConn z), <- (map_map EvClose PvConn z), !polls_conn. reflexivity. }
    rewrite Ep in *. exists a. cbn [set_descs x_mcast]. split; [|congruence].
    apply (EP_ext (ovw (sp_pub x a) (x_vec x))); [intros j; unfold ovw, sp_pub; cbn [set_descs x_mcast x_listen x_vec]; rewrite A1, A2; reflexivity|]. exact (WT_temp _ ds lg K P).
  - intros (A1 & A2 & A3) E lg K (a & P & _). cbn zeta in E. injection E as _ Ex <-. cbn [pub_polls flat_map app] in *.
    assert (Z1 : x_mcast x' = m /\ x_listen x' = l /\ x_vec x' = x_vec x /\ queued x' = queued x) by (subst x'; destruct (x_lport x =? 0); repeat split). clear Ex. destruct Z1 as (Z1 & Z2 & Z3 & Z4).
    exists POLLREAD. split; [|intros _; unfold mact; rewrite Z4, A3; split; [congruence|auto]].
    destruct (kernel_next lg m _ K) as [Hm0 Hm]. change (EvOpen m :: ?r) with ([EvOpen m] ++ r) in *. rewrite app_assoc in *. destruct (kernel_next _ l _ K) as [Hl0 Hl].
    change (EvOpen l :: ?r) with ([EvOpen l] ++ r) in *. rewrite app_assoc in *. change (EvAdd m ?i ?b :: ?r) with ([EvAdd m i b] ++ r) in *. rewrite app_assoc in *.
    pose proof (kernel_pre _ _ K) as K3. pose proof (kernel_pre _ _ K3) as K2. pose proof (kernel_pre _ _ K2) as K1.
    set (W0 := ovw (sp_pub x a) (x_vec x)) in *. assert (Um : unwatched W0 m) by exact (EP_fresh W0 lg m P Hm).
    pose proof (WT_open W0 m lg K1 P) as P1. pose proof (EP_fresh W0 _ l P1 Hl) as Ul. pose proof (WT_open W0 l _ K2 P1) as P2.
    assert (Nlm : l <> m) by (intros ->; apply Hl; rewrite opened_snoc; left; reflexivity).
    set (W1 := fun j => if j =? RMC_MULTICAST_INDEX then Some (m, POLLREAD) else W0 j).
    assert (P3 : EP W1 (((lg ++ [EvOpen m]) ++ [EvOpen l]) ++ [EvAdd m RMC_MULTICAST_INDEX POLLREAD])).
    { apply (EP_add W0 W1); [exact P2| |exact Um| |reflexivity|].
      - rewrite !opened_snoc. right. left. reflexivity.
      - unfold W0, ovw, sp_pub. rewrite Z.eqb_refl, A1. reflexivity.
      - intros k N. unfold W1. replace (k =? RMC_MULTICAST_INDEX) with false by lia. reflexivity. }
    apply (EP_add W1 _); [exact P3| | | | |].
    + rewrite !opened_snoc. left. reflexivity.
    + intros j b Q. unfold W1 in Q. destruct (j =? RMC_MULTICAST_INDEX); [congruence|exact (Ul _ _ Q)].
    + unfold W1, W0, ovw, sp_pub. change (RMC_LISTEN_INDEX =? RMC_MULTICAST_INDEX) with false. rewrite Z.eqb_refl, A2. reflexivity.
    + unfold ovw, sp_pub. change (RMC_LISTEN_INDEX =? RMC_MULTICAST_INDEX) with false. rewrite Z.eqb_refl, Z2. replace (l =? -1) with false by lia. reflexivity.
    + intros k N. unfold ovw, W1, W0, ovw, sp_pub. destruct (k =? RMC_MULTICAST_INDEX); [rewrite Z1; replace (m =? -1) with false by lia; reflexivity|]. replace (k =? RMC_LISTEN_INDEX) with false by lia. rewrite Z3. reflexivity.
Qed.
Lemma step_PT x g log o code x' evs : XInv false x g log -> xok x g o -> orderly x o -> xstep x o = Ok (code, x', evs) -> PT x x' evs.
Proof.
  intros XV Hok Ha E. pose proof (ctx_size _ _ _ XV) as Hz.
  destruct o as [ptr bs|ptr|ptr len ann|i [a cb|err|t]|i [outs|w]|now buf o|i|interval now|s r|bb|o|]; cbn [xstep] in E.
  - injection E as _ <- <-. apply PT_same; reflexivity.
  - injection E as _ <- <-. apply PT_same; reflexivity.
  - exact (queue_PT _ _ _ _ _ _ _ Ha E).
  - destruct (rmc_pub_read x i (RdAccept a cb)) as [[[[cd op] x1] e1]| | |] eqn:Ed; cbn [bind] in E; [|discriminate E..]. injection E as _ <- <-.
    destruct (accept_ck _ _ _ _ _ _ _ _ _ _ XV Hok Ed) as (A1 & A2 & A3 & _). apply (PT_conn _ _ _ Hz); auto.
    refine (paccept_PW _ _ _ _ _ _ _ _ _ _ Ed); [unfold RMC_NIL_INDEX, RMC_LISTEN_INDEX in *; lia|]. destruct a; [exact Logic.I|cbn in Hok; tauto].
  - cbn [rmc_pub_read] in E. destruct (x_mcast x =? -1) eqn:Em; [cbn [bind] in E; injection E as _ <- <-; apply PT_same; reflexivity|].
    destruct err; cbn [bind] in E; injection E as _ <- <-; [apply PT_same; reflexivity|]. intros l K (b & P & M). exists b. split; [|exact M]. exact (WT_ign _ _ _ _ l K P).
  - destruct (rmc_pub_read x i (RdTcp t)) as [[[[cd op] x1] e1]| | |] eqn:Ed; cbn [bind] in E; [|discriminate E..]. injection E as _ <- <-.
    destruct (read_tcp_ck _ _ _ _ _ _ _ _ _ XV Hok Ed) as (A1 & A2 & A3 & _). apply (PT_conn _ _ _ Hz); auto. cbn in Hok. exact (pread_tcp_PW _ _ _ _ _ _ _ (proj1 Hok) Ed).
  - cbn [rmc_pub_write] in E. destruct (process_multicast_write x outs) as [[[cd x1] e1]| | |] eqn:Ed; cbn [bind] in E; [|discriminate E..]. injection E as _ <- <-. exact (mcast_PT _ _ _ _ _ Ed).
  - destruct (rmc_pub_write x i (WrTcp w)) as [[[[cd op] x1] e1]| | |] eqn:Ed; cbn [bind] in E; [|discriminate E..]. injection E as _ <- <-.
    destruct (write_tcp_ck _ _ _ _ _ _ _ _ _ XV Hok Ed) as (A1 & A2 & A3 & _). apply (PT_conn _ _ _ Hz); auto.
    assert (Hi : 0 <= i) by (destruct w; cbn in Hok; lia). exact (write_tcp_PW _ _ _ _ _ _ _ Hi Ed).
  - exact (timeout_PT _ _ _ _ _ _ _ _ _ XV Ha E).
  - cbn in Hok. destruct (close_ck _ _ _ _ _ _ _ XV (proj1 Hok) E) as (A1 & A2 & A3 & _). exact (PT_conn _ _ _ Hz (pclose_PW _ _ _ _ _ (proj1 Hok) E) A1 A2 A3).
  - injection E as _ <- <-. apply PT_same; reflexivity.
  - unfold rmc_pub_throttling in E. destruct (s <? r); injection E as _ <- <-; apply PT_same; reflexivity.
  - injection E as _ <- <-. apply PT_same; reflexivity.
  - apply (activate_PT x o code); [exact Ha|]. congruence.
  - exact (deactivate_PT _ _ _ _ _ _ XV E).
Qed.
Lemma EP_init v S : (forall j, ovw S v j = None) -> EP (ovw S v) [].
Proof. intros N. exists ep_init. split; [reflexivity|]. intros d j e. split; [discriminate|]. intros (a & Q & _). rewrite N in Q. discriminate. Qed.
Lemma reached_EPX x g log : reached_by orderly x g log -> kernel_ok (pub_polls log) -> EPX x (pub_polls log).
Proof.
  intros (x0 & ops & F & H & D). revert D. induction H as [|ops x g log o code x' evs H IH Hok E]; intros D K.
  - destruct F as (node & lip & lport & buf & m & -> & _). exists 0. split; [|cbn; congruence]. apply EP_init. intros j. unfold ovw, sp_pub. cbn.
    destruct (j =? RMC_MULTICAST_INDEX); [reflexivity|]. destruct (j =? RMC_LISTEN_INDEX); [reflexivity|]. unfold wdesc. destruct (slot _ j) as [c| | |] eqn:Es; try reflexivity. destruct (slot_init buf j c Es) as [_ ->]. reflexivity.
  - rewrite polls_app in *. refine (step_PT x g log o code x' evs _ Hok _ E _ K (IH _ (kernel_pre _ _ K))).
    + apply reached_inv. exists x0, ops. auto.
    + exact (D ops o [] x g log eq_refl H).
    + intros pre o' post x1 g1 log1 Eo H1. apply (D pre o' (post ++ [o]) x1 g1 log1); [|exact H1]. rewrite Eo, <- app_assoc. reflexivity.
Qed.
