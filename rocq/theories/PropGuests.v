(** PropGuests.v — C81: the callbacks that report subscribers coming and going. *)
From Coq Require Import Permutation.
From Verif Require Import Base CircBuf CircBufProofs Wire SeqList Pub SpecPub PubProofs Proto SpecProto ProtoProofs Safe
  Conn SpecConn ConnProofs PubCtx SpecPubCtx PubCtxProofs PubCtxSteps PropPubCtx PropPubTime PropPubMem SpecPubRecv PubRecv SpecPoll PollPub SubCtx SpecSubCtx SubSteps SubInv PollSub Desc.

(** ** Specification *)
(** The address and port of every open connection. *)
Definition seat (c : conn) : list (Z * Z) := if c_mode c =? CLOSED then [] else [(c_addr c, c_port c)].
Definition guests (x : pctx) : list (Z * Z) := flat_map seat (v_conns (x_vec x)).
Definition pair_dec : forall a b : Z * Z, {a = b} + {a <> b}.
Proof. intros [a b] [c d]. destruct (Z.eq_dec a c) as [->|N]; [|right; congruence]. destruct (Z.eq_dec b d) as [->|N]; [left; reflexivity|right; congruence]. Defined.
(** A list without one copy of [a]; [None] if there is none. *)
Fixpoint take_out (a : Z * Z) (l : list (Z * Z)) : option (list (Z * Z)) :=
  match l with
  | [] => None
  | b :: r => if pair_dec a b then Some r else option_map (cons b) (take_out a r)
  end.
(** What an application knows that keeps a list of its subscribers by the callbacks alone; it is
    lost when someone leaves who is not on the list. *)
Definition note (l : option (list (Z * Z))) (e : pev) : option (list (Z * Z)) :=
  match l with
  | None => None
  | Some l => match e with
              | PvJoin a p => Some ((a, p) :: l)
              | PvLeave a p => take_out (a, p) l
              | _ => Some l
              end
  end.
Definition attendance (log : list pev) : option (list (Z * Z)) := fold_left note log (Some []).
(** A history in which the connect callback is set whenever a connection is accepted. *)
Definition announced_in (o : xop) : Prop := match o with XRead _ (RdAccept _ None) => False | _ => True end.

(** ** Proof *)
Lemma take_out_perm a : forall l l', take_out a l = Some l' -> Permutation l (a :: l').
Proof.
  induction l as [|b l IH]; intros l'; cbn [take_out]; [discriminate|]. destruct (pair_dec a b) as [->|N]; [intros E; injection E as <-; reflexivity|].
  destruct (take_out a l) as [r|]; cbn [option_map]; [|discriminate]. intros E. injection E as <-. rewrite (IH r eq_refl). apply perm_swap.
Qed.
Lemma take_out_in a : forall l, In a l -> exists l', take_out a l = Some l'.
Proof.
  induction l as [|b l IH]; [intros []|]. intros H. cbn [take_out]. destruct (pair_dec a b) as [->|N]; [eauto|]. destruct H as [->|H]; [contradiction|]. destruct (IH H) as [r ->]. cbn. eauto.
Qed.
Lemma note_none evs : fold_left note evs None = None.
Proof. induction evs; [reflexivity|exact IHevs]. Qed.
Definition social (e : pev) : bool := match e with PvJoin _ _ | PvLeave _ _ => true | _ => false end.
Definition asocial (evs : list pev) : Prop := forallb (fun e => negb (social e)) evs = true.
Lemma asocial_app a b : asocial a -> asocial b -> asocial (a ++ b).
Proof. unfold asocial. rewrite forallb_app. intros -> ->. reflexivity. Qed.
Lemma asocial_note evs : asocial evs -> forall l, fold_left note evs l = l.
Proof.
  induction evs as [|e evs IH]; intros H l; [reflexivity|]. apply andb_prop in H. destruct H as [H1 H2]. cbn [fold_left]. rewrite (IH H2). destruct l; [|reflexivity]. destruct e; try reflexivity; discriminate.
Qed.
Lemma asocial_free evs : Forall is_free_ev evs -> asocial evs.
Proof. induction 1 as [|e evs H _ IH]; [reflexivity|]. destruct e; try contradiction. exact IH. Qed.
Lemma asocial_conn evs : asocial (map PvConn evs).
Proof. induction evs as [|e evs IH]; [reflexivity|exact IH]. Qed.
(** No connection of the publisher knows the port or the node id of its peer. *)
Definition P0 (x : pctx) : Prop := Forall (fun c => c_port c = 0 /\ c_node c = 0) (v_conns (x_vec x)).
Definition portless (e : pev) : Prop := match e with PvJoin _ p | PvLeave _ p => p = 0 | PvCtrl _ p n _ => p = 0 /\ n = 0 | _ => True end.
Definition PP (x x' : pctx) (evs : list pev) : Prop := P0 x -> P0 x' /\ Forall portless evs.
Lemma PP_trans x y z e1 e2 : PP x y e1 -> PP y z e2 -> PP x z (e1 ++ e2).
Proof. intros A B H. destruct (A H) as [H1 H2]. destruct (B H1) as [H3 H4]. split; [exact H3|]. apply Forall_app. auto. Qed.
Lemma portless_asocial evs : forallb (fun e => match e with PvCtrl _ _ _ _ => false | _ => true end) evs = true -> asocial evs -> Forall portless evs.
Proof.
  induction evs as [|e evs IH]; intros A B; [constructor|]. cbn [forallb] in A. apply andb_prop in A, B. destruct A as [A1 A2], B as [B1 B2]. constructor; [|exact (IH A2 B2)]. destruct e; try exact Logic.I; discriminate.
Qed.
Lemma portless_free evs : Forall is_free_ev evs -> Forall portless evs.
Proof. apply Forall_impl. intros [] H; try contradiction; exact Logic.I. Qed.
Lemma portless_conn evs : Forall portless (map PvConn evs).
Proof. apply Forall_forall. intros e H. apply in_map_iff in H. destruct H as (c & <- & _). exact Logic.I. Qed.
(** One step. *)
Definition GD (x x' : pctx) (evs : list pev) : Prop := PP x x' evs /\
  forall l, Permutation l (guests x) -> exists l', fold_left note evs (Some l) = Some l' /\ Permutation l' (guests x').
Lemma GD_trans x y z e1 e2 : GD x y e1 -> GD y z e2 -> GD x z (e1 ++ e2).
Proof. intros [A0 A] [B0 B]. split; [exact (PP_trans _ _ _ _ _ A0 B0)|]. intros l P. destruct (A l P) as (l1 & E1 & P1). destruct (B l1 P1) as (l2 & E2 & P2). exists l2. rewrite fold_left_app, E1. auto. Qed.
(** Calls that change neither the guests nor the callbacks' record; they leave the ports alone. *)
Definition KG (x x' : pctx) (evs : list pev) : Prop := guests x' = guests x /\ asocial evs /\ PP x x' evs.
Lemma KG_refl x : KG x x [].
Proof. split; [reflexivity|]. split; [reflexivity|]. intros H. split; [exact H|constructor]. Qed.
Lemma KG_trans x y z e1 e2 : KG x y e1 -> KG y z e2 -> KG x z (e1 ++ e2).
Proof. intros (A1 & A2 & A3) (B1 & B2 & B3). split; [congruence|]. split; [apply asocial_app; assumption|exact (PP_trans _ _ _ _ _ A3 B3)]. Qed.
Lemma KG_GD x x' evs : KG x x' evs -> GD x x' evs.
Proof. intros (A & B & C). split; [exact C|]. intros l P. exists l. rewrite (asocial_note _ B), A. auto. Qed.
Lemma KG_vec x x' evs : x_vec x' = x_vec x -> asocial evs -> Forall portless evs -> KG x x' evs.
Proof. intros A B C. split; [unfold guests; rewrite A; reflexivity|]. split; [exact B|]. intros H. split; [|exact C]. unfold P0. rewrite A. exact H. Qed.
Ltac kvec := first [apply KG_vec; [reflexivity|reflexivity|repeat constructor] | apply KG_refl].
Lemma slot_split v i c : slot v i = Ok c -> exists l1 l2, v_conns v = l1 ++ c :: l2 /\ forall c', v_conns (put_slot v i c') = l1 ++ c' :: l2.
Proof.
  unfold slot, put_slot. destruct (0 <=? i); [|discriminate]. destruct (nth_error (v_conns v) (Z.to_nat i)) as [c0|] eqn:E; [|discriminate]. intros H. injection H as ->. cbn [v_conns].
  revert E. generalize (v_conns v), (Z.to_nat i). intros l n. revert l. induction n as [|n IH]; intros [|a l]; cbn; try discriminate.
  - intros H. injection H as ->. exists [], l. auto.
  - intros H. destruct (IH l H) as (l1 & l2 & -> & B). exists (a :: l1), l2. split; [reflexivity|]. intros c'. cbn. f_equal. apply B.
Qed.
Lemma KG_put x i c c' evs : slot (x_vec x) i = Ok c -> c_mode c' = c_mode c -> c_addr c' = c_addr c -> c_port c' = c_port c -> c_node c' = c_node c -> asocial evs -> Forall portless evs -> KG x (set_vec x (put_slot (x_vec x) i c')) evs.
Proof.
  intros Hs Hm Ha Hp Hn Q Q'. destruct (slot_split _ _ _ Hs) as (l1 & l2 & A & B). split; [|split; [exact Q|]]; [|intros H; split; [|exact Q']; unfold P0 in *; cbn [set_vec x_vec]; rewrite A in H; rewrite B; apply Forall_app in H; destruct H as [H1 H2]; inversion H2; subst; apply Forall_app; split; [exact H1|constructor; [rewrite Hp, Hn; assumption|assumption]]].
  unfold guests. cbn [set_vec x_vec]. rewrite A, B, !flat_map_app. cbn [flat_map]. unfold seat at 2 4. rewrite Hm, Ha, Hp. reflexivity.
Qed.
Lemma packet_ack_KG x i k x' evs : rmc_pub_packet_ack x i k = Ok (x', evs) -> KG x x' evs.
Proof. intros E. destruct (ack_frame _ _ _ _ _ E) as [V F]. apply KG_vec; [exact V|apply asocial_free; exact F|apply portless_free; exact F]. Qed.
Lemma rounds_KG i : forall n x k x' evs, ack_rounds n x i k = Ok (x', evs) -> KG x x' evs.
Proof.
  induction n as [|n IH]; intros x k x' evs E; cbn [ack_rounds] in E; [assert (x' = x /\ evs = []) as [-> ->] by (split; congruence); apply KG_refl|].
  destruct (rmc_pub_packet_ack x i k) as [[x1 e1]| | |] eqn:E1; cbn [bind fst snd] in E; [|discriminate E..].
  destruct (ack_rounds n x1 i (k + 1)) as [[x2 e2]| | |] eqn:E2; cbn [bind fst snd] in E; [|discriminate E..].
  assert (x' = x2 /\ evs = e1 ++ e2) as [-> ->] by (split; congruence). exact (KG_trans _ _ _ _ _ (packet_ack_KG _ _ _ _ _ E1) (IH _ _ _ _ E2)).
Qed.
Lemma resend_KG x i a code x' evs : rmc_pub_resend_packet x i a = Ok (code, x', evs) -> KG x x' evs.
Proof.
  unfold rmc_pub_resend_packet. destruct (slot (x_vec x) i) as [c| | |] eqn:Hs; cbn [bind]; [|discriminate..]. destruct (get_pack _ _) as [p| | |]; cbn [bind]; [|discriminate..].
  match goal with |- context [bind ?h _] => destruct h as [w| | |] end; cbn [bind]; [|discriminate..].
  destruct (_ =? 0); intros E; injection E as _ <- <-; apply (KG_put x i c); auto; try reflexivity; repeat constructor.
Qed.
Lemma sent_timeout_KG x i a code x' evs : process_sent_packet_timeout x i a = Ok (code, x', evs) -> KG x x' evs.
Proof.
  unfold process_sent_packet_timeout. destruct (slot (x_vec x) i) as [c| | |] eqn:Hs; cbn [bind]; [|discriminate..]. destruct (get_pack _ _) as [p| | |]; cbn [bind]; [|discriminate..].
  destruct (negb _).
  - destruct (rmc_pub_packet_ack x i _) as [[x1 e1]| | |] eqn:E1; cbn [bind fst snd]; [|discriminate..]. intros E. assert (x' = x1 /\ evs = e1) as [-> ->] by (split; congruence). exact (packet_ack_KG _ _ _ _ _ E1).
  - destruct (rmc_pub_resend_packet x i a) as [[[cd x1] e1]| | |] eqn:E1; cbn [bind]; [|discriminate..]. pose proof (resend_KG _ _ _ _ _ _ E1) as K1. destruct (cd =? 0).
    + destruct (rmc_pub_packet_ack x1 i _) as [[x2 e2]| | |] eqn:E2; cbn [bind fst snd]; [|discriminate..]. intros E. assert (x' = x2 /\ evs = e1 ++ e2) as [-> ->] by (split; congruence). exact (KG_trans _ _ _ _ _ K1 (packet_ack_KG _ _ _ _ _ E2)).
    + intros E. assert (x' = x1 /\ evs = e1) as [-> ->] by (split; congruence). exact K1.
Qed.
Lemma resend_loop_KG i : forall packs x code x' evs, resend_loop x i packs = Ok (code, x', evs) -> KG x x' evs.
Proof.
  induction packs as [|a packs IH]; intros x code x' evs; cbn [resend_loop]; [intros E; injection E as _ <- <-; apply KG_refl|].
  destruct (process_sent_packet_timeout x i a) as [[[cd x1] e1]| | |] eqn:E1; cbn [bind]; [|discriminate..]. pose proof (sent_timeout_KG _ _ _ _ _ _ E1) as K1.
  destruct (negb _); [intros E; injection E as _ <- <-; exact K1|]. destruct (resend_loop x1 i packs) as [[[cd2 x2] e2]| | |] eqn:E2; cbn [bind]; [|discriminate..].
  intros E. injection E as _ <- <-. exact (KG_trans _ _ _ _ _ K1 (IH _ _ _ _ E2)).
Qed.
Lemma subs_loop_KG now : forall subs x code x' evs, subs_loop x now subs = Ok (code, x', evs) -> KG x x' evs.
Proof.
  induction subs as [|a subs IH]; intros x code x' evs; cbn [subs_loop]; [intros E; injection E as _ <- <-; apply KG_refl|].
  unfold process_subscriber_timeout. destruct (pub_get_timed_out_packets _ _ _ _) as [packs| | |]; cbn [bind]; [|discriminate..].
  destruct (resend_loop x (Z.of_nat a) packs) as [[[cd x1] e1]| | |] eqn:E1; cbn [bind]; [|discriminate..]. pose proof (resend_loop_KG _ _ _ _ _ _ E1) as K1.
  destruct (negb _); [intros E; injection E as _ <- <-; exact K1|]. destruct (subs_loop x1 now subs) as [[[cd2 x2] e2]| | |] eqn:E2; cbn [bind]; [|discriminate..].
  intros E. injection E as _ <- <-. exact (KG_trans _ _ _ _ _ K1 (IH _ _ _ _ E2)).
Qed.
Lemma queue_KG x p l a code x' evs : rmc_pub_queue_packet x p l a = Ok (code, x', evs) -> KG x x' evs.
Proof.
  unfold rmc_pub_queue_packet. destruct (_ =? _); [intros E; injection E as _ <- <-; apply KG_refl|]. destruct (_ <? _); [intros E; injection E as _ <- <-; apply KG_refl|].
  destruct (x_susp x); [intros E; injection E as _ <- <-; apply KG_refl|]. match goal with |- context [bind ?h _] => destruct h as [w| | |] end; cbn [bind]; [|discriminate..].
  cbv zeta. intros E. injection E as _ <- <-. destruct (_ && _); kvec.
Qed.
Lemma send_KG x a o code x' evs : send_single_multicast_packet x a o = Ok (code, x', evs) -> KG x x' evs.
Proof.
  unfold send_single_multicast_packet. destruct (_ =? _); [intros E; injection E as _ <- <-; apply KG_refl|]. destruct (get_pack _ _) as [p| | |]; cbn [bind]; [|discriminate..].
  destruct (_ <? _); [intros E; injection E as _ <- <-; apply KG_refl|]. destruct (load _ _ _) as [bs| | |]; cbn [bind]; [|discriminate..]. destruct o as [e|ts].
  - destruct (_ =? _); intros E; injection E as _ <- <-; kvec.
  - destruct (pub_packet_sent _ _ _) as [s| | |]; cbn [bind]; [|discriminate..]. intros E. injection E as _ <- <-. kvec.
Qed.
Lemma mcast_KG : forall outs x code x' evs, process_multicast_write x outs = Ok (code, x', evs) -> KG x x' evs.
Proof.
  induction outs as [|o outs IH]; intros x code x' evs; cbn [process_multicast_write]; (destruct (pub_next_queued (x_pub x)) as [a|]; [|intros E; injection E as _ <- <-; apply KG_refl]).
  - apply send_KG.
  - destruct (send_single_multicast_packet x a o) as [[[cd x1] e1]| | |] eqn:E1; cbn [bind]; [|discriminate..]. pose proof (send_KG _ _ _ _ _ _ E1) as K1.
    destruct (negb _); [intros E; injection E as _ <- <-; exact K1|]. destruct (process_multicast_write x1 outs) as [[[cd2 x2] e2]| | |] eqn:E2; cbn [bind]; [|discriminate..].
    intros E. injection E as _ <- <-. exact (KG_trans _ _ _ _ _ K1 (IH _ _ _ _ E2)).
Qed.
Lemma timeout_KG x now buf o code x' evs : rmc_pub_timeout_process x now buf o = Ok (code, x', evs) -> KG x x' evs.
Proof.
  unfold rmc_pub_timeout_process. destruct (announce_due x now).
  - destruct (match o with AnnNone => _ | AnnNo => _ | AnnYes bs len => _ end) as [[bs len] send].
    match goal with |- context [bind ?h _] => destruct h as [[[cd x2] e2]| | |] eqn:E2 end; cbn [bind]; [|discriminate..].
    assert (K : KG x x2 e2). { destruct send; [exact (queue_KG _ _ _ _ _ _ _ E2)|]. injection E2 as _ <- <-. kvec. }
    intros E. injection E as _ <- <-. exact K.
  - destruct (pub_get_timed_out_subscribers _ _ _) as [subs| | |]; cbn [bind]; [|discriminate..]. apply subs_loop_KG.
Qed.
Lemma eff_ack_KG x i st iv st' : KG x (fst st) (snd st) /\ x_vec (fst st) = x_vec x -> eff_ack i st iv = Ok st' -> KG x (fst st') (snd st') /\ x_vec (fst st') = x_vec x.
Proof.
  intros [H V]. unfold eff_ack, ack_interval. destruct (_ && _); [discriminate|]. destruct (ack_rounds _ _ _ _) as [[x1 e1]| | |] eqn:E1; cbn [bind fst snd]; [|discriminate..]. intros E. injection E as <-. cbn [fst snd].
  split; [|rewrite <- V; exact (proj1 (rounds_frame _ _ _ _ _ _ E1))]. apply (KG_trans _ (fst st) _ _ _ H).
  apply (KG_trans _ (fst st) _ [_]); [kvec|exact (rounds_KG _ _ _ _ _ _ E1)].
Qed.
Lemma eff_ctrl_KG x i st p st' : KG x (fst st) (snd st) /\ x_vec (fst st) = x_vec x -> eff_ctrl i st p = Ok st' -> KG x (fst st') (snd st') /\ x_vec (fst st') = x_vec x.
Proof.
  intros [H V]. unfold eff_ctrl. destruct (x_ccb _); [discriminate|intros E; injection E as <-; auto|]. destruct (slot _ _) as [c| | |] eqn:Hs; cbn [bind]; [|discriminate..]. intros E. injection E as <-. cbn [fst snd].
  split; [|exact V]. apply (KG_trans _ (fst st) _ _ _ H). split; [reflexivity|]. split; [reflexivity|]. intros H0. split; [exact H0|]. constructor; [|constructor]. cbn [portless].
  destruct (slot_split _ _ _ Hs) as (l1 & l2 & A & _). unfold P0 in H0. rewrite A in H0. apply Forall_app in H0. destruct H0 as [_ H0]. inversion H0. assumption.
Qed.
Lemma conns_max v m : v_conns (set_max v m) = v_conns v. Proof. reflexivity. Qed.
Lemma conns_reset_max v : v_conns (reset_max v) = v_conns v. Proof. unfold reset_max. repeat match goal with |- context [if ?b then _ else _] => destruct b end; reflexivity. Qed.
Lemma conns_bumped v i : v_conns (bumped v i) = v_conns v. Proof. unfold bumped. repeat match goal with |- context [if ?b then _ else _] => destruct b end; reflexivity. Qed.
Lemma seat_open c : c_mode c <> CLOSED -> seat c = [(c_addr c, c_port c)].
Proof. intros H. unfold seat. apply Z.eqb_neq in H. rewrite H. reflexivity. Qed.
Lemma pclose_GD x i code x' evs : 0 <= i -> rmc_pub_close_connection x i = Ok (code, x', evs) -> GD x x' evs.
Proof.
  intros Hi. unfold rmc_pub_close_connection. destruct (find_index_cases (x_vec x) i Hi) as [[-> _]|(c & -> & Ho)]; cbn [bind]; [intros E; injection E as _ <- <-; apply KG_GD, KG_refl|].
  destruct (close_cases (x_vec x) i Hi) as [[L _]|[(c0 & Hs & Hm & _)|(c0 & Ho' & Ec)]].
  - pose proof (slot_range _ _ _ (proj1 Ho)). unfold v_size in *. lia.
  - destruct Ho as [A B]. congruence.
  - assert (c0 = c) as -> by (destruct Ho, Ho'; congruence). cbv zeta in Ec. rewrite Ec. cbn [bind]. destruct (pub_reset_subscriber _ _) as [[s fr]| | |]; cbn [bind fst snd]; [|discriminate..].
    destruct (release_all _ _) as [[m e]| | |] eqn:Er; cbn [bind fst snd]; [|discriminate..]. intros E. injection E as _ <- <-.
    destruct (slot_split _ _ _ (proj1 Ho)) as (l1 & l2 & A & B). split.
    { intros H0. unfold P0 in *. rewrite A in H0. apply Forall_app in H0. destruct H0 as [H1 H2]. inversion H2; subst. split.
      - cbn [set_mem set_pub set_vec x_vec]. unfold set_active. cbn [v_conns]. destruct (i =? _); rewrite ?conns_reset_max, B; apply Forall_app; split; try assumption; constructor; try assumption; split; reflexivity.
      - constructor; [cbn; tauto|]. constructor; [exact Logic.I|]. constructor; [exact Logic.I|]. apply portless_free. exact (release_free _ _ _ _ Er). }
    intros l P.
    assert (G : Permutation l ((c_addr c, c_port c) :: flat_map seat (l1 ++ l2))).
    { rewrite P. unfold guests. rewrite A, !flat_map_app. cbn [flat_map]. rewrite (seat_open _ (proj2 Ho)). cbn [app]. symmetry. apply Permutation_middle. }
    destruct (take_out_in (c_addr c, c_port c) l) as [l' El]; [apply (Permutation_in _ (Permutation_sym G)); left; reflexivity|]. exists l'. cbn [fold_left note]. rewrite El. split.
    + change (PvConn (EvRem (c_desc c) i) :: PvConn (EvClose (c_desc c)) :: e) with (map PvConn [EvRem (c_desc c) i; EvClose (c_desc c)] ++ e). cbn [map app fold_left note]. apply asocial_note, asocial_free. exact (release_free _ _ _ _ Er).
    + assert (Q : guests (set_mem (set_pub (set_vec x (set_active (if i =? v_max (x_vec x) then reset_max (put_slot (x_vec x) i (reset_conn c)) else put_slot (x_vec x) i (reset_conn c)) (u16 (v_active (x_vec x) - 1)))) s) m) = flat_map seat (l1 ++ l2)).
      { unfold guests. cbn [set_mem set_pub set_vec x_vec]. unfold set_active. cbn [v_conns]. destruct (i =? _); rewrite ?conns_reset_max, B, !flat_map_app; reflexivity. }
      rewrite Q. apply take_out_perm in El. apply (Permutation_cons_inv (a := (c_addr c, c_port c))). rewrite <- El. exact G.
Qed.
Lemma close_loop_GD : forall n x ind x' evs, 0 <= ind -> close_loop n x ind = Ok (x', evs) -> GD x x' evs.
Proof.
  induction n as [|n IH]; intros x ind x' evs Hi; cbn [close_loop]; [intros E; injection E as <- <-; apply KG_GD, KG_refl|].
  destruct (find_by_index _ _) as [[c|]| | |]; cbn [bind]; [| |discriminate..]; [|apply IH; lia].
  destruct (rmc_pub_close_connection x ind) as [[[cd x1] e1]| | |] eqn:E1; cbn [bind]; [|discriminate..]. destruct (close_loop n x1 (ind + 1)) as [[x2 e2]| | |] eqn:E2; cbn [bind fst snd]; [|discriminate..].
  intros E. injection E as <- <-. exact (GD_trans _ _ _ _ _ (pclose_GD _ _ _ _ _ Hi E1) (IH x1 (ind + 1) x2 e2 ltac:(lia) E2)).
Qed.
Lemma pdeactivate_GD x code x' evs : rmc_pub_deactivate_context x = Ok (code, x', evs) -> GD x x' evs.
Proof.
  unfold rmc_pub_deactivate_context. match goal with |- context [bind ?h _] => destruct h as [[x2 e2]| | |] eqn:E2 end; cbn [bind fst snd]; [|discriminate..].
  assert (P : GD x x2 e2). { destruct (_ =? _); [injection E2 as <- <-; apply KG_GD, KG_refl|exact (close_loop_GD _ _ 0 _ _ ltac:(lia) E2)]. }
  intros E. injection E as _ <- <-.
  apply (GD_trans x x _ [PvConn (EvRem (x_mcast x) RMC_MULTICAST_INDEX); PvConn (EvRem (x_listen x) RMC_LISTEN_INDEX)]); [apply KG_GD; kvec|]. apply (GD_trans x x2 _ _ _ P).
  apply KG_GD; kvec.
Qed.
Lemma pread_tcp_GD x i t code op x' evs : 0 <= i -> rmc_pub_read x i (RdTcp t) = Ok (code, op, x', evs) -> GD x x' evs.
Proof.
  intros Hi. cbn [rmc_pub_read]. destruct (find_index_cases (x_vec x) i Hi) as [[-> _]|(c & -> & Ho)]; cbn [bind]; [intros E; injection E as _ _ <- <-; apply KG_GD, KG_refl|].
  destruct (negb (c_mode c =? CONNECTED)); [intros E; injection E as _ _ <- <-; apply KG_GD, KG_refl|].
  destruct (tcp_read _ _ (c_rbuf c) t) as [r| | |] eqn:Er; cbn [bind]; [|discriminate..].
  pose proof (tcp_read_ok (pub_dispatch (eff_ack i) (ccb_set x) (eff_ctrl i)) (fun st => KG x (fst st) (snd st) /\ x_vec (fst st) = x_vec x)
    (pub_dispatch_ok _ _ _ _ (fun st iv st' => eff_ack_KG x i st iv st') (fun st p st' => eff_ctrl_KG x i st p st')) (x, []) (c_rbuf c) t r (conj (KG_refl x) eq_refl) Er) as [K V].
  destruct (r_st r) as [x1 e1]. cbn [fst snd] in *. assert (Hs1 : slot (x_vec x1) i = Ok c) by (rewrite V; apply Ho).
  destruct (r_code r =? EPIPE).
  - destruct (rmc_pub_close_connection _ i) as [[[cd x2] e2]| | |] eqn:E2; cbn [bind]; [|discriminate..]. intros E. injection E as _ _ <- <-.
    apply (GD_trans x x1); [apply KG_GD; exact K|]. apply (GD_trans x1 (set_vec x1 (put_slot (x_vec x1) i (set_rbuf c (r_buf r)))) _ [] e2); [|exact (pclose_GD _ _ _ _ _ Hi E2)].
    apply KG_GD. apply (KG_put x1 i c); auto; try reflexivity; repeat constructor.
  - intros E. injection E as _ _ <- <-. apply (GD_trans x x1); [apply KG_GD; exact K|]. apply KG_GD. apply (KG_put x1 i c); auto; try reflexivity; repeat constructor.
Qed.
Lemma paccept_GD x i a cb code op x' evs : v_size (x_vec x) <= RMC_NIL_INDEX -> (forall i c, slot (x_vec x) i = Ok c -> c_desc c = -1 -> c_mode c = CLOSED) -> match a with AccOk _ _ nd => nd = 0 | AccErr e => e <> 0 end -> cb <> None ->
  rmc_pub_read x i (RdAccept a cb) = Ok (code, op, x', evs) -> GD x x' evs.
Proof.
  intros Hz Hf Hn Hcb. cbn [rmc_pub_read]. destruct (accept_cases (x_listen x) (x_vec x) a Hz) as [[_ Ec]|(j & c & _ & Hs & Hd & Ec)].
  - rewrite Ec. cbn [bind]. cbn [negb Z.eqb]. change (ENOMEM =? 0) with false. cbn [negb]. intros E. injection E as _ _ <- <-. apply KG_GD; kvec.
  - pose proof (slot_range _ _ _ Hs) as R. specialize (Hf _ _ Hs Hd). destruct a as [e|d addr nd].
    + rewrite Ec. cbn [bind]. replace (e =? 0) with false by lia. cbn [negb]. intros E. injection E as _ _ <- <-. apply KG_GD.
      destruct (slot_split _ _ _ Hs) as (l1 & l2 & A & B). specialize (B (set_desc c (-1))). split; [|split; [reflexivity|intros H0; split; [|constructor]; unfold P0 in *; cbn [set_vec x_vec]; unfold put_slot in *; cbn [v_conns] in *; rewrite conns_bumped, B; rewrite A in H0; apply Forall_app in H0; destruct H0 as [H1 H2]; inversion H2; subst; apply Forall_app; split; [exact H1|constructor; assumption]]]. unfold guests. cbn [set_vec x_vec]. unfold put_slot. cbn [v_conns]. rewrite conns_bumped. unfold put_slot in B. cbn [v_conns] in B. rewrite B, A, !flat_map_app. reflexivity.
    + destruct Ec as [[_ Ec]|[Q _]]; [|contradiction]. rewrite Ec. cbn [bind negb Z.eqb].
      set (c' := mkConn POLLREAD d (c_node c) (c_rbuf c) (c_wbuf c) CONNECTED (c_port c) addr). set (v' := set_active (put_slot (bumped (x_vec x) j) j c') (u16 (v_active (x_vec x) + 1))).
      assert (Hs' : slot v' j = Ok c') by (unfold v'; rewrite slot_set_active, slot_put_same; [reflexivity|rewrite bumped_size; exact R]).
      destruct (find_index_cases v' j ltac:(lia)) as [[-> Q]|(c0 & -> & Ho)]; cbn [bind]; [discriminate|]. assert (c0 = c') as -> by (destruct Ho; congruence).
      set (X1 := set_pub (set_vec x v') _).
      assert (J : forall ce, GD x X1 (map PvConn ce ++ [PvJoin (c_addr c') (c_port c')])).
      { intros ce. pose proof (asocial_conn ce) as Hp. split.
        { intros H0. destruct (slot_split _ _ _ Hs) as (l1 & l2 & A & B). specialize (B c'). unfold put_slot in B. cbn [v_conns] in B. unfold P0 in *. rewrite A in H0. apply Forall_app in H0. destruct H0 as [H1 H2]. inversion H2; subst. split.
          - unfold X1. cbn [set_pub set_vec x_vec]. unfold v', set_active, put_slot. cbn [v_conns]. rewrite conns_bumped, B. apply Forall_app. split; [exact H1|constructor; assumption].
          - apply Forall_app. split; [apply portless_conn|repeat constructor; tauto]. }
        intros l P. exists ((c_addr c', c_port c') :: l). rewrite fold_left_app, (asocial_note _ Hp). split; [reflexivity|].
        destruct (slot_split _ _ _ Hs) as (l1 & l2 & A & B). specialize (B c'). unfold put_slot in B. cbn [v_conns] in B.
        assert (G : guests X1 = flat_map seat l1 ++ (c_addr c', c_port c') :: flat_map seat l2).
        { unfold guests, X1. cbn [set_pub set_vec x_vec]. unfold v', set_active, put_slot. cbn [v_conns]. rewrite conns_bumped, B, flat_map_app. reflexivity. }
        rewrite G. rewrite <- Permutation_middle. apply perm_skip. rewrite P. unfold guests. rewrite A, flat_map_app. cbn [flat_map]. unfold seat at 2. rewrite Hf. reflexivity. }
      destruct cb as [[|]|]; [| |contradiction].
      * intros E. injection E as _ _ <- <-. exact (J [EvOpen d; EvAdd d j POLLREAD; EvMod (x_listen x) RMC_LISTEN_INDEX POLLREAD POLLREAD]).
      * destruct (rmc_pub_close_connection X1 j) as [[[cd2 x2] e2]| | |] eqn:E2; cbn [bind]; [|discriminate..]. intros E. injection E as _ _ <- <-.
        pose proof (GD_trans _ _ _ _ _ (J [EvOpen d; EvAdd d j POLLREAD; EvMod (x_listen x) RMC_LISTEN_INDEX POLLREAD POLLREAD]) (pclose_GD _ j _ _ _ (proj1 R) E2)) as G. exact G.
Qed.
Lemma pstep_GD x g log o code x' evs : XInv false x g log -> xok x g o -> announced_in o -> xstep x o = Ok (code, x', evs) -> GD x x' evs.
Proof.
  intros XV Hok Ha E. pose proof (ctx_size _ _ _ XV) as Hz.
  assert (Hf : forall i c, slot (x_vec x) i = Ok c -> c_desc c = -1 -> c_mode c = CLOSED).
  { destruct XV as (sp & L & Q & X). intros i c Hs Hd. exact (proj1 (proj1 (vi_mode _ _ (xi_vec _ _ _ _ _ _ _ X) i c Hs)) Hd). }
  destruct o as [ptr bs|ptr|ptr len ann|i [a cb|err|t]|i [outs|w]|now buf o|i|interval now|s r|bb|o|]; cbn [xstep] in E.
  - injection E as _ <- <-. apply KG_GD; kvec.
  - injection E as _ <- <-. apply KG_GD; kvec.
  - apply KG_GD. exact (queue_KG _ _ _ _ _ _ _ E).
  - destruct (rmc_pub_read x i (RdAccept a cb)) as [[[[cd op] x1] e1]| | |] eqn:Ed; cbn [bind] in E; [|discriminate E..]. injection E as _ <- <-.
    refine (paccept_GD _ _ _ _ _ _ _ _ _ Hf _ _ Ed); [unfold RMC_NIL_INDEX, RMC_LISTEN_INDEX in *; lia|destruct a; cbn in Hok; tauto|]. intros ->. exact Ha.
  - cbn [rmc_pub_read] in E. destruct (x_mcast x =? -1) eqn:Em; [cbn [bind] in E; injection E as _ <- <-; apply KG_GD, KG_refl|].
    destruct err; cbn [bind] in E; injection E as _ <- <-; apply KG_GD; kvec.
  - destruct (rmc_pub_read x i (RdTcp t)) as [[[[cd op] x1] e1]| | |] eqn:Ed; cbn [bind] in E; [|discriminate E..]. injection E as _ <- <-. cbn in Hok. exact (pread_tcp_GD _ _ _ _ _ _ _ (proj1 Hok) Ed).
  - cbn [rmc_pub_write] in E. destruct (process_multicast_write x outs) as [[[cd x1] e1]| | |] eqn:Ed; cbn [bind] in E; [|discriminate E..]. injection E as _ <- <-. apply KG_GD. exact (mcast_KG _ _ _ _ _ Ed).
  - cbn [rmc_pub_write] in E. destruct (_ <=? i); [cbn [bind] in E; injection E as _ <- <-; apply KG_GD, KG_refl|].
    assert (Hi : 0 <= i) by (destruct w; cbn in Hok; lia). destruct (find_index_cases (x_vec x) i Hi) as [[Ef _]|(c & Ef & Ho)]; rewrite Ef in E; cbn [bind] in E; [injection E as _ <- <-; apply KG_GD, KG_refl|].
    destruct (negb (c_mode c =? CONNECTED)); [cbn [bind] in E; injection E as _ <- <-; apply KG_GD, KG_refl|]. destruct (circ_buf_in_use (c_wbuf c) =? 0); [cbn [bind] in E; injection E as _ <- <-; apply KG_GD, KG_refl|].
    destruct (tcp_write (c_wbuf c) w) as [r| | |]; cbn [bind] in E; [|discriminate E..]. injection E as _ <- <-. apply KG_GD. apply (KG_put x i c); auto; try (apply Ho); destruct w; try reflexivity; repeat constructor.
  - apply KG_GD. exact (timeout_KG _ _ _ _ _ _ _ E).
  - exact (pclose_GD _ _ _ _ _ (proj1 Hok) E).
  - injection E as _ <- <-. apply KG_GD; kvec.
  - unfold rmc_pub_throttling in E. destruct (s <? r); injection E as _ <- <-; apply KG_GD; kvec.
  - injection E as _ <- <-. apply KG_GD; kvec.
  - unfold rmc_pub_activate_context in E. destruct o as [e ds ea|m l port]; injection E as _ <- <-; apply KG_GD.
    + rewrite <- (map_map EvOpen PvConn ds), <- (map_map EvClose PvConn (ds ++ _)). apply KG_vec; [reflexivity|apply asocial_app; apply asocial_conn|apply Forall_app; split; apply portless_conn].
    + apply KG_vec; [destruct (x_lport x =? 0); reflexivity|reflexivity|repeat constructor].
  - exact (pdeactivate_GD _ _ _ _ E).
Qed.
Lemma paccept_PP x i a code op x' evs : v_size (x_vec x) <= RMC_NIL_INDEX -> match a with AccOk _ _ nd => nd = 0 | AccErr e => e <> 0 end ->
  rmc_pub_read x i (RdAccept a None) = Ok (code, op, x', evs) -> PP x x' evs.
Proof.
  intros Hz Hn. cbn [rmc_pub_read]. destruct (accept_cases (x_listen x) (x_vec x) a Hz) as [[_ Ec]|(j & c & _ & Hs & Hd & Ec)].
  - rewrite Ec. cbn [bind]. change (ENOMEM =? 0) with false. cbn [negb]. intros E. injection E as _ _ <- <-. intros H. split; [exact H|constructor].
  - destruct (slot_split _ _ _ Hs) as (l1 & l2 & A & B). destruct a as [e|d addr nd].
    + rewrite Ec. cbn [bind]. replace (e =? 0) with false by lia. cbn [negb]. intros E. injection E as _ _ <- <-. intros H. split; [|constructor]. specialize (B (set_desc c (-1))).
      unfold P0, put_slot in *. cbn [set_vec x_vec v_conns] in *. rewrite conns_bumped, B. rewrite A in H. apply Forall_app in H. destruct H as [H1 H2]. inversion H2; subst. apply Forall_app. split; [exact H1|constructor; assumption].
    + destruct Ec as [[_ Ec]|[Q _]]; [|contradiction]. rewrite Ec. cbn [bind negb Z.eqb]. destruct (find_by_index _ _) as [[c0|]| | |]; cbn [bind]; try discriminate. intros E. injection E as _ _ <- <-. intros H. split; [|repeat constructor].
      match goal with B : context [put_slot _ _ _] |- P0 (set_pub (set_vec x (set_active (put_slot _ _ ?c') _)) _) => specialize (B c') end.
      unfold P0, put_slot in *. cbn [set_pub set_vec x_vec set_active v_conns] in *. rewrite conns_bumped, B. rewrite A in H. apply Forall_app in H. destruct H as [H1 H2]. inversion H2; subst. apply Forall_app. split; [exact H1|constructor; assumption].
Qed.
Lemma pstep_PP x g log o code x' evs : XInv false x g log -> xok x g o -> xstep x o = Ok (code, x', evs) -> PP x x' evs.
Proof.
  intros XV Hok E. pose proof (ctx_size _ _ _ XV) as Hz.
  assert (D : announced_in o \/ exists i a, o = XRead i (RdAccept a None)). { destruct o as [ | | |i [a [b|]| | ]| | | | | | | | ]; try (left; exact Logic.I). right. eauto. }
  destruct D as [D|(i & a & ->)]; [exact (proj1 (pstep_GD _ _ _ _ _ _ _ XV Hok D E))|]. cbn [xstep] in E.
  destruct (rmc_pub_read x i (RdAccept a None)) as [[[[cd op] x1] e1]| | |] eqn:Ed; cbn [bind] in E; [|discriminate E..]. injection E as _ <- <-.
  refine (paccept_PP _ _ _ _ _ _ _ _ _ Ed); [unfold RMC_NIL_INDEX, RMC_LISTEN_INDEX in *; lia|destruct a; cbn in Hok; tauto].
Qed.
Lemma guests_fresh x0 : fresh_ctx x0 -> guests x0 = [] /\ P0 x0.
Proof.
  intros (node & lip & lport & buf & m & -> & _). unfold guests, P0. cbn [rmc_pub_init_context x_vec init_vec v_conns]. generalize (firstn (Z.to_nat (u16 (zlen buf))) buf). intros l. split.
  - induction l as [|c l IH]; [reflexivity|exact IH].
  - induction l as [|c l IH]; [constructor|constructor; [split; reflexivity|exact IH]].
Qed.
Lemma hist_P0 x0 ops x g log : fresh_ctx x0 -> xhist x0 ops x g log -> P0 x /\ Forall portless log.
Proof.
  intros F H. induction H as [|ops x g log o code x' evs H IH Hok E]; [split; [exact (proj2 (guests_fresh _ F))|constructor]|].
  destruct IH as [A B]. destruct (pstep_PP _ _ _ _ _ _ _ (reached_inv x g log (ex_intro _ x0 (ex_intro _ ops (conj F H)))) Hok E A) as [C D]. split; [exact C|]. apply Forall_app. auto.
Qed.

Lemma flat_map_nil_all {A B} (f : A -> list B) l : (forall a, In a l -> f a = []) -> flat_map f l = [].
Proof. induction l as [|a l IH]; intros H; [reflexivity|]. cbn [flat_map]. rewrite (H a (or_introl eq_refl)), IH; [reflexivity|]. intros b Hb. apply H. right. exact Hb. Qed.

(** ** C81. Who is there *)
(** With a connect callback set, a list kept by the two callbacks alone is always the list of the
    open connections; nobody leaves who is not on it. *)
Theorem c81_attendance : forall x0 ops x g log, fresh_ctx x0 -> xhist x0 ops x g log -> Forall announced_in ops ->
  exists l, attendance log = Some l /\ Permutation l (guests x).
Proof.
  intros x0 ops x g log F H. induction H as [|ops x g log o code x' evs H IH Hok E]; intros D.
  - exists []. split; [reflexivity|]. rewrite (proj1 (guests_fresh _ F)). constructor.
  - apply Forall_app in D. destruct D as [D1 D2]. inversion D2; subst. destruct (IH D1) as (l & A & P).
    destruct (proj2 (pstep_GD _ _ _ _ _ _ _ (reached_inv x g log (ex_intro _ x0 (ex_intro _ ops (conj F H)))) Hok ltac:(assumption) E) l P) as (l' & E' & P').
    exists l'. split; [|exact P']. unfold attendance in *. rewrite fold_left_app, A. exact E'.
Qed.
(** Deactivation sees everybody out. *)
Theorem c81_all_left : forall x0 ops x g log code x' evs, fresh_ctx x0 -> xhist x0 ops x g log -> Forall announced_in ops ->
  rmc_pub_deactivate_context x = Ok (code, x', evs) -> attendance (log ++ evs) = Some [].
Proof.
  intros x0 ops x g log code x' evs F H D E. assert (R : reached x g log) by (exists x0, ops; auto).
  assert (H' : xhist x0 (ops ++ [XDeactivate]) x' (g_next g x XDeactivate code evs) (log ++ evs)) by (apply xh_step; [exact H|exact Logic.I|exact E]).
  destruct (c81_attendance x0 _ _ _ _ F H') as (l & A & P); [apply Forall_app; split; [exact D|repeat constructor]|]. rewrite A. f_equal.
  destruct (c66_deactivate x g log R) as (x1 & e1 & E1 & C & _). assert (x1 = x') as -> by congruence.
  destruct (reached_inv _ _ _ (ex_intro _ x0 (ex_intro _ _ (conj F H')))) as (sp & L & Q & X).
  assert (G : guests x' = []).
  { unfold guests. apply flat_map_nil_all. intros c Hc. destruct (In_nth_error _ _ Hc) as [n En]. assert (Hs : slot (x_vec x') (Z.of_nat n) = Ok c) by (unfold slot; replace (0 <=? Z.of_nat n) with true by lia; rewrite Nat2Z.id, En; reflexivity).
    destruct (vi_mode _ _ (xi_vec _ _ _ _ _ _ _ X) _ c Hs) as (_ & _ & [Hm|Hm]); [unfold seat; rewrite Hm; reflexivity|]. exfalso. apply (C (Z.of_nat n)). exists c. auto. }
  rewrite G in P. apply Permutation_nil. symmetry. exact P.
Qed.
(** What one accepted connection reports: the address accept() gave and port 0; when the callback
    refuses, the same two values are reported as gone at once. *)
Theorem c81_join_exact : forall x g log i d addr ans code op x' evs, reached x g log -> 0 <= d ->
  rmc_pub_read x i (RdAccept (AccOk d addr 0) (Some ans)) = Ok (code, op, x', evs) -> code = 0 ->
  exists j, filter social evs = PvJoin addr 0 :: (if ans then [] else [PvLeave addr 0]) /\
    (ans = true -> exists c, slot (x_vec x') j = Ok c /\ c_mode c = CONNECTED /\ c_desc c = d /\ c_addr c = addr).
Proof.
  intros x g log i d addr ans code op x' evs R Hd0 E Hc. pose proof R as (x0 & ops & F & H). pose proof (proj1 (hist_P0 _ _ _ _ _ F H)) as HP.
  pose proof (ctx_size _ _ _ (reached_inv _ _ _ R)) as Hz. assert (Hz' : v_size (x_vec x) <= RMC_NIL_INDEX) by (unfold RMC_NIL_INDEX, RMC_LISTEN_INDEX in *; lia).
  revert E. cbn [rmc_pub_read]. destruct (accept_cases (x_listen x) (x_vec x) (AccOk d addr 0) Hz') as [[_ Ec]|(j & c & _ & Hs & Hd & Ec)].
  - rewrite Ec. cbn [bind]. change (ENOMEM =? 0) with false. cbn [negb]. intros E. assert (code = ENOMEM) by congruence. unfold ENOMEM in *. lia.
  - destruct Ec as [[_ Ec]|[Q _]]; [|contradiction]. rewrite Ec. cbn [bind negb Z.eqb]. pose proof (slot_range _ _ _ Hs) as Rg.
    assert (Hp : c_port c = 0). { destruct (slot_split _ _ _ Hs) as (l1 & l2 & A & _). unfold P0 in HP. rewrite A in HP. apply Forall_app in HP. destruct HP as [_ HP]. inversion HP. tauto. }
    set (c' := mkConn POLLREAD d (c_node c) (c_rbuf c) (c_wbuf c) CONNECTED (c_port c) addr). set (v' := set_active (put_slot (bumped (x_vec x) j) j c') (u16 (v_active (x_vec x) + 1))).
    assert (Hs' : slot v' j = Ok c') by (unfold v'; rewrite slot_set_active, slot_put_same; [reflexivity|rewrite bumped_size; exact Rg]).
    destruct (find_index_cases v' j ltac:(lia)) as [[-> Q]|(c0 & -> & Ho)]; cbn [bind]; [discriminate|]. assert (c0 = c') as -> by (destruct Ho; congruence).
    set (X1 := set_pub (set_vec x v') _). exists j. destruct ans.
    + injection E as _ _ <- <-. split; [cbn [map app filter social]; change (c_addr c') with addr; change (c_port c') with (c_port c); rewrite Hp; reflexivity|]. intros _. exists c'. auto.
    + destruct (rmc_pub_close_connection X1 j) as [[[cd2 x2] e2]| | |] eqn:E2; cbn [bind] in E; [|discriminate E..]. injection E as _ _ <- <-. split; [|discriminate]. cbn [map app filter social].
      change (c_addr c') with addr. change (c_port c') with (c_port c). rewrite Hp. f_equal.
      revert E2. unfold rmc_pub_close_connection. change (x_vec X1) with v'. destruct (find_index_cases v' j ltac:(lia)) as [[_ Q]|(c0 & -> & Ho')]; [destruct (Q c' Ho)|]. assert (c0 = c') as -> by (destruct Ho'; congruence). cbn [bind].
      destruct (close_conn v' j) as [[[cd v] ce]| | |]; cbn [bind]; [|discriminate..]. destruct (pub_reset_subscriber _ _) as [[s fr]| | |]; cbn [bind fst snd]; [|discriminate..].
      destruct (release_all _ _) as [[m e]| | |] eqn:Er; cbn [bind fst snd]; [|discriminate..]. intros E. injection E as _ _ <-. cbn [filter social]. change (c_addr c') with addr. change (c_port c') with (c_port c). rewrite Hp. f_equal.
      pose proof (asocial_app _ _ (asocial_conn ce) (asocial_free _ (release_free _ _ _ _ Er))) as Q. clear -Q. induction (map PvConn ce ++ e) as [|a r IH]; [reflexivity|]. apply andb_prop in Q. destruct Q as [Q1 Q2]. cbn [filter]. destruct (social a); [discriminate|exact (IH Q2)].
Qed.
(** What a closed connection reports. *)
Theorem c81_leave_exact : forall x g log i c, reached x g log -> slot (x_vec x) i = Ok c -> c_mode c = CONNECTED ->
  exists x' evs, rmc_pub_close_connection x i = Ok (0, x', evs) /\ filter social evs = [PvLeave (c_addr c) 0] /\ Permutation (guests x) ((c_addr c, 0) :: guests x').
Proof.
  intros x g log i c R Hs Hm. pose proof R as (x0 & ops & F & H). pose proof (proj1 (hist_P0 _ _ _ _ _ F H)) as HP.
  assert (Ho : is_open (x_vec x) i c) by (split; [exact Hs|rewrite Hm; discriminate]). pose proof (slot_range _ _ _ Hs) as Rg.
  destruct (reached_inv _ _ _ R) as (sp & L & Q & X). destruct (close_xi false x g log sp L Q i c X Ho) as (x' & L' & fr & evs & E & _). exists x', evs. split; [exact E|].
  assert (Hp : c_port c = 0). { destruct (slot_split _ _ _ Hs) as (l1 & l2 & A & _). unfold P0 in HP. rewrite A in HP. apply Forall_app in HP. destruct HP as [_ HP]. inversion HP. tauto. }
  pose proof (proj2 (pclose_GD _ _ _ _ _ (proj1 Rg) E) _ (Permutation_refl _)) as (l' & El & Pl).
  revert E. unfold rmc_pub_close_connection. destruct (find_index_cases (x_vec x) i ltac:(lia)) as [[_ N]|(c0 & -> & Ho')]; [destruct (N c Ho)|]. assert (c0 = c) as -> by (destruct Ho'; congruence). cbn [bind].
  destruct (close_conn _ i) as [[[cd v] ce]| | |]; cbn [bind]; [|discriminate..]. destruct (pub_reset_subscriber _ _) as [[s f]| | |]; cbn [bind fst snd]; [|discriminate..].
  destruct (release_all _ _) as [[m e]| | |] eqn:Er; cbn [bind fst snd]; [|discriminate..]. intros E. assert (evs = PvLeave (c_addr c) (c_port c) :: map PvConn ce ++ e) as -> by congruence. clear E.
  pose proof (asocial_app _ _ (asocial_conn ce) (asocial_free _ (release_free _ _ _ _ Er))) as As. split.
  - cbn [filter social]. rewrite Hp. f_equal. clear -As. induction (map PvConn ce ++ e) as [|a r IH]; [reflexivity|]. apply andb_prop in As. destruct As as [Q1 Q2]. cbn [filter]. destruct (social a); [discriminate|exact (IH Q2)].
  - cbn [fold_left note] in El. rewrite (asocial_note _ As) in El. rewrite Hp in El. apply take_out_perm in El. rewrite El. apply perm_skip. exact Pl.
Qed.
(** The port and the node id are never known: whatever subscribers connect, the callbacks report
    port 0, and a control message reports port 0 and node id 0. *)
Theorem c81_port_refuted : forall x g log, reached x g log ->
  (forall a p, In (PvJoin a p) log \/ In (PvLeave a p) log -> p = 0) /\ (forall a p n bs, In (PvCtrl a p n bs) log -> p = 0 /\ n = 0).
Proof.
  intros x g log (x0 & ops & F & H). pose proof (proj2 (hist_P0 _ _ _ _ _ F H)) as P. rewrite Forall_forall in P. split.
  - intros a p [I|I]; exact (P _ I).
  - intros a p n bs I. exact (P _ I).
Qed.
(** The address.  accept() stores the four numbers of the peer's address a.b.c.d in this order in
    memory; on a little-endian host the integer made of them is not the one in host format, which
    rmc_internal.h:105 promises, but that of d.c.b.a. *)
Definition in_memory (a b c d : Z) : list Z := [a; b; c; d].
Definition loaded (bs : list Z) : Z := fold_right (fun b r => b + 256 * r) 0 bs.
Definition host_format (a b c d : Z) : Z := ((a * 256 + b) * 256 + c) * 256 + d.
Definition is_u8 (b : Z) : Prop := 0 <= b < 256.
Theorem c81_address_refuted : forall x g log i dd a b c d ans op x' evs, reached x g log -> 0 <= dd -> is_u8 a -> is_u8 b -> is_u8 c -> is_u8 d ->
  rmc_pub_read x i (RdAccept (AccOk dd (loaded (in_memory a b c d)) 0) (Some ans)) = Ok (0, op, x', evs) ->
  exists q, In (PvJoin q 0) evs /\ q = host_format d c b a /\ (q = host_format a b c d <-> a = d /\ b = c).
Proof.
  intros x g log i dd a b c d ans op x' evs R Hd Ha Hb Hc Hd' E. destruct (c81_join_exact _ _ _ _ _ _ _ _ _ _ _ R Hd E eq_refl) as (j & Ev & _). exists (loaded (in_memory a b c d)). split.
  - assert (I : In (PvJoin (loaded (in_memory a b c d)) 0) (filter social evs)) by (rewrite Ev; left; reflexivity). apply filter_In in I. tauto.
  - unfold loaded, in_memory, host_format, is_u8 in *. cbn [fold_right]. lia.
Qed.

(** Three subscribers connect, the third is refused, the first is closed. *)
Definition c81_ops : list xop :=
  [XActivate (ActOk 3 4 0); XRead RMC_LISTEN_INDEX (RdAccept (AccOk 5 (loaded (in_memory 10 0 0 7)) 0) (Some true));
   XRead RMC_LISTEN_INDEX (RdAccept (AccOk 6 (loaded (in_memory 10 0 0 7)) 0) (Some true)); XClose 0;
   XRead RMC_LISTEN_INDEX (RdAccept (AccOk 7 (loaded (in_memory 10 0 0 9)) 0) (Some false))].
Definition pairsb (a b : list (Z * Z)) : bool := if list_eq_dec pair_dec a b then true else false.
Example c81_witness : exists x g log x' evs, xhist demo0 c81_ops x g log /\ Forall announced_in c81_ops /\ attendance log = Some [(loaded (in_memory 10 0 0 7), 0)] /\
  guests x = [(loaded (in_memory 10 0 0 7), 0)] /\ length (filter social log) = 5%nat /\ host_format 10 0 0 7 <> loaded (in_memory 10 0 0 7) /\ rmc_pub_deactivate_context x = Ok (0, x', evs).
Proof.
  destruct (xcheck_hist demo0 c81_ops (fun x g log => match attendance log with Some l => pairsb l [(loaded (in_memory 10 0 0 7), 0)] | None => false end && pairsb (guests x) [(loaded (in_memory 10 0 0 7), 0)] &&
    Nat.eqb (length (filter social log)) 5 && match rmc_pub_deactivate_context x with Ok (0, _, _) => true | _ => false end)) as (x & g & log & H & E); [vm_compute; reflexivity|].
  bool_split. destruct (attendance log) as [l|] eqn:A; [|discriminate]. destruct (rmc_pub_deactivate_context x) as [[[[| |] x'] evs]| | |] eqn:Ed; try discriminate. unfold pairsb in *. repeat match goal with H : (if list_eq_dec ?d ?a ?b then true else false) = true |- _ => destruct (list_eq_dec d a b); [clear H|discriminate H] end. subst l.
  exists x, g, log, x', evs. split; [exact H|]. split; [repeat constructor|]. split; [exact A|]. split; [assumption|]. split; [apply Nat.eqb_eq; assumption|]. split; [vm_compute; discriminate|]. exact Ed.
Qed.
(** Without the connect callback somebody leaves who was never announced. *)
Theorem c81_unannounced_refuted : exists x g log, reached x g log /\ attendance log = None /\ In (PvLeave 1 0) log /\ forall a p, ~ In (PvJoin a p) log.
Proof.
  destruct (xcheck_hist demo0 [XActivate (ActOk 3 4 0); XRead RMC_LISTEN_INDEX (RdAccept (AccOk 5 1 0) None); XClose 0] (fun x g log => match attendance log with None => true | _ => false end && existsb (fun e => match e with PvLeave 1 0 => true | _ => false end) log && forallb (fun e => match e with PvJoin _ _ => false | _ => true end) log)) as (x & g & log & H & E); [vm_compute; reflexivity|].
  bool_split. exists x, g, log. split; [eexists _, _; split; [exact demo0_fresh|exact H]|]. split; [destruct (attendance log); [discriminate|reflexivity]|]. split.
  - match goal with A : existsb _ _ = true |- _ => apply existsb_exists in A; destruct A as (e & I & A) end. destruct e as [| | | | | | |]; try discriminate. destruct addr as [|[| |]|]; try discriminate. destruct port; try discriminate. exact I.
  - intros a p I. match goal with A : forallb _ _ = true |- _ => rewrite forallb_forall in A; specialize (A _ I); discriminate A end.
Qed.

Print Assumptions c81_attendance. Print Assumptions c81_all_left. Print Assumptions c81_join_exact. Print Assumptions c81_leave_exact.
Print Assumptions c81_port_refuted. Print Assumptions c81_address_refuted. Print Assumptions c81_unannounced_refuted.
