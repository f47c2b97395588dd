(** SysProofs.v — the invariant of the system of SpecSys.v. *)
From Verif Require Import Base CircBuf CircBufProofs Wire SeqList Pub Sub SpecSub Proto SpecProto ProtoProofs
  Conn SpecConn ConnProofs PubCtx SpecPubCtx PubCtxProofs PubCtxSteps PropPubCtx SpecPubRecv PubRecv
  SubCtx SpecSubCtx SubSteps SubInv PropPubMem SpecSys.

(** ** Only rmc_pub_write on a connection puts bytes on the socket *)
Definition notcp (e : pev) : Prop := match e with PvTcp _ _ => False | _ => True end.
Lemma notcp_out k evs : Forall notcp evs -> tcp_out k evs = [].
Proof. unfold tcp_out. induction 1 as [|e l H _ IH]; [reflexivity|]. cbn [flat_map]. rewrite IH. destruct e; cbn in *; tauto. Qed.
Lemma notcp_free evs : Forall is_free_ev evs -> Forall notcp evs.
Proof. apply Forall_impl. intros e. destruct e; cbn; tauto. Qed.
Lemma notcp_read i evs : Forall (of_read i) evs -> Forall notcp evs.
Proof. apply Forall_impl. intros e. destruct e; cbn; tauto. Qed.
Lemma notcp_conn l : Forall notcp (map PvConn l).
Proof. apply Forall_map, Forall_forall. intros; exact Logic.I. Qed.
Ltac nt := repeat first [apply Forall_nil | apply Forall_cons; [exact Logic.I|] | apply Forall_app; split | apply notcp_conn | assumption].
Lemma queue_nt x p l a code x' evs : rmc_pub_queue_packet x p l a = Ok (code, x', evs) -> Forall notcp evs.
Proof.
  unfold rmc_pub_queue_packet. destruct (_ =? _); [intros E; assert (evs = []) as -> by congruence; nt|].
  destruct (_ <? _); [intros E; assert (evs = []) as -> by congruence; nt|].
  destruct (x_susp x); [intros E; assert (evs = []) as -> by congruence; nt|].
  match goal with |- context [bind ?h _] => destruct h as [[[s' pd] nd]| | |] end; cbn [bind fst snd]; [|discriminate..].
  intros E. injection E as _ _ <-. nt.
Qed.
Lemma send_nt x a o code x' evs : send_single_multicast_packet x a o = Ok (code, x', evs) -> Forall notcp evs.
Proof.
  unfold send_single_multicast_packet. destruct (_ =? _); [intros E; assert (evs = []) as -> by congruence; nt|].
  destruct (get_pack _ _) as [p| | |]; cbn [bind]; [|discriminate..].
  destruct (_ <? _); [intros E; assert (evs = []) as -> by congruence; nt|].
  destruct (load _ _ _) as [bs| | |]; cbn [bind]; [|discriminate..]. destruct o as [e|ts].
  - destruct (_ =? _); intros E; injection E as _ _ <-; nt.
  - destruct (pub_packet_sent _ _ _) as [s| | |]; cbn [bind]; [|discriminate..]. intros E. injection E as _ _ <-. nt.
Qed.
Lemma mcast_nt : forall outs x code x' evs, process_multicast_write x outs = Ok (code, x', evs) -> Forall notcp evs.
Proof.
  induction outs as [|o outs IH]; intros x code x' evs E; cbn [process_multicast_write] in E;
  (destruct (pub_next_queued (x_pub x)) as [a|]; [|assert (evs = []) as -> by congruence; nt]).
  - exact (send_nt _ _ _ _ _ _ E).
  - destruct (send_single_multicast_packet x a o) as [[[cd x1] e1]| | |] eqn:E1; cbn [bind] in E; [|discriminate E..].
    pose proof (send_nt _ _ _ _ _ _ E1) as H1. destruct (negb (cd =? 0)); [assert (evs = e1) as -> by congruence; exact H1|].
    destruct (process_multicast_write x1 outs) as [[[cd2 x2] e2]| | |] eqn:E2; cbn [bind] in E; [|discriminate E..].
    assert (evs = e1 ++ e2) as -> by congruence. pose proof (IH _ _ _ _ E2). nt.
Qed.
Lemma resend_nt x i a code x' evs : rmc_pub_resend_packet x i a = Ok (code, x', evs) -> Forall notcp evs.
Proof.
  unfold rmc_pub_resend_packet. destruct (slot (x_vec x) i) as [c| | |]; cbn [bind]; [|discriminate..].
  destruct (get_pack _ _) as [p| | |]; cbn [bind]; [|discriminate..].
  match goal with |- context [bind ?h _] => destruct h as [w| | |] end; cbn [bind]; [|discriminate..].
  destruct (_ =? 0); intros E; injection E as _ _ <-; nt.
Qed.
Lemma timeout1_nt x i a code x' evs : process_sent_packet_timeout x i a = Ok (code, x', evs) -> Forall notcp evs.
Proof.
  unfold process_sent_packet_timeout. destruct (slot (x_vec x) i) as [c| | |]; cbn [bind]; [|discriminate..].
  destruct (get_pack _ _) as [p| | |]; cbn [bind]; [|discriminate..]. destruct (negb _).
  - destruct (rmc_pub_packet_ack x i (pk_pid p)) as [[x1 e1]| | |] eqn:E1; cbn [bind fst snd]; [|discriminate..]. intros E.
    assert (evs = e1) as -> by congruence. apply notcp_free. exact (proj2 (ack_frame _ _ _ _ _ E1)).
  - destruct (rmc_pub_resend_packet x i a) as [[[cd x1] e1]| | |] eqn:E1; cbn [bind]; [|discriminate..]. pose proof (resend_nt _ _ _ _ _ _ E1) as H1.
    destruct (cd =? 0).
    + destruct (rmc_pub_packet_ack x1 i (pk_pid p)) as [[x2 e2]| | |] eqn:E2; cbn [bind fst snd]; [|discriminate..]. intros E.
      assert (evs = e1 ++ e2) as -> by congruence. apply Forall_app. split; [exact H1|]. apply notcp_free. exact (proj2 (ack_frame _ _ _ _ _ E2)).
    + intros E. assert (evs = e1) as -> by congruence. exact H1.
Qed.
Lemma resends_nt i : forall packs x code x' evs, resend_loop x i packs = Ok (code, x', evs) -> Forall notcp evs.
Proof.
  induction packs as [|a packs IH]; intros x code x' evs E; cbn [resend_loop] in E; [assert (evs = []) as -> by congruence; nt|].
  destruct (process_sent_packet_timeout x i a) as [[[cd x1] e1]| | |] eqn:E1; cbn [bind] in E; [|discriminate E..].
  pose proof (timeout1_nt _ _ _ _ _ _ E1) as H1. destruct (negb (cd =? 0)); [assert (evs = e1) as -> by congruence; exact H1|].
  destruct (resend_loop x1 i packs) as [[[cd2 x2] e2]| | |] eqn:E2; cbn [bind] in E; [|discriminate E..].
  assert (evs = e1 ++ e2) as -> by congruence. pose proof (IH _ _ _ _ E2). nt.
Qed.
Lemma subs_nt now : forall subs x code x' evs, subs_loop x now subs = Ok (code, x', evs) -> Forall notcp evs.
Proof.
  induction subs as [|s subs IH]; intros x code x' evs E; cbn [subs_loop] in E; [assert (evs = []) as -> by congruence; nt|].
  unfold process_subscriber_timeout in E. destruct (pub_get_timed_out_packets _ _ _ _) as [packs| | |]; cbn [bind] in E; [|discriminate E..].
  destruct (resend_loop x (Z.of_nat s) packs) as [[[cd x1] e1]| | |] eqn:E1; cbn [bind] in E; [|discriminate E..].
  pose proof (resends_nt _ _ _ _ _ _ E1) as H1. destruct (negb (cd =? 0)); [assert (evs = e1) as -> by congruence; exact H1|].
  destruct (subs_loop x1 now subs) as [[[cd2 x2] e2]| | |] eqn:E2; cbn [bind] in E; [|discriminate E..].
  assert (evs = e1 ++ e2) as -> by congruence. pose proof (IH _ _ _ _ E2). nt.
Qed.
Lemma timeout_nt x now buf o code x' evs : rmc_pub_timeout_process x now buf o = Ok (code, x', evs) -> Forall notcp evs.
Proof.
  unfold rmc_pub_timeout_process. destruct (announce_due x now).
  - destruct (match o with AnnNone => _ | AnnNo => _ | AnnYes bs len => _ end) as [[bs len] send].
    match goal with |- context [bind ?h _] => destruct h as [[[cd x2] e2]| | |] eqn:E2 end; cbn [bind]; [|discriminate..].
    intros E. assert (evs = e2) as -> by congruence. destruct send; [exact (queue_nt _ _ _ _ _ _ _ E2)|]. assert (e2 = []) as -> by congruence. nt.
  - destruct (pub_get_timed_out_subscribers _ _ _) as [subs| | |]; cbn [bind]; [|discriminate..]. apply subs_nt.
Qed.
Lemma close_nt x i code x' evs : rmc_pub_close_connection x i = Ok (code, x', evs) -> Forall notcp evs.
Proof.
  unfold rmc_pub_close_connection. destruct (find_by_index (x_vec x) i) as [[c|]| | |]; cbn [bind]; [| |discriminate..].
  2:{ intros E. assert (evs = []) as -> by congruence. nt. }
  destruct (close_conn (x_vec x) i) as [[[cc v] ce]| | |]; cbn [bind]; [|discriminate..].
  match goal with |- context [bind ?h _] => destruct h as [[s fr]| | |] end; cbn [bind fst snd]; [|discriminate..].
  match goal with |- context [bind ?h _] => destruct h as [[m e]| | |] eqn:Er end; cbn [bind fst snd]; [|discriminate..].
  intros E. pose proof (notcp_free _ (release_free _ _ _ _ Er)) as Hf.
  assert (evs = PvLeave (c_addr c) (c_port c) :: map PvConn ce ++ e) as -> by congruence. nt.
Qed.
Lemma close_loop_nt : forall n x ind x' evs, close_loop n x ind = Ok (x', evs) -> Forall notcp evs.
Proof.
  induction n as [|n IH]; intros x ind x' evs E; cbn [close_loop] in E.
  { assert (evs = []) as -> by congruence. nt. }
  destruct (find_by_index (x_vec x) ind) as [[c|]| | |]; cbn [bind] in E; [| |discriminate E..].
  - destruct (rmc_pub_close_connection x ind) as [[[cd x1] e1]| | |] eqn:E1; cbn [bind] in E; [|discriminate E..].
    destruct (close_loop n x1 (ind + 1)) as [[x2 e2]| | |] eqn:E2; cbn [bind fst snd] in E; [|discriminate E..].
    assert (evs = e1 ++ e2) as -> by congruence. pose proof (close_nt _ _ _ _ _ E1). pose proof (IH x1 (ind + 1) _ _ E2). nt.
  - exact (IH x (ind + 1) x' evs E).
Qed.
Lemma deactivate_nt x code x' evs : rmc_pub_deactivate_context x = Ok (code, x', evs) -> Forall notcp evs.
Proof.
  unfold rmc_pub_deactivate_context. match goal with |- context [bind ?h _] => destruct h as [[x1 e1]| | |] eqn:E1 end; cbn [bind fst snd]; [|discriminate..].
  intros E. assert (F : Forall notcp e1).
  { destruct (_ =? _); [assert (e1 = []) as -> by congruence; nt|]. exact (close_loop_nt _ _ 0 _ _ E1). }
  injection E as _ _ <-. nt.
Qed.
Lemma accept_nt x k a cb code op x' evs : rmc_pub_read x k (RdAccept a cb) = Ok (code, op, x', evs) -> Forall notcp evs.
Proof.
  cbn [rmc_pub_read]. destruct (process_accept _ _ _) as [[[[cd ri] v] ae]| | |]; cbn [bind]; [|discriminate..].
  destruct (negb (cd =? 0)); [intros E; assert (evs = map PvConn ae) as -> by congruence; nt|]. destruct ri as [j|]; [|discriminate].
  destruct (find_by_index v j) as [[c2|]| | |]; cbn [bind]; [|discriminate..]. destruct cb as [[|]|].
  - intros E. injection E as _ _ _ <-. nt.
  - destruct (rmc_pub_close_connection _ j) as [[[cd3 x3] e3]| | |] eqn:E3; cbn [bind]; [|discriminate..].
    intros E. injection E as _ _ _ <-. pose proof (close_nt _ _ _ _ _ E3). nt.
  - intros E. injection E as _ _ _ <-. nt.
Qed.
Lemma read_nt x log f i t code op x' evs : PRI x log f -> 0 <= i -> pread_good x (XRead i (RdTcp t)) ->
  rmc_pub_read x i (RdTcp t) = Ok (code, op, x', evs) -> Forall notcp evs.
Proof.
  intros P Hi Hg E. cbn [rmc_pub_read] in E.
  destruct (find_index_cases (x_vec x) i Hi) as [[Ef Hn]|(c & Ef & Hs & Ho)]; rewrite Ef in E; cbn [bind] in E; [assert (evs = []) as -> by congruence; nt|].
  destruct (Z.eqb_spec (c_mode c) CONNECTED) as [Hm|Hm]; cbn [negb] in E; [|assert (evs = []) as -> by congruence; nt].
  pose proof (P i c Hs Hm) as Pc.
  destruct (tcp_read _ _ (c_rbuf c) t) as [q| | |] eqn:Et; cbn [bind] in E; [|discriminate E..].
  assert (Hro : match t with RData bs => bs <> [] -> let got := ztake (circ_buf_available (c_rbuf c)) bs in bytes_ok bs /\ read_ok (cb_size (c_rbuf c)) (cb_start (c_rbuf c)) (circ_buf_in_use (c_rbuf c) + zlen got) /\
     (ccb_set x = true -> forall cmds r, parses for_pub (contents (c_rbuf c) ++ got) cmds r -> ctrls_ok (cb_size (c_rbuf c)) (cb_start (c_rbuf c)) cmds) | RErr => True end).
  { destruct t as [|bs]; [exact Logic.I|]. intros Hne. rewrite (pc_size _ _ _ Pc). exact (Hg c Hs Hm Hne). }
  assert (Hst : Forall notcp (snd (r_st q))).
  { destruct (pub_read_cases _ _ _ _ (c_rbuf c) t q (pc_wf _ _ _ Pc) (pc_left _ _ _ Pc) Hro Et) as [[-> Eav]|[(Ec & Est & Eo)|(bs & cmds & l & Eo & Hne & Pp & Run & _)]].
    - nt.
    - rewrite Est. nt.
    - destruct (r_st q) as [x1 e1]. destruct (run_frame _ _ _ _ _ _ _ Run) as (V1 & more & E1 & M1 & A1). cbn [snd]. rewrite E1. exact (notcp_read _ _ M1). }
  destruct (r_code q =? EPIPE).
  - destruct (rmc_pub_close_connection _ i) as [[[cd3 x3] e3]| | |] eqn:E3; cbn [bind] in E; [|discriminate E..].
    assert (evs = snd (r_st q) ++ e3) as -> by congruence. pose proof (close_nt _ _ _ _ _ E3). nt.
  - injection E as _ _ _ <-. nt.
Qed.
Lemma xstep_tcp x g log f o code x' evs : preached x g log f -> xok x g o -> pread_good x o -> xstep x o = Ok (code, x', evs) ->
  forall k, tcp_out k evs = [] \/ (is_connected x' k = true /\ existsb (opens_at k) evs = false).
Proof.
  intros R Hok Hg E k. assert (N : Forall notcp evs -> tcp_out k evs = [] \/ (is_connected x' k = true /\ existsb (opens_at k) evs = false)) by (left; apply notcp_out; assumption).
  destruct o as [ptr bs|ptr|ptr len ann|i [a cb|err|t]|i [outs|w]|now buf o|i|interval now|s r|b|o|]; cbn [xstep] in E.
  - apply N. injection E as _ _ <-. nt.
  - apply N. injection E as _ _ <-. nt.
  - apply N. exact (queue_nt _ _ _ _ _ _ _ E).
  - apply N. destruct (rmc_pub_read x i (RdAccept a cb)) as [[[[cd op] x1] e1]| | |] eqn:Ed; cbn [bind] in E; [|discriminate E..]. injection E as _ _ <-. exact (accept_nt _ _ _ _ _ _ _ _ Ed).
  - apply N. cbn [rmc_pub_read] in E. destruct (x_mcast x =? -1); [|destruct err]; cbn [bind] in E; injection E as _ _ <-; nt.
  - apply N. destruct (rmc_pub_read x i (RdTcp t)) as [[[[cd op] x1] e1]| | |] eqn:Ed; cbn [bind] in E; [|discriminate E..]. injection E as _ _ <-.
    cbn [xok] in Hok. exact (read_nt x log f i t cd op x1 e1 (preached_PRI _ _ _ _ R) ltac:(lia) Hg Ed).
  - apply N. cbn [rmc_pub_write] in E. destruct (process_multicast_write x outs) as [[[cd x1] e1]| | |] eqn:Ed; cbn [bind] in E; [|discriminate E..].
    injection E as _ _ <-. exact (mcast_nt _ _ _ _ _ Ed).
  - cbn [rmc_pub_write] in E. destruct (_ <=? i); cbn [bind] in E; [apply N; injection E as _ _ <-; nt|].
    destruct (find_index_cases (x_vec x) i) as [[Ef _]|(c & Ef & Hs & _)]; [destruct w; cbn in Hok; lia| |]; rewrite Ef in E; cbn [bind] in E; [apply N; injection E as _ _ <-; nt|].
    destruct (Z.eqb_spec (c_mode c) CONNECTED) as [Hm|Hm]; cbn [negb bind] in E; [|apply N; injection E as _ _ <-; nt].
    destruct (_ =? 0); cbn [bind] in E; [apply N; injection E as _ _ <-; nt|].
    destruct (tcp_write (c_wbuf c) w) as [rr| | |]; cbn [bind] in E; [|discriminate E..]. injection E as _ <- <-.
    destruct (Z.eq_dec k i) as [->|Nk].
    + right. split; [|reflexivity]. unfold is_connected. cbn [set_vec x_vec]. rewrite slot_put_same by exact (slot_range _ _ _ Hs).
      cbn [set_action set_wbuf c_mode]. rewrite Hm. reflexivity.
    + left. unfold tcp_out. cbn [flat_map app]. apply Z.eqb_neq in Nk. rewrite Z.eqb_sym in Nk. rewrite Nk. reflexivity.
  - apply N. exact (timeout_nt _ _ _ _ _ _ _ E).
  - apply N. exact (close_nt _ _ _ _ _ E).
  - apply N. injection E as _ _ <-. nt.
  - apply N. unfold rmc_pub_throttling in E. destruct (s <? r); injection E as _ _ <-; nt.
  - apply N. injection E as _ _ <-. nt.
  - apply N. unfold rmc_pub_activate_context in E. destruct o as [e ds ea|m l port]; injection E as _ _ <-; nt;
    apply Forall_map, Forall_forall; intros; exact Logic.I.
  - apply N. exact (deactivate_nt _ _ _ _ E).
Qed.

(** ** Small facts *)
Lemma sent_app k log evs : existsb (opens_at k) evs = false -> s_sent (since_open k (log ++ evs)) = s_sent (since_open k log) ++ tcp_out k evs.
Proof.
  rewrite since_app. generalize (since_open k log). induction evs as [|e evs IH]; intros s H; [symmetry; apply app_nil_r|].
  cbn [existsb] in H. apply orb_false_iff in H. destruct H as [H1 H2]. cbn [fold_left]. rewrite (IH _ H2). unfold tcp_out. cbn [flat_map].
  rewrite app_assoc. f_equal. destruct e as [[]| | | | | | |]; cbn [since_ev opens_at] in *; rewrite ?app_nil_r; try reflexivity.
  - rewrite H1. reflexivity.
  - destruct (_ =? k); cbn [s_sent]; rewrite ?app_nil_r; reflexivity.
  - destruct (_ =? k); cbn [s_sent]; rewrite ?app_nil_r; reflexivity.
Qed.
Lemma ts_sent_app i log evs : adds i evs = false -> exists more, ts_sent (ts_open i (log ++ evs)) = ts_sent (ts_open i log) ++ more.
Proof.
  rewrite ts_app. generalize (ts_open i log). unfold adds. induction evs as [|e evs IH]; intros s H; [exists []; symmetry; apply app_nil_r|].
  cbn [existsb] in H. apply orb_false_iff in H. destruct H as [H1 H2]. cbn [fold_left]. destruct (IH (ts_ev i s e) H2) as [m ->].
  assert (Hm : exists m1, ts_sent (ts_ev i s e) = ts_sent s ++ m1); [|destruct Hm as [m1 ->]; exists (m1 ++ m); rewrite app_assoc; reflexivity].
  destruct s as [a b c d f g h]. destruct e as [[]| | | | | | | | | | | | | | |]; cbn [ts_ev] in *;
  try (destruct (_ =? i)); try discriminate; cbn [ts_sent]; solve [exists []; rewrite app_nil_r; reflexivity | eexists; reflexivity].
Qed.
Lemma g_next_data g x o code evs : exists more, g_data (g_next g x o code evs) = g_data g ++ more.
Proof.
  unfold g_next. cbn [g_data]. destruct o; try (exists []; rewrite app_nil_r; reflexivity). destruct (code =? 0); [destruct announce|]; cbn [g_data];
  solve [exists []; rewrite app_nil_r; reflexivity | eexists; reflexivity].
Qed.
Lemma is_connected_iff x k : is_connected x k = true <-> connected x k.
Proof.
  unfold is_connected, connected. destruct (slot (x_vec x) k) as [c| | |].
  - rewrite Z.eqb_eq. split; [eauto|]. intros (c' & E & H). congruence.
  - split; [discriminate|intros (c & E & _); discriminate].
  - split; [discriminate|intros (c & E & _); discriminate].
  - split; [discriminate|intros (c & E & _); discriminate].
Qed.
Lemma prefix_refl {X} (a : list X) : prefix a a.
Proof. exists []. symmetry. apply app_nil_r. Qed.
Lemma prefix_trans {X} (a b c : list X) : prefix a b -> prefix b c -> prefix a c.
Proof. intros [u ->] [v ->]. exists (u ++ v). symmetry. apply app_assoc. Qed.
Lemma prefix_app {X} (a b : list X) : prefix a (a ++ b).
Proof. exists b. reflexivity. Qed.
Lemma prefix_nil {X} (a : list X) : prefix [] a.
Proof. exists a. reflexivity. Qed.
Lemma NoDup_map_filter {X Y} (f : X -> Y) p (l : list X) : NoDup (map f l) -> NoDup (map f (filter p l)).
Proof.
  induction l as [|a l IH]; intros H; [constructor|]. cbn [map] in H. inversion H; subst. cbn [filter]. destruct (p a); [|auto].
  cbn [map]. constructor; [|auto]. intros Hi. apply H2. apply in_map_iff in Hi. destruct Hi as (b & <- & Hb). apply filter_In in Hb. apply in_map. tauto.
Qed.
Lemma peer_some l s i k : peer l s i = Some k -> In (s, i, k) l.
Proof.
  unfold peer. destruct (find _ l) as [[[s' i'] k']|] eqn:E; [|discriminate]. intros H. injection H as <-. apply find_some in E. cbn [fst snd] in E.
  destruct E as [E1 E2]. apply andb_prop in E2. destruct E2 as [E2 E3]. apply Nat.eqb_eq in E2. apply Z.eqb_eq in E3. subst. exact E1.
Qed.
Lemma peer_none l s i k : peer l s i = None -> ~ In (s, i, k) l.
Proof.
  unfold peer. destruct (find _ l) as [a|] eqn:E; [discriminate|]. intros _ H. pose proof (find_none _ _ E _ H) as N. cbn [fst snd] in N.
  rewrite Nat.eqb_refl, Z.eqb_refl in N. discriminate.
Qed.
Lemma peer_in l s i k : NoDup (map fst l) -> In (s, i, k) l -> peer l s i = Some k.
Proof.
  intros N H. destruct (peer l s i) as [k'|] eqn:E.
  - apply peer_some in E. f_equal. clear - N H E. induction l as [|a l IH]; [destruct H|]. cbn [map] in N. inversion N; subst.
    destruct H as [->|H], E as [E|E]; [congruence| | |auto].
    + exfalso. apply H2. exact (in_map fst _ _ E).
    + exfalso. apply H2. rewrite E. exact (in_map fst _ _ H).
  - destruct (peer_none _ _ _ k E H).
Qed.

(** A command that carries one of the payloads [data] under its id. *)
Definition carrier (data : list (list Z)) (c : cmd) : Prop :=
  exists h p, c = CmdPacket h p /\ 1 <= h_pid h /\ nth_error data (Z.to_nat (h_pid h - 1)) = Some p /\ cmd_ok c.
Lemma carrier_more data more c : carrier data c -> carrier (data ++ more) c.
Proof.
  intros (h & p & E & H1 & H2 & H3). exists h, p. split; [exact E|]. split; [exact H1|]. split; [|exact H3].
  rewrite nth_error_app1; [exact H2|]. apply nth_error_Some. congruence.
Qed.
Lemma packet_carrier node lip data k c : packet_cmd node lip data k c -> carrier data c.
Proof. intros (p & port & -> & H1 & H2 & H3). eexists _, p. split; [reflexivity|]. cbn [h_pid]. auto. Qed.

Section Inv.
Variable own : Z * Z -> bool.
Record SysI (y : sys) : Prop := mkSysI {
  si_pub : preached (sy_pub y) (sy_g y) (sy_plog y) (sy_rcv y);
  si_sub : forall s, sreached true (sy_sub y s) (sy_slog y s);
  si_nd : NoDup (map fst (sy_links y));
  si_link : forall s i k, In (s, i, k) (sy_links y) -> connected (sy_pub y) k /\
    sy_down y s i = s_sent (since_open k (sy_plog y)) /\ prefix (sy_rcv y k) (ts_sent (ts_open i (sy_slog y s)));
  si_gen : forall s, Forall (genuine own y) (sy_slog y s);
  si_recv : forall s i c, sconnected (sy_sub y s) i c -> own (c_addr c, c_port c) = true ->
    prefix (ts_recv (ts_open i (sy_slog y s))) (sy_down y s i);
  si_down : forall s i, exists rest cmds, sy_down y s i ++ rest = flat_map wire cmds /\ Forall (carrier (g_data (sy_g y))) cmds
}.
Lemma preached_step x g log f o code x' evs : preached x g log f -> xok x g o -> pread_good x o -> xstep x o = Ok (code, x', evs) ->
  preached x' (g_next g x o code evs) (log ++ evs) (rcv_next f x o evs).
Proof. intros (x0 & ops & F & H) H1 H2 E. exists x0, (ops ++ [o]). split; [exact F|]. econstructor; eassumption. Qed.
Lemma SysI_init y : sys_init y -> SysI y.
Proof.
  intros (F & Eg & El & Er & Fs & Es & Ek & Ed). destruct y as [x g pl rc sb sl ln dn]. cbn in *. subst. constructor; cbn.
  - exists x, []. split; [exact F|constructor].
  - intros s. exists (sb s), []. split; [apply Fs|constructor].
  - constructor.
  - intros s i k [].
  - intros s. constructor.
  - intros s i c [Hs Hm] _. destruct (Fs s) as (node & buf & m & E & L). rewrite E in Hs. apply slot_init in Hs. destruct Hs as [_ Hs]. rewrite Hs in Hm. discriminate.
  - intros s i. exists [], []. split; [reflexivity|constructor].
Qed.
Lemma genuine_more y y' more e : sy_plog y' = sy_plog y ++ more -> genuine own y e -> genuine own y' e.
Proof.
  intros E. destruct e; cbn; auto. intros H O. destruct (H O) as (d0 & Hd & Ed). exists d0. split; [|exact Ed].
  rewrite E, flat_map_app. apply in_or_app. auto.
Qed.
Lemma SysI_pub y o code x' evs : SysI y -> xok (sy_pub y) (sy_g y) o -> pread_good (sy_pub y) o -> xstep (sy_pub y) o = Ok (code, x', evs) ->
  (forall s i k, In (s, i, k) (sy_links y) -> prefix (rcv_next (sy_rcv y) (sy_pub y) o evs k) (ts_sent (ts_open i (sy_slog y s)))) ->
  SysI (pub_next_sys y o code x' evs).
Proof.
  intros [I1 I2 I3 I4 I5 I6 I7] Hok Hg E Hn. pose proof (preached_step _ _ _ _ _ _ _ _ I1 Hok Hg E) as R'.
  assert (Down : forall s i k, In (s, i, k) (sy_links y) -> peer (sy_links y) s i = Some k) by (intros; apply peer_in; assumption).
  destruct (g_next_data (sy_g y) (sy_pub y) o code evs) as [gm Gm].
  constructor; cbn [pub_next_sys sy_pub sy_g sy_plog sy_rcv sy_sub sy_slog sy_links sy_down].
  - exact R'.
  - exact I2.
  - apply NoDup_map_filter. exact I3.
  - intros s i k H. apply filter_In in H. cbn [snd] in H. destruct H as [H Hc]. apply andb_prop in Hc. destruct Hc as [Hc Ho]. apply negb_true_iff in Ho.
    destruct (I4 s i k H) as (_ & Ed & _). split; [apply is_connected_iff; exact Hc|]. split; [|exact (Hn s i k H)].
    rewrite (Down s i k H), Ed. symmetry. apply sent_app. exact Ho.
  - intros s. eapply Forall_impl; [|exact (I5 s)]. intros e. apply (genuine_more y _ evs). reflexivity.
  - intros s i c H1 H2. apply (prefix_trans _ (sy_down y s i)); [exact (I6 s i c H1 H2)|apply prefix_app].
  - intros s i. destruct (I7 s i) as (rest & cmds & E1 & F1).
    assert (Same : forall t, t = [] -> exists rest0 cmds0, (sy_down y s i ++ t) ++ rest0 = flat_map wire cmds0 /\ Forall (carrier (g_data (g_next (sy_g y) (sy_pub y) o code evs))) cmds0).
    { intros t ->. exists rest, cmds. rewrite app_nil_r. split; [exact E1|]. eapply Forall_impl; [|exact F1]. intros c Hc. rewrite Gm. apply carrier_more. exact Hc. }
    destruct (peer (sy_links y) s i) as [k|] eqn:Ep; [|apply Same; reflexivity].
    destruct (xstep_tcp _ _ _ _ _ _ _ _ I1 Hok Hg E k) as [Hk|[Hc Ho]]; [apply Same; exact Hk|].
    apply peer_some in Ep. destruct (I4 s i k Ep) as (_ & Ed & _). rewrite Ed, <- sent_app by exact Ho.
    apply is_connected_iff in Hc. destruct (c64_nothing_forgotten _ _ _ k (preached_reached _ _ _ _ R') Hc) as (cm & (c & _ & Es) & Fc & _).
    exists (contents (c_wbuf c)), cm. split; [exact Es|]. eapply Forall_impl; [|exact Fc]. intros m (k' & Hm). exact (packet_carrier _ _ _ _ _ Hm).
Qed.
Lemma supd_same {X} (f : nat -> X) s v : supd f s v s = v.
Proof. unfold supd. rewrite Nat.eqb_refl. reflexivity. Qed.
Lemma supd_other {X} (f : nat -> X) s v t : t <> s -> supd f s v t = f t.
Proof. intros H. unfold supd. apply Nat.eqb_neq in H. rewrite H. reflexivity. Qed.
Lemma SysI_sub y s o code x' evs : SysI y -> yok (sy_sub y s) (sy_slog y s) o -> read_good (sy_sub y s) o -> ystep (sy_sub y s) o = Ok (code, x', evs) ->
  Forall (genuine own y) evs ->
  (forall i c, sconnected x' i c -> own (c_addr c, c_port c) = true ->
     prefix (ts_recv (ts_open i (sy_slog y s ++ evs))) (sy_down (sub_next_sys y s x' evs) s i)) ->
  SysI (sub_next_sys y s x' evs).
Proof.
  intros [I1 I2 I3 I4 I5 I6 I7] Hok Hg E Hge Hre.
  constructor; cbn [sub_next_sys sy_pub sy_g sy_plog sy_rcv sy_sub sy_slog sy_links] in *.
  - exact I1.
  - intros t. destruct (Nat.eq_dec t s) as [->|N]; [rewrite !supd_same|rewrite !supd_other by exact N; apply I2].
    destruct (I2 s) as (x0 & ops & F & H). exists x0, (ops ++ [o]). split; [exact F|]. econstructor; try eassumption. intros _. exact Hg.
  - apply NoDup_map_filter. exact I3.
  - intros t i k H. apply filter_In in H. cbn [fst snd] in H. destruct H as [H Hc]. apply negb_true_iff in Hc. destruct (I4 t i k H) as (A & B & C).
    split; [exact A|]. cbn [sub_next_sys sy_down]. rewrite Hc. split; [exact B|]. destruct (Nat.eq_dec t s) as [->|N]; [|rewrite supd_other by exact N; exact C].
    rewrite supd_same. rewrite Nat.eqb_refl in Hc. cbn [andb] in Hc. destruct (ts_sent_app i (sy_slog y s) evs Hc) as [m Em]. rewrite Em.
    eapply prefix_trans; [exact C|apply prefix_app].
  - intros t. assert (Gs : forall l, Forall (genuine own y) l -> Forall (genuine own (sub_next_sys y s x' evs)) l).
    { intros l. apply Forall_impl. intros e. apply (genuine_more y _ []). cbn [sub_next_sys sy_plog]. symmetry. apply app_nil_r. }
    apply Gs. destruct (Nat.eq_dec t s) as [->|N]; [rewrite supd_same|rewrite supd_other by exact N; apply I5]. apply Forall_app. split; [apply I5|exact Hge].
  - intros t i c Hc Ho. destruct (Nat.eq_dec t s) as [->|N].
    + rewrite supd_same in Hc. rewrite supd_same. exact (Hre i c Hc Ho).
    + rewrite supd_other in Hc by exact N. rewrite supd_other by exact N. cbn [sub_next_sys sy_down]. apply Nat.eqb_neq in N. rewrite N. exact (I6 t i c Hc Ho).
  - intros t i. cbn [sub_next_sys sy_down]. destruct (_ && _); [exists [], []; split; [reflexivity|constructor]|apply I7].
Qed.
Lemma SysI_step y y' : SysI y -> sys_step own y y' -> SysI y'.
Proof.
  intros I H. destruct H as [o code x' evs H1 H2 H3 H4|s o code x' evs H1 H2 H3 H4 H5|s i k H1 H2 H3 H4 H5 H6].
  - exact (SysI_pub y o code x' evs I H1 H2 H3 H4).
  - exact (SysI_sub y s o code x' evs I H1 H2 H3 H4 H5).
  - destruct I as [I1 I2 I3 I4 I5 I6 I7]. constructor; cbn [sy_pub sy_g sy_plog sy_rcv sy_sub sy_slog sy_links sy_down map fst]; auto.
    + constructor; [|exact I3]. intros Hi. apply in_map_iff in Hi. destruct Hi as ([a k'] & E & Hi). cbn [fst] in E. subst a. exact (peer_none _ _ _ k' H5 Hi).
    + intros t j l [Hl|Hl]; [|exact (I4 t j l Hl)]. injection Hl as <- <- <-. split; [apply is_connected_iff; exact H1|].
      rewrite H6, H2, H3. split; [reflexivity|apply prefix_nil].
Qed.
Lemma reached_SysI y : sys_reached own y -> SysI y.
Proof. induction 1 as [y H|y y0 _ IH H]; [apply SysI_init; exact H|exact (SysI_step _ _ IH H)]. Qed.
End Inv.
