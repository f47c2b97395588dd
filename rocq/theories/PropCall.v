(** PropCall.v — C78: what each call answers, and that a refused call has no effect. *)
From Verif Require Import Base CircBuf CircBufProofs Wire SeqList Pub SpecPub PubProofs Safe Proto ProtoProofs PropProto
  Conn SpecConn ConnProofs PubCtx SpecPubCtx PubCtxProofs PubCtxSteps PropPubCtx PropPubTime PropPubMem PollPub PollMcast
  Sub SubCtx SpecSubCtx SubSteps SubInv PropSubCtx PropSubConn.

(** ** The publisher *)
Lemma pub_closed x g log i : reached x g log -> 0 <= i -> ~ connected x i -> find_by_index (x_vec x) i = Ok None.
Proof.
  intros H H0 N. apply reached_inv in H. destruct H as (sp & L & Q & X). destruct (find_index_cases (x_vec x) i H0) as [[E _]|(c & _ & Hs & Hm)]; [exact E|].
  destruct N. exists c. split; [exact Hs|]. destruct (vi_mode _ _ (xi_vec _ _ _ _ _ _ _ X) i c Hs) as (_ & _ & [A|A]); [contradiction|exact A].
Qed.
Lemma pub_open x i c : slot (x_vec x) i = Ok c -> c_mode c = CONNECTED -> find_by_index (x_vec x) i = Ok (Some c).
Proof.
  intros Hs Hm. pose proof (slot_range _ _ _ Hs) as R. unfold find_by_index. replace (v_size (x_vec x) <=? i) with false by lia. rewrite Hs. cbn [bind]. rewrite Hm. reflexivity.
Qed.
Lemma pub_size x g log : reached x g log -> rmc_pub_get_max_subscriber_count x = v_size (x_vec x).
Proof.
  intros H. apply reached_inv in H. destruct H as (sp & L & Q & X). pose proof (vi_size _ _ (xi_vec _ _ _ _ _ _ _ X)) as S. unfold rmc_pub_get_max_subscriber_count, get_vector_size, u16, v_size, zlen, RMC_LISTEN_INDEX in *.
  rewrite Z.mod_small; lia.
Qed.

(** rmc_pub_write on a connection: an index outside the table gives EINVAL, a closed connection
    ENOTCONN, one with nothing to send ENODATA, all without effect.  Otherwise the code is
    that of writev(), and the bytes it took are the first ones that waited. *)
Theorem c78_pub_write : forall x g log i w, reached x g log -> xok x g (XWrite i (WrTcp w)) ->
  (v_size (x_vec x) <= i -> rmc_pub_write x i (WrTcp w) = Ok (EINVAL, RMC_ERROR, x, [])) /\
  (i < v_size (x_vec x) -> ~ connected x i -> rmc_pub_write x i (WrTcp w) = Ok (ENOTCONN, RMC_ERROR, x, [])) /\
  (forall c, slot (x_vec x) i = Ok c -> c_mode c = CONNECTED ->
     (contents (c_wbuf c) = [] -> rmc_pub_write x i (WrTcp w) = Ok (ENODATA, RMC_ERROR, x, [])) /\
     (contents (c_wbuf c) <> [] -> exists act c',
        rmc_pub_write x i (WrTcp w) =
          Ok (match w with WErr e => e | WOk _ => 0 end, match w with WErr _ => RMC_ERROR | WOk _ => RMC_WRITE_TCP end,
              set_vec x (put_slot (x_vec x) i c'),
              [PvTcp i (match w with WErr _ => [] | WOk n => ztake n (contents (c_wbuf c)) end);
               PvConn (EvMod (c_desc c) i (c_action c) act)]) /\
        c_action c' = act /\ c_desc c' = c_desc c /\ c_mode c' = CONNECTED /\ c_rbuf c' = c_rbuf c /\
        contents (c_wbuf c') = match w with WErr _ => contents (c_wbuf c) | WOk n => zdrop n (contents (c_wbuf c)) end)).
Proof.
  intros x g log i w H Hok. assert (R : 0 <= i < 65536) by (destruct w; cbn in Hok; tauto). unfold rmc_pub_write. rewrite (pub_size _ _ _ H).
  split; [intros L; replace (v_size (x_vec x) <=? i) with true by lia; reflexivity|]. split.
  { intros L N. replace (v_size (x_vec x) <=? i) with false by lia. rewrite (pub_closed _ _ _ _ H (proj1 R) N). reflexivity. }
  intros c Hs Hm. pose proof (slot_range _ _ _ Hs) as Rs. replace (v_size (x_vec x) <=? i) with false by lia. rewrite (pub_open _ _ _ Hs Hm). cbn [bind]. rewrite Hm. cbn [negb Z.eqb CONNECTED].
  apply reached_inv in H. destruct H as (sp & L & Q & X). destruct (vi_ring _ _ (xi_vec _ _ _ _ _ _ _ X) i c Hs) as [W Sz]. rewrite (in_use_contents _ W).
  destruct (tcp_write_spec (c_wbuf c) w W ltac:(lia)) as (wb' & Ew & W' & Sz' & C' & _). { destruct w; cbn in Hok; tauto. }
  split; [intros ->; reflexivity|]. destruct (contents (c_wbuf c)) as [|b l] eqn:Ec; [contradiction|]. intros _. rewrite Ew. cbn [bind w_code w_left w_sent w_buf].
  match goal with |- context [set_action ?cc ?a] => exists a, (set_action cc a) end. split.
  - destruct w as [e|n]; [|reflexivity]. destruct Hok as [_ He]. destruct (Z.eqb_spec e 0); [contradiction|reflexivity].
  - cbn [set_action set_wbuf c_action c_desc c_mode c_rbuf c_wbuf]. repeat match goal with |- _ /\ _ => split end; auto.
Qed.
(** rmc_pub_read on a connection that is not open, or on an inactive multicast socket. *)
Theorem c78_pub_read_refused : forall x g log i, reached x g log -> 0 <= i ->
  (~ connected x i -> forall t, rmc_pub_read x i (RdTcp t) = Ok (ENOTCONN, Some RMC_ERROR, x, [])) /\
  (x_mcast x = -1 -> forall e, rmc_pub_read x i (RdMcast e) = Ok (ENOTCONN, Some RMC_ERROR, x, [])) /\
  (x_mcast x <> -1 -> forall e, rmc_pub_read x i (RdMcast (Some e)) = Ok (e, Some RMC_ERROR, x, [])).
Proof.
  intros x g log i H H0. split; [|split].
  - intros N t. unfold rmc_pub_read. rewrite (pub_closed _ _ _ _ H H0 N). reflexivity.
  - intros E e. unfold rmc_pub_read. rewrite E. reflexivity.
  - intros E e. unfold rmc_pub_read. replace (x_mcast x =? -1) with false by lia. reflexivity.
Qed.
(** A successful read of the publisher's own multicast socket discards the datagram: the code is
    0, nothing has changed, and the socket is armed for reading again.  *op_res stays as the
    caller left it ([None]), although reliable_multicast.h:395-405 promises a value. *)
Theorem c78_pub_mcast_read : forall x i, x_mcast x <> -1 ->
  rmc_pub_read x i (RdMcast None) = Ok (0, None, x, [PvConn (EvMod (x_mcast x) RMC_MULTICAST_INDEX 1 1)]).
Proof. intros x i E. unfold rmc_pub_read. replace (x_mcast x =? -1) with false by lia. reflexivity. Qed.
(** The operation results as the header file numbers them; no two are the same. *)
Theorem c78_operations :
  [RMC_ERROR; RMC_READ_MULTICAST; RMC_READ_MULTICAST_NOT_READY; RMC_READ_TCP; RMC_READ_ACCEPT; RMC_READ_DISCONNECT;
   RMC_WRITE_MULTICAST; RMC_COMPLETE_CONNECTION; RMC_WRITE_TCP] = [0; 1; 4; 5; 6; 7; 8; 9; 10].
Proof. reflexivity. Qed.
(** Accepting: ENOMEM without effect when the table is full; the error of accept() otherwise,
    and then no connection has changed; on success RMC_READ_ACCEPT. *)
Theorem c78_pub_accept : forall x g log i a cb, reached x g log -> xok x g (XRead i (RdAccept a cb)) ->
  ((forall j c, slot (x_vec x) j = Ok c -> c_mode c = CONNECTED) ->
     rmc_pub_read x i (RdAccept a cb) = Ok (ENOMEM, Some RMC_ERROR, x, [])) /\
  ((exists j c, slot (x_vec x) j = Ok c /\ c_mode c <> CONNECTED) ->
     match a with
     | AccErr e => exists v', rmc_pub_read x i (RdAccept a cb) = Ok (e, Some RMC_ERROR, set_vec x v', []) /\
                     v_conns v' = v_conns (x_vec x) /\ v_active v' = v_active (x_vec x)
     | AccOk _ _ _ => exists x' evs, rmc_pub_read x i (RdAccept a cb) = Ok (0, Some RMC_READ_ACCEPT, x', evs)
     end).
Proof.
  intros x g log i a cb H Hok. pose proof (reached_inv _ _ _ H) as (sp & L & Q & X). pose proof (xi_vec _ _ _ _ _ _ _ X) as V.
  pose proof (step_inv_x false x g log _ (reached_inv _ _ _ H) Hok ltac:(discriminate)) as S. cbn [xstep] in S.
  pose proof (vi_size _ _ V) as Sz. assert (SN : v_size (x_vec x) <= RMC_NIL_INDEX) by (unfold RMC_LISTEN_INDEX, RMC_NIL_INDEX in *; lia).
  destruct (accept_cases (x_listen x) (x_vec x) a SN) as [[NF E]|(j & c & [F Lw] & Hc & Dc & E)].
  - assert (All : forall j c, slot (x_vec x) j = Ok c -> c_mode c = CONNECTED).
    { intros j c Hs. destruct (vi_mode _ _ V j c Hs) as (D & _ & [M|M]); [|exact M]. destruct (NF j). exists c. split; [exact Hs|]. apply D, M. }
    split; [intros _|intros (j & c & Hs & M); destruct (M (All j c Hs))]. unfold rmc_pub_read. rewrite E. cbn [bind]. destruct x; reflexivity.
  - assert (NA : c_mode c <> CONNECTED). { destruct (vi_mode _ _ V j c Hc) as (D & _). apply D in Dc. rewrite Dc. discriminate. }
    split; [intros All; destruct (NA (All j c Hc))|intros _]. destruct a as [e|d addr nd].
    + unfold rmc_pub_read in *. rewrite E in *. cbn [bind] in *. cbn in Hok. replace (e =? 0) with false by lia. cbn [negb].
      eexists. split; [reflexivity|]. split.
      * assert (Ec : set_desc c (-1) = c) by (destruct c; cbn in Dc |- *; subst; reflexivity). rewrite Ec.
        transitivity (v_conns (put_slot (x_vec x) j c)); [unfold bumped; repeat match goal with |- context [if ?b then _ else _] => destruct b end; reflexivity|].
        assert (G : forall (l : list conn) n, nth_error l n = Some c -> replace n c l = l).
        { induction l as [|y l IH]; intros [|n] Hn; cbn in *; try discriminate; [injection Hn as ->; reflexivity|]. rewrite (IH n Hn). reflexivity. }
        cbn [put_slot v_conns]. apply G. unfold slot in Hc. destruct (0 <=? j); [|discriminate]. destruct (nth_error _ _); [congruence|discriminate].
      * unfold bumped. repeat match goal with |- context [if ?b then _ else _] => destruct b end; reflexivity.
    + cbn in Hok. destruct E as [[-> E]|[N E]]; [|lia]. unfold rmc_pub_read in *. rewrite E in *. clear S E. cbn [bind]. change (negb (0 =? 0)) with false. cbv iota.
      pose proof (slot_range _ _ _ Hc) as R.
      destruct (accept_xi false x g log sp L Q j c d addr X (conj F Lw) Hc Dc (proj1 Hok)) as [X1 Ho]. cbv zeta in X1, Ho.
      match type of Ho with is_open ?v _ ?cc => set (v' := v) in *; set (c' := cc) in * end.
      destruct (find_index_cases v' j (proj1 R)) as [[_ H1]|(c0 & -> & Ho0)]; [destruct (H1 c' Ho)|]. cbn [bind].
      destruct cb as [[|]|]; try (eexists; eexists; reflexivity).
      destruct (close_xi _ _ _ _ _ _ _ j c' X1 Ho) as (x2 & _ & _ & e2 & E2 & _). rewrite E2. cbn [bind]. eexists; eexists; reflexivity.
Qed.
(** rmc_pub_close_connection: EINVAL without effect, or success. *)
Theorem c78_pub_close : forall x g log i, reached x g log -> 0 <= i ->
  (~ connected x i -> rmc_pub_close_connection x i = Ok (EINVAL, x, [])) /\
  (connected x i -> exists x' evs, rmc_pub_close_connection x i = Ok (0, x', evs) /\ ~ connected x' i /\
     forall j, j <> i -> slot (x_vec x') j = slot (x_vec x) j).
Proof.
  intros x g log i H H0. split.
  - intros N. unfold rmc_pub_close_connection. rewrite (pub_closed _ _ _ _ H H0 N). reflexivity.
  - intros (c & Hs & Hm). apply reached_inv in H. destruct H as (sp & L & Q & X).
    destruct (close_xi _ _ _ _ _ _ _ i c X) as (x2 & _ & _ & e2 & E2 & _ & _ & _ & _ & _ & _ & _ & O & N & _); [split; [exact Hs|rewrite Hm; discriminate]|].
    exists x2, e2. split; [exact E2|]. split; [|exact O]. intros (d & Hd & Hdm). apply (N d). split; [exact Hd|rewrite Hdm; discriminate].
Qed.
(** rmc_pub_queue_packet. *)
Theorem c78_pub_queue : forall x g log ptr len announce, reached x g log -> xok x g (XQueue ptr len announce) ->
  (ptr = 0 -> rmc_pub_queue_packet x ptr len announce = Ok (EINVAL, x, [])) /\
  (ptr <> 0 -> RMC_MAX_PAYLOAD < len -> rmc_pub_queue_packet x ptr len announce = Ok (EMSGSIZE, x, [])) /\
  (ptr <> 0 -> len <= RMC_MAX_PAYLOAD -> rmc_pub_traffic_suspended x = EBUSY -> rmc_pub_queue_packet x ptr len announce = Ok (EBUSY, x, [])) /\
  (ptr <> 0 -> len <= RMC_MAX_PAYLOAD -> rmc_pub_traffic_suspended x = 0 -> exists x' evs, rmc_pub_queue_packet x ptr len announce = Ok (0, x', evs)).
Proof.
  intros x g log ptr len announce H Hok. destruct (c11_refused_only_when_too_long x g log ptr len announce H Hok) as (code & x' & evs & E & _).
  unfold rmc_pub_queue_packet, rmc_pub_traffic_suspended in *. repeat match goal with |- _ /\ _ => split end.
  - intros ->. reflexivity.
  - intros N L. replace (ptr =? 0) with false by lia. replace (RMC_MAX_PAYLOAD <? len) with true by lia. reflexivity.
  - intros N L S. replace (ptr =? 0) with false by lia. replace (RMC_MAX_PAYLOAD <? len) with false by lia. destruct (x_susp x); [reflexivity|discriminate].
  - intros N L S. replace (ptr =? 0) with false in * by lia. replace (RMC_MAX_PAYLOAD <? len) with false in * by lia. destruct (x_susp x); [discriminate|]. cbv iota in *.
    match type of E with bind ?h _ = _ => destruct h end; cbn [bind] in *; [|discriminate E..]. do 2 eexists. reflexivity.
Qed.
(** The settings: a resume threshold above the suspend threshold is refused. *)
Theorem c78_pub_throttle : forall x s r,
  (s < r -> rmc_pub_throttling x s r = (EINVAL, x)) /\
  (r <= s -> exists x', rmc_pub_throttling x s r = (0, x') /\ x_sthr x' = s /\ x_rthr x' = r /\ rmc_pub_traffic_suspended x' = rmc_pub_traffic_suspended x).
Proof.
  intros x s r. unfold rmc_pub_throttling. split; intros H.
  - replace (s <? r) with true by lia. reflexivity.
  - replace (s <? r) with false by lia. eexists. split; [reflexivity|]. cbn. auto.
Qed.
(** Multicasting while the context is not active: nothing happens. *)
Theorem c78_pub_mcast_inactive : forall x i outs, x_mcast x = -1 ->
  rmc_pub_write x i (WrMcast outs) = Ok (match queued x with [] => 0 | _ => ENOTCONN end, RMC_WRITE_MULTICAST, x, []).
Proof.
  intros x i outs E. unfold rmc_pub_write. assert (S : forall a o, send_single_multicast_packet x a o = Ok (ENOTCONN, x, [])).
  { intros a o. unfold send_single_multicast_packet. rewrite E. reflexivity. }
  assert (P : process_multicast_write x outs = Ok (match queued x with [] => 0 | _ => ENOTCONN end, x, [])).
  { pose proof (next_none x) as N. destruct outs as [|o outs]; cbn [process_multicast_write]; destruct (pub_next_queued (x_pub x)) as [a|] eqn:Ea.
    all: destruct (queued x) as [|q l]; try (discriminate (proj1 N eq_refl)); try (discriminate (proj2 N eq_refl)); rewrite ?S; reflexivity. }
  rewrite P. reflexivity.
Qed.
(** The report of unsent bytes. *)
Theorem c78_pub_has_pending_send : forall x g log i, reached x g log -> 0 <= i ->
  (~ connected x i -> rmc_pub_context_has_pending_send x i = Ok ENOTCONN) /\
  (forall c, slot (x_vec x) i = Ok c -> c_mode c = CONNECTED ->
     rmc_pub_context_has_pending_send x i = Ok (match contents (c_wbuf c) with [] => 0 | _ => EBUSY end)).
Proof.
  intros x g log i H H0. split.
  - intros N. unfold rmc_pub_context_has_pending_send. rewrite (pub_closed _ _ _ _ H H0 N). reflexivity.
  - intros c Hs Hm. unfold rmc_pub_context_has_pending_send. rewrite (pub_open _ _ _ Hs Hm). cbn [bind].
    apply reached_inv in H. destruct H as (sp & L & Q & X). destruct (vi_ring _ _ (xi_vec _ _ _ _ _ _ _ X) i c Hs) as [W Sz].
    pose proof (in_use_bounds _ W) as B. unfold pending_send, u16. rewrite Z.mod_small by (unfold RMC_MAX_PACKET in Sz; lia).
    pose proof (in_use_contents _ W) as I. destruct (contents (c_wbuf c)); replace (0 <? circ_buf_in_use (c_wbuf c)) with (negb (circ_buf_in_use (c_wbuf c) =? 0)) by lia; rewrite I; reflexivity.
Qed.
Definition c78_ops : list xop := demo_ops ++ [XTimeout 200000 900 AnnNone].
(** In the demo history connection 0 is open and has bytes to send, and indices 5 and 100 are
    not open. *)
Example c78_pub_witness : exists x g log c, reached x g log /\ slot (x_vec x) 0 = Ok c /\ c_mode c = CONNECTED /\ contents (c_wbuf c) <> [] /\ xok x g (XWrite 0 (WrTcp (WOk 5))) /\
  ~ connected x 2 /\ v_size (x_vec x) <= 100.
Proof.
  destruct (xcheck_hist demo0 c78_ops (fun x g log => match slot (x_vec x) 0 with Ok c => (c_mode c =? CONNECTED) && negb (circ_buf_in_use (c_wbuf c) =? 0) | _ => false end &&
     match slot (x_vec x) 2 with Ok c => negb (c_mode c =? CONNECTED) | _ => true end && (v_size (x_vec x) <=? 100))) as (x & g & log & H & E); [vm_compute; reflexivity|].
  destruct (slot (x_vec x) 0) as [c| | |] eqn:Es; try discriminate E. bool_split. exists x, g, log, c.
  assert (R : reached x g log) by (exists demo0, c78_ops; split; [exact demo0_fresh|exact H]).
  split; [exact R|]. split; [exact Es|]. split; [lia|]. split; [|split; [cbn; unfold is_u32; lia|split; [|lia]]].
  - destruct (reached_inv _ _ _ R) as (sp & L & Q & X). destruct (vi_ring _ _ (xi_vec _ _ _ _ _ _ _ X) 0 c Es) as [W _]. pose proof (in_use_contents _ W) as I. intros Ec. rewrite Ec in I. congruence.
  - intros (d & Hd & Hm). rewrite Hd, Hm in *. discriminate.
Qed.

(** ** The subscriber *)
Lemma sub_open x i c : slot (t_vec x) i = Ok c -> c_mode c <> CLOSED -> find_by_index (t_vec x) i = Ok (Some c).
Proof.
  intros Hs Hm. pose proof (slot_range _ _ _ Hs) as R. unfold find_by_index. replace (v_size (t_vec x) <=? i) with false by lia. rewrite Hs. cbn [bind].
  replace (c_mode c =? CLOSED) with false by lia. reflexivity.
Qed.
(** rmc_sub_write: ENOTCONN on a closed connection and ENODATA on an established one with
    nothing to send, without effect.  Otherwise an established connection gives the code of
    writev(), and the bytes it took are the first ones that waited. *)
Theorem c78_sub_write : forall t x log i o, sreached t x log -> yok x log (YWrite i o) ->
  ((forall c, ~ is_open (t_vec x) i c) -> rmc_sub_write x i o = Ok (ENOTCONN, RMC_ERROR, x, [])) /\
  (forall c, sconnected x i c ->
     (contents (c_wbuf c) = [] -> rmc_sub_write x i o = Ok (ENODATA, RMC_ERROR, x, [])) /\
     (contents (c_wbuf c) <> [] -> exists act c',
        rmc_sub_write x i o =
          Ok (match sw_tcp o with WErr e => e | WOk _ => 0 end, match sw_tcp o with WErr _ => RMC_ERROR | WOk _ => RMC_WRITE_TCP end,
              set_tvec x (put_slot (t_vec x) i c'),
              [SvTcp i (match sw_tcp o with WErr _ => [] | WOk n => ztake n (contents (c_wbuf c)) end);
               SvConn (EvMod (c_desc c) i (c_action c) act)]) /\
        c_action c' = act /\ c_desc c' = c_desc c /\ c_mode c' = CONNECTED /\ c_rbuf c' = c_rbuf c /\
        contents (c_wbuf c') = match sw_tcp o with WErr _ => contents (c_wbuf c) | WOk n => zdrop n (contents (c_wbuf c)) end)).
Proof.
  intros t x log i o H Hok. cbn in Hok. destruct Hok as (R & Hw & Hcm). unfold rmc_sub_write. split.
  { intros N. destruct (find_index_cases (t_vec x) i (proj1 R)) as [[-> _]|(c & _ & Ho)]; [reflexivity|destruct (N c Ho)]. }
  intros c [Hs Hm]. rewrite (sub_open x i c Hs) by (rewrite Hm; discriminate). cbn [bind]. rewrite Hm. change (CONNECTED =? CONNECTING) with false. cbv iota.
  destruct (sreached_inv _ _ _ H) as (B & _). destruct (tv_ring _ (bi_vec _ B) i c Hs) as [W Sz]. rewrite (in_use_contents _ W).
  destruct (tcp_write_spec (c_wbuf c) (sw_tcp o) W ltac:(lia)) as (wb' & Ew & W' & Sz' & C' & _). { destruct (sw_tcp o); tauto. }
  split; [intros ->; reflexivity|]. destruct (contents (c_wbuf c)) as [|b l] eqn:Ec; [contradiction|]. intros _. rewrite Ew. cbn [bind w_code w_left w_sent w_buf].
  match goal with |- context [set_action ?cc ?a] => exists a, (set_action cc a) end. split.
  - destruct (sw_tcp o) as [e|n]; [|reflexivity]. destruct (Z.eqb_spec e 0); [contradiction|reflexivity].
  - cbn [set_action set_wbuf c_action c_desc c_mode c_rbuf c_wbuf]. repeat match goal with |- _ /\ _ => split end; auto.
Qed.
(** A connection being established: completing it reports the error of the socket, if any, and
    then the connection is closed; else it is established. *)
Theorem c78_sub_complete : forall t x log i o c, sreached t x log -> yok x log (YWrite i o) -> slot (t_vec x) i = Ok c -> c_mode c = CONNECTING ->
  exists x' evs d, rmc_sub_write x i o =
    Ok (match sw_cmp o with CmpErr e => e | CmpOk a b => if a =? 0 then b else a end, RMC_COMPLETE_CONNECTION, x', evs) /\
    slot (t_vec x') i = Ok d /\
    c_mode d = match sw_cmp o with CmpOk 0 0 => CONNECTED | _ => CLOSED end /\
    (forall j, j <> i -> slot (t_vec x') j = slot (t_vec x) j) /\
    (In (SvComplete (c_addr c) (c_port c) (c_node c)) evs <-> t_ccb x = true /\ sw_cmp o = CmpOk 0 0).
Proof.
  intros t x log i o c H Hok Hs Hm. cbn in Hok. destruct Hok as (R & _ & Hcm). unfold rmc_sub_write. rewrite (sub_open x i c Hs) by (rewrite Hm; discriminate). cbn [bind]. rewrite Hm, Z.eqb_refl.
  destruct (sreached_inv _ _ _ H) as (B & _). unfold put_spub, set_tpubs. cbn [t_vec]. unfold complete_conn. rewrite Hs. cbn [bind].
  assert (Rs := slot_range _ _ _ Hs).
  destruct (close_cases (t_vec x) i) as [[L _]|[(c2 & Hc2 & M2 & _)|(c2 & [Hc2 M2] & Q)]]; [lia|lia|rewrite Hs in Hc2; injection Hc2 as <-; rewrite M2 in Hm; discriminate|].
  assert (c2 = c) as -> by congruence. cbv zeta in Q. match type of Q with _ = Ok (_, ?v, _) => set (v' := v) in * end.
  assert (Hv : forall j, slot v' j = slot (put_slot (t_vec x) i (reset_conn c)) j) by (intros j; unfold v'; destruct (i =? v_max _); reflexivity).
  assert (Hi : slot v' i = Ok (reset_conn c)) by (rewrite Hv; apply slot_put_same; exact Rs).
  assert (Ho : forall j, j <> i -> slot v' j = slot (t_vec x) j) by (intros j N; rewrite Hv; apply slot_put_other; [lia|exact N]).
  assert (Q2 : close_conn v' i = Ok (ENOTCONN, v', [])).
  { destruct (close_cases v' i) as [[L _]|[(c3 & Hc3 & M3 & E3)|(c3 & [Hc3 M3] & _)]]; [lia|apply slot_range in Hi; lia|exact E3|rewrite Hi in Hc3; injection Hc3 as <-; destruct (M3 eq_refl)]. }
  assert (Fail : forall e evs1, e <> 0 -> exists (x' : sctx) (evs : list sev) (d : conn),
     (do q <- close_conn v' i; let '(_, v2, evs2) := q in Ok (e, RMC_COMPLETE_CONNECTION, set_tvec (set_tvec (put_spub x i sub_init) v') v2, map SvConn (evs1 ++ evs2))) = Ok (e, RMC_COMPLETE_CONNECTION, x', evs) /\
     slot (t_vec x') i = Ok d /\ c_mode d = CLOSED /\ (forall j, j <> i -> slot (t_vec x') j = slot (t_vec x) j) /\
     (In (SvComplete (c_addr c) (c_port c) (c_node c)) evs <-> False)).
  { intros e evs1 _. rewrite Q2. cbn [bind]. do 3 eexists. split; [reflexivity|]. cbn [set_tvec t_vec]. split; [exact Hi|]. split; [reflexivity|]. split; [exact Ho|].
    split; [|tauto]. intros A. apply in_map_iff in A. destruct A as (? & A & _). discriminate A. }
  destruct (sw_cmp o) as [e|a b].
  - rewrite Q. cbn [bind]. replace (e =? 0) with false by lia. cbn [negb].
    destruct (Fail e [EvRem (c_desc c) i; EvClose (c_desc c)] Hcm) as (x' & evs & d & E & F). unfold put_spub, set_tpubs in E. cbn [set_tvec t_vec] in *. rewrite E. exists x', evs, d.
    split; [reflexivity|]. destruct F as (F1 & F2 & F3 & F4). repeat match goal with |- _ /\ _ => split end; auto. rewrite F4. split; [tauto|intros [_ Z0]; discriminate Z0].
  - destruct (Z.eqb_spec a 0) as [Ea|Na]; cbn [negb].
    + destruct (Z.eqb_spec b 0) as [Eb|Nb]; cbn [negb].
      * subst. cbn [bind]. change (negb (0 =? 0)) with false. cbv iota. do 3 eexists. split; [reflexivity|]. cbn [set_tvec t_vec]. split; [apply slot_put_same; exact Rs|]. split; [reflexivity|].
        split; [intros j N; apply slot_put_other; [lia|exact N]|]. rewrite in_app_iff. split.
        { intros [A|A]; [apply in_map_iff in A; destruct A as (? & A & _); discriminate A|]. destruct (t_ccb x); [auto|destruct A]. }
        { intros [-> _]. right. left. reflexivity. }
      * rewrite Q. cbn [bind]. replace (b =? 0) with false by lia. cbn [negb].
        destruct (Fail b (EvRem (c_desc c) i :: [EvRem (c_desc c) i; EvClose (c_desc c)]) Nb) as (x' & evs & d & E & F). unfold put_spub, set_tpubs in E. cbn [set_tvec t_vec] in *. rewrite E. exists x', evs, d.
        split; [reflexivity|]. destruct F as (F1 & F2 & F3 & F4). repeat match goal with |- _ /\ _ => split end; auto; [subst a; destruct b; [contradiction|exact F2|exact F2]|]. rewrite F4. split; [tauto|intros [_ Z0]; congruence].
    + rewrite Q. cbn [bind]. replace (a =? 0) with false by lia. cbn [negb].
      destruct (Fail a (EvRem (c_desc c) i :: [EvRem (c_desc c) i; EvClose (c_desc c)]) Na) as (x' & evs & d & E & F). unfold put_spub, set_tpubs in E. cbn [set_tvec t_vec] in *. rewrite E. exists x', evs, d.
      split; [reflexivity|]. destruct F as (F1 & F2 & F3 & F4). repeat match goal with |- _ /\ _ => split end; auto; [destruct a; [contradiction|exact F2|exact F2]|]. rewrite F4. split; [tauto|intros [_ Z0]; congruence].
Qed.
(** rmc_sub_read on a connection that is not established, or on an inactive multicast socket. *)
Theorem c78_sub_read_refused : forall x i, 0 <= i ->
  ((forall c, ~ sconnected x i c) -> forall t ins, rmc_sub_read x i (SrTcp t ins) = Ok (ENOTCONN, RMC_ERROR, x, [])) /\
  (t_mcast x = -1 -> forall ins, rmc_sub_read x i (SrMcast ins) = Ok (ENOTCONN, RMC_ERROR, x, [])).
Proof.
  intros x i H0. split.
  - intros N t ins. unfold rmc_sub_read. destruct (find_index_cases (t_vec x) i H0) as [[-> _]|(c & -> & [Hs _])]; [reflexivity|]. cbn [bind].
    destruct (Z.eqb_spec (c_mode c) CONNECTED) as [E|_]; [destruct (N c (conj Hs E))|reflexivity].
  - intros E ins. unfold rmc_sub_read, multicast_read. rewrite E. reflexivity.
Qed.
(** One datagram on the multicast socket: whatever the callbacks and socket calls answer, a
    well-formed one gives code 0; the operation is RMC_READ_MULTICAST only if there is an
    established connection to the publisher it names, RMC_READ_MULTICAST_NOT_READY only if some
    connection to it is not established or there is none.  Nothing to receive gives code 0 and
    RMC_ERROR, an error of recvfrom() its code, neither changing anything. *)
Theorem c78_sub_mcast_read : forall t x log i src bs o code op x' evs, sreached t x log -> t_mcast x <> -1 -> ~ malformed (seen bs) ->
  rmc_sub_read x i (SrMcast [McData src bs o]) = Ok (code, op, x', evs) ->
  code = 0 /\ (op = RMC_READ_MULTICAST /\ (exists j c, leads x j c (origin src (seen bs)) /\ c_mode c = CONNECTED) \/
               op = RMC_READ_MULTICAST_NOT_READY /\ ((exists j c, leads x j c (origin src (seen bs)) /\ c_mode c = CONNECTING) \/
                                                     forall j c, ~ leads x j c (origin src (seen bs)))).
Proof.
  intros t x log i src bs o code op x' evs H Hm W E. destruct (sreached_inv t x log H) as (B & _ & _).
  cbn [rmc_sub_read] in E. unfold multicast_read in E. replace (t_mcast x =? -1) with false in E by lia. cbn [mread_loop] in E. cbv zeta in E. fold (seen bs) in E.
  destruct (process_cases x src (seen bs) o B W) as [(j & c & Hl & Hc & _ & Ep)|[Hc Ep]]; rewrite Ep in E; clear Ep; cbv zeta in E.
  - assert (code = 0 /\ op = RMC_READ_MULTICAST) as [-> ->]; [|split; [reflexivity|left; split; [reflexivity|exists j, c; auto]]].
    destruct (h_pid (dec_header (seen bs)) =? 0); [|destruct (get_spub x j) as [s| | |]; cbn [bind] in E; [|discriminate E..]; destruct (sub_is_duplicate s _);
      [|destruct (accept_packet _ _ _ _ _ _) as [r| | |]; cbn [bind] in E; [|discriminate E..]]]; cbn in E; split; congruence.
  - assert (code = 0 /\ op = RMC_READ_MULTICAST_NOT_READY) as [-> ->].
    2:{ split; [reflexivity|right; split; [reflexivity|]]. destruct Hc as [(j & c & H1 & H2 & _)|Hc]; [left; exists j, c; auto|right; exact Hc]. }
    destruct (negb (h_pid (dec_header (seen bs)) =? 0)); [cbn in E; split; congruence|]. destruct (if t_acb x then mi_answer o else true); [|cbn in E; split; congruence].
    destruct (connect_tcp _ _ _ _ _) as [[[[cd v] ee] jj]| | |]; cbn [bind] in E; [|discriminate E..]. cbn in E; split; congruence.
Qed.
Theorem c78_sub_mcast_quiet : forall x i rest, t_mcast x <> -1 ->
  let again := [SvConn (EvMod (t_mcast x) RMC_MULTICAST_INDEX POLLREAD POLLREAD)] in
  rmc_sub_read x i (SrMcast []) = Ok (0, RMC_ERROR, x, again) /\ rmc_sub_read x i (SrMcast (McNone :: rest)) = Ok (0, RMC_ERROR, x, again) /\
  forall e, e <> EAGAIN -> rmc_sub_read x i (SrMcast (McErr e :: rest)) = Ok (e, RMC_ERROR, x, again).
Proof.
  intros x i rest H. cbn [rmc_sub_read]. unfold multicast_read. replace (t_mcast x =? -1) with false by lia. cbn. split; [reflexivity|]. split; [reflexivity|].
  intros e He. destruct (Z.eqb_spec e EAGAIN); [contradiction|reflexivity].
Qed.
(** Control messages: EINVAL without a message, ENOTCONN unless the connection is established,
    ENOMEM when the message and one byte more do not fit into the buffer; all without effect.
    By address or node id the message goes to the open connection with the lowest index that
    matches. *)
Definition ctrl_code (x : sctx) (i : Z) (p : list Z) (ptr code : Z) : Prop :=
  (ptr = 0 \/ p = [] -> code = EINVAL) /\
  (ptr <> 0 -> p <> [] -> (forall c, ~ sconnected x i c) -> code = ENOTCONN) /\
  (forall c, ptr <> 0 -> p <> [] -> sconnected x i c -> circ_buf_available (c_wbuf c) < 4 + zlen p -> code = ENOMEM) /\
  (forall c, ptr <> 0 -> p <> [] -> sconnected x i c -> 4 + zlen p <= circ_buf_available (c_wbuf c) -> code = 0).
Theorem c78_sub_ctrl : forall t x log i p ptr code x' evs, sreached t x log -> 0 <= i < v_size (t_vec x) ->
  rmc_sub_write_control_message x i p ptr = Ok (code, x', evs) ->
  ctrl_code x i p ptr code /\ (code <> 0 -> x' = x /\ evs = []).
Proof.
  intros t x log i p ptr code x' evs H R E. unfold ctrl_code. assert (P0 : zlen p = 0 <-> p = []). { destruct p; [split; reflexivity|]. rewrite zlen_cons. pose proof (zlen_nonneg p). split; [lia|discriminate]. }
  pose proof (zlen_nonneg p) as PN. unfold rmc_sub_write_control_message in E.
  destruct (Z.eqb_spec ptr 0) as [->|N0]; [cbn [orb] in E; injection E as <- <- <-; repeat match goal with |- _ /\ _ => split end; intros; auto; contradiction|].
  destruct (Z.eqb_spec (zlen p) 0) as [Ep|Np]; [cbn [orb] in E; injection E as <- <- <-; apply P0 in Ep; repeat match goal with |- _ /\ _ => split end; intros; auto; contradiction|]. cbn [orb] in E.
  assert (Pn : p <> []) by (intros A; apply Np, P0, A).
  destruct (slot (t_vec x) i) as [c| | |] eqn:Es; cbn [bind] in E; [|discriminate E..].
  destruct (Z.eqb_spec (c_mode c) CONNECTED) as [Ec|Nc]; cbn [negb] in E.
  2: { injection E as <- <- <-. repeat match goal with |- _ /\ _ => split end; intros; auto; try (match goal with A : _ \/ _ |- _ => destruct A; contradiction end); exfalso; match goal with A : sconnected _ _ _ |- _ => destruct A as [A1 A2]; rewrite Es in A1; injection A1 as <-; contradiction end. }
  assert (SC : sconnected x i c) by (split; assumption).
  assert (U : forall d, sconnected x i d -> d = c) by (intros d [A _]; congruence).
  destruct (sreached_inv _ _ _ H) as (B & _). destruct (tv_ring _ (bi_vec _ B) i c Es) as [W Sz].
  destruct (write_ctrl_spec (c_wbuf c) p ptr W N0 ltac:(lia)) as (F1 & F2). change (1 + ctrl_size + zlen p + 1) with (4 + zlen p) in *.
  destruct (Z_lt_ge_dec (circ_buf_available (c_wbuf c)) (4 + zlen p)) as [Lt|Ge].
  - rewrite (F1 Lt) in E. cbn [bind fst] in E. change (negb (ENOMEM =? 0)) with true in E. cbv iota in E. injection E as <- <- <-.
    repeat match goal with |- _ /\ _ => split end; intros; auto; try (match goal with A : _ \/ _ |- _ => destruct A; contradiction end); try (match goal with A : forall c, ~ _ |- _ => destruct (A c SC) end).
    match goal with A : sconnected _ _ ?d |- _ => rewrite (U d A) in * end. lia.
  - destruct (write_ctrl (c_wbuf c) p ptr) as [[cd wb]| | |] eqn:Ew; cbn [bind fst snd] in E; [|discriminate E..].
    assert (cd = 0) as ->.
    { unfold write_ctrl in Ew. replace ((ptr =? 0) || (zlen p =? 0)) with false in Ew by lia. change (1 + ctrl_size + zlen p + 1) with (1 + ctrl_size + zlen p + 1) in Ew. unfold ctrl_size in *. replace (circ_buf_available (c_wbuf c) <? _) with false in Ew by lia.
      destruct (put_cmd _ _); cbn [bind] in Ew; [|discriminate Ew..]. destruct (put_bytes _ _); cbn [bind] in Ew; [|discriminate Ew..]. destruct (put_ctrl_payload _ _ _); cbn [bind] in Ew; [|discriminate Ew..]. congruence. }
    change (negb (0 =? 0)) with false in E. cbv iota in E. injection E as <- <- <-.
    repeat match goal with |- _ /\ _ => split end; intros; auto; try (match goal with A : _ \/ _ |- _ => destruct A; contradiction end); try (match goal with A : forall c, ~ _ |- _ => destruct (A c SC) end); try contradiction.
    match goal with A : sconnected _ _ ?d |- _ => rewrite (U d A) in * end. lia.
Qed.
(** Connection [i] is the open one with the lowest index among those that satisfy [P]. *)
Definition first_open (x : sctx) (P : conn -> Prop) (i : Z) : Prop :=
  (exists c, is_open (t_vec x) i c /\ P c) /\ forall j c, 0 <= j < i -> is_open (t_vec x) j c -> ~ P c.
Lemma control_by_spec x f P p ptr : TV (t_vec x) -> (forall c, f c = true <-> c_desc c <> -1 /\ P c) ->
  ((forall j c, is_open (t_vec x) j c -> ~ P c) ->
     control_by (find_conn (t_vec x) f) x p ptr = Ok (if (ptr =? 0) || (zlen p =? 0) then EINVAL else ENOTCONN, x, [])) /\
  (forall i, first_open x P i -> control_by (find_conn (t_vec x) f) x p ptr = rmc_sub_write_control_message x i p ptr).
Proof.
  intros T Hf. pose proof (tv_size _ T) as Sz.
  assert (Op : forall j c, slot (t_vec x) j = Ok c -> c_desc c <> -1 <-> c_mode c <> CLOSED).
  { intros j c Hs. destruct (tv_mode _ T j c Hs) as (D & _). tauto. }
  assert (SN : v_size (t_vec x) <= RMC_NIL_INDEX) by (unfold RMC_LISTEN_INDEX, RMC_NIL_INDEX in *; lia).
  unfold control_by. destruct (find_conn_spec (t_vec x) f (tv_max _ T) SN) as [(i & c & E & Hs & Hc & Lo)|(E & N)]; [intros c Hc; apply Hf, Hc| |]; rewrite E.
  - apply Hf in Hc. destruct Hc as [Hd HP]. assert (Ho : is_open (t_vec x) i c) by (split; [exact Hs|apply (Op i c Hs), Hd]). split.
    + intros N. destruct (N i c Ho HP).
    + intros j ((d & Hj & HPd) & Lj).
      assert (j = i) as ->.
      { pose proof (slot_range _ _ _ Hs). pose proof (slot_range _ _ _ (proj1 Hj)). destruct (Z.lt_trichotomy j i) as [A|[A|A]]; [|exact A|].
        - specialize (Lo j d ltac:(lia) (proj1 Hj)). assert (f d = true) by (apply Hf; split; [apply (Op j d (proj1 Hj)), (proj2 Hj)|exact HPd]). congruence.
        - destruct (Lj i c ltac:(lia) Ho HP). }
      unfold rmc_sub_write_control_message. destruct ((ptr =? 0) || (zlen p =? 0)); [reflexivity|]. cbn [bind]. rewrite Hs. cbn [bind]. destruct (c_mode c =? CONNECTED); reflexivity.
  - split; [intros _; destruct ((ptr =? 0) || (zlen p =? 0)); reflexivity|]. intros i ((c & [Hs Hm] & HP) & _). specialize (N i c Hs).
    assert (f c = true) by (apply Hf; split; [apply (Op i c Hs), Hm|exact HP]). congruence.
Qed.
Theorem c78_sub_ctrl_by_address : forall t x log addr port p ptr, sreached t x log ->
  let to_addr c := c_addr c = addr /\ c_port c = port in
  ((forall j c, is_open (t_vec x) j c -> ~ to_addr c) ->
     control_by_address x addr port p ptr = Ok (if (ptr =? 0) || (zlen p =? 0) then EINVAL else ENOTCONN, x, [])) /\
  (forall i, first_open x to_addr i -> control_by_address x addr port p ptr = rmc_sub_write_control_message x i p ptr).
Proof.
  intros t x log addr port p ptr H to_addr. destruct (sreached_inv _ _ _ H) as (B & _). apply (control_by_spec x _ to_addr p ptr (bi_vec _ B)).
  intros c. unfold to_addr. lia.
Qed.
Theorem c78_sub_ctrl_by_node : forall t x log node p ptr, sreached t x log ->
  let to_node c := c_node c = node in
  ((forall j c, is_open (t_vec x) j c -> ~ to_node c) ->
     control_by_node_id x node p ptr = Ok (if (ptr =? 0) || (zlen p =? 0) then EINVAL else ENOTCONN, x, [])) /\
  (forall i, first_open x to_node i -> control_by_node_id x node p ptr = rmc_sub_write_control_message x i p ptr).
Proof.
  intros t x log node p ptr H to_node. destruct (sreached_inv _ _ _ H) as (B & _). apply (control_by_spec x _ to_node p ptr (bi_vec _ B)).
  intros c. unfold to_node. lia.
Qed.
(** Activation: EEXIST without effect when the context has a multicast socket, else the code
    of the failing system call. *)
Theorem c78_sub_activate : forall x o,
  (t_mcast x <> -1 -> rmc_sub_activate_context x o = (EEXIST, x, [])) /\
  (t_mcast x = -1 -> fst (fst (rmc_sub_activate_context x o)) = match o with SaSock e | SaOpt _ e | SaBind _ e => e | SaOk _ => 0 end /\
     match o with SaSock _ | SaOpt _ _ => snd (fst (rmc_sub_activate_context x o)) = x
                | SaBind d _ | SaOk d => t_mcast (snd (fst (rmc_sub_activate_context x o))) = d end).
Proof.
  intros x o. unfold rmc_sub_activate_context. split.
  - intros N. replace (t_mcast x =? -1) with false by lia. reflexivity.
  - intros ->. change (-1 =? -1) with true. cbn [negb]. destruct o; cbn; auto.
Qed.
Theorem c78_pub_activate : forall x o, fst (fst (rmc_pub_activate_context x o)) = match o with ActErr e _ _ => e | ActOk _ _ _ => 0 end /\
  let x' := snd (fst (rmc_pub_activate_context x o)) in
  match o with ActErr _ _ _ => x_mcast x' = -1 /\ x_listen x' = -1
             | ActOk m l port => x_mcast x' = m /\ x_listen x' = l /\ x_lport x' = (if x_lport x =? 0 then port else x_lport x) end.
Proof. intros x o. unfold rmc_pub_activate_context. destruct o as [e ds early|m l port]; cbn; [auto|]. destruct (x_lport x =? 0) eqn:E; cbn; auto. Qed.
(** An established connection with 65400 bytes of room; a message of three bytes is taken, one
    of 65397 refused. *)
Example c78_sub_witness : exists x log c x' evs, sreached false x log /\ sconnected x 0 c /\ contents (c_wbuf c) = [] /\
  first_open x (fun d => c_addr d = c_addr c /\ c_port d = c_port c) 0 /\
  control_by_address x (c_addr c) (c_port c) [1; 2; 3] 100 = Ok (0, x', evs) /\ t_vec x' <> t_vec x /\
  circ_buf_available (c_wbuf c) < 4 + 65397 /\ ~ (exists d, sconnected x 1 d).
Proof.
  destruct (ycheck_hist false sdemo0 sdemo_ops (fun x log => match slot (t_vec x) 0 with
      | Ok c => (c_mode c =? CONNECTED) && (circ_buf_in_use (c_wbuf c) =? 0) && (circ_buf_available (c_wbuf c) <? 65401) &&
           match control_by_address x (c_addr c) (c_port c) [1; 2; 3] 100 with Ok (0, x', _) => match slot (t_vec x') 0 with Ok c' => negb (circ_buf_in_use (c_wbuf c') =? 0) | _ => false end | _ => false end &&
           match slot (t_vec x) 1 with Ok d => negb (c_mode d =? CONNECTED) | _ => true end
      | _ => false end)) as (x & log & H & E); [vm_compute; reflexivity|].
  destruct (slot (t_vec x) 0) as [c| | |] eqn:Es; try discriminate E. 
  destruct (control_by_address x (c_addr c) (c_port c) [1; 2; 3] 100) as [[[[| |] x'] evs]| | |] eqn:Ec; try (rewrite ?andb_false_r, ?andb_false_l in E; cbn [andb] in E; try discriminate E).
  bool_split. exists x, log, c, x', evs.
  assert (R : sreached false x log) by (exists sdemo0, sdemo_ops; split; [exact sdemo0_fresh|exact H]).
  assert (Cn : c_mode c = CONNECTED) by lia.
  split; [exact R|]. split; [split; [exact Es|exact Cn]|]. split.
  { destruct (sreached_inv _ _ _ R) as (B & _). destruct (tv_ring _ (bi_vec _ B) 0 c Es) as [W _]. pose proof (in_use_contents _ W) as I. destruct (contents (c_wbuf c)); [reflexivity|congruence]. }
  split; [split; [exists c; split; [split; [exact Es|rewrite Cn; discriminate]|auto]|intros; lia]|]. split; [exact Ec|]. split; [|split; [lia|]].
  - intros Ev. match goal with A : context [slot (t_vec x') 0] |- _ => rewrite Ev, Es in A; bool_split end. lia.
  - intros (d & Hd & Hm). match goal with A : context [slot (t_vec x) 1] |- _ => rewrite Hd, Hm in A; discriminate A end.
Qed.

Print Assumptions c78_pub_write.
Print Assumptions c78_pub_read_refused.
Print Assumptions c78_pub_accept.
Print Assumptions c78_pub_close.
Print Assumptions c78_pub_queue.
Print Assumptions c78_pub_throttle.
Print Assumptions c78_pub_mcast_inactive.
Print Assumptions c78_pub_has_pending_send.
Print Assumptions c78_pub_activate.
Print Assumptions c78_sub_write.
Print Assumptions c78_sub_complete.
Print Assumptions c78_sub_read_refused.
Print Assumptions c78_sub_ctrl.
Print Assumptions c78_sub_ctrl_by_address.
Print Assumptions c78_sub_ctrl_by_node.
Print Assumptions c78_sub_activate.
Print Assumptions c78_pub_mcast_read.
Print Assumptions c78_operations.
Print Assumptions c78_sub_mcast_read.
Print Assumptions c78_sub_mcast_quiet.
