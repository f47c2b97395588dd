(** PropSetup.v — C86 (creation and deletion of a context) and C87 (activation). *)
From Verif Require Import Base CircBuf CircBufProofs Wire ListHeap SeqList Pub Sub Proto Conn PubCtx SubCtx SpecConn ConnProofs SpecPubCtx PubCtxProofs PubCtxSteps PropPubCtx SpecSubCtx SubSteps SubInv PropSubCtx PropTotal PropTotalSub Setup.

(** ** What the environment may do *)
(** inet_aton() yields four bytes and knows "0.0.0.0". *)
Definition aton_ok (en : env) : Prop :=
  (forall t bs, e_aton en t = Some bs -> length bs = 4%nat /\ bytes_ok bs) /\
  e_aton en [48; 46; 48; 46; 48; 46; 48] = Some [0; 0; 0; 0].

(** The text names the address [v]: a.b.c.d is ((a*256+b)*256+c)*256+d. *)
Definition names (en : env) (t : list Z) (v : Z) : Prop :=
  exists a b c d, e_aton en t = Some [a; b; c; d] /\ v = ((a * 256 + b) * 256 + c) * 256 + d.
(** An optional text names the address [v]; without a text that is 0. *)
Definition names_opt (en : env) (t : option (list Z)) (v : Z) : Prop :=
  match t with Some t => names en t v | None => v = 0 end.

(** The addresses a caller asks for: group, listen interface, multicast interface. *)
Definition pub_wants (en : env) (a : pargs) (g l i : Z) : Prop :=
  (exists t, pa_group a = Some t /\ names en t g) /\ names_opt en (pa_lif a) l /\ names_opt en (pa_mif a) i.
Definition sub_wants (en : env) (a : sargs) (g i : Z) : Prop :=
  (exists t, sa_group a = Some t /\ names en t g) /\ names_opt en (sa_mif a) i.
(** There is memory for the context and the connections. *)
Definition memory (en : env) : Prop := e_m1 en <> 0 /\ e_m2 en <> 0.

(** The value of a new context: what its members must be, by their documentation in
    rmc_internal.h.  [None]: no value at all. *)
Definition pub_new (a : pargs) (en : env) (g l i : Z) (f : pfield) : option Z :=
  match f with
  | P_group => Some g | P_listen_if => Some l | P_mcast_if => Some i
  | P_mcast_port => Some (pa_mport a) | P_listen_port => Some (pa_lport a)
  | P_mcast_desc | P_listen_desc => Some (-1)
  | P_user_data | P_vec_user => Some (pa_user a)
  | P_poll_add => Some (pa_add a) | P_poll_modify => Some (pa_modify a) | P_poll_remove => Some (pa_remove a)
  | P_free_cb => Some (pa_free a)
  | P_node => Some (if pa_node a =? 0 then u32 (e_rand en) else pa_node a)
  | P_resend => Some 100000
  | P_ann_interval | P_ann_next | P_suspend | P_resume | P_suspended => Some 0
  | P_announce_cb | P_connect_cb | P_disconnect_cb => Some 0
  | P_connections => Some (e_m2 en) | P_subscribers => Some (e_m3 en)
  | P_control_cb => None
  end.
Definition sub_new (a : sargs) (en : env) (g i : Z) (f : sfield) : option Z :=
  match f with
  | S_group => Some g | S_mcast_if => Some i | S_mcast_port => Some (sa_mport a) | S_mcast_desc => Some (-1)
  | S_user_data | S_vec_user => Some (sa_user a)
  | S_poll_add => Some (sa_add a) | S_poll_modify => Some (sa_modify a) | S_poll_remove => Some (sa_remove a)
  | S_alloc_cb => Some (sa_alloc a) | S_free_cb => Some (sa_free a)
  | S_node => Some (if sa_node a =? 0 then u32 (e_rand en) else sa_node a)
  | S_ack_timeout => Some 50000
  | S_ready_list | S_ack_list => Some 0
  | S_announce_cb | S_complete_cb | S_packet_ready_cb => Some 0
  | S_connections => Some (e_m2 en) | S_publishers => Some (e_m3 en)
  end.

(** ** Proofs *)
Lemma names_ntohl en t v : names en t v -> exists bs, e_aton en t = Some bs /\ ntohl_mem bs = v.
Proof.
  intros (a & b & c & d & E & ->). exists [a; b; c; d]. split; [exact E|]. unfold ntohl_mem. cbn [rev app le_val]. lia.
Qed.
Lemma ntohl_names en t bs : aton_ok en -> e_aton en t = Some bs -> names en t (ntohl_mem bs).
Proof.
  intros [A _] E. destruct (A t bs E) as [L _]. destruct bs as [|a [|b [|c [|d [|]]]]]; try discriminate L.
  exists a, b, c, d. split; [exact E|]. unfold ntohl_mem. cbn [rev app le_val]. lia.
Qed.
Lemma opt_ntohl en t v : aton_ok en -> names_opt en t v -> exists bs, e_aton en (or_any t) = Some bs /\ ntohl_mem bs = v.
Proof.
  intros A H. destruct t as [t|]; [exact (names_ntohl _ _ _ H)|]. cbn in H. subst v. exists [0; 0; 0; 0]. split; [exact (proj2 A)|reflexivity].
Qed.
Lemma ntohl_opt en t bs : aton_ok en -> e_aton en (or_any t) = Some bs -> names_opt en t (ntohl_mem bs).
Proof.
  intros A H. destruct t as [t|]; [exact (ntohl_names _ _ _ A H)|]. unfold or_any, any_addr in H. rewrite (proj2 A) in H. assert (bs = [0; 0; 0; 0]) as -> by congruence. reflexivity.
Qed.

(** With usable addresses a publisher context is created: the code is 0, every member has the
    value above, the table has room for the given number of subscribers (cut to 16 bits), and
    three blocks were allocated. *)
Theorem c86_pub_created : forall a en buf g l i, aton_ok en -> memory en -> zlen buf = pa_max a -> pub_wants en a g l i ->
  exists r, pub_init_context true a en buf =
      Ok (0, Some (e_m1 en, r), [HAlloc (e_m1 en) 1; HAlloc (e_m2 en) (pa_max a); HAlloc (e_m3 en) (pa_max a)]) /\
    (forall f, pr_f r f = pub_new a en g l i f) /\
    pr_pub r = Some pub_init /\
    exists v, pr_vec r = Some v /\ v_size v = pa_max a mod 65536 /\ v_active v = 0 /\
      (forall k c, slot v k = Ok c -> c_mode c = CLOSED /\ c_desc c = -1).
Proof.
  intros a en buf g l i A [M1 M2] Hb ((t & Et & Hg) & Hl & Hi).
  destruct (names_ntohl _ _ _ Hg) as (bg & Eg & Vg). destruct (opt_ntohl _ _ _ A Hl) as (bl & El & Vl). destruct (opt_ntohl _ _ _ A Hi) as (bi & Ei & Vi).
  unfold pub_init_context. rewrite Et. replace (e_m1 en =? 0) with false by lia. replace (e_m2 en =? 0) with false by lia.
  cbv zeta. rewrite Eg, El, Ei, Vg, Vl, Vi. eexists. split; [reflexivity|]. split; [|split; [reflexivity|]].
  - intros f. destruct f; reflexivity.
  - exists (init_vec buf). split; [reflexivity|]. split; [|split; [reflexivity|]].
    + unfold v_size, init_vec. cbn [v_conns]. unfold zlen in *. rewrite map_length, firstn_length. unfold u16. rewrite Hb.
      pose proof (Z.mod_pos_bound (pa_max a) 65536 ltac:(lia)). pose proof (Z.mod_le (pa_max a) 65536 ltac:(lia) ltac:(lia)). lia.
    + intros k c Hs. apply slot_init in Hs. tauto.
Qed.
(** With an address that cannot be used the code is EINVAL. *)
Theorem c86_pub_refused : forall a en buf, aton_ok en -> memory en -> (forall g l i, ~ pub_wants en a g l i) ->
  exists out evs, pub_init_context true a en buf = Ok (EINVAL, out, evs).
Proof.
  intros a en buf A [M1 M2] N. unfold pub_init_context. destruct (pa_group a) as [t|] eqn:Et; [|eauto].
  replace (e_m1 en =? 0) with false by lia. replace (e_m2 en =? 0) with false by lia. cbv zeta.
  destruct (e_aton en t) as [bg|] eqn:Eg; [|eauto]. destruct (e_aton en (or_any (pa_lif a))) as [bl|] eqn:El; [|eauto].
  destruct (e_aton en (or_any (pa_mif a))) as [bi|] eqn:Ei; [|eauto]. exfalso.
  apply (N (ntohl_mem bg) (ntohl_mem bl) (ntohl_mem bi)). split; [exists t; split; [exact Et|exact (ntohl_names _ _ _ A Eg)]|].
  split; apply ntohl_opt; assumption.
Qed.
(** Without a place for the result, or a group, nothing happens at all; without memory the
    process ends. *)
Theorem c86_pub_arguments : forall wanted a en buf,
  (wanted = false \/ pa_group a = None -> pub_init_context wanted a en buf = Ok (EINVAL, None, [])) /\
  (wanted = true -> pa_group a <> None -> ~ memory en -> pub_init_context wanted a en buf = Abort) /\
  (forall u, pub_init_context wanted a en buf <> UB u) /\ pub_init_context wanted a en buf <> Hang.
Proof.
  intros wanted a en buf. unfold pub_init_context, memory. repeat match goal with |- _ /\ _ => split end.
  - intros [-> | ->]; [reflexivity|destruct wanted; reflexivity].
  - intros -> Hg Hm. destruct (pa_group a); [|congruence]. destruct (Z.eqb_spec (e_m1 en) 0); [reflexivity|]. destruct (Z.eqb_spec (e_m2 en) 0); [reflexivity|]. tauto.
  - intros u. destruct wanted; [|discriminate]. destruct (pa_group a); [|discriminate]. destruct (_ =? 0); [discriminate|]. destruct (_ =? 0); [discriminate|]. cbv zeta.
    destruct (e_aton en l); [|discriminate]. destruct (e_aton en (or_any (pa_lif a))); [|discriminate]. destruct (e_aton en (or_any (pa_mif a))); discriminate.
  - destruct wanted; [|discriminate]. destruct (pa_group a); [|discriminate]. destruct (_ =? 0); [discriminate|]. destruct (_ =? 0); [discriminate|]. cbv zeta.
    destruct (e_aton en l); [|discriminate]. destruct (e_aton en (or_any (pa_lif a))); [|discriminate]. destruct (e_aton en (or_any (pa_mif a))); discriminate.
Qed.
(** A context that was created is the beginning of the histories of which C12 to C83 speak,
    when it has room for at most 32765 subscribers and a port of 16 bits. *)
Theorem c86_pub_begins : forall a en buf g l i r evs m, aton_ok en -> memory en -> zlen buf = pa_max a -> pub_wants en a g l i ->
  pub_init_context true a en buf = Ok (0, Some (e_m1 en, r), evs) ->
  pa_max a <= 32765 -> is_u32 (pa_node a) -> is_u16 (pa_lport a) -> (forall p bs, m p = Some bs -> bytes_ok bs) ->
  exists x, pctx_of r m = Ok x /\ reached x g_init [].
Proof.
  intros a en buf g l i r evs m A M Hb W E Hm Hn Hp Hby.
  destruct (c86_pub_created a en buf g l i A M Hb W) as (r' & E' & F & P & v & V & _). rewrite E in E'. assert (r' = r) as -> by congruence.
  unfold pctx_of. rewrite V, P. unfold pget. rewrite !F. cbn [pub_new bind].
  eexists. split; [reflexivity|].
  assert (v = init_vec buf) as ->.
  { destruct W as ((t & Et & Hg) & Hl & Hi). destruct (names_ntohl _ _ _ Hg) as (bg & Eg & Vg). destruct (opt_ntohl _ _ _ A Hl) as (bl & El & Vl). destruct (opt_ntohl _ _ _ A Hi) as (bi & Ei & Vi).
    destruct M as [M1 M2]. unfold pub_init_context in E. rewrite Et in E. replace (e_m1 en =? 0) with false in E by lia. replace (e_m2 en =? 0) with false in E by lia.
    cbv zeta in E. rewrite Eg, El, Ei in E. assert (Some (init_vec buf) = pr_vec r) as X.
    { match type of E with Ok (_, Some (_, ?z), _) = _ => assert (z = r) as <- by congruence end. reflexivity. }
    congruence. }
  eexists. exists []. split.
  - exists (if pa_node a =? 0 then u32 (e_rand en) else pa_node a), l, (pa_lport a), buf, m. split; [reflexivity|].
    unfold RMC_LISTEN_INDEX. repeat match goal with |- _ /\ _ => split end; [lia|exact Hby| | |exact Hp].
    + destruct (pa_node a =? 0); [|exact Hn]. unfold is_u32, u32. apply Z.mod_pos_bound. lia.
    + destruct W as (_ & Hl & _). unfold names_opt in Hl. destruct (pa_lif a) as [t|]; [|subst; unfold is_u32; lia]. destruct Hl as (b1 & b2 & b3 & b4 & E4 & ->).
      destruct (proj1 A _ _ E4) as [_ B]. unfold bytes_ok, is_u8 in B. inversion B as [|? ? B1 R1]; subst. inversion R1 as [|? ? B2 R2]; subst. inversion R2 as [|? ? B3 R3]; subst. inversion R3 as [|? ? B4 R4]; subst. unfold is_u32. lia.
  - constructor.
Qed.

(** The control callback the running context goes by is the one that was stored: set when a
    function was given, null when NULL was, never written when neither. *)
Theorem c86_pub_control : forall r m x, pctx_of r m = Ok x ->
  (x_ccb x = FpSet <-> exists f, pr_f r P_control_cb = Some f /\ f <> 0) /\
  (x_ccb x = FpNull <-> pr_f r P_control_cb = Some 0) /\ (x_ccb x = FpUninit <-> pr_f r P_control_cb = None).
Proof.
  intros r m x. unfold pctx_of. destruct (pr_vec r); [|discriminate]. destruct (pr_pub r); [|discriminate]. unfold pget.
  repeat match goal with |- context [bind (match ?o with _ => _ end) _] => destruct o; cbn [bind]; [|discriminate] end.
  intros E. injection E as <-. cbn [x_ccb]. destruct (pr_f r P_control_cb) as [w|]; [destruct (Z.eqb_spec w 0) as [->|N]|].
  - repeat split; try discriminate; try tauto. intros (f & Ef & Nf). congruence.
  - repeat split; try discriminate; eauto. intros E. congruence.
  - repeat split; try discriminate; eauto. intros (f & Ef & _). discriminate.
Qed.

(** *** Capacity *)
(** The index of a connection is also the index of the listen socket or of the multicast socket
    as soon as there is room for 32766 subscribers: the next free slot is then the listen
    socket's index when all below are in use. *)
Theorem c86_capacity_refuted : forall v, 32766 <= v_size v <= 65535 ->
  (forall k c, slot v k = Ok c -> (c_desc c = -1 <-> 32765 <= k)) ->
  fst (get_free_slot v) = RMC_LISTEN_INDEX.
Proof.
  intros v Hs Hc. assert (G : forall l n, (forall k c, nth_error l k = Some c -> (c_desc c = -1 <-> 32765 <= n + Z.of_nat k)) -> n <= 32765 -> 32765 < n + zlen l -> first_free l n = 32765).
  { induction l as [|c l IH]; intros n H L1 L2; [unfold zlen in L2; cbn in L2; lia|]. cbn [first_free]. pose proof (H 0%nat c eq_refl) as H0.
    destruct (Z.eqb_spec (c_desc c) (-1)) as [D|D].
    - apply H0 in D. lia.
    - assert (n <> 32765) by (intros ->; apply D, H0; lia). apply IH; [|lia|rewrite zlen_cons in L2; lia].
      intros k d E. rewrite (H (S k) d E). lia. }
  unfold get_free_slot. rewrite (G (v_conns v) 0).
  - change (32765 =? RMC_NIL_INDEX) with false. reflexivity.
  - intros k c E. apply (Hc (Z.of_nat k) c). unfold slot. replace (0 <=? Z.of_nat k) with true by lia. rewrite Nat2Z.id, E. reflexivity.
  - lia.
  - unfold v_size in Hs. lia.
Qed.

(** *** Deletion *)
(** Deleting a context does what deactivating it does and gives back two blocks, the
    connections and the context: for every context reached by calls of the API. *)
Theorem c86_pub_delete : forall x g log ctx conns, reached x g log ->
  exists evs x', rmc_pub_deactivate_context x = Ok (0, x', evs) /\
    pub_delete_context ctx conns x = Ok (0, evs, [HFree conns; HFree ctx]).
Proof.
  intros x g log ctx conns R. destruct (c77_pub_other x g log XDeactivate R Logic.I Logic.I) as [[[cd x'] evs] E]. cbn [xstep] in E.
  assert (cd = 0) as ->. { unfold rmc_pub_deactivate_context in E. cbv zeta in E. apply bind_ok in E. destruct E as (r & _ & E). congruence. }
  exists evs, x'. split; [exact E|]. unfold pub_delete_context. rewrite E. reflexivity.
Qed.
(** Blocks that were allocated and not given back. *)
Definition leaked (evs : list hev) : list Z :=
  fold_left (fun l e => match e with HAlloc a _ => l ++ [a] | HFree a => filter (fun b => negb (b =? a)) l end) evs [].
(** So the block for the subscribers is never given back. *)
Theorem c86_pub_leak_refuted : forall a en buf g l i r evs x g' log, aton_ok en -> memory en -> zlen buf = pa_max a -> pub_wants en a g l i ->
  pub_init_context true a en buf = Ok (0, Some (e_m1 en, r), evs) -> e_m3 en <> e_m1 en -> e_m3 en <> e_m2 en ->
  reached x g' log ->
  exists pevs frees, pub_delete_context (e_m1 en) (e_m2 en) x = Ok (0, pevs, frees) /\ leaked (evs ++ frees) = [e_m3 en].
Proof.
  intros a en buf g l i r evs x g' log A M Hb W E N1 N2 R.
  destruct (c86_pub_created a en buf g l i A M Hb W) as (r' & E' & _). rewrite E in E'. assert (evs = [HAlloc (e_m1 en) 1; HAlloc (e_m2 en) (pa_max a); HAlloc (e_m3 en) (pa_max a)]) as -> by congruence.
  destruct (c86_pub_delete x g' log (e_m1 en) (e_m2 en) R) as (pevs & x' & _ & D). exists pevs, [HFree (e_m2 en); HFree (e_m1 en)]. split; [exact D|].
  unfold leaked. cbn [app fold_left filter]. destruct (Z.eqb_spec (e_m1 en) (e_m2 en)); destruct (Z.eqb_spec (e_m2 en) (e_m2 en)); try congruence; destruct (Z.eqb_spec (e_m3 en) (e_m2 en)); try congruence; cbn [negb filter]; rewrite ?Z.eqb_refl; cbn [negb filter]; destruct (Z.eqb_spec (e_m3 en) (e_m1 en)); try congruence; reflexivity.
Qed.
(** A creation that is refused because of an address has stored the address of a context that
    has no value for its sockets, and keeps two blocks; deleting it reads the missing values. *)
Theorem c86_pub_refused_delete_refuted : forall a en buf m, aton_ok en -> memory en -> pa_group a <> None -> (forall g l i, ~ pub_wants en a g l i) ->
  exists r evs, pub_init_context true a en buf = Ok (EINVAL, Some (e_m1 en, r), evs) /\
    evs = [HAlloc (e_m1 en) 1; HAlloc (e_m2 en) (pa_max a)] /\
    pr_f r P_mcast_desc = None /\ pr_f r P_listen_desc = None /\ pub_delete_raw (e_m1 en) r m = UB UninitRead.
Proof.
  intros a en buf m A [M1 M2] Hg N. unfold pub_init_context. destruct (pa_group a) as [t|] eqn:Et; [|congruence].
  replace (e_m1 en =? 0) with false by lia. replace (e_m2 en =? 0) with false by lia. cbv zeta.
  destruct (e_aton en t) as [bg|] eqn:Eg; [|do 2 eexists; split; [reflexivity|]; repeat split; reflexivity]. destruct (e_aton en (or_any (pa_lif a))) as [bl|] eqn:El; [|do 2 eexists; split; [reflexivity|]; repeat split; reflexivity].
  destruct (e_aton en (or_any (pa_mif a))) as [bi|] eqn:Ei; [|do 2 eexists; split; [reflexivity|]; repeat split; reflexivity]. exfalso.
  apply (N (ntohl_mem bg) (ntohl_mem bl) (ntohl_mem bi)). split; [exists t; split; [exact Et|exact (ntohl_names _ _ _ A Eg)]|].
  split; apply ntohl_opt; assumption.
Qed.
(** Changing the user data of a context changes what the poll callbacks get for the context's
    own sockets, and not what they get for the control connections. *)
Theorem c86_user_data_refuted : forall a en buf g l i r evs u, aton_ok en -> memory en -> zlen buf = pa_max a -> pub_wants en a g l i ->
  pub_init_context true a en buf = Ok (0, Some (e_m1 en, r), evs) ->
  own_poll_user r = Ok (pa_user a) /\ conn_poll_user r = Ok (pa_user a) /\
  own_poll_user (pub_set_user_data u r) = Ok u /\ conn_poll_user (pub_set_user_data u r) = Ok (pa_user a).
Proof.
  intros a en buf g l i r evs u A M Hb W E. destruct (c86_pub_created a en buf g l i A M Hb W) as (r' & E' & F & _). rewrite E in E'. assert (r' = r) as -> by congruence.
  unfold own_poll_user, conn_poll_user, pub_set_user_data, pget. cbn [pset pr_f]. rewrite !F. repeat split; reflexivity.
Qed.

(** *** The subscriber *)
Theorem c86_sub_created : forall a en buf g i, aton_ok en -> memory en -> zlen buf = sa_max a -> sub_wants en a g i ->
  exists r, sub_init_context true a en buf =
      Ok (0, Some (e_m1 en, r), [HAlloc (e_m1 en) 1; HAlloc (e_m2 en) (sa_max a); HAlloc (e_m3 en) (sa_max a)]) /\
    (forall f, sr_f r f = sub_new a en g i f) /\
    exists v, sr_vec r = Some v /\ v_size v = sa_max a mod 65536 /\ v_active v = 0 /\
      (forall k c, slot v k = Ok c -> c_mode c = CLOSED /\ c_desc c = -1).
Proof.
  intros a en buf g i A [M1 M2] Hb ((t & Et & Hg) & Hi).
  destruct (names_ntohl _ _ _ Hg) as (bg & Eg & Vg). destruct (opt_ntohl _ _ _ A Hi) as (bi & Ei & Vi).
  unfold sub_init_context. rewrite Et. replace (e_m1 en =? 0) with false by lia. replace (e_m2 en =? 0) with false by lia.
  cbv zeta. rewrite Eg, Ei, Vg, Vi. eexists. split; [reflexivity|]. split.
  - intros f. destruct f; reflexivity.
  - exists (init_vec buf). split; [reflexivity|]. split; [|split; [reflexivity|]].
    + unfold v_size, init_vec. cbn [v_conns]. unfold zlen in *. rewrite map_length, firstn_length. unfold u16. rewrite Hb.
      pose proof (Z.mod_pos_bound (sa_max a) 65536 ltac:(lia)). pose proof (Z.mod_le (sa_max a) 65536 ltac:(lia) ltac:(lia)). lia.
    + intros k c Hs. apply slot_init in Hs. tauto.
Qed.
Theorem c86_sub_refused : forall a en buf, aton_ok en -> memory en -> (forall g i, ~ sub_wants en a g i) ->
  exists out evs, sub_init_context true a en buf = Ok (EINVAL, out, evs).
Proof.
  intros a en buf A [M1 M2] N. unfold sub_init_context. destruct (sa_group a) as [t|] eqn:Et; [|eauto].
  replace (e_m1 en =? 0) with false by lia. replace (e_m2 en =? 0) with false by lia. cbv zeta.
  destruct (e_aton en t) as [bg|] eqn:Eg; [|eauto]. destruct (e_aton en (or_any (sa_mif a))) as [bi|] eqn:Ei; [|eauto]. exfalso.
  apply (N (ntohl_mem bg) (ntohl_mem bi)). split; [exists t; split; [exact Et|exact (ntohl_names _ _ _ A Eg)]|apply ntohl_opt; assumption].
Qed.
Theorem c86_sub_arguments : forall wanted a en buf,
  (wanted = false \/ sa_group a = None -> sub_init_context wanted a en buf = Ok (EINVAL, None, [])) /\
  (wanted = true -> sa_group a <> None -> ~ memory en -> sub_init_context wanted a en buf = Abort) /\
  (forall u, sub_init_context wanted a en buf <> UB u) /\ sub_init_context wanted a en buf <> Hang.
Proof.
  intros wanted a en buf. unfold sub_init_context, memory. repeat match goal with |- _ /\ _ => split end.
  - intros [-> | ->]; [reflexivity|destruct wanted; reflexivity].
  - intros -> Hg Hm. destruct (sa_group a); [|congruence]. destruct (Z.eqb_spec (e_m1 en) 0); [reflexivity|]. destruct (Z.eqb_spec (e_m2 en) 0); [reflexivity|]. tauto.
  - intros u. destruct wanted; [|discriminate]. destruct (sa_group a); [|discriminate]. destruct (_ =? 0); [discriminate|]. destruct (_ =? 0); [discriminate|]. cbv zeta.
    destruct (e_aton en l); [|discriminate]. destruct (e_aton en (or_any (sa_mif a))); discriminate.
  - destruct wanted; [|discriminate]. destruct (sa_group a); [|discriminate]. destruct (_ =? 0); [discriminate|]. destruct (_ =? 0); [discriminate|]. cbv zeta.
    destruct (e_aton en l); [|discriminate]. destruct (e_aton en (or_any (sa_mif a))); discriminate.
Qed.
Theorem c86_sub_begins : forall t a en buf g i r evs m, aton_ok en -> memory en -> zlen buf = sa_max a -> sub_wants en a g i ->
  sub_init_context true a en buf = Ok (0, Some (e_m1 en, r), evs) -> sa_max a <= 32765 ->
  exists x, sctx_of r m = Ok x /\ sreached t x [].
Proof.
  intros t0 a en buf g i r evs m A M Hb W E Hm.
  destruct (c86_sub_created a en buf g i A M Hb W) as (r' & E' & F & v & V & _). rewrite E in E'. assert (r' = r) as -> by congruence.
  unfold sctx_of. rewrite V. unfold sget. rewrite !F. cbn [sub_new bind].
  eexists. split; [reflexivity|].
  assert (v = init_vec buf) as ->.
  { destruct W as ((t & Et & Hg) & Hi). destruct (names_ntohl _ _ _ Hg) as (bg & Eg & Vg). destruct (opt_ntohl _ _ _ A Hi) as (bi & Ei & Vi).
    destruct M as [M1 M2]. unfold sub_init_context in E. rewrite Et in E. replace (e_m1 en =? 0) with false in E by lia. replace (e_m2 en =? 0) with false in E by lia.
    cbv zeta in E. rewrite Eg, Ei in E. assert (Some (init_vec buf) = sr_vec r) as X.
    { match type of E with Ok (_, Some (_, ?z), _) = _ => assert (z = r) as <- by congruence end. reflexivity. }
    congruence. }
  eexists. exists []. split.
  - exists (if sa_node a =? 0 then u32 (e_rand en) else sa_node a), buf, m. split; [reflexivity|]. unfold RMC_LISTEN_INDEX. lia.
  - constructor.
Qed.
(** Deleting a subscriber context, when no connection is open whose publisher never had a value (C77). *)
Theorem c86_sub_delete : forall t x log ctx conns, sreached t x log -> (forall j c, is_open (t_vec x) j c -> t_pubs x j <> None) ->
  exists evs x', rmc_sub_deactivate_context x = Ok (0, x', evs) /\
    sub_delete_context ctx conns x = Ok (0, evs, [HFree conns; HFree ctx]).
Proof.
  intros t x log ctx conns R H. destruct (proj1 (c77_sub_deactivate t x log R) H) as [[[cd x'] evs] E].
  assert (cd = 0) as ->. { unfold rmc_sub_deactivate_context in E. apply bind_ok in E. destruct E as (d & _ & E). cbv zeta in E. apply bind_ok in E. destruct E as (r & _ & E). congruence. }
  exists evs, x'. split; [exact E|]. unfold sub_delete_context. rewrite E. reflexivity.
Qed.
Theorem c86_sub_leak_refuted : forall t a en buf g i r evs x log, aton_ok en -> memory en -> zlen buf = sa_max a -> sub_wants en a g i ->
  sub_init_context true a en buf = Ok (0, Some (e_m1 en, r), evs) -> e_m3 en <> e_m1 en -> e_m3 en <> e_m2 en ->
  sreached t x log -> (forall j c, is_open (t_vec x) j c -> t_pubs x j <> None) ->
  exists pevs frees, sub_delete_context (e_m1 en) (e_m2 en) x = Ok (0, pevs, frees) /\ leaked (evs ++ frees) = [e_m3 en].
Proof.
  intros t a en buf g i r evs x log A M Hb W E N1 N2 R H.
  destruct (c86_sub_created a en buf g i A M Hb W) as (r' & E' & _). rewrite E in E'. assert (evs = [HAlloc (e_m1 en) 1; HAlloc (e_m2 en) (sa_max a); HAlloc (e_m3 en) (sa_max a)]) as -> by congruence.
  destruct (c86_sub_delete t x log (e_m1 en) (e_m2 en) R H) as (pevs & x' & _ & D). exists pevs, [HFree (e_m2 en); HFree (e_m1 en)]. split; [exact D|].
  unfold leaked. cbn [app fold_left filter]. destruct (Z.eqb_spec (e_m1 en) (e_m2 en)); destruct (Z.eqb_spec (e_m2 en) (e_m2 en)); try congruence; destruct (Z.eqb_spec (e_m3 en) (e_m2 en)); try congruence; cbn [negb filter]; rewrite ?Z.eqb_refl; cbn [negb filter]; destruct (Z.eqb_spec (e_m3 en) (e_m1 en)); try congruence; reflexivity.
Qed.
Theorem c86_sub_refused_delete_refuted : forall a en buf m, aton_ok en -> memory en -> sa_group a <> None -> (forall g i, ~ sub_wants en a g i) ->
  exists r evs, sub_init_context true a en buf = Ok (EINVAL, Some (e_m1 en, r), evs) /\
    evs = [HAlloc (e_m1 en) 1; HAlloc (e_m2 en) (sa_max a)] /\
    sr_f r S_mcast_desc = None /\ sub_delete_raw (e_m1 en) r m = UB UninitRead.
Proof.
  intros a en buf m A [M1 M2] Hg N. unfold sub_init_context. destruct (sa_group a) as [t|] eqn:Et; [|congruence].
  replace (e_m1 en =? 0) with false by lia. replace (e_m2 en =? 0) with false by lia. cbv zeta.
  destruct (e_aton en t) as [bg|] eqn:Eg; [|do 2 eexists; split; [reflexivity|]; repeat split; reflexivity].
  destruct (e_aton en (or_any (sa_mif a))) as [bi|] eqn:Ei; [|do 2 eexists; split; [reflexivity|]; repeat split; reflexivity]. exfalso.
  apply (N (ntohl_mem bg) (ntohl_mem bi)). split; [exists t; split; [exact Et|exact (ntohl_names _ _ _ A Eg)]|apply ntohl_opt; assumption].
Qed.

(** *** Examples *)
(** An environment that knows "0.0.0.0" and "224.0.0.1" (bytes 50 50 52 46 ...). *)
Definition demo_group : list Z := [50; 50; 52; 46; 48; 46; 48; 46; 49].
Definition demo_env : env :=
  mkEnv (fun t => if list_eq_dec Z.eq_dec t demo_group then Some [224; 0; 0; 1]
                  else if list_eq_dec Z.eq_dec t any_addr then Some [0; 0; 0; 0] else None) 100 200 300 77.
Lemma demo_env_ok : aton_ok demo_env /\ memory demo_env.
Proof.
  split; [split|split; discriminate]; [|reflexivity]. intros t bs. cbn. destruct (list_eq_dec Z.eq_dec t demo_group).
  - intros H. assert (bs = [224; 0; 0; 1]) as -> by congruence. split; [reflexivity|]. unfold bytes_ok, is_u8. repeat constructor; lia.
  - destruct (list_eq_dec Z.eq_dec t any_addr); [|discriminate]. intros H. assert (bs = [0; 0; 0; 0]) as -> by congruence. split; [reflexivity|]. unfold bytes_ok, is_u8. repeat constructor; lia.
Qed.
Definition demo_pargs : pargs := mkPa 0 (Some demo_group) 4723 None (Some any_addr) 0 5 1 2 3 2 4.
Example c86_pub_ex : pub_wants demo_env demo_pargs 3758096385 0 0 /\ zlen [blank; blank] = pa_max demo_pargs.
Proof.
  split; [|reflexivity]. split; [exists demo_group; split; [reflexivity|exists 224, 0, 0, 1; split; reflexivity]|]. split; [|reflexivity].
  exists 0, 0, 0, 0. split; reflexivity.
Qed.
Definition demo_sargs : sargs := mkSa 9 (Some demo_group) 4723 None 5 1 2 3 2 4 6.
Example c86_sub_ex : sub_wants demo_env demo_sargs 3758096385 0 /\ zlen [blank; blank] = sa_max demo_sargs.
Proof. split; [|reflexivity]. split; [exists demo_group; split; [reflexivity|exists 224, 0, 0, 1; split; reflexivity]|reflexivity]. Qed.
(** An address nobody knows. *)
Example c86_refused_ex : (forall g l i, ~ pub_wants demo_env (mkPa 0 (Some demo_group) 4723 (Some [120]) None 0 5 1 2 3 2 4) g l i) /\
  (forall g i, ~ sub_wants demo_env (mkSa 9 (Some [120]) 4723 None 5 1 2 3 2 4 6) g i).
Proof.
  split.
  - intros g l i (_ & _ & a & b & c & d & E & _). discriminate E.
  - intros g i ((t & E & a & b & c & d & E2 & _) & _). cbn in E. assert (t = [120]) as -> by congruence. discriminate E2.
Qed.
(** 32765 open connections and a free slot. *)
Example c86_capacity_ex : exists v, 32766 <= v_size v <= 65535 /\ (forall k c, slot v k = Ok c -> (c_desc c = -1 <-> 32765 <= k)).
Proof.
  exists (mkVec (repeat (set_desc blank 7) (Z.to_nat 32765) ++ [set_desc blank (-1)]) 32764 32765). split.
  - unfold v_size, zlen. cbn [v_conns]. rewrite app_length, repeat_length. cbn [length]. lia.
  - intros k c H. unfold slot in H. cbn [v_conns] in H. destruct (Z.leb_spec 0 k); [|discriminate H].
    destruct (nth_error _ _) as [c'|] eqn:E; [|discriminate H]. assert (c' = c) as -> by congruence.
    destruct (Z.ltb_spec k 32765).
    + rewrite nth_error_app1 in E by (rewrite repeat_length; lia). apply nth_error_In in E. apply repeat_spec in E. subst c. cbn [set_desc c_desc]. lia.
    + rewrite nth_error_app2 in E by (rewrite repeat_length; lia). rewrite repeat_length in E. remember (Z.to_nat k - Z.to_nat 32765)%nat as q.
      destruct q; [|destruct q; discriminate E]. assert (c = set_desc blank (-1)) as -> by (cbn in E; congruence). cbn [set_desc c_desc]. lia.
Qed.
Print Assumptions c86_pub_created.
Print Assumptions c86_pub_refused.
Print Assumptions c86_pub_arguments.
Print Assumptions c86_pub_begins.
Print Assumptions c86_capacity_refuted.
Print Assumptions c86_pub_delete.
Print Assumptions c86_pub_leak_refuted.
Print Assumptions c86_pub_refused_delete_refuted.
Print Assumptions c86_user_data_refuted.
Print Assumptions c86_sub_created.
Print Assumptions c86_sub_refused.
Print Assumptions c86_sub_arguments.
Print Assumptions c86_sub_begins.
Print Assumptions c86_sub_delete.
Print Assumptions c86_sub_leak_refuted.
Print Assumptions c86_sub_refused_delete_refuted.
Print Assumptions c86_pub_control.
