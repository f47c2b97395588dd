(** PropConn.v — C31-C35 and C59: the connection table. *)
From Verif Require Import Base CircBuf Wire Conn SpecConn ConnProofs.

(** A table for [n] connections, as rmc_conn_init_connection_vector leaves it. *)
Definition blank : conn := mkConn 7 9 5 (mkCB 3 1 2 (fun _ => 0)) (mkCB 3 1 2 (fun _ => 0)) 2 1 1.
Definition table (n : nat) : cvec := init_vec (repeat blank n).

(** Evaluating a history, for the concrete cases below. *)
Definition op_okb (log : list cev) (o : cop) : bool :=
  match o with
  | OpAccept _ (AccOk d _ _) | OpConnect _ _ _ (SockOk d _ _) =>
      (0 <=? d) && negb (existsb (Z.eqb d) (opened log))
  | OpComplete i _ | OpClose i | OpIO i _ _ _ => (0 <=? i) && (i <? 65536)
  | _ => true
  end.
Fixpoint hrun (v : cvec) (log : list cev) (ops : list cop) : option (cvec * list cev) :=
  match ops with
  | [] => Some (v, log)
  | o :: r => if op_okb log o then
                match cstep v o with Ok (_, v1, e1) => hrun v1 (log ++ e1) r | _ => None end
              else None
  end.
Lemma existsb_notin d l : existsb (Z.eqb d) l = false -> ~ In d l.
Proof.
  intros E I. assert (existsb (Z.eqb d) l = true) by (apply existsb_exists; exists d; split; [exact I|apply Z.eqb_refl]).
  congruence.
Qed.
Lemma hrun_ok : forall ops v log v' log', hrun v log ops = Some (v', log') -> hist v log ops v' log'.
Proof.
  induction ops as [|o ops IH]; intros v log v' log' E; simpl in E.
  - injection E as <- <-. split; reflexivity.
  - destruct (op_okb log o) eqn:Eo; [|discriminate].
    destruct (cstep v o) as [[[code v1] e1]|u| |] eqn:St; try discriminate.
    split; [|exists code, v1, e1; split; [exact St|apply IH; exact E]].
    destruct o as [l [e|d a n]|a p n [e|d k e]|i r|i|i a rb wb]; simpl in *; try exact Logic.I; try lia.
    + apply andb_prop in Eo. destruct Eo as [E1 E2]. split; [lia|]. apply existsb_notin.
      destruct (existsb (Z.eqb d) (opened log)); [discriminate|reflexivity].
    + apply andb_prop in Eo. destruct Eo as [E1 E2]. split; [lia|]. apply existsb_notin.
      destruct (existsb (Z.eqb d) (opened log)); [discriminate|reflexivity].
Qed.
Definition hv (n : nat) (ops : list cop) : cvec :=
  match hrun (table n) [] ops with Some (v, _) => v | None => table 0 end.
Definition hlog (n : nat) (ops : list cop) : list cev :=
  match hrun (table n) [] ops with Some (_, l) => l | None => [] end.
Lemma hrun_hist n ops : match hrun (table n) [] ops with Some _ => true | None => false end = true ->
  hist (table n) [] ops (hv n ops) (hlog n ops).
Proof.
  intros E. apply hrun_ok. unfold hv, hlog. destruct (hrun (table n) [] ops) as [[v l]|]; [reflexivity|discriminate].
Qed.

(** ** C31: a new connection gets the lowest free slot, no other slot changes *)
Theorem c31_accept : forall v listen d addr,
  v_size v <= RMC_NIL_INDEX ->
  ((forall i, ~ free_slot v i) ->
     process_accept listen v (AccOk d addr 0) = Ok (ENOMEM, None, v, [])) /\
  (forall i, lowest_free v i ->
     exists c c' v' evs,
       process_accept listen v (AccOk d addr 0) = Ok (0, Some i, v', evs) /\
       same_but v v' i /\ slot v i = Ok c /\ slot v' i = Ok c' /\
       c_desc c' = d /\ c_mode c' = CONNECTED /\ c_addr c' = addr /\ c_action c' = POLLREAD /\
       c_rbuf c' = c_rbuf c /\ c_wbuf c' = c_wbuf c /\ c_node c' = c_node c /\ c_port c' = c_port c).
Proof.
  intros v listen d addr S. split.
  - intros NF. destruct (accept_cases listen v (AccOk d addr 0) S) as [[_ E]|(i & c & [F _] & _)]; [exact E|].
    destruct (NF i F).
  - intros i L. destruct (accept_cases listen v (AccOk d addr 0) S) as [[NF E]|(j & c & L' & Hc & Dc & E)].
    { destruct (NF i (proj1 L)). }
    rewrite <- (lowest_free_unique v i j L L') in *.
    destruct E as [(_ & E)|(Nd & _)]; [|congruence].
    pose proof (slot_range _ _ _ Hc) as Ri.
    exists c. do 3 eexists. split; [exact E|]. split; [apply same_put; lia|].
    split; [exact Hc|]. split; [apply slot_put_bumped; exact Ri|]. simpl. auto 10.
Qed.

Theorem c31_connect : forall v addr port node d conn_ok errno,
  v_size v <= RMC_NIL_INDEX ->
  ((forall i, ~ free_slot v i) ->
     connect_tcp v addr port node (SockOk d conn_ok errno) = Ok (ENOMEM, None, v, [])) /\
  (conn_ok = true \/ errno = EINPROGRESS -> forall i, lowest_free v i ->
     exists code c c' v' evs,
       connect_tcp v addr port node (SockOk d conn_ok errno) = Ok (code, Some i, v', evs) /\
       same_but v v' i /\ slot v i = Ok c /\ slot v' i = Ok c' /\
       c_desc c' = d /\ c_mode c' = CONNECTING /\ c_addr c' = addr /\ c_port c' = port /\ c_node c' = node /\
       c_action c' = POLLWRITE /\ c_rbuf c' = c_rbuf c /\ c_wbuf c' = c_wbuf c) /\
  (* an immediate failure gives the slot back *)
  (conn_ok = false -> errno <> EINPROGRESS -> forall i, lowest_free v i ->
     exists v' c', connect_tcp v addr port node (SockOk d conn_ok errno) = Ok (0, None, v', [EvOpen d; EvClose d]) /\
       same_but v v' i /\ slot v' i = Ok c' /\ c_desc c' = -1).
Proof.
  intros v addr port node d ok errno S. split; [|split].
  - intros NF. destruct (connect_cases v addr port node (SockOk d ok errno) S) as [[_ E]|(i & c & [F _] & _)]; [exact E|].
    destruct (NF i F).
  - intros Go i L. destruct (connect_cases v addr port node (SockOk d ok errno) S) as [[NF E]|(j & c & L' & Hc & Dc & E)].
    { destruct (NF i (proj1 L)). }
    rewrite <- (lowest_free_unique v i j L L') in *.
    destruct E as [(-> & Ne & _)|(_ & E)]; [destruct Go; congruence|].
    pose proof (slot_range _ _ _ Hc) as Ri.
    eexists. exists c. do 3 eexists. split; [exact E|]. split; [apply same_put; lia|].
    split; [exact Hc|]. split; [apply slot_put_bumped; exact Ri|]. simpl. auto 12.
  - intros -> Ne i L. destruct (connect_cases v addr port node (SockOk d false errno) S) as [[NF E]|(j & c & L' & Hc & Dc & E)].
    { destruct (NF i (proj1 L)). }
    rewrite <- (lowest_free_unique v i j L L') in *.
    destruct E as [(_ & _ & E)|([X|X] & _)]; [|discriminate|congruence].
    pose proof (slot_range _ _ _ Hc) as Ri.
    do 2 eexists. split; [exact E|]. split; [|split].
    + pose proof (same_put v i (mkConn (c_action c) (-1) node (c_rbuf c) (c_wbuf c) (c_mode c) (c_port c) addr) 0 ltac:(lia)) as Q.
      exact Q.
    + rewrite slot_reset_max. apply slot_put_same. rewrite bumped_size. exact Ri.
    + reflexivity.
Qed.

(** A slot in use: the second of three slots is the lowest free one. *)
Definition one_conn : cvec :=
  match process_accept 3 (table 3) (AccOk 10 77 0) with Ok (_, _, v, _) => v | _ => table 3 end.
Example c31_witness :
  v_size one_conn <= RMC_NIL_INDEX /\ lowest_free one_conn 1 /\
  (forall i, ~ free_slot (table 0) i) /\
  exists v' evs, process_accept 3 one_conn (AccOk 11 78 0) = Ok (0, Some 1, v', evs).
Proof.
  split; [vm_compute; discriminate|]. split; [split|split].
  - exists (reset_conn blank). split; reflexivity.
  - intros j Hj (c & Hc & D). assert (j = 0) as -> by lia. vm_compute in Hc. injection Hc as <-. discriminate.
  - intros i (c & Hc & _). apply slot_range in Hc. change (v_size (table 0)) with 0 in Hc. lia.
  - do 2 eexists. reflexivity.
Qed.

(** ** C32: the active count and the maximal index are right after every history *)
Theorem c32_bookkeeping : forall buf ops v log,
  zlen buf <= RMC_LISTEN_INDEX ->
  hist (init_vec buf) [] ops v log ->
  v_size v = zlen buf /\
  get_active_connection_count v = count_open v /\
  (forall i c, is_open v i c -> get_max_index_in_use v <> RMC_NIL_INDEX /\ i <= get_max_index_in_use v) /\
  (get_max_index_in_use v <> RMC_NIL_INDEX -> 0 <= get_max_index_in_use v < v_size v) /\
  (forall i j c c', is_open v i c -> is_open v j c' -> c_desc c = c_desc c' -> i = j).
Proof.
  intros buf ops v log S Hh.
  destruct (hist_inv true ops _ _ v log (init_inv true buf S) Hh) as [[A B C D E F G] Sz]; [discriminate|].
  split; [rewrite Sz; apply size_init; exact S|]. split; [exact C|].
  destruct B as [B1 B2]. split; [|split].
  - intros i c [Hs M]. apply (B2 i c Hs). pose proof (proj2 (D i c Hs) M). lia.
  - intros N. destruct B1 as [B1|B1]; [destruct (N B1)|exact B1].
  - intros i j c c' [Hi Mi] [Hj Mj] Eq. apply (F i j c c' Hi Hj Eq). pose proof (proj2 (D i c Hi) Mi). lia.
Qed.
(** Closing gives the slot back and changes no other one. *)
Theorem c32_close : forall v i c, is_open v i c ->
  exists v', close_conn v i = Ok (0, v', [EvRem (c_desc c) i; EvClose (c_desc c)]) /\
    same_but v v' i /\ slot v' i = Ok (reset_conn c) /\ free_slot v' i /\
    count_open v' = count_open v - 1.
Proof.
  intros v i c [Hc M]. pose proof (slot_range _ _ _ Hc) as Ri.
  destruct (close_cases v i ltac:(lia)) as [[L _]|[(x & Hx & Mx & _)|(x & [Hx Mx] & E)]]; [lia|congruence|].
  assert (x = c) as -> by congruence. cbn zeta in E. eexists. split; [exact E|].
  assert (Sl : forall k, slot (set_active (if i =? v_max v then reset_max (put_slot v i (reset_conn c))
             else put_slot v i (reset_conn c)) (u16 (v_active v - 1))) k = slot (put_slot v i (reset_conn c)) k)
    by (intros k; destruct (i =? v_max v); reflexivity).
  assert (Si : slot (put_slot v i (reset_conn c)) i = Ok (reset_conn c)) by (apply slot_put_same; exact Ri).
  split; [split|split; [|split]].
  - destruct (i =? v_max v); apply size_put.
  - intros k Nk. rewrite Sl. apply slot_put_other; [lia|exact Nk].
  - rewrite Sl. exact Si.
  - exists (reset_conn c). rewrite Sl. split; [exact Si|reflexivity].
  - transitivity (count_open (put_slot v i (reset_conn c))); [destruct (i =? v_max v); reflexivity|].
    rewrite (count_put v i c _ Hc). unfold b_open at 1. destruct (Z.eqb_spec (c_mode c) CLOSED); [congruence|].
    unfold b_open; simpl; lia.
Qed.
(** The other cases: a bad index and a connection that is not open. *)
Theorem c32_close_refused : forall v i, 0 <= i ->
  (v_size v <= i -> close_conn v i = Ok (EINVAL, v, [])) /\
  (i < v_size v -> (forall c, ~ is_open v i c) -> close_conn v i = Ok (ENOTCONN, v, [])).
Proof.
  intros v i H. destruct (close_cases v i H) as [[L E]|[(c & Hc & Mc & E)|(c & O & E)]]; split; intros; try lia; try assumption.
  - apply slot_range in Hc. lia.
  - destruct O as [Hc _]. apply slot_range in Hc. lia.
  - exfalso. eapply H1. exact O.
Qed.
Definition ops_ex : list cop :=
  [OpAccept 3 (AccOk 10 77 0); OpConnect 88 4723 5 (SockOk 11 false EINPROGRESS);
   OpComplete 1 (CmpOk 0 0); OpAccept 3 (AccErr 4); OpClose 0; OpAccept 3 (AccOk 12 79 0)].
Example c32_witness : exists v log, hist (table 3) [] ops_ex v log /\ count_open v = 2.
Proof.
  exists (hv 3 ops_ex), (hlog 3 ops_ex). split; [apply hrun_hist; vm_compute; reflexivity|vm_compute; reflexivity].
Qed.

(** ** C33: lookup *)
Theorem c33_by_index : forall v i c, 0 <= i ->
  (find_by_index v i = Ok (Some c) <-> is_open v i c) /\
  (find_by_index v i = Ok None <-> forall c', ~ is_open v i c').
Proof.
  intros v i c H. destruct (find_index_cases v i H) as [[E N]|(x & E & O)]; rewrite E; split; split; intros Q.
  - discriminate.
  - destruct (N _ Q).
  - exact N.
  - reflexivity.
  - injection Q as <-. exact O.
  - destruct O as [O1 _], Q as [Q1 _]. congruence.
  - discriminate.
  - destruct (Q _ O).
Qed.
Lemma lookup_core : forall v p k, max_ok v -> v_size v <= RMC_NIL_INDEX ->
  (forall c, p c = true <-> c_desc c <> -1 /\ k c) ->
  (forall i c, slot v i = Ok c -> (c_desc c = -1 <-> c_mode c = CLOSED)) ->
  (exists i c, find_conn v p = Ok (Some i) /\ is_open v i c /\ k c /\
     forall j c', 0 <= j < i -> is_open v j c' -> ~ k c') \/
  (find_conn v p = Ok None /\ forall j c', is_open v j c' -> ~ k c').
Proof.
  intros v p k M S P NL.
  destruct (find_conn_spec v p M S) as [(i & c & E & Hs & Pc & F)|[E F]]; [intros c Pc; apply P in Pc; tauto| |].
  - left. exists i, c. apply P in Pc. refine (conj E (conj _ (conj (proj2 Pc) _))).
    + split; [exact Hs|]. intros X. apply NL with (1 := Hs) in X. tauto.
    + intros j c' Hj [Hs' M'] K. assert (p c' = true).
      { apply P. split; [|exact K]. intros X. apply NL with (1 := Hs') in X. congruence. }
      rewrite (F j c' Hj Hs') in H. discriminate.
  - right. split; [exact E|]. intros j c' [Hs' M'] K. assert (p c' = true).
    { apply P. split; [|exact K]. intros X. apply NL with (1 := Hs') in X. congruence. }
    rewrite (F j c' Hs') in H. discriminate.
Qed.
Theorem c33_by_key_partial : forall buf ops v log,
  zlen buf <= RMC_LISTEN_INDEX ->
  hist (init_vec buf) [] ops v log ->
  forallb (fun o => negb (accept_nodelay_fails o)) ops = true ->
  (forall addr port,
     (exists i c, find_by_address v addr port = Ok (Some i) /\ is_open v i c /\ (c_addr c = addr /\ c_port c = port) /\
        forall j c', 0 <= j < i -> is_open v j c' -> ~ (c_addr c' = addr /\ c_port c' = port)) \/
     (find_by_address v addr port = Ok None /\
        forall j c', is_open v j c' -> ~ (c_addr c' = addr /\ c_port c' = port))) /\
  (forall node,
     (exists i c, find_by_node_id v node = Ok (Some i) /\ is_open v i c /\ c_node c = node /\
        forall j c', 0 <= j < i -> is_open v j c' -> c_node c' <> node) \/
     (find_by_node_id v node = Ok None /\ forall j c', is_open v j c' -> c_node c' <> node)).
Proof.
  intros buf ops v log S Hh NF.
  destruct (hist_inv true ops _ _ v log (init_inv true buf S) Hh) as [H Sz]; [discriminate|].
  destruct (hist_leak ops _ _ v log (init_inv true buf S) (init_leak buf) Hh NF) as [NL _].
  pose proof (nil_listen v (ci_size _ _ _ H)) as SN. split; intros.
  - apply (lookup_core v _ (fun c => c_addr c = addr /\ c_port c = port) (ci_max _ _ _ H) SN); [|exact NL].
    intros c. rewrite !andb_true_iff, negb_true_iff, Z.eqb_neq, !Z.eqb_eq. intuition congruence.
  - apply (lookup_core v _ (fun c => c_node c = node) (ci_max _ _ _ H) SN); [|exact NL].
    intros c. rewrite !andb_true_iff, negb_true_iff, Z.eqb_neq, !Z.eqb_eq. intuition congruence.
Qed.
(** What lookup does in every history: it finds the slots whose descriptor is set. *)
Theorem c33_by_key_general : forall buf ops v log,
  zlen buf <= RMC_LISTEN_INDEX ->
  hist (init_vec buf) [] ops v log ->
  forall addr port,
     (exists i c, find_by_address v addr port = Ok (Some i) /\ slot v i = Ok c /\
        c_desc c <> -1 /\ c_addr c = addr /\ c_port c = port) \/
     (find_by_address v addr port = Ok None /\
        forall j c', is_open v j c' -> ~ (c_addr c' = addr /\ c_port c' = port)).
Proof.
  intros buf ops v log S Hh addr port.
  destruct (hist_inv true ops _ _ v log (init_inv true buf S) Hh) as [H Sz]; [discriminate|].
  pose proof (nil_listen v (ci_size _ _ _ H)) as SN.
  assert (P : forall c, negb (c_desc c =? -1) && (addr =? c_addr c) && (port =? c_port c) = true <->
              c_desc c <> -1 /\ c_addr c = addr /\ c_port c = port).
  { intros c. rewrite !andb_true_iff, negb_true_iff, Z.eqb_neq, !Z.eqb_eq. intuition congruence. }
  destruct (find_conn_spec v _ (ci_max _ _ _ H) SN (fun c Pc => proj1 (proj1 (P c) Pc)))
    as [(i & c & E & Hs & Pc & F)|[E F]].
  - left. exists i, c. apply P in Pc. tauto.
  - right. split; [exact E|]. intros j c' [Hs' M'] K. specialize (F j c' Hs').
    rewrite (proj2 (P c')) in F; [discriminate|]. split; [|exact K].
    pose proof (proj2 (ci_desc _ _ _ H j c' Hs') M'). lia.
Qed.
(** C33 is false when setsockopt() fails after accept(): the slot left behind is found. *)
Theorem c33_refuted : exists v log i c,
  hist (table 2) [] [OpAccept 3 (AccOk 10 77 22)] v log /\
  find_by_address v 0 0 = Ok (Some i) /\ find_by_node_id v 0 = Ok (Some i) /\
  slot v i = Ok c /\ c_mode c = CLOSED.
Proof.
  exists (hv 2 [OpAccept 3 (AccOk 10 77 22)]), (hlog 2 [OpAccept 3 (AccOk 10 77 22)]), 0, (set_desc (reset_conn blank) 10).
  split; [apply hrun_hist; vm_compute; reflexivity|].
  refine (conj _ (conj _ (conj _ _))); vm_compute; reflexivity.
Qed.
Example c33_witness : exists v log, hist (table 3) [] ops_ex v log /\
  forallb (fun o => negb (accept_nodelay_fails o)) ops_ex = true /\
  find_by_address v 88 4723 = Ok (Some 1) /\ find_by_node_id v 5 = Ok (Some 1) /\ find_by_address v 77 0 = Ok None.
Proof.
  exists (hv 3 ops_ex), (hlog 3 ops_ex). split; [apply hrun_hist; vm_compute; reflexivity|].
  refine (conj _ (conj _ (conj _ _))); vm_compute; reflexivity.
Qed.

(** ** C34: failing accepts *)
(** When there is no slot or accept() fails, nothing but the bound on used indices changes. *)
Theorem c34_accept_fails_partial : forall v listen o code r v' evs,
  v_size v <= RMC_NIL_INDEX ->
  process_accept listen v o = Ok (code, r, v', evs) ->
  (match o with AccErr e => e <> 0 | AccOk _ _ nd => nd = 0 end) -> code <> 0 ->
  r = None /\ evs = [] /\ v_active v' = v_active v /\ v_size v' = v_size v /\ (forall i, slot v' i = slot v i).
Proof.
  intros v listen o code r v' evs S E Ho Nc.
  destruct (accept_cases listen v o S) as [[_ E']|(i & c & L & Hc & Dc & E')].
  - rewrite E' in E. injection E as <- <- <- <-. auto 10.
  - destruct o as [e|d addr nd].
    + rewrite E' in E. injection E as <- <- <- <-.
      pose proof (slot_range _ _ _ Hc) as Ri.
      refine (conj eq_refl (conj eq_refl (conj _ (conj _ _)))).
      * apply bumped_active.
      * rewrite size_put. apply bumped_size.
      * intros j. destruct (Z.eq_dec j i) as [->|N].
        -- rewrite slot_put_same by (rewrite bumped_size; exact Ri). rewrite Hc. f_equal.
           destruct c; simpl in *. unfold set_desc; simpl. congruence.
        -- rewrite slot_put_other by (lia || exact N). apply bumped_slot.
    + subst nd. destruct E' as [(_ & E')|(X & _)]; [|congruence].
      rewrite E' in E. injection E as <- <- <- <-. congruence.
Qed.
(** When setsockopt() fails the slot and the descriptor are lost for good: the slot is never
    given out again and the descriptor never closed, whatever happens later. *)
Theorem c34_leak : forall buf ops1 v1 log1 listen d addr nd i v2 log2 ops2 v3 log3,
  zlen buf <= RMC_LISTEN_INDEX ->
  hist (init_vec buf) [] ops1 v1 log1 -> lowest_free v1 i -> nd <> 0 ->
  hist v1 log1 [OpAccept listen (AccOk d addr nd)] v2 log2 ->
  hist v2 log2 ops2 v3 log3 ->
  exists c, slot v3 i = Ok c /\ c_desc c = d /\ c_mode c = CLOSED /\ In d (opened log3) /\ ~ free_slot v3 i.
Proof.
  intros buf ops1 v1 log1 listen d addr nd i v2 log2 ops2 v3 log3 S H1 L Nd H2 H3.
  destruct (hist_inv true _ _ _ _ _ (init_inv true buf S) H1) as [C1 Sz1]; [discriminate|].
  destruct (hist_inv true _ _ _ _ _ C1 H2) as [C2 Sz2]; [discriminate|].
  destruct (hist_inv true _ _ _ _ _ C2 H3) as [C3 Sz3]; [discriminate|].
  pose proof (nil_listen v1 (ci_size _ _ _ C1)) as SN.
  simpl in H2. destruct H2 as ([Dp Fr] & code & vx & e1 & St & -> & ->).
  destruct (accept_cases listen v1 (AccOk d addr nd) SN) as [[NF _]|(j & c & L' & Hc & Dc & E)].
  { destruct (NF i (proj1 L)). }
  rewrite <- (lowest_free_unique v1 i j L L') in *.
  destruct E as [(X & _)|(_ & code' & v' & evs & Q & E)]; [congruence|].
  unfold cstep in St. rewrite E in St. cbn [bind] in St. injection St as <- <- <-.
  pose proof (slot_range _ _ _ Hc) as Ri. pose proof (ci_closed _ _ _ _ _ C1 Hc Dc) as Mc.
  assert (Hv : slot v' i = Ok (set_desc c d)).
  { pose proof (slot_put_same (bumped v1 i) i (set_desc c d) ltac:(rewrite bumped_size; exact Ri)) as P.
    destruct (close_cases (put_slot (bumped v1 i) i (set_desc c d)) (u16 d)) as [[_ Q']|[(x & _ & _ & Q')|(x & [Hx Mx] & Q')]];
      [exact (proj1 (u16_range d))| | |]; cbn zeta in Q'; rewrite Q in Q'; injection Q' as -> -> ->; try exact P.
    assert (N : u16 d <> i) by (intros Eq; rewrite Eq, P in Hx; injection Hx as <-; simpl in Mx; congruence).
    rewrite slot_set_active. destruct (_ =? _); rewrite ?slot_reset_max;
      rewrite slot_put_other by (first [exact (proj1 (u16_range d)) | congruence]); exact P. }
  assert (H : slot v3 i = Ok (set_desc c d)).
  { eapply hist_stuck; [exact C2|exact Hv| | |exact H3]; simpl; [lia|exact Mc]. }
  exists (set_desc c d). refine (conj H (conj eq_refl (conj Mc (conj _ _)))).
  - apply (ci_open _ _ _ C3 i _ H). simpl. lia.
  - intros (x & Hx & Dx). rewrite H in Hx. injection Hx as <-. simpl in Dx. lia.
Qed.
(** C34 is false: the descriptor of the failed connection is used as a slot index, so an
    unrelated connection is closed, and the new one's slot and descriptor are not released. *)
Theorem c34_refuted : exists v log c,
  hist (table 12) [] [OpConnect 88 1 5 (SockOk 3 true EINPROGRESS); OpConnect 89 1 6 (SockOk 4 true EINPROGRESS);
                      OpAccept 9 (AccOk 1 77 22)] v log /\
  (forall x, ~ is_open v 1 x) /\ In (EvClose 4) log /\
  slot v 2 = Ok c /\ c_desc c = 1 /\ c_mode c = CLOSED /\ In 1 (opened log).
Proof.
  set (ops := [OpConnect 88 1 5 (SockOk 3 true EINPROGRESS); OpConnect 89 1 6 (SockOk 4 true EINPROGRESS);
               OpAccept 9 (AccOk 1 77 22)]).
  exists (hv 12 ops), (hlog 12 ops), (set_desc (reset_conn blank) 1).
  split; [apply hrun_hist; vm_compute; reflexivity|]. split.
  - intros x [Hx Mx]. vm_compute in Hx. injection Hx as <-. apply Mx. reflexivity.
  - split; [vm_compute; auto 20|]. split; [vm_compute; reflexivity|]. vm_compute; auto 20.
Qed.
(** An unlucky table is full after as many failed accepts as it has slots, though no
    connection is open. *)
Theorem c34_exhausted : exists v log,
  hist (table 2) [] [OpAccept 9 (AccOk 10 77 22); OpAccept 9 (AccOk 11 77 22)] v log /\
  count_open v = 0 /\ (forall i, ~ free_slot v i) /\
  process_accept 9 v (AccOk 12 77 0) = Ok (ENOMEM, None, v, []).
Proof.
  set (ops := [OpAccept 9 (AccOk 10 77 22); OpAccept 9 (AccOk 11 77 22)]).
  exists (hv 2 ops), (hlog 2 ops).
  split; [apply hrun_hist; vm_compute; reflexivity|]. split; [vm_compute; reflexivity|]. split; [|vm_compute; reflexivity].
  intros i (c & Hc & D). pose proof (slot_range _ _ _ Hc) as R.
  assert (Sz : v_size (hv 2 ops) = 2) by (vm_compute; reflexivity). rewrite Sz in R.
  assert (i = 0 \/ i = 1) as [-> | ->] by lia; vm_compute in Hc; injection Hc as <-; discriminate.
Qed.
Example c34_witness :
  exists code v', process_accept 9 one_conn (AccErr 24) = Ok (code, None, v', []) /\ code = 24 /\
  v_max v' = 1 /\ lowest_free one_conn 1.
Proof.
  do 2 eexists. split; [reflexivity|]. split; [reflexivity|]. split; [reflexivity|]. apply c31_witness.
Qed.

(** ** C35: poll registrations *)
Theorem c35_balanced_partial : forall buf ops v log,
  zlen buf <= RMC_LISTEN_INDEX ->
  hist (init_vec buf) [] ops v log ->
  forallb (fun o => negb (complete_fails_late o)) ops = true ->
  exists R, poll_set false [] log = Some R /\
    forall d i, In (d, i) R <-> exists c, is_open v i c /\ c_desc c = d.
Proof.
  intros buf ops v log S Hh NF.
  destruct (hist_inv false ops _ _ v log (init_inv false buf S) Hh) as [H Sz]; [intros _; exact NF|].
  exact (ci_poll _ _ _ H).
Qed.
(** In every history the poll set is right if the user ignores removals of descriptors that
    are not registered. *)
Theorem c35_lenient : forall buf ops v log,
  zlen buf <= RMC_LISTEN_INDEX ->
  hist (init_vec buf) [] ops v log ->
  exists R, poll_set true [] log = Some R /\
    forall d i, In (d, i) R <-> exists c, is_open v i c /\ c_desc c = d.
Proof.
  intros buf ops v log S Hh.
  destruct (hist_inv true ops _ _ v log (init_inv true buf S) Hh) as [H Sz]; [discriminate|].
  exact (ci_poll _ _ _ H).
Qed.
(** Without failing setsockopt() after accept(), exactly the descriptors of open connections
    are open: none leaks, none is closed too early. *)
Theorem c35_descriptors_partial : forall buf ops v log,
  zlen buf <= RMC_LISTEN_INDEX ->
  hist (init_vec buf) [] ops v log ->
  forallb (fun o => negb (accept_nodelay_fails o)) ops = true ->
  forall d, In d (opened log) <-> exists i c, is_open v i c /\ c_desc c = d.
Proof.
  intros buf ops v log S Hh NF d.
  destruct (hist_inv true ops _ _ v log (init_inv true buf S) Hh) as [H Sz]; [discriminate|].
  destruct (hist_leak ops _ _ v log (init_inv true buf S) (init_leak buf) Hh NF) as [NL1 NL2].
  split; [apply NL2|]. intros (i & c & [Hs M] & <-). apply (ci_open _ _ _ H i c Hs).
  pose proof (proj2 (ci_desc _ _ _ H i c Hs) M). lia.
Qed.
(** C35 is false: a connection that turns out refused is removed from the poll set twice. *)
Theorem c35_refuted : exists v log,
  hist (table 2) [] [OpConnect 88 4723 5 (SockOk 11 false EINPROGRESS); OpComplete 0 (CmpOk 111 0)] v log /\
  poll_set false [] log = None /\
  log = [EvOpen 11; EvAdd 11 0 POLLWRITE; EvRem 11 0; EvRem 11 0; EvClose 11].
Proof.
  set (ops := [OpConnect 88 4723 5 (SockOk 11 false EINPROGRESS); OpComplete 0 (CmpOk 111 0)]).
  exists (hv 2 ops), (hlog 2 ops).
  split; [apply hrun_hist; vm_compute; reflexivity|]. split; vm_compute; reflexivity.
Qed.
(** What completing a connection does: on success the slot is connected, on every failure it
    is free again and the error is returned. *)
Theorem c35_complete : forall v i c o, is_open v i c -> c_mode c = CONNECTING ->
  exists code v' evs, complete_conn v i o = Ok (code, v', evs) /\ same_but v v' i /\
  match o with
  | CmpOk 0 0 => code = 0 /\ evs = [EvMod (c_desc c) i (c_action c) POLLREAD] /\
                 slot v' i = Ok (set_action (set_mode c CONNECTED) POLLREAD)
  | CmpErr e => code = e /\ evs = [EvRem (c_desc c) i; EvClose (c_desc c)] /\ slot v' i = Ok (reset_conn c)
  | CmpOk so nd => code = (if so =? 0 then nd else so) /\
                   evs = [EvRem (c_desc c) i; EvRem (c_desc c) i; EvClose (c_desc c)] /\
                   slot v' i = Ok (reset_conn c)
  end.
Proof.
  intros v i c o Op Mc. destruct (c32_close v i c Op) as (v' & E & Sb & Sl & _).
  destruct Op as [Hc M]. pose proof (slot_range _ _ _ Hc) as Ri.
  unfold complete_conn. rewrite Hc. cbn [bind].
  destruct o as [e|so nd].
  - rewrite E. cbn [bind]. do 3 eexists. split; [reflexivity|]. auto.
  - destruct (Z.eqb_spec so 0) as [->|Nso]; cbn [negb].
    + destruct (Z.eqb_spec nd 0) as [->|Nnd]; cbn [negb].
      * do 3 eexists. split; [reflexivity|]. split; [split; [apply size_put|]|].
        -- intros j Nj. apply slot_put_other; [lia|exact Nj].
        -- refine (conj eq_refl (conj eq_refl _)). apply slot_put_same. exact Ri.
      * rewrite E. cbn [bind]. do 3 eexists. split; [reflexivity|]. split; [exact Sb|].
        destruct nd; [congruence| |]; cbn; auto.
    + rewrite E. cbn [bind]. do 3 eexists. split; [reflexivity|]. split; [exact Sb|].
      destruct so; [congruence| |]; cbn; auto.
Qed.
Example c35_witness : exists v log R, hist (table 3) [] ops_ex v log /\
  forallb (fun o => negb (complete_fails_late o)) ops_ex = true /\
  poll_set false [] log = Some R /\ R = [(11, 1); (12, 0)].
Proof.
  exists (hv 3 ops_ex), (hlog 3 ops_ex), [(11, 1); (12, 0)]. split; [apply hrun_hist; vm_compute; reflexivity|].
  refine (conj _ (conj _ _)); vm_compute; reflexivity.
Qed.

(** ** C59: a new connection starts with empty rings *)
Theorem c59_fresh_rings : forall buf ops v log i c,
  zlen buf <= RMC_LISTEN_INDEX ->
  hist (init_vec buf) [] ops v log -> slot v i = Ok c -> c_mode c = CLOSED -> fresh_rings c.
Proof.
  intros buf ops v log i c S Hh Hs M.
  exact (hist_clean ops _ _ v log (init_inv true buf S) (init_clean buf) Hh i c Hs M).
Qed.
(** In particular the connection an accept or connect opens holds no bytes of an earlier one. *)
Theorem c59_new_connection : forall buf ops v log o code v' evs i c,
  zlen buf <= RMC_LISTEN_INDEX ->
  hist (init_vec buf) [] ops v log -> op_ok log o ->
  (match o with OpAccept _ _ | OpConnect _ _ _ _ => True | _ => False end) ->
  cstep v o = Ok (code, v', evs) ->
  (forall x, ~ is_open v i x) -> is_open v' i c -> fresh_rings c.
Proof.
  intros buf ops v log o code v' evs i c S Hh Ok_o Ho St NO [Hc Mc].
  destruct (hist_inv true ops _ _ v log (init_inv true buf S) Hh) as [H Sz]; [discriminate|].
  pose proof (hist_clean ops _ _ v log (init_inv true buf S) (init_clean buf) Hh) as Cl.
  pose proof (nil_listen v (ci_size _ _ _ H)) as SN.
  assert (Same : forall w n, (forall k, slot w k = slot (set_active v n) k) -> slot w i = Ok c -> False).
  { intros w n E Hw. rewrite E, slot_set_active in Hw. apply (NO c). split; assumption. }
  destruct o as [listen r|addr port node r| | |]; try destruct Ho; unfold cstep in St.
  - destruct (accept_cases listen v r SN) as [[_ E]|(j & x & L & Hx & Dx & E)].
    { rewrite E in St. injection St as <- <- <-. destruct (NO c). split; assumption. }
    pose proof (slot_range _ _ _ Hx) as Rj. pose proof (ci_closed _ _ _ _ _ H Hx Dx) as Mx.
    destruct r as [e|d addr nd].
    + rewrite E in St. injection St as <- <- <-.
      destruct (slot_put (bumped v j) j _ i c ltac:(rewrite bumped_size; exact Rj) Hc) as [[-> ->]|[N Hc']].
      * simpl in Mc. congruence.
      * rewrite bumped_slot in Hc'. destruct (NO c). split; assumption.
    + destruct E as [(-> & E)|(Nd & code' & v2 & evs' & Q & E)]; rewrite E in St; injection St as <- <- <-.
      * rewrite slot_set_active in Hc.
        destruct (slot_put (bumped v j) j _ i c ltac:(rewrite bumped_size; exact Rj) Hc) as [[-> ->]|[N Hc']].
        -- exact (Cl j x Hx Mx).
        -- rewrite bumped_slot in Hc'. destruct (NO c). split; assumption.
      * exfalso. set (w := put_slot (bumped v j) j (set_desc x d)) in *.
        assert (Hw : forall k y, slot w k = Ok y -> c_mode y <> CLOSED -> slot v k = Ok y).
        { intros k y Hk My. destruct (slot_put (bumped v j) j _ k y ltac:(rewrite bumped_size; exact Rj) Hk) as [[-> ->]|[N Hk']].
          - simpl in My. congruence.
          - rewrite bumped_slot in Hk'. exact Hk'. }
        destruct (close_cases w (u16 d) (proj1 (u16_range d))) as [[_ Q']|[(y & _ & _ & Q')|(y & [Hy My] & Q')]];
          cbn zeta in Q'; rewrite Q in Q'; injection Q' as -> -> ->.
        1,2: apply (NO c); split; [apply Hw; assumption|assumption].
        rewrite slot_set_active in Hc.
        destruct (closed_slot w (u16 d) y _ i c (slot_range _ _ _ Hy) eq_refl Hc) as [[-> ->]|[N Hc']].
        -- simpl in Mc. congruence.
        -- apply (NO c). split; [apply Hw; assumption|assumption].
  - destruct (connect_cases v addr port node r SN) as [[_ E]|(j & x & L & Hx & Dx & E)].
    { rewrite E in St. injection St as <- <- <-. destruct (NO c). split; assumption. }
    pose proof (slot_range _ _ _ Hx) as Rj. pose proof (ci_closed _ _ _ _ _ H Hx Dx) as Mx.
    destruct r as [e|d ok errno].
    + rewrite E in St. injection St as <- <- <-.
      destruct (slot_put (bumped v j) j _ i c ltac:(rewrite bumped_size; exact Rj) Hc) as [[-> ->]|[N Hc']].
      * simpl in Mc. congruence.
      * rewrite bumped_slot in Hc'. destruct (NO c). split; assumption.
    + destruct E as [(-> & Ne & E)|(_ & E)]; rewrite E in St; injection St as <- <- <-.
      * rewrite slot_reset_max in Hc.
        destruct (slot_put (bumped v j) j _ i c ltac:(rewrite bumped_size; exact Rj) Hc) as [[-> ->]|[N Hc']].
        -- simpl in Mc. congruence.
        -- rewrite bumped_slot in Hc'. destruct (NO c). split; assumption.
      * rewrite slot_set_active in Hc.
        destruct (slot_put (bumped v j) j _ i c ltac:(rewrite bumped_size; exact Rj) Hc) as [[-> ->]|[N Hc']].
        -- exact (Cl j x Hx Mx).
        -- rewrite bumped_slot in Hc'. destruct (NO c). split; assumption.
Qed.
(** Slot 0 is used, filled, closed and given out again, empty. *)
Definition full_ring : cbuf := mkCB RMC_MAX_PACKET 5 900 (fun _ => 1).
Example c59_witness : exists v log c,
  hist (table 2) [] [OpAccept 3 (AccOk 10 77 0); OpIO 0 3 full_ring full_ring; OpClose 0;
                     OpAccept 3 (AccOk 10 78 0)] v log /\
  is_open v 0 c /\ fresh_rings c.
Proof.
  set (ops := [OpAccept 3 (AccOk 10 77 0); OpIO 0 3 full_ring full_ring; OpClose 0; OpAccept 3 (AccOk 10 78 0)]).
  exists (hv 2 ops), (hlog 2 ops).
  destruct (slot (hv 2 ops) 0) as [c|u| |] eqn:E; [|vm_compute in E; discriminate..].
  exists c. split; [apply hrun_hist; vm_compute; reflexivity|]. vm_compute in E.
  split; [split; [vm_compute; exact E|injection E as <-; discriminate]|].
  injection E as <-. vm_compute. auto 10.
Qed.

(** ** C60: every call on the table is defined *)
Theorem c60_total : forall buf ops v log o,
  zlen buf <= RMC_LISTEN_INDEX ->
  hist (init_vec buf) [] ops v log -> op_ok log o ->
  exists code v' evs, cstep v o = Ok (code, v', evs).
Proof.
  intros buf ops v log o S Hh Ok_o.
  destruct (hist_inv true ops _ _ v log (init_inv true buf S) Hh) as [H Sz]; [discriminate|].
  destruct (step_inv true v log o H Ok_o) as (code & v' & evs & St & _); [discriminate|]. eauto.
Qed.
Theorem c60_lookup_total : forall buf ops v log addr port node,
  zlen buf <= RMC_LISTEN_INDEX ->
  hist (init_vec buf) [] ops v log ->
  (exists r, find_by_address v addr port = Ok r) /\ (exists r, find_by_node_id v node = Ok r).
Proof.
  intros buf ops v log addr port node S Hh.
  destruct (hist_inv true ops _ _ v log (init_inv true buf S) Hh) as [H Sz]; [discriminate|].
  pose proof (nil_listen v (ci_size _ _ _ H)) as SN. split.
  - destruct (find_conn_spec v (fun c => negb (c_desc c =? -1) && (addr =? c_addr c) && (port =? c_port c))
      (ci_max _ _ _ H) SN) as [(i & c & E & _)|[E _]]; [|eauto|eauto].
    intros c Pc. rewrite !andb_true_iff, negb_true_iff, Z.eqb_neq in Pc. tauto.
  - destruct (find_conn_spec v (fun c => negb (c_desc c =? -1) && (c_node c =? node))
      (ci_max _ _ _ H) SN) as [(i & c & E & _)|[E _]]; [|eauto|eauto].
    intros c Pc. rewrite !andb_true_iff, negb_true_iff, Z.eqb_neq in Pc. tauto.
Qed.
(** The return code of an immediately established connection is whatever errno happened to
    hold: the connection exists although an error is reported. *)
Theorem c61_connect_code : forall v addr port node d conn_ok errno i,
  v_size v <= RMC_NIL_INDEX -> lowest_free v i -> conn_ok = true \/ errno = EINPROGRESS ->
  exists v' evs, connect_tcp v addr port node (SockOk d conn_ok errno) =
    Ok (if errno =? EINPROGRESS then 0 else errno, Some i, v', evs) /\
    exists c, is_open v' i c /\ c_desc c = d.
Proof.
  intros v addr port node d ok errno i S L Go.
  destruct (connect_cases v addr port node (SockOk d ok errno) S) as [[NF E]|(j & c & L' & Hc & Dc & E)].
  { destruct (NF i (proj1 L)). }
  rewrite <- (lowest_free_unique v i j L L') in *.
  destruct E as [(-> & Ne & _)|(_ & E)]; [destruct Go; congruence|].
  do 2 eexists. split; [exact E|]. eexists. split; [split; [apply slot_put_bumped; exact (slot_range _ _ _ Hc)|discriminate]|].
  reflexivity.
Qed.
Theorem c61_refuted : exists v' evs c,
  connect_tcp (table 2) 88 4723 5 (SockOk 11 true EAGAIN) = Ok (EAGAIN, Some 0, v', evs) /\ is_open v' 0 c.
Proof. do 3 eexists. split; [vm_compute; reflexivity|]. split; [reflexivity|discriminate]. Qed.

Print Assumptions c31_accept.
Print Assumptions c31_connect.
Print Assumptions c32_bookkeeping.
Print Assumptions c33_by_index.
Print Assumptions c33_by_key_partial.
Print Assumptions c33_refuted.
Print Assumptions c34_accept_fails_partial.
Print Assumptions c34_leak.
Print Assumptions c34_refuted.
Print Assumptions c35_balanced_partial.
Print Assumptions c35_descriptors_partial.
Print Assumptions c35_refuted.
Print Assumptions c59_new_connection.
Print Assumptions c60_total.
Print Assumptions c61_connect_code.
