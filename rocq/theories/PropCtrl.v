(** PropCtrl.v — C93: what subscribers say to the publisher. *)
From Verif Require Import Base CircBuf CircBufProofs Wire SeqList Pub Sub SpecSub Proto SpecProto ProtoProofs ProtoRead
  Conn SpecConn PubCtx SpecPubCtx PubCtxProofs PropPubCtx PropPubTime SpecPubRecv PubRecv PropPubRecv SubCtx SpecSubCtx SubInv PropSubCtx PropSubRecv PropSubDeliver SpecSys SysProofs PropSys PropSysRun
  SpecCtrl CtrlSub CtrlPub PropTotalSub.

(** ** C93. Control messages *)
(** What a subscriber has put on the socket of a connection and what waits to be put there are the
    acknowledgements it sent and the messages it was given, in this order, byte for byte. *)
Theorem c93_stream : forall t x0 ops x log q i c, fresh_sub x0 -> ohist t x0 ops x log q -> sconnected x i c ->
  ts_sent (ts_open i log) ++ contents (c_wbuf c) = flat_map wire (q i).
Proof. intros t x0 ops x log q i c F H [Hs Hm]. exact (proj1 (ohist_SW t x0 ops x log q F H i c Hs) Hm). Qed.
(** The callback of a publisher has been called with exactly the messages in the bytes received on
    the connection, in order, whatever pieces they came in. *)
Theorem c93_heard : forall x0 ops x g log f h k cmds r, fresh_ctx x0 -> hhist x0 ops x g log f h -> connected x k ->
  parses for_pub (f k) cmds r -> h k = messages cmds.
Proof.
  intros x0 ops x g log f h k cmds r F H (c & Hs & Hm) P. destruct (hhist_HI x0 ops x g log f h F H k c Hs Hm) as (cmds1 & P1 & <-).
  destruct (parses_unique for_pub pub_next pub_next_complete _ _ _ _ _ P1 P) as [-> _]. reflexivity.
Qed.

Section System.
Variable own : Z * Z -> bool.
Definition CS (a : sys * (nat -> Z -> list cmd) * (Z -> list (list Z))) : Prop :=
  let '(y, q, h) := a in sys_reached own y /\
  (forall s, exists x0 ops, fresh_sub x0 /\ ohist true x0 ops (sy_sub y s) (sy_slog y s) (q s)) /\
  (exists x0 ops, fresh_ctx x0 /\ hhist x0 ops (sy_pub y) (sy_g y) (sy_plog y) (sy_rcv y) h).
Lemma csys_CS a : csys_reached own a -> CS a.
Proof.
  induction 1 as [y I|a b _ IH St].
  - split; [apply sr_init; exact I|]. destruct I as (F & Eg & El & Er & Fs & Es & _ & _). split.
    + intros s. exists (sy_sub y s), []. split; [apply Fs|]. rewrite Es. constructor.
    + exists (sy_pub y), []. split; [exact F|]. rewrite Eg, El, Er. constructor.
  - destruct St as [y q h o code x' evs H1 H2 H3 E St|y q h s o code x' evs H1 H2 H3 E St|y q h s i k y' St]; destruct IH as (R & Hs & x0 & ops & F & Hh).
    + split; [eapply sr_step; eassumption|]. split; [exact Hs|]. exists x0, (ops ++ [o]). split; [exact F|]. econstructor; eassumption.
    + split; [eapply sr_step; eassumption|]. split; [|exists x0, ops; auto]. intros u. cbn [sub_next_sys sy_sub sy_slog]. unfold supd.
      destruct (Nat.eqb_spec u s) as [->|N]; [|exact (Hs u)]. destruct (Hs s) as (z0 & zops & Fz & Hz). exists z0, (zops ++ [o]). split; [exact Fz|].
      econstructor; try eassumption. intros _. exact H2.
    + split; [eapply sr_step; eassumption|]. split; [exact Hs|]. exists x0, ops. auto.
Qed.
(** On a connection between a subscriber and the publisher, whatever the network does: what the
    publisher has taken in is an initial part of what the subscriber was given to send.  The
    callback was called with the messages of that part, each once and in order, and the
    acknowledgements of that part, and no others, were processed. *)
Theorem c93_in_order_partial : forall y q h s i k c, csys_reached own (y, q, h) -> good_ids (sy_slog y s) ->
  In (s, i, k) (sy_links y) -> sconnected (sy_sub y s) i c ->
  exists cmds, prefix cmds (q s i) /\ messages cmds = h k /\ acks_in cmds = s_acks (since_open k (sy_plog y)) /\
    exists r, parses for_pub (sy_rcv y k) cmds r.
Proof.
  intros y q h s i k c R Gd Hl Hc. apply csys_CS in R. destruct R as (R & Hs & x0 & ops & F & Hh). pose proof (reached_SysI own y R) as I.
  destruct (si_link _ _ I s i k Hl) as ((pc & Ps & Pm) & _ & [w Ew]).
  destruct (preached_PRI _ _ _ _ (si_pub _ _ I) k pc Ps Pm) as [_ _ _ (cmds & P & Ea)].
  exists cmds. split; [|split; [|split; [exact Ea|exists (contents (c_rbuf pc)); exact P]]].
  2:{ symmetry. apply (c93_heard x0 ops _ _ _ _ h k cmds (contents (c_rbuf pc)) F Hh); [exists pc; auto|exact P]. }
  destruct (Hs s) as (z0 & zops & Fz & Hz). pose proof (c93_stream _ _ _ _ _ _ i c Fz Hz Hc) as Es.
  destruct (c73_wire true _ _ i c (si_sub _ _ I s) Gd Hc) as (all & Fa & _ & Eacks).
  pose proof (QI_good _ _ i all (ohist_QI _ _ _ _ _ _ Hz) Fa Eacks) as Fq.
  destruct P as (E & Fc & _). rewrite Ew, E in Es. rewrite <- !app_assoc in Es.
  destruct (acks_prefix cmds (q s i) _ _ Fc Fq Es) as (more & ->). exists more. reflexivity.
Qed.
Theorem c93_prefix_partial : forall y q h s i k c, csys_reached own (y, q, h) -> good_ids (sy_slog y s) ->
  In (s, i, k) (sy_links y) -> sconnected (sy_sub y s) i c -> prefix (h k) (messages (q s i)).
Proof.
  intros y q h s i k c R Gd Hl Hc. destruct (c93_in_order_partial y q h s i k c R Gd Hl Hc) as (cmds & [more ->] & <- & _).
  exists (messages more). unfold messages. apply flat_map_app.
Qed.
(** When the subscriber has nothing left to put on the socket and everything it put there has
    arrived, every message has reached the callback. *)
Theorem c93_all_partial : forall y q h s i k c, csys_reached own (y, q, h) -> good_ids (sy_slog y s) ->
  In (s, i, k) (sy_links y) -> sconnected (sy_sub y s) i c ->
  contents (c_wbuf c) = [] -> sy_rcv y k = ts_sent (ts_open i (sy_slog y s)) -> h k = messages (q s i).
Proof.
  intros y q h s i k c R Gd Hl Hc Hw Hr. destruct (c93_in_order_partial y q h s i k c R Gd Hl Hc) as (cmds & [more Eq] & <- & _ & r & P).
  apply csys_CS in R. destruct R as (R & Hs & _). destruct (Hs s) as (z0 & zops & Fz & Hz). pose proof (c93_stream _ _ _ _ _ _ i c Fz Hz Hc) as Es.
  pose proof (reached_SysI own y R) as I. destruct (c73_wire true _ _ i c (si_sub _ _ I s) Gd Hc) as (all & Fa & _ & Eacks).
  pose proof (QI_good _ _ i all (ohist_QI _ _ _ _ _ _ Hz) Fa Eacks) as Fq. rewrite Hw, app_nil_r, <- Hr in Es. destruct P as (E & _ & N).
  rewrite Eq in Es, Fq. rewrite E, flat_map_app in Es. apply app_inv_head in Es. destruct more as [|m more]; [rewrite Eq, app_nil_r; reflexivity|].
  exfalso. apply Forall_app in Fq. destruct Fq as [_ Fq]. apply Forall_cons_iff in Fq. destruct Fq as [[Fq1 Fq2] _]. cbn [flat_map] in Es. exact (N m _ Fq1 Fq2 Es).
Qed.

(** ** Running the system *)
Definition writegoodb (x : sctx) (o : yop) : bool :=
  match message x o with
  | Some (i, p) => match slot (t_vec x) i with
      | Ok c => negb (c_mode c =? CONNECTED) || (circ_buf_available (c_wbuf c) <? 4 + zlen p) ||
          (cb_stop (c_wbuf c) <? RMC_MAX_PACKET) && ((cb_stop (c_wbuf c) + 3 + zlen p <=? RMC_MAX_PACKET) || (RMC_MAX_PACKET <? cb_stop (c_wbuf c) + 3))
      | _ => true end
  | None => true
  end.
Lemma writegoodb_ok x o : writegoodb x o = true -> write_good x o.
Proof.
  unfold writegoodb. intros H i p c Em [Hs Hm] Hf. rewrite Em, Hs in H. cbv zeta.
  apply orb_prop in H. destruct H as [H|H]; [apply orb_prop in H; destruct H as [H|H]; [rewrite Hm in H; discriminate H|apply Z.ltb_lt in H; lia]|].
  apply andb_prop in H. destruct H as [H1 H2]. apply Z.ltb_lt in H1. split; [exact H1|]. apply orb_prop in H2. destruct H2 as [H2|H2]; [left; apply Z.leb_le; exact H2|right; apply Z.ltb_lt; exact H2].
Qed.
Definition listenb (x : pctx) (o : xop) : bool := match o with XRead _ (RdTcp _) => match x_ccb x with FpSet => true | _ => false end | _ => true end.
Lemma listenb_ok x o : listenb x o = true -> listening x o.
Proof. destruct o as [| | |? []| | | | | | | |]; cbn; auto. destruct (x_ccb x); intros H; try discriminate H; reflexivity. Qed.
Definition csysstepb (a : sys * (nat -> Z -> list cmd) * (Z -> list (list Z))) (o : sysop) : option (sys * (nat -> Z -> list cmd) * (Z -> list (list Z))) :=
  let '(y, q, h) := a in
  match sysstepb own y o with
  | Some y' =>
      match o with
      | Pb o => match xstep (sy_pub y) o with Ok (_, _, evs) => if listenb (sy_pub y) o then Some (y', q, heard_next h o evs) else None | _ => None end
      | Sb s o => match ystep (sy_sub y s) o with Ok (code, _, evs) => if writegoodb (sy_sub y s) o then Some (y', supd q s (outq_next (q s) (sy_sub y s) o code evs), h) else None | _ => None end
      | Lk _ _ _ => Some (y', q, h)
      end
  | None => None
  end.
Lemma csysstepb_ok a o b : csysstepb a o = Some b -> csys_step own a b.
Proof.
  destruct a as [[y q] h]. unfold csysstepb. destruct (sysstepb own y o) as [y'|] eqn:Es; [|discriminate]. pose proof (sysstepb_ok own y o y' Es) as St.
  destruct o as [o|s o|s i k]; cbn [sysstepb] in Es.
  - destruct (xokb _ _ _ && _) eqn:Ek; [|discriminate]. apply andb_prop in Ek. destruct Ek as [Ek Eg].
    destruct (xstep _ _) as [[[code x'] evs]| | |] eqn:Ex; [|discriminate..]. destruct (forallb _ _); [|discriminate]. injection Es as <-.
    destruct (listenb _ _) eqn:El; [|discriminate]. intros E. injection E as <-. apply (cy_publisher own y q h o code x' evs); auto; [apply xokb_ok|apply pgoodb_ok|apply listenb_ok]; assumption.
  - destruct (yokb _ _ _ && _) eqn:Ek; [|discriminate]. apply andb_prop in Ek. destruct Ek as [Ek Eg].
    destruct (ystep _ _) as [[[code x'] evs]| | |] eqn:Ex; [|discriminate..]. destruct (_ && _); [|discriminate]. injection Es as <-.
    destruct (writegoodb _ _) eqn:El; [|discriminate]. intros E. injection E as <-. apply (cy_subscriber own y q h s o code x' evs); auto; [apply yokb_ok|apply rgoodb_ok|apply writegoodb_ok]; assumption.
  - destruct (_ && _) in Es; [|discriminate]. injection Es as <-. intros E. injection E as <-. exact (cy_link own y q h s i k St).
Qed.
Fixpoint csysrun a (ops : list sysop) := match ops with [] => Some a | o :: ops => match csysstepb a o with Some b => csysrun b ops | None => None end end.
Lemma csysrun_reached : forall ops a b, csys_reached own a -> csysrun a ops = Some b -> csys_reached own b.
Proof.
  induction ops as [|o ops IH]; intros a b R; cbn [csysrun]; [intros E; injection E as <-; exact R|]. destruct (csysstepb a o) as [a1|] eqn:E1; [|discriminate].
  apply IH. eapply cr_step; [exact R|apply (csysstepb_ok _ o); exact E1].
Qed.
End System.
Lemma csys0 : csys_reached own77 (sys0, (fun _ _ => []), (fun _ => [])).
Proof.
  apply cr_init. unfold sys_init, sys0. cbn [sy_pub sy_g sy_plog sy_rcv sy_sub sy_slog sy_links sy_down]. split; [exact demo0_fresh|].
  do 3 (split; [reflexivity|]). split; [intros _; exact sdemo0_fresh|]. auto.
Qed.
(** Two messages around an acknowledgement, by index and by address.  The bytes arrive in two
    pieces; the second message is cut in two.  A third message waits. *)
Definition said : list cmd := [CmdCtrl [7; 8; 9]; CmdAck 1 1; CmdCtrl [4; 5]; CmdCtrl [6]].
Definition ctrl_ops : list sysop :=
  sys_start ++ join ++ Pb (XSetCtrl true) :: send 100 [10; 11] 1000 ++
  [Sb 0 (mcast_in [data 1 [10; 11] 100 1000 []]); Sb 0 (YCtrl 0 [7; 8; 9] 600); Sb 0 (YTimeout 999999); Sb 0 (YCtrlAddr 77 4711 [4; 5] 700);
   Sb 0 (YWrite 0 (mkSw (CmpOk 0 0) (WOk 28)));
   Pb (XRead 0 (RdTcp (RData (ztake 9 (flat_map wire said)))));
   Pb (XRead 0 (RdTcp (RData (ztake 19 (zdrop 9 (flat_map wire said))))));
   Sb 0 (YCtrl 0 [6] 800)].
Definition ctrl_end : list sysop :=
  [Sb 0 (YWrite 0 (mkSw (CmpOk 0 0) (WOk 100))); Pb (XRead 0 (RdTcp (RData (zdrop 28 (flat_map wire said)))))].

Example c93_witness : exists y q h c, csys_reached own77 (y, q, h) /\ good_ids (sy_slog y 0%nat) /\ In (0%nat, 0, 0) (sy_links y) /\ sconnected (sy_sub y 0%nat) 0 c /\
  q 0%nat 0 = said /\ h 0 = [[7; 8; 9]; [4; 5]] /\ contents (c_wbuf c) <> [].
Proof.
  destruct (csysrun own77 (sys0, (fun _ _ => []), (fun _ => [])) ctrl_ops) as [[[y q] h]|] eqn:E; [|vm_compute in E; discriminate E].
  pose proof (csysrun_reached own77 _ _ _ csys0 E) as R.
  assert (T : match csysrun own77 (sys0, (fun _ _ => []), (fun _ => [])) ctrl_ops with
    | Some (y, q, h) => goodidsb (sy_slog y 0%nat) && (match peer (sy_links y) 0 0 with Some j => j =? 0 | None => false end) &&
        match slot (t_vec (sy_sub y 0%nat)) 0 with Ok c => (c_mode c =? CONNECTED) && negb (zlen (contents (c_wbuf c)) =? 0) | _ => false end = true /\ q 0%nat 0 = said /\ h 0 = [[7; 8; 9]; [4; 5]]
    | None => False end) by (vm_compute; auto).
  rewrite E in T. destruct T as (T1 & T2 & T3). apply andb_prop in T1. destruct T1 as [T1 T4]. apply andb_prop in T1. destruct T1 as [T1 T5].
  destruct (slot (t_vec (sy_sub y 0%nat)) 0) as [c| | |] eqn:Ec; try discriminate T4. apply andb_prop in T4. destruct T4 as [T4 T6].
  exists y, q, h, c. split; [exact R|]. split; [apply goodidsb_ok; exact T1|]. split; [|split; [split; [exact Ec|lia]|]].
  - destruct (peer _ _ _) as [j|] eqn:Ep; [|discriminate]. apply SysProofs.peer_some in Ep. replace j with 0 in Ep by lia. exact Ep.
  - split; [exact T2|]. split; [exact T3|]. intros N. rewrite N in T6. discriminate T6.
Qed.
Example c93_all_witness : exists y q h c, csys_reached own77 (y, q, h) /\ good_ids (sy_slog y 0%nat) /\ In (0%nat, 0, 0) (sy_links y) /\ sconnected (sy_sub y 0%nat) 0 c /\
  contents (c_wbuf c) = [] /\ sy_rcv y 0 = ts_sent (ts_open 0 (sy_slog y 0%nat)) /\ h 0 = [[7; 8; 9]; [4; 5]; [6]].
Proof.
  destruct (csysrun own77 (sys0, (fun _ _ => []), (fun _ => [])) (ctrl_ops ++ ctrl_end)) as [[[y q] h]|] eqn:E; [|vm_compute in E; discriminate E].
  pose proof (csysrun_reached own77 _ _ _ csys0 E) as R.
  assert (T : match csysrun own77 (sys0, (fun _ _ => []), (fun _ => [])) (ctrl_ops ++ ctrl_end) with
    | Some (y, q, h) => goodidsb (sy_slog y 0%nat) && (match peer (sy_links y) 0 0 with Some j => j =? 0 | None => false end) &&
        match slot (t_vec (sy_sub y 0%nat)) 0 with Ok c => (c_mode c =? CONNECTED) && listb (contents (c_wbuf c)) [] | _ => false end = true /\ sy_rcv y 0 = ts_sent (ts_open 0 (sy_slog y 0%nat)) /\ h 0 = [[7; 8; 9]; [4; 5]; [6]]
    | None => False end) by (vm_compute; auto).
  rewrite E in T. destruct T as (T1 & T2 & T3). apply andb_prop in T1. destruct T1 as [T1 T4]. apply andb_prop in T1. destruct T1 as [T1 T5].
  destruct (slot (t_vec (sy_sub y 0%nat)) 0) as [c| | |] eqn:Ec; try discriminate T4. apply andb_prop in T4. destruct T4 as [T4 T6].
  exists y, q, h, c. split; [exact R|]. split; [apply goodidsb_ok; exact T1|]. split; [|split; [split; [exact Ec|lia]|]].
  - destruct (peer _ _ _) as [j|] eqn:Ep; [|discriminate]. apply SysProofs.peer_some in Ep. replace j with 0 in Ep by lia. exact Ep.
  - split; [apply listb_eq; exact T6|]. auto.
Qed.
(** Without the conditions on the rings this is false: a message of eight bytes that reaches over
    the end of the send ring is accepted and its last four bytes are replaced by part of an address. *)
Definition eight : list Z := [1; 2; 3; 4; 5; 6; 7; 8].
Definition over_ops : list yop := c77_sops1 ++ [YCtrl 0 (repeat 8 530) 4096].
Definition c93_bad (r : option (sctx * list sev)) : bool :=
  match r with
  | Some (x, _) => match slot (t_vec x) 0, rmc_sub_write_control_message x 0 eight 4096 with
      | Ok c, Ok (code, x', _) => (c_mode c =? CONNECTED) && (code =? 0) &&
          match slot (t_vec x') 0 with Ok c' => negb (listb (contents (c_wbuf c')) (contents (c_wbuf c) ++ wire (CmdCtrl eight))) | _ => false end
      | _, _ => false end
  | None => false
  end.
Theorem c93_refuted : exists x log c x' evs c', yhist true sdemo0 over_ops x log /\ sconnected x 0 c /\
  ystep x (YCtrl 0 eight 4096) = Ok (0, x', evs) /\ slot (t_vec x') 0 = Ok c' /\
  contents (c_wbuf c') <> contents (c_wbuf c) ++ wire (CmdCtrl eight).
Proof.
  assert (A : forall r, c93_bad r = true -> (forall x log, r = Some (x, log) -> yhist true sdemo0 over_ops x log) -> exists x log c x' evs c', yhist true sdemo0 over_ops x log /\ sconnected x 0 c /\
    ystep x (YCtrl 0 eight 4096) = Ok (0, x', evs) /\ slot (t_vec x') 0 = Ok c' /\ contents (c_wbuf c') <> contents (c_wbuf c) ++ wire (CmdCtrl eight)).
  { intros r C H. destruct r as [[x log]|]; [|discriminate C]. specialize (H x log eq_refl). unfold c93_bad in C. cbn [ystep].
    destruct (slot (t_vec x) 0) as [c| | |] eqn:Es; try discriminate C. destruct (rmc_sub_write_control_message x 0 eight 4096) as [[[code x'] evs]| | |] eqn:Ew; try discriminate C.
    destruct (slot (t_vec x') 0) as [c'| | |] eqn:Es'; try (rewrite andb_false_r in C; discriminate C). apply andb_prop in C. destruct C as [C C3]. apply andb_prop in C. destruct C as [C1 C2].
    exists x, log, c, x', evs, c'. split; [exact H|]. split; [split; [exact Es|lia]|]. split; [change (ystep x (YCtrl 0 eight 4096)) with (rmc_sub_write_control_message x 0 eight 4096); rewrite Ew; replace code with 0 by lia; reflexivity|]. split; [exact Es'|].
    intros E. rewrite E in C3. unfold listb in C3. destruct (list_eq_dec _ _ _) as [_|N]; [discriminate C3|contradiction]. }
  apply (A (yrun sdemo0 [] over_ops)); [vm_cast_no_check (@eq_refl bool true)|].
  intros x log E. exact (yrun_hist true sdemo0 _ sdemo0 [] [] x log (yh_nil _ _) E).
Qed.
Print Assumptions c93_refuted.
Print Assumptions c93_stream.
Print Assumptions c93_heard.
Print Assumptions c93_in_order_partial.
Print Assumptions c93_prefix_partial.
Print Assumptions c93_all_partial.
