(** ProtoRead.v — what one read of the control channel does, whether or not the effects of the
    commands succeed. *)
From Verif Require Import Base CircBuf CircBufProofs Wire Proto SpecProto ProtoProofs.

(** The failure of [m], if it fails. *)
Definition failed {A B} (m : res A) : option (res B) :=
  match m with Ok _ => None | UB u => Some (UB u) | Abort => Some Abort | Hang => Some Hang end.

Lemma first_byte rb prev : cb_wf rb -> contents rb <> [] -> read_cmd rb prev = Ok (0, hd 0 (contents rb)).
Proof.
  intros H Hne. unfold read_cmd. rewrite read_spec by (auto; unfold is_u32; lia). cbn [bind fst snd].
  destruct (contents rb) as [|b r]; [contradiction|]. reflexivity.
Qed.
Section Total.
Context {St : Type}.
Variables (dispatch : Z -> option (St -> cbuf -> res (Z * St * cbuf))) (eff : St -> cmd -> res St)
          (allowed : cmd -> Prop) (next : list Z -> nres) (cb : bool).
Hypothesis next_sound : forall s c rest, bytes_ok s -> next s = NCmd c rest -> s = wire c ++ rest /\ cmd_ok c /\ allowed c.
Hypothesis next_complete : forall c rest, cmd_ok c -> allowed c -> next (wire c ++ rest) = NCmd c rest.
Hypothesis handler_cmd : forall st rb c rest, cb_wf rb -> bytes_ok (contents rb) -> next (contents rb) = NCmd c rest ->
  (cb = true -> ctrl_ok (cb_size rb) (cb_start rb) c) ->
  exists h rb', dispatch (hd 0 (contents rb)) = Some h /\
    h st rb = (do st' <- eff st c; Ok (0, st', rb')) /\
    cb_wf rb' /\ cb_size rb' = cb_size rb /\ contents rb' = rest /\
    cb_start rb' = next_pos (cb_size rb) (cb_start rb) (zlen (wire c)) rest.
Hypothesis handler_more : forall st rb, cb_wf rb -> bytes_ok (contents rb) -> contents rb <> [] -> next (contents rb) = NMore ->
  exists h, dispatch (hd 0 (contents rb)) = Some h /\ h st rb = Ok (EAGAIN, st, rb).
Hypothesis handler_bad : forall rb, next (contents rb) = NBad -> dispatch (hd 0 (contents rb)) = None.

Lemma loop_fail : forall cmds n st rb prev r e,
  (length cmds <= n)%nat -> cb_wf rb -> bytes_ok (contents rb) -> contents rb <> [] ->
  parses allowed (contents rb) cmds r -> (cb = true -> ctrls_ok (cb_size rb) (cb_start rb) cmds) ->
  failed (run_cmds eff st cmds) = Some e -> iter_nat n (read_round dispatch) (st, rb, prev) = inr e.
Proof.
  induction cmds as [|c cmds IH]; intros n st rb prev r e Hn Hw Hb Hne Hp Hc He; [discriminate He|].
  destruct n as [|n]; [cbn in Hn; lia|]. cbn [iter_nat]. unfold read_round at 1. rewrite (first_byte rb prev Hw Hne).
  change (negb (0 =? 0)) with false. cbv iota.
  destruct (parses_cons _ _ _ _ _ Hp) as (rest & E & A & B & Hp2).
  assert (En : next (contents rb) = NCmd c rest) by (rewrite E; apply next_complete; assumption).
  destruct (handler_cmd st rb c rest Hw Hb En) as (h & rb1 & Hd & Hh & Hw1 & Hz1 & Hc1 & Hs1).
  { intros Hcb. apply Hc in Hcb. cbn [ctrls_ok] in Hcb. tauto. }
  rewrite Hd, Hh. cbn [run_cmds] in He. destruct (eff st c) as [st1|u| |]; cbn [bind] in *; try (cbn [failed] in He; injection He as <-; reflexivity).
  change (negb (0 =? 0)) with false. cbv iota. rewrite <- (contents_len rb1) by assumption. rewrite Hc1.
  assert (Hsz : 0 < cb_size rb) by (unfold cb_wf in Hw; lia).
  destruct (zlen rest =? 0) eqn:Ez.
  - exfalso. apply Z.eqb_eq in Ez. apply zlen_zero in Ez. rewrite Ez in *. assert (cmds = []).
    { destruct Hp2 as (E2 & _). symmetry in E2. apply app_eq_nil in E2. destruct E2 as (E2 & _).
      destruct cmds as [|d cmds]; [reflexivity|]. cbn [flat_map] in E2. pose proof (wire_len d) as W.
      apply app_eq_nil in E2. destruct E2 as (E2 & _). rewrite E2 in W. change (zlen (@nil Z)) with 0 in W. lia. }
    subst cmds. discriminate He.
  - assert (Hrne : rest <> []) by (intros ->; change (zlen (@nil Z)) with 0 in Ez; discriminate Ez).
    assert (Hs1' : cb_start rb1 = (cb_start rb + zlen (wire c)) mod cb_size rb) by (rewrite Hs1; destruct rest; [contradiction|reflexivity]).
    apply (IH n st1 rb1 (hd 0 (contents rb)) r e); auto.
    + cbn [length] in Hn. lia.
    + rewrite Hc1. rewrite E in Hb. apply Forall_app in Hb. tauto.
    + rewrite Hc1. exact Hrne.
    + rewrite Hc1. exact Hp2.
    + intros Hcb. apply Hc in Hcb. cbn [ctrls_ok] in Hcb. rewrite Hz1, Hs1'. tauto.
Qed.

(** One read: the commands it completes take effect in order; if one of the effects fails, so
    does the read. *)
Lemma tcp_read_total st rb bs cmds r : cb_wf rb -> bytes_ok (contents rb) -> bytes_ok bs -> bs <> [] ->
  circ_buf_available rb <> 0 -> let c := ztake (circ_buf_available rb) bs in
  read_ok (cb_size rb) (cb_start rb) (circ_buf_in_use rb + zlen c) ->
  parses allowed (contents rb ++ c) cmds r -> (cb = true -> ctrls_ok (cb_size rb) (cb_start rb) cmds) ->
  match run_cmds eff st cmds with
  | Ok st' => exists rb', tcp_read dispatch st rb (RData bs) = Ok (mkR (left_code next r) (left_op next r) st' rb') /\
      cb_wf rb' /\ cb_size rb' = cb_size rb /\ contents rb' = r /\ (r = [] -> cb_start rb' = 0)
  | UB u => tcp_read dispatch st rb (RData bs) = UB u
  | Abort => tcp_read dispatch st rb (RData bs) = Abort
  | Hang => tcp_read dispatch st rb (RData bs) = Hang
  end.
Proof.
  intros Hw Hb Hbs Hne Ha c Hro Hp Hc.
  assert (Av : 0 < circ_buf_available rb) by (pose proof (available_val rb Hw); pose proof (in_use_bounds rb Hw); lia).
  assert (Hcb : bytes_ok c). { unfold c, bytes_ok, ztake in *. rewrite Forall_forall in *. intros y Hy. apply Hbs. rewrite <- (firstn_skipn (Z.to_nat (circ_buf_available rb)) bs). apply in_or_app. left. exact Hy. }
  assert (Lc : zlen c = Z.min (circ_buf_available rb) (zlen bs)).
  { unfold c, ztake, zlen. rewrite firstn_length. lia. }
  assert (Lb : 0 < zlen bs) by (destruct bs; [contradiction|rewrite zlen_cons; pose proof (zlen_nonneg bs); lia]).
  assert (Hcne : c <> []) by (intros E; rewrite E in Lc; change (zlen (@nil Z)) with 0 in Lc; lia).
  assert (Ef : tcp_read dispatch st rb (RData bs) = tcp_read dispatch st rb (RData c)).
  { unfold tcp_read. f_equal. unfold tcp_fill. destruct (circ_buf_available rb =? 0); [reflexivity|].
    destruct (circ_buf_alloc rb (circ_buf_available rb)) as [?|[rb1 s]]; [reflexivity|].
    assert (Et : ztake (circ_buf_available rb) c = c) by (apply ztake_all; lia).
    destruct bs as [|b0 bs0]; [contradiction|]. destruct c as [|c0 c1] eqn:Ec; [contradiction|]. rewrite Et. unfold c in Ec. rewrite Ec. reflexivity. }
  rewrite Ef. pose proof (contents_len rb Hw) as Cl. pose proof (available_val rb Hw) as Avv.
  destruct (run_cmds eff st cmds) as [st'|u| |] eqn:Er.
  - destruct (tcp_read_spec dispatch eff allowed next cb next_sound next_complete handler_cmd handler_more handler_bad st rb c cmds r st') as (rb' & E1 & E2 & E3 & E4 & E5); auto.
    + lia.
    + rewrite Cl. exact Hro.
    + exists rb'. split; [exact E1|]. split; [exact E2|]. split; [exact E3|]. split; [exact E4|]. intros ->. exact E5.
  - unfold tcp_read. destruct (fill_spec rb c Hw) as (rb1 & E & Hz & Hs & Hgood & _); [lia|lia|]. rewrite E. cbn [bind]. change (0 =? 0) with true. cbv iota.
    destruct (Hgood Hro) as (Hw1 & Hc1). unfold process_tcp_read. rewrite iterate_nat.
    rewrite (loop_fail cmds _ st rb1 0 r (UB u)); auto; rewrite ?Hc1, ?Hz, ?Hs; auto.
    + pose proof (parses_len _ _ _ _ Hp) as (L1 & L2). pose proof (zlen_nonneg r). rewrite zlen_app in L1. pose proof (in_use_bounds rb Hw). unfold cb_wf, cb_max in Hw. unfold zlen in *. lia.
    + apply Forall_app. auto.
    + intros A. apply app_eq_nil in A. tauto.
    + rewrite Er. reflexivity.
  - unfold tcp_read. destruct (fill_spec rb c Hw) as (rb1 & E & Hz & Hs & Hgood & _); [lia|lia|]. rewrite E. cbn [bind]. change (0 =? 0) with true. cbv iota.
    destruct (Hgood Hro) as (Hw1 & Hc1). unfold process_tcp_read. rewrite iterate_nat.
    rewrite (loop_fail cmds _ st rb1 0 r Abort); auto; rewrite ?Hc1, ?Hz, ?Hs; auto.
    + pose proof (parses_len _ _ _ _ Hp) as (L1 & L2). pose proof (zlen_nonneg r). rewrite zlen_app in L1. pose proof (in_use_bounds rb Hw). unfold cb_wf, cb_max in Hw. unfold zlen in *. lia.
    + apply Forall_app. auto.
    + intros A. apply app_eq_nil in A. tauto.
    + rewrite Er. reflexivity.
  - unfold tcp_read. destruct (fill_spec rb c Hw) as (rb1 & E & Hz & Hs & Hgood & _); [lia|lia|]. rewrite E. cbn [bind]. change (0 =? 0) with true. cbv iota.
    destruct (Hgood Hro) as (Hw1 & Hc1). unfold process_tcp_read. rewrite iterate_nat.
    rewrite (loop_fail cmds _ st rb1 0 r Hang); auto; rewrite ?Hc1, ?Hz, ?Hs; auto.
    + pose proof (parses_len _ _ _ _ Hp) as (L1 & L2). pose proof (zlen_nonneg r). rewrite zlen_app in L1. pose proof (in_use_bounds rb Hw). unfold cb_wf, cb_max in Hw. unfold zlen in *. lia.
    + apply Forall_app. auto.
    + intros A. apply app_eq_nil in A. tauto.
    + rewrite Er. reflexivity.
Qed.
End Total.

(** No room, or nothing there: the return code says so and the context is not touched. *)
Lemma tcp_read_full {St} (dispatch : Z -> option (St -> cbuf -> res (Z * St * cbuf))) st rb o : circ_buf_available rb = 0 ->
  tcp_read dispatch st rb o = Ok (mkR ENOMEM RMC_ERROR st rb).
Proof. intros E. unfold tcp_read, tcp_fill. rewrite E. reflexivity. Qed.
