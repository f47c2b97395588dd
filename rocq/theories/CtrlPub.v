(** CtrlPub.v — the messages a publisher hands to its callback are those in the bytes it received. *)
From Verif Require Import Base CircBuf CircBufProofs Wire SeqList Pub Proto SpecProto ProtoProofs ProtoRead
  Conn SpecConn ConnProofs PubCtx SpecPubCtx PubCtxProofs PubCtxSteps PropPubCtx PropPubMem SpecPubRecv PubRecv SubCtx SpecSubCtx SpecSys SpecCtrl.

Definition HI (x : pctx) (f : Z -> list Z) (h : Z -> list (list Z)) : Prop :=
  forall j c, slot (x_vec x) j = Ok c -> c_mode c = CONNECTED ->
    exists cmds, parses for_pub (f j) cmds (contents (c_rbuf c)) /\ messages cmds = h j.
Definition bs_of (e : pev) : list (list Z) := match e with PvCtrl _ _ _ bs => [bs] | _ => [] end.
Lemma bs_ctrl evs : flat_map bs_of evs = map snd (flat_map ctrl_ev evs).
Proof. induction evs as [|e evs IH]; [reflexivity|]. cbn [flat_map]. rewrite map_app, <- IH. destruct e; reflexivity. Qed.
Lemma heard_read i t evs : heard_now (XRead i (RdTcp t)) evs i = flat_map bs_of evs.
Proof. cbn [heard_now]. rewrite Z.eqb_refl. reflexivity. Qed.
Lemma parses_nothing rb : rnew rb -> parses for_pub [] [] (contents rb).
Proof. intros H. destruct (pc_cmds _ _ _ (PC_new rb H)) as (cmds & P & Ea). pose proof (parses_len _ _ _ _ P) as [L1 L2]. destruct cmds; [exact P|].
  exfalso. change (zlen (@nil Z)) with 0 in L1. rewrite zlen_cons in L2. pose proof (zlen_nonneg cmds). pose proof (zlen_nonneg (contents rb)). lia. Qed.

Lemma frame_HI x x' f h o evs j c' : HI x f h -> pframe (preads o) x x' evs -> preads o <> Some j ->
  slot (x_vec x') j = Ok c' -> c_mode c' = CONNECTED ->
  exists cmds, parses for_pub (rcv_next f x o evs j) cmds (contents (c_rbuf c')) /\ messages cmds = heard_next h o evs j.
Proof.
  intros P F Hr Hs Hm. destruct (F j c' Hs Hm Hr) as [(c & H1 & H2 & H3 & H4)|(H1 & e1 & d & a & e2 & -> & H2)].
  - unfold rcv_next, heard_next. rewrite (pq_opens j evs H4), H3.
    assert (Et : taken x o j = [] /\ heard_now o evs j = []).
    { destruct o as [| | |i [|? |[|bs]]| | | | | | | |]; try (split; reflexivity); cbn [taken heard_now preads] in *; destruct (Z.eqb_spec i j); try congruence; split; reflexivity. }
    destruct Et as [-> ->]. rewrite !app_nil_r. exact (P j c H1 H2).
  - unfold rcv_next, heard_next. rewrite existsb_app. cbn [existsb opens_at]. rewrite Z.eqb_refl, orb_true_r. exists []. split; [|reflexivity]. apply parses_nothing. exact H1.
Qed.
Lemma read_HI x log f h i t code op x' evs c' : PRI x log f -> HI x f h -> 0 <= i -> pread_good x (XRead i (RdTcp t)) -> x_ccb x = FpSet ->
  rmc_pub_read x i (RdTcp t) = Ok (code, op, x', evs) -> slot (x_vec x') i = Ok c' -> c_mode c' = CONNECTED ->
  exists cmds, parses for_pub (rcv_next f x (XRead i (RdTcp t)) evs i) cmds (contents (c_rbuf c')) /\ messages cmds = heard_next h (XRead i (RdTcp t)) evs i.
Proof.
  intros P H Hi Hg Hcb E Hs' Hm'. pose proof Hg as Hg0. cbn [rmc_pub_read] in E.
  destruct (find_index_cases (x_vec x) i Hi) as [[Ef Hn]|(c & Ef & Hs & Ho)]; rewrite Ef in E; cbn [bind] in E.
  { assert (x' = x) as -> by congruence. destruct (Hn c'). split; [exact Hs'|rewrite Hm'; discriminate]. }
  destruct (Z.eqb_spec (c_mode c) CONNECTED) as [Hm|Hm]; cbn [negb] in E.
  2:{ assert (x' = x) as -> by congruence. congruence. }
  pose proof (P i c Hs Hm) as Pc. pose proof (slot_range _ _ _ Hs) as R.
  destruct (tcp_read _ _ (c_rbuf c) t) as [q| | |] eqn:Et; cbn [bind] in E; [|discriminate E..].
  assert (Hro : match t with RData bs => bs <> [] -> let got := ztake (circ_buf_available (c_rbuf c)) bs in bytes_ok bs /\ read_ok (cb_size (c_rbuf c)) (cb_start (c_rbuf c)) (circ_buf_in_use (c_rbuf c) + zlen got) /\
     (ccb_set x = true -> forall cmds r, parses for_pub (contents (c_rbuf c) ++ got) cmds r -> ctrls_ok (cb_size (c_rbuf c)) (cb_start (c_rbuf c)) cmds) | RErr => True end).
  { destruct t as [|bs]; [exact Logic.I|]. intros Hne. rewrite (pc_size _ _ _ Pc). exact (Hg c Hs Hm Hne). }
  destruct (pub_read_cases _ _ _ _ (c_rbuf c) t q (pc_wf _ _ _ Pc) (pc_left _ _ _ Pc) Hro Et) as [[-> Eav]|[(Ec & Est & Eo)|(bs & cmds & l & Eo & Hne & Pp & Run & Ec & _ & W' & Z' & C')]].
  - cbn [r_st r_code r_op r_buf fst snd] in E. change (ENOMEM =? EPIPE) with false in E. cbv iota in E. set (act := Z.lor _ _) in E. cbn [app] in E.
    assert (x' = set_vec x (put_slot (x_vec x) i (set_action (set_rbuf c (c_rbuf c)) act)) /\ evs = [PvConn (EvMod (c_desc c) i (c_action c) act)]) as [-> ->] by (split; congruence).
    cbn [set_vec x_vec] in Hs'. rewrite slot_put_same in Hs' by exact R. assert (c' = set_action (set_rbuf c (c_rbuf c)) act) as -> by congruence.
    unfold rcv_next, heard_next. rewrite heard_read. cbn [set_action set_rbuf c_rbuf existsb opens_at orb flat_map bs_of app].
    assert (Tk : taken x (XRead i (RdTcp t)) i = []). { cbn [taken]. destruct t as [|bs]; [reflexivity|]. rewrite Z.eqb_refl, Hs, Hm, Eav. reflexivity. }
    rewrite Tk, !app_nil_r. exact (H i c Hs Hm).
  - rewrite Est, Ec in E. cbn [fst snd] in E. change (EPIPE =? EPIPE) with true in E. cbv iota in E.
    set (x1 := set_vec x _) in E. destruct (rmc_pub_close_connection x1 i) as [[[cd x2] e2]| | |] eqn:E2; cbn [bind app] in E; [|discriminate E..].
    assert (x' = x2) as -> by congruence. destruct (close_frame (Some i) x1 i cd x2 e2 Hi E2) as (_ & Cl & _).
    destruct (Cl (set_rbuf c (r_buf q))) as (d & D1 & D2); [|congruence].
    split; [unfold x1; cbn [set_vec x_vec]; apply slot_put_same; exact R|exact Ho].
  - destruct (r_st q) as [x1 e1] eqn:Est. cbn [fst snd] in E. pose proof (PubRecv.left_not_pipe l) as Nl. rewrite <- Ec in Nl. apply Z.eqb_neq in Nl. rewrite Nl in E.
    destruct (run_frame _ _ _ _ _ _ _ Run) as (V1 & more & E1 & M1 & _). cbn [app] in E1. subst e1.
    assert (Fp : Forall (fun c => for_pub c) cmds) by (destruct Pp as (_ & Fp & _); eapply Forall_impl; [|exact Fp]; cbn; tauto).
    pose proof (run_ctrls i c cmds x [] x1 more (ccb_set x) Hs Fp eq_refl Run) as Rc. rewrite Hcb in Rc. cbn [flat_map app] in Rc.
    set (act := Z.lor _ _) in E. set (c1 := set_action (set_rbuf c (r_buf q)) act) in E.
    assert (x' = set_vec x1 (put_slot (x_vec x1) i c1) /\ evs = more ++ [PvConn (EvMod (c_desc c) i (c_action c) act)]) as [-> ->] by (split; congruence).
    cbn [set_vec x_vec] in Hs'. rewrite slot_put_same in Hs' by (rewrite V1; exact R). assert (c' = c1) as -> by congruence. cbn [c1 set_action set_rbuf c_rbuf].
    unfold rcv_next, heard_next. rewrite heard_read, existsb_app. cbn [existsb opens_at orb].
    assert (Ex : existsb (opens_at i) more = false). { clear - M1. induction M1 as [|e l H _ IH]; [reflexivity|]. cbn [existsb]. rewrite IH, (of_read_opens i i e H). reflexivity. }
    rewrite Ex. cbn [orb]. rewrite Eo. cbn [taken]. rewrite Z.eqb_refl, Hs, Hm. change (CONNECTED =? CONNECTED) with true. cbv iota.
    destruct (H i c Hs Hm) as (cmds0 & P0 & A0). exists (cmds0 ++ cmds). rewrite C'. split; [exact (parses_app for_pub _ _ _ _ _ _ P0 Pp)|].
    rewrite bs_ctrl, flat_map_app, Rc. cbn [flat_map ctrl_ev]. rewrite app_nil_r, map_map. cbn [snd]. rewrite map_id.
    unfold messages in *. rewrite flat_map_app, A0. reflexivity.
Qed.
Lemma step_HI x g log f h o code x' evs : XInv false x g log -> PRI x log f -> HI x f h -> xok x g o -> pread_good x o -> listening x o -> xstep x o = Ok (code, x', evs) ->
  HI x' (rcv_next f x o evs) (heard_next h o evs).
Proof.
  intros XV P H Hok Hr Hl E j c' Hs Hm. pose proof (step_pframe x g log f o code x' evs XV P Hok Hr E) as Fr.
  assert (D : preads o = Some j \/ preads o <> Some j).
  { destruct (preads o) as [i|]; [|right; discriminate]. destruct (Z.eq_dec i j) as [->|N]; [auto|right; congruence]. }
  destruct D as [D|D]; [|exact (frame_HI x x' f h o evs j c' H Fr D Hs Hm)].
  destruct o as [| | |i [|? |t]| | | | | | | |]; try discriminate D. cbn [preads] in D. injection D as ->.
  cbn [xstep] in E. destruct (rmc_pub_read x j (RdTcp t)) as [[[[cd op] x1] e1]| | |] eqn:Ed; cbn [bind] in E; [|discriminate E..].
  assert (x' = x1 /\ evs = e1) as [-> ->] by (split; congruence). cbn [xok listening] in *.
  exact (read_HI x log f h j t cd op x1 e1 c' P H ltac:(lia) Hr Hl Ed Hs Hm).
Qed.
Lemma hhist_rhist x0 ops x g log f h : hhist x0 ops x g log f h -> rhist x0 ops x g log f.
Proof. induction 1; econstructor; eassumption. Qed.
Lemma fresh_HI x0 f h : fresh_ctx x0 -> HI x0 f h.
Proof. intros (node & lip & lport & buf & m & -> & _) j c Hs Hm. apply slot_init in Hs. destruct Hs as [_ Hs]. rewrite Hs in Hm. discriminate. Qed.
Lemma hhist_HI x0 ops x g log f h : fresh_ctx x0 -> hhist x0 ops x g log f h -> HI x f h.
Proof.
  intros F H. induction H as [|ops x g log f h o code x' evs Hh IH Hok Hr Hl E]; [apply fresh_HI; exact F|].
  pose proof (hhist_rhist _ _ _ _ _ _ _ Hh) as Hh'.
  assert (XV : XInv false x g log) by (apply (hist_inv_x false x0 ops); [exact F|discriminate|exact (rhist_xhist _ _ _ _ _ _ Hh')]).
  exact (step_HI x g log f h o code x' evs XV (preached_PRI _ _ _ _ (ex_intro _ x0 (ex_intro _ ops (conj F Hh')))) IH Hok Hr Hl E).
Qed.
