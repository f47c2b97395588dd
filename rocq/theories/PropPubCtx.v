(** PropPubCtx.v — theorems about publisher contexts: C11, C38, C41-C47 and more.  They range
    over all states reached by any history of allowed calls and system call results (SpecPubCtx.v). *)
From Coq Require Import Sorting.Permutation Sorting.Sorted.
From Verif Require Import Base CircBuf CircBufProofs Wire ListHeap SeqList Pub SpecPub PubProofs PubTrace PropPub Proto SpecProto ProtoProofs
  Conn SpecConn ConnProofs Safe PubCtx SpecPubCtx PubCtxProofs PubCtxSteps PubCtxOwed.

Lemma reached_inv x g log : reached x g log -> XInv false x g log.
Proof. intros (x0 & ops & F & H). apply (hist_inv_x false x0 ops x g log F); [discriminate|exact H]. Qed.
Lemma reached_step x g log o code x' evs : reached x g log -> xok x g o -> xstep x o = Ok (code, x', evs) -> reached x' (g_next g x o code evs) (log ++ evs).
Proof. intros (x0 & ops & F & H) Hok E. exists x0, (ops ++ [o]). split; [exact F|]. econstructor; eassumption. Qed.

(** ** Concrete histories, for the examples *)
Definition zinb (z : Z) (l : list Z) : bool := existsb (Z.eqb z) l.
Lemma zinb_false z l : zinb z l = false -> ~ In z l.
Proof. intros H Hi. assert (zinb z l = true) by (apply existsb_exists; exists z; split; [exact Hi|apply Z.eqb_refl]). congruence. Qed.
Definition okb_mem (m : Z -> option (list Z)) p : bool := match m p with None => true | Some _ => false end.
Definition xokb (x : pctx) (g : ghost) (o : xop) : bool :=
  match o with
  | XAlloc ptr bs => negb (ptr =? 0) && okb_mem (x_mem x) ptr && forallb (fun b => (0 <=? b) && (b <? 256)) bs
  | XAppFree ptr => negb (zinb ptr (g_lent g)) && negb (zinb ptr (g_pin g))
  | XQueue ptr len announce =>
      (0 <=? len) && (len <? 65536) && (announce || (p_next (x_pub x) <? 18446744073709551615)) &&
      ((ptr =? 0) || (match x_mem x ptr with Some bs => len <=? zlen bs | None => false end &&
                      negb (zinb ptr (g_lent g)) && (announce || negb (zinb ptr (g_pin g)))))
  | XRead i (RdAccept (AccOk d _ nodelay) _) => (0 <=? d) && (nodelay =? 0)
  | XRead _ (RdAccept (AccErr e) _) => negb (e =? 0)
  | XRead i (RdTcp _) => (0 <=? i) && (i <? 65536)
  | XWrite i (WrTcp (WOk n)) => (0 <=? i) && (i <? 65536) && (0 <=? n) && (n <? 4294967296)
  | XWrite i (WrTcp (WErr e)) => (0 <=? i) && (i <? 65536) && negb (e =? 0)
  | XTimeout _ buf o =>
      negb (buf =? 0) && okb_mem (x_mem x) buf &&
      match o with AnnYes _ len => (0 <=? len) && (len <? 65536) | _ => true end
  | XClose i => (0 <=? i) && (i <? 65536)
  | XThrottle s r => (0 <=? s) && (s <? 4294967296) && (0 <=? r) && (r <? 4294967296)
  | XActivate (ActOk m l port) => (0 <=? port) && (port <? 65536)
  | _ => true
  end.
Ltac bool_split := repeat match goal with
  | H : _ && _ = true |- _ => apply andb_prop in H; destruct H
  | H : negb _ = true |- _ => apply negb_true_iff in H
  end.
Lemma xokb_ok x g o : xokb x g o = true -> xok x g o.
Proof.
  destruct o as [ptr bs|ptr|ptr len ann|i [[e|d ad nd] cb|err|t]|i [outs|[n|e]]|now buf o|i|iv now|s r|b|[e ds ea|m l port]|]; cbn [xokb xok]; intros H; bool_split;
    try exact Logic.I; unfold is_u16, is_u32 in *; try (cbn; lia).
  - split; [lia|]. split; [unfold okb_mem in *; destruct (x_mem x ptr); [discriminate|reflexivity]|].
    apply Forall_forall. intros b Hb. match goal with H : forallb _ _ = true |- _ => rewrite forallb_forall in H; specialize (H b Hb) end. unfold is_u8. lia.
  - split; apply zinb_false; assumption.
  - split; [lia|]. split; [intros ->; cbn [orb] in *; lia|]. intros Hp.
    match goal with H : (ptr =? 0) || _ = true |- _ => replace (ptr =? 0) with false in H by lia; cbn [orb] in H end. bool_split.
    split; [destruct (x_mem x ptr) as [bs|]; [|discriminate]; exists bs; split; [reflexivity|lia]|]. split; [apply zinb_false; assumption|].
    intros ->. cbn [orb] in *. bool_split. apply zinb_false. assumption.
  - split; [lia|]. split; [unfold okb_mem in *; destruct (x_mem x buf); [discriminate|reflexivity]|]. destruct o; try exact Logic.I. lia.
Qed.
Fixpoint xrun (x : pctx) (g : ghost) (log : list pev) (ops : list xop) : option (pctx * ghost * list pev) :=
  match ops with
  | [] => Some (x, g, log)
  | o :: rest => if xokb x g o then
      match xstep x o with Ok (code, x', evs) => xrun x' (g_next g x o code evs) (log ++ evs) rest | _ => None end
    else None
  end.
Lemma xrun_hist x0 : forall ops x g log pre y h l, xhist x0 pre x g log -> xrun x g log ops = Some (y, h, l) -> xhist x0 (pre ++ ops) y h l.
Proof.
  induction ops as [|o ops IH]; intros x g log pre y h l H; cbn [xrun]; [intros E; injection E as <- <- <-; rewrite app_nil_r; exact H|].
  destruct (xokb x g o) eqn:Ek; [|discriminate]. destruct (xstep x o) as [[[code x'] evs]| | |] eqn:Es; [|discriminate..]. intros E.
  replace (pre ++ o :: ops) with ((pre ++ [o]) ++ ops) by (rewrite <- app_assoc; reflexivity).
  eapply IH; [|exact E]. econstructor; [exact H|apply xokb_ok; exact Ek|exact Es].
Qed.
Definition xcheck (x0 : pctx) (ops : list xop) (f : pctx -> ghost -> list pev -> bool) : bool :=
  match xrun x0 g_init [] ops with Some (x, g, log) => f x g log | None => false end.
Lemma xcheck_hist x0 ops f : xcheck x0 ops f = true -> exists x g log, xhist x0 ops x g log /\ f x g log = true.
Proof.
  unfold xcheck. destruct (xrun x0 g_init [] ops) as [[[x g] log]|] eqn:E; [|discriminate]. intros H. exists x, g, log.
  split; [|exact H]. exact (xrun_hist x0 ops x0 g_init [] [] x g log (xh_nil x0) E).
Qed.
Definition blank : conn := mkConn 0 0 0 (mkCB 0 0 0 (fun _ => 0)) (mkCB 0 0 0 (fun _ => 0)) 0 0 0.
Definition demo0 : pctx := rmc_pub_init_context 7 0 4711 [blank; blank] (fun _ => None).
Lemma demo0_fresh : fresh_ctx demo0.
Proof.
  exists 7, 0, 4711, [blank; blank], (fun _ => None). unfold is_u32, is_u16, RMC_LISTEN_INDEX.
  split; [reflexivity|]. split; [cbn; lia|]. split; [discriminate|]. lia.
Qed.
(** Two subscribers, two packets multicast, one still queued. *)
Definition demo_ops : list xop :=
  [XActivate (ActOk 3 4 0); XRead RMC_LISTEN_INDEX (RdAccept (AccOk 5 1 0) None); XRead RMC_LISTEN_INDEX (RdAccept (AccOk 6 2 0) (Some true));
   XAlloc 100 [10; 11]; XAlloc 200 [20; 21; 22]; XAlloc 300 [30];
   XQueue 100 2 false; XQueue 200 3 false; XWrite 0 (WrMcast [SndOk 1000; SndOk 2000]); XQueue 300 1 false].

(** ** C11. Size limits *)
Theorem c11_too_long_refused : forall x ptr len announce, ptr <> 0 -> RMC_MAX_PAYLOAD < len ->
  rmc_pub_queue_packet x ptr len announce = Ok (EMSGSIZE, x, []).
Proof.
  intros x ptr len announce H0 H. unfold rmc_pub_queue_packet. replace (ptr =? 0) with false by lia. replace (RMC_MAX_PAYLOAD <? len) with true by lia. reflexivity.
Qed.
(** Only those: in every reachable state a payload that fits is accepted or refused for another reason. *)
Theorem c11_refused_only_when_too_long : forall x g log ptr len announce, reached x g log -> xok x g (XQueue ptr len announce) ->
  exists code x' evs, rmc_pub_queue_packet x ptr len announce = Ok (code, x', evs) /\
    (code = EMSGSIZE <-> ptr <> 0 /\ RMC_MAX_PAYLOAD < len) /\ (code <> 0 -> x' = x /\ evs = []).
Proof.
  intros x g log ptr len announce H Hok. pose proof (step_inv_x false x g log _ (reached_inv _ _ _ H) Hok ltac:(discriminate)) as S. cbn [xstep] in S.
  assert (Q : forall r, rmc_pub_queue_packet x ptr len announce = Ok r -> (fst (fst r) = EMSGSIZE <-> ptr <> 0 /\ RMC_MAX_PAYLOAD < len) /\ (fst (fst r) <> 0 -> snd (fst r) = x /\ snd r = [])).
  { intros r. unfold rmc_pub_queue_packet. destruct (Z.eqb_spec ptr 0); [intros E; injection E as <-; cbn; split; [split; [discriminate|tauto]|auto]|].
    destruct (Z.ltb_spec RMC_MAX_PAYLOAD len); [intros E; injection E as <-; cbn; split; [split; [auto|reflexivity]|auto]|].
    destruct (x_susp x); [intros E; injection E as <-; cbn; split; [split; [discriminate|lia]|auto]|].
    match goal with |- context [bind ?h _] => destruct h as [[[s' pd] nd]| | |] end; cbn [bind]; [|discriminate..].
    intros E. injection E as <-. cbn. split; [split; [discriminate|lia]|congruence]. }
  destruct (queue_inv false x g log ptr len announce (reached_inv _ _ _ H) Hok) as (code & x' & evs & E & _).
  exists code, x', evs. split; [exact E|]. exact (Q _ E).
Qed.
(** Multicasting a queued packet is never refused for its size, and the datagram fits. *)
Theorem c11_multicast_never_refused : forall outs x g log i code op x' evs, reached x g log ->
  rmc_pub_write x i (WrMcast outs) = Ok (code, op, x', evs) -> ~ In (SndErr EMSGSIZE) outs -> ~ In (SndErr 0) outs ->
  code <> EMSGSIZE /\ forall ts d, In (PvCast ts d) evs -> zlen d <= RMC_MAX_PACKET.
Proof.
  intros outs x g log i code op x' evs H E Hne H0. apply reached_inv in H. cbn [rmc_pub_write] in E.
  destruct (process_multicast_write x outs) as [[[cd y] ev]| | |] eqn:Ep; cbn [bind] in E; [|discriminate..]. injection E as <- <- <- <-.
  destruct H as (sp & L & Q & X). destruct (Z.eq_dec (x_mcast x) (-1)) as [Em|Em].
  - assert (forall a o, send_single_multicast_packet x a o = Ok (ENOTCONN, x, [])) as Hs by (intros; unfold send_single_multicast_packet; rewrite Em; reflexivity).
    destruct outs as [|o outs]; cbn [process_multicast_write] in Ep; destruct (pub_next_queued (x_pub x)); rewrite ?Hs in Ep; cbn [bind] in Ep;
      try (injection Ep as <- <- <-); try (change (negb (ENOTCONN =? 0)) with true in Ep; injection Ep as <- <- <-); (split; [discriminate|intros ? ? []]).
  - destruct (mcast_spec false outs x g log sp L Q _ _ _ X Em H0 Ep) as (dn & rest & tss & L' & _ & _ & _ & _ & F & _ & _ & _ & _ & _ & C). split.
    + destruct C as [[-> _]|[(_ & _ & ->)|(_ & e & He & ->)]]; [discriminate..|]. intros ->. apply Hne. exact (nth_error_In _ _ He).
    + intros ts d Hd. assert (Hc : In d (flat_map cast_ev ev)) by (apply in_flat_map; exists (PvCast ts d); split; [exact Hd|left; reflexivity]).
      clear - F Hc. induction F as [|q d' l l' H _ IH]; [destruct Hc|]. destruct Hc as [<-|Hc]; [|exact (IH Hc)]. destruct H as (bs & _ & _ & H). exact H.
Qed.
(** Resending a packet to a subscriber whose TCP ring is empty always finds room. *)
Theorem c11_empty_ring_takes_any_packet : forall x g log i c a code x' evs, reached x g log ->
  slot (x_vec x) i = Ok c -> c_mode c = CONNECTED -> contents (c_wbuf c) = [] -> In a (p_sinf (x_pub x) (Z.to_nat i)) ->
  rmc_pub_resend_packet x i a = Ok (code, x', evs) -> code = 0.
Proof.
  intros x g log i c a code x' evs H Hs Hm Hc Ha E. apply reached_inv in H. destruct H as (sp & L & Q & X).
  destruct (sinf_entry _ _ _ _ _ a (xi_pub _ _ _ _ _ _ _ X) Ha) as (e & He & _).
  assert (Ho : is_open (x_vec x) i c) by (split; [exact Hs|rewrite Hm; discriminate]).
  destruct (resend_ring _ _ _ _ _ _ _ _ _ _ _ _ _ _ X Ho He E) as (_ & _ & _ & [(_ & Hav & _)|(-> & _)]); [exfalso|reflexivity].
  destruct (live_facts _ _ _ _ _ _ _ a e X He) as (_ & _ & Hl & _).
  destruct (vi_ring _ _ (xi_vec _ _ _ _ _ _ _ X) i c Hs) as [Hw Hz].
  rewrite available_val in Hav by exact Hw. rewrite <- contents_len, Hc in Hav by exact Hw. unfold RMC_MAX_PACKET, RMC_MAX_PAYLOAD in *. change (zlen (@nil Z)) with 0 in Hav. lia.
Qed.
Example c11_witness : exists x g log, xhist demo0 demo_ops x g log /\
  rmc_pub_queue_packet x 300 65313 false = Ok (EMSGSIZE, x, []) /\ length (flat_map cast_ev log) = 2%nat.
Proof.
  destruct (xcheck_hist demo0 demo_ops (fun x g log => Nat.eqb (length (flat_map cast_ev log)) 2)) as (x & g & log & H & E); [vm_compute; reflexivity|].
  exists x, g, log. split; [exact H|]. split; [apply c11_too_long_refused; [discriminate|reflexivity]|]. apply Nat.eqb_eq. exact E.
Qed.

(** ** C38. Ack intervals *)
Lemma interval_spec t x g log sp L Q i a b : XI t x g log sp L Q -> 0 <= i -> 0 <= a -> (a <= b -> b <> 18446744073709551615) ->
  exists x' L' evs, ack_interval x i a b = Ok (x', evs) /\
    XI t x' (g_unlend g evs) ((log ++ [PvAck i a b]) ++ evs)
       (mkSpec (sp_next sp) (sp_reg sp) (sp_ann sp) (sp_data sp) (fst (release (Z.to_nat i) (in_range a b) (sp_live sp)))) L' Q /\
    evs = free_evs (snd (release (Z.to_nat i) (in_range a b) (sp_live sp))) /\ same_but_pub x x'.
Proof.
  intros X Hi Ha Hb. unfold ack_interval. replace ((a <=? b) && (b =? 18446744073709551615)) with false by lia.
  destruct (rounds_xi t i (Z.to_nat (b + 1 - a)) x g (log ++ [PvAck i a b]) sp L Q a (XI_ackev _ _ _ _ _ _ _ i a b X) Hi) as (x' & L' & evs & E & X' & Ev & S).
  { intros k Hk. rewrite since_app. cbn [fold_left since_ev]. rewrite Z.eqb_refl. exists a, b. split; [apply in_or_app; right; left; reflexivity|]. lia. }
  pose proof (SSapp_l _ _ _ (i_sort _ _ _ _ (xi_pub _ _ _ _ _ _ _ X))) as SS.
  destruct (acks_spec (Z.to_nat i) (Z.to_nat (b + 1 - a)) a sp SS) as [A1 A2].
  assert (R : forall (A : Type) (f : (list entry * list pl) -> A), f (release (Z.to_nat i) (in_range a (a + Z.of_nat (Z.to_nat (b + 1 - a)) - 1)) (sp_live sp)) = f (release (Z.to_nat i) (in_range a b) (sp_live sp))).
  { intros A f. f_equal. destruct (Z.le_gt_cases a (b + 1)) as [Hle|Hgt].
    - replace (a + Z.of_nat (Z.to_nat (b + 1 - a)) - 1) with b by lia. reflexivity.
    - rewrite !release_none; [reflexivity|intros e _; unfold hit, in_range; lia..]. }
  rewrite A1, (R _ fst) in X'. rewrite A2, (R _ snd) in Ev. exists x', L', evs. auto.
Qed.
Lemma claim_range sp n a b m k ts live' : live' = fst (release n (in_range a b) (sp_live sp)) ->
  claim (mkSpec (sp_next sp) (sp_reg sp) (sp_ann sp) (sp_data sp) live') m k ts <-> claim sp m k ts /\ ~ (m = n /\ a <= k <= b).
Proof.
  intros ->. change (in_range a b) with (fun e => (fun k => (a <=? k) && (k <=? b)) (e_pid e)).
  rewrite (claim_release sp _ n (fun k => (a <=? k) && (k <=? b)) m k ts) by reflexivity. split; intros [H1 H2]; (split; [exact H1|]); intros [H3 H4]; apply H2; (split; [exact H3|lia]).
Qed.

(** The interval [a,b] received from subscriber [i] clears exactly the claims of that
    subscriber on the packets a .. b; the packets nobody else owes leave flight, their
    payloads and no others are released, each once. *)
Theorem c38_interval_exact : forall x g log i a b, reached x g log -> 0 <= i -> is_u64 a -> is_u64 b -> (a <= b -> b <> 18446744073709551615) ->
  exists x' evs, ack_interval x i a b = Ok (x', evs) /\
    (forall j k ts, 0 <= j -> owed x' j k ts <-> owed x j k ts /\ ~ (j = i /\ a <= k <= b)) /\
    (forall k pl, In (k, pl) (flying x') <->
       In (k, pl) (flying x) /\ ~ (owes x i k /\ a <= k <= b /\ forall j, 0 <= j -> owes x j k -> j = i)) /\
    Permutation (map snd (flying x)) (map snd (flying x') ++ flat_map freed_ev evs) /\
    (forall e, In e evs -> exists p l, e = PvFree p l).
Proof.
  intros x g log i a b H Hi Ha Hb Hmax. apply reached_inv in H. destruct H as (sp & L & Q & X).
  destruct (interval_spec _ _ _ _ _ _ _ i a b X Hi (proj1 Ha) Hmax) as (x' & L' & evs & E & X' & Ev & S).
  pose proof (xi_pub _ _ _ _ _ _ _ X) as I. pose proof (xi_pub _ _ _ _ _ _ _ X') as I'. exists x', evs. split; [exact E|].
  assert (Ow : forall j k ts, 0 <= j -> owed x' j k ts <-> owed x j k ts /\ ~ (j = i /\ a <= k <= b)).
  { intros j k ts Hj. rewrite (owed_inv _ _ _ _ _ _ _ I'), (claim_range _ _ _ _ _ _ _ _ eq_refl), <- (owed_inv _ _ _ _ _ _ _ I).
    split; intros [H1 H2]; (split; [exact H1|]); intros [H3 H4]; apply H2; (split; [lia|exact H4]). }
  split; [exact Ow|]. split; [|split].
  - intros k pl. rewrite (flying_inv x _ _ _ I), (flying_inv x' _ _ _ I'), <- !in_rev. cbn [sp_live]. rewrite !in_map_iff.
    assert (OI : forall j k, owes x j k <-> exists ts, claim sp (Z.to_nat j) k ts).
    { intros j k'. rewrite owes_owed. split; intros [ts Ht]; exists ts; apply (owed_inv _ _ _ _ _ _ _ I); exact Ht. }
    split.
    + intros (e & Ee & He). apply release_sub_in in He. destruct He as (f & Hf & Hc).
      assert (Ef : fly f = (k, pl)) by (rewrite <- Ee; destruct Hc as [[_ ->]|(_ & -> & _)]; reflexivity).
      split; [exists f; auto|]. intros (Ho & Hr & Hall). injection Ef as Ek Ep.
      apply OI in Ho. destruct Ho as (ts & f2 & Hf2 & Ek2 & Et2 & Hh2). assert (f2 = f) by (apply (pid_inj _ _ _ _ f2 f I Hf2 Hf); congruence). subst f2.
      destruct Hc as [[Hn ->]|(Hy & -> & Hne)].
      * unfold hit in Hn. apply mem_In in Hh2. rewrite Hh2 in Hn. unfold in_range in Hn. rewrite Ek in Hn. lia.
      * destruct (e_hold (drop_claim (Z.to_nat i) f)) as [|m r] eqn:Ed; [congruence|].
        assert (Hm : In m (e_hold (drop_claim (Z.to_nat i) f))) by (rewrite Ed; left; reflexivity). cbn [drop_claim e_hold] in Hm. apply In_rm in Hm. destruct Hm as [Hm1 Hm2].
        assert (Z.of_nat m = i); [|lia]. apply Hall; [lia|]. apply OI. exists (e_ts f), f. rewrite Nat2Z.id. auto.
    + intros [(f & Ef & Hf) N]. injection Ef as Ek Ep. destruct (hit (Z.to_nat i) (in_range a b) f) eqn:Eh.
      * exists (drop_claim (Z.to_nat i) f). split; [unfold fly; cbn; congruence|]. apply release_drop; [exact Hf|exact Eh|]. intros Hd. apply N.
        unfold hit in Eh. apply andb_prop in Eh. destruct Eh as [E1 E2]. unfold in_range in *.
        assert (Hmem : In (Z.to_nat i) (e_hold f)) by (apply mem_In; first [exact E1|exact E2]).
        split; [apply OI; exists (e_ts f), f; auto|]. split; [rewrite <- Ek; lia|]. intros j Hj Hoj. apply OI in Hoj. destruct Hoj as (ts & f2 & Hf2 & Ek2 & _ & Hh2).
        assert (f2 = f) by (apply (pid_inj _ _ _ _ f2 f I Hf2 Hf); congruence). subst f2.
        destruct (Nat.eq_dec (Z.to_nat j) (Z.to_nat i)) as [|Nj]; [lia|]. assert (Hx : In (Z.to_nat j) (rm (Z.to_nat i) (e_hold f))) by (apply In_rm; auto).
        cbn [drop_claim e_hold] in Hd. rewrite Hd in Hx. destruct Hx.
      * exists f. split; [unfold fly; congruence|]. apply PubTrace.release_keep; assumption.
  - rewrite (flying_inv x _ _ _ I), (flying_inv x' _ _ _ I'), !map_rev. cbn [sp_live]. rewrite <- !Permutation_rev, !map_map. cbn [fly snd].
    rewrite Ev. rewrite (proj1 (free_evs_free _)). symmetry. apply flying_release.
  - rewrite Ev. intros e He. unfold free_evs in He. apply in_map_iff in He. destruct He as (p & <- & _). eauto.
Qed.
(** ... but an interval that ends at the largest id is never done with: the loop variable
    wraps and the call does not return. *)
Theorem c38_termination_refuted : forall x i a b, a <= b -> b = 18446744073709551615 -> ack_interval x i a b = Hang.
Proof. intros x i a b H ->. unfold ack_interval. replace ((a <=? _) && _) with true by lia. reflexivity. Qed.

Definition acks_of (cmds : list cmd) : list (Z * Z) := flat_map (fun c => match c with CmdAck a b => [(a, b)] | _ => [] end) cmds.
Definition ack_ev (i : Z) (e : pev) : list (Z * Z) := match e with PvAck j a b => if j =? i then [(a, b)] else [] | _ => [] end.
Lemma free_evs_noack i fr : flat_map (ack_ev i) (free_evs fr) = [].
Proof. induction fr as [|p fr IH]; [reflexivity|]. cbn. exact IH. Qed.
Lemma run_acks t i cb : forall cmds x1 g log evs1, (exists sp L Q, XI t x1 (g_unlend g evs1) (log ++ evs1) sp L Q) -> 0 <= i ->
  Forall (fun c => cmd_ok c /\ for_pub c) cmds -> (forall a b, In (CmdAck a b) cmds -> a <= b -> b <> 18446744073709551615) ->
  (x_ccb x1 = FpUninit -> forall p, ~ In (CmdCtrl p) cmds) -> (exists c, slot (x_vec x1) i = Ok c) ->
  exists x2 evs2, run_cmds (pub_eff (eff_ack i) cb (eff_ctrl i)) (x1, evs1) cmds = Ok (x2, evs1 ++ evs2) /\
    (exists sp L Q, XI t x2 (g_unlend g (evs1 ++ evs2)) (log ++ evs1 ++ evs2) sp L Q) /\ same_but_pub x1 x2 /\
    (forall j k ts, 0 <= j -> owed x2 j k ts <-> owed x1 j k ts /\ ~ (j = i /\ exists a b, In (CmdAck a b) cmds /\ a <= k <= b)) /\
    Permutation (map snd (flying x1)) (map snd (flying x2) ++ flat_map freed_ev evs2) /\
    flat_map (ack_ev i) evs2 = acks_of cmds.
Proof.
  induction cmds as [|c cmds IH]; intros x1 g log evs1 HX Hi F Hmax Hcb Hsl; cbn [run_cmds].
  - exists x1, []. rewrite app_nil_r. split; [reflexivity|]. split; [exact HX|]. split; [apply sbp_refl|]. cbn [flat_map]. rewrite app_nil_r.
    split; [|auto using Permutation_refl]. intros j k ts _. split; [|tauto]. intros H. split; [exact H|]. intros [_ (a & b & [] & _)].
  - inversion F as [|? ? [F1 F2] F3]; subst. destruct c as [h p|a b|p]; [destruct F2| |]; cbn [pub_eff].
    + destruct HX as (sp & L & Q & X). unfold eff_ack at 1. cbn [fst snd].
      destruct F1 as [Ha Hb]. destruct (interval_spec _ _ _ _ _ _ _ i a b X Hi (proj1 Ha) (Hmax a b (or_introl eq_refl))) as (x' & L' & evs & E & X' & Ev & S).
      rewrite E. cbn [bind fst snd].
      replace (evs1 ++ PvAck i a b :: evs) with ((evs1 ++ [PvAck i a b]) ++ evs) by (rewrite <- app_assoc; reflexivity).
      destruct (IH x' g log ((evs1 ++ [PvAck i a b]) ++ evs)) as (x2 & evs2 & E2 & HX2 & S2 & O2 & P2 & A2).
      { rewrite !g_unlend_app, quiet_unlend_ack, !app_assoc. eexists _, L', Q. exact X'. }
      { exact Hi. } { exact F3. } { intros a' b' H'. exact (Hmax a' b' (or_intror H')). }
      { destruct S as (_ & _ & _ & _ & _ & _ & _ & -> & _). intros U q Hq. exact (Hcb U q (or_intror Hq)). }
      { destruct S as (-> & _). exact Hsl. }
      exists x2, (PvAck i a b :: evs ++ evs2). rewrite E2. 
      replace (((evs1 ++ [PvAck i a b]) ++ evs) ++ evs2) with (evs1 ++ PvAck i a b :: evs ++ evs2) in * by (rewrite <- !app_assoc; reflexivity).
      split; [reflexivity|]. split; [exact HX2|]. split; [exact (sbp_trans _ _ _ S S2)|].
      pose proof (xi_pub _ _ _ _ _ _ _ X) as I. pose proof (xi_pub _ _ _ _ _ _ _ X') as I'. split; [|split].
      * intros j k ts Hj. rewrite (O2 j k ts Hj), (owed_inv _ _ _ _ _ _ _ I'), (claim_range _ _ _ _ _ _ _ _ eq_refl), <- (owed_inv _ _ _ _ _ _ _ I). split.
        -- intros [[H1 H2] H3]. split; [exact H1|]. intros [-> (a' & b' & [He|Hin] & Hr)]; [injection He as <- <-; apply H2; split; [reflexivity|exact Hr]|].
           apply H3. split; [reflexivity|]. eauto.
        -- intros [H1 H2]. split; [split; [exact H1|]|].
           ++ intros [Hj2 Hr]. apply H2. split; [lia|]. exists a, b. split; [left; reflexivity|exact Hr].
           ++ intros [-> (a' & b' & Hin & Hr)]. apply H2. split; [reflexivity|]. exists a', b'. split; [right; exact Hin|exact Hr].
      * cbn [flat_map freed_ev app]. rewrite flat_map_app. 
        assert (P1 : Permutation (map snd (flying x1)) (map snd (flying x') ++ flat_map freed_ev evs)).
        { rewrite (flying_inv x1 _ _ _ I), (flying_inv x' _ _ _ I'), !map_rev. cbn [sp_live]. rewrite <- !Permutation_rev, !map_map. cbn [fly snd].
          rewrite Ev. rewrite (proj1 (free_evs_free _)). symmetry. apply flying_release. }
        rewrite P1, P2, <- app_assoc. apply Permutation_app_head. apply Permutation_app_comm.
      * cbn [flat_map ack_ev]. rewrite Z.eqb_refl, flat_map_app, A2, Ev, free_evs_noack. reflexivity.
    + unfold eff_ctrl at 1. cbn [fst snd]. destruct Hsl as [d Hd].
      assert (Tail : forall ev, Forall plain ev -> (forall j, Forall (quiet j) ev) -> flat_map (ack_ev i) ev = [] ->
        exists x2 evs2, run_cmds (pub_eff (eff_ack i) cb (eff_ctrl i)) (x1, evs1 ++ ev) cmds = Ok (x2, evs1 ++ evs2) /\
          (exists sp L Q, XI t x2 (g_unlend g (evs1 ++ evs2)) (log ++ evs1 ++ evs2) sp L Q) /\ same_but_pub x1 x2 /\
          (forall j k ts, 0 <= j -> owed x2 j k ts <-> owed x1 j k ts /\ ~ (j = i /\ exists a b, In (CmdAck a b) (CmdCtrl p :: cmds) /\ a <= k <= b)) /\
          Permutation (map snd (flying x1)) (map snd (flying x2) ++ flat_map freed_ev evs2) /\
          flat_map (ack_ev i) evs2 = acks_of (CmdCtrl p :: cmds)).
      { intros ev P Qu A. destruct HX as (sp & L & Q & X). destruct (IH x1 g log (evs1 ++ ev)) as (x2 & evs2 & E2 & HX2 & S2 & O2 & P2 & A2).
        { exists sp, L, Q. rewrite g_unlend_app, app_assoc. apply XI_plain; [exact X|exact P|intros; apply Qu]. }
        { exact Hi. } { exact F3. } { intros a' b' H'. exact (Hmax a' b' (or_intror H')). }
        { intros U q Hq. exact (Hcb U q (or_intror Hq)). } { eauto. }
        exists x2, (ev ++ evs2). rewrite E2, <- !app_assoc in *. split; [reflexivity|]. split; [exact HX2|]. split; [exact S2|].
        destruct (plain_flat _ P) as (P1 & _). rewrite !flat_map_app, P1, A. split; [|split; [exact P2|exact A2]].
        intros j k ts Hj. rewrite (O2 j k ts Hj). split; intros [H1 H2]; (split; [exact H1|]).
        - intros [-> (a' & b' & [He|Hin] & Hr)]; [discriminate He|]. apply H2. split; [reflexivity|]. eauto.
        - intros [-> (a' & b' & Hin & Hr)]. apply H2. split; [reflexivity|]. exists a', b'. split; [right; exact Hin|exact Hr]. }
      destruct (x_ccb x1) eqn:Ec.
      * destruct (Hcb eq_refl p (or_introl eq_refl)).
      * cbn [bind]. specialize (Tail [] (Forall_nil _) (fun _ => Forall_nil _) eq_refl). rewrite app_nil_r in Tail. exact Tail.
      * rewrite Hd. cbn [bind]. apply Tail; [repeat constructor|intros; repeat constructor|reflexivity].
Qed.
(** Reading: when the bytes received so far and [bs] split into the commands [cmds], exactly
    the packets in the ack intervals among them stop being owed, by this subscriber only, and
    what nobody owes any more is released. *)
Theorem c38_read_exact : forall x g log i c bs cmds r, reached x g log -> 0 <= i < 65536 ->
  slot (x_vec x) i = Ok c -> c_mode c = CONNECTED ->
  cb_wf (c_rbuf c) -> bytes_ok (contents (c_rbuf c)) -> bytes_ok bs -> bs <> [] ->
  zlen (contents (c_rbuf c)) + zlen bs <= cb_size (c_rbuf c) - 1 ->
  read_ok (cb_size (c_rbuf c)) (cb_start (c_rbuf c)) (zlen (contents (c_rbuf c)) + zlen bs) ->
  parses for_pub (contents (c_rbuf c) ++ bs) cmds r -> ctrls_ok (cb_size (c_rbuf c)) (cb_start (c_rbuf c)) cmds ->
  (x_ccb x = FpUninit -> forall p, ~ In (CmdCtrl p) cmds) ->
  (forall a b, In (CmdAck a b) cmds -> a <= b -> b <> 18446744073709551615) ->
  exists code op x' evs, rmc_pub_read x i (RdTcp (RData bs)) = Ok (code, op, x', evs) /\
    (forall j k ts, 0 <= j -> owed x' j k ts <-> owed x j k ts /\ ~ (j = i /\ exists a b, In (CmdAck a b) cmds /\ a <= k <= b)) /\
    Permutation (map snd (flying x)) (map snd (flying x') ++ flat_map freed_ev evs) /\
    flat_map (ack_ev i) evs = acks_of cmds.
Proof.
  intros x g log i c bs cmds r H Hi Hs Hm Hw Hb Hbb Hne Hf Hr Hp Hc Hu Hmax. apply reached_inv in H.
  destruct (run_acks false i (ccb_set x) cmds x g log []) as (x2 & evs2 & E2 & _ & S2 & O2 & P2 & A2).
  { rewrite g_unlend_nil, app_nil_r. exact H. } { lia. } { apply Hp. } { exact Hmax. } { exact Hu. } { eauto. }
  cbn [rmc_pub_read app] in *. destruct (find_index_cases (x_vec x) i (proj1 Hi)) as [[_ N]|(c0 & -> & Ho)]; [destruct (N c); split; [exact Hs|rewrite Hm; discriminate]|].
  assert (c0 = c) by (destruct Ho; congruence). subst c0. cbn [bind]. rewrite Hm. change (negb (CONNECTED =? CONNECTED)) with false. cbv iota.
  destruct (tcp_read_spec (pub_dispatch (eff_ack i) (ccb_set x) (eff_ctrl i)) (pub_eff (eff_ack i) (ccb_set x) (eff_ctrl i)) for_pub pub_next (ccb_set x)
              pub_next_sound pub_next_complete (pub_handler_cmd _ _ _) (pub_handler_more _ _ _) (pub_handler_bad _ _ _)
              (x, []) (c_rbuf c) bs cmds r (x2, evs2)) as (rb' & -> & _ & _ & _ & _); auto.
  cbn [bind r_st r_code r_op r_buf fst snd].
  assert (Nz : left_code pub_next r =? EPIPE = false).
  { unfold left_code. destruct r; [reflexivity|]. destruct (pub_next (z :: r)); reflexivity. }
  rewrite Nz. eexists _, _, _, _. split; [reflexivity|]. cbn [set_vec x_pub]. split; [exact O2|]. rewrite !flat_map_app. cbn [flat_map freed_ev ack_ev app]. rewrite !app_nil_r.
  split; [exact P2|exact A2].
Qed.
(** A connected subscriber can bring the publisher to a halt with one 17 byte message. *)
Theorem c38_remote_hang_refuted : exists x g log, reached x g log /\ connected x 0 /\
  rmc_pub_read x 0 (RdTcp (RData (wire (CmdAck 1 18446744073709551615)))) = Hang.
Proof.
  destruct (xcheck_hist demo0 demo_ops (fun x g log => (match slot (x_vec x) 0 with Ok c => c_mode c =? CONNECTED | _ => false end) &&
     match rmc_pub_read x 0 (RdTcp (RData (wire (CmdAck 1 18446744073709551615)))) with Hang => true | _ => false end)) as (x & g & log & H & E); [vm_compute; reflexivity|].
  apply andb_prop in E. destruct E as [E1 E2]. exists x, g, log. split; [exists demo0, demo_ops; split; [exact demo0_fresh|exact H]|]. split.
  - unfold connected. destruct (slot (x_vec x) 0) as [c| | |]; [|discriminate..]. exists c. split; [reflexivity|lia].
  - destruct (rmc_pub_read _ _ _); [discriminate..|reflexivity].
Qed.
(** In the demo history subscriber 0 acknowledges packet 1: it still owes packet 2, subscriber 1 owes both. *)
Definition owesb (x : pctx) (i k : Z) : bool := zinb k (map (pid_of (x_pub x)) (p_sinf (x_pub x) (Z.to_nat i))).
Example c38_witness : exists x g log x' evs, xhist demo0 demo_ops x g log /\ ack_interval x 0 1 1 = Ok (x', evs) /\ evs = [] /\
  owesb x 0 1 = true /\ owesb x' 0 1 = false /\ owesb x' 0 2 = true /\ owesb x' 1 1 = true /\ owesb x' 1 2 = true.
Proof.
  destruct (xcheck_hist demo0 demo_ops (fun x g log => match ack_interval x 0 1 1 with Ok (x', evs) =>
    match evs with [] => true | _ => false end && owesb x 0 1 && negb (owesb x' 0 1) && owesb x' 0 2 && owesb x' 1 1 && owesb x' 1 2 | _ => false end)) as (x & g & log & H & E); [vm_compute; reflexivity|].
  destruct (ack_interval x 0 1 1) as [[x' evs]| | |] eqn:Ea; [|discriminate E..]. exists x, g, log, x', evs. bool_split. destruct evs; [|discriminate]. auto 10.
Qed.
