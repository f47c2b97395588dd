(** PubCtxSteps.v — every call of the publisher context keeps the invariant of PubCtxProofs.v. *)
From Coq Require Import Sorting.Permutation Sorting.Sorted.
From Verif Require Import Base CircBuf CircBufProofs Wire ListHeap SeqList Pub SpecPub PubProofs Proto SpecProto ProtoProofs
  Conn SpecConn ConnProofs PubTrace Safe PubCtx SpecPubCtx PubCtxProofs.

(** The invariant looks at these fields only. *)
Lemma XI_ext t x x' g log sp L Q : XI t x g log sp L Q -> x_pub x' = x_pub x -> x_vec x' = x_vec x ->
  (forall p, x_mem x' p = x_mem x p) -> x_node x' = x_node x -> x_lip x' = x_lip x -> is_u16 (x_lport x') -> XI t x' g log sp L Q.
Proof.
  intros X E1 E2 E3 E4 E5 E6. destruct X as [X1 X2 X3 X4 X5 X6]. constructor; rewrite ?E1, ?E2, ?E4, ?E5; auto.
  - destruct X3 as [M1 M2 M3 M4 M5 M6 M7 Mb M8]. constructor; try assumption.
    + intros k p H. destruct (M1 k p H) as (H1 & bs & H2 & H3). split; [exact H1|]. exists bs. rewrite E3. auto.
    + intros T p H. destruct (M3 T p H) as [H1|(H1 & bs & H2 & H3)]; [left; exact H1|right]. split; [exact H1|]. exists bs. rewrite E3. auto.
    + intros q H. rewrite E3. auto.
    + intros p bs. rewrite E3. apply M8.
  - destruct X6 as (H1 & H2 & H3). auto.
Qed.

(** ** Queueing *)
Lemma MI_queue t m g sp ptr len bs : MI t m g sp -> 1 <= sp_next sp -> 0 <= len <= RMC_MAX_PAYLOAD -> m ptr = Some bs -> len <= zlen bs ->
  ~ In ptr (g_lent g) -> ~ In ptr (g_pin g) ->
  MI t m (mkG (ptr :: g_lent g) (g_pin g) (g_data g ++ [ztake len bs]) (g_bad g)) (fst (spec_step sp (OpQueue (ptr, len, 0)))).
Proof.
  intros X Hn1 Hl Hm Hlb Nl Np. pose proof (mi_count _ _ _ _ X) as Hc.
  assert (Hp : forall q, In q (map ptr_of (pls (fst (spec_step sp (OpQueue (ptr, len, 0)))))) <-> In q (map ptr_of (pls sp)) \/ q = ptr).
  { intros q. cbn [spec_step fst]. unfold pls. cbn [sp_live sp_data]. rewrite !map_app, !in_app_iff. cbn. unfold ptr_of at 3. cbn. intuition. }
  constructor; cbn [g_lent g_pin g_data].
  - intros k p Hin. cbn [spec_step fst] in Hin. unfold kpls in Hin. cbn [sp_live sp_data] in Hin. rewrite app_assoc in Hin.
    apply in_app_or in Hin. destruct Hin as [Hin|[E|[]]].
    + destruct (mi_data _ _ _ _ X k p Hin) as (H1 & b & H2 & H3 & H4). split; [exact H1|]. exists b. refine (conj H2 (conj H3 _)).
      rewrite nth_error_app1; [exact H4|]. apply nth_error_Some. congruence.
    + injection E as <- <-. unfold len_of, ptr_of. cbn [fst snd]. split; [exact Hl|]. exists bs. refine (conj Hm (conj Hlb _)).
      rewrite nth_error_app2 by (unfold zlen in Hc; lia). replace (Z.to_nat (sp_next sp - 1) - length (g_data g))%nat with 0%nat by (unfold zlen in Hc; lia).
      reflexivity.
  - exact (mi_ann _ _ _ _ X).
  - exact (mi_annok _ _ _ _ X).
  - cbn [spec_step fst]. unfold pls. cbn [sp_live sp_data]. rewrite !map_app, app_assoc. rewrite <- map_app.
    apply NoDup_app_intro; [exact (mi_nd _ _ _ _ X)|repeat constructor; intros []|].
    intros q Hq [E|[]]. apply Nl. apply (mi_lent _ _ _ _ X). unfold ptr_of in E at 1. cbn in E. subst q. exact Hq.
  - intros q. rewrite Hp, <- (mi_lent _ _ _ _ X). cbn. intuition congruence.
  - intros q Hq. destruct (mi_pin _ _ _ _ X q Hq) as [H1 H2]. split; [|exact H2]. intros [<-|H]; [exact (Np Hq)|exact (H1 H)].
  - cbn [spec_step fst sp_next]. rewrite zlen_app, Hc. change (zlen [ztake len bs]) with 1. lia.
  - exact (mi_bad _ _ _ _ X).
  - exact (mi_bytes _ _ _ _ X).
Qed.
Lemma MI_announce t m g sp ptr len pin : MI t m g sp -> 0 <= len <= RMC_MAX_PAYLOAD ->
  (forall q, In q pin -> In q (g_pin g) \/ (q = ptr /\ ~ In ptr (g_lent g) /\ m ptr <> None)) -> incl (g_pin g) pin ->
  (t = true -> len = 0 \/ (In ptr pin /\ exists bs, m ptr = Some bs /\ len <= zlen bs)) ->
  MI t m (mkG (g_lent g) pin (g_data g) (g_bad g)) (fst (spec_step sp (OpAnnounce (ptr, len, 0)))).
Proof.
  intros X Hl Hp Hi Ha.
  constructor; cbn [g_lent g_pin g_data spec_step fst].
  - exact (mi_data _ _ _ _ X).
  - intros p Hin. cbn [sp_ann] in Hin. apply in_app_or in Hin. destruct Hin as [H|[<-|[]]]; [exact (mi_ann _ _ _ _ X p H)|exact Hl].
  - intros T p Hin. cbn [sp_ann] in Hin. apply in_app_or in Hin. destruct Hin as [H|[<-|[]]]; [|exact (Ha T)].
    destruct (mi_annok _ _ _ _ X T p H) as [H1|(H1 & H2)]; [left; exact H1|right; split; [exact (Hi _ H1)|exact H2]].
  - exact (mi_nd _ _ _ _ X).
  - exact (mi_lent _ _ _ _ X).
  - intros q Hq. destruct (Hp q Hq) as [H|(-> & H1 & H2)]; [exact (mi_pin _ _ _ _ X q H)|auto].
  - exact (mi_count _ _ _ _ X).
  - exact (mi_bad _ _ _ _ X).
  - exact (mi_bytes _ _ _ _ X).
Qed.

(** What the lists hold bounds the number of packets in flight; it is what the 32-bit counter says. *)
Definition throttled (x : pctx) (s : pub) : bool := (0 <? x_sthr x) && (x_sthr x <=? pub_unacked_count s).

Lemma csx_queue ex sp n s p cmds : CSX ex sp n s cmds -> CSX ex (fst (spec_step sp (OpQueue p))) n s cmds.
Proof.
  intros (G1 & G2 & G3 & G4). split; [exact G1|split; [exact G2|split; [exact G3|]]]. intros k Hk. destruct (G4 k Hk) as [H1 H2]. cbn [spec_step fst sp_next sp_data].
  split; [lia|]. intros q Hq. apply in_app_or in Hq. destruct Hq as [Hq|[<-|[]]]; [exact (H2 q Hq)|exact H1].
Qed.
Lemma csx_send ex s0 sp n s ts q L Q : Inv s0 sp L Q -> snd (spec_step sp (OpSend ts)) = OutSent (Some q) ->
  forall cmds, CSX ex sp n s cmds -> CSX ex (fst (spec_step sp (OpSend ts))) n (mkS (s_sent s) (s_cast s ++ [fst q]) (s_acks s)) cmds.
Proof.
  intros I Eo cmds (G1 & G2 & G3 & G4). pose proof (i_nextr _ _ _ _ I) as Hn. pose proof (i_pidr _ _ _ _ I) as Hr. pose proof (i_sort _ _ _ _ I) as Hs.
  apply Forall_app in Hr. destruct Hr as [_ Hr]. rewrite Forall_map, Forall_forall in Hr. apply SSapp_r in Hs.
  cbn [spec_step] in Eo |- *. destruct (sp_ann sp) as [|p rest].
  - destruct (sp_data sp) as [|[k p] rest] eqn:Ed; [discriminate Eo|]. cbn [snd] in Eo. assert (q = (k, p)) as -> by congruence. cbn [fst].
    assert (Old : forall m j, claims (mkSpec (sp_next sp) (sp_reg sp) [] rest (sp_live sp ++ [mkE k p ts (sp_reg sp)])) m j -> claims sp m j \/ j = k).
    { intros m j (e & He & Hj & Hm). cbn [sp_live] in He. apply in_app_or in He. destruct He as [He|[<-|[]]]; [left; exists e; auto|right; auto]. }
    assert (New : ~ In k (s_cast s)). { intros Hk. destruct (G4 k Hk) as [_ H]. specialize (H (k, p) (or_introl eq_refl)). cbn [fst] in H. lia. }
    cbn [map] in Hs. inversion Hs as [|? ? S1 S2]; subst. rewrite Forall_map, Forall_forall in S2.
    split; [|split; [exact G2|split]]; cbn [s_cast sp_next sp_data].
    + intros j [Hj|Hj]; apply in_or_app; [destruct (Old _ _ Hj) as [H| ->]; [left; apply G1; auto|right; left; reflexivity]|left; apply G1; auto].
    + intros j Hj Hc. destruct (Old _ _ Hj) as [H| ->]; [exact (G3 j H Hc)|]. exfalso. apply New, G1. auto.
    + intros j Hj. apply in_app_or in Hj. destruct Hj as [Hj|[<-|[]]].
      * destruct (G4 j Hj) as [H1 H2]. split; [exact H1|]. intros q Hq. apply H2. right. exact Hq.
      * split; [pose proof (Hr _ (or_introl eq_refl)) as H; cbn [fst] in H; lia|exact S2].
  - cbn [snd] in Eo. assert (q = (0, p)) as -> by congruence. cbn [fst]. split; [|split; [exact G2|split; [exact G3|]]]; cbn [s_cast sp_next sp_data].
    + intros j Hj. apply in_or_app. left. apply G1. exact Hj.
    + intros j Hj. apply in_app_or in Hj. destruct Hj as [Hj|[<-|[]]]; [exact (G4 j Hj)|]. split; [lia|]. intros q Hq. specialize (Hr q Hq). cbn in Hr. lia.
Qed.
Lemma queue_data_xi t x g log sp L Q ptr len bs : XI t x g log sp L Q -> ptr <> 0 -> 0 <= len <= RMC_MAX_PAYLOAD -> x_susp x = false ->
  sp_next sp < 18446744073709551615 -> x_mem x ptr = Some bs -> len <= zlen bs -> ~ In ptr (g_lent g) -> ~ In ptr (g_pin g) ->
  exists x' Q' ev, rmc_pub_queue_packet x ptr len false = Ok (0, x', [ev]) /\ ev = PvConn (EvMod (x_mcast x) RMC_MULTICAST_INDEX
      (match pub_next_queued (x_pub x) with Some _ => POLLWRITE | None => 0 end) POLLWRITE) /\
    XI t x' (mkG (ptr :: g_lent g) (g_pin g) (g_data g ++ [ztake len bs]) (g_bad g)) (log ++ [ev]) (fst (spec_step sp (OpQueue (ptr, len, 0)))) L Q' /\
    p_inflight (x_pub x') = p_inflight (x_pub x) /\ p_sinf (x_pub x') = p_sinf (x_pub x) /\
    x_mem x' = x_mem x /\ x_susp x' = throttled x (x_pub x) /\ same_but_pub x x'.
Proof.
  intros X Hp Hl Hs Hn Hm Hlb Nl Np. unfold rmc_pub_queue_packet.
  replace (ptr =? 0) with false by lia. replace (RMC_MAX_PAYLOAD <? len) with false by lia. rewrite Hs.
  destruct (inv_queue _ _ _ _ ptr len 0 (xi_pub _ _ _ _ _ _ _ X) Hp Hn) as (s' & Q' & E & I' & Hi & Hsi & _).
  rewrite E. cbn [bind fst snd]. set (ev := PvConn _). match goal with |- context [Ok (0, ?z, _)] => set (x2 := z) end.
  assert (F : x_pub x2 = s' /\ x_vec x2 = x_vec x /\ x_mem x2 = x_mem x /\ same_but_pub x x2 /\ x_susp x2 = throttled x (x_pub x)).
  { unfold x2, throttled, pub_unacked_count. cbn [set_pub set_susp x_pub x_sthr]. rewrite Hi.
    destruct ((0 <? x_sthr x) && (x_sthr x <=? u32 (zlen (p_inflight (x_pub x))))); repeat split. }
  destruct F as (F1 & F2 & F3 & F4 & F5). exists x2, Q', ev. split; [reflexivity|]. split; [reflexivity|].
  pose proof (i_nextr _ _ _ _ (xi_pub _ _ _ _ _ _ _ X)) as Hnr.
  split; [|rewrite F1; auto 8].
  assert (F6 : x_node x2 = x_node x /\ x_lip x2 = x_lip x /\ x_lport x2 = x_lport x) by (unfold same_but_pub in F4; tauto).
  destruct F6 as (F6 & F7 & F8).
  constructor; rewrite ?F1, ?F2, ?F3, ?F6, ?F7, ?F8.
  - exact I'.
  - exact (xi_vec _ _ _ _ _ _ _ X).
  - apply MI_queue; auto; [exact (xi_mem _ _ _ _ _ _ _ X)|lia].
  - apply (HI_op (x_pub x) _ _ _ _ g); [exact (xi_his _ _ _ _ _ _ _ X)|split; assumption|cbn [pub_step]; rewrite E; reflexivity|reflexivity|exists [ztake len bs]; reflexivity|constructor|reflexivity].
  - intros i c Ho. rewrite since_quiet by (repeat constructor).
    eapply csi_gen; [exact (xi_str _ _ _ _ _ _ _ X i c Ho)|exists [ztake len bs]; reflexivity|reflexivity|apply incl_refl| |exact (csx_queue _ _ _ _ _)].
    intros k Hk _. left. split; [exact Hk|]. intros Hc. left. exact Hc.
  - exact (xi_hdr _ _ _ _ _ _ _ X).
Qed.
Lemma queue_ann_xi t x g log sp L Q ptr len pin m' : XI t x g log sp L Q -> ptr <> 0 -> 0 <= len <= RMC_MAX_PAYLOAD -> x_susp x = false ->
  (forall q, In q pin -> In q (g_pin g) \/ (q = ptr /\ ~ In ptr (g_lent g) /\ x_mem x ptr <> None)) -> incl (g_pin g) pin ->
  (t = true -> len = 0 \/ (In ptr pin /\ exists bs, x_mem x ptr = Some bs /\ len <= zlen bs)) ->
  exists x' Q' ev, rmc_pub_queue_packet (set_mem x m') ptr len true = Ok (0, x', [ev]) /\ ev = PvConn (EvMod (x_mcast x) RMC_MULTICAST_INDEX
      (match pub_next_queued (x_pub x) with Some _ => POLLWRITE | None => 0 end) POLLWRITE) /\
    XI t (set_mem x' (x_mem x)) (mkG (g_lent g) pin (g_data g) (g_bad g)) (log ++ [ev]) (fst (spec_step sp (OpAnnounce (ptr, len, 0)))) L Q' /\
    p_inflight (x_pub x') = p_inflight (x_pub x) /\ p_sinf (x_pub x') = p_sinf (x_pub x) /\
    x_mem x' = m' /\ x_susp x' = throttled x (x_pub x) /\ same_but_pub x x'.
Proof.
  intros X Hp Hl Hs Hpi Hinc Ha. unfold rmc_pub_queue_packet. cbn [set_mem x_susp x_pub x_mcast].
  replace (ptr =? 0) with false by lia. replace (RMC_MAX_PAYLOAD <? len) with false by lia. rewrite Hs.
  destruct (inv_announce _ _ _ _ ptr len 0 (xi_pub _ _ _ _ _ _ _ X) Hp) as (s' & Q' & E & I' & Hi & Hsi & _).
  rewrite E. cbn [bind fst snd]. set (ev := PvConn _). match goal with |- context [Ok (0, ?z, _)] => set (x2 := z) end.
  assert (F : x_pub x2 = s' /\ x_vec x2 = x_vec x /\ x_mem x2 = m' /\ same_but_pub x x2 /\ x_susp x2 = throttled x (x_pub x)).
  { unfold x2, throttled, pub_unacked_count. cbn [set_mem set_pub set_susp x_pub x_sthr]. rewrite Hi.
    destruct ((0 <? x_sthr x) && (x_sthr x <=? u32 (zlen (p_inflight (x_pub x))))); repeat split. }
  destruct F as (F1 & F2 & F3 & F4 & F5). exists x2, Q', ev. split; [reflexivity|]. split; [reflexivity|].
  split; [|rewrite F1; auto 8].
  assert (F6 : x_node x2 = x_node x /\ x_lip x2 = x_lip x /\ x_lport x2 = x_lport x) by (unfold same_but_pub in F4; tauto).
  destruct F6 as (F6 & F7 & F8).
  constructor; cbn [set_mem x_pub x_vec x_mem x_node x_lip x_lport]; rewrite ?F1, ?F2, ?F6, ?F7, ?F8.
  - exact I'.
  - exact (xi_vec _ _ _ _ _ _ _ X).
  - apply MI_announce; auto. exact (xi_mem _ _ _ _ _ _ _ X).
  - apply (HI_op (x_pub x) _ _ _ _ g); [exact (xi_his _ _ _ _ _ _ _ X)|exact Hp|cbn [pub_step]; rewrite E; reflexivity|reflexivity|exists []; rewrite app_nil_r; reflexivity|constructor|reflexivity].
  - intros i c Ho. rewrite since_quiet by (repeat constructor).
    eapply csi_gen; [exact (xi_str _ _ _ _ _ _ _ X i c Ho)|exists []; rewrite app_nil_r; reflexivity|reflexivity|apply incl_refl| |intros cmds G; exact G].
    intros k Hk _. left. split; [exact Hk|]. intros Hc. left. exact Hc.
  - exact (xi_hdr _ _ _ _ _ _ _ X).
Qed.

Lemma queue_inv t x g log ptr len ann : XInv t x g log -> xok x g (XQueue ptr len ann) ->
  exists code x' evs, rmc_pub_queue_packet x ptr len ann = Ok (code, x', evs) /\
    XInv t x' (g_next g x (XQueue ptr len ann) code evs) (log ++ evs).
Proof.
  intros (sp & L & Q & X) (H1 & H2 & H3).
  assert (Same : forall code, code <> 0 -> XInv t x (g_next g x (XQueue ptr len ann) code []) (log ++ [])).
  { intros code Hc. unfold g_next. replace (code =? 0) with false by lia. cbn [fold_left]. rewrite app_nil_r. destruct g. exists sp, L, Q. exact X. }
  destruct (Z.eqb_spec ptr 0) as [->|Hp].
  { exists EINVAL, x, []. split; [reflexivity|]. apply Same. discriminate. }
  destruct (Z.ltb_spec RMC_MAX_PAYLOAD len) as [Hl|Hl].
  { exists EMSGSIZE, x, []. split; [|apply Same; discriminate]. unfold rmc_pub_queue_packet.
    replace (ptr =? 0) with false by lia. replace (RMC_MAX_PAYLOAD <? len) with true by lia. reflexivity. }
  destruct (x_susp x) eqn:Hs.
  { exists EBUSY, x, []. split; [|apply Same; discriminate]. unfold rmc_pub_queue_packet.
    replace (ptr =? 0) with false by lia. replace (RMC_MAX_PAYLOAD <? len) with false by lia. rewrite Hs. reflexivity. }
  destruct (H3 Hp) as ((bs & Hm & Hlb) & Nl & Np). unfold is_u16 in H1. destruct ann.
  - destruct (queue_ann_xi t x g log sp L Q ptr len (ptr :: g_pin g) (x_mem x) X Hp ltac:(lia) Hs) as (x' & Q' & ev & E & Eev & X' & _ & _ & Em & _).
    + intros q [<-|Hq]; [right|left; exact Hq]. split; [reflexivity|]. split; [exact Nl|congruence].
    + intros q Hq. right. exact Hq.
    + intros _. right. split; [left; reflexivity|]. eauto.
    + exists 0, x', [ev]. rewrite <- Em in X'. assert (Ex : set_mem x (x_mem x) = x) by (destruct x; reflexivity). rewrite Ex in E.
      assert (Ex' : set_mem x' (x_mem x') = x') by (destruct x'; reflexivity). rewrite Ex' in X'.
      split; [exact E|]. unfold g_next. change (0 =? 0) with true. rewrite Eev in *. cbn [fold_left unlend fst snd g_lent g_pin g_data g_bad]. eexists _, L, Q'. exact X'.
  - pose proof (i_next _ _ _ _ (xi_pub _ _ _ _ _ _ _ X)) as En.
    destruct (queue_data_xi t x g log sp L Q ptr len bs X Hp ltac:(lia) Hs ltac:(rewrite <- En; auto) Hm Hlb Nl (Np eq_refl)) as (x' & Q' & ev & E & Eev & X' & _).
    exists 0, x', [ev]. split; [exact E|]. unfold g_next. change (0 =? 0) with true. rewrite Hm, Eev in *. cbn [fold_left unlend fst snd g_lent g_pin g_data g_bad].
    eexists _, L, Q'. exact X'.
Qed.

(** ** Sending *)
Lemma load_ok m ptr len bs : m ptr = Some bs -> 0 <= len <= zlen bs -> load m ptr len = Ok (ztake len bs).
Proof.
  intros E H. unfold load. destruct (Z.eqb_spec len 0) as [->|N]; [reflexivity|]. rewrite E. replace (len <=? zlen bs) with true by lia. reflexivity.
Qed.
Lemma load_len m ptr len bs : 0 <= len -> load m ptr len = Ok bs -> zlen bs = len.
Proof.
  intros H. unfold load. destruct (Z.eqb_spec len 0) as [->|N]; [intros E; injection E as <-; reflexivity|].
  destruct (m ptr) as [b|]; [|discriminate]. destruct (Z.leb_spec len (zlen b)); [|discriminate]. intros E. injection E as <-.
  unfold ztake, zlen in *. rewrite firstn_length. lia.
Qed.
Lemma queued_cases t x g log sp L Q a q : XI t x g log sp L Q -> In (a, q) Q ->
  get_pack (x_pub x) a = Ok (pk_queued q) /\ 0 <= fst q < 18446744073709551616 /\ 0 <= len_of (snd q) <= RMC_MAX_PAYLOAD /\
  ((fst q = 0 /\ In (snd q) (sp_ann sp)) \/ (1 <= fst q /\ In q (sp_data sp))).
Proof.
  intros X Hin. pose proof (xi_pub _ _ _ _ _ _ _ X) as I. pose proof (i_nextr _ _ _ _ I) as Hn.
  split; [unfold get_pack; rewrite (i_packQ _ _ _ _ I a q Hin); reflexivity|].
  assert (Hq : In q (map (fun p => (0, p)) (sp_ann sp) ++ sp_data sp)) by (rewrite <- (i_Q _ _ _ _ I); apply in_map_iff; exists (a, q); auto).
  apply in_app_or in Hq. destruct Hq as [Hq|Hq].
  - apply in_map_iff in Hq. destruct Hq as (p & <- & Hp). cbn [fst snd]. split; [lia|]. split; [exact (mi_ann _ _ _ _ (xi_mem _ _ _ _ _ _ _ X) p Hp)|]. auto.
  - pose proof (i_pidr _ _ _ _ I) as Hr. rewrite Forall_app in Hr. destruct Hr as [_ Hr]. rewrite Forall_map, Forall_forall in Hr. specialize (Hr q Hq).
    split; [lia|]. destruct q as [k p]. cbn [fst snd] in *.
    destruct (mi_data _ _ _ _ (xi_mem _ _ _ _ _ _ _ X) k p) as [Hl _]; [unfold kpls; apply in_or_app; right; exact Hq|].
    split; [exact Hl|]. right. split; [lia|exact Hq].
Qed.
Lemma queued_load t x g log sp L Q a q : XI t x g log sp L Q -> In (a, q) Q ->
  match load (x_mem x) (pk_payload (pk_queued q)) (pk_len (pk_queued q)) with
  | Ok bs => zlen bs = len_of (snd q) /\ (fst q <> 0 -> nth_error (g_data g) (Z.to_nat (fst q - 1)) = Some bs)
  | UB UseAfterFree => t = false /\ fst q = 0 /\ len_of (snd q) <> 0
  | UB OutOfBounds => t = false /\ fst q = 0 /\ len_of (snd q) <> 0
  | _ => False
  end.
Proof.
  intros X Hin. destruct (queued_cases _ _ _ _ _ _ _ a q X Hin) as (_ & _ & Hl & C).
  destruct q as [k [[p len] u]]. unfold len_of in *. cbn [fst snd pk_queued pk_payload pk_len] in *.
  destruct C as [[-> Ha]|[Hk Hd]].
  - destruct (load (x_mem x) p len) as [bs|u0| |] eqn:El.
    + split; [exact (load_len _ _ _ _ (proj1 Hl) El)|congruence].
    + assert (Hno : t = true -> False).
      { intros T. destruct (mi_annok _ _ _ _ (xi_mem _ _ _ _ _ _ _ X) T _ Ha) as [H0|(_ & bs & Hb & Hlb)]; unfold len_of, ptr_of in *; cbn [fst snd] in *.
        - subst len. discriminate El.
        - rewrite (load_ok _ _ _ _ Hb) in El by lia. discriminate. }
      assert (T : t = false) by (destruct t; [destruct (Hno eq_refl)|reflexivity]).
      assert (N : len <> 0) by (intros ->; discriminate El).
      unfold load in El. destruct (Z.eqb_spec len 0); [lia|]. destruct (x_mem x p); [destruct (len <=? zlen l); [discriminate|]|]; injection El as <-; auto.
    + unfold load in El. destruct (len =? 0); [discriminate|]. destruct (x_mem x p); [destruct (len <=? zlen l)|]; discriminate.
    + unfold load in El. destruct (len =? 0); [discriminate|]. destruct (x_mem x p); [destruct (len <=? zlen l)|]; discriminate.
  - destruct (mi_data _ _ _ _ (xi_mem _ _ _ _ _ _ _ X) k (p, len, u)) as (_ & bs & Hb & Hlb & Hn); [unfold kpls; apply in_or_app; right; exact Hd|].
    unfold len_of, ptr_of in *. cbn [fst snd] in *. rewrite (load_ok _ _ _ _ Hb) by lia. split; [|auto].
    unfold ztake, zlen in *. rewrite firstn_length. lia.
Qed.

Lemma MI_sent t m g sp ts : MI t m g sp -> MI t m g (fst (spec_step sp (OpSend ts))).
Proof.
  intros X. cbn [spec_step]. destruct (sp_ann sp) as [|p rest] eqn:Ea; [destruct (sp_data sp) as [|[k p] rest] eqn:Ed|]; cbn [fst].
  - exact X.
  - destruct X as [M1 M2 M3 M4 M5 M6 M7 Mb M8].
    set (sp' := mkSpec _ _ _ _ _).
    assert (P1 : kpls sp' = kpls sp).
    { unfold kpls, sp'. cbn [sp_live sp_data]. rewrite Ed, map_app. cbn [map e_pid e_pl]. rewrite <- app_assoc. reflexivity. }
    assert (P2 : pls sp' = pls sp) by (rewrite <- !kpls_snd, P1; reflexivity).
    constructor; rewrite ?P1, ?P2; auto; unfold sp'; cbn [sp_ann]; intros; contradiction.
  - destruct X as [M1 M2 M3 M4 M5 M6 M7 Mb M8]. constructor; auto; cbn [sp_ann]; intros.
    + apply M2. rewrite Ea. right. assumption.
    + apply M3; [assumption|]. rewrite Ea. right. assumption.
Qed.

Definition next_mask (s : pub) : Z := match pub_next_queued s with Some _ => POLLWRITE | None => 0 end.
Lemma send_xi t x g log sp L a q Q ts bs : XI t x g log sp L ((a, q) :: Q) -> x_mcast x <> -1 ->
  load (x_mem x) (pk_payload (pk_queued q)) (pk_len (pk_queued q)) = Ok bs ->
  exists x' L' evs, send_single_multicast_packet x a (SndOk ts) = Ok (0, x', evs) /\
    evs = [PvCast ts (enc_header (Wire.mkHdr (fst q) (x_node x) (len_of (snd q)) (x_lip x) (x_lport x)) ++ bs);
           PvConn (EvMod (x_mcast x) RMC_MULTICAST_INDEX POLLWRITE (next_mask (x_pub x')))] /\
    XI t x' (g_unlend g evs) (log ++ evs) (fst (spec_step sp (OpSend ts))) L' Q /\
    snd (spec_step sp (OpSend ts)) = OutSent (Some q) /\ same_but_pub x x' /\ x_susp x' = x_susp x /\ x_mem x' = x_mem x.
Proof.
  intros X Hm El. destruct (queued_cases _ _ _ _ _ _ _ a q X (or_introl eq_refl)) as (Eg & Hk & Hl & C).
  pose proof (queued_load _ _ _ _ _ _ _ a q X (or_introl eq_refl)) as Hld. rewrite El in Hld. destruct Hld as [Hlen Hdat].
  destruct (inv_sent _ _ _ a q Q ts (xi_pub _ _ _ _ _ _ _ X)) as (s' & L' & Es & I' & Eo & _ & HL).
  unfold send_single_multicast_packet. replace (x_mcast x =? -1) with false by lia. rewrite Eg. cbn [bind].
  change (pk_len (pk_queued q)) with (len_of (snd q)) in *. change (pk_pid (pk_queued q)) with (fst q).
  replace (RMC_MAX_PACKET <? header_size + len_of (snd q)) with false by (unfold RMC_MAX_PACKET, RMC_MAX_PAYLOAD, header_size in *; lia).
  rewrite El. cbn [bind]. rewrite Es. cbn [bind].
  eexists _, L', _. split; [reflexivity|]. unfold setup_packet_header. change (pk_pid (pk_queued q)) with (fst q). change (pk_len (pk_queued q)) with (len_of (snd q)).
  split; [reflexivity|]. split; [|split; [exact Eo|split; [repeat split|auto]]].
  set (d := enc_header _ ++ bs). set (e2 := PvConn _).
  assert (Hh : hdr_ok (Wire.mkHdr (fst q) (x_node x) (len_of (snd q)) (x_lip x) (x_lport x))).
  { destruct (xi_hdr _ _ _ _ _ _ _ X) as (H1 & H2 & H3). unfold hdr_ok, is_u64, is_u16, RMC_MAX_PAYLOAD in *. cbn [h_pid h_node h_len h_ip h_port]. intuition lia. }
  assert (Ep : h_pid (dec_header d) = fst q) by (unfold d; rewrite dec_enc_header by exact Hh; reflexivity).
  assert (Eg0 : g_unlend g [PvCast ts d; e2] = g) by (destruct g; reflexivity). rewrite Eg0.
  assert (Eclaims : forall n k, claims sp n k -> claims (fst (spec_step sp (OpSend ts))) n k).
  { intros n k (e & He & H1 & H2). exists e. split; [|auto]. cbn [spec_step]. destruct (sp_ann sp) as [|p rest]; [destruct (sp_data sp) as [|[k' p] rest]|]; cbn [fst sp_live]; auto.
    apply in_or_app. left. exact He. }
  assert (Ereg : sp_reg (fst (spec_step sp (OpSend ts))) = sp_reg sp).
  { cbn [spec_step]. destruct (sp_ann sp) as [|p rest]; [destruct (sp_data sp) as [|[k' p] rest]|]; reflexivity. }
  constructor; cbn [set_pub x_pub x_vec x_mem x_node x_lip x_lport].
  - exact I'.
  - rewrite Ereg. exact (xi_vec _ _ _ _ _ _ _ X).
  - apply MI_sent. exact (xi_mem _ _ _ _ _ _ _ X).
  - apply (HI_op (x_pub x) _ _ _ _ g); rewrite ?Eo; cbn [freed_of sent_of map flat_map freed_ev cast_ev cast_ts time_of app e2].
    + exact (xi_his _ _ _ _ _ _ _ X).
    + exact Logic.I.
    + cbn [pub_step]. rewrite (next_queued_inv _ _ _ _ (xi_pub _ _ _ _ _ _ _ X)). rewrite Eg. cbn [bind]. rewrite Es. cbn [bind]. destruct q as [k [[y1 y2] y3]]. reflexivity.
    + reflexivity.
    + exists []. rewrite app_nil_r. reflexivity.
    + constructor; [|constructor]. exists bs, (x_lport x). auto.
    + reflexivity.
  - intros i c Ho. rewrite since_app. cbn [fold_left since_ev e2]. rewrite Ep.
    eapply csi_gen; [exact (xi_str _ _ _ _ _ _ _ X i c Ho)|exists []; rewrite app_nil_r; reflexivity|reflexivity|apply incl_refl| |exact (csx_send _ _ _ _ _ _ _ _ _ (xi_pub _ _ _ _ _ _ _ X) Eo)].
    cbn [s_cast]. intros k Hin H0. apply in_app_or in Hin. destruct Hin as [Hin|[<-|[]]].
    + left. split; [exact Hin|]. intros Hc. left. exact (Eclaims _ _ Hc).
    + right. destruct HL as [[Hz _]|[_ HL]]; [contradiction|]. exists (mkE (fst q) (snd q) ts (sp_reg sp)).
      split; [|split; [reflexivity|]].
      * apply (inv_entry_in I' a). rewrite HL. apply in_or_app. right. left. reflexivity.
      * cbn [e_hold]. apply (vi_reg _ _ (xi_vec _ _ _ _ _ _ _ X)). exists c. rewrite Z2Nat.id; [exact Ho|]. destruct Ho as [Hs _]. apply slot_range in Hs. lia.
  - exact (xi_hdr _ _ _ _ _ _ _ X).
Qed.
(** The other outcomes of sendmsg() leave the context alone. *)
Lemma send_err x a e r : send_single_multicast_packet x a (SndErr e) = Ok r -> snd (fst r) = x /\ Forall plain (snd r) /\
  (forall i, Forall (quiet i) (snd r)).
Proof.
  unfold send_single_multicast_packet. destruct (_ =? _); [intros E; injection E as <-; cbn; auto|].
  destruct (get_pack _ _) as [p| | |]; cbn [bind]; [|discriminate..]. destruct (_ <? _); [intros E; injection E as <-; cbn; auto|].
  destruct (load _ _ _) as [bs| | |]; cbn [bind]; [|discriminate..]. destruct (_ =? _); intros E; injection E as <-; cbn [fst snd];
    (split; [reflexivity|]); split; [|intros i| |intros i]; repeat constructor.
Qed.

Lemma write_mcast_inv t : forall outs x g log, XInv t x g log ->
  safe t (process_multicast_write x outs) (fun r => let '(_, x', evs) := r in
    XInv t x' (g_unlend g evs) (log ++ evs) /\ same_but_pub x x' /\ x_susp x' = x_susp x).
Proof.
  assert (One : forall x g log a o sp L q Q, XI t x g log sp L ((a, q) :: Q) ->
    safe t (send_single_multicast_packet x a o) (fun r => let '(_, x', evs) := r in
      XInv t x' (g_unlend g evs) (log ++ evs) /\ same_but_pub x x' /\ x_susp x' = x_susp x)).
  { intros x g log a o sp L q Q X. destruct (Z.eq_dec (x_mcast x) (-1)) as [Em|Em].
    - unfold send_single_multicast_packet. rewrite Em. change (-1 =? -1) with true. cbn [safe]. rewrite g_unlend_nil, app_nil_r.
      split; [eexists _, _, _; exact X|]. split; [apply sbp_refl|reflexivity].
    - pose proof (queued_load _ _ _ _ _ _ _ a q X (or_introl eq_refl)) as Hld.
      destruct (load (x_mem x) (pk_payload (pk_queued q)) (pk_len (pk_queued q))) as [bs|u| |] eqn:El; [| |destruct Hld..].
      + destruct o as [e|ts].
        * destruct (send_single_multicast_packet x a (SndErr e)) as [[[code x'] evs]|u| |] eqn:Es.
          -- destruct (send_err _ _ _ _ Es) as (E1 & E2 & E3). cbn [fst snd safe] in *. subst x'. split; [|split; [apply sbp_refl|reflexivity]].
             eexists _, _, _. apply XI_plain; [exact X|exact E2|intros; apply E3].
          -- exfalso. revert Es. unfold send_single_multicast_packet. replace (x_mcast x =? -1) with false by lia.
             destruct (queued_cases _ _ _ _ _ _ _ a q X (or_introl eq_refl)) as (-> & _). cbn [bind]. destruct (_ <? _); [discriminate|]. rewrite El. cbn [bind]. destruct (_ =? _); discriminate.
          -- exfalso. revert Es. unfold send_single_multicast_packet. replace (x_mcast x =? -1) with false by lia.
             destruct (queued_cases _ _ _ _ _ _ _ a q X (or_introl eq_refl)) as (-> & _). cbn [bind]. destruct (_ <? _); [discriminate|]. rewrite El. cbn [bind]. destruct (_ =? _); discriminate.
          -- exfalso. revert Es. unfold send_single_multicast_packet. replace (x_mcast x =? -1) with false by lia.
             destruct (queued_cases _ _ _ _ _ _ _ a q X (or_introl eq_refl)) as (-> & _). cbn [bind]. destruct (_ <? _); [discriminate|]. rewrite El. cbn [bind]. destruct (_ =? _); discriminate.
        * destruct (send_xi t x g log sp L a q Q ts bs X Em El) as (x' & L' & evs & -> & _ & X' & _ & S & Hs & _). cbn [safe].
          split; [eexists _, _, _; exact X'|auto].
      + unfold send_single_multicast_packet. replace (x_mcast x =? -1) with false by lia.
        destruct (queued_cases _ _ _ _ _ _ _ a q X (or_introl eq_refl)) as (-> & _). cbn [bind].
        destruct (_ <? _).
        { cbn [safe]. rewrite g_unlend_nil, app_nil_r. split; [eexists _, _, _; exact X|]. split; [apply sbp_refl|reflexivity]. }
        rewrite El. cbn [bind safe]. destruct u; try exact Logic.I; tauto. }
  induction outs as [|o outs IH]; intros x g log XV; cbn [process_multicast_write]; pose proof XV as (sp & L & Q & X);
    rewrite (next_queued_inv _ _ _ _ (xi_pub _ _ _ _ _ _ _ X)); destruct Q as [|[a q] Q].
  - cbn [safe]. rewrite g_unlend_nil, app_nil_r. split; [exact XV|]. split; [apply sbp_refl|reflexivity].
  - exact (One x g log a _ sp L q Q X).
  - cbn [safe]. rewrite g_unlend_nil, app_nil_r. split; [exact XV|]. split; [apply sbp_refl|reflexivity].
  - apply (safe_bind t _ _ _ _ (One x g log a o sp L q Q X)). intros [[code x1] evs] _ (XV1 & S1 & Hs1).
    destruct (negb (code =? 0)); [cbn [safe]; auto|].
    apply (safe_bind t _ _ _ _ (IH x1 _ _ XV1)). intros [[code2 x2] evs2] _ (XV2 & S2 & Hs2). cbn [safe].
    rewrite g_unlend_app, app_assoc. split; [exact XV2|]. split; [exact (sbp_trans _ _ _ S1 S2)|congruence].
Qed.

(** ** Resending over TCP *)
Lemma live_facts t x g log sp L Q a e : XI t x g log sp L Q -> In (a, e) L ->
  get_pack (x_pub x) a = Ok (pk_entry e) /\ 1 <= e_pid e < 18446744073709551616 /\ 0 <= len_of (e_pl e) <= RMC_MAX_PAYLOAD /\
  exists bs, load (x_mem x) (ptr_of (e_pl e)) (len_of (e_pl e)) = Ok bs /\ zlen bs = len_of (e_pl e) /\ bytes_ok bs /\
    nth_error (g_data g) (Z.to_nat (e_pid e - 1)) = Some bs.
Proof.
  intros X Hin. pose proof (xi_pub _ _ _ _ _ _ _ X) as I. pose proof (i_nextr _ _ _ _ I) as Hn.
  pose proof (inv_entry_in I a e Hin) as He.
  split; [unfold get_pack; rewrite (i_packL _ _ _ _ I a e Hin); reflexivity|].
  pose proof (i_pidr _ _ _ _ I) as Hr. rewrite Forall_app in Hr. destruct Hr as [Hr _]. rewrite Forall_map, Forall_forall in Hr. specialize (Hr e He).
  split; [lia|].
  destruct (mi_data _ _ _ _ (xi_mem _ _ _ _ _ _ _ X) (e_pid e) (e_pl e)) as (Hl & bs & Hb & Hlb & Hnth).
  { unfold kpls. apply in_or_app. left. apply in_map_iff. exists e. auto. }
  split; [exact Hl|]. exists (ztake (len_of (e_pl e)) bs). split; [apply load_ok; [exact Hb|lia]|].
  split; [unfold ztake, zlen in *; rewrite firstn_length; lia|]. split; [|exact Hnth].
  apply bytes_take. exact (mi_bytes _ _ _ _ (xi_mem _ _ _ _ _ _ _ X) _ _ Hb).
Qed.

(** [x'] differs from [x] in the packets, memory, suspension and the rings of open connections. *)
Definition same_cfg (x x' : pctx) : Prop :=
  x_sthr x' = x_sthr x /\ x_rthr x' = x_rthr x /\ x_mcast x' = x_mcast x /\
  x_listen x' = x_listen x /\ x_aint x' = x_aint x /\ x_anext x' = x_anext x /\ x_ccb x' = x_ccb x /\
  x_resend x' = x_resend x /\ x_node x' = x_node x /\ x_lip x' = x_lip x /\ x_lport x' = x_lport x.
Lemma cfg_refl x : same_cfg x x. Proof. repeat split. Qed.
Lemma cfg_trans x y z : same_cfg x y -> same_cfg y z -> same_cfg x z.
Proof. unfold same_cfg. intuition congruence. Qed.
Lemma sbp_cfg x y : same_but_pub x y -> same_cfg x y.
Proof. unfold same_but_pub, same_cfg. tauto. Qed.
Definition keeps_open (x x' : pctx) : Prop :=
  v_size (x_vec x') = v_size (x_vec x) /\
  forall j c, is_open (x_vec x) j c -> exists c', is_open (x_vec x') j c' /\ c_mode c' = c_mode c /\ c_desc c' = c_desc c /\ c_rbuf c' = c_rbuf c.
Lemma ko_refl x : keeps_open x x. Proof. split; [reflexivity|]. intros j c H. exists c. auto. Qed.
Lemma ko_trans x y z : keeps_open x y -> keeps_open y z -> keeps_open x z.
Proof.
  intros [S1 H1] [S2 H2]. split; [congruence|]. intros j c H. destruct (H1 j c H) as (c1 & O1 & A1 & B1 & C1). destruct (H2 j c1 O1) as (c2 & O2 & A2 & B2 & C2).
  exists c2. split; [exact O2|]. repeat split; congruence.
Qed.
Lemma sbp_ko x y : same_but_pub x y -> keeps_open x y.
Proof. intros (H & _). split; [congruence|]. intros j c Ho. exists c. rewrite H. auto. Qed.
Lemma put_ko x i c c' : is_open (x_vec x) i c -> c_mode c' = c_mode c -> c_desc c' = c_desc c -> c_rbuf c' = c_rbuf c ->
  keeps_open x (set_vec x (put_slot (x_vec x) i c')).
Proof.
  intros [Hs Hm] E1 E2 E3. pose proof (slot_range _ _ _ Hs) as R. split; [apply size_put|]. intros j d [Hj Hd]. cbn [set_vec x_vec].
  destruct (Z.eq_dec j i) as [->|N].
  - assert (d = c) by congruence. subst d. exists c'. split; [|auto]. split; [apply slot_put_same; exact R|congruence].
  - exists d. split; [|auto]. split; [rewrite slot_put_other by (lia || exact N); exact Hj|exact Hd].
Qed.

Definition on_stream (x : pctx) (g : ghost) (log : list pev) (i k : Z) : Prop :=
  forall c cmds, is_open (x_vec x) i c -> s_sent (since_open i log) ++ contents (c_wbuf c) = flat_map wire cmds ->
    Forall (fun c => exists k, packet_cmd (x_node x) (x_lip x) (g_data g) k c) cmds -> carries cmds k.

Lemma csi_some ex node lip d sp n s wb : CSI None node lip d sp n s wb -> CSI ex node lip d sp n s wb.
Proof.
  intros (cmds & E & F & D & G1 & G2 & G3 & G4). exists cmds. split; [exact E|split; [exact F|split; [exact D|split; [exact G1|split; [exact G2|split; [|exact G4]]]]]].
  intros k Hk Hc. discriminate (G3 k Hk Hc).
Qed.
Lemma resend_xi t x g log sp L Q i c a e : XI t x g log sp L Q -> is_open (x_vec x) i c -> In (a, e) L -> In (Z.to_nat i) (e_hold e) ->
  (cb_stop (c_wbuf c) = cb_size (c_wbuf c) /\ 21 + len_of (e_pl e) <= circ_buf_available (c_wbuf c) /\
     rmc_pub_resend_packet x i a = UB OutOfBounds) \/
  exists code x' evs, rmc_pub_resend_packet x i a = Ok (code, x', evs) /\
    XIw (if code =? 0 then Some (Z.to_nat i, e_pid e) else None) t x' (g_unlend g evs) (log ++ evs) sp L Q /\ x_pub x' = x_pub x /\ x_susp x' = x_susp x /\ x_mem x' = x_mem x /\ same_cfg x x' /\ keeps_open x x' /\
    Forall plain evs /\
    ((code = EAGAIN /\ circ_buf_available (c_wbuf c) < 21 + len_of (e_pl e)) \/
     (code = 0 /\ 21 + len_of (e_pl e) <= circ_buf_available (c_wbuf c) /\ on_stream x' (g_unlend g evs) (log ++ evs) i (e_pid e))).
Proof.
  intros X Ho Hin Hh. pose proof (slot_range _ _ _ (proj1 Ho)) as R.
  destruct (live_facts _ _ _ _ _ _ _ a e X Hin) as (Eg & Hpid & Hl & bs & El & Hbl & Hbb & Hnth).
  destruct (vi_ring _ _ (xi_vec _ _ _ _ _ _ _ X) i c (proj1 Ho)) as [Hw Hz].
  unfold rmc_pub_resend_packet. rewrite (proj1 Ho). cbn [bind]. rewrite Eg. cbn [bind].
  change (pk_len (pk_entry e)) with (len_of (e_pl e)). change (pk_payload (pk_entry e)) with (ptr_of (e_pl e)).
  unfold setup_packet_header. change (pk_len (pk_entry e)) with (len_of (e_pl e)). change (pk_pid (pk_entry e)) with (e_pid e).
  set (h := Wire.mkHdr (e_pid e) (x_node x) (len_of (e_pl e)) (x_lip x) (x_lport x)).
  change (1 + header_size) with 21.
  destruct (write_packet_spec (c_wbuf c) h bs Hw) as (W1 & W2 & W3). rewrite Hbl in W1, W2, W3.
  assert (Fin : forall code wb' evs0, 
    cb_wf wb' -> cb_size wb' = RMC_MAX_PACKET ->
    CSI (if code =? 0 then Some (Z.to_nat i, e_pid e) else None) (x_node x) (x_lip x) (g_data g) sp (Z.to_nat i) (since_open i log) (contents wb') ->
    (code = EAGAIN /\ circ_buf_available (c_wbuf c) < 21 + len_of (e_pl e)) \/
     (code = 0 /\ 21 + len_of (e_pl e) <= circ_buf_available (c_wbuf c) /\
      forall cmds, s_sent (since_open i log) ++ contents wb' = flat_map wire cmds ->
        Forall (fun c => exists k, packet_cmd (x_node x) (x_lip x) (g_data g) k c) cmds -> carries cmds (e_pid e)) ->
    evs0 = (if Z.land (c_action c) POLLWRITE =? 0
       then Ok (code, set_vec x (put_slot (x_vec x) i (set_action (set_wbuf c wb') (Z.lor (c_action c) POLLWRITE))),
              [PvConn (EvMod (c_desc c) i (c_action c) (Z.lor (c_action c) POLLWRITE))])
       else Ok (code, set_vec x (put_slot (x_vec x) i (set_wbuf c wb')), [])) ->
    exists code' x' evs, evs0 = Ok (code', x', evs) /\
      XIw (if code' =? 0 then Some (Z.to_nat i, e_pid e) else None) t x' (g_unlend g evs) (log ++ evs) sp L Q /\ x_pub x' = x_pub x /\ x_susp x' = x_susp x /\ x_mem x' = x_mem x /\ same_cfg x x' /\ keeps_open x x' /\
      Forall plain evs /\
      ((code' = EAGAIN /\ circ_buf_available (c_wbuf c) < 21 + len_of (e_pl e)) \/
       (code' = 0 /\ 21 + len_of (e_pl e) <= circ_buf_available (c_wbuf c) /\ on_stream x' (g_unlend g evs) (log ++ evs) i (e_pid e)))).
  { intros code wb' evs0 Hw' Hz' HC Hcode ->.
    assert (G : forall act evs, Forall plain evs -> (forall j, Forall (quiet j) evs) ->
      let x' := set_vec x (put_slot (x_vec x) i (mkConn act (c_desc c) (c_node c) (c_rbuf c) wb' (c_mode c) (c_port c) (c_addr c))) in
      XIw (if code =? 0 then Some (Z.to_nat i, e_pid e) else None) t x' (g_unlend g evs) (log ++ evs) sp L Q /\ x_pub x' = x_pub x /\ x_susp x' = x_susp x /\ x_mem x' = x_mem x /\ same_cfg x x' /\ keeps_open x x' /\
      Forall plain evs /\
      ((code = EAGAIN /\ circ_buf_available (c_wbuf c) < 21 + len_of (e_pl e)) \/
       (code = 0 /\ 21 + len_of (e_pl e) <= circ_buf_available (c_wbuf c) /\ on_stream x' (g_unlend g evs) (log ++ evs) i (e_pid e)))).
    { intros act evs P Qt x'. split; [|split; [reflexivity|split; [reflexivity|split; [reflexivity|split; [repeat split|split; [|split; [exact P|]]]]]]].
      - apply (XI_io0 _ t x g log sp L Q i c); auto; [|rewrite since_quiet by apply Qt; exact HC]. intros j d _ Hd. apply csi_some. exact (xi_str _ _ _ _ _ _ _ X j d Hd).
      - apply (put_ko x i c); [exact Ho|reflexivity..].
      - destruct Hcode as [H|(H1 & H2 & H3)]; [left; exact H|right]. refine (conj H1 (conj H2 _)).
        intros d cmds [Hd _] Est F. rewrite since_quiet in Est by apply Qt. rewrite g_unlend_data in F. cbn [set_vec x_vec x' x_node x_lip] in Hd, F.
        rewrite slot_put_same in Hd by exact R. injection Hd as <-. exact (H3 cmds Est F). }
    destruct (Z.land (c_action c) POLLWRITE =? 0).
    - do 3 eexists. split; [reflexivity|]. apply (G (Z.lor (c_action c) POLLWRITE)); [apply plain_mod|intros; apply quiet_mod].
    - do 3 eexists. split; [reflexivity|]. apply (G (c_action c)); [constructor|constructor]. }
  destruct (Z.ltb_spec (circ_buf_available (c_wbuf c)) (21 + len_of (e_pl e))) as [A|A].
  - right. cbn [bind fst snd]. eapply (Fin EAGAIN (c_wbuf c)); [exact Hw|exact Hz|exact (xi_str _ _ _ _ _ _ _ X i c Ho)|left; auto|reflexivity].
  - rewrite El. cbn [bind]. destruct (Z.eq_dec (cb_stop (c_wbuf c)) (cb_size (c_wbuf c))) as [S|S].
    + left. rewrite (W3 A S). auto.
    + right. pose proof (cb_wf_stop _ Hw) as Hst. destruct (W2 A ltac:(lia)) as (wb' & -> & Hw' & Hz' & _ & Hc' & _). cbn [bind fst snd].
      assert (Hcmd : packet_cmd (x_node x) (x_lip x) (g_data g) (e_pid e) (CmdPacket h bs)).
      { exists bs, (x_lport x). split; [unfold h; rewrite Hbl; reflexivity|]. split; [lia|]. split; [exact Hnth|]. cbn [cmd_ok].
        split; [|split; [unfold h; cbn [h_len]; lia|exact Hbb]].
        destruct (xi_hdr _ _ _ _ _ _ _ X) as (H1 & H2 & H3). unfold hdr_ok, h, is_u64, is_u16, RMC_MAX_PAYLOAD in *. cbn [h_pid h_node h_len h_ip h_port]. intuition lia. }
      eapply (Fin 0 wb'); [exact Hw'|congruence| | |reflexivity].
      * destruct (xi_str _ _ _ _ _ _ _ X i c Ho) as (cmds & E & F & D & G1 & G2 & G3 & G4). exists (cmds ++ [CmdPacket h bs]).
        assert (Hcl : claims sp (Z.to_nat i) (e_pid e)) by (exists e; split; [exact (inv_entry_in (xi_pub _ _ _ _ _ _ _ X) a e Hin)|auto]).
        assert (Cr : forall k, carries (cmds ++ [CmdPacket h bs]) k -> carries cmds k \/ k = e_pid e).
        { intros k. rewrite !carries_ids, ids_app, in_app_iff. cbn. intuition. }
        split; [rewrite Hc', app_assoc, E, flat_map_app; cbn [flat_map]; rewrite app_nil_r; reflexivity|].
        split; [apply Forall_app; split; [exact F|constructor; [exists (e_pid e); exact Hcmd|constructor]]|].
        split; [intros k Hk H0; destruct (D k Hk H0) as [H|[(h' & p' & H & Hp)|H]]; [auto| |auto];
          right; left; exists h', p'; split; [apply in_or_app; left; exact H|exact Hp]|].
        split; [|split; [|split; [|exact G4]]].
        -- intros k [Hk|Hk]; [apply G1; auto|]. destruct (Cr k Hk) as [H| ->]; apply G1; auto.
        -- rewrite ids_app. apply NoDup_app_intro; [exact G2|repeat constructor; intros []|]. intros k Hk [<-|[]]. apply carries_ids in Hk. discriminate (G3 (e_pid e) Hcl Hk).
        -- intros k Hk Hc. destruct (Cr k Hc) as [H| ->]; [discriminate (G3 k Hk H)|reflexivity].
      * right. split; [reflexivity|]. split; [exact A|]. intros cmds' E' F'.
        destruct (xi_str _ _ _ _ _ _ _ X i c Ho) as (cmds & E & F & _).
        assert (Eq : cmds' = cmds ++ [CmdPacket h bs]).
        { eapply (cmds_unique _ _ _ _ cmds' (cmds ++ [CmdPacket h bs]) F').
          - apply Forall_app; split; [exact F|constructor; [exists (e_pid e); exact Hcmd|constructor]].
          - exact E'.
          - rewrite Hc', app_assoc, E, flat_map_app. cbn [flat_map]. rewrite app_nil_r. reflexivity. }
        subst cmds'. exists h, bs. split; [apply in_or_app; right; left; reflexivity|reflexivity].
Qed.

(** ** Timed out packets *)
Lemma sent_timeout_xi t x g log sp L Q i c a e : XI t x g log sp L Q -> is_open (x_vec x) i c -> In (a, e) L -> In (Z.to_nat i) (e_hold e) ->
  safe t (process_sent_packet_timeout x i a) (fun r => let '(code, x', evs) := r in
    exists sp' L', XI t x' (g_unlend g evs) (log ++ evs) sp' L' Q /\ same_cfg x x' /\ keeps_open x x' /\
      (x_susp x' = true -> x_susp x = true) /\ sp_reg sp' = sp_reg sp /\
      (code = 0 \/ code = EAGAIN) /\
      (forall b, In b (p_sinf (x_pub x) (Z.to_nat i)) -> pid_of (x_pub x) b <> e_pid e -> In b (p_sinf (x_pub x') (Z.to_nat i)) /\ pid_of (x_pub x') b = pid_of (x_pub x) b)).
Proof.
  intros X Ho Hin Hh. pose proof (slot_range _ _ _ (proj1 Ho)) as R.
  destruct (live_facts _ _ _ _ _ _ _ a e X Hin) as (Eg & _).
  destruct (vi_mode _ _ (xi_vec _ _ _ _ _ _ _ X) i c (proj1 Ho)) as (_ & _ & Hm). destruct Ho as [Hs Hcl]. destruct Hm as [Hm|Hm]; [contradiction|].
  unfold process_sent_packet_timeout. rewrite Hs. cbn [bind]. rewrite Eg. cbn [bind]. rewrite Hm. change (CONNECTED =? CONNECTED) with true. cbn [negb].
  change (pk_pid (pk_entry e)) with (e_pid e).
  destruct (resend_xi t x g log sp L Q i c a e X (conj Hs Hcl) Hin Hh) as [(_ & _ & ->)|(code & x1 & evs & -> & X1 & Ep & Esu & _ & Cf & Ko & _ & Hcase)].
  { exact Logic.I. }
  cbn [bind]. destruct (code =? 0) eqn:Ec.
  - destruct Hcase as [(-> & _)|(_ & _ & Hst)]; [discriminate Ec|].
    destruct (ack_xi _ t x1 _ _ sp L Q i (e_pid e) X1 ltac:(lia) ltac:(intros; split; congruence)) as (x2 & L2 & fr & -> & Es & X2 & S2 & Hsu & Hk).
    { intros d cmds Hd E F. left. exact (Hst d cmds Hd E F). }
    cbn [bind fst snd safe]. rewrite g_unlend_app, app_assoc. eexists _, L2. split; [exact X2|]. split; [exact (cfg_trans _ _ _ Cf (sbp_cfg _ _ S2))|].
    split; [exact (ko_trans _ _ _ Ko (sbp_ko _ _ S2))|]. split; [intros H; rewrite Hsu, Esu in H; apply andb_prop in H; tauto|].
    split; [cbn [spec_step]; destruct (release _ _ _); reflexivity|]. split; [auto|]. rewrite Ep in Hk. exact Hk.
  - destruct Hcase as [(-> & _)|(-> & _)]; [|discriminate Ec]. cbn [safe]. exists sp, L. split; [exact X1|]. split; [exact Cf|]. split; [exact Ko|].
    split; [congruence|]. split; [reflexivity|]. split; [auto|]. rewrite Ep. auto.
Qed.

Lemma sinf_entry s sp L Q n a : Inv s sp L Q -> In a (p_sinf s n) -> exists e, In (a, e) L /\ In n (e_hold e).
Proof.
  intros I H. rewrite (inv_sinf I), <- in_rev in H. apply in_map_fst in H. destruct H as [e He]. apply filter_In in He.
  exists e. split; [tauto|]. apply mem_In. apply He.
Qed.
Lemma live_pid_inj s sp L Q a b e f : Inv s sp L Q -> In (a, e) L -> In (b, f) L -> e_pid e = e_pid f -> a = b.
Proof.
  intros I Ha Hb E. pose proof (SSapp_l _ _ _ (i_sort _ _ _ _ I)) as S. rewrite <- (i_L _ _ _ _ I) in S.
  clear I. induction L as [|[y h] L IH]; [destruct Ha|]. cbn [map snd] in S. inversion S as [|? ? S1 S2]; subst.
  rewrite Forall_map, Forall_map, Forall_forall in S2. destruct Ha as [Ha|Ha], Hb as [Hb|Hb].
  - congruence.
  - injection Ha as -> ->. specialize (S2 _ Hb). cbn in S2. lia.
  - injection Hb as -> ->. specialize (S2 _ Ha). cbn in S2. lia.
  - exact (IH Ha Hb S1).
Qed.

Lemma queued_inv x sp L Q : Inv (x_pub x) sp L Q -> queued x = rev (map (fun aq => (fst (snd aq), pl2 (snd (snd aq)))) Q).
Proof.
  intros I. unfold queued. rewrite (inv_queued I), map_rev. f_equal. rewrite map_map. apply map_ext_in.
  intros [a [k [[p l] u]]] H. cbn [fst snd]. rewrite (i_packQ _ _ _ _ I a _ H). reflexivity.
Qed.
Definition TR (t : bool) (x : pctx) (g : ghost) (log : list pev) (r : Z * pctx * list pev) : Prop :=
  let '(code, x', evs) := r in
  XInv t x' (g_unlend g evs) (log ++ evs) /\ same_cfg x x' /\ keeps_open x x' /\
  (x_susp x' = true -> x_susp x = true) /\ (code = 0 \/ code = EAGAIN) /\ queued x' = queued x.
Lemma TR_refl t x g log : XInv t x g log -> TR t x g log (0, x, []).
Proof. intros H. unfold TR. rewrite g_unlend_nil, app_nil_r. refine (conj H (conj (cfg_refl x) (conj (ko_refl x) (conj (fun h => h) (conj (or_introl eq_refl) eq_refl))))). Qed.
Lemma TR_trans t x g log code x1 e1 code2 x2 e2 : TR t x g log (code, x1, e1) -> TR t x1 (g_unlend g e1) (log ++ e1) (code2, x2, e2) ->
  TR t x g log (code2, x2, e1 ++ e2).
Proof.
  intros (A1 & A2 & A3 & A4 & A5 & A6) (B1 & B2 & B3 & B4 & B5 & B6). unfold TR. rewrite g_unlend_app, app_assoc.
  refine (conj B1 (conj (cfg_trans _ _ _ A2 B2) (conj (ko_trans _ _ _ A3 B3) (conj (fun h => A4 (B4 h)) (conj B5 (eq_trans B6 A6)))))).
Qed.
Lemma resend_loop_inv t i : forall packs x g log c, XInv t x g log -> is_open (x_vec x) i c -> NoDup packs -> incl packs (p_sinf (x_pub x) (Z.to_nat i)) ->
  safe t (resend_loop x i packs) (TR t x g log).
Proof.
  induction packs as [|a packs IH]; intros x g log c XV Ho ND Hi; cbn [resend_loop].
  - cbn [safe]. apply TR_refl. exact XV.
  - destruct XV as (sp & L & Q & X). pose proof (xi_pub _ _ _ _ _ _ _ X) as I. inversion ND as [|? ? N1 N2]; subst.
    destruct (sinf_entry _ _ _ _ _ a I (Hi a (or_introl eq_refl))) as (e & He & Hh).
    apply (safe_bind t _ _ _ _ (sent_timeout_xi t x g log sp L Q i c a e X Ho He Hh)).
    intros [[code x1] evs] _ (sp' & L' & X1 & Cf & Ko & Su & _ & Cc & Hk).
    assert (T1 : TR t x g log (code, x1, evs)) by (refine (conj _ (conj Cf (conj Ko (conj Su (conj Cc _))))); [eexists _, _, _; exact X1|rewrite (queued_inv _ _ _ _ (xi_pub _ _ _ _ _ _ _ X1)), (queued_inv _ _ _ _ I); reflexivity]).
    destruct (code =? 0) eqn:Ec; cbn [negb]; [|exact T1].
    destruct (proj2 Ko i c Ho) as (c1 & Ho1 & _).
    apply (safe_bind t _ _ (TR t x1 (g_unlend g evs) (log ++ evs))).
    + apply (IH x1 _ _ c1); [eexists _, _, _; exact X1|exact Ho1|exact N2|].
      intros b Hb. apply Hk; [apply Hi; right; exact Hb|].
      destruct (sinf_entry _ _ _ _ _ b I (Hi b (or_intror Hb))) as (f & Hf & _). rewrite (inv_pidL I b f Hf).
      intros E. apply N1. rewrite (live_pid_inj _ _ _ _ _ _ _ _ I He Hf (eq_sym E)). exact Hb.
    + intros [[code2 x2] evs2] _ T2. cbn [safe]. exact (TR_trans _ _ _ _ _ _ _ _ _ _ T1 T2).
Qed.
Lemma timed_out_packs_sub s now timeout : forall l packs, timed_out_packs s now timeout l = Ok packs -> exists tl, l = packs ++ tl.
Proof.
  induction l as [|a l IH]; intros packs; cbn [timed_out_packs]; [intros E; injection E as <-; exists []; reflexivity|].
  destruct (get_pack s a) as [p| | |]; cbn [bind]; [|discriminate..]. destruct (_ <=? _).
  - destruct (timed_out_packs s now timeout l) as [tl| | |] eqn:Et; cbn [bind]; [|discriminate..]. intros E. injection E as <-.
    destruct (IH tl eq_refl) as (r & ->). exists r. reflexivity.
  - intros E. injection E as <-. eexists. reflexivity.
Qed.
Lemma timed_out_packs_ok s now timeout : forall l, (forall a, In a l -> p_packs s a <> None) -> exists packs, timed_out_packs s now timeout l = Ok packs.
Proof.
  induction l as [|a l IH]; intros H; cbn [timed_out_packs]; [eexists; reflexivity|].
  unfold get_pack. destruct (p_packs s a) as [p|] eqn:E; [|destruct (H a (or_introl eq_refl) E)]. cbn [bind].
  destruct (_ <=? _); [|eexists; reflexivity]. destruct IH as (tl & ->); [intros b Hb; apply H; right; exact Hb|]. cbn [bind]. eexists. reflexivity.
Qed.
Lemma sub_timeout_inv t x g log n now : XInv t x g log -> (exists c, is_open (x_vec x) (Z.of_nat n) c) ->
  safe t (process_subscriber_timeout x n now) (TR t x g log).
Proof.
  intros XV [c Ho]. pose proof XV as (sp & L & Q & X). pose proof (xi_pub _ _ _ _ _ _ _ X) as I. unfold process_subscriber_timeout, pub_get_timed_out_packets.
  destruct (timed_out_packs_ok (x_pub x) now (x_resend x) (p_sinf (x_pub x) n)) as (packs & Ep).
  { intros a Ha. apply (inv_liveL I). exact (sinf_incl I n a Ha). }
  rewrite Ep. cbn [bind]. destruct (timed_out_packs_sub _ _ _ _ _ Ep) as (tl & Etl).
  apply (resend_loop_inv t (Z.of_nat n) packs x g log c XV Ho).
  - apply (NoDup_app_l _ tl). rewrite <- Etl, (inv_sinf I). apply NoDup_rev.
    pose proof (inv_ndL I) as ND. clear - ND. induction L as [|y L IH]; [constructor|]. cbn [map] in ND. inversion ND as [|? ? N1 N2]; subst.
    cbn [filter]. destruct (holds n y); [|exact (IH N2)]. cbn [map]. constructor; [|exact (IH N2)].
    intros H. apply N1. apply in_map_iff in H. destruct H as (z & E & Hz). apply filter_In in Hz. rewrite <- E. apply in_map. tauto.
  - rewrite Nat2Z.id, Etl. apply incl_appl, incl_refl.
Qed.
Lemma subs_loop_inv t now : forall subs x g log, XInv t x g log -> (forall n, In n subs -> exists c, is_open (x_vec x) (Z.of_nat n) c) ->
  safe t (subs_loop x now subs) (TR t x g log).
Proof.
  induction subs as [|n subs IH]; intros x g log XV H; cbn [subs_loop].
  - cbn [safe]. apply TR_refl. exact XV.
  - apply (safe_bind t _ _ _ _ (sub_timeout_inv t x g log n now XV (H n (or_introl eq_refl)))).
    intros [[code x1] evs] _ T1. destruct (code =? 0); cbn [negb]; [|exact T1].
    apply (safe_bind t _ _ (TR t x1 (g_unlend g evs) (log ++ evs))).
    + apply IH; [apply T1|]. intros m Hm. destruct (H m (or_intror Hm)) as [c Ho]. destruct T1 as (_ & _ & Ko & _). destruct (proj2 Ko _ c Ho) as (c' & Ho' & _). eauto.
    + intros [[code2 x2] evs2] _ T2. exact (TR_trans _ _ _ _ _ _ _ _ _ _ T1 T2).
Qed.
Lemma timed_out_subs_ok s now timeout sp L Q : Inv s sp L Q -> forall l, exists subs, timed_out_subs s now timeout l = Ok subs /\ incl subs l.
Proof.
  intros I. induction l as [|n l (subs & E & Hi)]; cbn [timed_out_subs]; [exists []; split; [reflexivity|apply incl_refl]|].
  assert (Hh : exists b, match last_opt (p_sinf s n) with None => Ok false | Some a => do p <- get_pack s a; Ok (pk_ts p + timeout <=? now) end = Ok b).
  { unfold last_opt. destruct (rev (p_sinf s n)) as [|a r] eqn:Er; [eexists; reflexivity|].
    assert (Ha : In a (p_sinf s n)) by (apply in_rev; rewrite Er; left; reflexivity).
    pose proof (inv_liveL I a (sinf_incl I n a Ha)) as Hl. unfold get_pack. destruct (p_packs s a); [cbn [bind]; eexists; reflexivity|congruence]. }
  destruct Hh as (b & ->). cbn [bind]. rewrite E. cbn [bind]. eexists. split; [reflexivity|].
  destruct b; [intros y [<-|Hy]; [left; reflexivity|right; exact (Hi y Hy)]|]. intros y Hy. right. exact (Hi y Hy).
Qed.

Lemma timeout_inv t x g log now buf o : XInv t x g log -> xok x g (XTimeout now buf o) -> (t = true -> no_payload_announce (XTimeout now buf o)) ->
  safe t (rmc_pub_timeout_process x now buf o) (fun r => let '(_, x', evs) := r in XInv t x' (g_unlend g evs) (log ++ evs)).
Proof.
  intros XV (Hb & Hmb & Ho) Hn. unfold rmc_pub_timeout_process. destruct (announce_due x now).
  - pose proof XV as (sp & L & Q & X).
    assert (Hmem : forall bs p, updz (updz (x_mem x) buf (Some bs)) buf None p = x_mem x p).
    { intros bs p. destruct (Z.eq_dec p buf) as [->|N]; [rewrite updz_same; auto|]. rewrite !updz_other by exact N. reflexivity. }
    assert (Go : forall bs len1, 0 <= len1 <= RMC_MAX_PAYLOAD -> (t = true -> len1 = 0) ->
      safe t (do r <- rmc_pub_queue_packet (set_mem x (updz (x_mem x) buf (Some bs))) buf len1 true;
              let '(_, x2, evs) := r in
              Ok (0, set_mem (set_ann x2 (x_aint x2) (if negb (x_aint x2 =? 0) then now + x_aint x2 else 0))
                       (updz (x_mem (set_ann x2 (x_aint x2) (if negb (x_aint x2 =? 0) then now + x_aint x2 else 0))) buf None), evs))
        (fun r => let '(_, x', evs) := r in XInv t x' (g_unlend g evs) (log ++ evs))).
    { intros bs len1 Hl Ht. destruct (x_susp x) eqn:Hs.
      - unfold rmc_pub_queue_packet. replace (buf =? 0) with false by lia. replace (RMC_MAX_PAYLOAD <? len1) with false by lia.
        cbn [set_mem x_susp]. rewrite Hs. cbn [bind safe]. rewrite g_unlend_nil, app_nil_r. exists sp, L, Q.
        apply (XI_ext t x); auto; [|exact (proj2 (proj2 (xi_hdr _ _ _ _ _ _ _ X)))]. intros p. cbn [set_mem set_ann x_mem]. apply Hmem.
      - destruct (queue_ann_xi t x g log sp L Q buf len1 (g_pin g) (updz (x_mem x) buf (Some bs)) X Hb Hl Hs) as (x2 & Q' & ev & E & Eev & X2 & _ & _ & Em & _ & S).
        + intros q Hq. left. exact Hq.
        + apply incl_refl.
        + intros T. left. exact (Ht T).
        + rewrite E. cbn [bind safe]. eexists _, L, Q'. assert (Eg : g_unlend g [ev] = mkG (g_lent g) (g_pin g) (g_data g) (g_bad g)) by (rewrite Eev; reflexivity).
          rewrite Eg. eapply XI_ext; [exact X2|reflexivity|reflexivity| |reflexivity|reflexivity|exact (proj2 (proj2 (xi_hdr _ _ _ _ _ _ _ X2)))].
          intros p. cbn [set_mem set_ann x_mem]. rewrite Em. apply Hmem. }
    destruct o as [| |bs len].
    + cbv zeta. change (RMC_MAX_PAYLOAD <? 0) with false. apply Go; [unfold RMC_MAX_PAYLOAD; lia|reflexivity].
    + cbn [bind safe]. rewrite g_unlend_nil, app_nil_r. exists sp, L, Q.
      apply (XI_ext t x); auto; [|exact (proj2 (proj2 (xi_hdr _ _ _ _ _ _ _ X)))]. intros p. cbn [set_mem set_ann x_mem]. apply Hmem.
    + unfold is_u16 in Ho. apply Go; destruct (Z.ltb_spec RMC_MAX_PAYLOAD len); try (unfold RMC_MAX_PAYLOAD in *; lia).
      * intros T. specialize (Hn T). cbn in Hn. unfold RMC_MAX_PAYLOAD in *. lia.
      * intros T. exact (Hn T).
  - pose proof XV as (sp & L & Q & X). unfold pub_get_timed_out_subscribers.
    destruct (timed_out_subs_ok _ now (x_resend x) _ _ _ (xi_pub _ _ _ _ _ _ _ X) (p_subs (x_pub x))) as (subs & -> & Hi). cbn [bind].
    eapply safe_imp; [apply (subs_loop_inv t now subs x g log XV)|intros [[code x'] evs] _ T; apply T].
    intros n Hn'. apply (vi_reg _ _ (xi_vec _ _ _ _ _ _ _ X)). rewrite <- (i_subs _ _ _ _ (xi_pub _ _ _ _ _ _ _ X)). exact (Hi n Hn').
Qed.

(** ** Writing *)
Lemma write_tcp_inv t x g log i w : XInv t x g log -> xok x g (XWrite i (WrTcp w)) ->
  safe t (rmc_pub_write x i (WrTcp w)) (fun r => let '(_, _, x', evs) := r in XInv t x' (g_unlend g evs) (log ++ evs)).
Proof.
  intros XV Hok. assert (Hi : 0 <= i < 65536) by (destruct w; cbn in Hok; tauto).
  assert (Same : XInv t x (g_unlend g []) (log ++ [])) by (rewrite g_unlend_nil, app_nil_r; exact XV).
  cbn [rmc_pub_write]. destruct (_ <=? i); [exact Same|].
  destruct (find_index_cases (x_vec x) i (proj1 Hi)) as [[-> _]|(c & -> & Ho)]; cbn [bind]; [exact Same|].
  destruct (negb _); [exact Same|]. destruct (circ_buf_in_use _ =? 0); [exact Same|].
  destruct XV as (sp & L & Q & X). destruct (vi_ring _ _ (xi_vec _ _ _ _ _ _ _ X) i c (proj1 Ho)) as [Hw Hz].
  destruct (tcp_write_spec (c_wbuf c) w Hw ltac:(lia)) as (wb' & -> & Hw' & Hz' & Hc' & _). { destruct w; cbn in Hok; tauto. }
  cbn [bind w_left w_code w_sent w_buf safe]. exists sp, L, Q.
  apply (XI_io t x g log sp L Q i c); auto; [cbn; congruence|repeat constructor|intros j N|].
  - constructor; [|apply quiet_mod]. intros s. cbn [since_ev]. apply not_eq_sym, Z.eqb_neq in N. rewrite N. reflexivity.
  - rewrite since_app. cbn [fold_left since_ev]. rewrite Z.eqb_refl. cbn [c_wbuf set_action set_wbuf].
    destruct (xi_str _ _ _ _ _ _ _ X i c Ho) as (cmds & E & F & D). exists cmds. cbn [s_sent s_cast s_acks]. split; [|split; [exact F|exact D]].
    rewrite <- E, <- app_assoc. f_equal. rewrite Hc'. destruct w as [e|n]; [reflexivity|]. unfold ztake, zdrop. apply firstn_skipn.
Qed.

(** ** Activation and shutdown *)
Lemma close_loop_inv t : forall n x g log ind, XInv t x g log -> 0 <= ind ->
  safe t (close_loop n x ind) (fun r => XInv t (fst r) (g_unlend g (snd r)) (log ++ snd r)).
Proof.
  induction n as [|n IH]; intros x g log ind XV Hi; cbn [close_loop].
  - cbn [safe fst snd]. rewrite g_unlend_nil, app_nil_r. exact XV.
  - destruct (find_index_cases (x_vec x) ind Hi) as [[-> _]|(c & -> & Ho)]; cbn [bind]; [apply IH; [exact XV|lia]|].
    apply (safe_bind t _ _ _ _ (close_inv_x t x g log ind XV Hi)). intros [[code x1] evs] _ XV1.
    apply (safe_bind t _ _ _ _ (IH x1 _ _ (ind + 1) XV1 ltac:(lia))). intros [x2 evs2] _ XV2. cbn [safe fst snd] in *.
    rewrite g_unlend_app, app_assoc. exact XV2.
Qed.
Lemma XInv_plain t x g log evs : XInv t x g log -> Forall plain evs -> (forall i c, is_open (x_vec x) i c -> Forall (quiet i) evs) ->
  XInv t x (g_unlend g evs) (log ++ evs).
Proof. intros (sp & L & Q & X) P H. exists sp, L, Q. apply XI_plain; assumption. Qed.
Lemma XInv_ext t x x' g log : XInv t x g log -> x_pub x' = x_pub x -> x_vec x' = x_vec x ->
  (forall p, x_mem x' p = x_mem x p) -> x_node x' = x_node x -> x_lip x' = x_lip x -> is_u16 (x_lport x') -> XInv t x' g log.
Proof. intros (sp & L & Q & X) E1 E2 E3 E4 E5 E6. exists sp, L, Q. exact (XI_ext t x x' g log sp L Q X E1 E2 E3 E4 E5 E6). Qed.
Lemma XInv_lport t x g log : XInv t x g log -> is_u16 (x_lport x).
Proof. intros (sp & L & Q & X). apply (xi_hdr _ _ _ _ _ _ _ X). Qed.
Lemma deactivate_inv t x g log : XInv t x g log ->
  safe t (rmc_pub_deactivate_context x) (fun r => let '(_, x', evs) := r in XInv t x' (g_unlend g evs) (log ++ evs)).
Proof.
  intros XV. unfold rmc_pub_deactivate_context.
  set (e1 := [PvConn (EvRem (x_mcast x) RMC_MULTICAST_INDEX); PvConn (EvRem (x_listen x) RMC_LISTEN_INDEX)]).
  set (e3 := [PvConn (EvClose (x_mcast x)); PvConn (EvClose (x_listen x))]).
  assert (XV1 : XInv t x (g_unlend g e1) (log ++ e1)) by (apply XInv_plain; [exact XV|repeat constructor|intros; repeat constructor]).
  apply (safe_bind t _ _ (fun r => XInv t (fst r) (g_unlend (g_unlend g e1) (snd r)) ((log ++ e1) ++ snd r))).
  - destruct (_ =? _); [cbn [safe fst snd]; rewrite g_unlend_nil, app_nil_r; exact XV1|]. apply close_loop_inv; [exact XV1|lia].
  - intros [x2 evs] _ XV2. cbn [safe fst snd] in *.
    rewrite !g_unlend_app, !app_assoc. apply (XInv_ext t x2); try reflexivity.
    + apply XInv_plain; [exact XV2|repeat constructor|intros; repeat constructor].
    + exact (XInv_lport _ _ _ _ XV2).
Qed.
Lemma activate_inv t x g log o : XInv t x g log -> xok x g (XActivate o) ->
  let '(_, x', evs) := rmc_pub_activate_context x o in XInv t x' (g_unlend g evs) (log ++ evs).
Proof.
  intros XV Hok. pose proof (XInv_lport _ _ _ _ XV) as Hp. destruct o as [e ds ea|m l port]; cbn [rmc_pub_activate_context].
  - apply (XInv_ext t x); try reflexivity; [|exact Hp]. apply XInv_plain; [exact XV| |].
    + apply Forall_app. split; apply Forall_map, Forall_forall; intros; exact Logic.I.
    + intros. apply Forall_app. split; apply Forall_map, Forall_forall; intros; intros s; reflexivity.
  - cbn in Hok. apply (XInv_ext t x); try (destruct (x_lport x =? 0); reflexivity); [|destruct (x_lport x =? 0); assumption].
    apply XInv_plain; [exact XV|repeat constructor|].
    intros i c Ho. destruct XV as (sp & L & Q & X). pose proof (vi_size _ _ (xi_vec _ _ _ _ _ _ _ X)) as Hs. pose proof (slot_range _ _ _ (proj1 Ho)).
    unfold RMC_LISTEN_INDEX in *. repeat constructor; intros s; cbn [since_ev]; unfold RMC_MULTICAST_INDEX, RMC_LISTEN_INDEX.
    + destruct (Z.eqb_spec 32766 i); [lia|reflexivity].
    + destruct (Z.eqb_spec 32765 i); [lia|reflexivity].
Qed.

(** ** All steps *)
Lemma step_inv_x t x g log o : XInv t x g log -> xok x g o -> (t = true -> no_payload_announce o) ->
  safe t (xstep x o) (fun r => let '(code, x', evs) := r in XInv t x' (g_next g x o code evs) (log ++ evs)).
Proof.
  intros XV Hok Hn. pose proof (XInv_lport _ _ _ _ XV) as Hp.
  assert (Nil : forall code x', (match o with XQueue _ _ _ => False | _ => True end) -> XInv t x' g log -> XInv t x' (g_next g x o code []) (log ++ [])).
  { intros code x' Ho H. rewrite app_nil_r. unfold g_next. destruct o; try contradiction; destruct g; exact H. }
  destruct o as [ptr bs|ptr|ptr len ann|i o|i o|now buf o|i|interval now|s r|b|o|]; cbn [xstep].
  - cbn [safe]. apply Nil; [exact Logic.I|]. destruct Hok as (H0 & H1 & H2). destruct XV as (sp & L & Q & X). exists sp, L, Q.
    destruct X as [X1 X2 X3 X4 X5 X6]. constructor; auto. destruct X3 as [M1 M2 M3 M4 M5 M6 M7 Mb M8]. cbn [set_mem x_mem].
    assert (K : forall p v, x_mem x p = Some v -> updz (x_mem x) ptr (Some bs) p = Some v).
    { intros p v E. rewrite updz_other; [exact E|]. intros ->. congruence. }
    constructor; auto.
    + intros k p H. destruct (M1 k p H) as (A & v & B & C). split; [exact A|]. exists v. split; [apply K; exact B|exact C].
    + intros T p H. destruct (M3 T p H) as [A|(A & v & B & C)]; [left; exact A|right]. split; [exact A|]. exists v. split; [apply K; exact B|exact C].
    + intros q H. destruct (M6 q H) as [A B]. split; [exact A|]. destruct (x_mem x q) as [v|] eqn:E; [|congruence]. rewrite (K _ _ E). discriminate.
    + intros p v. unfold updz. destruct (p =? ptr); [intros E; injection E as <-; exact H2|apply M8].
  - cbn [safe]. apply Nil; [exact Logic.I|]. destruct Hok as (H0 & H1). destruct XV as (sp & L & Q & X). exists sp, L, Q.
    destruct X as [X1 X2 X3 X4 X5 X6]. constructor; auto. destruct X3 as [M1 M2 M3 M4 M5 M6 M7 Mb M8]. cbn [set_mem x_mem].
    constructor; auto.
    + intros k p H. destruct (M1 k p H) as (A & v & B & C). split; [exact A|]. exists v. split; [|exact C]. rewrite updz_other; [exact B|].
      intros E. apply H0. apply M5. rewrite <- E. apply in_map. rewrite <- kpls_snd. apply in_map_iff. exists (k, p). auto.
    + intros T p H. destruct (M3 T p H) as [A|(A & v & B & C)]; [left; exact A|right]. split; [exact A|]. exists v. split; [|exact C].
      rewrite updz_other; [exact B|]. intros E. apply H1. rewrite <- E. exact A.
    + intros q H. destruct (M6 q H) as [A B]. split; [exact A|]. rewrite updz_other; [exact B|]. intros E. apply H1. rewrite <- E. exact H.
    + intros p v. unfold updz. destruct (p =? ptr); [discriminate|apply M8].
  - destruct (queue_inv t x g log ptr len ann XV Hok) as (code & x' & evs & -> & XV'). exact XV'.
  - apply (safe_bind t _ _ _ _ (read_inv t x g log i o XV Hok)). intros [[[code op] x'] evs] _ H. exact H.
  - destruct o as [outs|w].
    + cbn [rmc_pub_write]. pose proof (write_mcast_inv t outs x g log XV) as W.
      destruct (process_multicast_write x outs) as [[[code x'] evs]|u| |]; cbn [bind safe] in *; [apply W|exact W..].
    + apply (safe_bind t _ _ _ _ (write_tcp_inv t x g log i w XV Hok)). intros [[[code op] x'] evs] _ H. exact H.
  - exact (timeout_inv t x g log now buf o XV Hok Hn).
  - exact (close_inv_x t x g log i XV (proj1 Hok)).
  - cbn [safe]. apply Nil; [exact Logic.I|]. apply (XInv_ext t x); auto.
  - unfold rmc_pub_throttling. destruct (s <? r); cbn [safe]; apply Nil; try exact Logic.I; [exact XV|]. apply (XInv_ext t x); auto.
  - cbn [safe]. apply Nil; [exact Logic.I|]. apply (XInv_ext t x); auto.
  - pose proof (activate_inv t x g log o XV Hok) as H. destruct (rmc_pub_activate_context x o) as [[code x'] evs]. exact H.
  - exact (deactivate_inv t x g log XV).
Qed.

Lemma init_inv_x t x0 : fresh_ctx x0 -> XInv t x0 g_init [].
Proof.
  intros (node & lip & lport & buf & m & -> & Hb & Hm & H1 & H2 & H3). exists spec_init, [], [].
  constructor; cbn [rmc_pub_init_context x_pub x_vec x_mem x_node x_lip x_lport].
  - exact inv_init.
  - pose proof (init_inv true buf Hb) as C. constructor.
    + rewrite size_init by exact Hb. exact Hb.
    + apply C.
    + intros i c Hs. destruct (slot_init buf i c Hs) as [A B]. rewrite A, B. unfold CLOSED. intuition lia.
    + intros i c Hs. destruct (slot_init buf i c Hs) as [A B]. destruct (fresh_ring_wf c (init_clean buf i c Hs B)) as (F1 & F2 & _). auto.
    + apply init_clean.
    + apply C.
    + intros n. split; [intros []|]. intros [c [Hs Ho]]. destruct (slot_init buf _ c Hs) as [_ B]. contradiction.
  - constructor; cbn; [intros; contradiction..|constructor|tauto|intros; contradiction|reflexivity|reflexivity|exact Hm].
  - exists [], []. split; [reflexivity|]. split; [exact Logic.I|]. split; [reflexivity|]. split; [reflexivity|]. split; [constructor|reflexivity].
  - intros i c [Hs Ho]. destruct (slot_init buf _ c Hs) as [_ B]. contradiction.
  - auto.
Qed.

Lemma hist_inv_x t x0 ops x g log : fresh_ctx x0 -> (t = true -> Forall no_payload_announce ops) -> xhist x0 ops x g log -> XInv t x g log.
Proof.
  intros F. intros Hn H. induction H as [|ops x g log o code x' evs H IH Hok E].
  - apply init_inv_x. exact F.
  - assert (XV : XInv t x g log) by (apply IH; intros T; specialize (Hn T); rewrite Forall_app in Hn; apply Hn).
    assert (Hno : t = true -> no_payload_announce o) by (intros T; specialize (Hn T); rewrite Forall_app in Hn; destruct Hn as [_ Hn]; inversion Hn; assumption).
    pose proof (step_inv_x t x g log o XV Hok Hno) as S. rewrite E in S. exact S.
Qed.
