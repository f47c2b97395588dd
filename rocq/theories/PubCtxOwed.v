(** PubCtxOwed.v — what each call of the publisher context does to what its subscribers owe. *)
From Coq Require Import Sorting.Permutation Sorting.Sorted.
From Verif Require Import Base CircBuf CircBufProofs Wire ListHeap SeqList Pub SpecPub PubProofs PubTrace PropPub Proto SpecProto ProtoProofs
  Conn SpecConn ConnProofs Safe PubCtx SpecPubCtx PubCtxProofs PubCtxSteps.

(** ** Claims *)
Definition claim (sp : spec) (n : nat) (k ts : Z) : Prop :=
  exists e, In e (sp_live sp) /\ e_pid e = k /\ e_ts e = ts /\ In n (e_hold e).
Lemma owed_inv x sp L Q i k ts : Inv (x_pub x) sp L Q -> owed x i k ts <-> claim sp (Z.to_nat i) k ts.
Proof.
  intros I. unfold owed, claim. rewrite in_map_iff. split.
  - intros (a & E & Ha). destruct (sinf_entry _ _ _ _ _ a I Ha) as (e & He & Hh). exists e.
    injection E as <- <-. split; [exact (inv_entry_in I a e He)|]. unfold pid_of, ts_of. rewrite (i_packL _ _ _ _ I a e He). auto.
  - intros (e & He & Ek & Et & Hh). rewrite <- (i_L _ _ _ _ I) in He. apply in_map_iff in He. destruct He as ([a e'] & E & He). cbn [snd] in E. subst e'.
    exists a. split; [unfold pid_of, ts_of; rewrite (i_packL _ _ _ _ I a e He); cbn [pk_entry pk_pid pk_ts]; congruence|].
    rewrite (inv_sinf I), <- in_rev. apply in_map_iff. exists (a, e). split; [reflexivity|]. apply filter_In. split; [exact He|]. apply mem_In. exact Hh.
Qed.
Lemma owes_owed x i k : owes x i k <-> exists ts, owed x i k ts.
Proof.
  unfold owes, owed. rewrite in_map_iff. split.
  - intros (a & E & Ha). exists (ts_of (x_pub x) a). apply in_map_iff. exists a. rewrite E. auto.
  - intros (ts & H). apply in_map_iff in H. destruct H as (a & E & Ha). exists a. injection E as E1 E2. auto.
Qed.
Lemma claim_release sp sp' n (f : Z -> bool) m k ts : sp_live sp' = fst (release n (fun e => f (e_pid e)) (sp_live sp)) ->
  claim sp' m k ts <-> claim sp m k ts /\ ~ (m = n /\ f k = true).
Proof.
  intros E. unfold claim. rewrite E. split.
  - intros (e & He & <- & <- & Hh). apply release_sub_in in He. destruct He as (g & Hg & [[Hn ->]|(Hy & -> & _)]).
    + split; [exists g; auto|]. intros [-> Hf]. unfold hit in Hn. rewrite Hf in Hn. cbn [andb] in Hn. apply mem_nIn in Hn. tauto.
    + cbn [drop_claim e_pid e_ts e_hold] in *. apply In_rm in Hh. destruct Hh as [H1 H2]. split; [exists g; auto|]. intros [-> _]. tauto.
  - intros ((e & He & <- & <- & Hh) & N). destruct (hit n (fun e => f (e_pid e)) e) eqn:Eh.
    + assert (Hm : In m (rm n (e_hold e))).
      { apply In_rm. split; [exact Hh|]. intros ->. apply N. unfold hit in Eh. apply andb_prop in Eh. tauto. }
      exists (drop_claim n e). split; [|auto]. apply release_drop; [exact He|exact Eh|]. intros X. rewrite X in Hm. destruct Hm.
    + exists e. split; [apply PubTrace.release_keep; assumption|auto].
Qed.
(** Sending: the packet is owed by whoever is registered. *)
Lemma claim_pid_range s sp L Q n k ts : Inv s sp L Q -> claim sp n k ts -> 1 <= k < sp_next sp /\ In n (sp_reg sp).
Proof.
  intros I (e & He & <- & _ & Hh). split.
  - pose proof (i_pidr _ _ _ _ I) as Hr. rewrite Forall_app in Hr. destruct Hr as [Hr _]. rewrite Forall_map, Forall_forall in Hr. exact (Hr e He).
  - destruct (i_hold _ _ _ _ I e He) as [_ Hi]. exact (Hi n Hh).
Qed.
Lemma claim_ts s sp L Q n m k ts ts' : Inv s sp L Q -> claim sp n k ts -> claim sp m k ts' -> ts = ts'.
Proof.
  intros I (e & He & E1 & <- & _) (e' & He' & E2 & <- & _). rewrite (pid_inj _ _ _ _ e e' I He He'); [reflexivity|congruence].
Qed.

(** ** The packets in flight *)
Definition fly (e : entry) : Z * (Z * Z) := (e_pid e, pl2 (e_pl e)).
Lemma flying_inv x sp L Q : Inv (x_pub x) sp L Q -> flying x = rev (map fly (sp_live sp)).
Proof.
  intros I. unfold flying. rewrite (inv_infl I), map_rev. f_equal. rewrite <- (i_L _ _ _ _ I), !map_map. apply map_ext_in.
  intros [a e] H. cbn [fst snd]. rewrite (i_packL _ _ _ _ I a e H). destruct e as [k [[p l] u] ts h]. reflexivity.
Qed.
Lemma flying_release n sel live :
  Permutation (map (fun e => pl2 (e_pl e)) (fst (release n sel live)) ++ map pl2 (snd (release n sel live))) (map (fun e => pl2 (e_pl e)) live).
Proof.
  pose proof (release_perm n sel live) as P. apply (Permutation_map pl2) in P. rewrite map_app, !map_map in P. exact P.
Qed.

(** ** One acknowledgement, an interval *)
Lemma ack_live sp n k : sp_live (fst (spec_step sp (OpAck n k))) = fst (release n (fun e => e_pid e =? k) (sp_live sp)).
Proof. cbn [spec_step]. destruct (release _ _ _). reflexivity. Qed.
Lemma claim_ack sp n k m j ts : claim (fst (spec_step sp (OpAck n k))) m j ts <-> claim sp m j ts /\ ~ (m = n /\ j = k).
Proof.
  rewrite (claim_release sp _ n (fun j => j =? k) m j ts (ack_live sp n k)). rewrite Z.eqb_eq. tauto.
Qed.
Lemma claim_unsub sp n m j ts : claim (fst (spec_step sp (OpUnsubscribe n))) m j ts <-> claim sp m j ts /\ m <> n.
Proof.
  rewrite (claim_release sp _ n (fun _ => true) m j ts) by (cbn [spec_step]; destruct (release _ _ _); reflexivity). tauto.
Qed.

(** ** Resending *)
Lemma resend_ring t x g log sp L Q i c a e code x' evs : XI t x g log sp L Q -> is_open (x_vec x) i c -> In (a, e) L ->
  rmc_pub_resend_packet x i a = Ok (code, x', evs) ->
  (forall j, j <> i -> 0 <= j -> slot (x_vec x') j = slot (x_vec x) j) /\
  exists c', is_open (x_vec x') i c' /\
    ((code = EAGAIN /\ circ_buf_available (c_wbuf c) < 21 + len_of (e_pl e) /\ contents (c_wbuf c') = contents (c_wbuf c)) \/
     (code = 0 /\ 21 + len_of (e_pl e) <= circ_buf_available (c_wbuf c) /\
      exists m, packet_cmd (x_node x) (x_lip x) (g_data g) (e_pid e) m /\ contents (c_wbuf c') = contents (c_wbuf c) ++ wire m)).
Proof.
  intros X Ho Hin. pose proof (slot_range _ _ _ (proj1 Ho)) as R.
  destruct (live_facts _ _ _ _ _ _ _ a e X Hin) as (Eg & Hpid & Hl & bs & El & Hbl & Hbb & Hnth).
  destruct (vi_ring _ _ (xi_vec _ _ _ _ _ _ _ X) i c (proj1 Ho)) as [Hw Hz].
  unfold rmc_pub_resend_packet. rewrite (proj1 Ho). cbn [bind]. rewrite Eg. cbn [bind].
  change (pk_len (pk_entry e)) with (len_of (e_pl e)). change (pk_payload (pk_entry e)) with (ptr_of (e_pl e)).
  unfold setup_packet_header. change (pk_len (pk_entry e)) with (len_of (e_pl e)). change (pk_pid (pk_entry e)) with (e_pid e).
  set (h := Wire.mkHdr (e_pid e) (x_node x) (len_of (e_pl e)) (x_lip x) (x_lport x)).
  change (1 + header_size) with 21.
  destruct (write_packet_spec (c_wbuf c) h bs Hw) as (W1 & W2 & W3). rewrite Hbl in W1, W2, W3.
  assert (Fin : forall k wb' (D : Prop), D ->
    (if Z.land (c_action c) POLLWRITE =? 0
       then Ok (k, set_vec x (put_slot (x_vec x) i (set_action (set_wbuf c wb') (Z.lor (c_action c) POLLWRITE))),
              [PvConn (EvMod (c_desc c) i (c_action c) (Z.lor (c_action c) POLLWRITE))])
       else Ok (k, set_vec x (put_slot (x_vec x) i (set_wbuf c wb')), [])) = Ok (code, x', evs) ->
    D /\ code = k /\ (forall j, j <> i -> 0 <= j -> slot (x_vec x') j = slot (x_vec x) j) /\
    exists c', is_open (x_vec x') i c' /\ c_wbuf c' = wb').
  { intros k wb' D HD E. split; [exact HD|]. destruct (_ =? 0); injection E as <- <- <-; cbn [set_vec x_vec].
    - split; [reflexivity|]. split; [intros j N H; apply slot_put_other; [lia|exact N]|].
      eexists. split; [split; [apply slot_put_same; exact R|exact (proj2 Ho)]|reflexivity].
    - split; [reflexivity|]. split; [intros j N H; apply slot_put_other; [lia|exact N]|].
      eexists. split; [split; [apply slot_put_same; exact R|exact (proj2 Ho)]|reflexivity]. }
  destruct (Z.ltb_spec (circ_buf_available (c_wbuf c)) (21 + len_of (e_pl e))) as [A|A].
  - cbn [bind fst snd]. intros E. destruct (Fin _ _ True Logic.I E) as (_ & -> & Hoth & c' & Ho' & Hc'). split; [exact Hoth|].
    exists c'. split; [exact Ho'|]. left. rewrite Hc'. auto.
  - rewrite El. cbn [bind]. destruct (Z.eq_dec (cb_stop (c_wbuf c)) (cb_size (c_wbuf c))) as [S|S].
    + rewrite (W3 A S). discriminate.
    + pose proof (cb_wf_stop _ Hw) as Hst. destruct (W2 A ltac:(lia)) as (wb' & -> & Hw' & Hz' & _ & Hc' & _). cbn [bind fst snd].
      intros E. destruct (Fin _ _ True Logic.I E) as (_ & -> & Hoth & c' & Ho' & Hwb). split; [exact Hoth|].
      exists c'. split; [exact Ho'|]. right. split; [reflexivity|]. split; [exact A|]. exists (CmdPacket h bs). rewrite Hwb. split; [|exact Hc'].
      exists bs, (x_lport x). split; [unfold h; rewrite Hbl; reflexivity|]. split; [lia|]. split; [exact Hnth|]. cbn [cmd_ok].
      split; [|split; [unfold h; cbn [h_len]; lia|exact Hbb]].
      destruct (xi_hdr _ _ _ _ _ _ _ X) as (H1 & H2 & H3). unfold hdr_ok, h, is_u64, is_u16, RMC_MAX_PAYLOAD in *. cbn [h_pid h_node h_len h_ip h_port]. intuition lia.
Qed.

(** The effect of timeout processing: [d j] was put on the stream of connection [j], and
    exactly that is no longer owed. *)
Definition PR (x x' : pctx) (g : ghost) (d : Z -> list cmd) : Prop :=
  (forall j c, is_open (x_vec x) j c -> exists c', is_open (x_vec x') j c' /\ contents (c_wbuf c') = contents (c_wbuf c) ++ flat_map wire (d j)) /\
  (forall j, Forall (fun m => exists k, packet_cmd (x_node x) (x_lip x) (g_data g) k m) (d j)) /\
  (forall j k ts, 0 <= j -> owed x' j k ts <-> owed x j k ts /\ ~ In k (ids (d j))).
Lemma PR_refl x g : PR x x g (fun _ => []).
Proof.
  split; [|split; [constructor|]].
  - intros j c H. exists c. cbn [flat_map]. rewrite app_nil_r. auto.
  - intros j k ts _. cbn. tauto.
Qed.
Lemma PR_trans x x1 x2 g g1 d1 d2 : PR x x1 g d1 -> same_cfg x x1 -> g_data g1 = g_data g -> PR x1 x2 g1 d2 -> PR x x2 g (fun j => d1 j ++ d2 j).
Proof.
  intros (A1 & A2 & A3) Cf Eg (B1 & B2 & B3). split; [|split].
  - intros j c Ho. destruct (A1 j c Ho) as (c1 & Ho1 & E1). destruct (B1 j c1 Ho1) as (c2 & Ho2 & E2). exists c2. split; [exact Ho2|].
    rewrite E2, E1, flat_map_app, app_assoc. reflexivity.
  - intros j. apply Forall_app. split; [apply A2|]. specialize (B2 j). destruct Cf as (_ & _ & _ & _ & _ & _ & _ & _ & En & El & _).
    rewrite En, El, Eg in B2. exact B2.
  - intros j k ts Hj. rewrite (B3 j k ts Hj), (A3 j k ts Hj), ids_app, in_app_iff. tauto.
Qed.
Lemma PR_ext x x' g d d' : PR x x' g d -> (forall j, d' j = d j) -> PR x x' g d'.
Proof.
  intros (A1 & A2 & A3) E. split; [|split].
  - intros j c Ho. rewrite E. exact (A1 j c Ho).
  - intros j. rewrite E. apply A2.
  - intros j k ts Hj. rewrite E. exact (A3 j k ts Hj).
Qed.
Definition only (i : Z) (l : list cmd) : Z -> list cmd := fun j => if j =? i then l else [].

Lemma sent_timeout_pr t x g log sp L Q i c a e code x' evs : XI t x g log sp L Q -> is_open (x_vec x) i c -> In (a, e) L -> In (Z.to_nat i) (e_hold e) ->
  process_sent_packet_timeout x i a = Ok (code, x', evs) ->
  exists l, PR x x' g (only i l) /\
    ((code = 0 /\ ids l = [e_pid e] /\ 21 + len_of (e_pl e) <= circ_buf_available (c_wbuf c)) \/
     (code = EAGAIN /\ l = [] /\ circ_buf_available (c_wbuf c) < 21 + len_of (e_pl e))).
Proof.
  intros X Ho Hin Hh. pose proof (slot_range _ _ _ (proj1 Ho)) as R.
  destruct (live_facts _ _ _ _ _ _ _ a e X Hin) as (Eg & _).
  destruct (vi_mode _ _ (xi_vec _ _ _ _ _ _ _ X) i c (proj1 Ho)) as (_ & _ & Hm). destruct Ho as [Hs Hcl]. destruct Hm as [Hm|Hm]; [contradiction|].
  unfold process_sent_packet_timeout. rewrite Hs. cbn [bind]. rewrite Eg. cbn [bind]. rewrite Hm. change (CONNECTED =? CONNECTED) with true. cbn [negb].
  change (pk_pid (pk_entry e)) with (e_pid e).
  destruct (resend_xi t x g log sp L Q i c a e X (conj Hs Hcl) Hin Hh) as [(_ & _ & ->)|(cd & x1 & ev1 & E & X1 & Ep & Esu & _ & Cf & Ko & _ & Hcase)]; [discriminate|].
  destruct (resend_ring t x g log sp L Q i c a e _ _ _ X (conj Hs Hcl) Hin E) as (Hoth & c1 & Ho1 & Hr).
  rewrite E. cbn [bind]. 
  assert (Owe : forall j k ts, owed x1 j k ts <-> owed x j k ts) by (intros; unfold owed; rewrite Ep; tauto).
  assert (Ring : forall l, contents (c_wbuf c1) = contents (c_wbuf c) ++ flat_map wire l ->
    forall j d, is_open (x_vec x) j d -> exists d', is_open (x_vec x1) j d' /\ contents (c_wbuf d') = contents (c_wbuf d) ++ flat_map wire (only i l j)).
  { intros l Hl j d Hd. destruct (Z.eq_dec j i) as [->|N].
    - assert (d = c) by (destruct Hd; congruence). subst d. exists c1. unfold only. rewrite Z.eqb_refl. auto.
    - exists d. unfold only. apply Z.eqb_neq in N. rewrite N. apply Z.eqb_neq in N. cbn [flat_map]. rewrite app_nil_r. split; [|reflexivity].
      destruct Hd as [H1 H2]. pose proof (slot_range _ _ _ H1). split; [rewrite Hoth by (lia || exact N); exact H1|exact H2]. }
  destruct Hr as [(-> & Hav & Hc)|(-> & Hav & m & Hm1 & Hc)].
  - change (EAGAIN =? 0) with false. intros H. injection H as <- <- <-. exists []. split; [|right; auto].
    split; [|split].
    + intros j d Hd. exact (Ring [] ltac:(cbn [flat_map]; rewrite app_nil_r; exact Hc) j d Hd).
    + intros j. unfold only. destruct (j =? i); constructor.
    + intros j k ts _. rewrite Owe. unfold only. destruct (j =? i); cbn; tauto.
  - change (0 =? 0) with true. destruct Hcase as [(H & _)|(_ & _ & Hst)]; [discriminate H|].
    destruct (ack_xi _ t x1 _ _ sp L Q i (e_pid e) X1 ltac:(lia) ltac:(intros; split; congruence)) as (x2 & L2 & fr & -> & Es & X2 & S2 & Hsu & Hk).
    { intros d cmds Hd E1 F. left. exact (Hst d cmds Hd E1 F). }
    cbn [bind fst snd]. intros H. injection H as <- <- <-. exists [m].
    assert (Im : ids [m] = [e_pid e]) by (destruct Hm1 as (p & port & -> & _); reflexivity).
    split; [|left; auto].
    assert (Ev : x_vec x2 = x_vec x1) by exact (proj1 S2).
    split; [|split].
    + intros j d Hd. rewrite Ev. apply (Ring [m]); [cbn [flat_map]; rewrite app_nil_r; exact Hc|exact Hd].
    + intros j. unfold only. destruct (j =? i); repeat constructor. exists (e_pid e). exact Hm1.
    + intros j k ts Hj. rewrite (owed_inv _ _ _ _ _ _ _ (xi_pub _ _ _ _ _ _ _ X2)), claim_ack, <- (owed_inv _ _ _ _ _ _ _ (xi_pub _ _ _ _ _ _ _ X1)), Owe.
      unfold only. destruct (Z.eqb_spec j i) as [->|N]; [rewrite Im; cbn [In]; intuition congruence|]. cbn [ids flat_map In]. 
      split; intros [H1 H2]; (split; [exact H1|]); [tauto|]. intros [H3 _]. apply N. lia.
Qed.

Lemma resend_loop_pr t i : forall packs x g log c code x' evs, XInv t x g log -> is_open (x_vec x) i c -> NoDup packs -> incl packs (p_sinf (x_pub x) (Z.to_nat i)) ->
  resend_loop x i packs = Ok (code, x', evs) ->
  exists l dn rest, PR x x' g (only i l) /\ packs = dn ++ rest /\ ids l = map (pid_of (x_pub x)) dn /\
    ((code = 0 /\ rest = []) \/ (code = EAGAIN /\ rest <> [])).
Proof.
  induction packs as [|a packs IH]; intros x g log c code x' evs XV Ho ND Hi; cbn [resend_loop].
  - intros E. injection E as <- <- <-. exists [], [], []. split; [eapply PR_ext; [apply PR_refl|]; intros j; unfold only; destruct (_ =? _); reflexivity|]. auto.
  - destruct XV as (sp & L & Q & X). pose proof (xi_pub _ _ _ _ _ _ _ X) as I. inversion ND as [|? ? N1 N2]; subst.
    destruct (sinf_entry _ _ _ _ _ a I (Hi a (or_introl eq_refl))) as (e & He & Hh).
    destruct (process_sent_packet_timeout x i a) as [[[cd x1] ev1]| | |] eqn:E1; cbn [bind]; [|discriminate..].
    pose proof (sent_timeout_xi t x g log sp L Q i c a e X Ho He Hh) as S. rewrite E1 in S. cbn [safe] in S.
    destruct S as (sp' & L' & X1 & Cf & Ko & _ & _ & Cc & Hk).
    destruct (sent_timeout_pr t x g log sp L Q i c a e _ _ _ X Ho He Hh E1) as (l & P1 & Hc).
    pose proof (inv_pidL I a e He) as Epid.
    destruct Hc as [(-> & El & _)|(-> & -> & _)].
    + change (0 =? 0) with true. cbn [negb]. destruct (proj2 Ko i c Ho) as (c1 & Ho1 & _).
      destruct (resend_loop x1 i packs) as [[[cd2 x2] ev2]| | |] eqn:E2; cbn [bind]; [|discriminate..].
      intros H. injection H as <- <- <-.
      assert (Hi1 : incl packs (p_sinf (x_pub x1) (Z.to_nat i))).
      { intros b Hb. apply Hk; [apply Hi; right; exact Hb|].
        destruct (sinf_entry _ _ _ _ _ b I (Hi b (or_intror Hb))) as (f & Hf & _). rewrite (inv_pidL I b f Hf).
        intros E. apply N1. rewrite (live_pid_inj _ _ _ _ _ _ _ _ I He Hf (eq_sym E)). exact Hb. }
      destruct (IH x1 (g_unlend g ev1) (log ++ ev1) c1 _ _ _ (ex_intro _ sp' (ex_intro _ L' (ex_intro _ Q X1))) Ho1 N2 Hi1 E2) as (l2 & dn & rest & P2 & Ep & El2 & Hc2).
      exists (l ++ l2), (a :: dn), rest. split; [|split; [rewrite Ep; reflexivity|split; [|exact Hc2]]].
      * eapply PR_ext; [exact (PR_trans _ _ _ _ _ _ _ P1 Cf eq_refl P2)|]. intros j. unfold only. destruct (_ =? _); reflexivity.
      * rewrite ids_app, El, El2. cbn [map app]. rewrite Epid. f_equal. apply map_ext_in. intros b Hb.
        assert (Hbp : In b packs) by (rewrite Ep; apply in_or_app; left; exact Hb).
        destruct (sinf_entry _ _ _ _ _ b I (Hi b (or_intror Hbp))) as (f & Hf & _). rewrite (inv_pidL I b f Hf).
        rewrite <- (inv_pidL I b f Hf). apply Hk; [apply Hi; right; exact Hbp|].
        rewrite (inv_pidL I b f Hf). intros E. apply N1. rewrite (live_pid_inj _ _ _ _ _ _ _ _ I He Hf (eq_sym E)). exact Hbp.
    + change (EAGAIN =? 0) with false. cbn [negb]. intros H. injection H as <- <- <-. exists [], [], (a :: packs).
      split; [exact P1|]. split; [reflexivity|]. split; [reflexivity|]. right. split; [reflexivity|discriminate].
Qed.

(** ** Which packets are resent *)
Lemma SS_gt_rev : forall l, StronglySorted Z.lt l -> StronglySorted Z.gt (rev l).
Proof.
  induction l as [|y l IH]; intros S; [constructor|]. inversion S as [|? ? S1 S2]; subst. cbn [rev].
  specialize (IH S1). rewrite Forall_forall in S2.
  assert (H : forall z, In z (rev l) -> z > y) by (intros z Hz; apply in_rev, S2 in Hz; lia).
  revert IH H. generalize (rev l). clear. induction l as [|z l IH]; intros S H; cbn [app]; [repeat constructor|].
  inversion S as [|? ? S1 S2]; subst. constructor; [apply IH; [exact S1|intros w Hw; apply H; right; exact Hw]|].
  apply Forall_app. split; [exact S2|]. constructor; [apply H; left; reflexivity|constructor].
Qed.
Lemma sinf_sorted s sp L Q n : Inv s sp L Q -> StronglySorted Z.gt (map (pid_of s) (p_sinf s n)).
Proof.
  intros I. rewrite (inv_sinf I), map_rev. apply SS_gt_rev.
  pose proof (SSapp_l _ _ _ (i_sort _ _ _ _ I)) as S. rewrite <- (i_L _ _ _ _ I) in S.
  assert (HP : forall a e, In (a, e) L -> pid_of s a = e_pid e) by (intros a e; apply (inv_pidL I)). clear I.
  induction L as [|[a e] L IH]; [constructor|]. cbn [map snd] in S. inversion S as [|? ? S1 S2]; subst.
  specialize (IH S1 (fun b f H => HP b f (or_intror H))). cbn [filter]. destruct (holds n (a, e)); [|exact IH].
  cbn [map fst]. constructor; [exact IH|]. rewrite Forall_forall in S2. apply Forall_forall. intros y Hy. apply in_map_iff in Hy.
  destruct Hy as (b & <- & Hb). apply in_map_fst in Hb. destruct Hb as [f Hf]. apply filter_In in Hf. destruct Hf as [Hf _].
  rewrite (HP a e (or_introl eq_refl)), (HP b f (or_intror Hf)). apply S2. apply in_map. apply (in_map snd _ _ Hf).
Qed.

(** Packet [k] is owed by [i], and it and all newer ones owed have timed out. *)
Definition tosend (x : pctx) (now i k : Z) : Prop :=
  (exists ts, owed x i k ts) /\ (forall k' ts', owed x i k' ts' -> k <= k' -> ts' + x_resend x <= now).
Lemma timed_out_packs_sel s now timeout : forall l packs, StronglySorted Z.gt (map (pid_of s) l) -> timed_out_packs s now timeout l = Ok packs ->
  forall k, In k (map (pid_of s) packs) <-> In k (map (pid_of s) l) /\ (forall b, In b l -> k <= pid_of s b -> ts_of s b + timeout <= now).
Proof.
  induction l as [|a l IH]; intros packs S; cbn [timed_out_packs].
  - intros E k. injection E as <-. cbn. tauto.
  - unfold get_pack. destruct (p_packs s a) as [p|] eqn:Ep; cbn [bind]; [|discriminate].
    assert (Et : ts_of s a = pk_ts p) by (unfold ts_of; rewrite Ep; reflexivity).
    cbn [map] in S. inversion S as [|? ? S1 S2]; subst. rewrite Forall_forall in S2.
    destruct (Z.leb_spec (pk_ts p + timeout) now) as [Hd|Hd].
    + destruct (timed_out_packs s now timeout l) as [tl| | |] eqn:E1; cbn [bind]; [|discriminate..]. intros E k. injection E as <-.
      cbn [map In]. rewrite (IH tl S1 eq_refl k). split.
      * intros [<-|[H1 H2]].
        -- split; [left; reflexivity|]. intros b [<-|Hb] Hk; [lia|]. specialize (S2 _ (in_map (pid_of s) _ _ Hb)). lia.
        -- split; [right; exact H1|]. intros b [<-|Hb] Hk; [lia|]. exact (H2 b Hb Hk).
      * intros [[H|H] H2]; [left; exact H|right]. split; [exact H|]. intros b Hb. exact (H2 b (or_intror Hb)).
    + intros E k. injection E as <-. cbn [map In]. split; [intros []|]. intros [H H2].
      assert (k <= pid_of s a) by (destruct H as [<-|H]; [lia|]; specialize (S2 _ H); lia).
      specialize (H2 a (or_introl eq_refl) ltac:(lia)). lia.
Qed.
Lemma owed_at x i k ts : owed x i k ts <-> exists a, In a (p_sinf (x_pub x) (Z.to_nat i)) /\ pid_of (x_pub x) a = k /\ ts_of (x_pub x) a = ts.
Proof.
  unfold owed. rewrite in_map_iff. split; intros (a & H).
  - destruct H as [H1 H2]. injection H1 as <- <-. eauto.
  - destruct H as (H1 & <- & <-). exists a. auto.
Qed.

Lemma sub_timeout_pr t x g log n now code x' evs : XInv t x g log -> (exists c, is_open (x_vec x) (Z.of_nat n) c) ->
  process_subscriber_timeout x n now = Ok (code, x', evs) ->
  exists l, PR x x' g (only (Z.of_nat n) l) /\ StronglySorted Z.gt (ids l) /\ (forall k, In k (ids l) -> tosend x now (Z.of_nat n) k) /\
    ((code = 0 /\ forall k, tosend x now (Z.of_nat n) k -> In k (ids l)) \/ (code = EAGAIN /\ exists k, tosend x now (Z.of_nat n) k /\ ~ In k (ids l))).
Proof.
  intros XV [c Ho]. pose proof XV as (sp & L & Q & X). pose proof (xi_pub _ _ _ _ _ _ _ X) as I.
  unfold process_subscriber_timeout, pub_get_timed_out_packets.
  destruct (timed_out_packs (x_pub x) now (x_resend x) (p_sinf (x_pub x) n)) as [packs| | |] eqn:Ep; cbn [bind]; [|discriminate..].
  destruct (timed_out_packs_sub _ _ _ _ _ Ep) as (tl & Etl). intros E.
  assert (ND : NoDup packs).
  { apply (NoDup_app_l _ tl). rewrite <- Etl. pose proof (sinf_sorted _ _ _ _ n I) as S. revert S. generalize (p_sinf (x_pub x) n). clear.
    induction l as [|a l IH]; intros S; [constructor|]. cbn [map] in S. inversion S as [|? ? S1 S2]; subst. constructor; [|exact (IH S1)].
    intros H. rewrite Forall_forall in S2. specialize (S2 _ (in_map (pid_of (x_pub x)) _ _ H)). lia. }
  destruct (resend_loop_pr t (Z.of_nat n) packs x g log c code x' evs XV Ho ND) as (l & dn & rest & P & Epk & Eid & Hc).
  { rewrite Nat2Z.id, Etl. apply incl_appl, incl_refl. }
  { exact E. }
  assert (Sel : forall k, In k (map (pid_of (x_pub x)) packs) <-> tosend x now (Z.of_nat n) k).
  { intros k. rewrite (timed_out_packs_sel _ _ _ _ _ (sinf_sorted _ _ _ _ n I) Ep k). unfold tosend. split; intros [H1 H2]; split.
    - apply in_map_iff in H1. destruct H1 as (a & <- & Ha). exists (ts_of (x_pub x) a). apply owed_at. exists a. rewrite Nat2Z.id. auto.
    - intros k' ts' H Hk. apply owed_at in H. destruct H as (a & Ha & <- & <-). rewrite Nat2Z.id in Ha. exact (H2 a Ha Hk).
    - destruct H1 as [ts H]. apply owed_at in H. destruct H as (a & Ha & <- & _). rewrite Nat2Z.id in Ha. apply in_map. exact Ha.
    - intros b Hb Hk. apply (H2 (pid_of (x_pub x) b)); [|exact Hk]. apply owed_at. exists b. rewrite Nat2Z.id. auto. }
  exists l. split; [exact P|]. split.
  { pose proof (sinf_sorted _ _ _ _ n I) as S. rewrite Etl, Epk, !map_app in S. apply SSapp_l in S. apply SSapp_l in S. rewrite Eid. exact S. }
  split.
  - intros k Hk. apply Sel. rewrite Epk, map_app. apply in_or_app. left. rewrite <- Eid. exact Hk.
  - destruct Hc as [[-> ->]|[-> Hr]]; [left|right]; (split; [reflexivity|]).
    + intros k Hk. apply Sel in Hk. rewrite app_nil_r in Epk. rewrite Eid, <- Epk. exact Hk.
    + destruct rest as [|a rest]; [congruence|]. exists (pid_of (x_pub x) a). split.
      * apply Sel. rewrite Epk. apply in_map. apply in_or_app. right. left. reflexivity.
      * rewrite Eid. pose proof (sinf_sorted _ _ _ _ n I) as S. rewrite Etl, Epk, !map_app, <- app_assoc in S. cbn [map app] in S.
        intros H. pose proof (SSapp_lt _ _ _ (pid_of (x_pub x) a) (pid_of (x_pub x) a) S H (or_introl eq_refl)). lia.
Qed.

Lemma subs_loop_pr t now : forall subs x g log code x' evs, XInv t x g log -> NoDup subs ->
  (forall n, In n subs -> exists c, is_open (x_vec x) (Z.of_nat n) c) ->
  subs_loop x now subs = Ok (code, x', evs) ->
  exists d, PR x x' g d /\ (forall j, 0 <= j -> StronglySorted Z.gt (ids (d j))) /\ (forall j, 0 <= j -> ~ In (Z.to_nat j) subs -> d j = []) /\
    (forall n k, In n subs -> In k (ids (d (Z.of_nat n))) -> tosend x now (Z.of_nat n) k) /\
    ((code = 0 /\ forall n k, In n subs -> tosend x now (Z.of_nat n) k -> In k (ids (d (Z.of_nat n)))) \/
     (code = EAGAIN /\ exists n k, In n subs /\ tosend x now (Z.of_nat n) k /\ ~ In k (ids (d (Z.of_nat n))))).
Proof.
  induction subs as [|n subs IH]; intros x g log code x' evs XV ND H; cbn [subs_loop].
  - intros E. injection E as <- <- <-. exists (fun _ => []). split; [apply PR_refl|]. split; [constructor|]. split; [reflexivity|]. split; [intros ? ? []|]. left. split; [reflexivity|]. intros ? ? [].
  - inversion ND as [|? ? N1 N2]; subst.
    pose proof (sub_timeout_inv t x g log n now XV (H n (or_introl eq_refl))) as S.
    destruct (process_subscriber_timeout x n now) as [[[cd x1] ev1]| | |] eqn:E1; cbn [bind]; [|discriminate..]. cbn [safe] in S.
    destruct S as (XV1 & Cf & Ko & _).
    destruct (sub_timeout_pr t x g log n now _ _ _ XV (H n (or_introl eq_refl)) E1) as (l & P1 & G1 & S1 & C1).
    destruct C1 as [[-> C1]|[-> C1]].
    + change (0 =? 0) with true. cbn [negb]. destruct (subs_loop x1 now subs) as [[[cd2 x2] ev2]| | |] eqn:E2; cbn [bind]; [|discriminate..].
      intros E. injection E as <- <- <-.
      destruct (IH x1 (g_unlend g ev1) (log ++ ev1) cd2 x2 ev2 XV1 N2) as (d & P2 & G2 & Z2 & S2 & C2).
      { intros m Hm. destruct (H m (or_intror Hm)) as [c Hc]. destruct (proj2 Ko _ c Hc) as (c' & Hc' & _). eauto. }
      { exact E2. }
      assert (Same : forall m k ts, m <> n -> owed x1 (Z.of_nat m) k ts <-> owed x (Z.of_nat m) k ts).
      { intros m k ts Nm. rewrite (proj2 (proj2 P1) (Z.of_nat m) k ts) by lia. unfold only. replace (Z.of_nat m =? Z.of_nat n) with false by lia. cbn. tauto. }
      assert (Er : x_resend x1 = x_resend x) by (destruct Cf; tauto).
      assert (SameS : forall m k, m <> n -> tosend x1 now (Z.of_nat m) k <-> tosend x now (Z.of_nat m) k).
      { intros m k Nm. unfold tosend. rewrite Er. split; intros [[ts H1] H2]; (split; [exists ts; apply (Same m k ts Nm); exact H1|]);
          intros k' ts' H3; apply (H2 k' ts'); apply (Same m k' ts' Nm); exact H3. }
      assert (Dm : forall m, m <> n -> (fun j => only (Z.of_nat n) l j ++ d j) (Z.of_nat m) = d (Z.of_nat m)).
      { intros m Nm. unfold only. replace (Z.of_nat m =? Z.of_nat n) with false by lia. reflexivity. }
      assert (Dn : (fun j => only (Z.of_nat n) l j ++ d j) (Z.of_nat n) = l).
      { cbv beta. unfold only. rewrite Z.eqb_refl, (Z2 (Z.of_nat n)), app_nil_r; [reflexivity|lia|rewrite Nat2Z.id; exact N1]. }
      exists (fun j => only (Z.of_nat n) l j ++ d j). split; [exact (PR_trans _ _ _ _ _ _ _ P1 Cf eq_refl P2)|]. split.
      { intros j Hj. destruct (Nat.eq_dec (Z.to_nat j) n) as [Q|Q]; [replace j with (Z.of_nat n) by lia; rewrite Dn; exact G1|].
        replace j with (Z.of_nat (Z.to_nat j)) by lia. rewrite (Dm _ Q). apply G2. lia. }
      split; [|split].
      * intros j Hj Nj. rewrite (Z2 j Hj); [|intros X; apply Nj; right; exact X]. unfold only.
        replace (j =? Z.of_nat n) with false; [reflexivity|]. symmetry. apply Z.eqb_neq. intros ->. apply Nj. left. rewrite Nat2Z.id. reflexivity.
      * intros m k Hm. destruct (Nat.eq_dec m n) as [->|Nm]; [rewrite Dn; apply S1|]. rewrite (Dm m Nm). destruct Hm as [->|Hm]; [congruence|].
        intros Hk. apply SameS; [exact Nm|]. exact (S2 m k Hm Hk).
      * destruct C2 as [[-> C2]|[-> (m & k & Hm & Hk & Nk)]]; [left|right]; (split; [reflexivity|]).
        -- intros m k Hm. destruct (Nat.eq_dec m n) as [->|Nm]; [rewrite Dn; apply C1|]. rewrite (Dm m Nm). destruct Hm as [->|Hm]; [congruence|].
           intros Hk. apply C2; [exact Hm|]. apply SameS; assumption.
        -- assert (Nm : m <> n) by (intros ->; contradiction). exists m, k. split; [right; exact Hm|]. split; [apply SameS; assumption|]. rewrite (Dm m Nm). exact Nk.
    + change (EAGAIN =? 0) with false. cbn [negb]. intros E. injection E as <- <- <-. exists (only (Z.of_nat n) l).
      assert (Dn : only (Z.of_nat n) l (Z.of_nat n) = l) by (unfold only; rewrite Z.eqb_refl; reflexivity).
      split; [exact P1|]. split; [intros j Hj; unfold only; destruct (_ =? _); [exact G1|constructor]|]. split; [|split].
      * intros j Hj Nj. unfold only. replace (j =? Z.of_nat n) with false; [reflexivity|]. symmetry. apply Z.eqb_neq. intros ->. apply Nj. left. rewrite Nat2Z.id. reflexivity.
      * intros m k [<-|Hm]; [rewrite Dn; apply S1|]. unfold only. replace (Z.of_nat m =? Z.of_nat n) with false; [intros []|]. symmetry. apply Z.eqb_neq. intros X. apply N1. replace n with m by lia. exact Hm.
      * right. split; [reflexivity|]. destruct C1 as (k & H1 & H2). exists n, k. rewrite Dn. split; [left; reflexivity|]. auto.
Qed.

(** Subscribers looked at: the ones whose oldest packet has timed out. *)
Lemma timed_out_subs_sel s now timeout : forall l subs, timed_out_subs s now timeout l = Ok subs ->
  forall n, In n subs <-> In n l /\ exists a, last_opt (p_sinf s n) = Some a /\ ts_of s a + timeout <= now.
Proof.
  induction l as [|m l IH]; intros subs; cbn [timed_out_subs]; [intros E n; injection E as <-; cbn; tauto|].
  match goal with |- context [bind ?h _] => destruct h as [b| | |] eqn:Eh end; cbn [bind]; [|discriminate..].
  destruct (timed_out_subs s now timeout l) as [tl| | |] eqn:Et; cbn [bind]; [|discriminate..]. intros E n.
  assert (Hb : b = true <-> exists a, last_opt (p_sinf s m) = Some a /\ ts_of s a + timeout <= now).
  { destruct (last_opt (p_sinf s m)) as [a|].
    - unfold get_pack, ts_of in *. destruct (p_packs s a) as [p|] eqn:Ep; cbn [bind] in Eh; [|discriminate]. injection Eh as <-. split.
      + intros H. exists a. split; [reflexivity|]. unfold ts_of. rewrite Ep. lia.
      + intros (a' & H & H2). injection H as <-. unfold ts_of in H2. rewrite Ep in H2. lia.
    - injection Eh as <-. split; [discriminate|]. intros (a & H & _). discriminate H. }
  specialize (IH tl eq_refl n). injection E as <-. destruct b; cbn [In]; rewrite IH.
  - split; [intros [<-|H]; [split; [left; reflexivity|apply Hb; reflexivity]|tauto]|]. intros [[H|H] H2]; [left; exact H|right; auto].
  - split; [tauto|]. intros [[<-|H] H2]; [apply Hb in H2; discriminate|auto].
Qed.
Lemma timed_out_subs_nd s now timeout : forall l subs, NoDup l -> timed_out_subs s now timeout l = Ok subs -> NoDup subs.
Proof.
  induction l as [|m l IH]; intros subs ND; cbn [timed_out_subs]; [intros E; injection E as <-; constructor|].
  match goal with |- context [bind ?h _] => destruct h as [b| | |] eqn:Eh end; cbn [bind]; [|discriminate..].
  destruct (timed_out_subs s now timeout l) as [tl| | |] eqn:Et; cbn [bind]; [|discriminate..]. intros E. injection E as <-.
  inversion ND as [|? ? N1 N2]; subst. specialize (IH tl N2 eq_refl). destruct b; [|exact IH]. constructor; [|exact IH].
  intros H. apply (timed_out_subs_sel _ _ _ _ _ Et) in H. tauto.
Qed.
Lemma SS_gt_min s : forall l a, StronglySorted Z.gt (map (pid_of s) l) -> last_opt l = Some a -> In a l /\ forall b, In b l -> pid_of s a <= pid_of s b.
Proof.
  intros l a S. unfold last_opt. destruct (rev l) as [|z r] eqn:Er; [discriminate|]. intros E. injection E as ->.
  assert (El : l = rev r ++ [a]) by (rewrite <- (rev_involutive l), Er; reflexivity). subst l. split; [apply in_or_app; right; left; reflexivity|].
  intros b Hb. apply in_app_or in Hb. destruct Hb as [Hb|[<-|[]]]; [|lia]. rewrite map_app in S.
  pose proof (SSapp_lt _ _ _ (pid_of s b) (pid_of s a) S (in_map _ _ _ Hb) (or_introl eq_refl)). lia.
Qed.

(** The whole of rmc_pub_timeout_process when no announce is due. *)
Lemma timeout_pr t x g log now buf o code x' evs : XInv t x g log -> announce_due x now = false ->
  rmc_pub_timeout_process x now buf o = Ok (code, x', evs) ->
  exists d, PR x x' g d /\ (forall j, 0 <= j -> StronglySorted Z.gt (ids (d j))) /\ (forall j k, 0 <= j -> In k (ids (d j)) -> resendable x now j k) /\
    ((code = 0 /\ forall j k, 0 <= j -> resendable x now j k -> In k (ids (d j))) \/
     (code = EAGAIN /\ exists j k, 0 <= j /\ resendable x now j k /\ ~ In k (ids (d j)))).
Proof.
  intros XV Ha. unfold rmc_pub_timeout_process. rewrite Ha. pose proof XV as (sp & L & Q & X). pose proof (xi_pub _ _ _ _ _ _ _ X) as I.
  unfold pub_get_timed_out_subscribers.
  destruct (timed_out_subs (x_pub x) now (x_resend x) (p_subs (x_pub x))) as [subs| | |] eqn:Es; cbn [bind]; [|discriminate..].
  intros E. pose proof (timed_out_subs_sel _ _ _ _ _ Es) as Sel.
  assert (Reg : p_subs (x_pub x) = sp_reg sp) by exact (i_subs _ _ _ _ I).
  assert (ND : NoDup subs) by (eapply timed_out_subs_nd; [|exact Es]; rewrite Reg; exact (i_regnd _ _ _ _ I)).
  destruct (subs_loop_pr t now subs x g log code x' evs XV ND) as (d & P & G & Z0 & S & C).
  { intros n Hn. apply (vi_reg _ _ (xi_vec _ _ _ _ _ _ _ X)). apply Sel in Hn. rewrite <- Reg. tauto. }
  { exact E. }
  assert (RS : forall j k, 0 <= j -> resendable x now j k <-> In (Z.to_nat j) subs /\ tosend x now j k).
  { intros j k Hj. unfold resendable, tosend. rewrite Sel. pose proof (sinf_sorted _ _ _ _ (Z.to_nat j) I) as SS. split.
    - intros (Ho & Hn & k0 & ts0 & Ho0 & Hmin & Hdue). split; [|auto]. split.
      + destruct Ho as [ts Ho]. apply (owed_inv _ _ _ _ _ _ _ I) in Ho. rewrite Reg. exact (proj2 (claim_pid_range _ _ _ _ _ _ _ I Ho)).
      + destruct (last_opt (p_sinf (x_pub x) (Z.to_nat j))) as [a|] eqn:El.
        * exists a. split; [reflexivity|]. destruct (SS_gt_min _ _ _ SS El) as [Hia Hma].
          apply owed_at in Ho0. destruct Ho0 as (b & Hb & <- & <-). specialize (Hma b Hb).
          assert (pid_of (x_pub x) b <= pid_of (x_pub x) a).
          { apply (Hmin (pid_of (x_pub x) a)). unfold owes. apply in_map. exact Hia. }
          assert (a = b); [|subst; exact Hdue].
          destruct (sinf_entry _ _ _ _ _ a I Hia) as (e & He & _). destruct (sinf_entry _ _ _ _ _ b I Hb) as (f & Hf & _).
          apply (live_pid_inj _ _ _ _ _ _ _ _ I He Hf). rewrite <- (inv_pidL I a e He), <- (inv_pidL I b f Hf). lia.
        * unfold last_opt in El. destruct (rev (p_sinf (x_pub x) (Z.to_nat j))) eqn:Er; [|discriminate El].
          apply owed_at in Ho0. destruct Ho0 as (b & Hb & _). apply in_rev in Hb. rewrite Er in Hb. destruct Hb.
    - intros [[_ (a & El & Hdue)] [H1 H2]]. split; [exact H1|]. split; [exact H2|]. destruct (SS_gt_min _ _ _ SS El) as [Hia Hma].
      exists (pid_of (x_pub x) a), (ts_of (x_pub x) a). split; [apply owed_at; eauto|]. split; [|exact Hdue].
      intros k' Hk. unfold owes in Hk. apply in_map_iff in Hk. destruct Hk as (b & <- & Hb). exact (Hma b Hb). }
  exists d. split; [exact P|]. split; [exact G|]. split.
  - intros j k Hj Hk. apply RS; [exact Hj|]. destruct (in_dec Nat.eq_dec (Z.to_nat j) subs) as [Hs|Hs]; [|rewrite (Z0 j Hj Hs) in Hk; destruct Hk].
    split; [exact Hs|]. rewrite <- (Z2Nat.id j Hj). apply (S _ k Hs). rewrite Z2Nat.id by exact Hj. exact Hk.
  - destruct C as [[-> C]|[-> (n & k & Hn & Hk & Nk)]]; [left|right]; (split; [reflexivity|]).
    + intros j k Hj Hr. apply RS in Hr; [|exact Hj]. destruct Hr as [Hs Ht]. rewrite <- (Z2Nat.id j Hj). apply (C _ k Hs). rewrite Z2Nat.id by exact Hj. exact Ht.
    + exists (Z.of_nat n), k. split; [lia|]. split; [|exact Nk]. apply RS; [lia|]. rewrite Nat2Z.id. auto.
Qed.

(** Its events: polling masks and calls of payload_free. *)
Definition calm (e : pev) : Prop := match e with PvConn (EvMod _ _ _ _) | PvFree _ _ => True | _ => False end.
Lemma calm_quiet i evs : Forall calm evs -> Forall (quiet i) evs.
Proof. intros H. eapply Forall_impl; [|exact H]. intros e He s. destruct e as [[]| | | | | | |]; try contradiction; reflexivity. Qed.
Lemma release_all_calm : forall fr m m' evs, release_all m fr = Ok (m', evs) -> Forall calm evs.
Proof.
  induction fr as [|[[p l] u] fr IH]; intros m m' evs; cbn [release_all]; [intros E; injection E as <- <-; constructor|].
  destruct (m p); [|discriminate]. destruct (release_all (updz m p None) fr) as [[m1 e1]| | |] eqn:E1; cbn [bind fst snd]; [|discriminate..].
  intros E. injection E as <- <-. constructor; [exact Logic.I|]. exact (IH _ _ _ E1).
Qed.
Lemma packet_ack_calm x i pid x' evs : rmc_pub_packet_ack x i pid = Ok (x', evs) -> Forall calm evs.
Proof.
  unfold rmc_pub_packet_ack. destruct (pub_packet_ack _ _ _) as [[s fr]| | |]; cbn [bind fst snd]; [|discriminate..].
  destruct (release_all (x_mem x) fr) as [[m e]| | |] eqn:E; cbn [bind fst snd]; [|discriminate..]. intros H. injection H as _ <-. exact (release_all_calm _ _ _ _ E).
Qed.
Lemma resend_calm x i a code x' evs : rmc_pub_resend_packet x i a = Ok (code, x', evs) -> Forall calm evs.
Proof.
  unfold rmc_pub_resend_packet. destruct (slot _ _) as [c| | |]; cbn [bind]; [|discriminate..]. destruct (get_pack _ _) as [p| | |]; cbn [bind]; [|discriminate..].
  match goal with |- context [bind ?h _] => destruct h as [w| | |] end; cbn [bind]; [|discriminate..].
  destruct (_ =? 0); intros E; injection E as _ _ <-; repeat constructor.
Qed.
Lemma sent_timeout_calm x i a code x' evs : process_sent_packet_timeout x i a = Ok (code, x', evs) -> Forall calm evs.
Proof.
  unfold process_sent_packet_timeout. destruct (slot _ _) as [c| | |]; cbn [bind]; [|discriminate..]. destruct (get_pack _ _) as [p| | |]; cbn [bind]; [|discriminate..].
  destruct (negb _).
  - destruct (rmc_pub_packet_ack _ _ _) as [[x1 e1]| | |] eqn:E1; cbn [bind fst snd]; [|discriminate..]. intros E. injection E as _ _ <-. exact (packet_ack_calm _ _ _ _ _ E1).
  - destruct (rmc_pub_resend_packet _ _ _) as [[[cd x1] e1]| | |] eqn:E1; cbn [bind]; [|discriminate..]. pose proof (resend_calm _ _ _ _ _ _ E1) as C1.
    destruct (cd =? 0); [|intros E; injection E as _ _ <-; exact C1].
    destruct (rmc_pub_packet_ack _ _ _) as [[x2 e2]| | |] eqn:E2; cbn [bind fst snd]; [|discriminate..]. intros E. injection E as _ _ <-.
    apply Forall_app. split; [exact C1|]. exact (packet_ack_calm _ _ _ _ _ E2).
Qed.
Lemma resend_loop_calm i : forall packs x code x' evs, resend_loop x i packs = Ok (code, x', evs) -> Forall calm evs.
Proof.
  induction packs as [|a packs IH]; intros x code x' evs; cbn [resend_loop]; [intros E; injection E as _ _ <-; constructor|].
  destruct (process_sent_packet_timeout x i a) as [[[cd x1] e1]| | |] eqn:E1; cbn [bind]; [|discriminate..]. pose proof (sent_timeout_calm _ _ _ _ _ _ E1) as C1.
  destruct (negb _); [intros E; injection E as _ _ <-; exact C1|].
  destruct (resend_loop x1 i packs) as [[[cd2 x2] e2]| | |] eqn:E2; cbn [bind]; [|discriminate..]. intros E. injection E as _ _ <-.
  apply Forall_app. split; [exact C1|]. exact (IH _ _ _ _ E2).
Qed.
Lemma subs_loop_calm now : forall subs x code x' evs, subs_loop x now subs = Ok (code, x', evs) -> Forall calm evs.
Proof.
  induction subs as [|n subs IH]; intros x code x' evs; cbn [subs_loop]; [intros E; injection E as _ _ <-; constructor|].
  destruct (process_subscriber_timeout x n now) as [[[cd x1] e1]| | |] eqn:E1; cbn [bind]; [|discriminate..].
  assert (C1 : Forall calm e1).
  { unfold process_subscriber_timeout in E1. destruct (pub_get_timed_out_packets _ _ _ _) as [packs| | |]; cbn [bind] in E1; [|discriminate..]. exact (resend_loop_calm _ _ _ _ _ _ E1). }
  destruct (negb _); [intros E; injection E as _ _ <-; exact C1|].
  destruct (subs_loop x1 now subs) as [[[cd2 x2] e2]| | |] eqn:E2; cbn [bind]; [|discriminate..]. intros E. injection E as _ _ <-.
  apply Forall_app. split; [exact C1|]. exact (IH _ _ _ _ E2).
Qed.
Lemma timeout_calm x now buf o code x' evs : announce_due x now = false -> rmc_pub_timeout_process x now buf o = Ok (code, x', evs) -> Forall calm evs.
Proof.
  intros Ha. unfold rmc_pub_timeout_process. rewrite Ha. destruct (pub_get_timed_out_subscribers _ _ _) as [subs| | |]; cbn [bind]; [|discriminate..]. apply subs_loop_calm.
Qed.

(** ** Multicasting *)
Definition is_dgram (x : pctx) (q : Z * pl) (d : list Z) : Prop :=
  exists bs, d = enc_header (Wire.mkHdr (fst q) (x_node x) (len_of (snd q)) (x_lip x) (x_lport x)) ++ bs /\ zlen bs = len_of (snd q) /\
    zlen d <= RMC_MAX_PACKET.
Definition send_ok (o : sres) : list Z := match o with SndOk ts => [ts] | SndErr _ => [] end.
Lemma send_one t x g log sp L a q Q o code x' evs : XI t x g log sp L ((a, q) :: Q) -> x_mcast x <> -1 ->
  send_single_multicast_packet x a o = Ok (code, x', evs) ->
  match o with
  | SndErr e => code = e /\ x' = x /\ Forall plain evs /\ XI t x (g_unlend g evs) (log ++ evs) sp L ((a, q) :: Q)
  | SndOk ts => code = 0 /\ exists L' d, XI t x' (g_unlend g evs) (log ++ evs) (fst (spec_step sp (OpSend ts))) L' Q /\
      flat_map cast_ev evs = [d] /\ flat_map cast_ts evs = [ts] /\ is_dgram x q d /\ same_but_pub x x' /\ x_susp x' = x_susp x /\ x_mem x' = x_mem x /\
      flat_map freed_ev evs = []
  end.
Proof.
  intros X Em E. destruct (queued_cases _ _ _ _ _ _ _ a q X (or_introl eq_refl)) as (Eg & Hk & Hl & C).
  pose proof (queued_load _ _ _ _ _ _ _ a q X (or_introl eq_refl)) as Hld.
  assert (Ez : (RMC_MAX_PACKET <? header_size + pk_len (pk_queued q)) = false).
  { change (pk_len (pk_queued q)) with (len_of (snd q)). unfold RMC_MAX_PACKET, RMC_MAX_PAYLOAD, header_size in *. lia. }
  destruct (load (x_mem x) (pk_payload (pk_queued q)) (pk_len (pk_queued q))) as [bs|u| |] eqn:El.
  - destruct o as [e|ts].
    + pose proof (send_err _ _ _ _ E) as (E1 & E2 & E3). cbn [fst snd] in *. subst x'.
      split; [|split; [reflexivity|split; [exact E2|apply XI_plain; [exact X|exact E2|intros; apply E3]]]].
      unfold send_single_multicast_packet in E. replace (x_mcast x =? -1) with false in E by lia. rewrite Eg in E. cbn [bind] in E. rewrite Ez, El in E.
      cbn [bind] in E. destruct (Z.eqb_spec e EAGAIN) as [->|N]; injection E as <- _; reflexivity.
    + destruct (send_xi t x g log sp L a q Q ts bs X Em El) as (x2 & L' & evs2 & E2 & Eev & X' & _ & S & Hs & Hm).
      rewrite E2 in E. injection E as <- <- <-. split; [reflexivity|]. eexists L', _. split; [exact X'|]. rewrite Eev. cbn [flat_map cast_ev cast_ts freed_ev app].
      split; [reflexivity|]. split; [reflexivity|]. split; [|auto]. exists bs. destruct Hld as [Hld _]. split; [reflexivity|]. split; [exact Hld|].
      rewrite zlen_app, enc_header_zlen, Hld. unfold RMC_MAX_PACKET, RMC_MAX_PAYLOAD in *. lia.
  - exfalso. unfold send_single_multicast_packet in E. replace (x_mcast x =? -1) with false in E by lia. rewrite Eg in E. cbn [bind] in E. rewrite Ez, El in E. discriminate E.
  - destruct Hld.
  - destruct Hld.
Qed.
Lemma mcast_spec t : forall outs x g log sp L Q code x' evs, XI t x g log sp L Q -> x_mcast x <> -1 -> ~ In (SndErr 0) outs ->
  process_multicast_write x outs = Ok (code, x', evs) ->
  exists dn rest tss L', Q = dn ++ rest /\ length tss = length dn /\ map SndOk tss = firstn (length dn) outs /\
    XI t x' (g_unlend g evs) (log ++ evs) (fst (spec_run sp (map OpSend tss))) L' rest /\
    Forall2 (is_dgram x) (map snd dn) (flat_map cast_ev evs) /\ flat_map cast_ts evs = tss /\ same_but_pub x x' /\ x_susp x' = x_susp x /\ x_mem x' = x_mem x /\
    flat_map freed_ev evs = [] /\
    ((code = 0 /\ rest = []) \/
     (rest <> [] /\ nth_error outs (length dn) = None /\ code = EAGAIN) \/
     (rest <> [] /\ exists e, nth_error outs (length dn) = Some (SndErr e) /\ code = e)).
Proof.
  induction outs as [|o outs IH]; intros x g log sp L Q code x' evs X Em Hne; cbn [process_multicast_write];
    rewrite (next_queued_inv _ _ _ _ (xi_pub _ _ _ _ _ _ _ X)); destruct Q as [|[a q] Q].
  1,3: intros E; injection E as <- <- <-; exists [], [], [], L; cbn [spec_run map fst flat_map length firstn app]; rewrite g_unlend_nil, app_nil_r;
    (split; [reflexivity|]); (split; [reflexivity|]); (split; [reflexivity|]); (split; [exact X|]); (split; [constructor|]); (split; [reflexivity|]); (split; [apply sbp_refl|]); repeat (split; [reflexivity|]); left; auto.
  - intros E. pose proof (send_one _ _ _ _ _ _ _ _ _ _ _ _ _ X Em E) as (-> & -> & P & X1). destruct (plain_flat _ P) as (P1 & P2 & P3).
    exists [], ((a, q) :: Q), [], L. cbn [spec_run map fst length firstn app]. rewrite P1, P2, P3.
    (split; [reflexivity|]). (split; [reflexivity|]). (split; [reflexivity|]). (split; [exact X1|]). (split; [constructor|]). (split; [reflexivity|]). (split; [apply sbp_refl|]).
    (split; [reflexivity|]). (split; [reflexivity|]). (split; [reflexivity|]). right. left. split; [discriminate|]. auto.
  - destruct (send_single_multicast_packet x a o) as [[[cd x1] ev1]| | |] eqn:E1; cbn [bind]; [|discriminate..].
    pose proof (send_one _ _ _ _ _ _ _ _ _ _ _ _ _ X Em E1) as S. destruct o as [e|ts].
    + destruct S as (-> & -> & P & X1). destruct (Z.eqb_spec e 0) as [->|Ne]; [destruct Hne; left; reflexivity|]. cbn [negb]. intros E. injection E as <- <- <-.
      destruct (plain_flat _ P) as (P1 & P2 & P3). exists [], ((a, q) :: Q), [], L. cbn [spec_run map fst length firstn app]. rewrite P1, P2, P3.
      (split; [reflexivity|]). (split; [reflexivity|]). (split; [reflexivity|]). (split; [exact X1|]). (split; [constructor|]). (split; [reflexivity|]). (split; [apply sbp_refl|]).
      (split; [reflexivity|]). (split; [reflexivity|]). (split; [reflexivity|]). right. right. split; [discriminate|]. exists e. auto.
    + destruct S as (-> & L1 & d & X1 & Cd & Ct & Hd & S1 & Su1 & Sm1 & Sf1). change (0 =? 0) with true. cbn [negb].
      destruct (process_multicast_write x1 outs) as [[[cd2 x2] ev2]| | |] eqn:E2; cbn [bind]; [|discriminate..]. intros E. injection E as <- <- <-.
      assert (Em1 : x_mcast x1 <> -1) by (destruct S1 as (_ & _ & _ & -> & _); exact Em).
      destruct (IH x1 _ _ _ L1 Q _ _ _ X1 Em1 (fun h => Hne (or_intror h)) E2) as (dn & rest & tss & L2 & Eq & El & Et & X2 & F2 & T2 & S2 & Su2 & Sm2 & Sf2 & C2).
      exists ((a, q) :: dn), rest, (ts :: tss), L2. rewrite Eq. cbn [app length map firstn nth_error]. rewrite spec_run_cons. cbn [fst]. rewrite g_unlend_app, app_assoc, !flat_map_app, Cd, Ct, Sf1, Sf2, T2.
      (split; [reflexivity|]). (split; [congruence|]). (split; [rewrite Et; reflexivity|]). (split; [exact X2|]).
      split; [|split; [reflexivity|split; [exact (sbp_trans _ _ _ S1 S2)|split; [congruence|split; [congruence|split; [reflexivity|exact C2]]]]]].
      cbn [app]. constructor; [exact Hd|]. revert F2. destruct S1 as (_ & _ & _ & _ & _ & _ & _ & _ & _ & En & Eli & Elp). 
      apply Forall2_imp. intros qq dd. unfold is_dgram. rewrite En, Eli, Elp. auto.
Qed.
