(** PropTotal.v — C77: which calls of the publisher API return. *)
From Coq Require Import Sorting.Permutation Sorting.Sorted.
From Verif Require Import Base CircBuf CircBufProofs Wire ListHeap SeqList Pub SpecPub PubProofs PubTrace PropPub Proto SpecProto ProtoProofs ProtoRead
  Conn SpecConn ConnProofs Safe PubCtx SpecPubCtx PubCtxProofs PubCtxSteps PubCtxOwed PropPubCtx PropPubFlow PropPubTime PropPubMem
  SpecPubRecv PubRecv PropPubRecv PropCall.

(** ** Vocabulary *)
(** The call returned. *)
Definition returns {A} (r : res A) : Prop := exists a, r = Ok a.
(** The bytes a resent packet takes in the send ring of a connection. *)
Definition resend_size (g : ghost) (k : Z) : Z := 21 + zlen (nth (Z.to_nat (k - 1)) (g_data g) []).
Definition total (l : list Z) : Z := fold_right Z.add 0 l.
(** Packet [k] is owed by subscriber [i] and overdue at [now]. *)
Definition overdue (x : pctx) (now i k : Z) : Prop := exists ts, owed x i k ts /\ ts + x_resend x <= now.
(** Resending some overdue packets to subscriber [i] ends exactly at the end of the memory of its
    send ring, and at least one more packet, for which there is room, is overdue. *)
Definition ring_end (x : pctx) (g : ghost) (now i : Z) : Prop :=
  exists c ks k, slot (x_vec x) i = Ok c /\ c_mode c = CONNECTED /\ NoDup (ks ++ [k]) /\
    (forall j, In j (ks ++ [k]) -> overdue x now i j) /\
    cb_start (c_wbuf c) + zlen (contents (c_wbuf c)) + total (map (resend_size g) ks) = RMC_MAX_PACKET /\
    resend_size g k < cb_start (c_wbuf c).

(** ** Timeouts *)
Lemma resend_start x i c a code x' evs c' : slot (x_vec x) i = Ok c -> cb_wf (c_wbuf c) -> rmc_pub_resend_packet x i a = Ok (code, x', evs) ->
  slot (x_vec x') i = Ok c' -> cb_start (c_wbuf c') = cb_start (c_wbuf c).
Proof.
  intros Hs W. pose proof (slot_range _ _ _ Hs) as R. unfold rmc_pub_resend_packet. rewrite Hs. cbn [bind].
  destruct (get_pack (x_pub x) a) as [p| | |]; cbn [bind]; [|discriminate..].
  set (w := if _ <? _ then _ else _).
  assert (Hw : forall r, w = Ok r -> cb_start (snd r) = cb_start (c_wbuf c)).
  { intros r. unfold w. destruct (_ <? _) eqn:Ea; [intros E; assert (r = (EAGAIN, c_wbuf c)) as -> by congruence; reflexivity|].
    destruct (load _ _ _) as [bs| | |]; cbn [bind]; [|discriminate..].
    destruct (write_packet_spec (c_wbuf c) (setup_packet_header x p) bs W) as (W1 & W2 & W3).
    destruct (Z.lt_ge_cases (circ_buf_available (c_wbuf c)) (21 + zlen bs)) as [A|A].
    - rewrite (W1 A). intros E. assert (r = (EAGAIN, c_wbuf c)) as -> by congruence. reflexivity.
    - pose proof (cb_wf_stop _ W). destruct (Z.eq_dec (cb_stop (c_wbuf c)) (cb_size (c_wbuf c))) as [S|S]; [rewrite (W3 A S); discriminate|].
      destruct (W2 A ltac:(lia)) as (wb' & -> & _ & _ & Hst & _). intros E. assert (r = (0, wb')) as -> by congruence. exact Hst. }
  destruct w as [r| | |]; cbn [bind]; [|discriminate..]. specialize (Hw r eq_refl).
  destruct (_ =? 0); intros E; injection E as <- <- <-; cbn [set_vec x_vec]; rewrite slot_put_same by exact R; intros E; injection E as <-; exact Hw.
Qed.

Lemma sent_timeout_out t x g log sp L Q i c a e : XI t x g log sp L Q -> is_open (x_vec x) i c -> In (a, e) L -> In (Z.to_nat i) (e_hold e) ->
  (cb_stop (c_wbuf c) = cb_size (c_wbuf c) /\ 21 + len_of (e_pl e) <= circ_buf_available (c_wbuf c) /\
     process_sent_packet_timeout x i a = UB OutOfBounds) \/
  exists code x' evs, process_sent_packet_timeout x i a = Ok (code, x', evs) /\
    forall c', slot (x_vec x') i = Ok c' -> cb_start (c_wbuf c') = cb_start (c_wbuf c).
Proof.
  intros X Ho Hin Hh. pose proof (slot_range _ _ _ (proj1 Ho)) as R.
  destruct (live_facts _ _ _ _ _ _ _ a e X Hin) as (Eg & _).
  destruct (vi_mode _ _ (xi_vec _ _ _ _ _ _ _ X) i c (proj1 Ho)) as (_ & _ & Hm). destruct Ho as [Hs Hcl]. destruct Hm as [Hm|Hm]; [contradiction|].
  destruct (vi_ring _ _ (xi_vec _ _ _ _ _ _ _ X) i c Hs) as [Hw Hz].
  unfold process_sent_packet_timeout. rewrite Hs. cbn [bind]. rewrite Eg. cbn [bind]. rewrite Hm. change (CONNECTED =? CONNECTED) with true. cbn [negb].
  change (pk_pid (pk_entry e)) with (e_pid e).
  destruct (resend_xi t x g log sp L Q i c a e X (conj Hs Hcl) Hin Hh) as [(H1 & H2 & ->)|(code & x1 & evs & E & X1 & Ep & Esu & _ & Cf & Ko & _ & Hcase)].
  { left. auto. }
  right. pose proof (fun c' => resend_start x i c a code x1 evs c' Hs Hw E) as St. rewrite E. cbn [bind].
  destruct (code =? 0) eqn:Ec.
  - destruct Hcase as [(-> & _)|(_ & _ & Hst)]; [discriminate Ec|].
    destruct (ack_xi _ t x1 _ _ sp L Q i (e_pid e) X1 ltac:(lia) ltac:(intros; split; congruence)) as (x2 & L2 & fr & -> & Es & X2 & S2 & Hsu & Hk).
    { intros d cmds Hd E1 F. left. exact (Hst d cmds Hd E1 F). }
    cbn [bind fst snd]. do 3 eexists. split; [reflexivity|]. rewrite (proj1 S2). exact St.
  - do 3 eexists. split; [reflexivity|exact St].
Qed.

Lemma entry_size t x g log sp L Q a e : XI t x g log sp L Q -> In (a, e) L -> resend_size g (e_pid e) = 21 + len_of (e_pl e).
Proof.
  intros X H. destruct (live_facts _ _ _ _ _ _ _ a e X H) as (_ & _ & _ & bs & _ & Hl & _ & Hn). unfold resend_size.
  rewrite (nth_error_nth _ _ [] Hn), Hl. reflexivity.
Qed.

Lemma resend_loop_out t i : forall packs x g log c, XInv t x g log -> is_open (x_vec x) i c -> NoDup packs -> incl packs (p_sinf (x_pub x) (Z.to_nat i)) ->
  returns (resend_loop x i packs) \/
  (resend_loop x i packs = UB OutOfBounds /\ exists dn a rest, packs = dn ++ a :: rest /\
     cb_start (c_wbuf c) + zlen (contents (c_wbuf c)) + total (map (resend_size g) (map (pid_of (x_pub x)) dn)) = RMC_MAX_PACKET /\
     resend_size g (pid_of (x_pub x) a) < cb_start (c_wbuf c)).
Proof.
  induction packs as [|a packs IH]; intros x g log c XV Ho ND Hi; cbn [resend_loop].
  - left. eexists. reflexivity.
  - destruct XV as (sp & L & Q & X). pose proof (xi_pub _ _ _ _ _ _ _ X) as I. inversion ND as [|? ? N1 N2]; subst.
    destruct (sinf_entry _ _ _ _ _ a I (Hi a (or_introl eq_refl))) as (e & He & Hh).
    destruct (vi_ring _ _ (xi_vec _ _ _ _ _ _ _ X) i c (proj1 Ho)) as [Hw Hz].
    pose proof (inv_pidL I a e He) as Epid. pose proof (entry_size _ _ _ _ _ _ _ a e X He) as Esz.
    destruct (sent_timeout_out t x g log sp L Q i c a e X Ho He Hh) as [(H1 & H2 & ->)|(code & x1 & evs & E1 & St)].
    + right. split; [reflexivity|]. exists [], a, packs. split; [reflexivity|]. cbn [map total fold_right]. rewrite Epid, Esz.
      rewrite (available_val _ Hw) in H2. rewrite (contents_len _ Hw). pose proof (in_use_val _ Hw) as V. rewrite V in H2 |- *. unfold cb_wf in Hw.
      replace (cb_start (c_wbuf c) <=? cb_stop (c_wbuf c)) with true in * by lia. lia.
    + pose proof (sent_timeout_xi t x g log sp L Q i c a e X Ho He Hh) as S. rewrite E1 in S. cbn [safe] in S.
      destruct S as (sp' & L' & X1 & Cf & Ko & _ & _ & Cc & Hk).
      destruct (sent_timeout_pr t x g log sp L Q i c a e _ _ _ X Ho He Hh E1) as (l & P1 & Hc).
      rewrite E1. cbn [bind]. destruct (code =? 0) eqn:Ec; cbn [negb]; [|left; eexists; reflexivity].
      destruct Hc as [(_ & El & Hav)|(-> & _)]; [|discriminate Ec].
      destruct (proj1 P1 i c Ho) as (c1 & Ho1 & Ct). unfold only in Ct. rewrite Z.eqb_refl in Ct.
      specialize (St c1 (proj1 Ho1)).
      assert (Hid : forall b, In b packs -> pid_of (x_pub x) b <> e_pid e).
      { intros b Hb. destruct (sinf_entry _ _ _ _ _ b I (Hi b (or_intror Hb))) as (f & Hf & _). rewrite (inv_pidL I b f Hf).
        intros E. apply N1. rewrite (live_pid_inj _ _ _ _ _ _ _ _ I He Hf (eq_sym E)). exact Hb. }
      assert (Hi1 : incl packs (p_sinf (x_pub x1) (Z.to_nat i))) by (intros b Hb; apply Hk; [apply Hi; right; exact Hb|exact (Hid b Hb)]).
      assert (Hp1 : forall b, In b packs -> pid_of (x_pub x1) b = pid_of (x_pub x) b) by (intros b Hb; apply Hk; [apply Hi; right; exact Hb|exact (Hid b Hb)]).
      assert (Hlen : zlen (contents (c_wbuf c1)) = zlen (contents (c_wbuf c)) + resend_size g (e_pid e)).
      { rewrite Ct, zlen_app. f_equal. destruct l as [|m [|m' l]].
        - discriminate El.
        - cbn [flat_map]. rewrite app_nil_r. destruct P1 as (_ & F & _). specialize (F i). unfold only in F. rewrite Z.eqb_refl in F.
          inversion F as [|? ? (k & p & port & Em & _ & Hn & _) _]; subst. cbn [ids flat_map h_pid app] in El. injection El as ->.
          unfold resend_size. rewrite (nth_error_nth _ _ [] Hn). cbn [wire]. rewrite zlen_cons, zlen_app, enc_header_zlen. lia.
        - destruct P1 as (_ & F & _). specialize (F i). unfold only in F. rewrite Z.eqb_refl in F.
          inversion F as [|? ? (k & p & port & -> & _) F2]; subst. inversion F2 as [|? ? (k2 & p2 & port2 & -> & _) _]; subst.
          cbn [ids flat_map app] in El. discriminate El. }
      destruct (IH x1 (g_unlend g evs) (log ++ evs) c1 (ex_intro _ sp' (ex_intro _ L' (ex_intro _ Q X1))) Ho1 N2 Hi1) as [[[[cd2 x2] ev2] ->]|(-> & dn & b & rest & Ep & Hsum & Hlt)].
      * left. cbn [bind]. eexists. reflexivity.
      * right. cbn [bind]. split; [reflexivity|]. exists (a :: dn), b, rest. split; [rewrite Ep; reflexivity|].
        assert (Em : map (pid_of (x_pub x1)) dn = map (pid_of (x_pub x)) dn).
        { apply map_ext_in. intros d Hd. apply Hp1. rewrite Ep. apply in_or_app. left. exact Hd. }
        rewrite Em in Hsum. rewrite (Hp1 b) in Hlt by (rewrite Ep; apply in_or_app; right; left; reflexivity).
        change (resend_size (g_unlend g evs)) with (resend_size g) in *. rewrite St in *. split; [|exact Hlt].
        cbn [map total fold_right]. fold (total (map (resend_size g) (map (pid_of (x_pub x)) dn))). rewrite Epid. lia.
Qed.

Lemma sub_timeout_out t x g log n now : XInv t x g log -> (exists c, is_open (x_vec x) (Z.of_nat n) c) ->
  returns (process_subscriber_timeout x n now) \/
  (process_subscriber_timeout x n now = UB OutOfBounds /\ ring_end x g now (Z.of_nat n)).
Proof.
  intros XV [c Ho]. pose proof XV as (sp & L & Q & X). pose proof (xi_pub _ _ _ _ _ _ _ X) as I. unfold process_subscriber_timeout, pub_get_timed_out_packets.
  destruct (timed_out_packs_ok (x_pub x) now (x_resend x) (p_sinf (x_pub x) n)) as (packs & Ep).
  { intros a Ha. apply (inv_liveL I). exact (sinf_incl I n a Ha). }
  rewrite Ep. cbn [bind]. destruct (timed_out_packs_sub _ _ _ _ _ Ep) as (tl & Etl).
  pose proof (sinf_sorted _ _ _ _ n I) as Srt.
  assert (NDp : NoDup (map (pid_of (x_pub x)) packs)).
  { rewrite Etl, map_app in Srt. apply SSapp_l in Srt. revert Srt. generalize (map (pid_of (x_pub x)) packs). clear.
    induction l as [|a l IH]; intros S; [constructor|]. inversion S as [|? ? S1 S2]; subst. constructor; [|exact (IH S1)].
    intros H. rewrite Forall_forall in S2. specialize (S2 _ H). lia. }
  destruct (resend_loop_out t (Z.of_nat n) packs x g log c XV Ho) as [H|(E & dn & a & rest & Epk & Hsum & Hlt)].
  - exact (NoDup_map_inv _ _ NDp).
  - rewrite Nat2Z.id, Etl. apply incl_appl, incl_refl.
  - left. exact H.
  - right. split; [exact E|]. destruct Ho as [Hs Hcl].
    destruct (vi_mode _ _ (xi_vec _ _ _ _ _ _ _ X) (Z.of_nat n) c Hs) as (_ & _ & Hm). destruct Hm as [Hm|Hm]; [contradiction|].
    exists c, (map (pid_of (x_pub x)) dn), (pid_of (x_pub x) a). split; [exact Hs|]. split; [exact Hm|].
    assert (Ek : map (pid_of (x_pub x)) dn ++ [pid_of (x_pub x) a] = map (pid_of (x_pub x)) (dn ++ [a])) by (rewrite map_app; reflexivity).
    assert (Ep2 : packs = (dn ++ [a]) ++ rest) by (rewrite <- app_assoc; exact Epk).
    split; [|split; [|auto]].
    + rewrite Ek. rewrite Ep2, map_app in NDp. exact (NoDup_app_l _ _ NDp).
    + intros j Hj. rewrite Ek in Hj. apply in_map_iff in Hj. destruct Hj as (b & <- & Hb).
      assert (Hbp : In b packs) by (rewrite Ep2; apply in_or_app; left; exact Hb).
      exists (ts_of (x_pub x) b). split; [apply owed_at; exists b; rewrite Nat2Z.id, Etl; split; [apply in_or_app; left; exact Hbp|auto]|].
      destruct (proj1 (timed_out_packs_sel _ _ _ _ _ Srt Ep (pid_of (x_pub x) b))) as [_ Hd]; [apply in_map; exact Hbp|].
      apply (Hd b); [rewrite Etl; apply in_or_app; left; exact Hbp|lia].
Qed.

Lemma sent_other x i a code x' evs : process_sent_packet_timeout x i a = Ok (code, x', evs) ->
  forall j, j <> i -> 0 <= j -> slot (x_vec x') j = slot (x_vec x) j.
Proof.
  unfold process_sent_packet_timeout. destruct (slot (x_vec x) i) as [c| | |] eqn:Es; cbn [bind]; [|discriminate..]. pose proof (slot_range _ _ _ Es) as R.
  destruct (get_pack (x_pub x) a) as [p| | |] eqn:Ep; cbn [bind]; [|discriminate..]. destruct (negb (c_mode c =? CONNECTED)).
  - destruct (rmc_pub_packet_ack x i (pk_pid p)) as [[x1 e1]| | |] eqn:Ea; cbn [bind fst snd]; [|discriminate..].
    intros E j _ _. assert (x' = x1) as -> by congruence. rewrite (proj1 (ack_frame _ _ _ _ _ Ea)). reflexivity.
  - unfold rmc_pub_resend_packet. rewrite Es. cbn [bind]. rewrite Ep. cbn [bind]. set (w := if _ <? _ then _ else _). destruct w as [r| | |]; cbn [bind]; [|discriminate..].
    assert (Go : forall cd y e0, (forall j, j <> i -> 0 <= j -> slot (x_vec y) j = slot (x_vec x) j) ->
      (if cd =? 0 then do r2 <- rmc_pub_packet_ack y i (pk_pid p); Ok (0, fst r2, e0 ++ snd r2) else Ok (cd, y, e0)) = Ok (code, x', evs) ->
      forall j, j <> i -> 0 <= j -> slot (x_vec x') j = slot (x_vec x) j).
    { intros cd y e0 Hy. destruct (cd =? 0).
      - destruct (rmc_pub_packet_ack y i (pk_pid p)) as [[x1 e1]| | |] eqn:Ea; cbn [bind fst snd]; [|discriminate..].
        intros E j N Hj. assert (x' = x1) as -> by congruence. rewrite (proj1 (ack_frame _ _ _ _ _ Ea)). exact (Hy j N Hj).
      - intros E j N Hj. assert (x' = y) as -> by congruence. exact (Hy j N Hj). }
    destruct (_ =? 0); cbn [bind]; apply Go; intros j N Hj; cbn [set_vec x_vec]; apply slot_put_other; lia || exact N.
Qed.
Lemma loop_other i : forall packs x code x' evs, resend_loop x i packs = Ok (code, x', evs) ->
  forall j, j <> i -> 0 <= j -> slot (x_vec x') j = slot (x_vec x) j.
Proof.
  induction packs as [|a packs IH]; intros x code x' evs; cbn [resend_loop]; [intros E; injection E as <- <- <-; reflexivity|].
  destruct (process_sent_packet_timeout x i a) as [[[cd x1] e1]| | |] eqn:E1; cbn [bind]; [|discriminate..].
  destruct (negb (cd =? 0)); [intros E j N Hj; assert (x' = x1) as -> by congruence; exact (sent_other _ _ _ _ _ _ E1 j N Hj)|].
  destruct (resend_loop x1 i packs) as [[[cd2 x2] e2]| | |] eqn:E2; cbn [bind]; [|discriminate..]. intros E j N Hj. assert (x' = x2) as -> by congruence.
  rewrite (IH _ _ _ _ E2 j N Hj). exact (sent_other _ _ _ _ _ _ E1 j N Hj).
Qed.
Lemma subs_loop_out t now : forall subs x g log, XInv t x g log -> NoDup subs ->
  (forall n, In n subs -> exists c, is_open (x_vec x) (Z.of_nat n) c) ->
  returns (subs_loop x now subs) \/
  (subs_loop x now subs = UB OutOfBounds /\ exists n, In n subs /\ ring_end x g now (Z.of_nat n)).
Proof.
  induction subs as [|n subs IH]; intros x g log XV ND H; cbn [subs_loop]; [left; eexists; reflexivity|].
  inversion ND as [|? ? N1 N2]; subst.
  destruct (sub_timeout_out t x g log n now XV (H n (or_introl eq_refl))) as [[[[cd x1] ev1] E1]|[-> B]].
  2:{ right. split; [reflexivity|]. exists n. split; [left; reflexivity|exact B]. }
  pose proof (sub_timeout_inv t x g log n now XV (H n (or_introl eq_refl))) as S. rewrite E1 in S. cbn [safe] in S.
  destruct S as (XV1 & Cf & Ko & _). destruct (sub_timeout_pr t x g log n now _ _ _ XV (H n (or_introl eq_refl)) E1) as (l & P1 & _).
  rewrite E1. cbn [bind]. destruct (negb (cd =? 0)); [left; eexists; reflexivity|].
  destruct (IH x1 (g_unlend g ev1) (log ++ ev1) XV1 N2) as [[[[cd2 x2] ev2] ->]|(-> & m & Hm & B)].
  { intros m Hm. destruct (H m (or_intror Hm)) as [c Hc]. destruct (proj2 Ko _ c Hc) as (c' & Hc' & _). eauto. }
  - left. eexists. reflexivity.
  - right. split; [reflexivity|]. exists m. split; [right; exact Hm|]. assert (Nm : m <> n) by (intros ->; contradiction).
    destruct B as (c & ks & k & B1 & B2 & B3 & B4 & B5). exists c, ks, k.
    assert (Es : slot (x_vec x1) (Z.of_nat m) = slot (x_vec x) (Z.of_nat m)).
    { unfold process_subscriber_timeout in E1. destruct (pub_get_timed_out_packets _ _ _ _) as [packs| | |]; cbn [bind] in E1; [|discriminate..].
      apply (loop_other _ _ _ _ _ _ E1); lia. }
    rewrite <- Es. split; [exact B1|]. split; [exact B2|]. split; [exact B3|]. split; [|exact B5].
    intros j Hj. destruct (B4 j Hj) as (ts & O & T). exists ts. destruct Cf as (_ & _ & _ & _ & _ & _ & _ & Cr & _). 
    rewrite <- Cr. split; [|exact T]. apply (proj2 (proj2 P1) (Z.of_nat m) j ts) in O; [|lia]. exact (proj1 O).
Qed.

(** rmc_pub_timeout_process returns, unless some subscriber's send ring is filled exactly to the
    end of its memory with another packet to come: then the next byte is stored behind it. *)
Theorem c77_pub_timeout : forall x g log now buf o, reached x g log -> xok x g (XTimeout now buf o) ->
  returns (rmc_pub_timeout_process x now buf o) \/
  (rmc_pub_timeout_process x now buf o = UB OutOfBounds /\ announce_due x now = false /\ exists i, connected x i /\ ring_end x g now i).
Proof.
  intros x g log now buf o R (Hb & Hmb & Ho). pose proof (reached_inv _ _ _ R) as XV. pose proof XV as (sp & L & Q & X). unfold rmc_pub_timeout_process.
  destruct (announce_due x now).
  - left. assert (Go : forall bs len1 f, 0 <= len1 <= RMC_MAX_PAYLOAD ->
      returns (do r <- rmc_pub_queue_packet (set_mem x (updz (x_mem x) buf (Some bs))) buf len1 true; let '(_, x2, evs) := r in Ok (0, f x2, evs) : res (Z * pctx * list pev))).
    { intros bs len1 f Hl. destruct (x_susp x) eqn:Hs.
      - unfold rmc_pub_queue_packet. replace (buf =? 0) with false by lia. replace (RMC_MAX_PAYLOAD <? len1) with false by lia.
        cbn [set_mem x_susp]. rewrite Hs. cbn [bind]. eexists. reflexivity.
      - destruct (queue_ann_xi false x g log sp L Q buf len1 (g_pin g) (updz (x_mem x) buf (Some bs)) X Hb Hl Hs) as (x2 & Q' & ev & E & _).
        + intros q Hq. left. exact Hq.
        + apply incl_refl.
        + discriminate.
        + rewrite E. cbn [bind]. eexists. reflexivity. }
    destruct o as [| |bs len].
    + cbv zeta. change (RMC_MAX_PAYLOAD <? 0) with false. apply (Go [] 0 (fun x2 => set_mem (set_ann x2 (x_aint x2) (if negb (x_aint x2 =? 0) then now + x_aint x2 else 0)) (updz (x_mem x2) buf None))). unfold RMC_MAX_PAYLOAD; lia.
    + cbn [bind]. eexists. reflexivity.
    + unfold is_u16 in Ho. apply (Go bs _ (fun x2 => set_mem (set_ann x2 (x_aint x2) (if negb (x_aint x2 =? 0) then now + x_aint x2 else 0)) (updz (x_mem x2) buf None))). destruct (Z.ltb_spec RMC_MAX_PAYLOAD len); unfold RMC_MAX_PAYLOAD in *; lia.
  - unfold pub_get_timed_out_subscribers.
    destruct (timed_out_subs_ok _ now (x_resend x) _ _ _ (xi_pub _ _ _ _ _ _ _ X) (p_subs (x_pub x))) as (subs & Es & Hi). rewrite Es. cbn [bind].
    assert (Hop : forall n, In n subs -> exists c, is_open (x_vec x) (Z.of_nat n) c).
    { intros n Hn'. apply (vi_reg _ _ (xi_vec _ _ _ _ _ _ _ X)). rewrite <- (i_subs _ _ _ _ (xi_pub _ _ _ _ _ _ _ X)). exact (Hi n Hn'). }
    assert (NDs : NoDup subs).
    { assert (ND : NoDup (p_subs (x_pub x))) by (rewrite (i_subs _ _ _ _ (xi_pub _ _ _ _ _ _ _ X)); apply (i_regnd _ _ _ _ (xi_pub _ _ _ _ _ _ _ X))).
      clear Hi Hop. revert subs Es ND. clear. generalize (p_subs (x_pub x)). induction l as [|n l IH]; intros subs; cbn [timed_out_subs]; [intros E _; injection E as <-; constructor|].
      match goal with |- context [bind ?h _] => destruct h as [b| | |] end; cbn [bind]; [|discriminate..].
      destruct (timed_out_subs (x_pub x) now (x_resend x) l) as [tl| | |] eqn:Et; cbn [bind]; [|discriminate..]. intros E ND. inversion ND as [|? ? N1 N2]; subst.
      specialize (IH tl eq_refl N2). injection E as <-. destruct b; [constructor; [|exact IH]|exact IH].
      intros H. apply N1. apply (timed_out_subs_sel _ _ _ _ _ Et) in H. exact (proj1 H). }
    destruct (subs_loop_out false now subs x g log XV NDs Hop) as [H|(H & n & Hn & B)]; [left; exact H|right].
    split; [exact H|]. split; [reflexivity|]. exists (Z.of_nat n). split; [|exact B]. destruct B as (c & ks & k & B1 & B2 & _). exists c. auto.
Qed.

(** ** Multicast *)
(** An announce waits to be multicast whose payload buffer is not valid (any more). *)
Definition dangling_announce (x : pctx) : Prop :=
  exists p l, In (0, (p, l)) (queued x) /\ 0 < l /\ forall bs, x_mem x p = Some bs -> zlen bs < l.
Lemma dangling_load t x g log sp L Q a q u : XI t x g log sp L Q -> In (a, q) Q ->
  load (x_mem x) (pk_payload (pk_queued q)) (pk_len (pk_queued q)) = UB u -> dangling_announce x.
Proof.
  intros X Hin El. pose proof (queued_load _ _ _ _ _ _ _ a q X Hin) as Hld. rewrite El in Hld.
  destruct (queued_cases _ _ _ _ _ _ _ a q X Hin) as (_ & _ & Hl & _). destruct q as [k [[p l] us]]. unfold len_of in *. cbn [fst snd pk_queued pk_payload pk_len] in *.
  assert (k = 0 /\ l <> 0) as [-> Nl] by (destruct u; try contradiction; tauto). exists p, l. split; [|split; [lia|]].
  - rewrite (queued_inv _ _ _ _ (xi_pub _ _ _ _ _ _ _ X)), <- in_rev. apply in_map_iff. exists (a, (0, (p, l, us))). split; [reflexivity|exact Hin].
  - intros bs Hb. unfold load in El. rewrite Hb in El. destruct (l =? 0); [discriminate|]. destruct (Z.leb_spec l (zlen bs)); [discriminate|]. exact H.
Qed.
Lemma send_out t x g log sp L a q Q o : XI t x g log sp L ((a, q) :: Q) ->
  returns (send_single_multicast_packet x a o) \/
  ((send_single_multicast_packet x a o = UB UseAfterFree \/ send_single_multicast_packet x a o = UB OutOfBounds) /\ dangling_announce x).
Proof.
  intros X. destruct (Z.eq_dec (x_mcast x) (-1)) as [Em|Em].
  - left. unfold send_single_multicast_packet. rewrite Em. eexists. reflexivity.
  - pose proof (queued_load _ _ _ _ _ _ _ a q X (or_introl eq_refl)) as Hld.
    destruct (queued_cases _ _ _ _ _ _ _ a q X (or_introl eq_refl)) as (Eg & _).
    destruct (load (x_mem x) (pk_payload (pk_queued q)) (pk_len (pk_queued q))) as [bs|u| |] eqn:El; [| |destruct Hld..].
    + left. destruct o as [e|ts].
      * unfold send_single_multicast_packet. replace (x_mcast x =? -1) with false by lia. rewrite Eg. cbn [bind].
        destruct (_ <? _); [eexists; reflexivity|]. rewrite El. cbn [bind]. destruct (_ =? _); eexists; reflexivity.
      * destruct (send_xi t x g log sp L a q Q ts bs X Em El) as (x' & L' & evs & -> & _). eexists. reflexivity.
    + unfold send_single_multicast_packet. replace (x_mcast x =? -1) with false by lia. rewrite Eg. cbn [bind].
      destruct (_ <? _); [left; eexists; reflexivity|]. right. rewrite El. cbn [bind]. split; [|exact (dangling_load _ _ _ _ _ _ _ a q u X (or_introl eq_refl) El)].
      destruct u; try contradiction; auto.
Qed.
Lemma mcast_out t : forall outs x g log, XInv t x g log ->
  returns (process_multicast_write x outs) \/
  ((process_multicast_write x outs = UB UseAfterFree \/ process_multicast_write x outs = UB OutOfBounds) /\ dangling_announce x).
Proof.
  induction outs as [|o outs IH]; intros x g log XV; cbn [process_multicast_write]; pose proof XV as (sp & L & Q & X);
    rewrite (next_queued_inv _ _ _ _ (xi_pub _ _ _ _ _ _ _ X)); destruct Q as [|[a q] Q]; try (left; eexists; reflexivity).
  - exact (send_out t x g log sp L a q Q _ X).
  - destruct (send_out t x g log sp L a q Q o X) as [[[[cd x1] e1] E1]|[[-> | ->] D]]; [|right; split; [left; reflexivity|exact D]|right; split; [right; reflexivity|exact D]].
    rewrite E1. cbn [bind]. destruct (negb (cd =? 0)) eqn:Ec; [left; eexists; reflexivity|].
    destruct (Z.eq_dec (x_mcast x) (-1)) as [Em|Em].
    { exfalso. unfold send_single_multicast_packet in E1. rewrite Em in E1. change (-1 =? -1) with true in E1. injection E1 as <- _ _. discriminate Ec. }
    pose proof (queued_cases _ _ _ _ _ _ _ a q X (or_introl eq_refl)) as (Eg & _).
    assert (N : XInv t x1 (g_unlend g e1) (log ++ e1) /\ x_mem x1 = x_mem x /\ incl (queued x1) (queued x)).
    { destruct o as [e|ts].
      - destruct (send_err _ _ _ _ E1) as (S1 & S2 & S3). cbn [fst snd] in *. subst x1. split; [|split; [reflexivity|apply incl_refl]].
        eexists _, _, _. apply XI_plain; [exact X|exact S2|intros; apply S3].
      - destruct (load (x_mem x) (pk_payload (pk_queued q)) (pk_len (pk_queued q))) as [bs|u| |] eqn:El.
        + destruct (send_xi t x g log sp L a q Q ts bs X Em El) as (x' & L' & evs & E2 & _ & X' & _ & S & _).
          assert (x1 = x' /\ e1 = evs) as [-> ->] by (rewrite E1 in E2; split; congruence).
          split; [eexists _, _, _; exact X'|]. split.
          * assert (x_mem x' = x_mem x); [|assumption].
            unfold send_single_multicast_packet in E2. replace (x_mcast x =? -1) with false in E2 by lia. rewrite Eg in E2. cbn [bind] in E2.
            destruct (_ <? _) in E2; [congruence|]. rewrite El in E2. cbn [bind] in E2. destruct (pub_packet_sent _ _ _) as [s| | |]; cbn [bind] in E2; [|discriminate..].
            assert (x' = set_pub x s) as -> by congruence. reflexivity.
          * rewrite (queued_inv _ _ _ _ (xi_pub _ _ _ _ _ _ _ X)), (queued_inv _ _ _ _ (xi_pub _ _ _ _ _ _ _ X')). cbn [map rev].
            intros y Hy. apply in_or_app. left. exact Hy.
        + exfalso. unfold send_single_multicast_packet in E1. replace (x_mcast x =? -1) with false in E1 by lia. rewrite Eg in E1. cbn [bind] in E1.
          destruct (_ <? _) in E1; [injection E1 as <- _ _; discriminate Ec|]. rewrite El in E1. discriminate E1.
        + exfalso. unfold send_single_multicast_packet in E1. replace (x_mcast x =? -1) with false in E1 by lia. rewrite Eg in E1. cbn [bind] in E1.
          destruct (_ <? _) in E1; [injection E1 as <- _ _; discriminate Ec|]. rewrite El in E1. discriminate E1.
        + exfalso. unfold send_single_multicast_packet in E1. replace (x_mcast x =? -1) with false in E1 by lia. rewrite Eg in E1. cbn [bind] in E1.
          destruct (_ <? _) in E1; [injection E1 as <- _ _; discriminate Ec|]. rewrite El in E1. discriminate E1. }
    destruct N as (XV1 & Em1 & Eq1). 
    destruct (IH x1 _ _ XV1) as [[[[cd2 x2] e2] ->]|[H (p & l & D1 & D2 & D3)]]; [left; eexists; reflexivity|right].
    split; [destruct H as [-> | ->]; auto|]. exists p, l. split; [exact (Eq1 _ D1)|]. split; [exact D2|]. rewrite <- Em1. exact D3.
Qed.

(** Writing the multicast socket returns, unless an announce whose payload is gone is queued. *)
Theorem c77_pub_multicast : forall x g log i outs, reached x g log ->
  returns (rmc_pub_write x i (WrMcast outs)) \/
  ((rmc_pub_write x i (WrMcast outs) = UB UseAfterFree \/ rmc_pub_write x i (WrMcast outs) = UB OutOfBounds) /\ dangling_announce x).
Proof.
  intros x g log i outs R. unfold rmc_pub_write. destruct (mcast_out false outs x g log (reached_inv _ _ _ R)) as [[[[cd x1] e1] ->]|[[-> | ->] D]]; cbn [bind].
  - left. eexists. reflexivity.
  - right. auto.
  - right. auto.
Qed.

(** ** Reading a control connection *)
(** Commands the publisher does not survive: an ack interval up to the largest id, and a control
    message when rmc_pub_set_control_message_callback was never called. *)
Definition fatal_cmd (x : pctx) (m : cmd) : Prop :=
  match m with
  | CmdAck a b => a <= b /\ b = 18446744073709551615
  | CmdCtrl _ => x_ccb x = FpUninit
  | CmdPacket _ _ => False
  end.
Lemma fatal_dec x m : {fatal_cmd x m} + {~ fatal_cmd x m}.
Proof.
  destruct m as [h p|a b|p]; cbn [fatal_cmd]; [right; tauto| |].
  - destruct (Z_le_dec a b), (Z.eq_dec b 18446744073709551615); [left; tauto|right; tauto..].
  - destruct (x_ccb x); [left; reflexivity|right; discriminate..].
Qed.
Lemma first_bad {X} (P : X -> Prop) (dec : forall m, {P m} + {~ P m}) : forall l,
  Forall (fun m => ~ P m) l \/ exists pre m post, l = pre ++ m :: post /\ P m /\ Forall (fun m => ~ P m) pre.
Proof.
  induction l as [|m l IH]; [left; constructor|]. destruct (dec m) as [H|H].
  - right. exists [], m, l. repeat split; [exact H|constructor].
  - destruct IH as [IH|(pre & k & post & -> & Hk & F)]; [left; constructor; assumption|right]. exists (m :: pre), k, post. split; [reflexivity|]. split; [exact Hk|constructor; assumption].
Qed.
Lemma run_cmds_app {St} (eff : St -> cmd -> res St) : forall a st b, run_cmds eff st (a ++ b) = do s <- run_cmds eff st a; run_cmds eff s b.
Proof.
  induction a as [|c a IH]; intros st b; [reflexivity|]. cbn [app run_cmds]. destruct (eff st c) as [s| | |]; cbn [bind]; [apply IH|reflexivity..].
Qed.
Lemma run_out x g log i cmds : XInv false x g log -> 0 <= i -> Forall (fun c => cmd_ok c /\ for_pub c) cmds -> (exists c, slot (x_vec x) i = Ok c) ->
  (Forall (fun m => ~ fatal_cmd x m) cmds -> exists x' evs, run_cmds (pub_eff (eff_ack i) (ccb_set x) (eff_ctrl i)) (x, []) cmds = Ok (x', evs) /\
     XInv false x' (g_unlend g evs) (log ++ evs) /\ same_but_pub x x') /\
  (~ Forall (fun m => ~ fatal_cmd x m) cmds -> run_cmds (pub_eff (eff_ack i) (ccb_set x) (eff_ctrl i)) (x, []) cmds = Hang \/
     run_cmds (pub_eff (eff_ack i) (ccb_set x) (eff_ctrl i)) (x, []) cmds = UB UninitRead).
Proof.
  intros XV Hi F Hs.
  assert (Good : forall pre, Forall (fun c => cmd_ok c /\ for_pub c) pre -> Forall (fun m => ~ fatal_cmd x m) pre ->
    exists x' evs, run_cmds (pub_eff (eff_ack i) (ccb_set x) (eff_ctrl i)) (x, []) pre = Ok (x', evs) /\ XInv false x' (g_unlend g evs) (log ++ evs) /\ same_but_pub x x').
  { intros pre Fp G. rewrite Forall_forall in G. destruct (run_acks false i (ccb_set x) pre x g log []) as (x2 & evs2 & E2 & XV2 & S2 & _).
    - rewrite g_unlend_nil, app_nil_r. exact XV.
    - exact Hi.
    - exact Fp.
    - intros a b Hin Hab Hb. apply (G _ Hin). cbn [fatal_cmd]. auto.
    - intros U p Hin. apply (G _ Hin). exact U.
    - exact Hs.
    - exists x2, evs2. cbn [app] in *. auto. }
  split; [apply Good; exact F|]. intros N. destruct (first_bad (fatal_cmd x) (fatal_dec x) cmds) as [H|(pre & m & post & -> & Hm & G)]; [contradiction|].
  apply Forall_app in F. destruct F as [F1 F2]. destruct (Good pre F1 G) as (x' & evs & E & _ & S). rewrite run_cmds_app, E. cbn [bind run_cmds].
  destruct m as [h p|a b|p]; cbn [fatal_cmd] in Hm; [contradiction| |]; cbn [pub_eff].
  - left. unfold eff_ack at 1. cbn [fst snd]. rewrite (c38_termination_refuted x' i a b (proj1 Hm) (proj2 Hm)). reflexivity.
  - right. unfold eff_ctrl at 1. cbn [fst snd]. destruct S as (_ & _ & _ & _ & _ & _ & _ & -> & _). rewrite Hm. reflexivity.
Qed.

Lemma alloc_size rb n rb1 s : circ_buf_alloc rb n = inr (rb1, s) -> cb_size rb1 = cb_size rb.
Proof.
  unfold circ_buf_alloc. repeat match goal with |- context [if ?b then _ else _] => destruct b end; intros E; inversion E; reflexivity.
Qed.
Lemma trim_returns rb n : cb_size rb <> 0 -> exists rb', circ_buf_trim rb n = Ok rb'.
Proof.
  intros N. unfold circ_buf_trim. destruct (_ <=? _); [eexists; reflexivity|]. destruct (_ <? _); [eexists; reflexivity|].
  replace (cb_size rb =? 0) with false by lia. eexists. reflexivity.
Qed.
Lemma pipe_returns {St} (d : Z -> option (St -> cbuf -> res (Z * St * cbuf))) st rb o : cb_wf rb -> circ_buf_available rb <> 0 -> o = RErr \/ o = RData [] ->
  exists rb', tcp_read d st rb o = Ok (mkR EPIPE RMC_READ_DISCONNECT st rb').
Proof.
  intros W Ea Hoo. unfold tcp_read, tcp_fill. apply Z.eqb_neq in Ea. rewrite Ea. apply Z.eqb_neq in Ea. pose proof (available_val rb W) as Av. pose proof (in_use_bounds rb W) as Ib.
  destruct (alloc_cases rb (circ_buf_available rb) W) as (rb1 & s & Eal & _); [lia|lia|]. rewrite Eal.
  destruct (trim_returns rb1 (circ_buf_available rb)) as (rb2 & Et). { rewrite (alloc_size _ _ _ _ Eal). unfold cb_wf in W. lia. }
  exists rb2. destruct Hoo as [-> | ->]; rewrite Et; reflexivity.
Qed.

(** The commands a read completes. *)
Definition completes (x : pctx) (i : Z) (t : rres) (cmds : list cmd) : Prop :=
  exists c bs r, slot (x_vec x) i = Ok c /\ c_mode c = CONNECTED /\ t = RData bs /\
    parses for_pub (contents (c_rbuf c) ++ ztake (circ_buf_available (c_rbuf c)) bs) cmds r.

(** Reading a control connection returns unless the read completes a fatal command, and then it
    does not. *)
Theorem c77_pub_read : forall x g log f i t, preached x g log f -> 0 <= i < 65536 -> pread_good x (XRead i (RdTcp t)) ->
  ((forall cmds, completes x i t cmds -> Forall (fun m => ~ fatal_cmd x m) cmds) -> returns (rmc_pub_read x i (RdTcp t))) /\
  ((exists cmds, completes x i t cmds /\ ~ Forall (fun m => ~ fatal_cmd x m) cmds) ->
     rmc_pub_read x i (RdTcp t) = Hang \/ rmc_pub_read x i (RdTcp t) = UB UninitRead).
Proof.
  intros x g log f i t R Hi Hg. pose proof (preached_PRI _ _ _ _ R) as P. apply preached_reached in R. cbn [rmc_pub_read].
  destruct (find_index_cases (x_vec x) i (proj1 Hi)) as [[Ef Hn]|(c & Ef & Hs & Ho)]; rewrite Ef; cbn [bind].
  { split; [intros _; eexists; reflexivity|]. intros (cmds & (c & bs & r & H1 & H2 & _) & _). destruct (Hn c). split; [exact H1|rewrite H2; discriminate]. }
  destruct (Z.eqb_spec (c_mode c) CONNECTED) as [Hm|Hm]; cbn [negb].
  2:{ split; [intros _; eexists; reflexivity|]. intros (cmds & (d & bs & r & H1 & H2 & _) & _). congruence. }
  pose proof (P i c Hs Hm) as Pc. destruct Pc as [W Sz Bg (cmds0 & P0 & _)].
  assert (Hb : bytes_ok (contents (c_rbuf c))) by (destruct P0 as (E & _); rewrite E in Bg; apply Forall_app in Bg; exact (proj2 Bg)).
  pose proof (reached_inv _ _ _ R) as XV. destruct XV as (sp & L & Q & X). destruct (vi_ring _ _ (xi_vec _ _ _ _ _ _ _ X) i c Hs) as [Ww Wz].
  assert (Stuck : forall cmds r, parses for_pub (contents (c_rbuf c) ++ []) cmds r -> cmds = []).
  { intros cmds r Pp. rewrite app_nil_r in Pp. rewrite <- (app_nil_r (contents (c_rbuf c))) in Pp. pose proof (parses_app for_pub _ _ _ _ _ _ P0 Pp) as P1. rewrite app_nil_r in P1.
    destruct (parses_unique for_pub pub_next pub_next_complete _ _ _ _ _ P1 P0) as [E _]. rewrite <- (app_nil_r cmds0) in E at 2. apply app_inv_head in E. exact E. }
  assert (None0 : forall bs, t = RData bs -> ztake (circ_buf_available (c_rbuf c)) bs = [] ->
    ~ exists cmds, completes x i t cmds /\ ~ Forall (fun m => ~ fatal_cmd x m) cmds).
  { intros bs Et E0 (cmds & (d & bs' & r & H1 & _ & H3 & H4) & H5). assert (d = c) as -> by congruence. assert (bs' = bs) as -> by congruence.
    rewrite E0 in H4. rewrite (Stuck _ _ H4) in H5. apply H5. constructor. }
  destruct (Z.eq_dec (circ_buf_available (c_rbuf c)) 0) as [Ea|Ea].
  { rewrite (tcp_read_full _ _ _ t Ea). cbn [bind r_st r_code r_op r_buf fst snd]. change (ENOMEM =? EPIPE) with false. cbv iota. split; [intros _; eexists; reflexivity|].
    intros B. exfalso. destruct B as (cmds & (d & bs & r & H1 & H2 & H3 & H4) & H5). apply (None0 bs H3).
    - rewrite Ea. reflexivity.
    - exists cmds. split; [exists d, bs, r; auto|exact H5]. }
  assert (Close : forall rb', returns (rmc_pub_close_connection (set_vec x (put_slot (x_vec x) i (set_rbuf c rb'))) i)).
  { intros rb'. pose proof (XI_io false x _ _ sp L Q i c (set_rbuf c rb') [] X (conj Hs Ho) eq_refl eq_refl Ww Wz (Forall_nil _) (fun _ _ => Forall_nil _)) as X2.
    rewrite g_unlend_nil, app_nil_r in X2. specialize (X2 (xi_str _ _ _ _ _ _ _ X i c (conj Hs Ho))).
    destruct (close_xi _ _ _ _ _ _ _ i (set_rbuf c rb') X2) as (x2 & _ & _ & e2 & E2 & _); [|eexists; exact E2].
    split; [cbn [set_vec x_vec]; apply slot_put_same; exact (slot_range _ _ _ Hs)|exact Ho]. }
  assert (Pipe : t = RErr \/ t = RData [] -> returns (do r <- tcp_read (pub_dispatch (eff_ack i) (ccb_set x) (eff_ctrl i)) (x, []) (c_rbuf c) t;
            let x1 := fst (r_st r) in let c1 := set_rbuf c (r_buf r) in
            if r_code r =? EPIPE then
              do q <- rmc_pub_close_connection (set_vec x1 (put_slot (x_vec x1) i c1)) i;
              let '(_, x2, evs) := q in Ok (0, Some (r_op r), x2, snd (r_st r) ++ evs)
            else
              let act := Z.lor POLLREAD (if 0 <? pending_send c1 then POLLWRITE else 0) in
              Ok (r_code r, Some (r_op r), set_vec x1 (put_slot (x_vec x1) i (set_action c1 act)), snd (r_st r) ++ [PvConn (EvMod (c_desc c) i (c_action c) act)]))).
  { intros Ht. destruct (pipe_returns (pub_dispatch (eff_ack i) (ccb_set x) (eff_ctrl i)) (x, []) (c_rbuf c) t W Ea Ht) as (rb' & ->).
    cbn [bind r_st r_code r_op r_buf fst snd]. change (EPIPE =? EPIPE) with true. cbv iota zeta. destruct (Close rb') as [[[cd x2] e2] ->]. cbn [bind]. eexists. reflexivity. }
  destruct t as [|bs].
  { split; [intros _; apply Pipe; left; reflexivity|]. intros (cmds & (d & bs' & r & _ & _ & H3 & _) & _). discriminate H3. }
  destruct (list_eq_dec Z.eq_dec bs []) as [->|Hne].
  { split; [intros _; apply Pipe; right; reflexivity|]. intros B. exfalso. apply (None0 [] eq_refl); [unfold ztake; apply firstn_nil|exact B]. }
  clear Pipe. destruct (Hg c Hs Hm Hne) as (Hbs & Hro & Hct). set (got := ztake (circ_buf_available (c_rbuf c)) bs) in *.
  assert (Hcb : bytes_ok (contents (c_rbuf c) ++ got)) by (apply Forall_app; split; [exact Hb|apply bytes_take; exact Hbs]).
  destruct (parses_exists for_pub pub_next pub_next_sound pub_next_complete (S (length (contents (c_rbuf c) ++ got))) (contents (c_rbuf c) ++ got)) as (cmds & l & Pp); [lia|exact Hcb|].
  rewrite <- Sz in Hro, Hct.
  pose proof (tcp_read_total (pub_dispatch (eff_ack i) (ccb_set x) (eff_ctrl i)) (pub_eff (eff_ack i) (ccb_set x) (eff_ctrl i)) for_pub pub_next (ccb_set x) pub_next_sound pub_next_complete
      (pub_handler_cmd _ _ _) (pub_handler_more _ _ _) (pub_handler_bad _ _ _) (x, []) (c_rbuf c) bs cmds l
      W Hb Hbs Hne Ea Hro Pp (fun T => Hct T cmds l Pp)) as Tt.
  assert (Only : forall cmds', completes x i (RData bs) cmds' -> cmds' = cmds).
  { intros cmds' (d & bs' & r & H1 & H2 & H3 & H4). assert (d = c) as -> by congruence. assert (bs' = bs) as -> by congruence.
    exact (proj1 (parses_unique for_pub pub_next pub_next_complete _ _ _ _ _ H4 Pp)). }
  assert (Cm : completes x i (RData bs) cmds) by (exists c, bs, l; auto).
  destruct (run_out x g log i cmds (ex_intro _ sp (ex_intro _ L (ex_intro _ Q X))) (proj1 Hi) (proj1 (proj2 Pp)) (ex_intro _ c Hs)) as [G B]. split.
  - intros H. destruct (G (H _ Cm)) as (x' & evs & E & XV' & S'). rewrite E in Tt. destruct Tt as (rb' & -> & _). cbn [bind r_st r_code r_op r_buf fst snd].
    pose proof (left_not_pipe l) as Nl. apply Z.eqb_neq in Nl. rewrite Nl. eexists. reflexivity.
  - intros (cmds' & C' & H). rewrite (Only _ C') in H. destruct (B H) as [E|E]; rewrite E in Tt; rewrite Tt; cbn [bind]; auto.
Qed.

(** ** Everything else always returns *)
Theorem c77_pub_other : forall x g log o, reached x g log -> xok x g o ->
  match o with XRead _ (RdTcp _) | XWrite _ (WrMcast _) | XTimeout _ _ _ => False | _ => True end ->
  returns (xstep x o).
Proof.
  intros x g log o R Hok Ho. destruct o as [ptr bs|ptr|ptr len ann|i [a cb|err|t]|i [outs|w]|now buf o|i|interval now|s r|b|o|]; cbn [xstep]; try contradiction; try (eexists; reflexivity).
  - destruct (c11_refused_only_when_too_long x g log ptr len ann R Hok) as (code & x' & evs & E & _). eexists. exact E.
  - destruct (c78_pub_accept x g log i a cb R Hok) as [A1 A2].
    destruct (reached_inv _ _ _ R) as (sp & L & Q & X). pose proof (xi_vec _ _ _ _ _ _ _ X) as V. pose proof (vi_size _ _ V) as Sz.
    destruct (accept_cases (x_listen x) (x_vec x) a (nil_listen _ Sz)) as [[NF _]|(j & c & _ & Hc & Dc & _)].
    + rewrite A1; [eexists; reflexivity|]. intros j c Hs. destruct (vi_mode _ _ V j c Hs) as (D & _ & [M|M]); [|exact M]. destruct (NF j). exists c. split; [exact Hs|]. apply D, M.
    + assert (Ex : exists j c, slot (x_vec x) j = Ok c /\ c_mode c <> CONNECTED).
      { exists j, c. split; [exact Hc|]. destruct (vi_mode _ _ V j c Hc) as (D & _). apply D in Dc. rewrite Dc. discriminate. }
      specialize (A2 Ex). destruct a as [e|d addr nd].
      * destruct A2 as (v' & -> & _). eexists. reflexivity.
      * destruct A2 as (x' & evs & ->). eexists. reflexivity.
  - unfold rmc_pub_read. destruct (x_mcast x =? -1); [eexists; reflexivity|]. destruct err; eexists; reflexivity.
  - destruct (c78_pub_write x g log i w R Hok) as (A1 & A2 & A3). assert (Hi : 0 <= i) by (destruct w; cbn in Hok; tauto).
    destruct (Z.le_gt_cases (v_size (x_vec x)) i) as [Hl|Hl]; [rewrite (A1 Hl); eexists; reflexivity|].
    destruct (reached_inv _ _ _ R) as (sp & L & Q & X). destruct (find_index_cases (x_vec x) i Hi) as [[_ Hn]|(c & _ & Hs & Hcl)].
    + rewrite (A2 Hl); [eexists; reflexivity|]. intros (c & Hs & Hm). destruct (Hn c). split; [exact Hs|rewrite Hm; discriminate].
    + destruct (vi_mode _ _ (xi_vec _ _ _ _ _ _ _ X) i c Hs) as (_ & _ & [M|M]); [contradiction|]. destruct (A3 c Hs M) as [B1 B2].
      destruct (list_eq_dec Z.eq_dec (contents (c_wbuf c)) []) as [E|E]; [rewrite (B1 E); eexists; reflexivity|]. destruct (B2 E) as (act & c' & -> & _). eexists. reflexivity.
  - destruct (reached_inv _ _ _ R) as (sp & L & Q & X). destruct (find_index_cases (x_vec x) i (proj1 Hok)) as [[_ H]|(c & _ & Hc)].
    + rewrite (close_none x i (proj1 Hok) H). eexists. reflexivity.
    + destruct (close_xi _ _ _ _ _ _ _ i c X Hc) as (x2 & _ & _ & e2 & -> & _). eexists. reflexivity.
  - destruct (rmc_pub_throttling x s r). eexists. reflexivity.
  - destruct (c66_deactivate x g log R) as (x' & evs & -> & _). eexists. reflexivity.
Qed.

(** ** All calls together *)
(** As long as no announce with a payload comes from rmc_pub_timeout_process, every call that is
    allowed returns, except that a read may complete a fatal command and a timeout may hit the
    end of a send ring. *)
Theorem c77_pub_returns_partial : forall x0 ops x g log f o, fresh_ctx x0 -> rhist x0 ops x g log f -> Forall no_payload_announce ops ->
  xok x g o -> pread_good x o ->
  returns (xstep x o) \/
  (exists i t cmds, o = XRead i (RdTcp t) /\ completes x i t cmds /\ exists m, In m cmds /\ fatal_cmd x m) \/
  (exists now buf a i, o = XTimeout now buf a /\ connected x i /\ ring_end x g now i).
Proof.
  intros x0 ops x g log f o F H Hn Hok Hg. assert (PR : preached x g log f) by (exists x0, ops; auto). pose proof (preached_reached _ _ _ _ PR) as R.
  assert (Oth : match o with XRead _ (RdTcp _) | XWrite _ (WrMcast _) | XTimeout _ _ _ => False | _ => True end -> returns (xstep x o)) by (apply (c77_pub_other x g log); assumption).
  destruct o as [ptr bs|ptr|ptr len ann|i [a cb|err|t]|i [outs|w]|now buf o|i|interval now|s r|b|o|]; try (left; apply Oth; exact Logic.I); clear Oth; cbn [xstep].
  - destruct (c77_pub_read x g log f i t PR Hok Hg) as [A _].
    assert (D : (forall cmds, completes x i t cmds -> Forall (fun m => ~ fatal_cmd x m) cmds) \/ exists cmds, completes x i t cmds /\ exists m, In m cmds /\ fatal_cmd x m).
    { pose proof (preached_PRI _ _ _ _ PR) as P. destruct t as [|bs]; [left; intros cmds (c & bs & r & _ & _ & E & _); discriminate E|].
      destruct (find_index_cases (x_vec x) i (proj1 Hok)) as [[_ N]|(c & _ & Hs & Ho)].
      { left. intros cmds (c & bs' & r & H1 & H2 & _). destruct (N c). split; [exact H1|rewrite H2; discriminate]. }
      destruct (Z.eq_dec (c_mode c) CONNECTED) as [Hm|Hm]; [|left; intros cmds (d & bs' & r & H1 & H2 & _); congruence].
      destruct (P i c Hs Hm) as [W Sz Bg (cmds0 & P0 & _)].
      assert (Hb : bytes_ok (contents (c_rbuf c))) by (destruct P0 as (E & _); rewrite E in Bg; apply Forall_app in Bg; exact (proj2 Bg)).
      set (s := contents (c_rbuf c) ++ ztake (circ_buf_available (c_rbuf c)) bs).
      assert (Hsb : bytes_ok s).
      { apply Forall_app. split; [exact Hb|]. destruct (list_eq_dec Z.eq_dec bs []) as [->|Hne]; [unfold ztake; rewrite firstn_nil; constructor|].
        apply bytes_take. exact (proj1 (Hg c Hs Hm Hne)). }
      destruct (parses_exists for_pub pub_next pub_next_sound pub_next_complete (S (length s)) s) as (cmds & l & Pp); [lia|exact Hsb|].
      destruct (first_bad (fatal_cmd x) (fatal_dec x) cmds) as [G|(pre & m & post & E & Hm2 & _)].
      - left. intros cmds' (d & bs' & r & H1 & H2 & H3 & H4). assert (d = c) as -> by congruence. assert (bs' = bs) as -> by congruence.
        rewrite (proj1 (parses_unique for_pub pub_next pub_next_complete _ _ _ _ _ H4 Pp)). exact G.
      - right. exists cmds. split; [exists c, bs, l; auto|]. exists m. split; [rewrite E; apply in_or_app; right; left; reflexivity|exact Hm2]. }
    destruct D as [D|(cmds & D1 & D2)]; [left|right; left; exists i, t, cmds; auto].
    destruct (A D) as [[[[code op] x'] evs] ->]. cbn [bind]. eexists. reflexivity.
  - left. destruct (c77_pub_multicast x g log i outs R) as [[[[[code op] x'] evs] ->]|[_ (p & l & D1 & D2 & D3)]]; [cbn [bind]; eexists; reflexivity|exfalso].
    destruct (c46_all_valid_partial x0 ops x g log F (rhist_xhist _ _ _ _ _ _ H) Hn) as [V _].
    destruct (V 0 p l) as [E|(bs & E1 & E2)]; [apply in_or_app; right; exact D1|lia|]. specialize (D3 bs E1). lia.
  - destruct (c77_pub_timeout x g log now buf o R Hok) as [A|(_ & _ & i & A & B)]; [left; exact A|right; right]. exists now, buf, o, i. auto.
Qed.

(** ** The exceptions happen *)
(** Connection 0 got 116 packets resent over TCP, and took all but the last byte of each round.  Of
    the next two packets the newer one, resent first, ends where the memory of the ring ends.  The
    older one is then written behind it. *)
Definition c77_round (k : Z) : list xop :=
  [XAlloc (1000 + k) (repeat 7 533); XQueue (1000 + k) 533 false; XWrite 0 (WrMcast [SndOk (1000 * k)]); XTimeout (1000 * k + 101000) 900 AnnNone;
   XWrite 0 (WrTcp (WOk (if k =? 0 then 553 else 554)))].
Definition c77_ops : list xop :=
  [XActivate (ActOk 3 4 0); XRead RMC_LISTEN_INDEX (RdAccept (AccOk 5 1 0) None); XSetCtrl true] ++
  flat_map c77_round (map Z.of_nat (seq 0 116)) ++
  [XAlloc 200 [1]; XAlloc 300 (repeat 8 (Z.to_nat 1115)); XQueue 200 1 false; XQueue 300 1115 false; XWrite 0 (WrMcast [SndOk 200000; SndOk 200001])].
Lemma c77_plain : Forall no_payload_announce c77_ops.
Proof.
  unfold c77_ops. apply Forall_app. split; [repeat constructor|]. apply Forall_app. split; [|repeat constructor].
  apply Forall_flat_map. apply Forall_forall. intros k _. unfold c77_round. repeat constructor.
Qed.
Definition c77_check (r : option (pctx * ghost * list pev * (Z -> list Z))) : bool :=
  match r with Some (x, g, log, f) =>
      xokb x g (XTimeout 400000 900 AnnNone) && match rmc_pub_timeout_process x 400000 900 AnnNone with UB OutOfBounds => true | _ => false end &&
      match slot (x_vec x) 0 with Ok c => (c_mode c =? CONNECTED) && (cb_start (c_wbuf c) =? 64263) && (zlen (contents (c_wbuf c)) =? 1) | _ => false end &&
      (resend_size g 118 =? 1136) && (resend_size g 117 =? 22) && (x_resend x =? 100000) &&
      owedb x 0 117 200000 && owedb x 0 118 200001 | None => false end.
Lemma c77_aux ops r : c77_check r = true -> (forall x g log f, r = Some (x, g, log, f) -> rhist demo0 ops x g log f) ->
  exists x g log f, rhist demo0 ops x g log f /\ xok x g (XTimeout 400000 900 AnnNone) /\
  ring_end x g 400000 0 /\ rmc_pub_timeout_process x 400000 900 AnnNone = UB OutOfBounds.
Proof.
  intros C H. destruct r as [[[[x g] log] f]|]; [|discriminate C]. specialize (H x g log f eq_refl). unfold c77_check in C.
  bool_split. exists x, g, log, f. split; [exact H|]. 
  destruct (slot (x_vec x) 0) as [c| | |] eqn:Es; try discriminate. bool_split.
  split; [apply xokb_ok; assumption|]. split.
  - exists c, [118], 117. split; [exact Es|]. split; [lia|]. split; [repeat constructor; cbn; intuition discriminate|]. split; [|split].
    + intros j [<-|[<-|[]]]; [exists 200001|exists 200000]; (split; [apply owedb_owed; assumption|lia]).
    + cbn [map total fold_right]. unfold RMC_MAX_PACKET. lia.
    + lia.
  - destruct (rmc_pub_timeout_process x 400000 900 AnnNone) as [|[]| |]; try discriminate. reflexivity.
Qed.

Theorem c77_timeout_refuted : exists x g log f, rhist demo0 c77_ops x g log f /\ Forall no_payload_announce c77_ops /\ xok x g (XTimeout 400000 900 AnnNone) /\
  ring_end x g 400000 0 /\ rmc_pub_timeout_process x 400000 900 AnnNone = UB OutOfBounds.
Proof.
  destruct (c77_aux c77_ops (rrun demo0 g_init [] (fun _ => []) c77_ops)) as (x & g & log & f & H1 & H2).
  - vm_cast_no_check (@eq_refl bool true).
  - intros x g log f E. exact (rrun_hist demo0 _ demo0 g_init [] (fun _ => []) [] x g log f (rh_nil _) E).
  - exists x, g, log, f. split; [exact H1|]. split; [exact c77_plain|exact H2].
Qed.
(** In the demo history a read that completes an ack of packet 1 meets the first case of
    [c77_pub_read]; one that completes an ack up to the largest id meets the second. *)
Example c77_read_witness : exists x g log f, preached x g log f /\
  (completes x 0 (RData (wire (CmdAck 1 1))) [CmdAck 1 1] /\ returns (rmc_pub_read x 0 (RdTcp (RData (wire (CmdAck 1 1)))))) /\
  (completes x 0 (RData (wire (CmdAck 1 18446744073709551615))) [CmdAck 1 18446744073709551615] /\ fatal_cmd x (CmdAck 1 18446744073709551615) /\
   rmc_pub_read x 0 (RdTcp (RData (wire (CmdAck 1 18446744073709551615)))) = Hang).
Proof.
  assert (C : match rrun demo0 g_init [] (fun _ => []) demo_ops with Some (x, g, log, f) =>
      match slot (x_vec x) 0 with Ok c => (c_mode c =? CONNECTED) && (circ_buf_available (c_rbuf c) =? 65399) && (zlen (contents (c_rbuf c)) =? 0) | _ => false end &&
      match rmc_pub_read x 0 (RdTcp (RData (wire (CmdAck 1 1)))) with Ok _ => true | _ => false end &&
      match rmc_pub_read x 0 (RdTcp (RData (wire (CmdAck 1 18446744073709551615)))) with Hang => true | _ => false end | None => false end = true) by (vm_compute; reflexivity).
  destruct (rrun demo0 g_init [] (fun _ => []) demo_ops) as [[[[x g] log] f]|] eqn:E1; [|discriminate C].
  pose proof (rrun_hist demo0 _ demo0 g_init [] (fun _ => []) [] x g log f (rh_nil _) E1) as H1.
  clear E1. bool_split. exists x, g, log, f. split; [exists demo0, demo_ops; split; [exact demo0_fresh|exact H1]|].
  destruct (slot (x_vec x) 0) as [c| | |] eqn:Es; try discriminate. bool_split.
  assert (Ec : contents (c_rbuf c) = []) by (destruct (contents (c_rbuf c)); [reflexivity|unfold zlen in *; cbn [length] in *; lia]).
  assert (Ea : circ_buf_available (c_rbuf c) = 65399) by lia.
  assert (Cm : forall b, is_u64 b -> completes x 0 (RData (wire (CmdAck 1 b))) [CmdAck 1 b]).
  { intros b Hb. exists c, (wire (CmdAck 1 b)), []. split; [exact Es|]. split; [lia|]. split; [reflexivity|]. rewrite Ec, Ea.
    unfold ztake. rewrite firstn_all2 by (cbn [wire]; cbn; lia). split; [cbn [flat_map]; rewrite !app_nil_r; reflexivity|].
    split; [constructor; [|constructor]; split; [cbn; unfold is_u64 in *; cbn; lia|exact Logic.I]|]. intros [h p|a d|p] rest _ _ E; discriminate E. }
  split; [split; [apply Cm; unfold is_u64; cbn; lia|]|split; [apply Cm; unfold is_u64; cbn; lia|split; [cbn; lia|]]].
  - destruct (rmc_pub_read _ _ _) as [r| | |]; try discriminate. exists r. reflexivity.
  - destruct (rmc_pub_read x 0 (RdTcp (RData (wire (CmdAck 1 18446744073709551615))))); try discriminate. reflexivity.
Qed.

Print Assumptions c77_pub_timeout.
Print Assumptions c77_pub_multicast.
Print Assumptions c77_pub_read.
Print Assumptions c77_pub_other.
Print Assumptions c77_pub_returns_partial.
Print Assumptions c77_timeout_refuted.
