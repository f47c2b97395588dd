(** PubCtxProofs.v — invariant of every history of a publisher context. *)
From Coq Require Import Sorting.Permutation Sorting.Sorted.
From Verif Require Import Base CircBuf CircBufProofs Wire ListHeap SeqList Pub SpecPub PubProofs Proto SpecProto ProtoProofs
  Conn SpecConn ConnProofs PubTrace Safe PubCtx SpecPubCtx.

(** ** Releasing payloads *)
Definition ptr_of (p : pl) : Z := fst (fst p).
Definition len_of (p : pl) : Z := snd (fst p).
Definition free_evs (fr : list pl) : list pev := map (fun p => PvFree (ptr_of p) (len_of p)) fr.

Lemma updz_same {X} (f : Z -> X) a x : updz f a x a = x.
Proof. unfold updz. rewrite Z.eqb_refl. reflexivity. Qed.
Lemma updz_other {X} (f : Z -> X) a x b : b <> a -> updz f a x b = f b.
Proof. intros H. unfold updz. apply Z.eqb_neq in H. rewrite H. reflexivity. Qed.

Lemma release_all_ok : forall fr m, NoDup (map ptr_of fr) -> (forall p, In p fr -> m (ptr_of p) <> None) ->
  exists m', release_all m fr = Ok (m', free_evs fr) /\
    (forall q, In q (map ptr_of fr) -> m' q = None) /\ (forall q, ~ In q (map ptr_of fr) -> m' q = m q).
Proof.
  induction fr as [|[[p l] u] fr IH]; intros m ND Hv; cbn [release_all].
  - exists m. split; [reflexivity|]. split; [intros q []|reflexivity].
  - cbn [map] in ND. inversion ND as [|? ? N1 N2]; subst. unfold ptr_of in N1 at 1. cbn [fst] in N1.
    pose proof (Hv _ (or_introl eq_refl)) as Hp. unfold ptr_of in Hp. cbn [fst] in Hp.
    destruct (m p) as [bs|] eqn:E; [|congruence].
    destruct (IH (updz m p None)) as (m' & R & H1 & H2); [exact N2| |].
    + intros q Hq. rewrite updz_other; [apply Hv; right; exact Hq|]. intros X. apply N1. rewrite <- X. apply in_map. exact Hq.
    + rewrite R. cbn [bind fst snd]. exists m'. split; [reflexivity|]. change (map ptr_of ((p, l, u) :: fr)) with (p :: map ptr_of fr). split.
      * intros q [<-|Hq]; [|exact (H1 q Hq)]. rewrite (H2 p N1). apply updz_same.
      * intros q Hq. rewrite (H2 q) by (intros Y; apply Hq; right; exact Y). apply updz_other. intros ->. apply Hq. left. reflexivity.
Qed.

Lemma unlend_free : forall fr l b, NoDup (map ptr_of fr) -> (forall q, In q (map ptr_of fr) -> In q l) ->
  (forall q, In q (fst (fold_left unlend (free_evs fr) (l, b))) <-> In q l /\ ~ In q (map ptr_of fr)) /\
  snd (fold_left unlend (free_evs fr) (l, b)) = b.
Proof.
  induction fr as [|p fr IH]; intros l b ND Hin; cbn [free_evs map fold_left].
  - cbn [fst snd In]. split; [tauto|reflexivity].
  - change (map (fun p => PvFree (ptr_of p) (len_of p)) fr) with (free_evs fr). cbn [map] in ND. inversion ND as [|? ? N1 N2]; subst.
    cbn [unlend fst snd]. destruct (in_dec Z.eq_dec (ptr_of p) l) as [_|N]; [|destruct (N (Hin _ (or_introl eq_refl)))].
    destruct (IH (remove Z.eq_dec (ptr_of p) l) b N2) as [I1 I2].
    { intros q Hq. apply in_in_remove; [intros ->; exact (N1 Hq)|]. apply Hin. right. exact Hq. }
    split; [|exact I2]. intros q. rewrite I1. cbn [In]. split.
    + intros [H1 H2]. apply in_remove in H1. split; [tauto|]. intros [X|X]; [|tauto]. destruct H1. congruence.
    + intros [H1 H2]. split; [|tauto]. apply in_in_remove; [|exact H1]. intros ->. tauto.
Qed.
Lemma unlend_nofree : forall evs l, (forall e, In e evs -> match e with PvFree _ _ => False | _ => True end) ->
  fold_left unlend evs l = l.
Proof.
  induction evs as [|e evs IH]; intros l H; [reflexivity|]. cbn [fold_left]. rewrite IH by (intros; apply H; right; assumption).
  specialize (H e (or_introl eq_refl)). destruct e; cbn; try reflexivity. contradiction.
Qed.

(** ** What [release] keeps *)
Lemma release_perm sub sel live :
  Permutation (map e_pl (fst (release sub sel live)) ++ snd (release sub sel live)) (map e_pl live).
Proof.
  induction live as [|e live IH]; [reflexivity|]. rewrite release_cons. cbn [fst snd]. rewrite map_app.
  destruct (hit sub sel e).
  - unfold left_over, let_go. destruct (unclaimed (drop_claim sub e)); cbn [map app].
    + rewrite <- Permutation_middle. constructor. exact IH.
    + constructor. exact IH.
  - cbn [map app]. constructor. exact IH.
Qed.
Lemma release_old sub sel live e' : In e' (fst (release sub sel live)) ->
  exists e, In e live /\ e_pid e' = e_pid e /\ e_pl e' = e_pl e /\ e_ts e' = e_ts e.
Proof.
  induction live as [|e live IH]; [intros []|]. rewrite release_cons. cbn [fst]. intros H. apply in_app_or in H. destruct H as [H|H].
  - exists e. split; [left; reflexivity|]. destruct (hit sub sel e).
    + unfold left_over in H. destruct (unclaimed (drop_claim sub e)); [destruct H|]. destruct H as [<-|[]]. auto.
    + destruct H as [<-|[]]. auto.
  - destruct (IH H) as (f & Hf & R). exists f. split; [right; exact Hf|exact R].
Qed.

(** ** The invariant, in parts *)
Definition pls (sp : spec) : list pl := map e_pl (sp_live sp) ++ map snd (sp_data sp).
Definition kpls (sp : spec) : list (Z * pl) := map (fun e => (e_pid e, e_pl e)) (sp_live sp) ++ sp_data sp.
Lemma kpls_snd sp : map snd (kpls sp) = pls sp.
Proof. unfold kpls, pls. rewrite map_app, map_map. reflexivity. Qed.

(** The connection table. *)
Record VI (v : cvec) (reg : list nat) : Prop := mkVI {
  vi_size : v_size v <= RMC_LISTEN_INDEX;
  vi_max : max_ok v;
  vi_mode : forall i c, slot v i = Ok c -> (c_desc c = -1 <-> c_mode c = CLOSED) /\ -1 <= c_desc c /\
              (c_mode c = CLOSED \/ c_mode c = CONNECTED);
  vi_ring : forall i c, slot v i = Ok c -> cb_wf (c_wbuf c) /\ cb_size (c_wbuf c) = RMC_MAX_PACKET;
  vi_clean : clean v;
  vi_active : v_active v = count_open v;
  vi_reg : forall n, In n reg <-> exists c, is_open v (Z.of_nat n) c
}.

(** Payload memory and loans. *)
Record MI (t : bool) (m : Z -> option (list Z)) (g : ghost) (sp : spec) : Prop := mkMI {
  mi_data : forall k p, In (k, p) (kpls sp) -> 0 <= len_of p <= RMC_MAX_PAYLOAD /\
              exists bs, m (ptr_of p) = Some bs /\ len_of p <= zlen bs /\
                         nth_error (g_data g) (Z.to_nat (k - 1)) = Some (ztake (len_of p) bs);
  mi_ann : forall p, In p (sp_ann sp) -> 0 <= len_of p <= RMC_MAX_PAYLOAD;
  mi_annok : t = true -> forall p, In p (sp_ann sp) -> len_of p = 0 \/
              (In (ptr_of p) (g_pin g) /\ exists bs, m (ptr_of p) = Some bs /\ len_of p <= zlen bs);
  mi_nd : NoDup (map ptr_of (pls sp));
  mi_lent : forall q, In q (g_lent g) <-> In q (map ptr_of (pls sp));
  mi_pin : forall q, In q (g_pin g) -> ~ In q (g_lent g) /\ m q <> None;
  mi_count : zlen (g_data g) = sp_next sp - 1;
  mi_bad : g_bad g = [];
  mi_bytes : forall p bs, m p = Some bs -> bytes_ok bs
}.

(** The log is that of a legal history of SpecPub.v. *)
Definition sent_of (o : pub_out) : list (Z * pl) := match o with OutSent (Some q) => [q] | _ => [] end.
Definition time_of (o : pub_op) : list Z := match o with OpSend ts => [ts] | _ => [] end.
Definition pl2 (p : pl) : Z * Z := (ptr_of p, len_of p).
Definition dgram (node lip : Z) (data : list (list Z)) (q : Z * pl) (d : list Z) : Prop :=
  exists bs port, d = enc_header (Wire.mkHdr (fst q) node (len_of (snd q)) lip port) ++ bs /\ zlen bs = len_of (snd q) /\
    hdr_ok (Wire.mkHdr (fst q) node (len_of (snd q)) lip port) /\
    (fst q <> 0 -> nth_error data (Z.to_nat (fst q - 1)) = Some bs).
Definition HI (s : pub) (node lip : Z) (log : list pev) (g : ghost) (sp : spec) : Prop :=
  exists pops outs, pub_run pub_init pops = Ok (s, outs) /\ legal spec_init pops /\ spec_run spec_init pops = (sp, outs) /\
    map pl2 (frees outs) = flat_map freed_ev log /\
    Forall2 (dgram node lip (g_data g)) (flat_map sent_of outs) (flat_map cast_ev log) /\
    flat_map time_of pops = flat_map cast_ts log.

(** Streams, and what is owed to each connection. *)
Definition claims (sp : spec) (n : nat) (k : Z) : Prop := exists e, In e (sp_live sp) /\ e_pid e = k /\ In n (e_hold e).
Definition carries (cmds : list cmd) (k : Z) : Prop := exists h p, In (CmdPacket h p) cmds /\ h_pid h = k.
Definition acked (s : since) (k : Z) : Prop := exists a b, In (a, b) (s_acks s) /\ a <= k <= b.
Definition ids (cmds : list cmd) : list Z := flat_map (fun c => match c with CmdPacket h _ => [h_pid h] | _ => [] end) cmds.
Lemma carries_ids cmds k : carries cmds k <-> In k (ids cmds).
Proof.
  unfold carries, ids. rewrite in_flat_map. split.
  - intros (h & p & H & <-). exists (CmdPacket h p). split; [exact H|left; reflexivity].
  - intros (c & H & Hk). destruct c as [h p| |]; [|destruct Hk..]. destruct Hk as [<-|[]]. eauto.
Qed.
Lemma ids_app a b : ids (a ++ b) = ids a ++ ids b.
Proof. apply flat_map_app. Qed.
(** Only what was multicast since is owed or on the stream, on the stream once and then not owed
    any more (but for [ex], which is between being put on the stream and being given up), and ids
    still to be sent are new. *)
Definition CSX (ex : option (nat * Z)) (sp : spec) (n : nat) (s : since) (cmds : list cmd) : Prop :=
  (forall k, claims sp n k \/ carries cmds k -> In k (s_cast s)) /\
  NoDup (ids cmds) /\
  (forall k, claims sp n k -> carries cmds k -> ex = Some (n, k)) /\
  (forall k, In k (s_cast s) -> k < sp_next sp /\ forall q, In q (sp_data sp) -> k < fst q).
Definition CSI (ex : option (nat * Z)) (node lip : Z) (data : list (list Z)) (sp : spec) (n : nat) (s : since) (wb : list Z) : Prop :=
  exists cmds, s_sent s ++ wb = flat_map wire cmds /\
    Forall (fun c => exists k, packet_cmd node lip data k c) cmds /\
    (forall k, In k (s_cast s) -> k <> 0 -> claims sp n k \/ carries cmds k \/ acked s k) /\
    CSX ex sp n s cmds.
Definition SI (ex : option (nat * Z)) (node lip : Z) (v : cvec) (log : list pev) (g : ghost) (sp : spec) : Prop :=
  forall i c, is_open v i c -> CSI ex node lip (g_data g) sp (Z.to_nat i) (since_open i log) (contents (c_wbuf c)).

Record XIw (ex : option (nat * Z)) (t : bool) (x : pctx) (g : ghost) (log : list pev) (sp : spec) (L : list (nat * entry)) (Q : list (nat * (Z * pl))) : Prop := mkXI {
  xi_pub : Inv (x_pub x) sp L Q;
  xi_vec : VI (x_vec x) (sp_reg sp);
  xi_mem : MI t (x_mem x) g sp;
  xi_his : HI (x_pub x) (x_node x) (x_lip x) log g sp;
  xi_str : SI ex (x_node x) (x_lip x) (x_vec x) log g sp;
  xi_hdr : is_u32 (x_node x) /\ is_u32 (x_lip x) /\ is_u16 (x_lport x)
}.
Arguments xi_pub {ex}.
Arguments xi_vec {ex}.
Arguments xi_mem {ex}.
Arguments xi_his {ex}.
Arguments xi_str {ex}.
Arguments xi_hdr {ex}.
Notation XI := (XIw None).

(** The parts of the context that acknowledging does not touch. *)
Definition same_but_pub (x x' : pctx) : Prop :=
  x_vec x' = x_vec x /\ x_sthr x' = x_sthr x /\ x_rthr x' = x_rthr x /\ x_mcast x' = x_mcast x /\
  x_listen x' = x_listen x /\ x_aint x' = x_aint x /\ x_anext x' = x_anext x /\ x_ccb x' = x_ccb x /\
  x_resend x' = x_resend x /\ x_node x' = x_node x /\ x_lip x' = x_lip x /\ x_lport x' = x_lport x.
Lemma sbp_refl x : same_but_pub x x.
Proof. repeat split. Qed.
Lemma sbp_trans x y z : same_but_pub x y -> same_but_pub y z -> same_but_pub x z.
Proof. unfold same_but_pub. intuition congruence. Qed.

Definition g_unlend (g : ghost) (evs : list pev) : ghost :=
  let lb := fold_left unlend evs (g_lent g, g_bad g) in mkG (fst lb) (g_pin g) (g_data g) (snd lb).
Lemma g_unlend_app g a b : g_unlend g (a ++ b) = g_unlend (g_unlend g a) b.
Proof. unfold g_unlend. cbn. rewrite fold_left_app. destruct (fold_left unlend a _). reflexivity. Qed.
Lemma g_unlend_nil g : g_unlend g [] = g.
Proof. destruct g. reflexivity. Qed.
Lemma g_unlend_data g evs : g_data (g_unlend g evs) = g_data g.
Proof. reflexivity. Qed.

(** ** Memory *)
Lemma MI_release t m g sp sub sel fr live' sp' :
  MI t m g sp -> release sub sel (sp_live sp) = (live', fr) ->
  sp_next sp' = sp_next sp -> sp_ann sp' = sp_ann sp -> sp_data sp' = sp_data sp -> sp_live sp' = live' ->
  exists m', release_all m fr = Ok (m', free_evs fr) /\ MI t m' (g_unlend g (free_evs fr)) sp'.
Proof.
  intros X E E1 E2 E3 E4.
  pose proof (release_perm sub sel (sp_live sp)) as P. rewrite E in P. cbn [fst snd] in P.
  assert (P2 : Permutation (map ptr_of (pls sp') ++ map ptr_of fr) (map ptr_of (pls sp))).
  { rewrite <- map_app. apply Permutation_map. unfold pls. rewrite E3, E4, <- P.
    rewrite <- !app_assoc. apply Permutation_app_head. apply Permutation_app_comm. }
  pose proof (mi_nd _ _ _ _ X) as ND. pose proof (Permutation_NoDup (Permutation_sym P2) ND) as ND2.
  assert (Old : forall k p, In (k, p) (kpls sp') -> In (k, p) (kpls sp)).
  { intros k p H. unfold kpls in *. rewrite E3, E4 in H. apply in_app_or in H. apply in_or_app. destruct H as [H|H]; [left|right; exact H].
    apply in_map_iff in H. destruct H as (e' & Ek & He'). assert (He2 : In e' (fst (release sub sel (sp_live sp)))) by (rewrite E; exact He').
    destruct (release_old _ _ _ _ He2) as (e & He & H1 & H2 & _). apply in_map_iff. exists e. rewrite <- H1, <- H2. auto. }
  destruct (release_all_ok fr m (NoDup_app_r _ _ ND2)) as (m' & R & M1 & M2).
  { intros p Hp. assert (Hin : In (ptr_of p) (map ptr_of (pls sp))).
    { apply (Permutation_in _ P2), in_or_app. right. apply in_map. exact Hp. }
    apply in_map_iff in Hin. destruct Hin as (q & Eq & Hq). rewrite <- kpls_snd in Hq. apply in_map_iff in Hq.
    destruct Hq as ([k q'] & Eq' & Hq). cbn [snd] in Eq'. subst q'.
    destruct (mi_data _ _ _ _ X k q Hq) as (_ & bs & Hb & _). congruence. }
  exists m'. split; [exact R|].
  destruct (unlend_free fr (g_lent g) (g_bad g) (NoDup_app_r _ _ ND2)) as [U1 U2].
  { intros q Hq. apply (mi_lent _ _ _ _ X), (Permutation_in _ P2), in_or_app. right. exact Hq. }
  assert (Lent : forall q, In q (g_lent (g_unlend g (free_evs fr))) <-> In q (map ptr_of (pls sp'))).
  { intros q. unfold g_unlend. cbn [g_lent]. rewrite U1, (mi_lent _ _ _ _ X). split.
    - intros [H1 H2]. apply (Permutation_in _ (Permutation_sym P2)) in H1. apply in_app_or in H1. tauto.
    - intros H. split; [apply (Permutation_in _ P2), in_or_app; left; exact H|]. intros H2. exact (NoDup_app_disj _ _ q ND2 H H2). }
  assert (Keep : forall q, ~ In q (map ptr_of fr) -> m' q = m q) by exact M2.
  constructor; cbn [g_pin g_data g_unlend]; auto.
  - intros k p H. destruct (mi_data _ _ _ _ X k p (Old k p H)) as (Hl & bs & Hb & Hle & Hn).
    split; [exact Hl|]. exists bs. split; [|auto]. rewrite Keep; [exact Hb|]. intros Hf.
    apply (NoDup_app_disj _ _ (ptr_of p) ND2); [|exact Hf]. apply in_map. rewrite <- kpls_snd.
    apply in_map_iff. exists (k, p). auto.
  - rewrite E2. exact (mi_ann _ _ _ _ X).
  - intros T p H. rewrite E2 in H. destruct (mi_annok _ _ _ _ X T p H) as [H0|(Hp & bs & Hb & Hl)]; [left; exact H0|right].
    split; [exact Hp|]. exists bs. split; [|exact Hl]. rewrite Keep; [exact Hb|]. intros Hf.
    destruct (mi_pin _ _ _ _ X _ Hp) as [Hn _]. apply Hn, (mi_lent _ _ _ _ X), (Permutation_in _ P2), in_or_app. right. exact Hf.
  - exact (NoDup_app_l _ _ ND2).
  - intros q Hq. destruct (mi_pin _ _ _ _ X q Hq) as [Hn Hv]. split.
    + rewrite Lent. intros H. apply Hn, (mi_lent _ _ _ _ X), (Permutation_in _ P2), in_or_app. left. exact H.
    + rewrite Keep; [exact Hv|]. intros Hf. apply Hn, (mi_lent _ _ _ _ X), (Permutation_in _ P2), in_or_app. right. exact Hf.
  - rewrite E1. exact (mi_count _ _ _ _ X).
  - cbn [g_bad g_unlend]. rewrite U2. exact (mi_bad _ _ _ _ X).
  - intros p bs H. destruct (in_dec Z.eq_dec p (map ptr_of fr)) as [Hf|Hf].
    + rewrite M1 in H by exact Hf. discriminate.
    + rewrite Keep in H by exact Hf. exact (mi_bytes _ _ _ _ X p bs H).
Qed.
(** Nothing but the lists of packets matters. *)
Lemma MI_same t m g sp sp' : MI t m g sp -> sp_next sp' = sp_next sp -> sp_ann sp' = sp_ann sp -> sp_data sp' = sp_data sp ->
  sp_live sp' = sp_live sp -> MI t m g sp'.
Proof.
  intros X E1 E2 E3 E4.
  assert (K : kpls sp' = kpls sp) by (unfold kpls; rewrite E3, E4; reflexivity).
  assert (P : pls sp' = pls sp) by (unfold pls; rewrite E3, E4; reflexivity).
  destruct X. constructor; rewrite ?K, ?P, ?E1, ?E2; auto.
Qed.

(** ** History *)
Lemma Forall2_imp {A B} (P Q : A -> B -> Prop) l m : (forall a b, P a b -> Q a b) -> Forall2 P l m -> Forall2 Q l m.
Proof. intros H. induction 1; constructor; auto. Qed.
Lemma dgram_mono node lip d1 d2 q d : (exists tl, d2 = d1 ++ tl) -> dgram node lip d1 q d -> dgram node lip d2 q d.
Proof.
  intros [tl ->] (bs & port & E & Hl & Hh & Hn). exists bs, port. refine (conj E (conj Hl (conj Hh _))). intros H. specialize (Hn H).
  rewrite nth_error_app1; [exact Hn|]. apply nth_error_Some. congruence.
Qed.
Lemma pub_run_snoc ops : forall s s1 outs o r, pub_run s ops = Ok (s1, outs) -> pub_step s1 o = Ok r ->
  pub_run s (ops ++ [o]) = Ok (fst r, outs ++ [snd r]).
Proof.
  induction ops as [|o1 ops IH]; intros s s1 outs o r; cbn [pub_run app].
  - intros E E2. injection E as <- <-. rewrite E2. reflexivity.
  - destruct (pub_step s o1) as [[sa oa]| | |]; cbn [bind fst snd]; [|discriminate..].
    destruct (pub_run sa ops) as [[sb ob]| | |] eqn:Er; cbn [bind fst snd]; [|discriminate..]. intros E E2. injection E as <- <-.
    rewrite (IH sa sb ob o r Er E2). reflexivity.
Qed.
Lemma HI_op s s' node lip log g sp o evs g' : HI s node lip log g sp -> op_legal sp o ->
  pub_step s o = Ok (s', snd (spec_step sp o)) ->
  map pl2 (freed_of (snd (spec_step sp o))) = flat_map freed_ev evs ->
  (exists tl, g_data g' = g_data g ++ tl) ->
  Forall2 (dgram node lip (g_data g')) (sent_of (snd (spec_step sp o))) (flat_map cast_ev evs) ->
  time_of o = flat_map cast_ts evs ->
  HI s' node lip (log ++ evs) g' (fst (spec_step sp o)).
Proof.
  intros (pops & outs & Rn & Lg & R & F & C & T) Lo St F' G C' T'. exists (pops ++ [o]), (outs ++ [snd (spec_step sp o)]).
  split; [exact (pub_run_snoc _ _ _ _ _ _ Rn St)|].
  split; [apply legal_app; rewrite R; cbn [fst legal]; auto|].
  split; [rewrite spec_run_app, R; cbn [fst snd spec_run]; destruct (spec_step sp o); reflexivity|].
  split; [|split].
  - unfold frees in *. rewrite !flat_map_app, map_app, F. cbn [flat_map]. rewrite app_nil_r, F'. reflexivity.
  - rewrite !flat_map_app. apply Forall2_app.
    + eapply Forall2_imp; [|exact C]. intros q d. apply dgram_mono. exact G.
    + cbn [flat_map]. rewrite app_nil_r. exact C'.
  - rewrite !flat_map_app, T. cbn [flat_map]. rewrite app_nil_r, T'. reflexivity.
Qed.
Definition plain (e : pev) : Prop := match e with PvFree _ _ | PvCast _ _ => False | _ => True end.
Lemma plain_flat evs : Forall plain evs -> flat_map freed_ev evs = [] /\ flat_map cast_ev evs = [] /\ flat_map cast_ts evs = [].
Proof. induction 1 as [|e l H _ IH]; [auto|]. cbn [flat_map]. destruct IH as (-> & -> & ->). destruct e; cbn in *; auto; contradiction. Qed.
Lemma HI_plain s node lip log g sp evs g' : HI s node lip log g sp -> Forall plain evs -> (exists tl, g_data g' = g_data g ++ tl) ->
  HI s node lip (log ++ evs) g' sp.
Proof.
  intros (pops & outs & Rn & Lg & R & F & C & T) P G. destruct (plain_flat evs P) as (P1 & P2 & P3). exists pops, outs.
  rewrite !flat_map_app, P1, P2, P3, !app_nil_r. refine (conj Rn (conj Lg (conj R (conj F (conj _ T))))). eapply Forall2_imp; [|exact C]. intros q d. apply dgram_mono. exact G.
Qed.

(** ** Streams *)
(** Events that say nothing about connection [i]. *)
Definition quiet (i : Z) (e : pev) : Prop := forall s, since_ev i s e = s.
Lemma since_app i log evs : since_open i (log ++ evs) = fold_left (since_ev i) evs (since_open i log).
Proof. unfold since_open. apply fold_left_app. Qed.
Lemma since_quiet i log evs : Forall (quiet i) evs -> since_open i (log ++ evs) = since_open i log.
Proof.
  rewrite since_app. generalize (since_open i log). intros s H. revert s.
  induction H as [|e l H _ IH]; intros s; [reflexivity|]. cbn [fold_left]. rewrite H. apply IH.
Qed.
Lemma release_keep n sub sel live e : In e live -> In n (e_hold e) -> (n <> sub \/ sel e = false) ->
  exists e', In e' (fst (release sub sel live)) /\ e_pid e' = e_pid e /\ In n (e_hold e').
Proof.
  intros He Hn Hc. apply in_split in He. destruct He as (l1 & l2 & ->). rewrite release_app, release_cons. cbn [fst snd].
  destruct (hit sub sel e) eqn:Eh.
  - unfold hit in Eh. apply andb_prop in Eh. destruct Eh as [E1 E2]. destruct Hc as [Hc|Hc]; [|congruence].
    exists (drop_claim sub e). assert (Hn' : In n (e_hold (drop_claim sub e))) by (cbn; apply In_rm; auto).
    split; [|split; [reflexivity|exact Hn']]. apply in_or_app. right. apply in_or_app. left. unfold left_over.
    unfold unclaimed. destruct (e_hold (drop_claim sub e)) eqn:Ed; [destruct Hn'|left; reflexivity].
  - exists e. split; [|auto]. apply in_or_app. right. apply in_or_app. left. left. reflexivity.
Qed.
Lemma csi_gen ex node lip d1 d2 sp sp' n s s' wb : CSI ex node lip d1 sp n s wb -> (exists tl, d2 = d1 ++ tl) ->
  s_sent s' = s_sent s -> incl (s_acks s) (s_acks s') ->
  (forall k, In k (s_cast s') -> k <> 0 -> (In k (s_cast s) /\ (claims sp n k -> claims sp' n k \/ acked s' k)) \/ claims sp' n k) ->
  (forall cmds, CSX ex sp n s cmds -> CSX ex sp' n s' cmds) ->
  CSI ex node lip d2 sp' n s' wb.
Proof.
  intros (cmds & E & F & D & G) [tl ->] E1 E2 K K2. exists cmds. rewrite E1. refine (conj E (conj _ (conj _ (K2 cmds G)))). clear K2 G.
  - eapply Forall_impl; [|exact F]. intros c (k & p & port & Ec & Hk & Hn & Hok). exists k, p, port.
    refine (conj Ec (conj Hk (conj _ Hok))). rewrite nth_error_app1; [exact Hn|]. apply nth_error_Some. congruence.
  - intros k Hk H0. destruct (K k Hk H0) as [[Hs Hcl]|Hcl]; [|left; exact Hcl].
    destruct (D k Hs H0) as [H|[H|(a & b & Ha & Hb)]].
    + destruct (Hcl H) as [H1|H1]; auto.
    + auto.
    + right. right. exists a, b. split; [apply E2; exact Ha|exact Hb].
Qed.
Lemma csi_mono ex node lip d sp sp' n s wb : CSI ex node lip d sp n s wb -> (forall k, claims sp n k <-> claims sp' n k) -> sp_next sp' = sp_next sp -> sp_data sp' = sp_data sp ->
  CSI ex node lip d sp' n s wb.
Proof.
  intros H K E1 E2. eapply csi_gen; [exact H|exists []; rewrite app_nil_r; reflexivity|reflexivity|apply incl_refl| |].
  - intros k Hk _. left. split; [exact Hk|]. intros Hc. left. apply K. exact Hc.
  - intros cmds (G1 & G2 & G3 & G4). unfold CSX. rewrite E1, E2. split; [|split; [exact G2|split; [|exact G4]]]; intros k; rewrite <- K; auto.
Qed.
(** Claims given up: only those already on the stream or acknowledged. *)
Lemma release_claims sp sp' n sub sel k : sp_live sp' = fst (release sub sel (sp_live sp)) -> claims sp' n k ->
  exists e, In e (sp_live sp) /\ e_pid e = k /\ In n (e_hold e) /\ ~ (n = sub /\ sel e = true).
Proof.
  intros El (e' & He & Hk & Hn). rewrite El in He. clear El. induction (sp_live sp) as [|e l IH]; [destruct He|].
  rewrite release_cons in He. cbn [fst] in He. apply in_app_or in He. destruct He as [He|He]; [|destruct (IH He) as (f & H1 & H2); exists f; split; [right; exact H1|exact H2]].
  exists e. split; [left; reflexivity|]. destruct (hit sub sel e) eqn:Eh.
  - unfold left_over in He. destruct (unclaimed _); [destruct He|]. destruct He as [<-|[]]. cbn [drop_claim e_pid e_hold] in *. apply In_rm in Hn. tauto.
  - destruct He as [<-|[]]. split; [exact Hk|]. split; [exact Hn|]. intros [-> Hs]. unfold hit in Eh. rewrite Hs in Eh. cbn [andb] in Eh. apply mem_nIn in Eh. tauto.
Qed.
Lemma csi_release ex node lip d sp sp' n s wb sub sel : CSI ex node lip d sp n s wb -> sp_next sp' = sp_next sp -> sp_data sp' = sp_data sp ->
  (forall m k, ex = Some (m, k) -> m = sub /\ forall e, e_pid e = k -> sel e = true) -> sp_live sp' = fst (release sub sel (sp_live sp)) ->
  (n <> sub \/ forall e cmds, In e (sp_live sp) -> sel e = true -> s_sent s ++ wb = flat_map wire cmds ->
      Forall (fun c => exists k, packet_cmd node lip d k c) cmds -> carries cmds (e_pid e) \/ acked s (e_pid e)) ->
  CSI None node lip d sp' n s wb.
Proof.
  intros (cmds & E & F & D & G) E1 E2 Hex El K. exists cmds. refine (conj E (conj F (conj _ _))).
  2:{ destruct G as (G1 & G2 & G3 & G4). unfold CSX. rewrite E1, E2. split; [|split; [exact G2|split; [|exact G4]]].
      - intros k [Hk|Hk]; apply G1; [left|right; exact Hk]. destruct (release_claims _ _ _ _ _ _ El Hk) as (e & H1 & H2 & H3 & _). exists e. auto.
      - intros k Hk Hc. destruct (release_claims _ _ _ _ _ _ El Hk) as (e & H1 & H2 & H3 & H4). exfalso. apply H4.
        destruct (Hex n k) as [Hs Hl]; [apply G3; [exists e; auto|exact Hc]|]. auto. }
  intros k Hk H0.
  destruct (D k Hk H0) as [(e & He & Ek & Hn)|H]; [|auto].
  assert (C : (n <> sub \/ sel e = false) -> claims sp' n k).
  { intros C. destruct (release_keep n sub sel (sp_live sp) e He Hn C) as (e' & H1 & H2 & H3). exists e'. rewrite El. split; [exact H1|]. split; [congruence|exact H3]. }
  destruct K as [K|K]; [left; apply C; auto|]. destruct (sel e) eqn:Es; [|left; apply C; auto].
  right. rewrite <- Ek. exact (K e cmds He Es E F).
Qed.

Lemma cmds_unique node lip d s cmds cmds' : Forall (fun c => exists k, packet_cmd node lip d k c) cmds ->
  Forall (fun c => exists k, packet_cmd node lip d k c) cmds' -> s = flat_map wire cmds -> s = flat_map wire cmds' -> cmds = cmds'.
Proof.
  intros F F' E E'.
  assert (P : forall cm, Forall (fun c => exists k, packet_cmd node lip d k c) cm -> s = flat_map wire cm -> parses for_sub s cm []).
  { intros cm Fc Ec. split; [rewrite app_nil_r; exact Ec|]. split.
    - eapply Forall_impl; [|exact Fc]. intros c (k & p & port & -> & _ & _ & Hok). split; [exact Hok|exact Logic.I].
    - intros c rest Hok Ha X. destruct c; [|contradiction..]. discriminate X. }
  destruct (parses_unique for_sub sub_next sub_next_complete cmds s cmds' [] [] (P _ F E) (P _ F' E')) as [H _]. exact H.
Qed.

(** ** The connection table *)
Lemma open_unique v i c c' : slot v i = Ok c -> slot v i = Ok c' -> c = c'.
Proof. congruence. Qed.
Lemma VI_io v reg i c c' : VI v reg -> is_open v i c -> c_mode c' = c_mode c -> c_desc c' = c_desc c ->
  cb_wf (c_wbuf c') -> cb_size (c_wbuf c') = RMC_MAX_PACKET -> VI (put_slot v i c') reg.
Proof.
  intros X [Hs Ho] Em Ed Hw Hz. pose proof (slot_range _ _ _ Hs) as R. destruct X as [X1 X2 X3 X4 X5 X6 X7].
  constructor.
  - rewrite size_put. exact X1.
  - destruct X2 as [M1 M2]. split; [rewrite size_put; exact M1|]. intros j d Hj D. cbn [put_slot v_max].
    destruct (slot_put v i c' j d R Hj) as [[-> ->]|[N Hj']]; [|exact (M2 j d Hj' D)]. apply (M2 i c Hs). congruence.
  - intros j d Hj. destruct (slot_put v i c' j d R Hj) as [[-> ->]|[N Hj']]; [|exact (X3 j d Hj')]. rewrite Em, Ed. exact (X3 i c Hs).
  - intros j d Hj. destruct (slot_put v i c' j d R Hj) as [[-> ->]|[N Hj']]; [auto|exact (X4 j d Hj')].
  - apply (clean_put v i c'); [exact X5|exact R|reflexivity|]. rewrite Em. intros Hm. contradiction.
  - change (v_active (put_slot v i c')) with (v_active v). rewrite (count_put v i c c' Hs), X6. unfold b_open. rewrite Em. lia.
  - intros n. rewrite X7. split.
    + intros [d [Hd Hm]]. destruct (Z.eq_dec (Z.of_nat n) i) as [E|E].
      * exists c'. rewrite E. split; [apply slot_put_same; exact R|congruence].
      * exists d. split; [rewrite slot_put_other by (lia || exact E); exact Hd|exact Hm].
    + intros [d [Hd Hm]]. destruct (slot_put v i c' _ d R Hd) as [[E ->]|[N Hj']].
      * exists c. rewrite E. split; [exact Hs|exact Ho].
      * exists d. split; assumption.
Qed.

Lemma fresh_ring_wf c : fresh_rings c -> cb_wf (c_wbuf c) /\ cb_size (c_wbuf c) = RMC_MAX_PACKET /\ contents (c_wbuf c) = [].
Proof.
  intros (_ & H1 & H2 & H3). destruct (init_wf RMC_MAX_PACKET (cb_mem (c_wbuf c))) as (W1 & W2 & W3).
  { unfold RMC_MAX_PACKET, cb_max. lia. }
  assert (E : c_wbuf c = circ_buf_init RMC_MAX_PACKET (cb_mem (c_wbuf c))).
  { destruct (c_wbuf c) as [sz st sp m]. cbn in *. subst. reflexivity. }
  rewrite E. auto.
Qed.

Lemma VI_close v reg i c : VI v reg -> is_open v i c ->
  exists v', close_conn v i = Ok (0, v', [EvRem (c_desc c) i; EvClose (c_desc c)]) /\ VI v' (rm (Z.to_nat i) reg) /\
    v_size v' = v_size v /\ (forall j, j <> i -> slot v' j = slot v j) /\ (forall d, ~ is_open v' i d).
Proof.
  intros X [Hs Ho]. pose proof (slot_range _ _ _ Hs) as R. destruct X as [X1 X2 X3 X4 X5 X6 X7].
  destruct (close_cases v i) as [[H _]|[(c1 & H1 & H2 & _)|(c1 & [H1 H2] & E)]]; [lia|lia|congruence|].
  assert (c1 = c) by congruence. subst c1. clear H1 H2. cbv zeta in E.
  set (v2 := if i =? v_max v then reset_max (put_slot v i (reset_conn c)) else put_slot v i (reset_conn c)) in *.
  assert (Hz : v_size (set_active v2 (u16 (v_active v - 1))) = v_size v).
  { unfold v2. destruct (i =? v_max v); [change (v_size (put_slot v i (reset_conn c)) = v_size v)|]; apply size_put. }
  assert (Hsl : forall j, slot (set_active v2 (u16 (v_active v - 1))) j = slot (put_slot v i (reset_conn c)) j).
  { intros j. unfold v2. destruct (i =? v_max v); reflexivity. }
  assert (Hother : forall j, j <> i -> slot (set_active v2 (u16 (v_active v - 1))) j = slot v j).
  { intros j N. rewrite Hsl. apply slot_put_other; [lia|exact N]. }
  assert (Hsame : slot (set_active v2 (u16 (v_active v - 1))) i = Ok (reset_conn c)) by (rewrite Hsl; apply slot_put_same; exact R).
  assert (Hcase : forall j d, slot (set_active v2 (u16 (v_active v - 1))) j = Ok d -> (j = i /\ d = reset_conn c) \/ (j <> i /\ slot v j = Ok d)).
  { intros j d Hj. rewrite Hsl in Hj. exact (slot_put v i _ j d R Hj). }
  eexists. split; [exact E|]. refine (conj _ (conj Hz (conj Hother _))).
  2:{ intros d [Hd Hm]. rewrite Hsame in Hd. injection Hd as <-. apply Hm. reflexivity. }
  constructor.
  - rewrite Hz. exact X1.
  - pose proof (closed_max v i c v2 X1 X2 R eq_refl) as [M1 M2]. split; assumption.
  - intros j d Hj. destruct (Hcase j d Hj) as [[-> ->]|[N Hj']]; [|exact (X3 j d Hj')]. cbn. unfold CLOSED. intuition lia.
  - intros j d Hj. destruct (Hcase j d Hj) as [[-> ->]|[N Hj']]; [|exact (X4 j d Hj')].
    destruct (fresh_ring_wf (reset_conn c) (fresh_reset c)) as (F1 & F2 & _). auto.
  - exact (clean_close v i _ _ _ (proj1 R) X5 E).
  - change (v_active (set_active v2 (u16 (v_active v - 1)))) with (u16 (v_active v - 1)). rewrite X6, (u16_count_pred v i c X1 (conj Hs Ho)).
    replace (count_open (set_active v2 (count_open v - 1))) with (count_open (put_slot v i (reset_conn c)))
      by (unfold v2; destruct (i =? v_max v); reflexivity).
    rewrite (count_put v i c _ Hs). unfold b_open. cbn [c_mode reset_conn]. change (CLOSED =? CLOSED) with true.
    destruct (Z.eqb_spec (c_mode c) CLOSED); [contradiction|lia].
  - intros n. rewrite In_rm, X7. split.
    + intros [[d Hd] N]. exists d. destruct Hd as [Hd Hm]. split; [|exact Hm]. rewrite Hother; [exact Hd|]. lia.
    + intros [d [Hd Hm]]. destruct (Hcase _ d Hd) as [[En ->]|[N Hj']]; [exfalso; apply Hm; reflexivity|].
      split; [exists d; split; assumption|]. intros ->. apply N. lia.
Qed.

Lemma VI_accept v reg i c d addr : VI v reg -> lowest_free v i -> slot v i = Ok c -> c_desc c = -1 -> 0 <= d ->
  let c' := mkConn POLLREAD d (c_node c) (c_rbuf c) (c_wbuf c) CONNECTED (c_port c) addr in
  let v' := set_active (put_slot (bumped v i) i c') (u16 (v_active v + 1)) in
  VI v' (reg ++ [Z.to_nat i]) /\ is_open v' i c' /\ contents (c_wbuf c') = [] /\ (forall j, j <> i -> slot v' j = slot v j) /\
  ~ In (Z.to_nat i) reg.
Proof.
  intros X Lf Hs Hd Hd0 c' v'. pose proof (slot_range _ _ _ Hs) as R. destruct X as [X1 X2 X3 X4 X5 X6 X7].
  assert (Hc : c_mode c = CLOSED) by (apply (X3 i c Hs); exact Hd).
  assert (Hsame : slot v' i = Ok c') by (apply slot_put_bumped; exact R).
  assert (Hother : forall j, j <> i -> slot v' j = slot v j).
  { intros j N. unfold v'. rewrite slot_set_active, slot_put_other by (lia || exact N). apply bumped_slot. }
  assert (Hcase : forall j d, slot v' j = Ok d -> (j = i /\ d = c') \/ (j <> i /\ slot v j = Ok d)).
  { intros j d0 Hj. destruct (Z.eq_dec j i) as [->|N]; [left; split; congruence|right]. rewrite Hother in Hj by exact N. auto. }
  destruct (fresh_ring_wf c (X5 i c Hs Hc)) as (F1 & F2 & F3).
  assert (Hm : c_mode c' <> CLOSED) by (unfold c', CONNECTED, CLOSED; cbn; lia).
  refine (conj _ (conj (conj Hsame Hm) (conj F3 (conj Hother _)))).
  2:{ intros H. apply X7 in H. destruct H as [d0 [H1 H2]]. rewrite Z2Nat.id in H1 by lia. congruence. }
  constructor.
  - unfold v'. change (v_size (put_slot (bumped v i) i c') <= RMC_LISTEN_INDEX). rewrite size_put, bumped_size. exact X1.
  - destruct (bump_max v i X2 R X1) as (M1 & M2 & M3). fold (bumped v i) in M1, M2, M3.
    pose proof (max_put (bumped v i) i c' M1) as [P1 P2]; [rewrite bumped_size; exact R|exact M2|exact M3|]. split; assumption.
  - intros j d0 Hj. destruct (Hcase j d0 Hj) as [[-> ->]|[N Hj']]; [|exact (X3 j d0 Hj')]. unfold c'. cbn [c_desc c_mode]. unfold CONNECTED, CLOSED. intuition lia.
  - intros j d0 Hj. destruct (Hcase j d0 Hj) as [[-> ->]|[N Hj']]; [|exact (X4 j d0 Hj')]. auto.
  - intros j d0 Hj Hcl. destruct (Hcase j d0 Hj) as [[-> ->]|[N Hj']]; [contradiction|exact (X5 j d0 Hj' Hcl)].
  - unfold v'. change (u16 (v_active v + 1) = count_open (put_slot (bumped v i) i c')).
    rewrite (count_put (bumped v i) i c c') by (rewrite bumped_slot; exact Hs).
    replace (count_open (bumped v i)) with (count_open v) by (unfold count_open; rewrite bumped_conns; reflexivity).
    rewrite X6, (u16_count_succ v X1). unfold b_open. rewrite Hc. change (CLOSED =? CLOSED) with true. destruct (Z.eqb_spec (c_mode c') CLOSED); [contradiction|lia].
  - intros n. rewrite in_app_iff, X7. split.
    + intros [[d0 [H1 H2]]|[<-|[]]].
      * exists d0. split; [|exact H2]. rewrite Hother; [exact H1|]. intros E. rewrite E in H1. congruence.
      * exists c'. rewrite Z2Nat.id by lia. split; assumption.
    + intros [d0 [H1 H2]]. destruct (Hcase _ d0 H1) as [[En ->]|[N Hj']]; [right; left; lia|left; exists d0; split; assumption].
Qed.
Lemma VI_fail v reg i c : VI v reg -> lowest_free v i -> slot v i = Ok c -> c_desc c = -1 ->
  VI (put_slot (bumped v i) i (set_desc c (-1))) reg /\ forall j, slot (put_slot (bumped v i) i (set_desc c (-1))) j = slot v j.
Proof.
  intros X Lf Hs Hd. pose proof (slot_range _ _ _ Hs) as R.
  assert (Ec : set_desc c (-1) = c) by (destruct c; cbn in *; subst; reflexivity). rewrite Ec.
  assert (Hsl : forall j, slot (put_slot (bumped v i) i c) j = slot v j).
  { intros j. destruct (Z.eq_dec j i) as [->|N].
    - rewrite slot_put_same by (rewrite bumped_size; exact R). congruence.
    - rewrite slot_put_other by (lia || exact N). apply bumped_slot. }
  split; [|exact Hsl]. destruct X as [X1 X2 X3 X4 X5 X6 X7]. constructor.
  - rewrite size_put, bumped_size. exact X1.
  - destruct (bump_max v i X2 R X1) as (M1 & M2 & M3). fold (bumped v i) in M1, M2, M3.
    apply max_put; [exact M1|rewrite bumped_size; exact R|exact M2|exact M3].
  - intros j d. rewrite Hsl. apply X3.
  - intros j d. rewrite Hsl. apply X4.
  - intros j d. rewrite Hsl. apply X5.
  - change (v_active (put_slot (bumped v i) i c)) with (v_active (bumped v i)). rewrite bumped_active, X6.
    rewrite (count_put (bumped v i) i c c) by (rewrite bumped_slot; exact Hs). unfold count_open. rewrite bumped_conns. lia.
  - intros n. rewrite X7. unfold is_open. split; intros [d H]; exists d; rewrite Hsl in *; exact H.
Qed.
Lemma VI_reg_len v reg : VI v reg -> NoDup reg -> zlen reg < 4294967295.
Proof.
  intros X ND. assert (H : incl reg (seq 0 (Z.to_nat RMC_LISTEN_INDEX))).
  { intros n Hn. apply (vi_reg _ _ X) in Hn. destruct Hn as [c [Hs _]]. apply slot_range in Hs. pose proof (vi_size _ _ X).
    apply in_seq. lia. }
  apply (NoDup_incl_length ND) in H. rewrite seq_length in H. unfold zlen, RMC_LISTEN_INDEX in *. lia.
Qed.
Lemma VI_connected v reg n : VI v reg -> In n reg -> exists c, is_open v (Z.of_nat n) c /\ c_mode c = CONNECTED.
Proof.
  intros X Hn. apply (vi_reg _ _ X) in Hn. destruct Hn as [c [Hs Hm]]. exists c. split; [split; assumption|].
  destruct (vi_mode _ _ X _ c Hs) as (_ & _ & [H|H]); [contradiction|exact H].
Qed.

(** ** Acknowledging *)
Lemma free_evs_quiet i fr : Forall (quiet i) (free_evs fr).
Proof. unfold free_evs. apply Forall_map, Forall_forall. intros p _ s. reflexivity. Qed.
Lemma free_evs_free fr : flat_map freed_ev (free_evs fr) = map pl2 fr /\ flat_map cast_ev (free_evs fr) = [] /\ flat_map cast_ts (free_evs fr) = [].
Proof. induction fr as [|p fr (I1 & I2 & I3)]; [auto|]. cbn [free_evs map flat_map freed_ev cast_ev cast_ts app]. fold (free_evs fr). rewrite I1, I2, I3. auto. Qed.
Lemma SI_same ex node lip v log g sp g' log' : SI ex node lip v log g sp -> g_data g' = g_data g ->
  (forall i c, is_open v i c -> since_open i log' = since_open i log) -> SI ex node lip v log' g' sp.
Proof. intros H Eg E i c Ho. rewrite Eg, (E i c Ho). exact (H i c Ho). Qed.
Lemma ack_keeps s sub pid s' fr b : pub_packet_ack s sub pid = Ok (s', fr) -> In b (p_sinf s sub) -> pid_of s b <> pid ->
  In b (p_sinf s' sub) /\ pid_of s' b = pid_of s b.
Proof.
  unfold pub_packet_ack. destruct (check_live s (p_sinf s sub)) as [[]| | |]; [|discriminate..]. cbn [bind].
  destruct (find (fun a => pid_of s a =? pid) (rev (p_sinf s sub))) as [a|] eqn:Ef.
  2:{ intros E. injection E as <- <-. auto. }
  intros E Hb Hp.
  assert (K : forall l, In b l -> In b (rm1 (fun b => pid_of s b =? pid) l)).
  { induction l as [|y l IH]; [intros []|]. cbn [rm1]. intros [->|H].
    - destruct (Z.eqb_spec (pid_of s b) pid); [contradiction|]. left. reflexivity.
    - destruct (pid_of s y =? pid); [exact H|]. right. apply IH. exact H. }
  assert (Nab : b <> a).
  { intros ->. apply find_some in Ef. destruct Ef as [_ Ef]. apply Z.eqb_eq in Ef. contradiction. }
  apply Nat.eqb_neq in Nab.
  assert (K2 : In b (rev (rm1 (fun b => pid_of s b =? pid) (rev (p_sinf s sub))))) by (rewrite <- in_rev; apply K; rewrite <- in_rev; exact Hb).
  set (l' := rev (rm1 _ _)) in *. destruct (get_pack (set_sinf s sub l') a) as [p| | |]; cbn [bind] in E; [|discriminate..].
  match type of E with (if ?b then _ else _) = _ => destruct b end.
  - match type of E with bind ?m _ = _ => destruct m as [s3| | |] eqn:Eu end; cbn [bind] in E; [|discriminate..]. injection E as <- <-.
    cbn [set_pack p_sinf]. unfold unlink_parent in Eu.
    match type of Eu with (if ?b then _ else _) = _ => destruct b end;
      [|match type of Eu with (if ?b then _ else _) = _ => destruct b end; [|discriminate]];
      injection Eu as <-; cbn; unfold pid_of, upd; cbn; unfold upd; rewrite Nat.eqb_refl, ?Nab; (split; [exact K2|reflexivity]).
  - injection E as <- <-. cbn. unfold pid_of, upd. cbn. unfold upd. rewrite Nat.eqb_refl, ?Nab. (split; [exact K2|reflexivity]).
Qed.

Lemma ack_xi ex t x g log sp L Q i pid : XIw ex t x g log sp L Q -> 0 <= i -> (forall m k, ex = Some (m, k) -> m = Z.to_nat i /\ k = pid) ->
  (forall c cmds, is_open (x_vec x) i c -> s_sent (since_open i log) ++ contents (c_wbuf c) = flat_map wire cmds ->
     Forall (fun c => exists k, packet_cmd (x_node x) (x_lip x) (g_data g) k c) cmds ->
     carries cmds pid \/ acked (since_open i log) pid) ->
  exists x' L' fr, rmc_pub_packet_ack x i pid = Ok (x', free_evs fr) /\
    spec_step sp (OpAck (Z.to_nat i) pid) = (fst (spec_step sp (OpAck (Z.to_nat i) pid)), OutFreed fr) /\
    XI t x' (g_unlend g (free_evs fr)) (log ++ free_evs fr) (fst (spec_step sp (OpAck (Z.to_nat i) pid))) L' Q /\
    same_but_pub x x' /\
    x_susp x' = x_susp x && negb (pub_unacked_count (x_pub x') <=? x_rthr x) /\
    (forall b, In b (p_sinf (x_pub x) (Z.to_nat i)) -> pid_of (x_pub x) b <> pid -> In b (p_sinf (x_pub x') (Z.to_nat i)) /\ pid_of (x_pub x') b = pid_of (x_pub x) b).
Proof.
  intros X Hi Hex J. destruct (inv_ack _ _ _ _ (Z.to_nat i) pid (xi_pub _ _ _ _ _ _ _ X)) as (s' & L' & fr & E & Es & I' & _).
  assert (Es2 := Es). cbn [spec_step] in Es.
  set (sel := fun e => e_pid e =? pid) in *. destruct (release (Z.to_nat i) sel (sp_live sp)) as [live' fr'] eqn:Er.
  cbn [fst] in Es. injection Es as ->.
  assert (Esp : fst (spec_step sp (OpAck (Z.to_nat i) pid)) = mkSpec (sp_next sp) (sp_reg sp) (sp_ann sp) (sp_data sp) live').
  { cbn [spec_step]. fold sel. rewrite Er. reflexivity. }
  set (sp' := fst (spec_step sp (OpAck (Z.to_nat i) pid))) in *.
  destruct (MI_release t (x_mem x) g sp (Z.to_nat i) sel fr live' sp' (xi_mem _ _ _ _ _ _ _ X) Er) as (m' & R & M); try (rewrite Esp; reflexivity).
  unfold rmc_pub_packet_ack. rewrite E. cbn [bind fst snd]. rewrite R. cbn [bind fst snd].
  set (x1 := set_mem (set_pub x s') m').
  set (x2 := if x_susp x1 && (pub_unacked_count (x_pub x1) <=? x_rthr x1) then set_susp x1 false else x1).
  exists x2, L', fr.
  assert (F : x_pub x2 = s' /\ x_vec x2 = x_vec x /\ x_mem x2 = m' /\ x_node x2 = x_node x /\ x_lip x2 = x_lip x /\ x_lport x2 = x_lport x).
  { unfold x2. destruct (_ && _); repeat split. }
  destruct F as (F1 & F2 & F3 & F4 & F5 & F6).
  split; [reflexivity|]. split; [exact Es2|]. split; [|split; [|split]].
  - constructor; rewrite ?F1, ?F2, ?F3, ?F4, ?F5, ?F6.
    + exact I'.
    + rewrite Esp. exact (xi_vec _ _ _ _ _ _ _ X).
    + exact M.
    + destruct (free_evs_free fr) as (FE1 & FE2 & FE3). apply (HI_op (x_pub x) _ _ _ _ g); rewrite ?Es2; cbn [snd freed_of sent_of].
      * exact (xi_his _ _ _ _ _ _ _ X).
      * exact Logic.I.
      * cbn [pub_step]. rewrite E. reflexivity.
      * symmetry. exact FE1.
      * exists []. rewrite app_nil_r. reflexivity.
      * rewrite FE2. constructor.
      * symmetry. exact FE3.
    + intros j c Ho. rewrite since_quiet by apply free_evs_quiet. rewrite g_unlend_data.
      apply (csi_release ex _ _ _ sp sp' _ _ _ (Z.to_nat i) sel).
      * exact (xi_str _ _ _ _ _ _ _ X j c Ho).
      * rewrite Esp. reflexivity.
      * rewrite Esp. reflexivity.
      * intros m k Em. destruct (Hex m k Em) as [-> ->]. split; [reflexivity|]. intros e <-. unfold sel. apply Z.eqb_refl.
      * rewrite Esp, Er. reflexivity.
      * destruct (Nat.eq_dec (Z.to_nat j) (Z.to_nat i)) as [Ej|Ej]; [right|left; exact Ej].
        assert (j = i) by (destruct Ho as [Hs _]; apply slot_range in Hs; lia). subst j.
        intros e cmds _ Hsel Hst Hf. unfold sel in Hsel. apply Z.eqb_eq in Hsel. rewrite Hsel. exact (J c cmds Ho Hst Hf).
    + exact (xi_hdr _ _ _ _ _ _ _ X).
  - unfold x2. destruct (_ && _); repeat split.
  - rewrite F1. unfold x2. cbn [x_susp x_pub x_rthr x1 set_mem set_pub].
    destruct (x_susp x) eqn:Esu; cbn [andb]; [|exact Esu]. destruct (pub_unacked_count s' <=? x_rthr x); [reflexivity|exact Esu].
  - rewrite F1. intros b. exact (ack_keeps _ _ _ _ _ b E).
Qed.

(** Acknowledging pid .. pid + n - 1 one by one gives up exactly these claims. *)
Definition in_range (a b : Z) (e : entry) : bool := (a <=? e_pid e) && (e_pid e <=? b).
Lemma hit_drop sub sel2 e : hit sub sel2 (drop_claim sub e) = false.
Proof. unfold hit, drop_claim. cbn [e_hold]. rewrite mem_rm_eq, andb_false_r. reflexivity. Qed.
Lemma release_two sub sel1 sel2 live : (forall e, sel1 e = true -> sel2 e = false) ->
  fst (release sub sel2 (fst (release sub sel1 live))) = fst (release sub (fun e => sel1 e || sel2 e) live).
Proof.
  intros D. induction live as [|e live IH]; [reflexivity|]. rewrite !release_cons. cbn [fst]. rewrite release_app. cbn [fst].
  rewrite IH. f_equal. specialize (D e). unfold hit. destruct (sel1 e) eqn:E1; cbn [andb orb].
  - destruct (mem sub (e_hold e)) eqn:Em; cbn [andb].
    + unfold left_over. destruct (unclaimed (drop_claim sub e)); [reflexivity|].
      rewrite release_cons. cbn [fst]. rewrite (hit_drop sub). reflexivity.
    + rewrite release_cons. cbn [fst]. unfold hit. rewrite D by reflexivity. reflexivity.
  - rewrite release_cons. cbn [fst]. unfold hit. rewrite app_nil_r. reflexivity.
Qed.
Lemma release_sel_ext sub sel1 sel2 live : (forall e, In e live -> sel1 e = sel2 e) -> release sub sel1 live = release sub sel2 live.
Proof.
  induction live as [|e live IH]; intros H; [reflexivity|]. rewrite !release_cons, IH by (intros; apply H; right; assumption).
  unfold hit. rewrite H by (left; reflexivity). reflexivity.
Qed.
Lemma release_snd_two sub sel1 sel2 live : (forall e, sel1 e = true -> sel2 e = false) ->
  StronglySorted (fun e f => sel2 e = true -> sel1 f = false) live ->
  snd (release sub sel1 live) ++ snd (release sub sel2 (fst (release sub sel1 live))) = snd (release sub (fun e => sel1 e || sel2 e) live).
Proof.
  intros D. induction live as [|e live IH]; intros S; [reflexivity|]. inversion S as [|? ? S1 S2]; subst. specialize (IH S1).
  rewrite !release_cons. cbn [fst snd]. rewrite release_app. cbn [snd]. rewrite <- IH.
  specialize (D e). unfold hit. destruct (sel1 e) eqn:E1; cbn [andb orb].
  - destruct (mem sub (e_hold e)) eqn:Em; cbn [andb].
    + unfold left_over. destruct (unclaimed (drop_claim sub e)).
      * cbn [app]. rewrite <- !app_assoc. reflexivity.
      * rewrite release_cons. cbn [fst snd]. rewrite (hit_drop sub). cbn [app]. rewrite <- !app_assoc. reflexivity.
    + rewrite release_cons. cbn [fst snd]. unfold hit. rewrite D by reflexivity. cbn [andb app]. reflexivity.
  - rewrite release_cons. cbn [fst snd]. unfold hit. destruct (sel2 e) eqn:E2; cbn [andb].
    + assert (N : release sub sel1 live = (live, [])).
      { apply release_none. intros f Hf. unfold hit. rewrite Forall_forall in S2. rewrite S2 by auto. reflexivity. }
      rewrite N. cbn [fst snd app]. rewrite app_nil_r. reflexivity.
    + cbn [app]. reflexivity.
Qed.
(** The rounds of an ack interval. *)
Fixpoint acks (sub : nat) (pid : Z) (n : nat) : list pub_op :=
  match n with O => [] | S n => OpAck sub pid :: acks sub (pid + 1) n end.
Lemma SS_map {X Y} (f : X -> Y) (P : Y -> Y -> Prop) (R : X -> X -> Prop) l : (forall x y, P (f x) (f y) -> R x y) ->
  StronglySorted P (map f l) -> StronglySorted R l.
Proof.
  intros H. induction l as [|x l IH]; intros S; [constructor|]. cbn [map] in S. inversion S as [|? ? S1 S2]; subst. constructor; [auto|].
  rewrite Forall_map in S2. eapply Forall_impl; [|exact S2]. cbn. intros y. apply H.
Qed.
Lemma SS_release sub sel live : StronglySorted Z.lt (map e_pid live) -> StronglySorted Z.lt (map e_pid (fst (release sub sel live))).
Proof.
  induction live as [|e live IH]; intros S; [constructor|]. cbn [map] in S. inversion S as [|? ? S1 S2]; subst. specialize (IH S1).
  rewrite release_cons. cbn [fst].
  assert (K : StronglySorted Z.lt (e_pid e :: map e_pid (fst (release sub sel live)))).
  { constructor; [exact IH|]. apply Forall_forall. intros k Hk. apply in_map_iff in Hk. destruct Hk as (f & <- & Hf).
    destruct (release_old _ _ _ _ Hf) as (f0 & Hf0 & -> & _). rewrite Forall_forall in S2. apply S2. apply in_map. exact Hf0. }
  destruct (hit sub sel e); [|exact K]. unfold left_over. destruct (unclaimed (drop_claim sub e)); [exact IH|exact K].
Qed.
Lemma acks_spec sub : forall n pid sp, StronglySorted Z.lt (map e_pid (sp_live sp)) ->
  fst (spec_run sp (acks sub pid n)) =
    mkSpec (sp_next sp) (sp_reg sp) (sp_ann sp) (sp_data sp) (fst (release sub (in_range pid (pid + Z.of_nat n - 1)) (sp_live sp))) /\
  frees (snd (spec_run sp (acks sub pid n))) = snd (release sub (in_range pid (pid + Z.of_nat n - 1)) (sp_live sp)).
Proof.
  induction n as [|n IH]; intros pid sp S.
  - cbn [acks spec_run fst snd]. rewrite release_none.
    + cbn [fst snd]. rewrite mkSpec_eta. auto.
    + intros e _. unfold hit, in_range. replace ((pid <=? e_pid e) && (e_pid e <=? pid + Z.of_nat 0 - 1)) with false by lia. reflexivity.
  - cbn [acks]. rewrite spec_run_cons. cbn [fst snd].
    set (sel := fun e => e_pid e =? pid).
    assert (Es : spec_step sp (OpAck sub pid) = (mkSpec (sp_next sp) (sp_reg sp) (sp_ann sp) (sp_data sp) (fst (release sub sel (sp_live sp))), OutFreed (snd (release sub sel (sp_live sp))))).
    { cbn [spec_step]. fold sel. destruct (release sub sel (sp_live sp)); reflexivity. }
    rewrite Es. cbn [fst snd]. destruct (IH (pid + 1) (mkSpec (sp_next sp) (sp_reg sp) (sp_ann sp) (sp_data sp) (fst (release sub sel (sp_live sp))))) as [I1 I2].
    { cbn [sp_live]. apply SS_release. exact S. }
    cbn [sp_next sp_reg sp_ann sp_data sp_live] in I1, I2.
    assert (Ex : release sub (in_range pid (pid + Z.of_nat (Datatypes.S n) - 1)) (sp_live sp) =
                 release sub (fun e => sel e || in_range (pid + 1) (pid + 1 + Z.of_nat n - 1) e) (sp_live sp)).
    { apply release_sel_ext. intros e _. unfold in_range, sel.
      destruct (Z.eqb_spec (e_pid e) pid); destruct (Z.leb_spec pid (e_pid e)), (Z.leb_spec (e_pid e) (pid + Z.of_nat (Datatypes.S n) - 1)),
        (Z.leb_spec (pid + 1) (e_pid e)), (Z.leb_spec (e_pid e) (pid + 1 + Z.of_nat n - 1)); cbn; try reflexivity; lia. }
    assert (D : forall e, sel e = true -> in_range (pid + 1) (pid + 1 + Z.of_nat n - 1) e = false).
    { intros e. unfold sel, in_range. lia. }
    rewrite I1, Ex. split.
    + f_equal. apply release_two. exact D.
    + unfold frees in *. cbn [flat_map freed_of]. rewrite I2. apply release_snd_two; [exact D|].
      eapply SS_map; [|exact S]. intros e f H. unfold sel, in_range. cbn in H. lia.
Qed.

Lemma rounds_xi t i : forall n x g log sp L Q pid, XI t x g log sp L Q -> 0 <= i ->
  (forall k, pid <= k < pid + Z.of_nat n -> acked (since_open i log) k) ->
  exists x' L' evs, ack_rounds n x i pid = Ok (x', evs) /\
    XI t x' (g_unlend g evs) (log ++ evs) (fst (spec_run sp (acks (Z.to_nat i) pid n))) L' Q /\
    evs = free_evs (frees (snd (spec_run sp (acks (Z.to_nat i) pid n)))) /\ same_but_pub x x'.
Proof.
  induction n as [|n IH]; intros x g log sp L Q pid X Hi J; cbn [ack_rounds acks].
  - exists x, L, []. rewrite app_nil_r, g_unlend_nil. refine (conj eq_refl (conj X (conj eq_refl (sbp_refl x)))).
  - destruct (ack_xi None t x g log sp L Q i pid X Hi ltac:(discriminate)) as (x1 & L1 & fr & E & Es & X1 & S1 & _ & _).
    { intros _ cmds _ _ _. right. apply J. lia. }
    rewrite E. cbn [bind fst snd]. rewrite spec_run_cons. cbn [fst snd].
    set (sp1 := fst (spec_step sp (OpAck (Z.to_nat i) pid))) in *.
    destruct (IH x1 _ _ sp1 L1 Q (pid + 1) X1 Hi) as (x2 & L2 & evs & E2 & X2 & Ev & S2).
    { intros k Hk. rewrite since_quiet by apply free_evs_quiet. apply J. lia. }
    rewrite E2. cbn [bind fst snd]. exists x2, L2, (free_evs fr ++ evs).
    split; [reflexivity|]. rewrite g_unlend_app, app_assoc. split; [exact X2|]. split; [|exact (sbp_trans _ _ _ S1 S2)].
    rewrite Ev, Es. unfold frees. cbn [snd flat_map freed_of]. unfold free_evs. rewrite map_app. reflexivity.
Qed.

(** ** Handlers of the control channel *)
Definition HP (t : bool) (g : ghost) (log : list pev) (x0 : pctx) (st : hst) : Prop :=
  (exists sp L Q, XI t (fst st) (g_unlend g (snd st)) (log ++ snd st) sp L Q) /\ same_but_pub x0 (fst st).
Lemma quiet_unlend_ack g i a b : g_unlend g [PvAck i a b] = g.
Proof. destruct g. reflexivity. Qed.
(** Events that concern neither memory nor a stream. *)
Lemma XI_plain t x g log sp L Q evs : XI t x g log sp L Q -> Forall plain evs ->
  (forall i c, is_open (x_vec x) i c -> Forall (quiet i) evs) -> XI t x (g_unlend g evs) (log ++ evs) sp L Q.
Proof.
  intros X P Qu. assert (Eg : g_unlend g evs = g).
  { unfold g_unlend. rewrite unlend_nofree; [destruct g; reflexivity|]. intros e He. rewrite Forall_forall in P. specialize (P e He). destruct e; auto. }
  rewrite Eg. destruct X. constructor; auto.
  - apply (HI_plain _ _ _ _ g); [exact xi_his0|exact P|]. exists []. rewrite app_nil_r. reflexivity.
  - apply (SI_same _ _ _ _ log g); [exact xi_str0|reflexivity|]. intros i c Ho. apply since_quiet. exact (Qu i c Ho).
Qed.
Lemma XI_ackev t x g log sp L Q i a b : XI t x g log sp L Q -> XI t x g (log ++ [PvAck i a b]) sp L Q.
Proof.
  intros X. destruct X. constructor; auto.
  - apply (HI_plain _ _ _ _ g); [exact xi_his0|repeat constructor|]. exists []. rewrite app_nil_r. reflexivity.
  - intros j c Ho. rewrite since_app. cbn [fold_left since_ev]. destruct (i =? j); [|exact (xi_str0 j c Ho)].
    eapply csi_gen; [exact (xi_str0 j c Ho)|exists []; rewrite app_nil_r; reflexivity|reflexivity| | |intros cmds G; exact G].
    + cbn [s_acks]. apply incl_appl, incl_refl.
    + cbn [s_cast]. intros k Hk _. left. auto.
Qed.
Lemma eff_ack_safe t g log x0 i st iv : 0 <= i -> HP t g log x0 st -> safe t (eff_ack i st iv) (HP t g log x0).
Proof.
  intros Hi [(sp & L & Q & X) S]. destruct st as [x evs], iv as [a b]. unfold eff_ack, ack_interval. cbn [fst snd] in *.
  destruct ((a <=? b) && (b =? 18446744073709551615)) eqn:Eh; [exact Logic.I|].
  destruct (rounds_xi t i (Z.to_nat (b + 1 - a)) x _ _ sp L Q a (XI_ackev _ _ _ _ _ _ _ i a b X) Hi) as (x' & L' & evs' & E & X' & _ & S').
  { intros k Hk. rewrite since_app. cbn [fold_left since_ev]. rewrite Z.eqb_refl. exists a, b. split; [apply in_or_app; right; left; reflexivity|]. lia. }
  rewrite E. cbn [bind fst snd safe]. split; cbn [fst snd]; [|exact (sbp_trans _ _ _ S S')].
  exists (fst (spec_run sp (acks (Z.to_nat i) a (Z.to_nat (b + 1 - a))))), L', Q.
  replace (evs ++ PvAck i a b :: evs') with ((evs ++ [PvAck i a b]) ++ evs') by (rewrite <- app_assoc; reflexivity).
  rewrite !g_unlend_app, quiet_unlend_ack, !app_assoc. exact X'.
Qed.
Lemma eff_ctrl_safe t g log x0 i st p : HP t g log x0 st -> safe t (eff_ctrl i st p) (HP t g log x0).
Proof.
  intros H. unfold eff_ctrl. destruct (x_ccb (fst st)) eqn:Ec; [exact Logic.I|exact H|].
  apply (safe_bind t _ _ (fun _ => True)).
  - unfold slot. destruct (0 <=? i); [|exact Logic.I]. destruct (nth_error _ _); exact Logic.I.
  - intros c _ _. destruct H as [(sp & L & Q & X) S]. cbn [safe fst snd]. split; [|exact S]. exists sp, L, Q. cbn [fst snd].
    rewrite g_unlend_app, app_assoc. apply XI_plain; [exact X|repeat constructor|]. intros j d _. repeat constructor.
Qed.

(** ** Reading and writing an open connection *)
Lemma unlend_plain g evs : Forall plain evs -> g_unlend g evs = g.
Proof.
  intros P. unfold g_unlend. rewrite unlend_nofree; [destruct g; reflexivity|].
  intros e He. rewrite Forall_forall in P. specialize (P e He). destruct e; auto.
Qed.
Lemma XI_io0 ex t x g log sp L Q i c c' evs : (forall j d, j <> i -> is_open (x_vec x) j d -> CSI ex (x_node x) (x_lip x) (g_data g) sp (Z.to_nat j) (since_open j log) (contents (c_wbuf d))) ->
  XI t x g log sp L Q -> is_open (x_vec x) i c -> c_mode c' = c_mode c -> c_desc c' = c_desc c ->
  cb_wf (c_wbuf c') -> cb_size (c_wbuf c') = RMC_MAX_PACKET -> Forall plain evs -> (forall j, j <> i -> Forall (quiet j) evs) ->
  CSI ex (x_node x) (x_lip x) (g_data g) sp (Z.to_nat i) (since_open i (log ++ evs)) (contents (c_wbuf c')) ->
  XIw ex t (set_vec x (put_slot (x_vec x) i c')) (g_unlend g evs) (log ++ evs) sp L Q.
Proof.
  intros Oth X Ho Em Ed Hw Hz P Qu C. rewrite (unlend_plain g evs P). pose proof (slot_range _ _ _ (proj1 Ho)) as R.
  destruct X. constructor; cbn [set_vec x_pub x_vec x_mem x_node x_lip x_lport]; auto.
  - exact (VI_io _ _ i c c' xi_vec0 Ho Em Ed Hw Hz).
  - apply (HI_plain _ _ _ _ g); [exact xi_his0|exact P|]. exists []. rewrite app_nil_r. reflexivity.
  - intros j d [Hd Hm]. destruct (slot_put _ i c' j d R Hd) as [[-> ->]|[N Hd']]; [exact C|].
    rewrite since_quiet by (apply Qu; exact N). exact (Oth j d N (conj Hd' Hm)).
Qed.
Lemma XI_io t x g log sp L Q i c c' evs : XI t x g log sp L Q -> is_open (x_vec x) i c -> c_mode c' = c_mode c -> c_desc c' = c_desc c ->
  cb_wf (c_wbuf c') -> cb_size (c_wbuf c') = RMC_MAX_PACKET -> Forall plain evs -> (forall j, j <> i -> Forall (quiet j) evs) ->
  CSI None (x_node x) (x_lip x) (g_data g) sp (Z.to_nat i) (since_open i (log ++ evs)) (contents (c_wbuf c')) ->
  XI t (set_vec x (put_slot (x_vec x) i c')) (g_unlend g evs) (log ++ evs) sp L Q.
Proof. intros X. apply XI_io0; [|exact X]. intros j d _ Hd. exact (xi_str _ _ _ _ _ _ _ X j d Hd). Qed.
Lemma plain_mod d i a b : Forall plain [PvConn (EvMod d i a b)].
Proof. repeat constructor. Qed.
Lemma quiet_mod j d i a b : Forall (quiet j) [PvConn (EvMod d i a b)].
Proof. repeat constructor. Qed.

(** ** Closing a connection *)
Lemma close_xi t x g log sp L Q i c : XI t x g log sp L Q -> is_open (x_vec x) i c ->
  exists x' L' fr evs, rmc_pub_close_connection x i = Ok (0, x', evs) /\
    evs = PvLeave (c_addr c) (c_port c) :: map PvConn [EvRem (c_desc c) i; EvClose (c_desc c)] ++ free_evs fr /\
    spec_step sp (OpUnsubscribe (Z.to_nat i)) = (fst (spec_step sp (OpUnsubscribe (Z.to_nat i))), OutFreed fr) /\
    XI t x' (g_unlend g evs) (log ++ evs) (fst (spec_step sp (OpUnsubscribe (Z.to_nat i)))) L' Q /\
    x_susp x' = x_susp x /\ x_sthr x' = x_sthr x /\ x_rthr x' = x_rthr x /\ v_size (x_vec x') = v_size (x_vec x) /\
    (forall j, j <> i -> slot (x_vec x') j = slot (x_vec x) j) /\ (forall d, ~ is_open (x_vec x') i d) /\
    x_mcast x' = x_mcast x /\ x_listen x' = x_listen x.
Proof.
  intros X Ho. pose proof (slot_range _ _ _ (proj1 Ho)) as R.
  unfold rmc_pub_close_connection.
  destruct (find_index_cases (x_vec x) i (proj1 R)) as [[_ H]|(c0 & -> & Ho0)]; [destruct (H c Ho)|].
  assert (c0 = c) by (destruct Ho, Ho0; congruence). subst c0. cbn [bind].
  destruct (VI_close (x_vec x) (sp_reg sp) i c (xi_vec _ _ _ _ _ _ _ X) Ho) as (v' & Ec & V' & Hsz & Hoth & Hcl).
  rewrite Ec. cbn [bind].
  assert (Hin : In (Z.to_nat i) (sp_reg sp)).
  { apply (vi_reg _ _ (xi_vec _ _ _ _ _ _ _ X)). exists c. rewrite Z2Nat.id by lia. exact Ho. }
  destruct (inv_unsubscribe _ _ _ _ (Z.to_nat i) (xi_pub _ _ _ _ _ _ _ X) Hin) as (s' & L' & fr & E & Es & I' & _).
  assert (Es2 := Es). cbn [spec_step] in Es.
  destruct (release (Z.to_nat i) (fun _ => true) (sp_live sp)) as [live' fr'] eqn:Er.
  cbn [fst] in Es. injection Es as ->.
  assert (Esp : fst (spec_step sp (OpUnsubscribe (Z.to_nat i))) = mkSpec (sp_next sp) (rm (Z.to_nat i) (sp_reg sp)) (sp_ann sp) (sp_data sp) live').
  { cbn [spec_step]. rewrite Er. reflexivity. }
  set (sp' := fst (spec_step sp (OpUnsubscribe (Z.to_nat i)))) in *.
  destruct (MI_release t (x_mem x) g sp (Z.to_nat i) (fun _ => true) fr live' sp' (xi_mem _ _ _ _ _ _ _ X) Er) as (m' & Rm & M); try (rewrite Esp; reflexivity).
  rewrite E. cbn [bind fst snd]. rewrite Rm. cbn [bind fst snd].
  do 4 eexists. split; [reflexivity|]. split; [reflexivity|]. split; [exact Es2|].
  set (evs := PvLeave _ _ :: _).
  assert (Hq : forall j, Forall (quiet j) evs).
  { intros j. unfold evs. constructor; [intros s; reflexivity|]. apply Forall_app. split; [repeat constructor|apply free_evs_quiet]. }
  assert (Eg : g_unlend g evs = g_unlend g (free_evs fr)) by reflexivity.
  split; [|cbn; auto 8].
  constructor; cbn [set_mem set_pub set_vec x_pub x_vec x_mem x_node x_lip x_lport].
  - exact I'.
  - rewrite Esp. exact V'.
  - rewrite Eg. exact M.
  - destruct (free_evs_free fr) as (FE1 & FE2 & FE3). apply (HI_op (x_pub x) _ _ _ _ g); rewrite ?Es2; cbn [snd freed_of sent_of].
    + exact (xi_his _ _ _ _ _ _ _ X).
    + exact Hin.
    + cbn [pub_step]. rewrite E. reflexivity.
    + unfold evs. cbn [map app flat_map freed_ev]. symmetry. exact FE1.
    + exists []. rewrite app_nil_r. reflexivity.
    + unfold evs. cbn [map app flat_map cast_ev]. rewrite FE2. constructor.
    + unfold evs. cbn [map app flat_map cast_ts]. symmetry. exact FE3.
  - intros j d Hj. rewrite since_quiet by apply Hq. rewrite g_unlend_data.
    assert (Nj : j <> i) by (intros ->; exact (Hcl d Hj)). destruct Hj as [Hj Hm]. rewrite Hoth in Hj by exact Nj.
    apply (csi_release None _ _ _ sp sp' _ _ _ (Z.to_nat i) (fun _ => true)).
    + exact (xi_str _ _ _ _ _ _ _ X j d (conj Hj Hm)).
    + rewrite Esp. reflexivity.
    + rewrite Esp. reflexivity.
    + discriminate.
    + rewrite Esp, Er. reflexivity.
    + left. apply slot_range in Hj. lia.
  - exact (xi_hdr _ _ _ _ _ _ _ X).
Qed.
Lemma close_none x i : 0 <= i -> (forall c, ~ is_open (x_vec x) i c) -> rmc_pub_close_connection x i = Ok (EINVAL, x, []).
Proof.
  intros H N. unfold rmc_pub_close_connection. destruct (find_index_cases (x_vec x) i H) as [[-> _]|(c & _ & Hc)]; [reflexivity|destruct (N c Hc)].
Qed.
Definition XInv (t : bool) (x : pctx) (g : ghost) (log : list pev) : Prop := exists sp L Q, XI t x g log sp L Q.
Lemma close_inv_x t x g log i : XInv t x g log -> 0 <= i ->
  safe t (rmc_pub_close_connection x i) (fun r => let '(_, x', evs) := r in XInv t x' (g_unlend g evs) (log ++ evs)).
Proof.
  intros (sp & L & Q & X) Hi. destruct (find_index_cases (x_vec x) i Hi) as [[_ H]|(c & _ & Ho)].
  - rewrite (close_none x i Hi H). cbn [safe]. rewrite g_unlend_nil, app_nil_r. exists sp, L, Q. exact X.
  - destruct (close_xi t x g log sp L Q i c X Ho) as (x' & L' & fr & evs & -> & _ & _ & X' & _). cbn [safe]. eexists _, L', Q. exact X'.
Qed.

(** ** Accepting a connection *)
Lemma accept_xi t x g log sp L Q i c d addr : XI t x g log sp L Q -> lowest_free (x_vec x) i -> slot (x_vec x) i = Ok c -> c_desc c = -1 -> 0 <= d ->
  let c' := mkConn POLLREAD d (c_node c) (c_rbuf c) (c_wbuf c) CONNECTED (c_port c) addr in
  let v' := set_active (put_slot (bumped (x_vec x) i) i c') (u16 (v_active (x_vec x) + 1)) in
  let evs := map PvConn [EvOpen d; EvAdd d i POLLREAD; EvMod (x_listen x) RMC_LISTEN_INDEX POLLREAD POLLREAD] in
  XI t (set_pub (set_vec x v') (pub_init_subscriber (x_pub x) (Z.to_nat i))) (g_unlend g evs) (log ++ evs)
     (fst (spec_step sp (OpSubscribe (Z.to_nat i)))) L Q /\ is_open v' i c'.
Proof.
  intros X Lf Hs Hd Hd0 c' v' evs. destruct (VI_accept (x_vec x) (sp_reg sp) i c d addr (xi_vec _ _ _ _ _ _ _ X) Lf Hs Hd Hd0) as (V' & Ho & Hcn & Hoth & Hn).
  fold c' in V', Ho, Hcn, Hoth. fold v' in V', Ho, Hoth. split; [|exact Ho].
  pose proof (VI_reg_len _ _ (xi_vec _ _ _ _ _ _ _ X) (i_regnd _ _ _ _ (xi_pub _ _ _ _ _ _ _ X))) as Hlen.
  assert (P : Forall plain evs) by (unfold evs; repeat constructor).
  rewrite (unlend_plain g evs P).
  constructor; cbn [set_mem set_pub set_vec x_pub x_vec x_mem x_node x_lip x_lport].
  - apply inv_subscribe; [exact (xi_pub _ _ _ _ _ _ _ X)|exact Hn|exact Hlen].
  - exact V'.
  - apply (MI_same _ _ _ sp); [exact (xi_mem _ _ _ _ _ _ _ X)|reflexivity..].
  - apply (HI_op (x_pub x) _ _ _ _ g).
    + exact (xi_his _ _ _ _ _ _ _ X).
    + split; assumption.
    + reflexivity.
    + reflexivity.
    + exists []. rewrite app_nil_r. reflexivity.
    + constructor.
    + reflexivity.
  - intros j e Hj. destruct (Z.eq_dec j i) as [->|N].
    + assert (e = c') by (destruct Ho, Hj; congruence). subst e. rewrite Hcn, since_app. unfold evs. cbn [map fold_left since_ev].
      rewrite Z.eqb_refl. exists []. split; [reflexivity|]. split; [constructor|]. split; [intros k []|].
      split; [|split; [constructor|split; [intros k _ (h & p & [] & _)|intros k []]]]. intros k [(f & Hf & _ & Hh)|(h & p & [] & _)]. exfalso. apply Hn.
      exact (proj2 (i_hold _ _ _ _ (xi_pub _ _ _ _ _ _ _ X) f Hf) _ Hh).
    + rewrite since_quiet. 2:{ unfold evs. constructor; [intros s; reflexivity|]. constructor; [|repeat constructor].
        intros s. cbn. apply not_eq_sym, Z.eqb_neq in N. rewrite N. reflexivity. }
      destruct Hj as [Hj Hm]. rewrite Hoth in Hj by exact N.
      apply (csi_mono _ _ _ _ sp); [exact (xi_str _ _ _ _ _ _ _ X j e (conj Hj Hm))| |reflexivity|reflexivity]. intros k. reflexivity.
  - exact (xi_hdr _ _ _ _ _ _ _ X).
Qed.

(** ** rmc_pub_read *)
Lemma read_inv t x g log i o : XInv t x g log -> xok x g (XRead i o) ->
  safe t (rmc_pub_read x i o) (fun r => let '(_, _, x', evs) := r in XInv t x' (g_unlend g evs) (log ++ evs)).
Proof.
  intros XV Hok. destruct o as [a cb|err|tr]; cbn [rmc_pub_read].
  - destruct XV as (sp & L & Q & X). pose proof (vi_size _ _ (xi_vec _ _ _ _ _ _ _ X)) as Hsz.
    destruct (accept_cases (x_listen x) (x_vec x) a (nil_listen _ Hsz)) as [[_ ->]|(j & c & Lf & Hs & Hd & E)].
    + cbn [bind]. change (ENOMEM =? 0) with false. cbn [negb safe map]. rewrite g_unlend_nil, app_nil_r. exists sp, L, Q.
      destruct X; constructor; assumption.
    + destruct a as [e|d addr nd].
      * rewrite E. cbn [bind]. cbn in Hok. replace (e =? 0) with false by lia. cbn [negb safe map]. rewrite g_unlend_nil, app_nil_r.
        exists sp, L, Q. destruct (VI_fail (x_vec x) (sp_reg sp) j c (xi_vec _ _ _ _ _ _ _ X) Lf Hs Hd) as [V1 V2].
        destruct X; constructor; cbn [set_vec x_pub x_vec x_mem x_node x_lip x_lport]; try assumption.
        intros k d [H1 H2]. rewrite V2 in H1. exact (xi_str0 k d (conj H1 H2)).
      * cbn in Hok. destruct Hok as [Hd0 ->]. destruct E as [[_ E]|[E0 _]]; [|congruence]. rewrite E. cbn [bind].
        change (0 =? 0) with true. cbn [negb].
        destruct (accept_xi t x g log sp L Q j c d addr X Lf Hs Hd Hd0) as [X1 Ho].
        set (c' := mkConn POLLREAD d (c_node c) (c_rbuf c) (c_wbuf c) CONNECTED (c_port c) addr) in *.
        set (v' := set_active _ _) in *. set (evs := map PvConn _) in *.
        pose proof (slot_range _ _ _ Hs) as R.
        destruct (find_index_cases v' j (proj1 R)) as [[_ H]|(c0 & -> & Ho0)]; [destruct (H c' Ho)|].
        assert (c0 = c') by (destruct Ho, Ho0; congruence). subst c0. cbn [bind].
        set (x1 := set_pub _ _) in *.
        assert (X2 : XI t x1 (g_unlend g (evs ++ [PvJoin (c_addr c') (c_port c')])) (log ++ evs ++ [PvJoin (c_addr c') (c_port c')])
                       (fst (spec_step sp (OpSubscribe (Z.to_nat j)))) L Q).
        { rewrite g_unlend_app, app_assoc. apply XI_plain; [exact X1|repeat constructor|]. intros; repeat constructor. }
        destruct cb as [[|]|].
        -- cbn [safe]. exists (fst (spec_step sp (OpSubscribe (Z.to_nat j)))), L, Q. exact X2.
        -- apply (safe_bind t _ _ _ _ (close_inv_x t x1 _ _ j (ex_intro _ _ (ex_intro _ _ (ex_intro _ _ X2))) (proj1 R))).
           intros [[code x2] evs2] _ XV2. cbn [safe].
           replace (evs ++ PvJoin (c_addr c') (c_port c') :: evs2) with ((evs ++ [PvJoin (c_addr c') (c_port c')]) ++ evs2) by (rewrite <- app_assoc; reflexivity).
           rewrite g_unlend_app, app_assoc. exact XV2.
        -- cbn [safe]. exists (fst (spec_step sp (OpSubscribe (Z.to_nat j)))), L, Q. exact X1.
  - destruct XV as (sp & L & Q & X). destruct (x_mcast x =? -1).
    + cbn [safe]. rewrite g_unlend_nil, app_nil_r. exists sp, L, Q. exact X.
    + destruct err as [e|].
      * cbn [safe]. rewrite g_unlend_nil, app_nil_r. exists sp, L, Q. exact X.
      * cbn [safe]. exists sp, L, Q. apply XI_plain; [exact X|apply plain_mod|]. intros; apply quiet_mod.
  - cbn in Hok. destruct (find_index_cases (x_vec x) i (proj1 Hok)) as [[-> _]|(c & -> & Ho)]; cbn [bind].
    + cbn [safe]. rewrite g_unlend_nil, app_nil_r. exact XV.
    + destruct (negb (c_mode c =? CONNECTED)); [cbn [safe]; rewrite g_unlend_nil, app_nil_r; exact XV|].
      apply (safe_bind t _ _ (fun r => HP t g log x (r_st r))).
      * apply tcp_read_safe.
        -- apply pub_dispatch_safe; [intros st iv; apply eff_ack_safe; lia|intros st p; apply eff_ctrl_safe].
        -- split; [|apply sbp_refl]. cbn [fst snd]. rewrite g_unlend_nil, app_nil_r. exact XV.
      * intros r _ [(sp & L & Q & X) S]. destruct (r_st r) as [x1 evs1]. cbn [fst snd] in *.
        assert (Ev : x_vec x1 = x_vec x) by exact (proj1 S).
        assert (Ho1 : is_open (x_vec x1) i c) by (rewrite Ev; exact Ho).
        destruct (vi_ring _ _ (xi_vec _ _ _ _ _ _ _ X) i c (proj1 Ho1)) as [Hw Hz].
        destruct (r_code r =? EPIPE).
        -- pose proof (XI_io t x1 _ _ sp L Q i c (set_rbuf c (r_buf r)) [] X Ho1 eq_refl eq_refl Hw Hz (Forall_nil _) (fun _ _ => Forall_nil _)) as X2.
           rewrite g_unlend_nil, app_nil_r in X2. specialize (X2 (xi_str _ _ _ _ _ _ _ X i c Ho1)).
           apply (safe_bind t _ _ _ _ (close_inv_x t _ _ _ i (ex_intro _ _ (ex_intro _ _ (ex_intro _ _ X2))) (proj1 Hok))).
           intros [[code x2] evs2] _ XV2. cbn [safe]. rewrite g_unlend_app, app_assoc. exact XV2.
        -- cbn [safe]. rewrite g_unlend_app, app_assoc. exists sp, L, Q.
           apply (XI_io t x1 _ _ sp L Q i c); auto using plain_mod; [intros; apply quiet_mod|].
           rewrite since_quiet by apply quiet_mod. exact (xi_str _ _ _ _ _ _ _ X i c Ho1).
Qed.
