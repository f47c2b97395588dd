(** PropPubMem.v — theorems about publisher contexts: payload memory, what is put on the
    multicast channel and on the TCP streams, and shutting down: C46, C62-C68. *)
From Coq Require Import Sorting.Permutation Sorting.Sorted.
From Verif Require Import Base CircBuf CircBufProofs Wire ListHeap SeqList Pub SpecPub PubProofs PubTrace PropPub Proto SpecProto ProtoProofs
  Conn SpecConn ConnProofs Safe PubCtx SpecPubCtx PubCtxProofs PubCtxSteps PubCtxOwed PropPubCtx PropPubFlow PropPubTime.

(** ** C46. Payload memory is valid when it is sent *)
Lemma packet_cases x sp L Q k p l : Inv (x_pub x) sp L Q -> In (k, (p, l)) (flying x ++ queued x) -> k <> 0 ->
  exists q, In (k, q) (kpls sp) /\ ptr_of q = p /\ len_of q = l.
Proof.
  intros I H Hk. rewrite (flying_inv _ _ _ _ I), (queued_spec _ _ _ _ I) in H. unfold kpls. apply in_app_or in H. destruct H as [H|H]; apply in_rev in H.
  - apply in_map_iff in H. destruct H as (e & E & He). unfold fly, pl2 in E. exists (e_pl e). split; [|split; congruence].
    apply in_or_app. left. apply in_map_iff. exists e. split; [congruence|exact He].
  - apply in_map_iff in H. destruct H as ([k' q] & E & He). cbn [fst snd] in E. unfold pl2 in E. apply in_app_or in He. destruct He as [He|He].
    + apply in_map_iff in He. destruct He as (q' & E' & _). congruence.
    + exists q. split; [|split; congruence]. apply in_or_app. right. congruence.
Qed.
(** Every data packet that is queued or in flight still has its payload: the buffer is valid
    and holds the bytes that were queued under that id. *)
Theorem c46_data_valid : forall x g log k p l, reached x g log -> In (k, (p, l)) (flying x ++ queued x) -> k <> 0 ->
  exists bs, x_mem x p = Some bs /\ 0 <= l <= zlen bs /\ nth_error (g_data g) (Z.to_nat (k - 1)) = Some (ztake l bs).
Proof.
  intros x g log k p l H Hi Hk. apply reached_inv in H. destruct H as (sp & L & Q & X).
  destruct (packet_cases _ _ _ _ _ _ _ (xi_pub _ _ _ _ _ _ _ X) Hi Hk) as (q & Hq & <- & <-).
  destruct (mi_data _ _ _ _ (xi_mem _ _ _ _ _ _ _ X) _ _ Hq) as (Hl & bs & Hm & Hz & Hn). exists bs. split; [exact Hm|]. split; [lia|exact Hn].
Qed.
(** If rmc_pub_timeout_process never queued an announce with a payload, the same holds of
    announces, and no call reads or releases memory that is not valid. *)
Theorem c46_all_valid_partial : forall x0 ops x g log, fresh_ctx x0 -> xhist x0 ops x g log -> Forall no_payload_announce ops ->
  (forall k p l, In (k, (p, l)) (flying x ++ queued x) -> l = 0 \/ exists bs, x_mem x p = Some bs /\ l <= zlen bs) /\
  (forall o, xok x g o -> no_payload_announce o -> xstep x o <> UB UseAfterFree).
Proof.
  intros x0 ops x g log F H Hn. pose proof (hist_inv_x true x0 ops x g log F (fun _ => Hn) H) as V. split.
  - intros k p l Hi. destruct V as (sp & L & Q & X). destruct (Z.eq_dec k 0) as [->|Hk].
    + pose proof (xi_pub _ _ _ _ _ _ _ X) as I. rewrite (flying_inv _ _ _ _ I), (queued_spec _ _ _ _ I) in Hi.
      apply in_app_or in Hi. destruct Hi as [Hi|Hi]; apply in_rev, in_map_iff in Hi.
      * destruct Hi as (e & E & He). unfold fly in E. pose proof (i_pidr _ _ _ _ I) as P. rewrite Forall_app, !Forall_forall in P. destruct P as [P _].
        specialize (P (e_pid e) (in_map _ _ _ He)). assert (e_pid e = 0) by congruence. lia.
      * destruct Hi as ([k' q] & E & He). cbn [fst snd] in E. unfold pl2 in E. apply in_app_or in He. destruct He as [He|He].
        -- apply in_map_iff in He. destruct He as (q' & E' & He). assert (q' = q) by congruence. subst q'.
           destruct (mi_annok _ _ _ _ (xi_mem _ _ _ _ _ _ _ X) eq_refl q He) as [B|(_ & bs & B1 & B2)]; [left; congruence|right; exists bs].
           replace p with (ptr_of q) by congruence. replace l with (len_of q) by congruence. auto.
        -- pose proof (i_pidr _ _ _ _ I) as P. rewrite Forall_app, !Forall_forall in P. destruct P as [_ P]. specialize (P k' (in_map fst _ _ He)). assert (k' = 0) by congruence. lia.
    + destruct (packet_cases _ _ _ _ _ _ _ (xi_pub _ _ _ _ _ _ _ X) Hi Hk) as (q & Hq & <- & <-).
      destruct (mi_data _ _ _ _ (xi_mem _ _ _ _ _ _ _ X) _ _ Hq) as (Hl & bs & Hm & Hz & _). right. exists bs. auto.
  - intros o Hok Ho E. pose proof (step_inv_x true x g log o V Hok (fun _ => Ho)) as S. rewrite E in S. cbn [safe] in S. discriminate S.
Qed.
(** Otherwise the claim is false: the buffer of the announce callback is a local array of
    rmc_pub_timeout_process, and the queued announce points to it after the call returned. *)
Definition c46_ops : list xop := [XActivate (ActOk 3 4 0); XInterval 500 1000; XTimeout 1600 900 (AnnYes [1; 2; 3] 3)].
Theorem c46_refuted : exists x g log, xhist demo0 c46_ops x g log /\ queued x = [(0, (900, 3))] /\ x_mem x 900 = None /\
  forall outs, rmc_pub_write x 0 (WrMcast outs) = UB UseAfterFree.
Proof.
  destruct (xcheck_hist demo0 c46_ops (fun x g log => match queued x with [(k, (p, l))] => listb [k; p; l] [0; 900; 3] | _ => false end &&
     match x_mem x 900 with None => true | _ => false end && negb (x_mcast x =? -1) &&
     match pub_next_queued (x_pub x) with Some a => match p_packs (x_pub x) a with Some pk => (pk_payload pk =? 900) && (pk_len pk =? 3) | None => false end | None => false end)) as (x & g & log & H & E);
     [vm_compute; reflexivity|].
  apply andb_prop in E. destruct E as [E E4]. apply andb_prop in E. destruct E as [E E3]. apply andb_prop in E. destruct E as [E1 E2].
  exists x, g, log. split; [exact H|]. split.
  { destruct (queued x) as [|[k [p l]] [|]]; try discriminate E1. apply listb_eq in E1. injection E1 as -> -> ->. reflexivity. }
  destruct (x_mem x 900) eqn:Em; [discriminate E2|]. split; [reflexivity|]. intros outs. cbn [rmc_pub_write].
  destruct (pub_next_queued (x_pub x)) as [a|] eqn:En; [|discriminate E4]. destruct (p_packs (x_pub x) a) as [pk|] eqn:Ep; [|discriminate E4].
  assert (Ep2 : pk_payload pk = 900 /\ pk_len pk = 3) by (apply andb_prop in E4; lia). destruct Ep2 as [E5 E6].
  assert (S : forall o, send_single_multicast_packet x a o = UB UseAfterFree).
  { intros o. unfold send_single_multicast_packet. apply negb_true_iff in E3. rewrite E3. unfold get_pack. rewrite Ep. cbn [bind]. rewrite E5, E6.
    replace (RMC_MAX_PACKET <? header_size + 3) with false by reflexivity. unfold load. replace (3 =? 0) with false by reflexivity. rewrite Em. reflexivity. }
  destruct outs as [|o outs]; cbn [process_multicast_write]; rewrite En, S; reflexivity.
Qed.

(** ** C62. What is multicast *)
(** The data packets among the datagrams on a log, by id. *)
Definition dgram_ids (log : list pev) : list Z := filter (fun k => negb (k =? 0)) (map (fun d => h_pid (dec_header d)) (flat_map cast_ev log)).
Fixpoint zseq (a : Z) (n : nat) : list Z := match n with O => [] | S n => a :: zseq (a + 1) n end.
Lemma number_fst : forall l n, map fst (number n l) = zseq n (length l).
Proof. induction l as [|p l IH]; intros n; cbn; [reflexivity|]. f_equal. apply IH. Qed.
Lemma zseq_app : forall n m a, zseq a (n + m) = zseq a n ++ zseq (a + Z.of_nat n) m.
Proof. induction n as [|n IH]; intros m a; cbn [zseq Nat.add app]; [f_equal; lia|]. f_equal. rewrite IH. do 2 f_equal. lia. Qed.
Lemma zseq_len : forall n a, length (zseq a n) = n.
Proof. induction n; intros; cbn; auto. Qed.
Lemma app_len_inv {X} : forall (a b c d : list X), a ++ b = c ++ d -> length a = length c -> a = c /\ b = d.
Proof.
  induction a as [|x a IH]; intros b [|y c] d E Hl; cbn in *; try discriminate; [auto|]. injection E as -> E. injection Hl as Hl. destruct (IH b c d E Hl) as [-> ->]. auto.
Qed.
Lemma zseq_split a n l r : zseq a n = l ++ r -> l = zseq a (length l) /\ r = zseq (a + zlen l) (length r).
Proof.
  intros H. assert (Hn : n = (length l + length r)%nat) by (rewrite <- app_length, <- H, zseq_len; reflexivity). subst n. rewrite zseq_app in H.
  apply app_len_inv in H; [|apply zseq_len]. destruct H as [H1 H2]. unfold zlen. auto.
Qed.
Lemma sent_ids node lip data : forall outs ds, Forall2 (dgram node lip data) (flat_map sent_of outs) ds ->
  filter (fun k => negb (k =? 0)) (map (fun d => h_pid (dec_header d)) ds) = map fst (sent_data outs).
Proof.
  unfold sent_data. induction outs as [|o outs IH]; intros ds F; cbn [flat_map] in *.
  - inversion F. reflexivity.
  - rewrite map_app. destruct o as [|k|[q|]|fr]; cbn [sent_of sdata_of app map] in *; try (apply IH; exact F).
    destruct ds as [|d ds]; [inversion F|]. assert (D : dgram node lip data q d) by (inversion F; assumption). assert (F' : Forall2 (dgram node lip data) (flat_map sent_of outs) ds) by (inversion F; assumption).
    cbn [map filter]. rewrite (IH ds F'). destruct D as (bs & port & -> & _ & Ho & _). rewrite dec_enc_header by exact Ho. cbn [h_pid]. destruct q as [k p]. cbn [fst snd].
    destruct (k =? 0); reflexivity.
Qed.
(** Data packets are multicast once each, in the order they were queued and under consecutive
    ids from 1; the ones not yet multicast are exactly the newest ones, still queued. *)
Theorem c62_multicast_in_order : forall x g log, reached x g log ->
  dgram_ids log ++ filter (fun k => negb (k =? 0)) (map fst (rev (queued x))) = zseq 1 (length (g_data g)).
Proof.
  intros x g log H. apply reached_inv in H. destruct H as (sp & L & Q & X). destruct (xi_his _ _ _ _ _ _ _ X) as (pops & outs & _ & _ & Er & _ & F & _).
  unfold dgram_ids. rewrite (sent_ids _ _ _ _ _ F). pose proof (xi_pub _ _ _ _ _ _ _ X) as I. rewrite (queued_spec _ _ _ _ I), rev_involutive, map_map, map_app, filter_app.
  destruct (fifo_run pops spec_init pos_init) as [R _]. rewrite Er in R. cbn [fst snd spec_init sp_data sp_next app] in R.
  assert (N : sp_next sp = 1 + zlen (queued_data pops)) by (pose proof (next_run pops spec_init) as N; rewrite Er in N; cbn [fst spec_init sp_next] in N; unfold nq in N; exact N).
  pose proof (mi_count _ _ _ _ (xi_mem _ _ _ _ _ _ _ X)) as C. replace (length (g_data g)) with (length (queued_data pops)) by (unfold zlen in *; lia).
  rewrite <- number_fst, R, map_app. f_equal. rewrite map_map. cbn [fst].
  replace (filter _ (map (fun _ : pl => 0) (sp_ann sp))) with (@nil Z) by (induction (sp_ann sp); [reflexivity|exact IHl]).
  cbn [app]. pose proof (i_pidr _ _ _ _ I) as P. rewrite Forall_app in P. destruct P as [_ P]. rewrite <- (map_ext fst) by reflexivity.
  clear - P. induction (sp_data sp) as [|[k p] l IH]; [reflexivity|]. cbn [map fst filter] in *. inversion P; subst. replace (k =? 0) with false by lia. cbn [negb]. f_equal. auto.
Qed.
(** Every datagram carries this publisher's node id and the address subscribers are to
    connect to; a data packet carries exactly the bytes queued under its id. *)
Theorem c62_multicast_content : forall x g log d, reached x g log -> In d (flat_map cast_ev log) ->
  exists k port bs, d = enc_header (Wire.mkHdr k (x_node x) (zlen bs) (x_lip x) port) ++ bs /\ dec_header d = Wire.mkHdr k (x_node x) (zlen bs) (x_lip x) port /\
    (k <> 0 -> 1 <= k /\ nth_error (g_data g) (Z.to_nat (k - 1)) = Some bs).
Proof.
  intros x g log d H Hd. pose proof (c62_multicast_in_order x g log H) as O. apply reached_inv in H. destruct H as (sp & L & Q & X). destruct (xi_his _ _ _ _ _ _ _ X) as (pops & outs & _ & _ & _ & _ & F & _).
  assert (D : exists q, dgram (x_node x) (x_lip x) (g_data g) q d).
  { clear - F Hd. induction F as [|q e l1 l2 D F IH]; [destruct Hd|]. destruct Hd as [->|Hd]; [exists q; exact D|exact (IH Hd)]. }
  destruct D as (q & bs & port & E & Hz & Ho & Hn). exists (fst q), port, bs. rewrite <- Hz in E, Ho. split; [exact E|]. split; [rewrite E; apply dec_enc_header; exact Ho|].
  intros Hk. split; [|exact (Hn Hk)].
  assert (Hi : In (fst q) (zseq 1 (length (g_data g)))).
  { rewrite <- O. apply in_or_app. left. unfold dgram_ids. apply filter_In. split; [|lia]. apply in_map_iff. exists d. split; [|exact Hd]. rewrite E, dec_enc_header by exact Ho. reflexivity. }
  clear - Hi. revert Hi. generalize 1. induction (length (g_data g)) as [|n IH]; intros a; [intros []|]. intros [<-|Hi]; [lia|]. specialize (IH _ Hi). lia.
Qed.
Example c62_witness : exists x g log, xhist demo0 demo_ops x g log /\ dgram_ids log = [1; 2] /\ length (g_data g) = 3%nat /\ map fst (queued x) = [3].
Proof.
  destruct (xcheck_hist demo0 demo_ops (fun x g log => listb (dgram_ids log) [1; 2] && Nat.eqb (length (g_data g)) 3 && listb (map fst (queued x)) [3])) as (x & g & log & H & E); [vm_compute; reflexivity|].
  apply andb_prop in E. destruct E as [E E3]. apply andb_prop in E. destruct E as [E1 E2]. apply listb_eq in E1. apply listb_eq in E3. apply Nat.eqb_eq in E2. exists x, g, log. auto.
Qed.

(** ** C63. Loans *)
(** A payload handed over as a data packet stays with the library exactly as long as the
    packet is queued or in flight; payload_free is never called on anything else. *)
Theorem c63_loans_exact : forall x g log, reached x g log -> g_bad g = [] /\
  (forall p, In p (g_lent g) <-> exists k l, In (k, (p, l)) (flying x ++ queued x) /\ k <> 0) /\
  NoDup (map (fun q => fst (snd q)) (filter (fun q => negb (fst q =? 0)) (flying x ++ queued x))).
Proof.
  intros x g log H. apply reached_inv in H. destruct H as (sp & L & Q & X). pose proof (xi_pub _ _ _ _ _ _ _ X) as I. pose proof (xi_mem _ _ _ _ _ _ _ X) as M.
  split; [exact (mi_bad _ _ _ _ M)|]. pose proof (i_pidr _ _ _ _ I) as P. rewrite Forall_app, !Forall_forall in P. destruct P as [P1 P2]. split.
  - intros p. rewrite (mi_lent _ _ _ _ M). split.
    + intros Hp. unfold pls in Hp. rewrite map_app, !map_map in Hp. rewrite (flying_inv _ _ _ _ I), (queued_spec _ _ _ _ I). apply in_app_or in Hp. destruct Hp as [Hp|Hp]; apply in_map_iff in Hp.
      * destruct Hp as (e & <- & He). exists (e_pid e), (len_of (e_pl e)). split; [|specialize (P1 _ (in_map _ _ _ He)); lia].
        apply in_or_app. left. rewrite <- in_rev. apply in_map_iff. exists e. auto.
      * destruct Hp as ([k q] & <- & He). exists k, (len_of q). split; [|specialize (P2 _ (in_map fst _ _ He)); cbn [fst] in P2; lia].
        apply in_or_app. right. rewrite <- in_rev. apply in_map_iff. exists (k, q). split; [reflexivity|]. apply in_or_app. right. exact He.
    + intros (k & l & Hi & Hk). destruct (packet_cases _ _ _ _ _ _ _ I Hi Hk) as (q & Hq & <- & _). apply in_map. rewrite <- kpls_snd. apply (in_map snd) in Hq. exact Hq.
  - rewrite (flying_inv _ _ _ _ I), (queued_spec _ _ _ _ I), filter_app, map_app.
    assert (Fr : forall l : list (Z * (Z * Z)), filter (fun q => negb (fst q =? 0)) (rev l) = rev (filter (fun q => negb (fst q =? 0)) l)).
    { induction l as [|q l IH]; [reflexivity|]. cbn [rev filter]. rewrite filter_app, IH. cbn [filter]. destruct (negb _); cbn [rev]; [reflexivity|rewrite app_nil_r; reflexivity]. }
    rewrite !Fr, !map_rev.
    assert (F1 : filter (fun q => negb (fst q =? 0)) (map fly (sp_live sp)) = map fly (sp_live sp)).
    { clear - P1. induction (sp_live sp) as [|e l IH]; [reflexivity|]. cbn [map filter fly fst]. pose proof (P1 (e_pid e) (or_introl eq_refl)). replace (e_pid e =? 0) with false by lia. cbn [negb].
      f_equal. apply IH. intros y Hy. apply P1. right. exact Hy. }
    assert (F2 : filter (fun q => negb (fst q =? 0)) (map (fun q => (fst q, pl2 (snd q))) (map (fun p => (0, p)) (sp_ann sp) ++ sp_data sp)) = map (fun q => (fst q, pl2 (snd q))) (sp_data sp)).
    { rewrite map_app, filter_app, map_map. replace (filter _ (map _ (sp_ann sp))) with (@nil (Z * (Z * Z))) by (clear; induction (sp_ann sp); [reflexivity|exact IHl]). cbn [app].
      clear - P2. induction (sp_data sp) as [|[k p] l IH]; [reflexivity|]. cbn [map filter fst snd]. pose proof (P2 k (or_introl eq_refl)). replace (k =? 0) with false by lia. cbn [negb].
      f_equal. apply IH. intros y Hy. apply P2. right. exact Hy. }
    rewrite F1, F2, !map_map. cbn [fst snd fly pl2]. pose proof (mi_nd _ _ _ _ M) as N. unfold pls in N. rewrite map_app, !map_map in N.
    refine (Permutation_NoDup _ N). apply Permutation_app; apply Permutation_rev.
Qed.
Example c63_witness : exists x g log, xhist demo0 demo_ops x g log /\ g_lent g = [300; 200; 100] /\ map fst (flying x ++ queued x) = [2; 1; 3].
Proof.
  destruct (xcheck_hist demo0 demo_ops (fun x g log => listb (g_lent g) [300; 200; 100] && listb (map fst (flying x ++ queued x)) [2; 1; 3])) as (x & g & log & H & E); [vm_compute; reflexivity|].
  apply andb_prop in E. destruct E as [E1 E2]. apply listb_eq in E1. apply listb_eq in E2. exists x, g, log. auto.
Qed.

(** ** C64. What each connection is owed *)
(** The stream of an open connection is a sequence of whole packet commands, each carrying a
    packet of this publisher; and every data packet multicast since the connection was opened
    is still to be acknowledged by it, is on its stream, or was acknowledged by it. *)
Theorem c64_nothing_forgotten : forall x g log i, reached x g log -> connected x i ->
  exists cmds, stream_is x log i cmds /\ Forall (fun c => exists k, packet_cmd (x_node x) (x_lip x) (g_data g) k c) cmds /\
    forall k, In k (s_cast (since_open i log)) -> k <> 0 ->
      owes x i k \/ (exists c, In c cmds /\ packet_cmd (x_node x) (x_lip x) (g_data g) k c) \/
      exists a b, In (a, b) (s_acks (since_open i log)) /\ a <= k <= b.
Proof.
  intros x g log i H (c & Hs & Hm). apply reached_inv in H. destruct H as (sp & L & Q & X).
  assert (Ho : is_open (x_vec x) i c) by (split; [exact Hs|rewrite Hm; discriminate]).
  destruct (xi_str _ _ _ _ _ _ _ X i c Ho) as (cmds & E & F & A & _). exists cmds. split; [exists c; auto|]. split; [exact F|]. intros k Hk H0.
  destruct (A k Hk H0) as [(e & He & Hp & Hh)|[(h & p & Hc & Hp)|Ha]].
  - left. apply owes_owed. exists (e_ts e). rewrite (owed_inv _ _ _ _ _ _ _ (xi_pub _ _ _ _ _ _ _ X)). exists e. auto.
  - right. left. exists (CmdPacket h p). split; [exact Hc|]. rewrite Forall_forall in F. destruct (F _ Hc) as (k' & Hk'). pose proof Hk' as (p' & port & E' & _). injection E' as -> ->. cbn in Hp. subst k'. exact Hk'.
  - right. right. exact Ha.
Qed.
(** In this history subscriber 0 acknowledged packet 1, packet 2 was resent to it, and it still owes packet 3. *)
Definition c64_ops : list xop :=
  demo_ops ++ [XRead 0 (RdTcp (RData (wire (CmdAck 1 1)))); XTimeout 900000 900 AnnNone; XWrite 0 (WrMcast [SndOk 900000])].
Example c64_witness : exists x g log, xhist demo0 c64_ops x g log /\ connected x 0 /\ s_cast (since_open 0 log) = [1; 2; 3] /\
  s_acks (since_open 0 log) = [(1, 1)] /\ owes x 0 3 /\ ~ owes x 0 2 /\ exists c, slot (x_vec x) 0 = Ok c /\ zlen (contents (c_wbuf c)) = 24.
Proof.
  destruct (xcheck_hist demo0 c64_ops (fun x g log => listb (s_cast (since_open 0 log)) [1; 2; 3] &&
    match s_acks (since_open 0 log) with [(a, b)] => (a =? 1) && (b =? 1) | _ => false end && owesb x 0 3 && negb (owesb x 0 2) &&
    match slot (x_vec x) 0 with Ok c => (c_mode c =? CONNECTED) && (zlen (contents (c_wbuf c)) =? 24) | _ => false end)) as (x & g & log & H & E); [vm_compute; reflexivity|].
  apply andb_prop in E. destruct E as [E E5]. apply andb_prop in E. destruct E as [E E4]. apply andb_prop in E. destruct E as [E E3]. apply andb_prop in E. destruct E as [E1 E2].
  exists x, g, log. split; [exact H|]. destruct (slot (x_vec x) 0) as [c| | |] eqn:Es; try discriminate E5. apply andb_prop in E5. destruct E5 as [E5 E6].
  split; [exists c; split; [exact Es|lia]|]. split; [apply listb_eq; exact E1|]. split.
  { destruct (s_acks (since_open 0 log)) as [|[a b] [|]]; try discriminate E2. apply andb_prop in E2. do 2 f_equal; lia. }
  unfold owesb, zinb in *. split; [unfold owes; apply existsb_exists in E3; destruct E3 as (k & Hk & Ek); apply Z.eqb_eq in Ek; subst k; exact Hk|].
  split; [intros Ho; apply negb_true_iff in E4; apply zinb_false in E4; exact (E4 Ho)|]. exists c. split; [reflexivity|lia].
Qed.

(** ** C65. Control messages from subscribers *)
(** The control messages among the commands read on connection [i] are handed to the callback
    in order, with the address of that subscriber and the bytes it sent; without a callback
    they are dropped. *)
Definition ctrl_ev (e : pev) : list (Z * Z * Z * list Z) := match e with PvCtrl a p n bs => [(a, p, n, bs)] | _ => [] end.
Definition ctrls_of (cmds : list cmd) : list (list Z) := flat_map (fun c => match c with CmdCtrl p => [p] | _ => [] end) cmds.
Lemma release_all_noctrl : forall fr m r, release_all m fr = Ok r -> flat_map ctrl_ev (snd r) = [].
Proof.
  induction fr as [|[[p l] u] fr IH]; intros m r; cbn [release_all]; [intros E; injection E as <-; reflexivity|].
  destruct (m p); [|discriminate]. destruct (release_all _ fr) as [r2| | |] eqn:E2; cbn [bind]; [|discriminate..]. intros E; injection E as <-. cbn. exact (IH _ _ E2).
Qed.
Lemma rounds_noctrl i : forall n x pid r, ack_rounds n x i pid = Ok r -> flat_map ctrl_ev (snd r) = [] /\ x_ccb (fst r) = x_ccb x /\ x_vec (fst r) = x_vec x.
Proof.
  induction n as [|n IH]; intros x pid r; cbn [ack_rounds]; [intros E; injection E as <-; auto|].
  destruct (rmc_pub_packet_ack x i pid) as [[x1 e1]| | |] eqn:E1; cbn [bind]; [|discriminate..].
  destruct (ack_rounds n _ i _) as [[x2 e2]| | |] eqn:E2; cbn [bind]; [|discriminate..]. intros E; injection E as <-. cbn [fst snd] in *.
  destruct (IH _ _ _ E2) as (A & B & C). cbn [fst snd] in *. unfold rmc_pub_packet_ack in E1.
  destruct (pub_packet_ack _ _ _) as [[s fr]| | |]; cbn [bind] in E1; [|discriminate..]. cbn [fst snd] in E1. destruct (release_all _ fr) as [[m ev]| | |] eqn:Er; cbn [bind] in E1; [|discriminate..].
  cbn [fst snd] in E1. apply release_all_noctrl in Er. cbn [snd] in Er. rewrite flat_map_app, A.
  match type of E1 with Ok (?a, ?b) = _ => assert (Ea : a = x1) by congruence; assert (Eb : b = e1) by congruence end.
  subst e1. rewrite Er. rewrite B, C, <- Ea. destruct (_ && _); auto.
Qed.
Lemma run_ctrls i c : forall cmds x1 evs1 x2 evs2 cb, slot (x_vec x1) i = Ok c -> Forall (fun c => for_pub c) cmds -> cb = ccb_set x1 ->
  run_cmds (pub_eff (eff_ack i) cb (eff_ctrl i)) (x1, evs1) cmds = Ok (x2, evs2) ->
  flat_map ctrl_ev evs2 = flat_map ctrl_ev evs1 ++ match x_ccb x1 with FpSet => map (fun p => (c_addr c, c_port c, c_node c, p)) (ctrls_of cmds) | _ => [] end.
Proof.
  induction cmds as [|cm cmds IH]; intros x1 evs1 x2 evs2 cb Hs F Hc; cbn [run_cmds ctrls_of flat_map].
  - intros E. injection E as _ <-. destruct (x_ccb x1); rewrite app_nil_r; reflexivity.
  - assert (F2 : Forall (fun c => for_pub c) cmds) by (inversion F; assumption). destruct cm as [h p|a b|p]; cbn [pub_eff].
    + inversion F as [|? ? F1 ?]. destruct F1.
    + unfold eff_ack at 1. cbn [fst snd]. destruct (ack_interval x1 i a b) as [[y ev]| | |] eqn:Ea; cbn [bind]; [|discriminate..]. cbn [fst snd].
      unfold ack_interval in Ea. destruct (_ && _) in Ea; [discriminate|]. destruct (rounds_noctrl _ _ _ _ _ Ea) as (A & B & C). cbn [fst snd] in *. intros E.
      rewrite <- C in Hs. assert (Hc' : cb = ccb_set y) by (unfold ccb_set; rewrite B; exact Hc).
      rewrite (IH y _ x2 evs2 cb Hs F2 Hc' E), B, flat_map_app. cbn [flat_map ctrl_ev app]. rewrite A, app_nil_r. reflexivity.
    + unfold eff_ctrl at 1. cbn [fst snd]. unfold ccb_set in Hc. destruct (x_ccb x1) eqn:Ec; cbn [bind]; [discriminate| |].
      * intros E. rewrite (IH x1 evs1 x2 evs2 cb Hs F2 ltac:(unfold ccb_set; rewrite Ec; exact Hc) E), Ec. reflexivity.
      * rewrite Hs. cbn [bind]. subst cb. intros E. rewrite (IH x1 _ x2 evs2 true Hs F2 ltac:(unfold ccb_set; rewrite Ec; reflexivity) E), Ec, flat_map_app.
        cbn [flat_map ctrl_ev app map]. rewrite <- app_assoc. reflexivity.
Qed.
Theorem c65_control_messages_partial : forall x g log i c bs cmds r, reached x g log -> 0 <= i < 65536 ->
  slot (x_vec x) i = Ok c -> c_mode c = CONNECTED ->
  cb_wf (c_rbuf c) -> bytes_ok (contents (c_rbuf c)) -> bytes_ok bs -> bs <> [] ->
  zlen (contents (c_rbuf c)) + zlen bs <= cb_size (c_rbuf c) - 1 ->
  read_ok (cb_size (c_rbuf c)) (cb_start (c_rbuf c)) (zlen (contents (c_rbuf c)) + zlen bs) ->
  parses for_pub (contents (c_rbuf c) ++ bs) cmds r -> ctrls_ok (cb_size (c_rbuf c)) (cb_start (c_rbuf c)) cmds ->
  x_ccb x <> FpUninit ->
  (forall a b, In (CmdAck a b) cmds -> a <= b -> b <> 18446744073709551615) ->
  exists code op x' evs, rmc_pub_read x i (RdTcp (RData bs)) = Ok (code, op, x', evs) /\
    flat_map ctrl_ev evs = match x_ccb x with FpSet => map (fun p => (c_addr c, c_port c, c_node c, p)) (ctrls_of cmds) | _ => [] end.
Proof.
  intros x g log i c bs cmds r H Hi Hs Hm Hw Hb Hbb Hne Hf Hr Hp Hc Hu Hmax. apply reached_inv in H.
  destruct (run_acks false i (ccb_set x) cmds x g log []) as (x2 & evs2 & E2 & _ & S2 & _ & _ & _).
  { rewrite g_unlend_nil, app_nil_r. exact H. } { lia. } { apply Hp. } { exact Hmax. } { intros U. destruct (Hu U). } { eauto. }
  assert (Rc := run_ctrls i c cmds x [] x2 ([] ++ evs2) (ccb_set x) Hs ltac:(destruct Hp as (_ & Hp & _); eapply Forall_impl; [|exact Hp]; cbn; tauto) eq_refl E2).
  cbn [rmc_pub_read app flat_map] in *. destruct (find_index_cases (x_vec x) i (proj1 Hi)) as [[_ N]|(c0 & -> & Ho)]; [destruct (N c); split; [exact Hs|rewrite Hm; discriminate]|].
  assert (c0 = c) by (destruct Ho; congruence). subst c0. cbn [bind]. rewrite Hm. change (negb (CONNECTED =? CONNECTED)) with false. cbv iota.
  destruct (tcp_read_spec (pub_dispatch (eff_ack i) (ccb_set x) (eff_ctrl i)) (pub_eff (eff_ack i) (ccb_set x) (eff_ctrl i)) for_pub pub_next (ccb_set x)
              pub_next_sound pub_next_complete (pub_handler_cmd _ _ _) (pub_handler_more _ _ _) (pub_handler_bad _ _ _)
              (x, []) (c_rbuf c) bs cmds r (x2, evs2)) as (rb' & -> & _ & _ & _ & _); auto.
  cbn [bind r_st r_code r_op r_buf fst snd].
  assert (Nz : left_code pub_next r =? EPIPE = false).
  { unfold left_code. destruct r; [reflexivity|]. destruct (pub_next (z :: r)); reflexivity. }
  rewrite Nz. eexists _, _, _, _. split; [reflexivity|]. rewrite !flat_map_app. cbn [flat_map ctrl_ev app]. rewrite !app_nil_r. exact Rc.
Qed.
(** A context whose control message callback was never set reads an uninitialised pointer. *)
Theorem c65_refuted : exists x g log, reached x g log /\ connected x 0 /\
  rmc_pub_read x 0 (RdTcp (RData (wire (CmdCtrl [1; 2])))) = UB UninitRead.
Proof.
  destruct (xcheck_hist demo0 demo_ops (fun x g log => (match slot (x_vec x) 0 with Ok c => c_mode c =? CONNECTED | _ => false end) &&
     match rmc_pub_read x 0 (RdTcp (RData (wire (CmdCtrl [1; 2])))) with UB UninitRead => true | _ => false end)) as (x & g & log & H & E); [vm_compute; reflexivity|].
  apply andb_prop in E. destruct E as [E1 E2]. exists x, g, log. split; [exists demo0, demo_ops; split; [exact demo0_fresh|exact H]|]. split.
  - unfold connected. destruct (slot (x_vec x) 0) as [c| | |]; [|discriminate..]. exists c. split; [reflexivity|lia].
  - destruct (rmc_pub_read _ _ _) as [|[]| |]; try discriminate; reflexivity.
Qed.
Example c65_witness : exists x g log x' evs code op, xhist demo0 (demo_ops ++ [XSetCtrl true]) x g log /\
  rmc_pub_read x 1 (RdTcp (RData (wire (CmdCtrl [1; 2])))) = Ok (code, op, x', evs) /\ flat_map ctrl_ev evs = [(2, 0, 0, [1; 2])].
Proof.
  destruct (xcheck_hist demo0 (demo_ops ++ [XSetCtrl true]) (fun x g log => match rmc_pub_read x 1 (RdTcp (RData (wire (CmdCtrl [1; 2])))) with
     Ok (_, _, _, evs) => match flat_map ctrl_ev evs with [(a, b, c, d)] => listb [a; b; c] [2; 0; 0] && listb d [1; 2] | _ => false end | _ => false end)) as (x & g & log & H & E); [vm_compute; reflexivity|].
  destruct (rmc_pub_read _ _ _) as [[[[code op] x'] evs]| | |] eqn:Er; try discriminate E. exists x, g, log, x', evs, code, op. split; [exact H|]. split; [exact Er|].
  destruct (flat_map ctrl_ev evs) as [|[[[a b] c] d] [|]]; try discriminate E. apply andb_prop in E. destruct E as [E1 E2]. apply listb_eq in E1. apply listb_eq in E2. congruence.
Qed.

(** ** C66. Shutting down *)
(** Descriptors handed to close(), and subscribers reported as gone. *)
Definition closed_ev (e : pev) : list Z := match e with PvConn (EvClose d) => [d] | _ => [] end.
Definition left_ev (e : pev) : list (Z * Z) := match e with PvLeave a p => [(a, p)] | _ => [] end.
(** The open connections in slots [a], [a + 1], ..., [n] of them. *)
Fixpoint opens (v : cvec) (a : Z) (n : nat) : list conn :=
  match n with
  | O => []
  | S n => match slot v a with Ok c => if c_mode c =? CLOSED then [] else [c] | _ => [] end ++ opens v (a + 1) n
  end.
Lemma opens_ext v v' : forall n a, (forall j, a <= j < a + Z.of_nat n -> slot v' j = slot v j) -> opens v' a n = opens v a n.
Proof.
  induction n as [|n IH]; intros a H; [reflexivity|]. cbn [opens]. rewrite (H a) by lia. f_equal. apply IH. intros j Hj. apply H. lia.
Qed.
Lemma free_evs_noclose fr : flat_map closed_ev (free_evs fr) = [] /\ flat_map left_ev (free_evs fr) = [].
Proof. induction fr as [|p fr IH]; [auto|]. cbn. exact IH. Qed.
Lemma release_unheld n sel live e' : In e' (fst (release n sel live)) -> exists e, In e live /\ fly e = fly e' /\ (e_hold e' = [] -> e_hold e = []).
Proof.
  intros H. apply release_sub_in in H. destruct H as (e & He & [[_ ->]|(_ & -> & N)]); exists e; (split; [exact He|]); (split; [reflexivity|]); [auto|]. intros E. destruct (N E).
Qed.
Lemma close_loop_spec t : forall n x g log sp L Q ind, XI t x g log sp L Q -> 0 <= ind ->
  exists x' evs sp' L', close_loop n x ind = Ok (x', evs) /\ XI t x' (g_unlend g evs) (log ++ evs) sp' L' Q /\
    (forall j, 0 <= j -> ~ (ind <= j < ind + Z.of_nat n) -> slot (x_vec x') j = slot (x_vec x) j) /\
    (forall j c, ind <= j < ind + Z.of_nat n -> ~ is_open (x_vec x') j c) /\
    flat_map closed_ev evs = map c_desc (opens (x_vec x) ind n) /\
    flat_map left_ev evs = map (fun c => (c_addr c, c_port c)) (opens (x_vec x) ind n) /\
    Permutation (map snd (flying x)) (map snd (flying x') ++ flat_map freed_ev evs) /\
    (forall e', In e' (sp_live sp') -> exists e, In e (sp_live sp) /\ fly e = fly e' /\ (e_hold e' = [] -> e_hold e = [])).
Proof.
  induction n as [|n IH]; intros x g log sp L Q ind X Hi; cbn [close_loop].
  - exists x, [], sp, L. cbn [opens map flat_map]. rewrite g_unlend_nil, !app_nil_r. split; [reflexivity|]. split; [exact X|]. split; [auto|]. split; [intros; lia|].
    split; [reflexivity|]. split; [reflexivity|]. split; [reflexivity|]. intros e' He. exists e'. auto.
  - destruct (find_index_cases (x_vec x) ind Hi) as [[-> N]|(c & -> & Ho)]; cbn [bind].
    + destruct (IH x g log sp L Q (ind + 1) X ltac:(lia)) as (x' & evs & sp' & L' & E & X' & H1 & H2 & H3 & H4 & H5 & H6).
      exists x', evs, sp', L'. split; [exact E|]. split; [exact X'|]. split; [intros j Hj0 Hj; apply H1; lia|]. split.
      { intros j c Hj Ho. destruct (Z.eq_dec j ind) as [->|Hne]; [|exact (H2 j c ltac:(lia) Ho)]. apply (N c). destruct Ho as [Hs Hm]. rewrite H1 in Hs by lia. split; assumption. }
      cbn [opens].
      assert (Hn : match slot (x_vec x) ind with Ok c => if c_mode c =? CLOSED then [] else [c] | _ => [] end = []).
      { destruct (slot (x_vec x) ind) as [c| | |] eqn:Es; try reflexivity. destruct (Z.eqb_spec (c_mode c) CLOSED); [reflexivity|]. destruct (N c). split; assumption. }
      rewrite Hn. cbn [app]. auto.
    + destruct (close_xi t x g log sp L Q ind c X Ho) as (x1 & L1 & fr & e1 & -> & Ev & Es & X1 & _ & _ & _ & _ & Hoth & Hcl & _ & _). cbn [bind].
      destruct (IH x1 _ _ _ _ _ (ind + 1) X1 ltac:(lia)) as (x' & evs & sp' & L' & E & X' & H1 & H2 & H3 & H4 & H5 & H6).
      rewrite E. cbn [bind fst snd]. exists x', (e1 ++ evs), sp', L'. split; [reflexivity|]. split; [rewrite g_unlend_app, app_assoc; exact X'|].
      split; [intros j Hj0 Hj; rewrite H1 by lia; apply Hoth; lia|]. split.
      { intros j d Hj Hd. destruct (Z.eq_dec j ind) as [->|Hne]; [|exact (H2 j d ltac:(lia) Hd)]. apply (Hcl d). destruct Hd as [Hs Hm]. rewrite H1 in Hs by lia. split; assumption. }
      cbn [opens]. destruct Ho as [Hs Hm]. rewrite Hs. replace (c_mode c =? CLOSED) with false by lia. rewrite !flat_map_app, H3, H4.
      rewrite (opens_ext (x_vec x) (x_vec x1)) by (intros j Hj; apply Hoth; lia). destruct (free_evs_noclose fr) as [C1 C2].
      split; [rewrite Ev; cbn [flat_map closed_ev map app]; rewrite C1; reflexivity|].
      split; [rewrite Ev; cbn [flat_map left_ev map app]; rewrite C2; reflexivity|].
      set (sp1 := fst (spec_step sp (OpUnsubscribe (Z.to_nat ind)))) in *.
      assert (El : sp_live sp1 = fst (release (Z.to_nat ind) (fun _ => true) (sp_live sp)) /\ fr = snd (release (Z.to_nat ind) (fun _ => true) (sp_live sp))).
      { unfold sp1 in *. cbn [spec_step] in *. destruct (release _ _ (sp_live sp)) as [lv fr']. cbn [fst snd sp_live] in *. split; [reflexivity|congruence]. }
      destruct El as [El Ef]. split.
      * assert (P1 : Permutation (map snd (flying x)) (map snd (flying x1) ++ flat_map freed_ev e1)).
        { rewrite (flying_inv x _ _ _ (xi_pub _ _ _ _ _ _ _ X)), (flying_inv x1 _ _ _ (xi_pub _ _ _ _ _ _ _ X1)), !map_rev, <- !Permutation_rev, !map_map. cbn [fly snd].
          rewrite Ev. cbn [flat_map freed_ev map app]. rewrite (proj1 (free_evs_free fr)), El, Ef. symmetry. apply flying_release. }
        rewrite P1, H5, <- app_assoc. apply Permutation_app_head. apply Permutation_app_comm.
      * intros e' He. destruct (H6 e' He) as (e2 & He2 & F2 & N2). rewrite El in He2. destruct (release_unheld _ _ _ _ He2) as (e & He3 & F3 & N3). exists e. split; [exact He3|]. split; [congruence|auto].
Qed.
(** Deactivating closes every connection once, reports each subscriber gone, closes both
    sockets, and gives back every payload that some subscriber still had to acknowledge, once.
    What is queued stays queued. *)
Theorem c66_deactivate : forall x g log, reached x g log ->
  exists x' evs, rmc_pub_deactivate_context x = Ok (0, x', evs) /\
    (forall i, ~ connected x' i) /\ x_mcast x' = -1 /\ x_listen x' = -1 /\
    flat_map closed_ev evs = map c_desc (opens (x_vec x) 0 (Z.to_nat (v_size (x_vec x)))) ++ [x_mcast x; x_listen x] /\
    flat_map left_ev evs = map (fun c => (c_addr c, c_port c)) (opens (x_vec x) 0 (Z.to_nat (v_size (x_vec x)))) /\
    Permutation (map snd (flying x)) (map snd (flying x') ++ flat_map freed_ev evs) /\
    (forall k q, In (k, q) (flying x') -> In (k, q) (flying x) /\ forall i, 0 <= i -> ~ owes x i k) /\
    queued x' = queued x.
Proof.
  intros x g log H. apply reached_inv in H. destruct H as (sp & L & Q & X). unfold rmc_pub_deactivate_context, get_max_index_in_use.
  pose proof (xi_vec _ _ _ _ _ _ _ X) as V. destruct (vi_max _ _ V) as [Hm1 Hm2].
  assert (Hop : forall j c, is_open (x_vec x) j c -> v_max (x_vec x) <> RMC_NIL_INDEX /\ 0 <= j <= v_max (x_vec x)).
  { intros j c [Hs Hm]. pose proof (slot_range _ _ _ Hs). destruct (vi_mode _ _ V j c Hs) as (A & _). destruct (Hm2 j c Hs) as [B C]; [intros D; apply Hm, A, D|]. split; [exact B|lia]. }
  pose (n := if v_max (x_vec x) =? RMC_NIL_INDEX then O else Z.to_nat (v_max (x_vec x) + 1)).
  assert (El : (if v_max (x_vec x) =? RMC_NIL_INDEX then Ok (x, []) else close_loop (Z.to_nat (v_max (x_vec x) + 1)) x 0) = close_loop n x 0).
  { unfold n. destruct (_ =? _); reflexivity. }
  rewrite El. destruct (close_loop_spec false n x g log sp L Q 0 X ltac:(lia)) as (x' & evs & sp' & L' & E & X' & H1 & H2 & H3 & H4 & H5 & H6).
  rewrite E. cbn [bind fst snd]. eexists _, _. split; [reflexivity|].
  assert (Cov : forall j c, is_open (x_vec x) j c -> 0 <= j < Z.of_nat n).
  { intros j c Ho. destruct (Hop j c Ho) as [A B]. unfold n. replace (v_max (x_vec x) =? RMC_NIL_INDEX) with false by lia. lia. }
  assert (Cl : forall j c, ~ is_open (x_vec x') j c).
  { intros j c Ho. pose proof (slot_range _ _ _ (proj1 Ho)). destruct (Z.ltb_spec j (Z.of_nat n)); [exact (H2 j c ltac:(lia) Ho)|].
    destruct Ho as [Hs Hm]. rewrite H1 in Hs by lia. pose proof (Cov j c (conj Hs Hm)). lia. }
  assert (Hop2 : opens (x_vec x) 0 (Z.to_nat (v_size (x_vec x))) = opens (x_vec x) 0 n).
  { assert (Hn : (n <= Z.to_nat (v_size (x_vec x)))%nat). { unfold n. destruct (Z.eqb_spec (v_max (x_vec x)) RMC_NIL_INDEX); [lia|]. destruct Hm1; lia. }
    clear - Cov Hn. remember (Z.to_nat (v_size (x_vec x))) as N eqn:EN. clear EN.
    assert (G : forall N n a, (n <= N)%nat -> (forall j c, is_open (x_vec x) j c -> j < a + Z.of_nat n) -> opens (x_vec x) a N = opens (x_vec x) a n).
    { clear. induction N as [|N IH]; intros n a Hn Hc; [destruct n; [reflexivity|lia]|]. destruct n as [|n].
      - cbn [opens]. rewrite (IH O (a + 1)); [|lia|intros j c Hj; specialize (Hc j c Hj); lia]. cbn [opens]. rewrite app_nil_r.
        destruct (slot (x_vec x) a) as [c| | |] eqn:Es; try reflexivity. destruct (Z.eqb_spec (c_mode c) CLOSED); [reflexivity|]. specialize (Hc a c (conj Es n)). lia.
      - cbn [opens]. f_equal. apply IH; [lia|]. intros j c Hj. specialize (Hc j c Hj). lia. }
    apply G; [exact Hn|]. intros j c Hj. specialize (Cov j c Hj). lia. }
  split. { intros i (c & Hs & Hm). apply (Cl i c). split; [exact Hs|]. cbn [set_descs x_vec] in *. rewrite Hm. discriminate. }
  split; [reflexivity|]. split; [reflexivity|]. rewrite Hop2. rewrite !flat_map_app, H3, H4. cbn [flat_map closed_ev left_ev freed_ev app]. rewrite !app_nil_r.
  split; [reflexivity|]. split; [reflexivity|]. split; [exact H5|]. split.
  - intros k q Hq. assert (Hq' : In (k, q) (flying x')) by exact Hq. rewrite (flying_inv x' _ _ _ (xi_pub _ _ _ _ _ _ _ X')) in Hq'. apply in_rev, in_map_iff in Hq'. destruct Hq' as (e' & Ee & He').
    destruct (H6 e' He') as (e & He & Fe & Ne). 
    assert (Nh : e_hold e' = []).
    { destruct (i_hold _ _ _ _ (xi_pub _ _ _ _ _ _ _ X') e' He') as [_ Hin]. destruct (e_hold e') as [|m h]; [reflexivity|]. exfalso.
      specialize (Hin m (or_introl eq_refl)). apply (vi_reg _ _ (xi_vec _ _ _ _ _ _ _ X')) in Hin. destruct Hin as (c & Ho). exact (Cl _ _ Ho). }
    split; [rewrite (flying_inv x _ _ _ (xi_pub _ _ _ _ _ _ _ X)), <- in_rev; apply in_map_iff; exists e; split; [congruence|exact He]|].
    intros i Hi Ho. apply owes_owed in Ho. destruct Ho as (ts & Ho). apply (owed_inv _ _ _ _ _ _ _ (xi_pub _ _ _ _ _ _ _ X)) in Ho.
    destruct Ho as (f & Hf & Kf & _ & Hh). assert (f = e).
    { pose proof (i_sort _ _ _ _ (xi_pub _ _ _ _ _ _ _ X)) as SS. apply SSapp_l in SS.
      assert (Pe : e_pid e = k) by (unfold fly in *; congruence). clear - SS He Hf Kf Pe. revert SS He Hf.
      induction (sp_live sp) as [|a l IH]; intros SS He Hf; [destruct He|]. cbn [map] in SS. inversion SS as [|? ? S1 S2]; subst. rewrite Forall_forall in S2.
      destruct He as [->|He], Hf as [->|Hf]; [reflexivity| | |exact (IH S1 He Hf)].
      - specialize (S2 (e_pid f) (in_map _ _ _ Hf)). lia.
      - specialize (S2 (e_pid e) (in_map _ _ _ He)). lia. }
    subst f. rewrite (Ne Nh) in Hh. destruct Hh.
  - change (queued x' = queued x). rewrite (queued_inv _ _ _ _ (xi_pub _ _ _ _ _ _ _ X)), (queued_inv _ _ _ _ (xi_pub _ _ _ _ _ _ _ X')). reflexivity.
Qed.
Example c66_witness : exists x g log x' evs, xhist demo0 demo_ops x g log /\ rmc_pub_deactivate_context x = Ok (0, x', evs) /\
  flat_map closed_ev evs = [5; 6; 3; 4] /\ map fst (flat_map freed_ev evs) = [100; 200] /\ flying x' = [].
Proof.
  destruct (xcheck_hist demo0 demo_ops (fun x g log => match rmc_pub_deactivate_context x with Ok (0, x', evs) =>
    listb (flat_map closed_ev evs) [5; 6; 3; 4] && listb (map fst (flat_map freed_ev evs)) [100; 200] && Nat.eqb (length (flying x')) 0 | _ => false end)) as (x & g & log & H & E); [vm_compute; reflexivity|].
  destruct (rmc_pub_deactivate_context x) as [[[[|p|p] x'] evs]| | |] eqn:Ed; try discriminate E. exists x, g, log, x', evs. split; [exact H|]. split; [exact Ed|].
  apply andb_prop in E. destruct E as [E E3]. apply andb_prop in E. destruct E as [E1 E2]. apply listb_eq in E1. apply listb_eq in E2. apply Nat.eqb_eq in E3. destruct (flying x'); [auto|discriminate].
Qed.

(** ** C67. What a multicast write does *)
(** Datagrams sent, as (id, time). *)
Definition cast_kt (e : pev) : list (Z * Z) := match e with PvCast ts d => [(h_pid (dec_header d), ts)] | _ => [] end.
Lemma cast_kt_split evs : map fst (flat_map cast_kt evs) = map (fun d => h_pid (dec_header d)) (flat_map cast_ev evs) /\ map snd (flat_map cast_kt evs) = flat_map cast_ts evs.
Proof. induction evs as [|e evs [IH1 IH2]]; [auto|]. cbn [flat_map]. rewrite !map_app, IH1, IH2. destruct e; auto. Qed.
Definition waiting (sp : spec) : list (Z * pl) := map (fun p => (0, p)) (sp_ann sp) ++ sp_data sp.
Lemma sends_spec : forall kts sp tl, pos_data sp -> map fst (waiting sp) = map fst kts ++ tl ->
  let sp' := fst (spec_run sp (map OpSend (map snd kts))) in
  forall n k ts, claim sp' n k ts <-> claim sp n k ts \/ (In n (sp_reg sp) /\ k <> 0 /\ In (k, ts) kts).
Proof.
  induction kts as [|[k0 t0] kts IH]; intros sp tl Hp Hw; cbn [map fst snd]; intros n k ts.
  - cbn [spec_run fst]. split; [auto|]. intros [H|(_ & _ & [])]. exact H.
  - rewrite spec_run_cons. cbn [fst].
    set (sp1 := fst (spec_step sp (OpSend t0))).
    assert (S1 : map fst (waiting sp1) = map fst kts ++ tl /\ sp_reg sp1 = sp_reg sp /\
      forall n k ts, claim sp1 n k ts <-> claim sp n k ts \/ (In n (sp_reg sp) /\ k <> 0 /\ (k, ts) = (k0, t0))).
    { unfold sp1. cbn [spec_step map fst app] in *. unfold waiting in *. destruct (sp_ann sp) as [|p ann] eqn:Ea.
      - cbn [map app] in Hw. destruct (sp_data sp) as [|[k1 p1] data] eqn:Ed; [discriminate Hw|]. cbn [map fst] in Hw. injection Hw as -> Hw.
        cbn [fst sp_ann sp_data sp_reg sp_live map app]. split; [exact Hw|]. split; [reflexivity|]. intros m j s. unfold claim. cbn [sp_live]. split.
        + intros (e & He & A & B & C). apply in_app_or in He. destruct He as [He|[<-|[]]]; [left; exists e; auto|]. right. cbn in *. subst. split; [exact C|]. split; [|reflexivity].
          destruct Hp as [Hp _]. rewrite Ed in Hp. inversion Hp; subst. cbn in *. lia.
        + intros [(e & He & A)|(A & _ & B)]; [exists e; split; [apply in_or_app; auto|exact A]|]. injection B as -> ->. eexists. split; [apply in_or_app; right; left; reflexivity|]. cbn. auto.
      - cbn [map app fst] in Hw. injection Hw as <- Hw. cbn [fst sp_ann sp_data sp_reg sp_live map app]. split; [exact Hw|]. split; [reflexivity|]. intros m j s. unfold claim. cbn [sp_live]. split; [auto|].
        intros [H|(_ & Hk & B)]; [exact H|]. injection B as -> ->. destruct Hk. reflexivity. }
    destruct S1 as (W1 & R1 & C1). rewrite (IH sp1 tl (pos_step _ _ Hp) W1 n k ts), C1, R1. cbn [In]. split.
    + intros [[H|(A & B & C)]|(A & B & C)]; [auto|right|right]; auto.
    + intros [H|(A & B & [C|C])]; [auto|left; right; auto|right; auto].
Qed.
(** Multicasting takes packets from the queue in order, each one handed to sendmsg() once;
    every subscriber connected at that moment then has to acknowledge it. *)
Theorem c67_multicast_write_exact : forall outs x g log i code op x' evs, reached x g log -> x_mcast x <> -1 -> ~ In (SndErr 0) outs ->
  rmc_pub_write x i (WrMcast outs) = Ok (code, op, x', evs) ->
  map fst (rev (queued x)) = map fst (flat_map cast_kt evs) ++ map fst (rev (queued x')) /\
  (exists n, map SndOk (map snd (flat_map cast_kt evs)) = firstn n outs /\
     ((code = 0 /\ queued x' = []) \/ (queued x' <> [] /\ nth_error outs n = None /\ code = EAGAIN) \/
      (queued x' <> [] /\ nth_error outs n = Some (SndErr code)))) /\
  (forall j k ts, 0 <= j -> owed x' j k ts <-> owed x j k ts \/ (connected x j /\ k <> 0 /\ In (k, ts) (flat_map cast_kt evs))) /\
  x_vec x' = x_vec x /\ x_mem x' = x_mem x /\ flat_map freed_ev evs = [].
Proof.
  intros outs x g log i code op x' evs H Em H0 E. apply reached_inv in H. destruct H as (sp & L & Q & X). cbn [rmc_pub_write] in E.
  destruct (process_multicast_write x outs) as [[[cd y] ev]| | |] eqn:Ep; cbn [bind] in E; [|discriminate..]. injection E as <- <- <- <-.
  destruct (mcast_spec false outs x g log sp L Q _ _ _ X Em H0 Ep) as (dn & rest & tss & L' & EQ & Hl & Ho & X' & F & Ht & Sb & _ & Hm & Hf & C).
  pose proof (xi_pub _ _ _ _ _ _ _ X) as I. pose proof (xi_pub _ _ _ _ _ _ _ X') as I'.
  assert (Hd : map fst (flat_map cast_kt ev) = map fst (map snd dn)).
  { rewrite (proj1 (cast_kt_split ev)). assert (Hin : forall aq, In aq dn -> In aq Q) by (intros aq Ha; rewrite EQ; apply in_or_app; auto). clear - F Hin X. revert F.
    generalize (flat_map cast_ev ev). induction dn as [|[a q] dn IH]; intros ds F; cbn [map] in F; [inversion F; reflexivity|].
    destruct ds as [|d ds]; [inversion F|]. assert (D : is_dgram x q d) by (inversion F; assumption). assert (F' : Forall2 (is_dgram x) (map snd dn) ds) by (inversion F; assumption).
    cbn [map]. rewrite (IH (fun aq Ha => Hin aq (or_intror Ha)) ds F'). f_equal. destruct D as (bs & -> & Hz & _). rewrite dec_enc_header; [reflexivity|].
    destruct (queued_cases _ _ _ _ _ _ _ a q X (Hin _ (or_introl eq_refl))) as (_ & A & B & _). destruct (xi_hdr _ _ _ _ _ _ _ X) as (U1 & U2 & U3).
    unfold hdr_ok; cbn. unfold is_u64, is_u16, RMC_MAX_PAYLOAD in *. split; [lia|]. split; [exact U1|]. split; [lia|]. auto. }
  pose proof (proj2 (cast_kt_split ev)) as Ht'. rewrite Ht in Ht'.
  rewrite (queued_inv _ _ _ _ I), (queued_inv _ _ _ _ I'), !rev_involutive, EQ. split.
  - rewrite map_app, map_app, Hd, !map_map. reflexivity.
  - split.
    + exists (length dn). rewrite Ht'. split; [exact Ho|].
      assert (Rn : rest <> [] -> rev (map (fun aq : nat * (Z * pl) => (fst (snd aq), pl2 (snd (snd aq)))) rest) <> []).
      { intros Hn A. apply Hn. destruct rest as [|a r]; [reflexivity|]. cbn in A. apply app_eq_nil in A. destruct A as [_ A]. discriminate A. }
      destruct C as [[-> ->]|[(A & B & ->)|(A & e & B & ->)]]; [left; auto|right; left; auto|right; right; auto].
    + split; [|destruct Sb as (-> & _); auto]. intros j k ts Hj. rewrite (owed_inv _ _ _ _ _ _ _ I'), (owed_inv _ _ _ _ _ _ _ I).
      rewrite <- Ht'.
      assert (Hp : pos_data sp).
      { split; [|exact (proj1 (i_nextr _ _ _ _ I))]. pose proof (i_pidr _ _ _ _ I) as P. rewrite Forall_app in P. destruct P as [_ P]. rewrite Forall_map in P.
        eapply Forall_impl; [|exact P]. cbn. intros ? ?; lia. }
      rewrite (sends_spec (flat_map cast_kt ev) sp (map fst (map snd rest)) Hp); [|unfold waiting; rewrite <- (i_Q _ _ _ _ I), EQ, !map_app, Hd; reflexivity].
      assert (Hc : In (Z.to_nat j) (sp_reg sp) <-> connected x j).
      { rewrite (vi_reg _ _ (xi_vec _ _ _ _ _ _ _ X)), Z2Nat.id by lia. split; intros (c & Hs & Hmo); exists c; (split; [exact Hs|]).
        - destruct (vi_mode _ _ (xi_vec _ _ _ _ _ _ _ X) _ _ Hs) as (_ & _ & [M|M]); [contradiction|exact M].
        - rewrite Hmo. discriminate. }
      rewrite Hc. reflexivity.
Qed.
Example c67_witness : exists x g log x' evs code op, xhist demo0 demo_ops x g log /\ x_mcast x <> -1 /\
  rmc_pub_write x 0 (WrMcast [SndOk 3000]) = Ok (code, op, x', evs) /\ flat_map cast_kt evs = [(3, 3000)] /\ queued x' = [] /\ owes x' 1 3.
Proof.
  destruct (xcheck_hist demo0 demo_ops (fun x g log => negb (x_mcast x =? -1) && match rmc_pub_write x 0 (WrMcast [SndOk 3000]) with Ok (_, _, x', evs) =>
    match flat_map cast_kt evs with [(a, b)] => (a =? 3) && (b =? 3000) | _ => false end && Nat.eqb (length (queued x')) 0 && owesb x' 1 3 | _ => false end)) as (x & g & log & H & E); [vm_compute; reflexivity|].
  apply andb_prop in E. destruct E as [E0 E]. destruct (rmc_pub_write x 0 _) as [[[[code op] x'] evs]| | |] eqn:Ed; try discriminate E. exists x, g, log, x', evs, code, op.
  apply andb_prop in E. destruct E as [E E3]. apply andb_prop in E. destruct E as [E1 E2]. split; [exact H|]. split; [apply negb_true_iff in E0; lia|]. split; [exact Ed|].
  split. { destruct (flat_map cast_kt evs) as [|[a b] [|]]; try discriminate E1. apply andb_prop in E1. do 2 f_equal; lia. }
  apply Nat.eqb_eq in E2. split; [destruct (queued x'); [reflexivity|discriminate]|].
  unfold owesb, zinb in E3. apply existsb_exists in E3. destruct E3 as (k & Hk & Ek). apply Z.eqb_eq in Ek. subst k. exact Hk.
Qed.
Print Assumptions c46_data_valid. Print Assumptions c46_all_valid_partial. Print Assumptions c46_refuted. Print Assumptions c62_multicast_in_order.
Print Assumptions c63_loans_exact. Print Assumptions c64_nothing_forgotten. Print Assumptions c65_control_messages_partial. Print Assumptions c66_deactivate. Print Assumptions c67_multicast_write_exact.
