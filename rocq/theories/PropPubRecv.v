(** PropPubRecv.v — C75: what a publisher makes of the bytes received on a control channel. *)
From Coq Require Import Sorting.Permutation.
From Verif Require Import Base CircBuf CircBufProofs Wire SeqList Pub Proto SpecProto ProtoProofs
  Conn SpecConn ConnProofs PubCtx SpecPubCtx PubCtxProofs PropPubCtx SpecPubRecv PubRecv.

(** Let the bytes received since the connection was accepted split into the commands [cmds] and a
    rest.  The ack intervals seen are those among the commands, in order, and the rest is what
    is kept for the next read. *)
Theorem c75_acks_from_stream : forall x g log f i c cmds r, preached x g log f ->
  slot (x_vec x) i = Ok c -> c_mode c = CONNECTED -> parses for_pub (f i) cmds r ->
  s_acks (since_open i log) = acks_in cmds /\ contents (c_rbuf c) = r.
Proof.
  intros x g log f i c cmds r R Hs Hm P. destruct (preached_PRI x g log f R i c Hs Hm) as [_ _ _ (cmds0 & P0 & A)].
  destruct (parses_unique for_pub pub_next pub_next_complete _ _ _ _ _ P0 P) as [<- <-]. auto.
Qed.
(** The bytes always split that way, in one way only. *)
Theorem c75_stream_splits : forall x g log f i c, preached x g log f -> slot (x_vec x) i = Ok c -> c_mode c = CONNECTED ->
  exists cmds r, parses for_pub (f i) cmds r /\ forall cmds' r', parses for_pub (f i) cmds' r' -> cmds' = cmds /\ r' = r.
Proof.
  intros x g log f i c R Hs Hm. destruct (preached_PRI x g log f R i c Hs Hm) as [_ _ _ (cmds0 & P0 & A)]. exists cmds0, (contents (c_rbuf c)).
  split; [exact P0|]. intros cmds' r' P. destruct (parses_unique for_pub pub_next pub_next_complete _ _ _ _ _ P P0). auto.
Qed.
Theorem c75_ring_intact : forall x g log f i c, preached x g log f -> slot (x_vec x) i = Ok c -> c_mode c = CONNECTED ->
  cb_wf (c_rbuf c) /\ cb_size (c_rbuf c) = RMC_MAX_PACKET /\ bytes_ok (f i).
Proof. intros x g log f i c R Hs Hm. destruct (preached_PRI x g log f R i c Hs Hm) as [W Sz B _]. auto. Qed.

(** One more read completes the commands [cmds].  The packets in the ack intervals among these
    stop being owed by this subscriber and nothing else does, and exactly what nobody owes any
    more is released. *)
Theorem c75_read : forall x g log f i c bs cmds0 r0 cmds r, preached x g log f -> 0 <= i < 65536 ->
  slot (x_vec x) i = Ok c -> c_mode c = CONNECTED -> bytes_ok bs -> bs <> [] ->
  zlen (contents (c_rbuf c)) + zlen bs <= RMC_MAX_PACKET - 1 ->
  read_ok RMC_MAX_PACKET (cb_start (c_rbuf c)) (zlen (contents (c_rbuf c)) + zlen bs) ->
  parses for_pub (f i) cmds0 r0 -> parses for_pub (f i ++ bs) (cmds0 ++ cmds) r ->
  ctrls_ok RMC_MAX_PACKET (cb_start (c_rbuf c)) cmds ->
  (x_ccb x = FpUninit -> forall p, ~ In (CmdCtrl p) cmds) ->
  (forall a b, In (CmdAck a b) cmds -> a <= b -> b <> 18446744073709551615) ->
  exists code op x' evs, rmc_pub_read x i (RdTcp (RData bs)) = Ok (code, op, x', evs) /\
    (forall j k ts, 0 <= j -> owed x' j k ts <-> owed x j k ts /\ ~ (j = i /\ exists a b, In (CmdAck a b) cmds /\ a <= k <= b)) /\
    Permutation (map snd (flying x)) (map snd (flying x') ++ flat_map freed_ev evs).
Proof.
  intros x g log f i c bs cmds0 r0 cmds r R Hi Hs Hm Hb Hne Hl Hro P0 P Hc Hu Hmax.
  destruct (preached_PRI x g log f R i c Hs Hm) as [W Sz B (cmdsx & Px & _)].
  destruct (parses_unique for_pub pub_next pub_next_complete _ _ _ _ _ Px P0) as [-> Er]. 
  assert (Hbr : bytes_ok (contents (c_rbuf c))). { destruct Px as (E & _). rewrite E in B. apply Forall_app in B. exact (proj2 B). }
  destruct (parses_exists for_pub pub_next pub_next_sound pub_next_complete (S (length (contents (c_rbuf c) ++ bs))) (contents (c_rbuf c) ++ bs)) as (cmds2 & l & P2); [lia|apply Forall_app; auto|].
  pose proof (parses_app for_pub _ _ _ _ _ _ Px P2) as P3.
  destruct (parses_unique for_pub pub_next pub_next_complete _ _ _ _ _ P3 P) as [E3 ->]. apply app_inv_head in E3. subst cmds2.
  rewrite <- Sz in Hl, Hro, Hc.
  destruct (c38_read_exact x g log i c bs cmds r (preached_reached _ _ _ _ R) Hi Hs Hm W Hbr Hb Hne Hl Hro P2 Hc Hu Hmax) as (code & op & x' & evs & E & A1 & A2 & _).
  exists code, op, x', evs. auto.
Qed.

(** ** A concrete case: an ack arrives in two pieces *)
Definition pgoodb (x : pctx) (o : xop) : bool :=
  match o with
  | XRead i (RdTcp (RData bs)) =>
      match slot (x_vec x) i with
      | Ok c => let n := circ_buf_in_use (c_rbuf c) + zlen (ztake (circ_buf_available (c_rbuf c)) bs) in
                forallb (fun b => (0 <=? b) && (b <? 256)) bs && ((cb_start (c_rbuf c) <=? n + 1) || (RMC_MAX_PACKET <=? cb_start (c_rbuf c) + n)) &&
                (negb (ccb_set x) || (0 <=? cb_start (c_rbuf c)) && (cb_start (c_rbuf c) + zlen (contents (c_rbuf c)) + zlen (ztake (circ_buf_available (c_rbuf c)) bs) + 3 <=? RMC_MAX_PACKET))
      | _ => true
      end
  | _ => true
  end.
Lemma ctrls_inside size : forall cmds pos, 0 <= pos -> pos + zlen (flat_map wire cmds) + 3 <= size -> ctrls_ok size pos cmds.
Proof.
  induction cmds as [|c cmds IH]; intros pos H1 H2; [exact Logic.I|]. cbn [flat_map ctrls_ok] in *. rewrite zlen_app in H2.
  pose proof (wire_len c). pose proof (zlen_nonneg (flat_map wire cmds)). split.
  - destruct c as [| |p]; cbn [ctrl_ok]; auto. assert (L : zlen (wire (CmdCtrl p)) = 3 + zlen p) by (cbn [wire]; rewrite zlen_cons, zlen_app, enc_ctrl_zlen; lia).
    cbv zeta. pose proof (zlen_nonneg p). rewrite Z.mod_small by lia. lia.
  - rewrite Z.mod_small by lia. apply IH; lia.
Qed.
Lemma pgoodb_ok x o : pgoodb x o = true -> pread_good x o.
Proof.
  destruct o as [| | |i [|?|[|bs]]| | | | | | | |]; cbn [pgoodb pread_good]; intros H; try exact Logic.I.
  intros c Hs Hm Hb. rewrite Hs in H. apply andb_prop in H. destruct H as [H H2]. apply andb_prop in H. destruct H as [H0 H1].
  cbv zeta. split; [|split].
  - apply Forall_forall. intros b Hi. rewrite forallb_forall in H0. specialize (H0 b Hi). unfold is_u8. lia.
  - unfold read_ok. lia.
  - intros Hc cmds r P. rewrite Hc in H2. cbn [negb orb] in H2. apply andb_prop in H2. destruct H2 as [H2 H3]. apply Z.leb_le in H2, H3.
    destruct (parses_len _ _ _ _ P) as [L _]. rewrite zlen_app in L. pose proof (zlen_nonneg r). apply ctrls_inside; lia.
Qed.
Fixpoint rrun (x : pctx) (g : ghost) (log : list pev) (f : Z -> list Z) (ops : list xop) : option (pctx * ghost * list pev * (Z -> list Z)) :=
  match ops with
  | [] => Some (x, g, log, f)
  | o :: rest => if xokb x g o && pgoodb x o then
      match xstep x o with Ok (code, x', evs) => rrun x' (g_next g x o code evs) (log ++ evs) (rcv_next f x o evs) rest | _ => None end
    else None
  end.
Lemma rrun_hist x0 : forall ops x g log f pre y h l f', rhist x0 pre x g log f -> rrun x g log f ops = Some (y, h, l, f') -> rhist x0 (pre ++ ops) y h l f'.
Proof.
  induction ops as [|o ops IH]; intros x g log f pre y h l f' H; cbn [rrun]; [intros E; injection E as <- <- <- <-; rewrite app_nil_r; exact H|].
  destruct (xokb x g o && pgoodb x o) eqn:Ek; [|discriminate]. apply andb_prop in Ek. destruct Ek as [Ek Eg]. destruct (xstep x o) as [[[code x'] evs]| | |] eqn:Es; [|discriminate..]. intros E.
  replace (pre ++ o :: ops) with ((pre ++ [o]) ++ ops) by (rewrite <- app_assoc; reflexivity).
  eapply IH; [|exact E]. econstructor; [exact H|apply xokb_ok; exact Ek|apply pgoodb_ok; exact Eg|exact Es].
Qed.
Definition ack_ops : list xop :=
  demo_ops ++ [XRead 0 (RdTcp (RData (ztake 5 (wire (CmdAck 1 1))))); XRead 0 (RdTcp (RData (zdrop 5 (wire (CmdAck 1 1)) ++ [2; 2; 0])))].
Example c75_witness : exists x g log f c, rhist demo0 ack_ops x g log f /\ slot (x_vec x) 0 = Ok c /\ c_mode c = CONNECTED /\
  f 0 = wire (CmdAck 1 1) ++ [2; 2; 0] /\ s_acks (since_open 0 log) = [(1, 1)] /\ contents (c_rbuf c) = [2; 2; 0] /\ owes x 0 2 /\ ~ owes x 0 1.
Proof.
  destruct (rrun demo0 g_init [] (fun _ => []) ack_ops) as [[[[x g] log] f]|] eqn:E1; [|vm_compute in E1; discriminate E1].
  pose proof (rrun_hist demo0 _ demo0 g_init [] (fun _ => []) [] x g log f (rh_nil _) E1) as H1.
  assert (Hl : match slot (x_vec x) 0 with Ok c => c_mode c = CONNECTED /\ contents (c_rbuf c) = [2; 2; 0] | _ => False end /\
    f 0 = wire (CmdAck 1 1) ++ [2; 2; 0] /\ s_acks (since_open 0 log) = [(1, 1)] /\
    zinb 2 (map (pid_of (x_pub x)) (p_sinf (x_pub x) 0%nat)) = true /\ zinb 1 (map (pid_of (x_pub x)) (p_sinf (x_pub x) 0%nat)) = false).
  { vm_compute in E1. injection E1 as <- <- <- <-. vm_compute. auto 8. }
  destruct Hl as (L1 & L2 & L3 & L4 & L5). destruct (slot (x_vec x) 0) as [c| | |] eqn:Es; try contradiction. destruct L1 as [L0 L1].
  exists x, g, log, f, c. split; [exact H1|]. split; [exact Es|]. split; [exact L0|]. split; [exact L2|]. split; [exact L3|]. split; [exact L1|].
  split; [|exact (zinb_false _ _ L5)]. unfold owes. apply existsb_exists in L4. destruct L4 as (k & Hk & Ek). apply Z.eqb_eq in Ek. subst k. exact Hk.
Qed.

Print Assumptions c75_acks_from_stream.
Print Assumptions c75_stream_splits.
Print Assumptions c75_ring_intact.
Print Assumptions c75_read.
