(** PropSubCtx.v — theorems about subscriber contexts: datagrams, connections, dispatching and
    payload memory: C50-C54, C69-C71. *)
From Coq Require Import Sorting.Permutation.
From Verif Require Import Base CircBuf CircBufProofs Wire SeqList Sub SpecSub SubProofs SubTrace Proto SpecProto ProtoProofs
  Conn SpecConn ConnProofs SubCtx SpecSubCtx SubSteps SubMem SubDecomp SubInv.

(** ** Concrete histories *)
Definition bytesb (bs : list Z) : bool := forallb (fun b => (0 <=? b) && (b <? 256)) bs.
Definition u32b (z : Z) : bool := (0 <=? z) && (z <? 4294967296).
Definition mrecvb (m : mrecv) : bool :=
  match m with
  | McData src bs o => u32b src && bytesb bs && match mi_sock o with SockOk d _ _ => 0 <=? d | SockErr _ => true end
  | McErr e => negb (e =? 0) | McNone => true
  end.
Definition zin (z : Z) (l : list Z) : bool := existsb (Z.eqb z) l.
Definition ctrlb (p : list Z) (ptr : Z) : bool := bytesb p && (zlen p <? 65536) && (0 <=? ptr) && (ptr <? 18446744073709551616).
Definition yokb (x : sctx) (log : list sev) (o : yop) : bool :=
  match o with
  | YRead _ (SrMcast ins) => forallb mrecvb ins
  | YRead i (SrTcp o _) => (0 <=? i) && (i <? 65536) && match o with RData bs => bytesb bs | RErr => true end
  | YWrite i o => (0 <=? i) && (i <? 65536) && match sw_tcp o with WOk n => u32b n | WErr e => negb (e =? 0) end &&
                  match sw_cmp o with CmpErr e => negb (e =? 0) | CmpOk _ _ => true end
  | YClose i => (0 <=? i) && (i <? 65536)
  | YAppFree ptr => zin ptr (kept log)
  | YCtrl i p ptr => (0 <=? i) && ctrlb p ptr
  | YCtrlAddr _ _ p ptr | YCtrlNode _ p ptr => ctrlb p ptr
  | YActivate (SaBind d _) | YActivate (SaOk d) | YActivate (SaOpt d _) => 0 <=? d
  | _ => true
  end.
Definition rgoodb (x : sctx) (o : yop) : bool :=
  match o with
  | YRead i (SrTcp (RData bs) _) =>
      match slot (t_vec x) i with
      | Ok c => let n := circ_buf_in_use (c_rbuf c) + zlen (ztake (circ_buf_available (c_rbuf c)) bs) in
                (cb_start (c_rbuf c) <=? n + 1) || (RMC_MAX_PACKET <=? cb_start (c_rbuf c) + n)
      | _ => true
      end
  | _ => true
  end.
Lemma bytesb_ok bs : bytesb bs = true -> bytes_ok bs.
Proof. intros H. apply Forall_forall. intros b Hb. unfold bytesb in H. rewrite forallb_forall in H. specialize (H b Hb). unfold is_u8. lia. Qed.
Lemma zin_ok z l : zin z l = true -> In z l.
Proof. intros H. apply existsb_exists in H. destruct H as (y & Hy & E). apply Z.eqb_eq in E. subst. exact Hy. Qed.
Ltac bsplit := repeat match goal with H : _ && _ = true |- _ => apply andb_prop in H; destruct H end.
Lemma yokb_ok x log o : yokb x log o = true -> yok x log o.
Proof.
  destruct o as [i [ins|t ins]|i [cm [e|n]]|now|i|a k|ptr|i p ptr|a port p ptr|n p ptr|a b c|[e|d e|d e|d]|]; cbn [yokb yok sw_tcp sw_cmp]; intros H; bsplit; try exact Logic.I.
  - apply Forall_forall. intros m Hm. rewrite forallb_forall in H. specialize (H m Hm). destruct m as [|e|src bs o]; cbn [mrecvb mrecv_good] in *; bsplit; auto.
    + lia.
    + unfold u32b in *. split; [unfold is_u32; lia|]. split; [apply bytesb_ok; assumption|]. destruct (mi_sock o); cbn; auto. lia.
  - split; [lia|]. destruct t; [exact Logic.I|apply bytesb_ok; assumption].
  - split; [lia|]. split; [lia|]. destruct cm as [e'|]; [|exact Logic.I]. lia.
  - split; [lia|]. split; [unfold u32b, is_u32 in *; lia|]. destruct cm as [e|]; [|exact Logic.I]. lia.
  - lia.
  - apply zin_ok. exact H.
  - unfold ctrlb in *. bsplit. split; [lia|]. split; [apply bytesb_ok; assumption|]. unfold is_u16, is_u64. pose proof (zlen_nonneg p). lia.
  - unfold ctrlb in *. bsplit. split; [apply bytesb_ok; assumption|]. unfold is_u16, is_u64. pose proof (zlen_nonneg p). lia.
  - unfold ctrlb in *. bsplit. split; [apply bytesb_ok; assumption|]. unfold is_u16, is_u64. pose proof (zlen_nonneg p). lia.
  - lia.
  - lia.
  - lia.
Qed.
Lemma rgoodb_ok x o : rgoodb x o = true -> read_good x o.
Proof.
  destruct o as [i [ins|[|bs] ins]| | | | | | | | | | |]; cbn [rgoodb read_good]; intros H; try exact Logic.I.
  intros c Hs Hm Hb. rewrite Hs in H. unfold read_ok. apply orb_prop in H. destruct H; [left|right]; lia.
Qed.
Fixpoint yrun (x : sctx) (log : list sev) (ops : list yop) : option (sctx * list sev) :=
  match ops with
  | [] => Some (x, log)
  | o :: rest => if yokb x log o && rgoodb x o then
      match ystep x o with Ok (code, x', evs) => yrun x' (log ++ evs) rest | _ => None end
    else None
  end.
Lemma yrun_hist t x0 : forall ops x log pre y l, yhist t x0 pre x log -> yrun x log ops = Some (y, l) -> yhist t x0 (pre ++ ops) y l.
Proof.
  induction ops as [|o ops IH]; intros x log pre y l H; cbn [yrun]; [intros E; injection E as <- <-; rewrite app_nil_r; exact H|].
  destruct (yokb x log o && rgoodb x o) eqn:Ek; [|discriminate]. apply andb_prop in Ek. destruct Ek as [Ek Er].
  destruct (ystep x o) as [[[code x'] evs]| | |] eqn:Es; [|discriminate..]. intros E.
  replace (pre ++ o :: ops) with ((pre ++ [o]) ++ ops) by (rewrite <- app_assoc; reflexivity).
  eapply IH; [|exact E]. econstructor; [exact H|apply yokb_ok; exact Ek|intros _; apply rgoodb_ok; exact Er|exact Es].
Qed.
Definition ycheck (x0 : sctx) (ops : list yop) (f : sctx -> list sev -> bool) : bool :=
  match yrun x0 [] ops with Some (x, log) => f x log | None => false end.
Lemma ycheck_hist t x0 ops f : ycheck x0 ops f = true -> exists x log, yhist t x0 ops x log /\ f x log = true.
Proof.
  unfold ycheck. destruct (yrun x0 [] ops) as [[x log]|] eqn:E; [|discriminate]. intros H. exists x, log.
  split; [|exact H]. exact (yrun_hist t x0 ops x0 [] [] x log (yh_nil t x0) E).
Qed.
Definition sblank : conn := mkConn 0 0 0 (mkCB 0 0 0 (fun _ => 0)) (mkCB 0 0 0 (fun _ => 0)) 0 0 0.
Definition sdemo0 : sctx := rmc_sub_init_context 9 [sblank; sblank; sblank] (fun _ => None).
Lemma sdemo0_fresh : fresh_sub sdemo0.
Proof. exists 9, [sblank; sblank; sblank], (fun _ => None). split; [reflexivity|]. unfold RMC_LISTEN_INDEX. cbn. lia. Qed.
(** Datagrams of the publisher at 1.2.3.4:4711 (node 7). *)
Definition dgram (pid : Z) (bs : list Z) : list Z := enc_header (Wire.mkHdr pid 7 (zlen bs) 0 4711) ++ bs.
Definition no_acc : accin := mkAi 0 0 [].
Definition ann (d : Z) : mrecv := McData 77 (dgram 0 [65]) (mkMi true (SockOk d false EINPROGRESS) no_acc).
Definition data (pid : Z) (bs : list Z) (ptr now : Z) (ops : list (nat * bool)) : mrecv :=
  McData 77 (dgram pid bs) (mkMi true (SockErr 1) (mkAi ptr now ops)).
Definition mcast_in (l : list mrecv) : yop := YRead RMC_MULTICAST_INDEX (SrMcast l).
Definition establish (i : Z) : yop := YWrite i (mkSw (CmpOk 0 0) (WErr 1)).
(** One publisher, connected; packets 5 and 7 received by multicast. *)
Definition sdemo_ops : list yop :=
  [YActivate (SaOk 3); mcast_in [ann 4]; establish 0; mcast_in [data 5 [50; 51] 100 1000 []; data 7 [70] 200 1100 []]].
Example sdemo_ok : exists x log, yhist true sdemo0 sdemo_ops x log /\
  map sk_pid (t_ready x) = [5] /\ map sk_pid (waiting x 0) = [7] /\ map iv_first (pending_acks x 0) = [5; 7].
Proof.
  destruct (ycheck_hist true sdemo0 sdemo_ops (fun x log =>
    match map sk_pid (t_ready x), map sk_pid (waiting x 0), map iv_first (pending_acks x 0) with [a], [b], [c; d] => (a =? 5) && (b =? 7) && (c =? 5) && (d =? 7) | _, _, _ => false end))
    as (x & log & H & E); [vm_compute; reflexivity|].
  exists x, log. split; [exact H|]. destruct (map sk_pid (t_ready x)) as [|a [|]]; try discriminate E.
  destruct (map sk_pid (waiting x 0)) as [|b [|]]; try discriminate E. destruct (map iv_first (pending_acks x 0)) as [|c [|d [|]]]; try discriminate E.
  bsplit. repeat split; f_equal; try lia. f_equal. lia.
Qed.

(** ** C52. Malformed datagrams *)
Lemma length_dec d : zlen d >= 20 -> h_len (dec_header d) = length_field d.
Proof.
  intros H. unfold dec_header, length_field. cbn [h_len]. do 14 (destruct d as [|? d]; [cbn in H; lia|]). cbn [skipn firstn nth le_val]. lia.
Qed.
Lemma malformed_dec d : malformed d <-> zlen d < header_size \/ zlen d < header_size + h_len (dec_header d).
Proof.
  unfold malformed, header_size. destruct (Z_lt_ge_dec (zlen d) 20) as [L|L]; [intuition|]. rewrite length_dec by exact L. intuition.
Qed.
Lemma process_malformed x src d o : malformed d -> process_multicast_read x src d o = Ok (EPROTO, None, x, []).
Proof.
  intros H. apply malformed_dec in H. unfold process_multicast_read. destruct (Z.ltb_spec (zlen d) header_size) as [L|L]; [reflexivity|].
  cbv zeta. destruct (Z.ltb_spec (zlen d) (header_size + h_len (dec_header d))); [reflexivity|]. lia.
Qed.
Theorem c52_malformed_refused : forall x i src bs o rest, t_mcast x <> -1 -> malformed (seen bs) ->
  rmc_sub_read x i (SrMcast (McData src bs o :: rest)) =
    Ok (EPROTO, RMC_ERROR, x, [SvDgram src (seen bs); SvConn (EvMod (t_mcast x) RMC_MULTICAST_INDEX POLLREAD POLLREAD)]).
Proof.
  intros x i src bs o rest Hm H. cbn [rmc_sub_read]. unfold multicast_read. replace (t_mcast x =? -1) with false by lia.
  cbn [mread_loop]. cbv zeta. fold (seen bs). rewrite (process_malformed x src (seen bs) o H). reflexivity.
Qed.
Lemma process_code x src d o code op x' evs : process_multicast_read x src d o = Ok (code, op, x', evs) ->
  (malformed d /\ code = EPROTO) \/ (~ malformed d /\ code = 0).
Proof.
  intros E. destruct (Z_lt_ge_dec (zlen d) header_size) as [L|L].
  { left. assert (H : malformed d) by (apply malformed_dec; auto). split; [exact H|]. rewrite (process_malformed x src d o H) in E. congruence. }
  destruct (Z_lt_ge_dec (zlen d) (header_size + h_len (dec_header d))) as [L2|L2].
  { left. assert (H : malformed d) by (apply malformed_dec; auto). split; [exact H|]. rewrite (process_malformed x src d o H) in E. congruence. }
  right. split; [rewrite malformed_dec; lia|]. unfold process_multicast_read in E. replace (zlen d <? header_size) with false in E by lia.
  cbv zeta in E. replace (zlen d <? header_size + h_len (dec_header d)) with false in E by lia.
  set (h := if h_ip (dec_header d) =? 0 then _ else _) in E. set (pl := ztake _ _) in E.
  destruct (find_by_address _ _ _) as [[i|]| | |]; cbn [bind] in E; [|destruct (decode_unsubscribed x h pl o) as [q| | |]; cbn [bind] in E; try discriminate E; congruence|discriminate E..].
  destruct (slot (t_vec x) i) as [c| | |]; cbn [bind] in E; [|discriminate E..].
  destruct (c_mode c =? CONNECTING); [destruct (decode_unsubscribed x h pl o) as [q| | |]|destruct (decode_subscribed x i h pl (mi_acc o)) as [q| | |]];
    cbn [bind] in E; try discriminate E; congruence.
Qed.
Lemma mread_proto ins : forall x op op' x' evs, mread_loop x op ins = Ok (EPROTO, op', x', evs) -> ~ In (McErr EPROTO) ins ->
  exists ins1 src bs o rest evs1, ins = ins1 ++ McData src bs o :: rest /\ malformed (seen bs) /\
    mread_loop x op ins1 = Ok (EAGAIN, op', x', evs1) /\ evs = evs1 ++ [SvDgram src (seen bs)].
Proof.
  induction ins as [|m ins IH]; intros x op op' x' evs E N; cbn [mread_loop] in E; [discriminate E|].
  destruct m as [|e|src bs o]; [discriminate E|exfalso; apply N; left; congruence|].
  cbv zeta in E. fold (seen bs) in E. destruct (process_multicast_read x src (seen bs) o) as [[[[code op1] x1] evs0]| | |] eqn:Ep; cbn [bind] in E; [|discriminate E..].
  destruct (process_code _ _ _ _ _ _ _ _ Ep) as [[Hm ->]|[Hm ->]].
  - change (negb (EPROTO =? 0)) with true in E. rewrite (process_malformed x src (seen bs) o Hm) in Ep. injection Ep as <- <- <-.
    exists [], src, bs, o, ins, []. split; [reflexivity|]. split; [exact Hm|]. cbn. injection E as <- <- <-. auto.
  - change (negb (0 =? 0)) with false in E.
    destruct (mread_loop x1 (match op1 with Some v => v | None => op end) ins) as [[[[code2 op3] x2] evs2]| | |] eqn:El; cbn [bind] in E; [|discriminate E..].
    injection E as -> <- <- <-. destruct (IH _ _ _ _ _ El) as (ins1 & src1 & bs1 & o1 & rest & evs1 & -> & H1 & H2 & ->); [intros H; apply N; right; exact H|].
    exists (McData src bs o :: ins1), src1, bs1, o1, rest, (SvDgram src (seen bs) :: evs0 ++ evs1). split; [reflexivity|]. split; [exact H1|].
    cbn [mread_loop]. cbv zeta. fold (seen bs). rewrite Ep. cbn [bind]. change (negb (0 =? 0)) with false. rewrite H2. cbn [bind]. split; [reflexivity|].
    cbn [app]. rewrite <- app_assoc. reflexivity.
Qed.
(** The read of the multicast socket reports EPROTO only for a malformed datagram, and leaves the
    state as it is after reading just the datagrams before it. *)
Theorem c52_refused_only_if_malformed : forall x i ins op x' evs, ~ In (McErr EPROTO) ins ->
  rmc_sub_read x i (SrMcast ins) = Ok (EPROTO, op, x', evs) ->
  exists ins1 src bs o rest evs1, ins = ins1 ++ McData src bs o :: rest /\ malformed (seen bs) /\
    rmc_sub_read x i (SrMcast ins1) = Ok (0, op, x', evs1).
Proof.
  intros x i ins op x' evs N E. cbn [rmc_sub_read] in E. unfold multicast_read in E. destruct (Z.eqb_spec (t_mcast x) (-1)) as [Hm|Hm]; [discriminate E|].
  destruct (mread_loop x RMC_ERROR ins) as [[[[code op1] x1] evs1]| | |] eqn:El; cbn [bind] in E; [|discriminate E..].
  destruct (Z.eqb_spec code EAGAIN) as [Ec|Ec]; [discriminate E|]. injection E as -> <- <- <-.
  destruct (mread_proto _ _ _ _ _ _ El N) as (ins1 & src & bs & o & rest & evs0 & -> & H1 & H2 & _).
  exists ins1, src, bs, o, rest, (evs0 ++ [SvConn (EvMod (t_mcast x) RMC_MULTICAST_INDEX POLLREAD POLLREAD)]). split; [reflexivity|]. split; [exact H1|].
  cbn [rmc_sub_read]. unfold multicast_read. replace (t_mcast x =? -1) with false by lia. rewrite H2. reflexivity.
Qed.
(** Well formed datagrams are never refused. *)
Theorem c52_wellformed_accepted : forall ins x i code op x' evs, t_mcast x <> -1 -> rmc_sub_read x i (SrMcast ins) = Ok (code, op, x', evs) ->
  (forall m, In m ins -> exists src bs o, m = McData src bs o /\ ~ malformed (seen bs)) -> code = 0.
Proof.
  intros ins x i code op x' evs Hm E W. cbn [rmc_sub_read] in E. unfold multicast_read in E. replace (t_mcast x =? -1) with false in E by lia.
  destruct (mread_loop x RMC_ERROR ins) as [[[[c1 op1] x1] evs1]| | |] eqn:El; cbn [bind] in E; [|discriminate E..].
  assert (c1 = EAGAIN); [|subst c1; change (EAGAIN =? EAGAIN) with true in E; congruence]. clear E. revert El. generalize RMC_ERROR at 1 as o0.
  clear Hm. revert x c1 op1 x1 evs1. induction ins as [|m ins IH]; intros x c1 op1 x1 evs1 o0 El; cbn [mread_loop] in El; [congruence|].
  destruct (W m (or_introl eq_refl)) as (src & bs & o & -> & Wm). cbv zeta in El. fold (seen bs) in El.
  destruct (process_multicast_read x src (seen bs) o) as [[[[code2 op2] x2] evs2]| | |] eqn:Ep; cbn [bind] in El; [|discriminate El..].
  destruct (process_code _ _ _ _ _ _ _ _ Ep) as [[Hm _]|[_ ->]]; [contradiction|]. change (negb (0 =? 0)) with false in El.
  destruct (mread_loop x2 _ ins) as [[[[code3 op3] x3] evs3]| | |] eqn:El2; cbn [bind] in El; [|discriminate El..].
  injection El as <- <- <- <-. apply (IH (fun m Hm => W m (or_intror Hm)) _ _ _ _ _ _ El2).
Qed.
Example c52_witness : exists x log, yhist true sdemo0 sdemo_ops x log /\ malformed (seen (ztake 21 (dgram 8 [80; 81]))) /\
  ~ malformed (seen (dgram 8 [80; 81])) /\
  rmc_sub_read x RMC_MULTICAST_INDEX (SrMcast [McData 77 (ztake 21 (dgram 8 [80; 81])) (mkMi true (SockErr 1) (mkAi 300 1 []))]) =
    Ok (EPROTO, RMC_ERROR, x, [SvDgram 77 (ztake 21 (dgram 8 [80; 81])); SvConn (EvMod 3 RMC_MULTICAST_INDEX POLLREAD POLLREAD)]).
Proof.
  destruct (ycheck_hist true sdemo0 sdemo_ops (fun x log => t_mcast x =? 3)) as (x & log & H & E); [vm_compute; reflexivity|]. apply Z.eqb_eq in E.
  exists x, log. split; [exact H|].
  assert (M : malformed (seen (ztake 21 (dgram 8 [80; 81])))) by (right; vm_compute; reflexivity).
  split; [exact M|]. split; [intros [W|W]; vm_compute in W; discriminate W|].
  rewrite c52_malformed_refused; [|rewrite E; discriminate|exact M]. rewrite E. reflexivity.
Qed.

(** ** C53. Datagrams from unsubscribed publishers *)
(** What a packet acceptance leaves in the log. *)
Definition late (i : Z) (e : sev) : Prop :=
  match e with SvPut j _ _ => j = i | SvReady | SvTake _ _ | SvFree _ _ => True | _ => False end.
Lemma frees_late l : forall m r i, free_payloads m l = Ok r -> Forall (late i) (snd r).
Proof.
  induction l as [|[p n] l IH]; intros m r i E; cbn [free_payloads] in E; [injection E as <-; constructor|].
  destruct (m p); [|discriminate E]. destruct (free_payloads (tupd m p None) l) as [q| | |] eqn:Eq; cbn [bind] in E; [|discriminate E..].
  injection E as <-. cbn [snd]. constructor; [exact Logic.I|exact (IH _ _ i Eq)].
Qed.
Definition same_cfg (x x' : sctx) : Prop :=
  t_vec x' = t_vec x /\ t_mcast x' = t_mcast x /\ t_acb x' = t_acb x /\ t_ccb x' = t_ccb x /\ t_rcb x' = t_rcb x /\ t_ato x' = t_ato x.
Lemma taken_late x a keep code x' evs i : rmc_sub_packet_dispatched x a keep = Ok (code, x', evs) -> Forall (late i) evs /\ same_cfg x x' /\ t_pubs x' = t_pubs x /\ t_ack x' = t_ack x.
Proof.
  unfold rmc_sub_packet_dispatched, dispatched_keep_payload. destruct (unlink_packet a (t_ready x)) as [[p r]|].
  - destruct keep; [intros E; injection E as <- <- <-; unfold same_cfg; split; [constructor; [exact Logic.I|constructor]|cbn; auto 10]|].
    destruct (free_payloads _ _) as [f| | |] eqn:Ef; cbn [bind]; [|discriminate..]. intros E. injection E as <- <- <-.
    split; [constructor; [exact Logic.I|exact (frees_late _ _ _ i Ef)]|]. unfold same_cfg. cbn. auto 10.
  - intros E. injection E as <- <- <-. split; [constructor|]. unfold same_cfg. auto 10.
Qed.
Lemma ready_late ops : forall x x' evs i, ready_cb x ops = Ok (x', evs) -> Forall (late i) evs /\ same_cfg x x' /\ t_pubs x' = t_pubs x /\ t_ack x' = t_ack x.
Proof.
  induction ops as [|[a k] ops IH]; intros x x' evs i E; cbn [ready_cb] in E; [injection E as <- <-; split; [constructor|]; unfold same_cfg; auto 10|].
  destruct (rmc_sub_packet_dispatched x a k) as [[[c x1] e1]| | |] eqn:E1; cbn [bind] in E; [|discriminate E..].
  destruct (ready_cb x1 ops) as [[x2 e2]| | |] eqn:E2; cbn [bind fst snd] in E; [|discriminate E..]. injection E as <- <-.
  destruct (taken_late _ _ _ _ _ _ i E1) as (L1 & (C1 & C2 & C3 & C4 & C5 & C6) & P1 & A1).
  destruct (IH _ _ _ i E2) as (L2 & (D1 & D2 & D3 & D4 & D5 & D6) & P2 & A2).
  split; [apply Forall_app; auto|]. unfold same_cfg. repeat split; congruence.
Qed.
Lemma accept_shape x i pid bs mc o x' evs : accept_packet x i pid bs mc o = Ok (x', evs) ->
  exists tail, evs = SvAlloc (ai_ptr o) (zlen bs) :: SvGot i pid mc bs :: tail /\ Forall (late i) tail /\ same_cfg x x'.
Proof.
  unfold accept_packet. destruct (_ || _); [discriminate|]. set (x1 := set_tmem x _). intros E.
  destruct (if mc then _ else _) as [x2| | |] eqn:E2; cbn [bind] in E; [|discriminate E..].
  assert (C2 : same_cfg x x2).
  { destruct mc; [unfold rmc_sub_packet_received in E2|unfold tcp_packet_received in E2];
      (destruct (get_spub x1 i) as [s| | |]; cbn [bind] in E2; [|discriminate E2..]; cbv zeta in E2).
    - assert (E3 : x2 = set_tfresh (put_spub (if sub_oldest_unacked s =? 0 then set_tack x1 (seq_insert_sorted_rev (ack_compare x1) i (t_ack x1)) else x1) i
          (sub_received s (mkSK (t_fresh x1) (Z.to_nat i) pid (ai_ptr o) (zlen bs) i) true (ai_now o))) (S (t_fresh x1))) by congruence.
      rewrite E3. destruct (sub_oldest_unacked s =? 0); unfold same_cfg; cbn; auto 10.
    - assert (E3 : x2 = set_tfresh (put_spub x1 i (sub_received s (mkSK (t_fresh x1) (Z.to_nat i) pid (ai_ptr o) (zlen bs) i) false (ai_now o))) (S (t_fresh x1))) by congruence.
      rewrite E3. unfold same_cfg; cbn; auto 10. }
  unfold process_received in E. destruct (get_spub x2 i) as [s| | |]; cbn [bind] in E; [|discriminate E..].
  destruct (sub_process s) as [s' out]. cbn [bind fst snd] in E. set (puts := map _ out) in E.
  assert (Lp : Forall (late i) puts) by (unfold puts; clear; induction out; constructor; cbn; auto).
  set (x3 := set_tready (put_spub x2 i s') (t_ready x2 ++ out)) in E.
  assert (C3 : same_cfg x x3) by exact C2.
  destruct (t_rcb x && _).
  - destruct (ready_cb x3 (ai_ops o)) as [[x4 e4]| | |] eqn:E4; cbn [bind fst snd] in E; [|discriminate E..]. injection E as <- <-.
    destruct (ready_late _ _ _ _ i E4) as (L4 & (D1 & D2 & D3 & D4 & D5 & D6) & _). exists (puts ++ SvReady :: e4). split; [reflexivity|]. split.
    + apply Forall_app. split; [exact Lp|]. constructor; [exact Logic.I|exact L4].
    + destruct C3 as (C3a & C3b & C3c & C3d & C3e & C3f). unfold same_cfg. repeat split; congruence.
  - injection E as <- <-. exists puts. split; [reflexivity|]. split; [exact Lp|exact C3].
Qed.

(** One datagram. *)
Definition carried (d : list Z) : list Z := ztake (h_len (dec_header d)) (zdrop header_size d).
Lemma find_leads x ap : BI x ->
  (exists i c, find_by_address (t_vec x) (fst ap) (snd ap) = Ok (Some i) /\ leads x i c ap /\
     forall j d, 0 <= j < i -> ~ leads x j d ap) \/
  (find_by_address (t_vec x) (fst ap) (snd ap) = Ok None /\ forall j d, ~ leads x j d ap).
Proof.
  intros B. pose proof (tv_size _ (bi_vec x B)) as Sz. unfold find_by_address.
  assert (Q : forall j d, leads x j d ap <-> slot (t_vec x) j = Ok d /\ (negb (c_desc d =? -1) && (fst ap =? c_addr d) && (snd ap =? c_port d)) = true).
  { intros j d. unfold leads. split.
    - intros (H1 & H2 & <-). cbn [fst snd]. split; [exact H1|]. destruct (tv_mode _ (bi_vec x B) j d H1) as (D & _).
      rewrite !Z.eqb_refl, !andb_true_r. destruct (Z.eqb_spec (c_desc d) (-1)) as [E|E]; [apply D in E; contradiction|reflexivity].
    - intros [H1 H2]. split; [exact H1|]. destruct (tv_mode _ (bi_vec x B) j d H1) as (D & _). bsplit. split; [intros E; apply D in E; lia|].
      rewrite (surjective_pairing ap). f_equal; lia. }
  destruct (find_conn_spec (t_vec x) (fun c => negb (c_desc c =? -1) && (fst ap =? c_addr c) && (snd ap =? c_port c)) (tv_max _ (bi_vec x B)))
    as [(i & c & E & Hs & Hp & F)|[E F]].
  { unfold RMC_LISTEN_INDEX, RMC_NIL_INDEX in *. lia. }
  { intros c Hc. lia. }
  - left. exists i, c. split; [exact E|]. split; [apply Q; auto|]. intros j d Hj Hl. apply Q in Hl. destruct Hl as [H1 H2]. rewrite (F j d Hj H1) in H2. discriminate H2.
  - right. split; [exact E|]. intros j d Hl. apply Q in Hl. destruct Hl as [H1 H2]. rewrite (F j d H1) in H2. discriminate H2.
Qed.
Lemma leads_established x i c ap : BI x -> leads x i c ap -> c_mode c <> CONNECTING -> sconnected x i c.
Proof. intros B (H1 & H2 & _) N. split; [exact H1|]. destruct (tv_mode _ (bi_vec x B) i c H1) as (_ & _ & [D|[D|D]]); [contradiction|contradiction|exact D]. Qed.
(** A well formed datagram is handled like this. *)
Lemma process_cases x src d o : BI x -> ~ malformed d ->
  let ap := origin src d in let k := h_pid (dec_header d) in
  (exists i c, leads x i c ap /\ c_mode c = CONNECTED /\ (forall j e, 0 <= j < i -> ~ leads x j e ap) /\
     process_multicast_read x src d o =
       (if k =? 0 then Ok (0, Some RMC_READ_MULTICAST, x, []) else
        do s <- get_spub x i; if sub_is_duplicate s k then Ok (0, Some RMC_READ_MULTICAST, x, []) else
        do r <- accept_packet x i k (carried d) true (mi_acc o); Ok (0, Some RMC_READ_MULTICAST, fst r, snd r))) \/
  (((exists i c, leads x i c ap /\ c_mode c = CONNECTING /\ forall j e, 0 <= j < i -> ~ leads x j e ap) \/ (forall j e, ~ leads x j e ap)) /\
     process_multicast_read x src d o =
       (if negb (k =? 0) then Ok (0, Some RMC_READ_MULTICAST_NOT_READY, x, []) else
        let evs := if t_acb x then [SvAnnounce (fst ap) (snd ap) (h_node (dec_header d)) (carried d)] else [] in
        if (if t_acb x then mi_answer o else true) then
          do r <- connect_tcp (t_vec x) (fst ap) (snd ap) (h_node (dec_header d)) (mi_sock o);
          let '(_, _, v, ce) := r in Ok (0, Some RMC_READ_MULTICAST_NOT_READY, set_tvec x v, evs ++ map SvConn ce)
        else Ok (0, Some RMC_READ_MULTICAST_NOT_READY, x, evs))).
Proof.
  intros B W ap k. rewrite malformed_dec in W. unfold process_multicast_read.
  replace (zlen d <? header_size) with false by lia. cbv zeta. replace (zlen d <? header_size + h_len (dec_header d)) with false by lia.
  set (h := if h_ip (dec_header d) =? 0 then _ else _).
  assert (Eh : h_pid h = k /\ h_len h = h_len (dec_header d) /\ h_node h = h_node (dec_header d) /\ h_port h = snd ap /\ h_ip h = fst ap).
  { unfold h, ap, k, origin. destruct (h_ip (dec_header d) =? 0); cbn; auto. }
  destruct Eh as (E1 & E2 & E3 & E4 & E5). unfold decode_unsubscribed, decode_subscribed. rewrite E1, E2, E3, E4, E5. fold (carried d).
  destruct (find_leads x ap B) as [(i & c & Ef & Hl & Hf)|[Ef Hn]]; rewrite Ef; cbn [bind].
  - destruct Hl as (H1 & H2 & H3). rewrite H1. cbn [bind]. destruct (Z.eqb_spec (c_mode c) CONNECTING) as [Em|Em].
    + right. split; [left; exists i, c; split; [split; auto|auto]|].
      destruct (negb (k =? 0)); [reflexivity|]. cbv zeta. destruct (if t_acb x then mi_answer o else true); [|reflexivity].
      destruct (connect_tcp _ _ _ _ _) as [[[[? ?] ?] ?]| | |]; reflexivity.
    + left. exists i, c. assert (Hm : c_mode c = CONNECTED).
      { exact (proj2 (leads_established x i c ap B (conj H1 (conj H2 H3)) Em)). }
      split; [split; auto|]. split; [exact Hm|]. split; [exact Hf|]. destruct (k =? 0); [reflexivity|].
      destruct (get_spub x i) as [s| | |]; [|reflexivity..]. cbn [bind]. destruct (sub_is_duplicate s k); reflexivity.
  - right. split; [right; exact Hn|].
    destruct (negb (k =? 0)); [reflexivity|]. cbv zeta. destruct (if t_acb x then mi_answer o else true); [|reflexivity].
    destruct (connect_tcp _ _ _ _ _) as [[[[? ?] ?] ?]| | |]; reflexivity.
Qed.
Lemma connect_effect x ap node o code i v ce : BI x -> sock_good o -> connect_tcp (t_vec x) (fst ap) (snd ap) node o = Ok (code, i, v, ce) ->
  (forall j c, sconnected (set_tvec x v) j c <-> sconnected x j c) /\
  (forall j c q, leads x j c q -> leads (set_tvec x v) j c q) /\
  (forall d j a, In (EvAdd d j a) ce -> exists c, leads (set_tvec x v) j c ap /\ c_mode c = CONNECTING /\ c_desc c = d) /\
  (forall j c q, leads (set_tvec x v) j c q -> leads x j c q \/ (c_mode c = CONNECTING /\ q = ap /\ In (EvAdd (c_desc c) j POLLWRITE) ce)) /\
  (forall j c k e q, leads (set_tvec x v) j c q -> leads (set_tvec x v) k e q -> j = k \/ leads x j c q \/ leads x k e q).
Proof.
  intros B Ho E. pose proof (tv_size _ (bi_vec x B)) as Sz.
  destruct (connect_cases (t_vec x) (fst ap) (snd ap) node o) as [[_ E']|(n & c & _ & Hs & Hd & E')]; [unfold RMC_LISTEN_INDEX, RMC_NIL_INDEX in *; lia| |].
  - rewrite E in E'. injection E' as -> -> -> ->. rewrite set_tvec_id. split; [reflexivity|]. split; [auto|]. split; [intros ? ? ? []|]. auto.
  - pose proof (slot_range _ _ _ Hs) as R. destruct (tv_mode _ (bi_vec x B) n c Hs) as (D1 & _). assert (Hm : c_mode c = CLOSED) by tauto.
    assert (K : forall w c', v_conns w = v_conns (put_slot (t_vec x) n c') -> c_mode c' = CLOSED ->
      (forall j d q, leads (set_tvec x w) j d q <-> leads x j d q) /\ (forall j d, sconnected (set_tvec x w) j d <-> sconnected x j d)).
    { intros w c' Ev Hm'. assert (S1 : slot w n = Ok c') by (rewrite (slot_conns _ _ n Ev); apply slot_put_same; exact R).
      assert (S2 : forall j, j <> n -> slot w j = slot (t_vec x) j) by (intros j N; rewrite (slot_conns _ _ j Ev); apply slot_put_other; [lia|exact N]).
      unfold leads, sconnected. cbn [set_tvec t_vec]. split; intros j d; [intros q|]; (destruct (Z.eq_dec j n) as [->|N]; [|rewrite S2 by exact N; reflexivity]).
      - split; intros (H1 & H2 & H3); [rewrite S1 in H1|rewrite Hs in H1]; assert (d = c' \/ d = c) as [-> | ->] by (injection H1 as <-; auto); congruence.
      - split; intros (H1 & H2); [rewrite S1 in H1|rewrite Hs in H1]; injection H1 as <-; rewrite H2 in *; discriminate. }
    destruct o as [e|d ok errno].
    + rewrite E in E'. assert (Ev : v = put_slot (bumped (t_vec x) n) n (set_desc c (-1))) by congruence. assert (Ece : ce = []) by congruence. subst ce.
      destruct (K v (set_desc c (-1))) as [K1 K2]; [rewrite Ev; unfold put_slot; cbn [v_conns]; rewrite bumped_conns; reflexivity|exact Hm|].
      split; [exact K2|]. split; [intros j c0 q Hq; apply K1; exact Hq|]. split; [intros ? ? ? []|].
      split; [intros j c0 q Hq; left; apply K1; exact Hq|]. intros j c0 k e0 q Hq _. right. left. apply K1. exact Hq.
    + destruct E' as [(_ & _ & E')|(_ & E')]; rewrite E in E'.
      * set (c' := mkConn (c_action c) (-1) node (c_rbuf c) (c_wbuf c) (c_mode c) (c_port c) (fst ap)) in *.
        assert (Ev : v = reset_max (put_slot (bumped (t_vec x) n) n c')) by congruence. assert (Ece : ce = [EvOpen d; EvClose d]) by congruence. subst ce.
        destruct (K v c') as [K1 K2]; [rewrite Ev; unfold put_slot, reset_max, set_max; cbn [v_conns]; rewrite bumped_conns; reflexivity|exact Hm|].
        split; [exact K2|]. split; [intros j c0 q Hq; apply K1; exact Hq|]. split; [intros ? ? ? [H|[H|[]]]; discriminate H|].
        split; [intros j c0 q Hq; left; apply K1; exact Hq|]. intros j c0 k e0 q Hq _. right. left. apply K1. exact Hq.
      * destruct (TV_connect (t_vec x) n c d (fst ap) (snd ap) node POLLWRITE (bi_vec x B) Hs Hd Ho) as (_ & S1 & S2 & _ & _ & _).
        set (c' := mkConn POLLWRITE d node (c_rbuf c) (c_wbuf c) CONNECTING (snd ap) (fst ap)) in *.
        set (w := set_active (put_slot (bumped (t_vec x) n) n c') (u16 (v_active (t_vec x) + 1))) in *.
        assert (Ev : v = w) by congruence. assert (Ece : ce = [EvOpen d; EvAdd d n POLLWRITE]) by congruence. rewrite Ev, Ece.
        assert (L : leads (set_tvec x w) n c' ap).
        { split; [exact S1|]. split; [discriminate|]. unfold c'. cbn. symmetry. apply surjective_pairing. }
        assert (O : forall j c0 q, j <> n -> (leads (set_tvec x w) j c0 q <-> leads x j c0 q)).
        { intros j c0 q N. unfold leads. cbn [set_tvec t_vec]. rewrite S2 by exact N. reflexivity. }
        split.
        { intros j c0. unfold sconnected. cbn [set_tvec t_vec]. destruct (Z.eq_dec j n) as [->|N]; [|rewrite S2 by exact N; reflexivity].
          rewrite S1, Hs. split; intros [H1 H2]; injection H1 as <-; [discriminate H2|rewrite H2 in Hm; discriminate Hm]. }
        split.
        { intros j c0 q Hq. destruct (Z.eq_dec j n) as [->|N]; [|apply O; assumption]. destruct Hq as (H1 & H2 & _). rewrite Hs in H1. injection H1 as <-. contradiction. }
        split; [intros d0 j a [H|[H|[]]]; [discriminate H|injection H as <- <- <-; exists c'; auto]|]. split.
        { intros j c0 q Hq. destruct (Z.eq_dec j n) as [->|N]; [|left; apply O; assumption]. right. destruct Hq as (H1 & H2 & H3). cbn [set_tvec t_vec] in H1.
          rewrite S1 in H1. injection H1 as <-. split; [reflexivity|]. split; [|right; left; reflexivity]. rewrite <- H3. unfold c'. cbn. symmetry. apply surjective_pairing. }
        { intros j c0 k e0 q Hq Hq2. destruct (Z.eq_dec j n) as [->|N]; [|right; left; apply (O j c0 q N); exact Hq].
          destruct (Z.eq_dec k n) as [->|N2]; [left; reflexivity|right; right; apply (O k e0 q N2); exact Hq2]. }
Qed.

(** What the datagrams of one read may do. *)
Record mfacts (x : sctx) (ins : list mrecv) (x' : sctx) (evs : list sev) : Prop := mkMF {
  mf_conn : forall j c, sconnected x' j c <-> sconnected x j c;
  mf_leads : forall j c q, leads x j c q -> leads x' j c q;
  mf_cfg : t_acb x' = t_acb x /\ t_ccb x' = t_ccb x /\ t_rcb x' = t_rcb x /\ t_mcast x' = t_mcast x;
  mf_got : forall j k mc bs, In (SvGot j k mc bs) evs -> mc = true /\ exists c src bs0 o,
    sconnected x j c /\ In (McData src bs0 o) ins /\ carries_packet (c_addr c) (c_port c) k bs (src, seen bs0);
  mf_put : forall j k bs, In (SvPut j k bs) evs -> exists c, sconnected x j c;
  mf_open : forall d j a, In (SvConn (EvAdd d j a)) evs -> exists c src bs0 o,
    In (McData src bs0 o) ins /\ ~ malformed (seen bs0) /\ h_pid (dec_header (seen bs0)) = 0 /\ (t_acb x = true -> mi_answer o = true) /\
    leads x' j c (origin src (seen bs0)) /\ c_mode c = CONNECTING /\ c_desc c = d
}.
Lemma dgram_facts x src bs o code op x' evs : BI x -> sock_good (mi_sock o) ->
  process_multicast_read x src (seen bs) o = Ok (code, op, x', evs) -> mfacts x [McData src bs o] x' evs.
Proof.
  intros B Ho E. set (d := seen bs) in *.
  assert (Z0 : forall x' evs, x' = x -> (forall j k mc b, ~ In (SvGot j k mc b) evs) -> (forall j k b, ~ In (SvPut j k b) evs) ->
     (forall e j a, ~ In (SvConn (EvAdd e j a)) evs) -> mfacts x [McData src bs o] x' evs).
  { intros y ev -> N1 N2 N3. constructor; auto; try tauto.
    - intros j k mc b H. destruct (N1 j k mc b H).
    - intros j k b H. destruct (N2 j k b H).
    - intros e j a H. destruct (N3 e j a H). }
  destruct (process_code _ _ _ _ _ _ _ _ E) as [[Hm _]|[W _]].
  { rewrite (process_malformed x src d o Hm) in E. apply Z0; [congruence| | |]; assert (evs = []) as -> by congruence; cbn; tauto. }
  destruct (process_cases x src d o B W) as [(i & c & Hl & Hm & _ & Ep)|[_ Ep]]; rewrite Ep in E; clear Ep.
  - destruct (Z.eqb_spec (h_pid (dec_header d)) 0) as [Hz|Hz]; [apply Z0; [congruence| | |]; assert (evs = []) as -> by congruence; cbn; tauto|].
    destruct (get_spub x i) as [s| | |]; cbn [bind] in E; [|discriminate E..].
    destruct (sub_is_duplicate s _); [apply Z0; [congruence| | |]; assert (evs = []) as -> by congruence; cbn; tauto|].
    destruct (accept_packet x i _ (carried d) true (mi_acc o)) as [[x1 e1]| | |] eqn:Ea; cbn [bind fst snd] in E; [|discriminate E..].
    assert (x' = x1 /\ evs = e1) as [-> ->] by (split; congruence). clear E.
    destruct (accept_shape _ _ _ _ _ _ _ _ Ea) as (tail & -> & Lt & (C1 & C2 & C3 & C4 & C5 & C6)).
    assert (Hc : sconnected x i c) by (split; [exact (proj1 Hl)|exact Hm]). rewrite Forall_forall in Lt.
    constructor.
    + intros j e. unfold sconnected. rewrite C1. reflexivity.
    + intros j e q. unfold leads. rewrite C1. auto.
    + auto.
    + intros j k mc b [H|[H|H]]; [discriminate H| |destruct (Lt _ H)].
      injection H as <- <- <- <-. split; [reflexivity|]. exists c, src, bs, o. split; [exact Hc|]. split; [left; reflexivity|].
      destruct Hl as (_ & _ & Hap). unfold origin in Hap. fold d. assert (A1 : c_addr c = if h_ip (dec_header d) =? 0 then src else h_ip (dec_header d)) by congruence.
      assert (A2 : c_port c = h_port (dec_header d)) by congruence.
      rewrite malformed_dec in W. unfold carries_packet. cbn [fst snd]. rewrite A1, A2. split; [lia|]. auto.
    + intros j k b [H|[H|H]]; [discriminate H|discriminate H|]. apply Lt in H. cbn in H. subst j. eauto.
    + intros e j a [H|[H|H]]; [discriminate H|discriminate H|destruct (Lt _ H)].
  - destruct (Z.eqb_spec (h_pid (dec_header d)) 0) as [Hz|Hz]; cbn [negb] in E; [|apply Z0; [congruence| | |]; assert (evs = []) as -> by congruence; cbn; tauto].
    cbv zeta in E. set (ev0 := if t_acb x then [SvAnnounce _ _ _ _] else []) in E.
    assert (N0 : forall e, In e ev0 -> exists a b c f, e = SvAnnounce a b c f) by (unfold ev0; intros e; destruct (t_acb x); cbn; [intros [<-|[]]; eauto|tauto]).
    destruct (if t_acb x then mi_answer o else true) eqn:Ea.
    + destruct (connect_tcp (t_vec x) _ _ _ _) as [[[[cd n] v] ce]| | |] eqn:Ec; cbn [bind] in E; [|discriminate E..].
      destruct (connect_effect x (origin src d) _ _ _ _ _ _ B Ho Ec) as (F1 & F2 & F3 & _).
      assert (x' = set_tvec x v /\ evs = ev0 ++ map SvConn ce) as [-> ->] by (split; congruence).
      constructor; auto.
      * intros j k mc b H. apply in_app_or in H. destruct H as [H|H]; [apply N0 in H; destruct H as (? & ? & ? & ? & H); discriminate H|].
        apply in_map_iff in H. destruct H as (? & H & _). discriminate H.
      * intros j k b H. apply in_app_or in H. destruct H as [H|H]; [apply N0 in H; destruct H as (? & ? & ? & ? & H); discriminate H|].
        apply in_map_iff in H. destruct H as (? & H & _). discriminate H.
      * intros e j a H. apply in_app_or in H. destruct H as [H|H]; [apply N0 in H; destruct H as (? & ? & ? & ? & H); discriminate H|].
        apply in_map_iff in H. destruct H as (y & H & Hy). injection H as ->. destruct (F3 e j a Hy) as (c & L1 & L2 & L3).
        exists c, src, bs, o. fold d. split; [left; reflexivity|]. split; [exact W|]. split; [exact Hz|]. split; [intros Ht; rewrite Ht in Ea; exact Ea|]. auto.
    + apply Z0; [congruence| | |]; assert (evs = ev0) as -> by congruence; intros * H; apply N0 in H; destruct H as (? & ? & ? & ? & H); discriminate H.
Qed.
Lemma mread_facts ins : forall x log op code op' x' evs, BI x -> MI x log -> Forall mrecv_good ins ->
  mread_loop x op ins = Ok (code, op', x', evs) -> mfacts x ins x' evs.
Proof.
  induction ins as [|m ins IH]; intros x log op code op' x' evs B M G E; cbn [mread_loop] in E.
  - assert (x' = x /\ evs = []) as [-> ->] by (split; congruence). constructor; auto; try tauto; intros; contradiction.
  - assert (Z0 : x' = x -> evs = [] -> mfacts x (m :: ins) x' evs) by (intros -> ->; constructor; auto; try tauto; intros; contradiction).
    inversion G as [|? ? Gm Gr]; subst. destruct m as [|e|src bs o]; cbv iota in E; [apply Z0; congruence|apply Z0; congruence|]. clear Z0.
    cbv zeta in E. fold (seen bs) in E. destruct Gm as (_ & Gb & Go).
    destruct (process_multicast_read x src (seen bs) o) as [[[[c1 op1] x1] e1]| | |] eqn:Ep; cbn [bind] in E; [|discriminate E..].
    pose proof (dgram_facts x src bs o c1 op1 x1 e1 B Go Ep) as [D1 D2 D3 D4 D5 D6].
    destruct (negb (c1 =? 0)).
    + assert (x' = x1 /\ evs = SvDgram src (seen bs) :: e1) as [-> ->] by (split; congruence). constructor; auto.
      * intros j k mc b [H|H]; [discriminate H|]. destruct (D4 j k mc b H) as (H1 & c & s0 & b0 & o0 & H2 & [H3|[]] & H4). split; [exact H1|].
        exists c, s0, b0, o0. split; [exact H2|]. split; [left; exact H3|exact H4].
      * intros j k b [H|H]; [discriminate H|]. exact (D5 j k b H).
      * intros e j a [H|H]; [discriminate H|]. destruct (D6 e j a H) as (c & s0 & b0 & o0 & [H3|[]] & H4). exists c, s0, b0, o0. split; [left; exact H3|exact H4].
    + destruct (mread_loop x1 _ ins) as [[[[c2 op3] x2] e2]| | |] eqn:El; cbn [bind] in E; [|discriminate E..].
      cbn [app] in E. assert (x' = x2 /\ evs = SvDgram src (seen bs) :: e1 ++ e2) as [-> ->] by (split; congruence). clear E.
      pose proof (mcast_dec (Some (-1)) x log src (seen bs) o eq_refl B M) as U. rewrite Ep in U. cbn [ssafe fst snd] in U.
      destruct (steps_BMI (Some (-1)) log x (SvDgram src (seen bs) :: e1) x1 B M) as [B1 M1].
      { apply U; [apply bytes_take; exact Gb| |exact Go]. unfold seen, zlen, ztake. rewrite firstn_length. unfold RMC_MAX_PACKET. lia. }
      destruct (IH x1 _ _ _ _ _ _ B1 M1 Gr El) as [F1 F2 F3 F4 F5 F6].
      destruct D3 as (D3a & D3b & D3c & D3d), F3 as (F3a & F3b & F3c & F3d). constructor.
      * intros j c. rewrite F1. apply D1.
      * intros j c q H. apply F2, D2. exact H.
      * repeat split; congruence.
      * intros j k mc b [H|H]; [discriminate H|]. apply in_app_or in H. destruct H as [H|H].
        -- destruct (D4 j k mc b H) as (H1 & c & s0 & b0 & o0 & H2 & [H3|[]] & H4). split; [exact H1|]. exists c, s0, b0, o0. split; [exact H2|]. split; [left; exact H3|exact H4].
        -- destruct (F4 j k mc b H) as (H1 & c & s0 & b0 & o0 & H2 & H3 & H4). split; [exact H1|]. exists c, s0, b0, o0. split; [apply D1; exact H2|]. split; [right; exact H3|exact H4].
      * intros j k b [H|H]; [discriminate H|]. apply in_app_or in H. destruct H as [H|H]; [exact (D5 j k b H)|]. destruct (F5 j k b H) as [c Hc]. exists c. apply D1. exact Hc.
      * intros e j a [H|H]; [discriminate H|]. apply in_app_or in H. destruct H as [H|H].
        -- destruct (D6 e j a H) as (c & s0 & b0 & o0 & [H3|[]] & H4 & H5 & H6 & H7 & H8). exists c, s0, b0, o0. split; [left; exact H3|]. split; [exact H4|]. split; [exact H5|]. split; [exact H6|].
           split; [apply F2; exact H7|exact H8].
        -- destruct (F6 e j a H) as (c & s0 & b0 & o0 & H3 & H4 & H5 & H6 & H7). exists c, s0, b0, o0. split; [right; exact H3|]. split; [exact H4|]. split; [exact H5|]. split; [rewrite <- D3a; exact H6|exact H7].
Qed.
(** Packets are only accepted from, and handed out for, publishers with an established
    connection, and what is accepted is what one of their datagrams carried. *)
Theorem c53_delivered_only_if_subscribed : forall t x log i ins code op x' evs, sreached t x log -> yok x log (YRead i (SrMcast ins)) ->
  rmc_sub_read x i (SrMcast ins) = Ok (code, op, x', evs) ->
  (forall j k mc bs, In (SvGot j k mc bs) evs -> mc = true /\ exists c src bs0 o,
     sconnected x j c /\ In (McData src bs0 o) ins /\ carries_packet (c_addr c) (c_port c) k bs (src, seen bs0)) /\
  (forall j k bs, In (SvPut j k bs) evs -> exists c, sconnected x j c).
Proof.
  intros t x log i ins code op x' evs H Hok E. destruct (sreached_inv t x log H) as (B & M & _). cbn [yok] in Hok.
  cbn [rmc_sub_read] in E. unfold multicast_read in E. destruct (t_mcast x =? -1); cbn [bind] in E; [assert (evs = []) as -> by congruence; cbn; tauto|].
  destruct (mread_loop x RMC_ERROR ins) as [[[[c1 op1] x1] e1]| | |] eqn:El; cbn [bind] in E; [|discriminate E..].
  destruct (mread_facts ins x log _ _ _ _ _ B M Hok El) as [_ _ _ F4 F5 _]. match type of E with Ok (_, _, _, ?a) = _ => assert (evs = a) as -> by congruence end.
  split.
  - intros j k mc bs Hi. apply in_app_or in Hi. destruct Hi as [Hi|[Hi|[]]]; [exact (F4 j k mc bs Hi)|discriminate Hi].
  - intros j k bs Hi. apply in_app_or in Hi. destruct Hi as [Hi|[Hi|[]]]; [exact (F5 j k bs Hi)|discriminate Hi].
Qed.
(** A connection is only opened for an announce that the callback, if there is one, accepts. *)
Theorem c53_connects_only_if_accepted : forall t x log i ins code op x' evs d j a, sreached t x log -> yok x log (YRead i (SrMcast ins)) ->
  rmc_sub_read x i (SrMcast ins) = Ok (code, op, x', evs) -> In (SvConn (EvAdd d j a)) evs ->
  exists c src bs o, In (McData src bs o) ins /\ ~ malformed (seen bs) /\ h_pid (dec_header (seen bs)) = 0 /\ (t_acb x = true -> mi_answer o = true) /\
    leads x' j c (origin src (seen bs)) /\ c_mode c = CONNECTING /\ c_desc c = d.
Proof.
  intros t x log i ins code op x' evs d j a H Hok E Hi. destruct (sreached_inv t x log H) as (B & M & _). cbn [yok] in Hok.
  cbn [rmc_sub_read] in E. unfold multicast_read in E. destruct (t_mcast x =? -1); cbn [bind] in E; [assert (evs = []) as -> by congruence; destruct Hi|].
  destruct (mread_loop x RMC_ERROR ins) as [[[[c1 op1] x1] e1]| | |] eqn:El; cbn [bind] in E; [|discriminate E..].
  destruct (mread_facts ins x log _ _ _ _ _ B M Hok El) as [_ _ _ _ _ F6]. match type of E with Ok (_, _, ?y, ?b) = _ => assert (evs = b) as -> by congruence; assert (x' = y) as -> by congruence end.
  apply in_app_or in Hi. destruct Hi as [Hi|[Hi|[]]]; [exact (F6 d j a Hi)|discriminate Hi].
Qed.
(** Data packets of a publisher without an established connection have no effect. *)
Theorem c53_unsubscribed_data_ignored : forall t x log i src bs o, sreached t x log -> t_mcast x <> -1 -> ~ malformed (seen bs) ->
  h_pid (dec_header (seen bs)) <> 0 -> (forall j c, leads x j c (origin src (seen bs)) -> c_mode c <> CONNECTED) ->
  rmc_sub_read x i (SrMcast [McData src bs o]) = Ok (0, RMC_READ_MULTICAST_NOT_READY, x,
    [SvDgram src (seen bs); SvConn (EvMod (t_mcast x) RMC_MULTICAST_INDEX POLLREAD POLLREAD)]).
Proof.
  intros t x log i src bs o H Hm W Hz Hn. destruct (sreached_inv t x log H) as (B & _ & _).
  cbn [rmc_sub_read]. unfold multicast_read. replace (t_mcast x =? -1) with false by lia. cbn [mread_loop]. cbv zeta. fold (seen bs).
  destruct (process_cases x src (seen bs) o B W) as [(j & c & Hl & Hc & _)|[_ Ep]]; [destruct (Hn j c Hl Hc)|]. rewrite Ep.
  replace (h_pid (dec_header (seen bs)) =? 0) with false by lia. reflexivity.
Qed.
(** An announce is passed to the callback, and has no effect if the callback refuses. *)
Theorem c53_refused_announce : forall t x log i src bs o, sreached t x log -> t_mcast x <> -1 -> ~ malformed (seen bs) ->
  h_pid (dec_header (seen bs)) = 0 -> t_acb x = true -> mi_answer o = false -> (forall j c, ~ leads x j c (origin src (seen bs))) ->
  rmc_sub_read x i (SrMcast [McData src bs o]) = Ok (0, RMC_READ_MULTICAST_NOT_READY, x,
    [SvDgram src (seen bs); SvAnnounce (fst (origin src (seen bs))) (snd (origin src (seen bs))) (h_node (dec_header (seen bs))) (carried (seen bs));
     SvConn (EvMod (t_mcast x) RMC_MULTICAST_INDEX POLLREAD POLLREAD)]).
Proof.
  intros t x log i src bs o H Hm W Hz Ha Hr Hn. destruct (sreached_inv t x log H) as (B & _ & _).
  cbn [rmc_sub_read]. unfold multicast_read. replace (t_mcast x =? -1) with false by lia. cbn [mread_loop]. cbv zeta. fold (seen bs).
  destruct (process_cases x src (seen bs) o B W) as [(j & c & Hl & Hc & _)|[_ Ep]]; [destruct (Hn j c Hl)|]. rewrite Ep, Hz, Ha, Hr. reflexivity.
Qed.
(** An accepted announce of a publisher the context has no connection to opens one if there is a
    free slot and the system calls succeed. *)
Theorem c53_accepted_announce : forall t x log i src bs o d ok errno, sreached t x log -> t_mcast x <> -1 -> ~ malformed (seen bs) ->
  h_pid (dec_header (seen bs)) = 0 -> (t_acb x = true -> mi_answer o = true) -> (forall j c, ~ leads x j c (origin src (seen bs))) ->
  mi_sock o = SockOk d ok errno -> 0 <= d -> (ok = true \/ errno = EINPROGRESS) -> (exists j, free_slot (t_vec x) j) ->
  exists x' j c evs, rmc_sub_read x i (SrMcast [McData src bs o]) = Ok (0, RMC_READ_MULTICAST_NOT_READY, x', evs) /\
    leads x' j c (origin src (seen bs)) /\ c_mode c = CONNECTING /\ c_desc c = d /\ (forall c0, ~ leads x j c0 (origin src (seen bs))) /\
    forall k c0 q, leads x k c0 q -> leads x' k c0 q.
Proof.
  intros t x log i src bs o d ok errno H Hm W Hz Ha Hn Hs Hd Hk [f Hf]. destruct (sreached_inv t x log H) as (B & _ & _).
  cbn [rmc_sub_read]. unfold multicast_read. replace (t_mcast x =? -1) with false by lia. cbn [mread_loop]. cbv zeta. fold (seen bs).
  destruct (process_cases x src (seen bs) o B W) as [(j & c & Hl & Hc & _)|[_ Ep]]; [destruct (Hn j c Hl)|]. rewrite Ep, Hz. change (negb (0 =? 0)) with false. cbv iota zeta.
  replace (if t_acb x then mi_answer o else true) with true by (destruct (t_acb x); [symmetry; auto|reflexivity]).
  pose proof (tv_size _ (bi_vec x B)) as Sz. rewrite Hs.
  destruct (connect_cases (t_vec x) (fst (origin src (seen bs))) (snd (origin src (seen bs))) (h_node (dec_header (seen bs))) (SockOk d ok errno))
    as [[E _]|(n & c & _ & Hsl & Hdc & E')]; [unfold RMC_LISTEN_INDEX, RMC_NIL_INDEX in *; lia|destruct (E f Hf)|].
  destruct E' as [(E1 & E2 & _)|(_ & E')]; [destruct Hk; congruence|]. rewrite E'. cbn [bind].
  destruct (connect_effect x (origin src (seen bs)) _ (SockOk d ok errno) _ _ _ _ B Hd E') as (_ & F2 & F3 & _).
  destruct (F3 d n POLLWRITE) as (c1 & L1 & L2 & L3); [right; left; reflexivity|].
  change (negb (0 =? 0)) with false. cbv iota. cbn [bind]. change (EAGAIN =? EAGAIN) with true. cbv iota.
  eexists _, n, c1, _. split; [reflexivity|]. split; [exact L1|]. split; [exact L2|]. split; [exact L3|]. split; [intros; apply Hn|exact F2].
Qed.
