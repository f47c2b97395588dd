(** PropTotalSub.v — C77: which calls of the subscriber API return. *)
From Coq Require Import Sorting.Permutation.
From Verif Require Import Base CircBuf CircBufProofs Wire SeqList Sub SpecSub SubProofs SubTrace Proto SpecProto ProtoProofs ProtoRead
  Conn SpecConn ConnProofs Safe SubCtx SpecSubCtx SubSteps SubMem SubDecomp SubInv PropSubCtx SubRecv PropSubConn PropSubAck PropCall PropTotal.

(** ** The receive rings *)
(** As long as every read is one circ_buf_trim handles, the receive rings stay well formed.  This
    needs nothing of the received packet ids. *)
Definition ring_good (rb : cbuf) : Prop := cb_wf rb /\ cb_size rb = RMC_MAX_PACKET /\ bytes_ok (contents rb) /\ (contents rb = [] -> cb_start rb = 0).
Definition RW (x : sctx) : Prop := forall i c, slot (t_vec x) i = Ok c -> ring_good (c_rbuf c).
Lemma fresh_good c : fresh_rings c -> ring_good (c_rbuf c).
Proof. intros F. destruct (rring_fresh c F) as (A & B & C). split; [exact A|]. split; [exact B|]. split; [rewrite C; constructor|]. intros _. exact (proj1 (proj2 (proj1 F))). Qed.
Lemma step_rw r log x evs x' j c' : BI x -> r <> Some j -> ustep r log x evs x' -> slot (t_vec x') j = Ok c' ->
  (exists c, slot (t_vec x) j = Ok c /\ c_rbuf c' = c_rbuf c) \/ fresh_rings c'.
Proof.
  intros B Hr Hu Hj.
  assert (Same : t_vec x' = t_vec x -> (exists c, slot (t_vec x) j = Ok c /\ c_rbuf c' = c_rbuf c) \/ fresh_rings c').
  { intros Ev. left. exists c'. rewrite Ev in Hj. auto. }
  assert (Put : forall i c d, slot (t_vec x) i = Ok c -> v_conns (t_vec x') = v_conns (put_slot (t_vec x) i d) -> (i = j -> c_rbuf d = c_rbuf c) ->
     (exists c, slot (t_vec x) j = Ok c /\ c_rbuf c' = c_rbuf c) \/ fresh_rings c').
  { intros i c d Hc Ev Er. left. rewrite (slot_conns _ _ j Ev) in Hj.
    destruct (slot_put (t_vec x) i d j c' (slot_range _ _ _ Hc) Hj) as [[-> ->]|[N Hj']]; [exists c|exists c']; auto. }
  destruct Hu as
    [e He|x' E1 E2 E3 E4 E5 E6|i c s pid bs src ptr now x' s' out Hc Hp Hd Hsrc Hptr Hm mc Hproc m Ex'|i c s s' out Hc Hp Hproc
    |p rest a Hu|p rest a Hu|p rest Hu|i c s iv rest wb act Hc Hp Hiv W1 W2 W3|i c s iv rest Hc Hp Hiv|i rest Ha Hpe|Ha
    |i c p wb act Hc W1 W2 Hk W3 Hr3|i c wb act sent Hc W1 W2 W3|i c rb Hi Hc|i c d addr port node Hi Hs Hd Hd0
    |i c d v evs Hs Hd Hd' Hm Er Ew Ev Mx Ac Hev|i R Hn|i s Hp Hn|i c Hs Hm Hp|i c v Hs Hm Ec|i c v s Hc Hp Ec|ptr Hk];
    try (apply Same; reflexivity).
  - apply Same. exact E2.
  - apply Same. rewrite Ex'. reflexivity.
  - eapply (Put i c); [exact (proj1 Hc)|reflexivity|reflexivity].
  - eapply (Put i c); [exact (proj1 Hc)|reflexivity|reflexivity].
  - eapply (Put i c); [exact (proj1 Hc)|reflexivity|reflexivity].
  - eapply (Put i c); [exact (proj1 Hc)|reflexivity|]. intros ->. contradiction.
  - destruct (TV_connect (t_vec x) i c d addr port node POLLWRITE (bi_vec x B) Hs Hd Hd0) as (_ & S & O & _).
    cbn [set_tvec t_vec] in Hj. destruct (Z.eq_dec j i) as [->|N].
    + left. exists c. split; [exact Hs|]. rewrite S in Hj. injection Hj as <-. reflexivity.
    + rewrite (O j N) in Hj. left. exists c'. auto.
  - exact (Put i c d Hs Ev (fun _ => Er)).
  - eapply (Put i c); [exact Hs|reflexivity|reflexivity].
  - destruct (TV_close (t_vec x) i c v (bi_vec x B) Hs ltac:(rewrite Hm; discriminate) Ec) as (_ & _ & S & O).
    cbn [set_tvec t_vec] in Hj. destruct (Z.eq_dec j i) as [->|N].
    + right. rewrite S in Hj. injection Hj as <-. apply fresh_reset.
    + rewrite (O j N) in Hj. left. exists c'. auto.
  - destruct (TV_close (t_vec x) i c v (bi_vec x B) (proj1 Hc) (connected_mode x i c Hc) Ec) as (_ & _ & S & O).
    cbn [set_tvec t_vec set_tmem put_spub set_tpubs] in Hj. destruct (Z.eq_dec j i) as [->|N].
    + right. rewrite S in Hj. injection Hj as <-. apply fresh_reset.
    + rewrite (O j N) in Hj. left. exists c'. auto.
Qed.
Lemma steps_rw r log x evs x' j c' : BI x -> RW x -> r <> Some j -> usteps r log x evs x' -> slot (t_vec x') j = Ok c' -> ring_good (c_rbuf c').
Proof.
  intros B R Hr U. revert c'. induction U as [|e1 x1 e2 x2 U IH Hs]; intros c' Hj; [exact (R j c' Hj)|].
  pose proof (steps_BI _ _ _ _ _ B U) as B1.
  destruct (step_rw r (log ++ e1) x1 e2 x2 j c' B1 Hr Hs Hj) as [(c & Hc & ->)|F]; [exact (IH c Hc)|exact (fresh_good _ F)].
Qed.

(** ** Accepting packets *)
Lemma taken_out x log a keep : BI x -> MI x log -> exists code x' evs, rmc_sub_packet_dispatched x a keep = Ok (code, x', evs) /\
  forall q, t_mem x q = None -> t_mem x' q = None.
Proof.
  intros B M. unfold rmc_sub_packet_dispatched, dispatched_keep_payload. destruct (unlink_packet a (t_ready x)) as [[p rest]|] eqn:E.
  - destruct keep; [do 3 eexists; split; [reflexivity|auto]|].
    destruct (unlink_perm _ _ _ _ E) as (Pm & _).
    assert (Hh : In p (held x)) by (unfold held; apply in_or_app; right; apply (Permutation_in _ (Permutation_sym Pm)); left; reflexivity).
    destruct (mi_held x log M p Hh) as (_ & Hm & _).
    cbn [free_payloads set_tready t_mem]. rewrite Hm. cbn [bind fst snd]. do 3 eexists. split; [reflexivity|].
    intros q Hq. cbn [set_tmem t_mem]. unfold tupd. destruct (q =? sk_payload p); auto.
  - do 3 eexists. split; [reflexivity|auto].
Qed.
Lemma ready_out (r : option Z) ops : forall x log, BI x -> MI x log -> exists x' evs, ready_cb x ops = Ok (x', evs) /\ forall q, t_mem x q = None -> t_mem x' q = None.
Proof.
  induction ops as [|[a keep] ops IH]; intros x log B M; cbn [ready_cb]; [do 2 eexists; split; [reflexivity|auto]|].
  destruct (taken_out x log a keep B M) as (code & x1 & evs & E & H1). pose proof (taken_dec r x log a keep B M) as D. rewrite E in D |- *. cbn [bind ssafe fst snd] in *.
  destruct (steps_BMI r log x evs x1 B M (proj1 D)) as [B1 M1]. destruct (IH x1 (log ++ evs) B1 M1) as (x2 & e2 & -> & H2).
  cbn [bind fst snd]. do 2 eexists. split; [reflexivity|auto].
Qed.
(** malloc() gives memory that is not in use. *)
Definition alloc_ok (m : Z -> option (list Z)) (o : accin) : Prop := ai_ptr o <> 0 /\ m (ai_ptr o) = None.
Lemma alloc_dec m o : {alloc_ok m o} + {~ alloc_ok m o}.
Proof. unfold alloc_ok. destruct (Z.eq_dec (ai_ptr o) 0), (m (ai_ptr o)); [right|right|right|left]; intuition congruence. Qed.
Lemma accept_out (r : option Z) x log i c s pid bs src o : BI x -> MI x log -> sconnected x i c -> t_pubs x i = Some s ->
  sub_is_duplicate s pid = false ->
  match src with Some sd => r = Some (-1) /\ carries_packet (c_addr c) (c_port c) pid bs sd /\ bytes_ok (snd sd) /\
                            zlen (snd sd) <= RMC_MAX_PACKET | None => r = Some i end ->
  (alloc_ok (t_mem x) o -> exists x' evs, accept_packet x i pid bs (match src with Some _ => true | None => false end) o = Ok (x', evs) /\
     forall q, q <> ai_ptr o -> t_mem x q = None -> t_mem x' q = None) /\
  (~ alloc_ok (t_mem x) o -> accept_packet x i pid bs (match src with Some _ => true | None => false end) o = Abort).
Proof.
  intros B M Hc Hs Hd Hsrc. unfold accept_packet. split.
  2:{ intros N. destruct (_ || _) eqn:E0; [reflexivity|]. apply orb_false_iff in E0. destruct E0 as [E1 E2]. destruct N. split; [lia|].
      unfold is_valid in E2. destruct (t_mem x (ai_ptr o)); [discriminate|reflexivity]. }
  intros [Hp Em]. replace (ai_ptr o =? 0) with false by lia. unfold is_valid. rewrite Em. cbn [orb].
  pose proof (slot_range _ _ _ (proj1 Hc)) as R.
  set (mc := match src with Some _ => true | None => false end).
  set (x1 := set_tmem x _).
  set (pk := new_packet x i pid (ai_ptr o) (zlen bs)).
  set (x2 := set_tfresh (put_spub (set_tack x1 (ack_after x i s mc)) i (sub_received s pk mc (ai_now o))) (S (t_fresh x))).
  assert (G1 : get_spub x1 i = Ok s).
  { unfold get_spub, x1. cbn [set_tmem t_vec t_pubs]. rewrite Hs. replace ((0 <=? i) && (i <? v_size (t_vec x))) with true by lia. reflexivity. }
  assert (E3 : (if mc then rmc_sub_packet_received x1 i pid (ai_ptr o) (zlen bs) (ai_now o)
                else tcp_packet_received x1 i pid (ai_ptr o) (zlen bs) (ai_now o)) = Ok x2).
  { unfold rmc_sub_packet_received, tcp_packet_received. rewrite G1. cbn [bind]. unfold x2, ack_after. unfold mc in *.
    destruct src as [sd|]; cbn [andb]; [|reflexivity]. destruct (sub_oldest_unacked s =? 0); reflexivity. }
  rewrite E3. cbn [bind].
  unfold process_received. assert (G2 : get_spub x2 i = Ok (sub_received s pk mc (ai_now o))).
  { unfold get_spub, x2, x1. cbn [set_tmem set_tfresh put_spub set_tpubs set_tack t_vec t_pubs]. rewrite tupd_same.
    replace ((0 <=? i) && (i <? v_size (t_vec x))) with true by lia. reflexivity. }
  rewrite G2. cbn [bind]. destruct (sub_process (sub_received s pk mc (ai_now o))) as [s' out] eqn:Ep. cbn [bind fst snd].
  set (x3 := set_tready (put_spub x2 i s') (t_ready x2 ++ out)).
  assert (Mq : forall q, q <> ai_ptr o -> t_mem x q = None -> t_mem x3 q = None).
  { intros q Nq Hq. change (t_mem x3 q) with (tupd (t_mem x) (ai_ptr o) (Some bs) q). rewrite tupd_other by exact Nq. exact Hq. }
  assert (U : usteps r log x (src_evs src ++ SvAlloc (ai_ptr o) (zlen bs) :: SvGot i pid mc bs :: put_evs (tupd (t_mem x) (ai_ptr o) (Some bs)) i out) x3).
  { apply us_one. apply (u_got r log x i c s pid bs src (ai_ptr o) (ai_now o) x3 s' out); auto. }
  cbv zeta. change (t_rcb x1) with (t_rcb x).
  destruct (t_rcb x && negb (zlen (t_ready x3) =? zlen (t_ready x2))).
  - pose proof (us_event r log x _ x3 SvReady U Logic.I) as U'.
    destruct (steps_BMI r log x _ x3 B M U') as [B4 M4].
    destruct (ready_out r (ai_ops o) x3 _ B4 M4) as (x4 & e4 & -> & H4). cbn [bind fst snd]. do 2 eexists. split; [reflexivity|]. auto.
  - do 2 eexists. split; [reflexivity|]. exact Mq.
Qed.

(** ** Datagrams *)
Definition gone {A} (r : res A) : Prop := returns r \/ r = Abort.
(** The memory malloc() gives to a read is nowhere in use, and pairwise different. *)
Definition allocs_ok (m : Z -> option (list Z)) (l : list accin) : Prop := NoDup (map ai_ptr l) /\ Forall (alloc_ok m) l.
Lemma allocs_next m m' o l : allocs_ok m (o :: l) -> (forall q, q <> ai_ptr o -> m q = None -> m' q = None) -> allocs_ok m' l.
Proof.
  intros [N F] H. cbn [map] in N. apply NoDup_cons_iff in N. destruct N as [N1 N2]. split; [exact N2|]. apply Forall_inv_tail in F. rewrite Forall_forall in *.
  intros a Ha. destruct (F a Ha) as [A1 A2]. split; [exact A1|]. apply H; [|exact A2]. intros E. apply N1. rewrite <- E. apply in_map. exact Ha.
Qed.
Lemma connect_mem x log addr port node o : BI x -> sock_good o ->
  exists code i v ce, connect_tcp (t_vec x) addr port node o = Ok (code, i, v, ce) /\ usteps (Some (-1)) log x (map SvConn ce) (set_tvec x v).
Proof. intros B Ho. apply connect_dec; auto. Qed.
Lemma mcast_out x log src bs o : BI x -> MI x log -> bytes_ok bs -> zlen bs <= RMC_MAX_PACKET -> sock_good (mi_sock o) ->
  (exists code op x' evs, process_multicast_read x src bs o = Ok (code, op, x', evs) /\
     forall q, q <> ai_ptr (mi_acc o) -> t_mem x q = None -> t_mem x' q = None) \/
  (~ alloc_ok (t_mem x) (mi_acc o) /\ process_multicast_read x src bs o = Abort).
Proof.
  intros B M Hb Hl Ho. unfold process_multicast_read.
  destruct (_ <? _); [left; do 4 eexists; split; [reflexivity|auto]|]. cbv zeta.
  destruct (Z.ltb_spec (zlen bs) (header_size + h_len (dec_header bs))) as [L|L]; [left; do 4 eexists; split; [reflexivity|auto]|].
  set (h := if h_ip (dec_header bs) =? 0 then _ else _). set (payload := ztake _ _).
  assert (Eh : h_pid h = h_pid (dec_header bs) /\ h_len h = h_len (dec_header bs) /\ h_port h = h_port (dec_header bs) /\ h_ip h = (if h_ip (dec_header bs) =? 0 then src else h_ip (dec_header bs))).
  { unfold h. destruct (_ =? 0); cbn; auto. }
  assert (Un : exists code op x' evs, (do q <- decode_unsubscribed x h payload o; Ok (0, Some RMC_READ_MULTICAST_NOT_READY, fst q, snd q)) = Ok (code, op, x', evs) /\ t_mem x' = t_mem x).
  { unfold decode_unsubscribed. destruct (negb (h_pid h =? 0)); [do 4 eexists; split; reflexivity|]. cbv zeta.
    destruct (if t_acb x then mi_answer o else true); [|do 4 eexists; split; reflexivity].
    destruct (connect_mem x log (h_ip h) (h_port h) (h_node h) (mi_sock o) B Ho) as (code & i & v & ce & E & _).
    rewrite E. cbn [bind fst snd]. do 4 eexists. split; reflexivity. }
  destruct Un as (code & op & x' & evs & Un & Um).
  assert (Un' : exists code op x' evs, (do q <- decode_unsubscribed x h payload o; Ok (0, Some RMC_READ_MULTICAST_NOT_READY, fst q, snd q)) = Ok (code, op, x', evs) /\
     forall q, q <> ai_ptr (mi_acc o) -> t_mem x q = None -> t_mem x' q = None).
  { exists code, op, x', evs. split; [exact Un|]. rewrite Um. auto. }
  destruct (find_conn_spec (t_vec x) (fun c => negb (c_desc c =? -1) && (h_ip h =? c_addr c) && (h_port h =? c_port c)) (tv_max _ (bi_vec x B)))
    as [(i & c & E & Hs & Hp & _)|[E _]].
  { pose proof (tv_size _ (bi_vec x B)). unfold RMC_LISTEN_INDEX, RMC_NIL_INDEX in *. lia. }
  { intros c Hc. lia. }
  - unfold find_by_address. rewrite E. cbn [bind]. rewrite Hs. cbn [bind].
    destruct (Z.eqb_spec (c_mode c) CONNECTING) as [Hm|Hm]; [left; exact Un'|].
    apply andb_prop in Hp. destruct Hp as [Hp Hp3]. apply andb_prop in Hp. destruct Hp as [Hp1 Hp2].
    destruct (tv_mode _ (bi_vec x B) i c Hs) as (D1 & _ & D3).
    assert (Hc : sconnected x i c).
    { split; [exact Hs|]. destruct D3 as [D3|[D3|D3]]; [|contradiction|exact D3]. apply D1 in D3. rewrite D3 in Hp1. discriminate. }
    unfold decode_subscribed. destruct (Z.eqb_spec (h_pid h) 0) as [Hz|Hz]; [left; do 4 eexists; split; [reflexivity|auto]|].
    destruct (conn_spub x i c B Hc) as [s Hsp]. rewrite (get_spub_some x i s B Hsp). cbn [bind].
    destruct (sub_is_duplicate s (h_pid h)) eqn:Ed; [left; do 4 eexists; split; [reflexivity|auto]|].
    destruct (accept_out (Some (-1)) x log i c s (h_pid h) payload (Some (src, bs)) (mi_acc o) B M Hc Hsp Ed) as [A1 A2].
    + split; [reflexivity|]. split; [|auto]. unfold carries_packet. cbn [fst snd]. destruct Eh as (E1 & E2 & E3 & E4).
      rewrite <- E4, <- E1, <- E3. split; [lia|]. split; [reflexivity|]. split; [exact Hz|]. split; [lia|]. split; [lia|].
      unfold payload. rewrite E2. reflexivity.
    + destruct (alloc_dec (t_mem x) (mi_acc o)) as [Al|Al].
      * left. destruct (A1 Al) as (x1 & e1 & -> & Hq). cbn [bind fst snd]. do 4 eexists. split; [reflexivity|exact Hq].
      * right. split; [exact Al|]. rewrite (A2 Al). reflexivity.
  - unfold find_by_address. rewrite E. cbn [bind]. left. exact Un'.
Qed.
(** What malloc() gives for each datagram of a read. *)
Definition mcast_allocs (ins : list mrecv) : list accin := flat_map (fun m => match m with McData _ _ o => [mi_acc o] | _ => [] end) ins.
Lemma mread_out ins : forall x log op, BI x -> MI x log -> Forall mrecv_good ins ->
  gone (mread_loop x op ins) /\ (allocs_ok (t_mem x) (mcast_allocs ins) -> returns (mread_loop x op ins)).
Proof.
  induction ins as [|m ins IH]; intros x log op B M Hi; cbn [mread_loop]; [split; [left|intros _]; eexists; reflexivity|].
  pose proof (Forall_inv Hi) as Hm. pose proof (Forall_inv_tail Hi) as Hrest.
  destruct m as [|e|src bs o]; [split; [left|intros _]; eexists; reflexivity|split; [left|intros _]; eexists; reflexivity|]. cbv zeta. destruct Hm as (_ & Hb & Ho).
  assert (Hb' : bytes_ok (ztake RMC_MAX_PACKET bs)) by (apply bytes_take; exact Hb).
  assert (Hl' : zlen (ztake RMC_MAX_PACKET bs) <= RMC_MAX_PACKET) by (unfold zlen, ztake; rewrite firstn_length; unfold RMC_MAX_PACKET; lia).
  destruct (mcast_out x log src (ztake RMC_MAX_PACKET bs) o B M Hb' Hl' Ho) as [(code & op1 & x1 & e1 & E & Hq)|[N E]].
  - pose proof (mcast_dec (Some (-1)) x log src (ztake RMC_MAX_PACKET bs) o eq_refl B M Hb' Hl' Ho) as D. rewrite E in D |- *. cbn [ssafe bind fst snd] in *.
    destruct (negb (code =? 0)); [split; [left|intros _]; eexists; reflexivity|].
    destruct (steps_BMI _ log x _ x1 B M D) as [B1 M1]. set (op2 := match op1 with Some v => v | None => op end).
    destruct (IH x1 _ op2 B1 M1 Hrest) as [G1 G2]. split.
    + destruct G1 as [[[[[c2 o3] x2] e2] ->]| ->]; [left|right; reflexivity]. cbn [bind]. eexists. reflexivity.
    + intros A. destruct G2 as [[[[c2 o3] x2] e2] ->]; [exact (allocs_next _ _ _ _ A Hq)|]. cbn [bind]. eexists. reflexivity.
  - rewrite E. cbn [bind]. split; [right; reflexivity|]. intros [_ A]. destruct N. cbn [mcast_allocs flat_map app] in A. exact (Forall_inv A).
Qed.
(** Reading the multicast socket returns, unless the process exits because malloc() failed. *)
Theorem c77_sub_multicast : forall t x log i ins, sreached t x log -> Forall mrecv_good ins ->
  gone (rmc_sub_read x i (SrMcast ins)) /\ (allocs_ok (t_mem x) (mcast_allocs ins) -> returns (rmc_sub_read x i (SrMcast ins))).
Proof.
  intros t x log i ins R Hi. destruct (sreached_inv t x log R) as (B & M & _). cbn [rmc_sub_read]. unfold multicast_read.
  destruct (t_mcast x =? -1); [split; [left|intros _]; eexists; reflexivity|]. destruct (mread_out ins x log RMC_ERROR B M Hi) as [G1 G2]. split.
  - destruct G1 as [[[[[c2 o3] x2] e2] ->]| ->]; [left|right; reflexivity]. cbn [bind]. eexists. reflexivity.
  - intros A. destruct (G2 A) as [[[[c2 o3] x2] e2] ->]. cbn [bind]. eexists. reflexivity.
Qed.

(** ** Reading a control connection *)
Lemma sub_run_out x log i c : BI x -> MI x log -> sconnected x i c ->
  forall cmds x1 evs ins, Forall for_sub cmds -> usteps (Some i) log x evs x1 -> t_vec x1 = t_vec x ->
  let r := run_cmds (sub_eff (tcp_dup i) (tcp_eff i)) (x1, evs, ins) cmds in
  ((exists x2 evs2 ins2, r = Ok (x2, evs2, ins2) /\ usteps (Some i) log x evs2 x2 /\ t_vec x2 = t_vec x) \/ r = Abort) /\
  (allocs_ok (t_mem x1) ins -> (length cmds <= length ins)%nat -> r <> Abort).
Proof.
  intros B M Hc. induction cmds as [|cm cmds IH]; intros x1 evs ins Hf U V.
  { cbn. split; [left; exists x1, evs, ins; auto|discriminate]. }
  inversion Hf as [|? ? Hf1 Hf2]; subst. destruct cm as [h p|a b|p]; [|destruct Hf1..].
  cbn [run_cmds sub_eff]. destruct (steps_BMI (Some i) log x evs x1 B M U) as [B1 M1].
  assert (Hc1 : sconnected x1 i c) by (unfold sconnected; rewrite V; exact Hc).
  destruct (conn_spub x1 i c B1 Hc1) as [s Hs]. destruct (tcp_dup i (x1, evs, ins) (h_pid h)) eqn:Ed.
  { cbn [bind]. destruct (IH x1 evs ins Hf2 U V) as [A1 A2]. split; [exact A1|]. cbn [length]. intros H1 H2. apply A2; [exact H1|lia]. }
  unfold tcp_dup in Ed. cbn [fst] in Ed. rewrite Hs in Ed. unfold tcp_eff. destruct ins as [|o ins].
  { cbn [bind]. split; [right; reflexivity|]. cbn [length]. lia. }
  cbn [fst snd]. destruct (accept_out (Some i) x1 (log ++ evs) i c s (h_pid h) p None o B1 M1 Hc1 Hs Ed eq_refl) as [A1 A2].
  destruct (alloc_dec (t_mem x1) o) as [Al|Al].
  - destruct (A1 Al) as (x3 & e3 & Ea & Hq). pose proof (accept_dec (Some i) x1 (log ++ evs) i c s (h_pid h) p None o B1 M1 Hc1 Hs Ed eq_refl) as D. cbn [src_evs app] in D.
    rewrite Ea in D |- *. cbn [ssafe bind fst snd] in *. destruct D as [U3 V3].
    assert (U4 : usteps (Some i) log x (evs ++ e3) x3) by exact (us_app (Some i) log x evs x1 e3 x3 U U3).
    destruct (IH x3 (evs ++ e3) ins Hf2 U4 ltac:(congruence)) as [C1 C2]. split; [exact C1|]. cbn [length]. intros H1 H2. apply C2; [exact (allocs_next _ _ _ _ H1 Hq)|lia].
  - rewrite (A2 Al). cbn [bind]. split; [right; reflexivity|]. intros [_ F]. destruct (Al (Forall_inv F)).
Qed.
(** The packets a read completes. *)
Definition sub_completes (x : sctx) (i : Z) (t : rres) (cmds : list cmd) : Prop :=
  exists c bs r, sconnected x i c /\ t = RData bs /\ parses for_sub (contents (c_rbuf c) ++ ztake (circ_buf_available (c_rbuf c)) bs) cmds r.
Lemma read_out x log i o ins : BI x -> MI x log -> RW x -> 0 <= i -> match o with RData bs => bytes_ok bs | RErr => True end ->
  read_good x (YRead i (SrTcp o ins)) ->
  (gone (rmc_sub_read x i (SrTcp o ins)) /\
   (allocs_ok (t_mem x) ins -> (forall cmds, sub_completes x i o cmds -> (length cmds <= length ins)%nat) -> returns (rmc_sub_read x i (SrTcp o ins)))) /\
  (forall code op x' evs c', rmc_sub_read x i (SrTcp o ins) = Ok (code, op, x', evs) -> slot (t_vec x') i = Ok c' -> ring_good (c_rbuf c')).
Proof.
  intros B M R Hi Hb Hg. cbn [rmc_sub_read].
  destruct (find_index_cases (t_vec x) i Hi) as [[Ef Hn]|(c & Ef & Hs & Ho)]; rewrite Ef; cbn [bind].
  { split; [split; [left|intros _ _]; eexists; reflexivity|]. intros code op x' evs c' E Hc'. assert (x' = x) as -> by congruence. exact (R i c' Hc'). }
  destruct (Z.eqb_spec (c_mode c) CONNECTED) as [Hm|Hm]; cbn [negb].
  2:{ split; [split; [left|intros _ _]; eexists; reflexivity|]. intros code op x' evs c' E Hc'. assert (x' = x) as -> by congruence. exact (R i c' Hc'). }
  assert (Hc : sconnected x i c) by (split; assumption). destruct (R i c Hs) as (W & Sz & Cb & _). cbv zeta.
  set (got := match o with RErr => _ | _ => _ end).
  assert (Calm : Forall (calm_ev x (Some i)) got).
  { unfold got. destruct o as [|[|b bs]]; [constructor|constructor|]. constructor; [split; [reflexivity|eauto]|constructor]. }
  pose proof (us_size_calm (Some i) log x got Calm) as U0.
  assert (Mid : forall rb evs x1, usteps (Some i) log x evs x1 -> t_vec x1 = t_vec x ->
     let x2 := set_tvec x1 (put_slot (t_vec x1) i (set_rbuf c rb)) in usteps (Some i) log x evs x2 /\ sconnected x2 i (set_rbuf c rb)).
  { intros rb evs x1 U V x2. split.
    - replace evs with (evs ++ []) by apply app_nil_r. eapply us_then; [exact U|]. apply (u_rbuf (Some i) _ x1 i c rb eq_refl). unfold sconnected. rewrite V. exact Hc.
    - split; [|exact Hm]. unfold x2. cbn [set_tvec t_vec]. apply slot_put_same. rewrite V. exact (slot_range _ _ _ Hs). }
  assert (Close : forall x2 evs d, usteps (Some i) log x evs x2 -> sconnected x2 i d -> exists x3 e3, rmc_sub_close_connection x2 i = Ok (x3, e3) /\ forall c', slot (t_vec x3) i = Ok c' -> ring_good (c_rbuf c')).
  { intros x2 evs d U Hc2. destruct (steps_BMI _ log x evs x2 B M U) as [B2 M2].
    destruct (close_succeeds x2 (log ++ evs) i d B2 M2 Hc2) as (x3 & e3 & E3 & B3 & _ & _ & d3 & S3 & Hd3). exists x3, e3. split; [exact E3|].
    intros c' Hc'. apply fresh_good. apply (tv_clean _ (bi_vec x3 B3) i c' Hc'). congruence. }
  destruct (Z.eq_dec (circ_buf_available (c_rbuf c)) 0) as [Ea|Ea].
  { rewrite (tcp_read_full _ (x, got, ins) (c_rbuf c) o Ea). cbn [bind r_st r_code r_op r_buf]. change (ENOMEM =? ENOMEM) with true. cbv iota.
    split; [split; [left|intros _ _]; eexists; reflexivity|]. intros code op x' evs c' E Hc'.
    assert (x' = set_tvec x (put_slot (t_vec x) i (set_rbuf c (c_rbuf c)))) as -> by congruence. cbn [set_tvec t_vec] in Hc'.
    rewrite slot_put_same in Hc' by exact (slot_range _ _ _ Hs). injection Hc' as <-. exact (R i c Hs). }
  assert (Pipe : o = RErr \/ o = RData [] -> exists r : Z * Z * sctx * list sev, (do r <- tcp_read (sub_dispatch (tcp_dup i) (tcp_eff i)) (x, got, ins) (c_rbuf c) o;
            let '(x1, evs, _) := r_st r in
            let x2 := set_tvec x1 (put_slot (t_vec x1) i (set_rbuf c (r_buf r))) in
            let rearm := SvConn (EvMod (c_desc c) i POLLREAD POLLREAD) in
            if r_code r =? ENOMEM then Ok (ENOMEM, r_op r, x2, evs ++ [rearm])
            else if r_code r =? EPIPE then
              do q <- rmc_sub_close_connection x2 i;
              Ok (0, RMC_READ_DISCONNECT, fst q, evs ++ snd q)
            else
              do q <- process_received x2 i;
              if r_code r =? EPROTO then
                do q2 <- rmc_sub_close_connection (fst q) i;
                Ok (EPROTO, RMC_ERROR, fst q2, evs ++ snd q ++ snd q2)
              else Ok (r_code r, RMC_READ_TCP, fst q, evs ++ snd q ++ [rearm])) = Ok r /\ forall c', slot (t_vec (snd (fst r))) i = Ok c' -> ring_good (c_rbuf c')).
  { intros Ht. destruct (pipe_returns (sub_dispatch (tcp_dup i) (tcp_eff i)) (x, got, ins) (c_rbuf c) o W Ea Ht) as (rb' & ->).
    cbn [bind r_st r_code r_op r_buf]. change (EPIPE =? ENOMEM) with false. change (EPIPE =? EPIPE) with true. cbv iota zeta.
    destruct (Mid rb' got x U0 eq_refl) as [U2 Hc2]. cbv zeta in U2, Hc2. destruct (Close _ _ _ U2 Hc2) as (x3 & e3 & -> & Hr). cbn [bind fst snd]. eexists. split; [reflexivity|exact Hr]. }
  cbv zeta in Pipe.
  assert (Done : forall m : res (Z * Z * sctx * list sev), (exists r, m = Ok r /\ forall c', slot (t_vec (snd (fst r))) i = Ok c' -> ring_good (c_rbuf c')) ->
     forall Q R : Prop, (gone m /\ (Q -> R -> returns m)) /\ (forall code op x' evs c', m = Ok (code, op, x', evs) -> slot (t_vec x') i = Ok c' -> ring_good (c_rbuf c'))).
  { intros m (r & -> & Hr) Q0 R0. split; [split; [left|intros _ _]; eexists; reflexivity|]. intros code op x' evs c' E. injection E as ->. apply Hr. }
  destruct o as [|bs]; [apply Done, Pipe; auto|]. destruct (list_eq_dec Z.eq_dec bs []) as [->|Hne]; [apply Done, Pipe; auto|]. clear Pipe.
  pose proof (Hg c Hs Hm Hne) as Hro. rewrite <- Sz in Hro. set (b1 := ztake (circ_buf_available (c_rbuf c)) bs) in *.
  assert (Hcb : bytes_ok (contents (c_rbuf c) ++ b1)) by (apply Forall_app; split; [exact Cb|apply bytes_take; exact Hb]).
  destruct (parses_exists for_sub sub_next sub_next_sound sub_next_complete (S (length (contents (c_rbuf c) ++ b1))) (contents (c_rbuf c) ++ b1)) as (cmds & l & P); [lia|exact Hcb|].
  pose proof (tcp_read_total (sub_dispatch (tcp_dup i) (tcp_eff i)) (sub_eff (tcp_dup i) (tcp_eff i)) for_sub sub_next false sub_next_sound sub_next_complete
      (fun st rb c rest W B N _ => sub_handler_cmd (tcp_dup i) (tcp_eff i) st rb c rest W B N) (sub_handler_more (tcp_dup i) (tcp_eff i)) (sub_handler_bad (tcp_dup i) (tcp_eff i))
      (x, got, ins) (c_rbuf c) bs cmds l W Cb Hb Hne Ea Hro P ltac:(discriminate)) as Tt.
  assert (Ff : Forall for_sub cmds). { destruct P as (_ & F & _). eapply Forall_impl; [|exact F]. cbn. tauto. }
  destruct (sub_run_out x log i c B M Hc cmds x got ins Ff U0 eq_refl) as [[(x1 & e1 & i1 & E1 & U1 & V1)|E1] A2].
  - rewrite E1 in Tt. destruct Tt as (rb' & -> & W' & Z' & C' & S0'). cbn [bind r_st r_code r_op r_buf].
    destruct (left_not_pipe l) as [L1 L2]. apply Z.eqb_neq in L1, L2. rewrite L1, L2.
    destruct (Mid rb' e1 x1 U1 V1) as [U2 Hc2]. cbv zeta in U2, Hc2. set (x2 := set_tvec x1 _) in *. destruct (steps_BMI _ log x e1 x2 B M U2) as [B2 M2].
    apply Done. destruct (conn_spub x2 i _ B2 Hc2) as [s Hsp].
    assert (Pr : exists x3 e3, process_received x2 i = Ok (x3, e3)).
    { unfold process_received. rewrite (get_spub_some x2 i s B2 Hsp). cbn [bind]. destruct (sub_process s). do 2 eexists. reflexivity. }
    destruct Pr as (x3 & e3 & Pr). pose proof (proc_dec (Some i) x2 (log ++ e1) i _ B2 Hc2) as Pd. rewrite Pr in Pd |- *. cbn [bind fst snd ssafe] in *. destruct Pd as [U3 V3].
    destruct (_ =? EPROTO).
    + assert (Hc3 : sconnected x3 i (set_rbuf c rb')) by (unfold sconnected; rewrite V3; exact Hc2).
      destruct (Close x3 _ _ (us_app (Some i) log x e1 x2 e3 x3 U2 U3) Hc3) as (x4 & e4 & -> & Hr). cbn [bind fst snd]. eexists. split; [reflexivity|exact Hr].
    + eexists. split; [reflexivity|]. cbn [fst snd]. intros c' Hc'. rewrite V3 in Hc'. destruct Hc2 as [Hc2 _]. assert (c' = set_rbuf c rb') as -> by congruence.
      cbn [set_rbuf c_rbuf]. split; [exact W'|]. split; [congruence|]. rewrite C'. split; [|exact S0']. destruct P as (E & _). rewrite E in Hcb. apply Forall_app in Hcb. exact (proj2 Hcb).
  - rewrite E1 in Tt, A2. rewrite Tt. cbn [bind]. split; [|discriminate]. split; [right; reflexivity|]. intros H1 H2. exfalso. apply A2; [exact H1| |reflexivity].
    apply H2. exists c, bs, l. auto.
Qed.
Lemma sreached_RW x log : sreached true x log -> RW x.
Proof.
  intros (x0 & ops & F & Hh). induction Hh as [|ops x log o code x' evs Hh IH Hok Hr E].
  - intros i c Hs. apply fresh_good. destruct (fresh_inv x0 F) as (B & _). destruct F as (node & buf & m & -> & L).
    apply (tv_clean _ (bi_vec _ B) i c Hs). apply slot_init in Hs. tauto.
  - destruct (hist_inv_y true x0 ops x log F Hh) as (B & M & _). destruct (step_bmi x log o code x' evs B M Hok E) as (U & _).
    intros j c Hj. assert (Dec : {reads o = Some j} + {reads o <> Some j}) by (decide equality; apply Z.eq_dec). destruct Dec as [Er|Er]; [|exact (steps_rw _ _ _ _ _ j c B IH Er U Hj)].
    pose proof (slot_range _ _ _ Hj) as R0.
    destruct o as [i [ins|t ins]| | | | | | | | | | |]; cbn [reads] in Er; try discriminate Er; injection Er as Er; try lia. subst i.
    cbn [ystep] in E. destruct (rmc_sub_read x j (SrTcp t ins)) as [[[[cd op] x1] e1]| | |] eqn:Ed; cbn [bind] in E; [|discriminate E..].
    assert (x' = x1) as -> by congruence. destruct Hok as [Hi Hb].
    destruct (read_out x log j t ins B M IH ltac:(lia) Hb (Hr eq_refl)) as [_ A]. exact (A cd op x1 e1 c Ed Hj).
Qed.
(** Reading a control connection returns, unless the process exits because malloc() failed. *)
Theorem c77_sub_read : forall x log i o ins, sreached true x log -> yok x log (YRead i (SrTcp o ins)) -> read_good x (YRead i (SrTcp o ins)) ->
  gone (rmc_sub_read x i (SrTcp o ins)) /\
  (allocs_ok (t_mem x) ins -> (forall cmds, sub_completes x i o cmds -> (length cmds <= length ins)%nat) -> returns (rmc_sub_read x i (SrTcp o ins))).
Proof.
  intros x log i o ins R [Hi Hb] Hg. destruct (sreached_inv true x log R) as (B & M & _).
  exact (proj1 (read_out x log i o ins B M (sreached_RW x log R) (proj1 Hi) Hb Hg)).
Qed.

(** ** Timeouts *)
(** The acknowledgements due on connection [i] end, after [n] of them, exactly at the end of the
    memory of its send ring, and there is room for one more. *)
Definition ack_end (x : sctx) (now i : Z) : Prop :=
  due x now i /\ exists c n, sconnected x i c /\ 0 <= n < zlen (pending_acks x i) /\
    cb_start (c_wbuf c) + zlen (contents (c_wbuf c)) + 17 * n = RMC_MAX_PACKET /\ 17 < cb_start (c_wbuf c).
Lemma ack_loop_out i l : forall x log s, BI x -> MI x log -> t_pubs x i = Some s -> s_intv s = l ->
  (exists code x' evs, ack_loop x i s l = Ok (code, x', evs) /\ forall j, j <> i -> slot (t_vec x') j = slot (t_vec x) j) \/
  (ack_loop x i s l = UB OutOfBounds /\ exists c n, sconnected x i c /\ 0 <= n < zlen l /\
    cb_start (c_wbuf c) + zlen (contents (c_wbuf c)) + 17 * n = RMC_MAX_PACKET /\ 17 < cb_start (c_wbuf c)).
Proof.
  induction l as [|iv l IH]; intros x log s B M Hs Hl; cbn [ack_loop]; [left; do 3 eexists; split; [reflexivity|auto]|].
  assert (Hc : exists c, sconnected x i c).
  { pose proof (bi_range x B i s Hs) as R. destruct (slot_ex (t_vec x) i R) as [c Hc]. exists c. split; [exact Hc|].
    destruct (Z.eq_dec (c_mode c) CONNECTED) as [Hm|Hm]; [exact Hm|]. exfalso.
    destruct (bi_idle x B i s Hs) as [_ Hi]; [|rewrite Hl in Hi; discriminate]. intros d [Hd Hmd]. congruence. }
  destruct Hc as [c Hc]. set (s1 := mkSP (s_ready s) (s_maxrecv s) (s_recv s) l) in *.
  unfold rmc_sub_packet_interval_acknowledged. change (t_vec (put_spub x i s1)) with (t_vec x). rewrite (proj1 Hc). cbn [bind].
  rewrite (proj2 Hc). cbn [negb Z.eqb CONNECTED Pos.eqb]. unfold write_interval_ack. change (t_vec (put_spub x i s1)) with (t_vec x). rewrite (proj1 Hc). cbn [bind].
  rewrite (proj2 Hc). cbn [negb Z.eqb CONNECTED Pos.eqb].
  destruct (tv_ring _ (bi_vec x B) i c (proj1 Hc)) as [W1 W2]. pose proof (slot_range _ _ _ (proj1 Hc)) as R.
  pose proof (zlen_nonneg l) as L0.
  destruct (write_ack_spec (c_wbuf c) (iv_first iv) (iv_last iv) W1) as (A1 & A2 & A3).
  pose proof (available_val _ W1) as Av. pose proof (contents_len _ W1) as Cl. pose proof (in_use_val _ W1) as Iu.
  destruct (Z_lt_ge_dec (circ_buf_available (c_wbuf c)) 17) as [L|L].
  { rewrite (A1 L). cbn [bind fst snd]. change (negb (ENOMEM =? 0)) with true. cbv iota. cbn [bind]. change (negb (ENOMEM =? 0)) with true. cbv iota.
    left. do 3 eexists. split; [reflexivity|auto]. }
  destruct (Z.eq_dec (cb_stop (c_wbuf c)) (cb_size (c_wbuf c))) as [Es|Es].
  { rewrite A3 by (lia || exact Es). cbn [bind]. right. split; [reflexivity|]. exists c, 0. split; [exact Hc|]. rewrite zlen_cons. split; [lia|].
    unfold cb_wf in W1. replace (cb_start (c_wbuf c) <=? cb_stop (c_wbuf c)) with true in Iu by lia. lia. }
  destruct A2 as (wb & Ew & X1 & X2 & X4 & X3); [lia|destruct W1; unfold cb_wf in *; lia|]. rewrite Ew. cbn [bind fst snd].
  change (negb (0 =? 0)) with false. cbv iota. cbn [bind]. change (negb (0 =? 0)) with false. cbv iota.
  set (x1 := set_tvec _ _).
  assert (U : ustep (Some (-2)) log x [SvAck i (iv_first iv) (iv_last iv); SvConn (EvMod (c_desc c) i (c_action c) (Z.lor (c_action c) POLLWRITE))] x1).
  { refine (u_ack (Some (-2)) log x i c s iv l wb _ Hc Hs Hl X1 _ X3 eq_refl). congruence. }
  pose proof (step_BI _ _ _ _ _ B U) as B1. pose proof (step_MI _ _ _ _ _ B M U) as M1.
  destruct (IH x1 _ s1 B1 M1) as [(code & x2 & evs & -> & O)|(-> & d & n & Hd & Hn & H1 & H2)]; [cbn; apply tupd_same|reflexivity| |].
  - left. cbn [bind]. do 3 eexists. split; [reflexivity|]. intros j N. rewrite (O j N). unfold x1. cbn [set_tvec t_vec put_spub set_tpubs].
    apply slot_put_other; lia.
  - right. cbn [bind]. split; [reflexivity|]. exists c, (n + 1). split; [exact Hc|]. rewrite zlen_cons. split; [lia|].
    destruct Hd as [Hd _]. unfold x1 in Hd. cbn [set_tvec t_vec put_spub set_tpubs] in Hd. rewrite slot_put_same in Hd by exact R. injection Hd as <-.
    cbn [set_wbuf set_action c_wbuf] in H1, H2. rewrite X4, X3, zlen_app in H1. rewrite X4 in H2. split; [|exact H2].
    cbn [wire] in H1. rewrite zlen_cons, enc_ack_zlen in H1. lia.
Qed.
Lemma timeout_out now l : forall x log, BI x -> MI x log -> t_ack x = l ->
  returns (timeout_loop x now l) \/ (timeout_loop x now l = UB OutOfBounds /\ exists i, ack_end x now i).
Proof.
  induction l as [|i l IH]; intros x log B M E; cbn [timeout_loop]; [left; eexists; reflexivity|].
  assert (Hs : exists s, t_pubs x i = Some s).
  { pose proof (bi_ack x B i) as X. rewrite E in X. specialize (X (or_introl eq_refl)). destruct (t_pubs x i); [eauto|congruence]. }
  destruct Hs as [s Hs]. rewrite (get_spub_some x i s B Hs). cbn [bind]. destruct (Z.ltb_spec now (sub_oldest_unacked s + t_ato x)) as [L|L]; [left; eexists; reflexivity|].
  assert (Pi : pending_acks x i = s_intv s) by (unfold pending_acks; rewrite Hs; reflexivity).
  destruct (ack_loop_out i (s_intv s) x log s B M Hs eq_refl) as [(code & x1 & evs & E1 & O)|(E1 & c & n & Hc & Hn & H1 & H2)]; rewrite E1; cbn [bind].
  2:{ right. split; [reflexivity|]. exists i. split.
      - unfold due. rewrite Pi. unfold sub_oldest_unacked in L. destruct (s_intv s); [exfalso; unfold zlen in Hn; cbn in Hn; lia|exact L].
      - exists c, n. rewrite Pi. auto. }
  destruct (ack_loop_spec i _ x log s code x1 evs B M Hs eq_refl E1) as (O1 & A1 & T1 & C1).
  pose proof (ack_loop_dec (Some (-2)) (s_intv s) eq_refl x log i s B M Hs eq_refl) as D. rewrite E1 in D. cbn [ssafe fst snd] in D. destruct D as (U1 & _ & _ & P1).
  destruct (Z.eqb_spec code 0) as [->|N]; cbn [negb]; [|left; eexists; reflexivity].
  rewrite E in A1. specialize (P1 eq_refl).
  assert (U2 : usteps (Some (-2)) log x evs (set_tack x1 l)).
  { replace evs with (evs ++ []) by apply app_nil_r. eapply us_then; [exact U1|]. exact (u_next (Some (-2)) _ x1 i l A1 P1). }
  destruct (steps_BMI (Some (-2)) log x evs _ B M U2) as [B2 M2].
  destruct (IH (set_tack x1 l) _ B2 M2 eq_refl) as [[[[cd2 x2] e2] ->]|(-> & j & Hd & c & n & Hc & Hn & H1 & H2)]; cbn [bind]; [left; eexists; reflexivity|].
  right. split; [reflexivity|]. exists j. change (pending_acks (set_tack x1 l) j) with (pending_acks x1 j) in *.
  assert (Nj : j <> i) by (intros ->; rewrite P1 in Hn; cbn in Hn; lia).
  assert (Pj : pending_acks x1 j = pending_acks x j) by (unfold pending_acks; rewrite (proj1 (O1 j Nj)); reflexivity). rewrite Pj in Hn. split.
  - unfold due in *. change (pending_acks (set_tack x1 l) j) with (pending_acks x1 j) in Hd. change (t_ato (set_tack x1 l)) with (t_ato x1) in Hd. rewrite Pj, T1 in Hd. exact Hd.
  - exists c, n. split; [|auto]. unfold sconnected in *. change (t_vec (set_tack x1 l)) with (t_vec x1) in Hc. rewrite (O j Nj) in Hc. exact Hc.
Qed.
(** rmc_sub_timeout_process returns, unless the acknowledgements due on some connection fill its
    send ring exactly to the end of its memory while there is room for one more at its start. *)
Theorem c77_sub_timeout : forall t x log now, sreached t x log ->
  returns (rmc_sub_timeout_process x now) \/ (rmc_sub_timeout_process x now = UB OutOfBounds /\ exists i, ack_end x now i).
Proof. intros t x log now R. destruct (sreached_inv t x log R) as (B & M & _). exact (timeout_out now (t_ack x) x log B M eq_refl). Qed.

(** ** Closing *)
Lemma close_out x log i : BI x -> MI x log -> 0 <= i ->
  (t_pubs x i <> None -> returns (rmc_sub_close_connection x i)) /\
  (t_pubs x i = None -> rmc_sub_close_connection x i = UB (if i <? v_size (t_vec x) then UninitRead else OutOfBounds)).
Proof.
  intros B M Hi. destruct (close_cases (t_vec x) i Hi) as [[L E]|[(c & Hs & Hm & E)|(c & [Hs Ho] & _)]].
  - split.
    + intros N. destruct (t_pubs x i) as [s|] eqn:Es; [|congruence]. pose proof (bi_range x B i s Es). lia.
    + intros Hn. unfold rmc_sub_close_connection. rewrite E. cbn [bind]. rewrite set_tvec_id. unfold get_spub.
      replace ((0 <=? i) && (i <? v_size (t_vec x))) with false by lia. replace (i <? v_size (t_vec x)) with false by lia. reflexivity.
  - pose proof (slot_range _ _ _ Hs) as R. unfold rmc_sub_close_connection. rewrite E. cbn [bind]. rewrite set_tvec_id. split.
    + intros N. destruct (t_pubs x i) as [s|] eqn:Es; [|congruence]. rewrite (get_spub_some x i s B Es). cbn [bind sub_reset].
      assert (Hn : forall d, ~ sconnected x i d) by (intros d [Hd Hmd]; rewrite Hs in Hd; injection Hd as <-; rewrite Hm in Hmd; discriminate).
      destruct (bi_idle x B i s Es Hn) as [Er _]. rewrite Er. cbn [map free_payloads bind]. eexists. reflexivity.
    + intros Hn. unfold get_spub. rewrite Hn. replace ((0 <=? i) && (i <? v_size (t_vec x))) with true by lia. replace (i <? v_size (t_vec x)) with true by lia. reflexivity.
  - pose proof (slot_range _ _ _ Hs) as R. replace (i <? v_size (t_vec x)) with true by lia.
    destruct (tv_mode _ (bi_vec x B) i c Hs) as (_ & _ & [D|[D|D]]); [contradiction| |].
    + destruct (close_open (t_vec x) i c Hs Ho) as [v Ev]. destruct (TV_close _ i c v (bi_vec x B) Hs Ho Ev) as (_ & Sz & S1 & S2).
      assert (U1 : ustep None log x [SvConn (EvRem (c_desc c) i); SvConn (EvClose (c_desc c))] (set_tvec x v)) by (exact (u_abort None log x i c v Hs D Ev)).
      pose proof (step_BI _ _ _ _ _ B U1) as B1. unfold rmc_sub_close_connection. rewrite Ev. cbn [bind]. split.
      * intros N. destruct (t_pubs x i) as [s|] eqn:Es; [|congruence]. rewrite (get_spub_some (set_tvec x v) i s B1 Es). cbn [bind sub_reset].
        assert (Hn : forall d, ~ sconnected (set_tvec x v) i d).
        { intros d [Hd Hmd]. cbn [set_tvec t_vec] in Hd. rewrite S1 in Hd. injection Hd as <-. discriminate Hmd. }
        destruct (bi_idle _ B1 i s Es Hn) as [Er _]. rewrite Er. cbn [map free_payloads bind]. eexists. reflexivity.
      * intros Hn. unfold get_spub. cbn [set_tvec t_vec t_pubs]. rewrite Sz, Hn. replace ((0 <=? i) && (i <? v_size (t_vec x))) with true by lia. reflexivity.
    + split.
      * intros _. destruct (close_succeeds x log i c B M (conj Hs D)) as (x1 & e1 & -> & _). eexists. reflexivity.
      * intros Hn. destruct (conn_spub x i c B (conj Hs D)) as [s Es]. congruence.
Qed.
(** rmc_sub_close_connection returns exactly for an index at which a connection was once
    established (or failed in rmc_sub_write); for others it reads memory that is not
    initialised, or behind the table. *)
Theorem c77_sub_close : forall t x log i, sreached t x log -> 0 <= i ->
  (t_pubs x i <> None -> returns (rmc_sub_close_connection x i)) /\
  (t_pubs x i = None -> rmc_sub_close_connection x i = UB (if i <? v_size (t_vec x) then UninitRead else OutOfBounds)).
Proof. intros t x log i R Hi. destruct (sreached_inv t x log R) as (B & M & _). exact (close_out x log i B M Hi). Qed.
Lemma close_pubs x i x' evs : rmc_sub_close_connection x i = Ok (x', evs) -> forall j, j <> i -> t_pubs x' j = t_pubs x j.
Proof.
  unfold rmc_sub_close_connection. destruct (close_conn (t_vec x) i) as [[[cd v] ce]| | |]; cbn [bind]; [|discriminate..].
  destruct (get_spub (set_tvec x v) i) as [s| | |]; cbn [bind]; [|discriminate..]. destruct (sub_reset s) as [s' fr].
  destruct (free_payloads _ _) as [f| | |]; cbn [bind]; [|discriminate..]. intros E j N.
  assert (x' = set_tmem (put_spub (set_tvec x v) i s') (fst f)) as -> by congruence.
  cbn [set_tmem put_spub set_tpubs set_tvec t_pubs]. apply tupd_other. exact N.
Qed.
Lemma sclose_out n : forall x log ind, BI x -> MI x log -> 0 <= ind ->
  ((forall j c, ind <= j < ind + Z.of_nat n -> is_open (t_vec x) j c -> t_pubs x j <> None) -> returns (sclose_loop n x ind)) /\
  ((exists j c, ind <= j < ind + Z.of_nat n /\ is_open (t_vec x) j c /\ t_pubs x j = None) -> sclose_loop n x ind = UB UninitRead).
Proof.
  induction n as [|n IH]; intros x log ind B M Hi; cbn [sclose_loop].
  { split; [intros _; eexists; reflexivity|]. intros (j & c & Hj & _). lia. }
  destruct (find_index_cases (t_vec x) ind Hi) as [[E Hn]|(c & E & Ho)]; rewrite E; cbn [bind].
  { destruct (IH x log (ind + 1) B M ltac:(lia)) as [A1 A2]. split.
    - intros H. apply A1. intros j c Hj. apply H. lia.
    - intros (j & c & Hj & Hc & Hp). apply A2. exists j, c. split; [|auto]. assert (j <> ind) by (intros ->; exact (Hn c Hc)). lia. }
  destruct (close_out x log ind B M Hi) as [C1 C2]. pose proof (close_any_dec None x log ind B M Hi) as D. pose proof (slot_range _ _ _ (proj1 Ho)) as R.
  destruct (t_pubs x ind) as [s|] eqn:Es.
  2:{ rewrite (C2 eq_refl). replace (ind <? v_size (t_vec x)) with true by lia. cbn [bind]. split; [|reflexivity].
      intros H. destruct (H ind c ltac:(lia) Ho Es). }
  destruct C1 as [[x1 e1] E1]; [discriminate|]. rewrite E1 in D |- *. cbn [bind ssafe fst snd] in *. destruct D as (U1 & _ & S1 & S2).
  destruct (steps_BMI _ _ _ _ _ B M U1) as [B1 M1]. destruct (IH x1 (log ++ e1) (ind + 1) B1 M1 ltac:(lia)) as [A1 A2]. split.
  - intros H. destruct A1 as [q ->]; [|cbn [bind]; eexists; reflexivity].
    intros j d Hj [Hd Hm]. rewrite S1 in Hd by lia. rewrite (close_pubs _ _ _ _ E1 j) by lia. apply (H j d); [lia|]. split; assumption.
  - intros (j & d & Hj & [Hd Hm] & Hp). rewrite A2; [reflexivity|]. assert (N : j <> ind) by (intros ->; congruence).
    exists j, d. split; [lia|]. split; [|rewrite (close_pubs _ _ _ _ E1 j N); exact Hp]. split; [rewrite (S1 j N); exact Hd|exact Hm].
Qed.
Lemma drop_pubs l : forall x x' evs, drop_ready x l = Ok (x', evs) -> t_pubs x' = t_pubs x.
Proof.
  induction l as [|p l IH]; intros x x' evs; cbn [drop_ready]; [intros E; assert (x' = x) as -> by congruence; reflexivity|].
  assert (K : forall y a keep cd y' e, rmc_sub_packet_dispatched y a keep = Ok (cd, y', e) -> t_pubs y' = t_pubs y).
  { clear. intros y a keep cd y' e. unfold rmc_sub_packet_dispatched, dispatched_keep_payload. destruct (unlink_packet a (t_ready y)) as [[p rest]|].
    - destruct keep; [intros E; assert (y' = set_tready y rest) as -> by congruence; reflexivity|].
      destruct (free_payloads _ _) as [f| | |]; cbn [bind]; [|discriminate..]. intros E.
      assert (y' = set_tmem (set_tready y rest) (fst f)) as -> by congruence. reflexivity.
    - intros E. assert (y' = y) as -> by congruence. reflexivity. }
  destruct (rmc_sub_packet_dispatched _ _ _) as [[[cd y] e]| | |] eqn:Ed; cbn [bind fst snd]; [|discriminate..].
  destruct (drop_ready y l) as [[y2 e2]| | |] eqn:E2; cbn [bind fst snd]; [|discriminate..].
  intros E. assert (x' = y2) as -> by congruence. rewrite (IH _ _ _ E2), (K _ _ _ _ _ _ Ed). reflexivity.
Qed.
(** rmc_sub_deactivate_context returns exactly if no open connection is the first one on its
    index and still being established. *)
Theorem c77_sub_deactivate : forall t x log, sreached t x log ->
  ((forall j c, is_open (t_vec x) j c -> t_pubs x j <> None) -> returns (rmc_sub_deactivate_context x)) /\
  ((exists j c, is_open (t_vec x) j c /\ t_pubs x j = None) -> rmc_sub_deactivate_context x = UB UninitRead).
Proof.
  intros t x log R. destruct (sreached_inv t x log R) as (B & M & _). unfold rmc_sub_deactivate_context.
  destruct (drop_dec None (t_ready x) x log B M eq_refl) as (x1 & e1 & E1 & U1 & V1 & R1 & C1). pose proof (drop_pubs _ _ _ _ E1) as P1. rewrite E1. cbn [bind fst snd].
  destruct (steps_BMI _ _ _ _ _ B M U1) as [B1 M1].
  change (set_tmcast (set_tack x1 []) (-1)) with (set_tack (set_tmcast x1 (-1)) []). rewrite sclose_ack.
  change (t_vec (set_tack (set_tmcast x1 (-1)) [])) with (t_vec x1). rewrite V1.
  assert (B2 : BI (set_tmcast x1 (-1))) by (apply (BI_same x1); auto).
  assert (M2 : MI (set_tmcast x1 (-1)) (log ++ e1)).
  { rewrite <- (app_nil_r (log ++ e1)). apply (step_MI None (log ++ e1) x1 [] (set_tmcast x1 (-1)) B1 M1). apply u_cfg; reflexivity. }
  destruct (sclose_out (Z.to_nat (get_max_index_in_use (t_vec x) + 1)) (set_tmcast x1 (-1)) (log ++ e1) 0 B2 M2 ltac:(lia)) as [A1 A2].
  change (t_vec (set_tmcast x1 (-1))) with (t_vec x1) in A1, A2. change (t_pubs (set_tmcast x1 (-1))) with (t_pubs x1) in A1, A2. rewrite V1, P1 in A1, A2. split.
  - intros H. destruct A1 as [q ->]; [|cbn [bind]; eexists; reflexivity]. intros j c _. apply H.
  - intros (j & c & Ho & Hp). rewrite A2; [reflexivity|]. exists j, c. split; [|auto]. pose proof (slot_range _ _ _ (proj1 Ho)).
    destruct (tv_mode _ (bi_vec x B) j c (proj1 Ho)) as (D1 & _ & _). destruct (tv_max _ (bi_vec x B)) as [_ Mx].
    destruct (Mx j c (proj1 Ho)) as [N L]; [intros H'; apply D1 in H'; destruct Ho; contradiction|]. unfold get_max_index_in_use. lia.
Qed.

(** ** Control messages *)
(** The message is one the send ring of connection [i] has room for, and either the data in the
    ring stops exactly at the end of its memory, or the message, of more than 8 bytes, crosses that end
    after the three bytes before it do not. *)
Definition ctrl_crash (x : sctx) (i : Z) (p : list Z) : Prop :=
  exists c, sconnected x i c /\ 4 + zlen p <= circ_buf_available (c_wbuf c) /\
    let e := cb_stop (c_wbuf c) in
    e = RMC_MAX_PACKET \/
    (8 < zlen p /\ (e + 3 <= RMC_MAX_PACKET /\ RMC_MAX_PACKET < e + 3 + zlen p)).
Lemma ctrl_out x log i p ptr : BI x -> MI x log -> 0 <= i ->
  (v_size (t_vec x) <= i -> rmc_sub_write_control_message x i p ptr = if (ptr =? 0) || (zlen p =? 0) then Ok (EINVAL, x, []) else UB OutOfBounds) /\
  (i < v_size (t_vec x) -> (ctrl_crash x i p -> ptr <> 0 -> p <> [] -> rmc_sub_write_control_message x i p ptr = UB OutOfBounds) /\
     (ptr = 0 \/ p = [] \/ ~ ctrl_crash x i p -> returns (rmc_sub_write_control_message x i p ptr))).
Proof.
  intros B M Hi. unfold rmc_sub_write_control_message.
  assert (P0 : zlen p = 0 <-> p = []) by (destruct p; [split; reflexivity|]; rewrite zlen_cons; pose proof (zlen_nonneg p); split; [lia|discriminate]).
  split.
  { intros L. destruct (_ || _); [reflexivity|]. unfold slot. replace (0 <=? i) with true by lia.
    destruct (nth_error _ _) as [c|] eqn:En; [|reflexivity]. exfalso. assert (H := nth_error_Some (v_conns (t_vec x)) (Z.to_nat i)). rewrite En in H.
    assert (Z.to_nat i < length (v_conns (t_vec x)))%nat by (apply H; discriminate). unfold v_size, zlen in L. lia. }
  intros L. destruct (slot_ex (t_vec x) i (conj Hi L)) as [c Hs]. rewrite Hs.
  destruct (_ || _) eqn:E0.
  { split; [|intros _; eexists; reflexivity]. intros _ Hp Hn. apply orb_true_iff in E0. destruct E0 as [E0|E0]; [lia|]. destruct Hn. apply P0. lia. }
  apply orb_false_iff in E0. destruct E0 as [E1 E2]. cbn [bind].
  assert (Hnp : p <> []) by (intros H; apply P0 in H; lia).
  destruct (Z.eqb_spec (c_mode c) CONNECTED) as [Hm|Hm]; cbn [negb].
  2:{ split; [|intros _; eexists; reflexivity]. intros (d & [Hd Hmd] & _). congruence. }
  destruct (tv_ring _ (bi_vec x B) i c Hs) as [W1 W2]. pose proof (zlen_nonneg p) as Hp0.
  destruct (write_ctrl_spec (c_wbuf c) p ptr W1 ltac:(lia) ltac:(lia)) as (A1 & A2 & A3 & A4 & A5). cbv zeta in *.
  pose proof (available_val _ W1) as Av. pose proof (contents_len _ W1) as Cl. pose proof (in_use_val _ W1) as Iu. pose proof W1 as W0. unfold cb_wf in W0.
  assert (Crash : ctrl_crash x i p -> 4 + zlen p <= circ_buf_available (c_wbuf c) /\
     (cb_stop (c_wbuf c) = cb_size (c_wbuf c) \/ (8 < zlen p /\ cb_stop (c_wbuf c) + 3 <= cb_size (c_wbuf c) /\ cb_size (c_wbuf c) < cb_stop (c_wbuf c) + 3 + zlen p))).
  { intros (d & [Hd _] & Ha & Hc). assert (d = c) as -> by congruence. split; [exact Ha|].
    rewrite W2. exact Hc. }
  assert (Crash' : 4 + zlen p <= circ_buf_available (c_wbuf c) ->
     (cb_stop (c_wbuf c) = cb_size (c_wbuf c) \/ (8 < zlen p /\ cb_stop (c_wbuf c) + 3 <= cb_size (c_wbuf c) /\ cb_size (c_wbuf c) < cb_stop (c_wbuf c) + 3 + zlen p)) -> ctrl_crash x i p).
  { intros Ha Hc. exists c. split; [split; assumption|]. split; [exact Ha|]. cbv zeta.
    rewrite W2 in Hc. exact Hc. }
  split.
  - intros Hc _ _. destruct (Crash Hc) as [Ha [H|(H1 & H2 & H3)]]; [rewrite A5|rewrite A4]; auto.
  - intros [H|[H|H]]; [lia|contradiction|].
    assert (K : exists q, write_ctrl (c_wbuf c) p ptr = Ok q).
    { destruct (Z_lt_ge_dec (circ_buf_available (c_wbuf c)) (4 + zlen p)) as [L1|L1]; [rewrite (A1 L1); eexists; reflexivity|].
      destruct (Z.eq_dec (cb_stop (c_wbuf c)) (cb_size (c_wbuf c))) as [E|E]; [destruct H; apply Crash'; lia|].
      destruct (Z_le_gt_dec (cb_stop (c_wbuf c) + 3 + zlen p) (cb_size (c_wbuf c))) as [C1|C1].
      { destruct A2 as (wb & -> & _); [lia|lia|auto|]. eexists. reflexivity. }
      destruct (Z_lt_ge_dec (cb_size (c_wbuf c)) (cb_stop (c_wbuf c) + 3)) as [C2|C2].
      { destruct A2 as (wb & -> & _); [lia|lia|auto|]. eexists. reflexivity. }
      destruct (Z_le_gt_dec (zlen p) 8) as [C3|C3]; [|destruct H; apply Crash'; lia].
      destruct A3 as (wb & -> & _); [lia|lia|lia|lia|]. eexists. reflexivity. }
    destruct K as [q ->]. cbn [bind]. destruct (negb _); eexists; reflexivity.
Qed.
(** A control message: the call returns, unless the index is not one of the table's, or the
    message meets the end of the ring's memory in the way above. *)
Theorem c77_sub_control : forall t x log i p ptr, sreached t x log -> 0 <= i ->
  (v_size (t_vec x) <= i -> rmc_sub_write_control_message x i p ptr = if (ptr =? 0) || (zlen p =? 0) then Ok (EINVAL, x, []) else UB OutOfBounds) /\
  (i < v_size (t_vec x) -> (ctrl_crash x i p -> ptr <> 0 -> p <> [] -> rmc_sub_write_control_message x i p ptr = UB OutOfBounds) /\
     (ptr = 0 \/ p = [] \/ ~ ctrl_crash x i p -> returns (rmc_sub_write_control_message x i p ptr))).
Proof. intros t x log i p ptr R Hi. destruct (sreached_inv t x log R) as (B & M & _). exact (ctrl_out x log i p ptr B M Hi). Qed.
Lemma crash_dec x i p : {ctrl_crash x i p} + {~ ctrl_crash x i p}.
Proof.
  unfold ctrl_crash. destruct (slot (t_vec x) i) as [c| | |] eqn:Hs; [|right; intros (c & [Hc _] & _); congruence..].
  destruct (Z.eq_dec (c_mode c) CONNECTED) as [Hm|Hm]; [|right; intros (d & [Hd Hmd] & _); congruence].
  cbv zeta. set (e := cb_stop (c_wbuf c)).
  destruct (Z_le_gt_dec (4 + zlen p) (circ_buf_available (c_wbuf c))) as [A|A]; [|right; intros (d & [Hd _] & H & _); assert (d = c) as -> by congruence; lia].
  assert (D : {e = RMC_MAX_PACKET \/ (8 < zlen p /\ (e + 3 <= RMC_MAX_PACKET /\ RMC_MAX_PACKET < e + 3 + zlen p))} +
              {~ (e = RMC_MAX_PACKET \/ (8 < zlen p /\ (e + 3 <= RMC_MAX_PACKET /\ RMC_MAX_PACKET < e + 3 + zlen p)))}).
  { destruct (Z.eq_dec e RMC_MAX_PACKET), (Z_lt_ge_dec 8 (zlen p)), (Z_le_gt_dec (e + 3) RMC_MAX_PACKET), (Z_lt_ge_dec RMC_MAX_PACKET (e + 3 + zlen p)); first [left; lia|right; lia]. }
  destruct D as [D|D]; [left; exists c|right]; [split; [split; assumption|auto]|]. intros (d & [Hd _] & _ & H). assert (d = c) as -> by congruence. contradiction.
Qed.
Lemma control_by_out x log f p ptr : BI x -> MI x log -> ((exists i c, f = Ok (Some i) /\ slot (t_vec x) i = Ok c) \/ f = Ok None) ->
  returns (control_by f x p ptr) \/ (control_by f x p ptr = UB OutOfBounds /\ exists i, f = Ok (Some i) /\ ctrl_crash x i p /\ ptr <> 0 /\ p <> []).
Proof.
  intros B M Hf. unfold control_by. destruct (_ || _) eqn:E0; [left; eexists; reflexivity|]. apply orb_false_iff in E0. destruct E0 as [E1 E2].
  destruct Hf as [(i & c & -> & Hs)| ->]; cbn [bind]; [|left; eexists; reflexivity]. rewrite Hs. cbn [bind]. pose proof (slot_range _ _ _ Hs) as R.
  destruct (negb _); [left; eexists; reflexivity|]. destruct (ctrl_out x log i p ptr B M (proj1 R)) as [_ A]. destruct (A (proj2 R)) as [A1 A2].
  assert (Hn : p <> []) by (intros ->; cbn in E2; lia).
  destruct (crash_dec x i p) as [C|C]; [right; split; [apply A1; auto; lia|]; exists i; split; [reflexivity|]; split; [exact C|]; split; [lia|exact Hn]|left; apply A2; auto].
Qed.
Lemma finder_slot x p : BI x -> (forall c, p c = true -> c_desc c <> -1) ->
  (exists i c, find_conn (t_vec x) p = Ok (Some i) /\ slot (t_vec x) i = Ok c) \/ find_conn (t_vec x) p = Ok None.
Proof.
  intros B H. destruct (find_conn_spec (t_vec x) p (tv_max _ (bi_vec x B))) as [(i & c & E & Hs & _)|[E _]]; [|exact H| |right; exact E].
  - pose proof (tv_size _ (bi_vec x B)). unfold RMC_LISTEN_INDEX, RMC_NIL_INDEX in *. lia.
  - left. exists i, c. auto.
Qed.
(** By address or node id the call returns, unless it finds a connection as above. *)
Theorem c77_sub_control_by : forall t x log addr port node p ptr, sreached t x log ->
  (returns (control_by_address x addr port p ptr) \/
    (control_by_address x addr port p ptr = UB OutOfBounds /\ exists i, find_by_address (t_vec x) addr port = Ok (Some i) /\ ctrl_crash x i p /\ ptr <> 0 /\ p <> [])) /\
  (returns (control_by_node_id x node p ptr) \/
    (control_by_node_id x node p ptr = UB OutOfBounds /\ exists i, find_by_node_id (t_vec x) node = Ok (Some i) /\ ctrl_crash x i p /\ ptr <> 0 /\ p <> [])).
Proof.
  intros t x log addr port node p ptr R. destruct (sreached_inv t x log R) as (B & M & _).
  split; apply (control_by_out x log _ p ptr B M); apply finder_slot; auto; intros c Hc; lia.
Qed.

(** ** The rest *)
(** All other calls return. *)
Theorem c77_sub_other : forall t x log o, sreached t x log -> yok x log o ->
  match o with YRead _ _ | YTimeout _ | YClose _ | YCtrl _ _ _ | YCtrlAddr _ _ _ _ | YCtrlNode _ _ _ | YDeactivate => False | _ => True end ->
  returns (ystep x o).
Proof.
  intros t x log o R Hok Ho. destruct (sreached_inv t x log R) as (B & M & _).
  destruct o as [i o|i o|now|i|a keep|ptr|i p ptr|a port p ptr|node p ptr|a c r|o|]; try contradiction; cbn [ystep]; try (eexists; reflexivity).
  - destruct (find_index_cases (t_vec x) i (proj1 (proj1 Hok))) as [[E _]|(c & E & Hs & Hop)].
    { unfold rmc_sub_write. rewrite E. cbn [bind]. eexists. reflexivity. }
    destruct (tv_mode _ (bi_vec x B) i c Hs) as (_ & _ & [D|[D|D]]); [contradiction| |].
    + destruct (c78_sub_complete t x log i o c R Hok Hs D) as (x' & evs & d & -> & _). cbn [bind]. eexists. reflexivity.
    + destruct (c78_sub_write t x log i o R Hok) as [_ A]. destruct (A c (conj Hs D)) as [A1 A2].
      destruct (list_eq_dec Z.eq_dec (contents (c_wbuf c)) []) as [E0|E0]; [rewrite (A1 E0)|destruct (A2 E0) as (act & c' & -> & _)]; cbn [bind]; eexists; reflexivity.
  - destruct (taken_out x log a keep B M) as (code & x' & evs & -> & _). eexists. reflexivity.
Qed.

(** ** All calls *)
(** The calls that may not return, in the states in which they may not. *)
Inductive sub_exception (x : sctx) : yop -> Prop :=
| se_mcast i ins : ~ allocs_ok (t_mem x) (mcast_allocs ins) -> sub_exception x (YRead i (SrMcast ins))
| se_tcp i t ins : ~ (allocs_ok (t_mem x) ins /\ forall cmds, sub_completes x i t cmds -> (length cmds <= length ins)%nat) -> sub_exception x (YRead i (SrTcp t ins))
| se_timeout now i : ack_end x now i -> sub_exception x (YTimeout now)
| se_close i : t_pubs x i = None -> sub_exception x (YClose i)
| se_deactivate j c : is_open (t_vec x) j c -> t_pubs x j = None -> sub_exception x YDeactivate
| se_ctrl_index i p ptr : v_size (t_vec x) <= i -> sub_exception x (YCtrl i p ptr)
| se_ctrl i p ptr : ctrl_crash x i p -> sub_exception x (YCtrl i p ptr)
| se_addr addr port i p ptr : ctrl_crash x i p -> sub_exception x (YCtrlAddr addr port p ptr)
| se_node node i p ptr : ctrl_crash x i p -> sub_exception x (YCtrlNode node p ptr).
Lemma every_dec (P : nat -> Prop) (D : forall n, {P n} + {~ P n}) n : (forall i, (i < n)%nat -> P i) \/ exists i, (i < n)%nat /\ ~ P i.
Proof.
  induction n as [|n [IH|(i & H1 & H2)]]; [left; lia| |right; exists i; split; [lia|exact H2]].
  destruct (D n) as [H|H]; [left|right; exists n; split; [lia|exact H]]. intros i Hi. destruct (Nat.eq_dec i n) as [->|N]; [exact H|apply IH; lia].
Qed.
Theorem c77_sub_returns_partial : forall x log o, sreached true x log -> yok x log o -> read_good x o ->
  returns (ystep x o) \/ sub_exception x o.
Proof.
  intros x log o R Hok Hg. pose proof (c77_sub_other true x log o R Hok) as Oth.
  destruct o as [i [ins|o ins]|i o|now|i|a keep|ptr|i p ptr|a port p ptr|node p ptr|a c r|o|]; try (left; apply Oth; exact Logic.I); clear Oth; cbn [ystep].
  - destruct (c77_sub_multicast true x log i ins R Hok) as [[[[[[cd op] x'] evs] ->]|E] A]; [left; cbn [bind]; eexists; reflexivity|right].
    apply se_mcast. intros H. destruct (A H) as [q Q]. congruence.
  - destruct (c77_sub_read x log i o ins R Hok Hg) as [[[[[[cd op] x'] evs] ->]|E] A]; [left; cbn [bind]; eexists; reflexivity|right].
    apply se_tcp. intros [H1 H2]. destruct (A H1 H2) as [q Q]. congruence.
  - destruct (c77_sub_timeout true x log now R) as [H|(_ & i & H)]; [left; exact H|right; exact (se_timeout x now i H)].
  - destruct (c77_sub_close true x log i R (proj1 Hok)) as [A _]. destruct (t_pubs x i) eqn:E; [left|right; exact (se_close x i E)].
    destruct A as [q ->]; [discriminate|]. cbn [bind]. eexists. reflexivity.
  - destruct (c77_sub_control true x log i p ptr R (proj1 Hok)) as [_ A]. destruct (Z_lt_ge_dec i (v_size (t_vec x))) as [L|L]; [|right; apply se_ctrl_index; lia].
    destruct (A L) as [_ A2]. destruct (crash_dec x i p) as [C|C]; [right; exact (se_ctrl x i p ptr C)|left; apply A2; auto].
  - destruct (proj1 (c77_sub_control_by true x log a port 0 p ptr R)) as [H|(_ & i & _ & C & _)]; [left; exact H|right; exact (se_addr x a port i p ptr C)].
  - destruct (proj2 (c77_sub_control_by true x log 0 0 node p ptr R)) as [H|(_ & i & _ & C & _)]; [left; exact H|right; exact (se_node x node i p ptr C)].
  - destruct (c77_sub_deactivate true x log R) as [A _].
    assert (D : (forall j c, is_open (t_vec x) j c -> t_pubs x j <> None) \/ exists j c, is_open (t_vec x) j c /\ t_pubs x j = None).
    { pose (P := fun n : nat => match slot (t_vec x) (Z.of_nat n) with Ok c => c_mode c = CLOSED \/ t_pubs x (Z.of_nat n) <> None | _ => True end).
      destruct (every_dec P) with (n := Z.to_nat (v_size (t_vec x))) as [H|(n & _ & H)].
      - intros n. unfold P. destruct (slot (t_vec x) (Z.of_nat n)) as [c| | |]; [|left; exact Logic.I..].
        destruct (Z.eq_dec (c_mode c) CLOSED); [left; auto|]. destruct (t_pubs x (Z.of_nat n)); [left; right; discriminate|right; intuition].
      - left. intros j c [Hs Hm]. pose proof (slot_range _ _ _ Hs) as Rg. specialize (H (Z.to_nat j) ltac:(lia)). unfold P in H. rewrite Z2Nat.id in H by lia.
        rewrite Hs in H. destruct H as [H|H]; [contradiction|exact H].
      - right. unfold P in H. destruct (slot (t_vec x) (Z.of_nat n)) as [c| | |] eqn:Hs; try (destruct H; exact Logic.I).
        exists (Z.of_nat n), c. split; [split; [exact Hs|intros E; apply H; left; exact E]|]. destruct (t_pubs x (Z.of_nat n)); [destruct H; right; discriminate|reflexivity]. }
    destruct D as [D|(j & c & D1 & D2)]; [left; exact (A D)|right; exact (se_deactivate x j c D1 D2)].
Qed.

(** ** The exceptions happen *)
(** 115 control messages to publisher 0, of each of which it took all but the last byte, and one
    more up to the end of the ring's memory; two acknowledgements are pending. *)
Definition c77_sround (k : Z) : list yop :=
  [YCtrl 0 (repeat 7 561) 4096; YWrite 0 (mkSw (CmpOk 0 0) (WOk (if k =? 0 then 563 else 564)))].
Definition c77_sops1 : list yop := sdemo_ops ++ flat_map c77_sround (map Z.of_nat (seq 0 115)).
Definition c77_sops2 : list yop := c77_sops1 ++ [YCtrl 0 (repeat 8 537) 4096].
Definition c77_sfacts (x : sctx) (stop : Z) : bool :=
  match slot (t_vec x) 0 with Ok c => (c_mode c =? CONNECTED) && (cb_start (c_wbuf c) =? 64859) && (cb_stop (c_wbuf c) =? stop) && (circ_buf_available (c_wbuf c) =? 65399 - (stop - 64859)) &&
     (zlen (contents (c_wbuf c)) =? stop - 64859) | _ => false end &&
  match pending_acks x 0 with iv :: _ :: _ => iv_ts iv + t_ato x <=? 10000000 | _ => false end &&
  match rmc_sub_timeout_process x 10000000 with UB OutOfBounds => stop =? 65400 | _ => negb (stop =? 65400) end.
Lemma c77_saux (r : option (sctx * list sev)) ops stop : match r with Some (x, log) => c77_sfacts x stop | None => false end = true ->
  (forall x log, r = Some (x, log) -> yhist true sdemo0 ops x log) ->
  exists x log c iv iv2 l, yhist true sdemo0 ops x log /\ sconnected x 0 c /\ cb_start (c_wbuf c) = 64859 /\ cb_stop (c_wbuf c) = stop /\
    circ_buf_available (c_wbuf c) = 65399 - (stop - 64859) /\ zlen (contents (c_wbuf c)) = stop - 64859 /\ pending_acks x 0 = iv :: iv2 :: l /\ iv_ts iv + t_ato x <= 10000000 /\
    (stop = 65400 -> rmc_sub_timeout_process x 10000000 = UB OutOfBounds).
Proof.
  intros C H. destruct r as [[x log]|]; [|discriminate C]. specialize (H x log eq_refl). unfold c77_sfacts in C. apply andb_prop in C. destruct C as [C C3]. apply andb_prop in C. destruct C as [C1 C2].
  destruct (slot (t_vec x) 0) as [c| | |] eqn:Es; try discriminate C1. destruct (pending_acks x 0) as [|iv [|iv2 l]] eqn:Ep; try discriminate C2.
  assert (Ht : stop = 65400 -> rmc_sub_timeout_process x 10000000 = UB OutOfBounds).
  { intros ->. destruct (rmc_sub_timeout_process x 10000000) as [?|[]| |]; try discriminate C3; reflexivity. }
  clear C3. bsplit.
  exists x, log, c, iv, iv2, l. split; [exact H|]. split; [split; [exact Es|lia]|]. repeat match goal with |- _ /\ _ => split end; reflexivity || assumption || lia.
Qed.
(** The next control message of 600 bytes crosses the end of the memory; after the one that ends
    there exactly, another control message of one byte, and the acknowledgements, do not fit. *)
Theorem c77_sub_refuted :
  (exists x log, yhist true sdemo0 c77_sops1 x log /\ ctrl_crash x 0 (repeat 7 (Z.to_nat 600)) /\
     rmc_sub_write_control_message x 0 (repeat 7 (Z.to_nat 600)) 4096 = UB OutOfBounds) /\
  (exists x log, yhist true sdemo0 c77_sops2 x log /\ ctrl_crash x 0 [1] /\ rmc_sub_write_control_message x 0 [1] 4096 = UB OutOfBounds /\
     ack_end x 10000000 0 /\ rmc_sub_timeout_process x 10000000 = UB OutOfBounds).
Proof.
  split.
  - destruct (c77_saux (yrun sdemo0 [] c77_sops1) c77_sops1 64860) as (x & log & c & iv & iv2 & l & H & Hc & H1 & H2 & H3 & H4 & H5 & H6 & H7).
    { vm_cast_no_check (@eq_refl bool true). }
    { intros x log E. exact (yrun_hist true sdemo0 _ sdemo0 [] [] x log (yh_nil _ _) E). }
    exists x, log. split; [exact H|].
    assert (C : ctrl_crash x 0 (repeat 7 (Z.to_nat 600))).
    { exists c. split; [exact Hc|]. change (zlen (repeat 7 (Z.to_nat 600))) with 600. cbv zeta. unfold RMC_MAX_PACKET. lia. }
    split; [exact C|]. assert (R : sreached true x log) by (exists sdemo0, c77_sops1; split; [exact sdemo0_fresh|exact H]).
    destruct (c77_sub_control true x log 0 (repeat 7 (Z.to_nat 600)) 4096 R ltac:(lia)) as [_ A]. apply A; [|exact C|discriminate|discriminate].
    exact (proj2 (slot_range _ _ _ (proj1 Hc))).
  - destruct (c77_saux (yrun sdemo0 [] c77_sops2) c77_sops2 65400) as (x & log & c & iv & iv2 & l & H & Hc & H1 & H2 & H3 & H4 & H5 & H6 & H7).
    { vm_cast_no_check (@eq_refl bool true). }
    { intros x log E. exact (yrun_hist true sdemo0 _ sdemo0 [] [] x log (yh_nil _ _) E). }
    exists x, log. split; [exact H|].
    assert (C : ctrl_crash x 0 [1]).
    { exists c. split; [exact Hc|]. change (zlen [1]) with 1. cbv zeta. unfold RMC_MAX_PACKET. lia. }
    split; [exact C|]. assert (R : sreached true x log) by (exists sdemo0, c77_sops2; split; [exact sdemo0_fresh|exact H]).
    pose proof (proj2 (slot_range _ _ _ (proj1 Hc))) as Hv.
    destruct (c77_sub_control true x log 0 [1] 4096 R ltac:(lia)) as [_ A]. split; [apply A; [exact Hv|exact C|discriminate|discriminate]|].
    assert (Ae : ack_end x 10000000 0).
    { split; [unfold due; rewrite H5; exact H6|]. exists c, 0. split; [exact Hc|]. rewrite H5, !zlen_cons, H1, H4. pose proof (zlen_nonneg l). unfold RMC_MAX_PACKET. lia. }
    split; [exact Ae|exact (H7 eq_refl)].
Qed.
(** In the demo history: a datagram with packet 9 is read if malloc() succeeds, and ends the process
    if not; so is packet 6 over TCP; connection 0 can be closed, but not the indices 1 (never
    used) and 3 (not in the table). *)
Example c77_sub_witness : exists x log, sreached true x log /\
  (allocs_ok (t_mem x) (mcast_allocs [data 9 [90] 300 1200 []]) /\ returns (rmc_sub_read x RMC_MULTICAST_INDEX (SrMcast [data 9 [90] 300 1200 []]))) /\
  rmc_sub_read x RMC_MULTICAST_INDEX (SrMcast [data 9 [90] 0 1200 []]) = Abort /\
  (let m := CmdPacket (Wire.mkHdr 6 7 1 0 4711) [60] in
   sub_completes x 0 (RData (wire m)) [m] /\ returns (rmc_sub_read x 0 (SrTcp (RData (wire m)) [mkAi 300 1200 []])) /\
   rmc_sub_read x 0 (SrTcp (RData (wire m)) []) = Abort) /\
  returns (rmc_sub_close_connection x 0) /\ rmc_sub_close_connection x 1 = UB UninitRead /\ rmc_sub_close_connection x 3 = UB OutOfBounds /\
  returns (rmc_sub_deactivate_context x) /\ returns (rmc_sub_timeout_process x 10000000).
Proof.
  destruct (yrun sdemo0 [] sdemo_ops) as [[x log]|] eqn:E1; [|vm_compute in E1; discriminate E1].
  pose proof (yrun_hist true sdemo0 _ sdemo0 [] [] x log (yh_nil _ _) E1) as H1. exists x, log.
  assert (R : sreached true x log) by (exists sdemo0, sdemo_ops; split; [exact sdemo0_fresh|exact H1]). split; [exact R|]. clear R H1.
  vm_compute in E1. injection E1 as <- <-.
  split; [split; [split; [repeat constructor; intros []|repeat constructor; discriminate]|eexists; vm_compute; reflexivity]|]. split; [vm_compute; reflexivity|].
  split.
  { cbv zeta. split; [|split; [eexists; vm_compute; reflexivity|vm_compute; reflexivity]].
    eexists. eexists. exists []. split; [split; [vm_compute; reflexivity|reflexivity]|]. split; [reflexivity|]. 
    split; [vm_compute; reflexivity|]. split; [|intros [] rest _ _ H; discriminate H]. constructor; [|constructor].
    split; [|exact Logic.I]. vm_compute. repeat match goal with |- _ /\ _ => split | |- Forall _ _ => constructor end; discriminate || reflexivity. }
  split; [eexists; vm_compute; reflexivity|]. split; [vm_compute; reflexivity|]. split; [vm_compute; reflexivity|]. split; eexists; vm_compute; reflexivity.
Qed.

Print Assumptions c77_sub_multicast.
Print Assumptions c77_sub_read.
Print Assumptions c77_sub_timeout.
Print Assumptions c77_sub_close.
Print Assumptions c77_sub_deactivate.
Print Assumptions c77_sub_control.
Print Assumptions c77_sub_control_by.
Print Assumptions c77_sub_other.
Print Assumptions c77_sub_returns_partial.
Print Assumptions c77_sub_refuted.
