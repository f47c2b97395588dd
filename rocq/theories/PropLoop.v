(** PropLoop.v — C91: the bundled programs' event loops. *)
From Coq Require Import Permutation.
From Verif Require Import Base CircBuf CircBufProofs Wire SeqList Pub SpecPub PubProofs Sub SpecSub SubProofs Proto SpecProto ProtoProofs Safe
  Conn SpecConn ConnProofs PubCtx SpecPubCtx PubCtxProofs PubCtxSteps PropPubCtx PropPubTime SubCtx SpecSubCtx SubSteps SubInv PropSubCtx SpecPoll PollPub PollSub PropPoll PropPollSub SpecDesc Desc DescSub PropDesc
  Epoll SpecEpoll EpollProofs EpollPub EpollSub PropEpoll Loop SpecLoop LoopPub LoopSub.

(** ** How long the loops wait *)
(** The wait ends after the deadline, by at most a millisecond, and is unbounded only if there is
    no deadline — for deadlines less than 2^31 - 1 ms away. *)
Theorem c91_wait : forall timeout now, timeout - now < 2147483647000 ->
  (wait_ms timeout now = -1 <-> timeout = -1) /\
  (timeout <> -1 -> 1 <= wait_ms timeout now /\ timeout < now + 1000 * wait_ms timeout now) /\
  (timeout <> -1 -> now <= timeout -> now + 1000 * wait_ms timeout now <= timeout + 1000) /\
  (timeout <> -1 -> timeout <= now -> wait_ms timeout now = 1).
Proof.
  intros timeout now B. unfold wait_ms. destruct (Z.eqb_spec timeout (-1)) as [E|E].
  { split; [split; auto|]. repeat split; intros; contradiction. }
  set (t := if timeout - now <? 0 then 0 else timeout - now).
  assert (Ht : 0 <= t < 2147483647000 /\ timeout - now <= t /\ (now <= timeout -> t = timeout - now) /\ (timeout <= now -> t = 0)) by (unfold t; destruct (Z.ltb_spec (timeout - now) 0); lia).
  destruct Ht as (H1 & H2 & H3 & H4). rewrite Z.quot_div_nonneg by lia. pose proof (Z.div_mod t 1000 ltac:(lia)) as D. pose proof (Z.mod_pos_bound t 1000 ltac:(lia)) as M.
  assert (R : int32 (t / 1000 + 1) = t / 1000 + 1). { unfold int32. rewrite Z.mod_small by lia. lia. } rewrite R.
  split; [split; [lia|contradiction]|]. split; [lia|]. split; [intros _ H; specialize (H3 H); lia|]. intros _ H. rewrite (H4 H). reflexivity.
Qed.
(** Further away the argument turns negative, which means forever. *)
Theorem c91_wait_far_refuted : forall now, 0 <= now -> wait_ms (now + 2147483647000) now = -2147483648.
Proof.
  intros now H. unfold wait_ms. replace (now + 2147483647000 =? -1) with false by lia. replace (now + 2147483647000 - now) with 2147483647000 by lia. reflexivity.
Qed.
Example c91_wait_witness : wait_ms 1000000 998500 = 2 /\ 1000000 - 998500 < 2147483647000 /\ wait_ms 998500 1000000 = 1.
Proof. repeat split. Qed.

(** ** Which calls are made *)
(** Every element of the array gets a read if it has input and then a write if it has room, in
    the reverse order of the array, and there are no other reads and writes. *)
Lemma pub_event_did x e x' l : pub_event x e = Ok (x', l) -> pub_did l = wanted e.
Proof.
  unfold pub_event, wanted, has. set (i := u16 _). destruct (Z.land (y_ev (fst e)) EPOLLIN =? 0); cbn [negb bind]; [|destruct (rmc_pub_read _ _ _) as [[[[? ?] ?] ?]| | |]; cbn [bind]; [|discriminate..]];
  (destruct (Z.land (y_ev (fst e)) EPOLLOUT =? 0); cbn [negb fst snd]; [intros E; injection E as _ <-; reflexivity|]);
  (destruct (rmc_pub_write _ _ _) as [[[[? ?] ?] ?]| | |]; cbn [bind]; [|discriminate..]); (destruct (_ || _); [intros E; injection E as _ <-; reflexivity|]);
  (destruct (rmc_pub_close_connection _ _) as [[[? ?] ?]| | |]; cbn [bind]; [|discriminate..]); intros E; injection E as _ <-; reflexivity.
Qed.
Theorem c91_pub_calls : forall x b code x' l, pub_process_events x b = Ok (code, x', l) ->
  pub_did l = flat_map wanted (rev b) /\ (code = ETIME <-> b = []) /\ (b = [] -> x' = x).
Proof.
  intros x b code x' l. assert (G : forall r x x' l, pub_events x r = Ok (x', l) -> pub_did l = flat_map wanted r).
  { clear. induction r as [|e r IH]; intros x x' l; cbn [pub_events]; [intros E; injection E as _ <-; reflexivity|].
    destruct (pub_event x e) as [[x1 l1]| | |] eqn:E1; cbn [bind fst snd]; [|discriminate..]. destruct (pub_events x1 r) as [[x2 l2]| | |] eqn:E2; cbn [bind fst snd]; [|discriminate..]. intros E. injection E as _ <-.
    unfold pub_did in *. rewrite flat_map_app. cbn [flat_map]. f_equal; [exact (pub_event_did _ _ _ _ E1)|exact (IH _ _ _ E2)]. }
  unfold pub_process_events. destruct b as [|e b].
  - intros E. assert (code = ETIME /\ x' = x /\ l = []) as (-> & -> & ->) by (repeat split; congruence). repeat split.
  - destruct (pub_events x (rev (e :: b))) as [[x1 l1]| | |] eqn:E1; cbn [bind fst snd]; [|discriminate..]. intros E. assert (code = 0 /\ l = l1) as [-> ->] by (split; congruence). split; [exact (G _ _ _ _ E1)|]. split; [split; discriminate|discriminate].
Qed.
Lemma sub_event_did x e x' l : sub_event x e = Ok (x', l) -> sub_did l = wanted e.
Proof.
  unfold sub_event, wanted, has. set (i := u16 _). destruct (Z.land (y_ev (fst e)) EPOLLIN =? 0); cbn [negb bind]; [|destruct (rmc_sub_read _ _ _) as [[[[? ?] ?] ?]| | |]; cbn [bind]; [|discriminate..]];
  (destruct (Z.land (y_ev (fst e)) EPOLLOUT =? 0); cbn [negb fst snd]; [intros E; injection E as _ <-; reflexivity|]);
  (destruct (rmc_sub_write _ _ _) as [[[[? ?] ?] ?]| | |]; cbn [bind]; [|discriminate..]); (destruct (_ =? 0); [intros E; injection E as _ <-; reflexivity|]);
  (destruct (rmc_sub_close_connection _ _) as [[? ?]| | |]; cbn [bind fst snd]; [|discriminate..]); intros E; injection E as _ <-; reflexivity.
Qed.
Theorem c91_sub_calls : forall x b code x' l, sub_process_events x b = Ok (code, x', l) ->
  sub_did l = flat_map wanted (rev b) /\ (code = ETIME <-> b = []) /\ (b = [] -> x' = x).
Proof.
  intros x b code x' l. assert (G : forall r x x' l, sub_events x r = Ok (x', l) -> sub_did l = flat_map wanted r).
  { clear. induction r as [|e r IH]; intros x x' l; cbn [sub_events]; [intros E; injection E as _ <-; reflexivity|].
    destruct (sub_event x e) as [[x1 l1]| | |] eqn:E1; cbn [bind fst snd]; [|discriminate..]. destruct (sub_events x1 r) as [[x2 l2]| | |] eqn:E2; cbn [bind fst snd]; [|discriminate..]. intros E. injection E as _ <-.
    unfold sub_did in *. rewrite flat_map_app. cbn [flat_map]. f_equal; [exact (sub_event_did _ _ _ _ E1)|exact (IH _ _ _ E2)]. }
  unfold sub_process_events. destruct b as [|e b].
  - intros E. assert (code = ETIME /\ x' = x /\ l = []) as (-> & -> & ->) by (repeat split; congruence). repeat split.
  - destruct (sub_events x (rev (e :: b))) as [[x1 l1]| | |] eqn:E1; cbn [bind fst snd]; [|discriminate..]. intros E. assert (code = 0 /\ l = l1) as [-> ->] by (split; congruence). split; [exact (G _ _ _ _ E1)|]. split; [split; discriminate|discriminate].
Qed.

(** ** Which socket each call is about *)
Lemma nodup_fun {A} (f g : A -> Z) (b : list A) : NoDup (map f b) -> (forall a a', In a b -> In a' b -> g a = g a' -> f a = f a') -> NoDup (map g b).
Proof.
  induction b as [|a b IH]; intros N H; cbn [map] in *; [constructor|]. inversion N as [|? ? N1 N2 Q]; subst. constructor; [|apply IH; [exact N2|intros; apply H; cbn; auto]].
  intros Hin. apply in_map_iff in Hin. destruct Hin as (a' & E & Ha'). apply N1. rewrite (H a a'); [apply in_map; exact Ha'|left; reflexivity|right; exact Ha'|symmetry; exact E].
Qed.
Lemma bit_out a : has (events_of a) EPOLLOUT = negb (Z.land a POLLWRITE =? 0).
Proof. unfold has, events_of. destruct (Z.land a POLLREAD =? 0), (Z.land a POLLWRITE =? 0); reflexivity. Qed.

(** The publisher. Whatever the kernel reports for the descriptors it watches at the time of the
    wait, each once, in whatever order: the context stays in a state that the library's
    specification covers; each element is handled with the index of a connection, or of a socket
    of the context, whose descriptor is the reported one — also if connections were closed and
    accepted before it in the same array; if the read closed the connection the write has no
    effect; and a connection is closed only if its own writev() fails with an error other than
    EAGAIN (closing for another reason is without effect). *)
Theorem c91_pub_events : forall x g log s b code x' l, reached_by orderly x g log -> kernel_ok (pub_polls log) -> ep_run (pub_polls log) = Some s ->
  once b -> (forall e, In e b -> reported s (fst e) /\ pin_ok (snd e)) -> pub_process_events x b = Ok (code, x', l) ->
  (exists g', reached_by orderly x' g' (log ++ flat_map k_evs l)) /\
  forall k, In k l -> let i := y_ind (fst (k_ent k)) in let d := y_desc (fst (k_ent k)) in
    In (k_ent k) b /\
    match k_op k with
    | XRead j _ => j = i /\ pub_sock (k_pre k) i d
    | XWrite j _ => j = i /\ (pub_sock (k_pre k) i d \/ (forall c, ~ is_open (x_vec (k_pre k)) i c) /\ k_code k = ENOTCONN /\ k_evs k = [])
    | XClose j => j = i /\ ((k_code k = EINVAL /\ k_evs k = []) \/
                            (pub_sock (k_pre k) i d /\ exists e, n_writev (snd (k_ent k)) = WErr e /\ e <> EAGAIN))
    | _ => False
    end.
Proof.
  intros x g log s b code x' l H K Rs On Hb E. destruct (reached_EPX x g log H K) as (a & (s' & R' & W) & M). assert (s' = s) as -> by congruence. clear R'.
  pose proof (reached_inv _ _ _ (reached_by_reached _ _ _ _ H)) as (sp & L & Q & X). pose proof (vi_size _ _ (xi_vec _ _ _ _ _ _ _ X)) as Hz.
  assert (Lv : forall e, In e b -> plive x e).
  { intros e He. destruct (Hb e He) as [(w & Hw & _ & Ho) Pk]. apply W in Hw. destruct Hw as (a' & Hw & ->). unfold plive. split; [|split; [|exact Pk]].
    - unfold ovw, sp_pub in Hw. unfold pub_sock. destruct (Z.eqb_spec (y_ind (fst e)) RMC_MULTICAST_INDEX) as [Ei|Ei].
      + left. split; [exact Ei|]. destruct (x_mcast x =? -1); congruence.
      + destruct (Z.eqb_spec (y_ind (fst e)) RMC_LISTEN_INDEX) as [Ei2|Ei2]; [right; left; split; [exact Ei2|]; destruct (x_listen x =? -1); congruence|].
        right. right. unfold wdesc in Hw. destruct (slot (x_vec x) (y_ind (fst e))) as [c| | |] eqn:Es; try discriminate. destruct (Z.eqb_spec (c_mode c) CLOSED); [discriminate|]. exists c. split; [split; assumption|congruence].
    - intros Ei. destruct (has (y_ev (fst e)) EPOLLOUT) eqn:Eh; [|reflexivity]. specialize (Ho eq_refl). rewrite bit_out in Ho. unfold ovw, sp_pub in Hw. rewrite Ei in Hw.
      change (RMC_LISTEN_INDEX =? RMC_MULTICAST_INDEX) with false in Hw. rewrite Z.eqb_refl in Hw. cbv iota in Hw. destruct (x_listen x =? -1); [discriminate|]. assert (a' = POLLREAD) as -> by congruence. discriminate. }
  assert (Nd : NoDup (map (fun e => y_ind (fst e)) b)).
  { apply (nodup_fun (fun e => y_desc (fst e))); [exact On|]. intros e e' He He' Q'. destruct (Hb e He) as [(w & Hw & _) _], (Hb e' He') as [(w' & Hw' & _) _]. apply W in Hw, Hw'. destruct Hw as (a1 & Hw & _), Hw' as (a2 & Hw' & _). rewrite Q' in Hw. congruence. }
  assert (Ev : pub_events x (rev b) = Ok (x', l)).
  { unfold pub_process_events in E. destruct b as [|e0 b0]; [cbn; congruence|]. destruct (pub_events x (rev (e0 :: b0))) as [[x1 l1]| | |]; cbn [bind fst snd] in E; [|discriminate E..]. congruence. }
  destruct (pub_events_ok (rev b) x g log x' l H) as [A B]; [apply Forall_rev; apply Forall_forall; exact Lv|rewrite map_rev; apply NoDup_rev; exact Nd|exact Ev|].
  split; [exact A|]. intros k Hk i d. split; [|rewrite Forall_forall in B; exact (B k Hk)].
  apply in_rev. clear -Ev Hk. revert x x' l Ev Hk. generalize (rev b). induction l as [|e r IH]; intros x x' l; cbn [pub_events]; [intros E; injection E as _ <-; intros []|].
  destruct (pub_event x e) as [[x1 l1]| | |] eqn:E1; cbn [bind fst snd]; [|discriminate..]. destruct (pub_events x1 r) as [[x2 l2]| | |] eqn:E2; cbn [bind fst snd]; [|discriminate..]. intros E. injection E as _ <-.
  intros Hk. apply in_app_or in Hk. destruct Hk as [Hk|Hk]; [left|right; exact (IH _ _ _ E2 Hk)]. clear -E1 Hk. revert E1.
  unfold pub_event. set (i := u16 _). destruct (Z.land (y_ev (fst e)) EPOLLIN =? 0); cbn [bind]; [|destruct (rmc_pub_read _ _ _) as [[[[? ?] ?] ?]| | |]; cbn [bind]; [|discriminate..]];
  (destruct (Z.land (y_ev (fst e)) EPOLLOUT =? 0); cbn [fst snd]; [intros E; injection E as _ <-; cbn in Hk; repeat (destruct Hk as [<-|Hk]; [reflexivity|]); destruct Hk|]);
  (destruct (rmc_pub_write _ _ _) as [[[[? ?] ?] ?]| | |]; cbn [bind]; [|discriminate..]); (destruct (_ || _); [intros E; injection E as _ <-; cbn in Hk; repeat (destruct Hk as [<-|Hk]; [reflexivity|]); destruct Hk|]);
  (destruct (rmc_pub_close_connection _ _) as [[[? ?] ?]| | |]; cbn [bind]; [|discriminate..]); intros E; injection E as _ <-; cbn in Hk; repeat (destruct Hk as [<-|Hk]; [reflexivity|]); destruct Hk.
Qed.

(** The subscriber, likewise. A connection is closed only if its own writev() fails — with EAGAIN
    too — or has been closed already by the read or the failing connect. *)
Theorem c91_sub_events : forall x log s b code x' l, sreached false x log -> kernel_ok (sub_polls log) -> ep_run (sub_polls log) = Some s ->
  once b -> (forall e, In e b -> reported s (fst e) /\ sin_ok (snd e)) -> sub_process_events x b = Ok (code, x', l) ->
  sreached false x' (log ++ flat_map k_evs l) /\
  forall k, In k l -> let i := y_ind (fst (k_ent k)) in let d := y_desc (fst (k_ent k)) in
    In (k_ent k) b /\
    match k_op k with
    | YRead j _ => j = i /\ sub_sock (k_pre k) i d
    | YWrite j _ => j = i /\ (sub_sock (k_pre k) i d \/ (forall c, ~ is_open (t_vec (k_pre k)) i c) /\ k_code k = ENOTCONN /\ k_evs k = [])
    | YClose j => j = i /\ 0 <= i < v_size (t_vec (k_pre k)) /\
                  (sub_polls (k_evs k) = [] \/ (sub_sock (k_pre k) i d /\ exists e, sw_tcp (m_wr (snd (k_ent k))) = WErr e))
    | _ => False
    end.
Proof.
  intros x log s b code x' l H K Rs On Hb E. destruct (reached_EPS false _ x log (fun y o _ q => False_ind _ (diff_false_true q)) (sreached_any x log H) K) as (C & w0 & (s' & R' & W) & _). assert (s' = s) as -> by congruence.
  destruct (c88_sub x log H K) as (s'' & R'' & Wc & Wg & _). assert (s'' = s) as -> by congruence. clear R' R''.
  pose proof (sinv _ _ H) as T. pose proof (tv_size _ T) as Hz.
  assert (Lv : forall e, In e b -> slive x e).
  { intros e He. destruct (Hb e He) as [(w & Hw & _ & Ho) Pk]. pose proof Hw as Hw0. apply W in Hw. destruct Hw as (a' & Hw & ->). unfold slive. split; [exact Pk|].
    unfold ovw, sp_sub in Hw. destruct (Z.eqb_spec (y_ind (fst e)) RMC_MULTICAST_INDEX) as [Ei|Ei].
    - left. split; [exact Ei|]. destruct (_ || _); [discriminate|]. assert (t_mcast x = y_desc (fst e) /\ a' = POLLREAD) as [-> ->] by (split; congruence). split; [reflexivity|].
      destruct (has (y_ev (fst e)) EPOLLOUT) eqn:Eh; [|reflexivity]. specialize (Ho eq_refl). discriminate Ho.
    - right. unfold wdesc in Hw. destruct (slot (t_vec x) (y_ind (fst e))) as [c| | |] eqn:Es; try discriminate. destruct (Z.eqb_spec (c_mode c) CLOSED) as [|Nc]; [discriminate|]. exists c. split; [split; assumption|]. assert (Dq : c_desc c = y_desc (fst e)) by congruence. split; [exact Dq|]. intros Eh. specialize (Ho Eh).
      destruct (tv_mode _ T _ c Es) as (_ & _ & [Q|[Q|Q]]); [contradiction|left; exact Q|right]. pose proof (Wc _ c (conj Es Q)) as Wd. rewrite Dq, Hw0 in Wd. assert (Ew : events_of a' = conn_events (contents (c_wbuf c))) by congruence. rewrite Ew in Ho.
      intros Q'. rewrite Q' in Ho. discriminate Ho. }
  assert (Nd : NoDup (map (fun e => y_ind (fst e)) b)).
  { apply (nodup_fun (fun e => y_desc (fst e))); [exact On|]. intros e e' He He' Q'. destruct (Hb e He) as [(w & Hw & _) _], (Hb e' He') as [(w' & Hw' & _) _]. apply W in Hw, Hw'. destruct Hw as (a1 & Hw & _), Hw' as (a2 & Hw' & _). rewrite Q' in Hw. congruence. }
  assert (Ev : sub_events x (rev b) = Ok (x', l)).
  { unfold sub_process_events in E. destruct b as [|e0 b0]; [cbn; congruence|]. destruct (sub_events x (rev (e0 :: b0))) as [[x1 l1]| | |]; cbn [bind fst snd] in E; [|discriminate E..]. congruence. }
  destruct (sub_events_ok (rev b) x log x' l H) as [A B]; [apply Forall_rev; apply Forall_forall; exact Lv|rewrite map_rev; apply NoDup_rev; exact Nd|exact Ev|].
  split; [exact A|]. intros k Hk i d. split; [|rewrite Forall_forall in B; exact (B k Hk)].
  apply in_rev. clear -Ev Hk. revert x x' l Ev Hk. generalize (rev b). induction l as [|e r IH]; intros x x' l; cbn [sub_events]; [intros E; injection E as _ <-; intros []|].
  destruct (sub_event x e) as [[x1 l1]| | |] eqn:E1; cbn [bind fst snd]; [|discriminate..]. destruct (sub_events x1 r) as [[x2 l2]| | |] eqn:E2; cbn [bind fst snd]; [|discriminate..]. intros E. injection E as _ <-.
  intros Hk. apply in_app_or in Hk. destruct Hk as [Hk|Hk]; [left|right; exact (IH _ _ _ E2 Hk)]. clear -E1 Hk. revert E1.
  unfold sub_event. set (i := u16 _). destruct (Z.land (y_ev (fst e)) EPOLLIN =? 0); cbn [bind]; [|destruct (rmc_sub_read _ _ _) as [[[[? ?] ?] ?]| | |]; cbn [bind]; [|discriminate..]];
  (destruct (Z.land (y_ev (fst e)) EPOLLOUT =? 0); cbn [fst snd]; [intros E; injection E as _ <-; cbn in Hk; repeat (destruct Hk as [<-|Hk]; [reflexivity|]); destruct Hk|]);
  (destruct (rmc_sub_write _ _ _) as [[[[? ?] ?] ?]| | |]; cbn [bind]; [|discriminate..]); (destruct (_ =? 0); [intros E; injection E as _ <-; cbn in Hk; repeat (destruct Hk as [<-|Hk]; [reflexivity|]); destruct Hk|]);
  (destruct (rmc_sub_close_connection _ _) as [[? ?]| | |]; cbn [bind fst snd]; [|discriminate..]); intros E; injection E as _ <-; cbn in Hk; repeat (destruct Hk as [<-|Hk]; [reflexivity|]); destruct Hk.
Qed.
(** So a busy socket costs a subscriber its connection; the publisher tries again. *)
Theorem c91_sub_busy_refuted : forall x log c i d n, sreached false x log -> sconnected x i c -> contents (c_wbuf c) <> [] -> c_desc c = d -> sw_tcp (m_wr n) = WErr EAGAIN ->
  forall code x' l, sub_process_events x [(mkRdy d i EPOLLOUT, n)] = Ok (code, x', l) -> forall c', ~ is_open (t_vec x') i c'.
Proof.
  intros x log c i d n H [Hs Hm] Hc Hd Hw code x' l. pose proof (sinv _ _ H) as T. pose proof (slot_range _ _ _ Hs) as R. pose proof (tv_size _ T) as Hz. destruct (tv_ring _ T i c Hs) as [W1 W2].
  unfold sub_process_events. cbn [rev app sub_events]. unfold sub_event. cbn [fst snd y_ind y_ev]. replace (u16 i) with i by (symmetry; apply Z.mod_small; unfold RMC_LISTEN_INDEX in Hz; lia).
  change (Z.land EPOLLOUT EPOLLIN =? 0) with true. change (Z.land EPOLLOUT EPOLLOUT =? 0) with false. cbn [bind fst snd]. unfold rmc_sub_write at 1.
  destruct (find_index_cases (t_vec x) i (proj1 R)) as [[_ Hn]|(c2 & -> & Ho)]; [destruct (Hn c); split; [exact Hs|rewrite Hm; discriminate]|]. assert (c2 = c) as -> by (destruct Ho; congruence). cbn [bind].
  rewrite Hm. change (CONNECTED =? CONNECTING) with false. cbv iota. rewrite (in_use_contents _ W1). destruct (contents (c_wbuf c)) as [|z r] eqn:Ec; [contradiction|].
  destruct (tcp_write_spec (c_wbuf c) (sw_tcp (m_wr n)) W1 ltac:(lia)) as (wb & -> & _); [rewrite Hw; exact Logic.I|]. rewrite Ec, Hw. cbn [bind w_code w_left w_sent w_buf]. change (EAGAIN =? 0) with false. cbv iota.
  destruct (rmc_sub_close_connection _ i) as [[x3 e3]| | |] eqn:E3; cbn [bind fst snd]; [|discriminate..]. intros E. assert (x' = x3) as -> by congruence. apply (sclose_fr _ _ _ _ (proj1 R) E3).
Qed.

(** ** The publisher's deadlines *)
(** If nothing was ready for as long as the loop waited, an announcement that the wait was for is
    queued in the same turn. *)
Theorem c91_pub_announce : forall x g log t0 now buf o t w x' l evs, reached x g log -> xok x g (XTimeout now buf o) ->
  rmc_pub_timeout_get_next x = Ok t -> t = x_anext x -> x_aint x <> 0 -> x_anext x <> 0 -> x_anext x <> -1 -> t - t0 < 2147483647000 ->
  t0 + 1000 * wait_ms t t0 <= now -> pub_turn x t0 [] now buf o = Ok (w, x', l, evs) ->
  w = wait_ms t t0 /\ l = [] /\ x_anext x' = now + x_aint x /\
  match announced o with
  | Some len => if rmc_pub_traffic_suspended x =? 0 then Permutation (queued x') ((0, (buf, len)) :: queued x) else queued x' = queued x
  | None => queued x' = queued x
  end.
Proof.
  intros x g log t0 now buf o t w x' l evs H Hok Ht Et Hi Hn Hn1 Hf Hw. unfold pub_turn. rewrite Ht. cbn [bind pub_process_events]. change (ETIME =? ETIME) with true. cbv iota.
  destruct (rmc_pub_timeout_process x now buf o) as [[[cd x1] e1]| | |] eqn:E1; cbn [bind]; [|discriminate..]. intros E. assert (w = wait_ms t t0 /\ x' = x1 /\ l = []) as (-> & -> & ->) by (repeat split; congruence).
  destruct (c91_wait t t0 Hf) as (_ & B & _). specialize (B ltac:(congruence)). split; [reflexivity|]. split; [reflexivity|].
  destruct (c44_announce_due x g log now buf o cd x1 e1 H Hok Hi Hn ltac:(lia) E1) as (_ & _ & A & _ & _ & _ & _ & A2). split; [exact A|exact A2].
Qed.
(** But while something is ready in each turn — somebody else's datagrams on the multicast socket,
    say — nothing is ever announced, however long this goes on and however late it is. *)
Theorem c91_pub_starved_refuted : forall x g log d u, reached x g log -> clock_ok log -> 0 <= x_resend x -> 0 <= x_anext x -> x_mcast x = d -> d <> -1 ->
  (forall t, In t u -> exists n z, u_ready t = [(mkRdy d RMC_MULTICAST_INDEX EPOLLIN, n)] /\ n_from n = Some z) ->
  exists l, pub_turns x u = Ok (x, l, []) /\ length l = length u.
Proof.
  intros x g log d u H C Hr Ha Hm Hd. destruct (c43_next_timeout_exact x g log H C Hr Ha) as (m & Em & _). induction u as [|t u IH]; intros Hu; [exists []; split; reflexivity|].
  destruct (Hu t (or_introl eq_refl)) as (n & z & E1 & E2). destruct IH as (l & El & Ll); [intros t' Ht'; apply Hu; right; exact Ht'|]. eexists. split; [|].
  - cbn [pub_turns]. unfold pub_turn. rewrite Em, E1. cbn [bind pub_process_events rev app pub_events]. unfold pub_event. cbn [fst snd y_ind y_ev]. change (u16 RMC_MULTICAST_INDEX) with RMC_MULTICAST_INDEX.
    change (Z.land EPOLLIN EPOLLIN =? 0) with false. change (Z.land EPOLLIN EPOLLOUT =? 0) with true. cbv iota. unfold pub_rd. change (RMC_MULTICAST_INDEX =? RMC_LISTEN_INDEX) with false. rewrite Z.eqb_refl. cbn [rmc_pub_read]. rewrite E2.
    replace (x_mcast x =? -1) with false by lia. cbn [bind fst snd]. change (0 =? ETIME) with false. cbv iota. cbn [bind]. rewrite El. cbn [bind app]. reflexivity.
  - cbn [app length]. rewrite Ll. reflexivity.
Qed.

(** ** The subscriber's deadlines *)
Lemma sum_upd (f g : Z -> nat) (l : list Z) i : NoDup l -> In i l -> (forall j, j <> i -> g j = f j) -> (list_sum (map g l) + f i = list_sum (map f l) + g i)%nat.
Proof.
  induction l as [|a l IH]; intros N Hi H; [destruct Hi|]. inversion N as [|? ? N1 N2 Q]; subst. cbn [map list_sum fold_right]. fold (list_sum (map g l)) (list_sum (map f l)). destruct Hi as [->|Hi].
  - assert (list_sum (map g l) = list_sum (map f l)); [|lia]. f_equal. apply map_ext_in. intros j Hj. apply H. intros ->. contradiction.
  - specialize (IH N2 Hi H). rewrite (H a) by (intros ->; contradiction). lia.
Qed.
Lemma indices_nodup x : NoDup (indices x).
Proof. unfold indices. apply FinFun.Injective_map_NoDup; [intros a b; lia|apply seq_NoDup]. Qed.
Lemma indices_in x i : 0 <= i < v_size (t_vec x) -> In i (indices x).
Proof. intros H. unfold indices. apply in_map_iff. exists (Z.to_nat i). split; [lia|apply in_seq; lia]. Qed.
Lemma unsent_same x x' : v_size (t_vec x') = v_size (t_vec x) -> (forall i, pending_acks x' i = pending_acks x i) -> unsent x' = unsent x.
Proof. intros A B. unfold unsent, indices. rewrite A. f_equal. apply map_ext. intros i. rewrite B. reflexivity. Qed.
Lemma unsent_pop x x' i : v_size (t_vec x') = v_size (t_vec x) -> 0 <= i < v_size (t_vec x) -> (forall j, j <> i -> pending_acks x' j = pending_acks x j) ->
  S (length (pending_acks x' i)) = length (pending_acks x i) -> unsent x = S (unsent x').
Proof.
  intros A R B L. unfold unsent. replace (indices x') with (indices x) by (unfold indices; rewrite A; reflexivity).
  pose proof (sum_upd (fun i => length (pending_acks x i)) (fun i => length (pending_acks x' i)) (indices x) i (indices_nodup x) (indices_in x i R)) as S. cbv beta in S. specialize (S ltac:(intros j N; rewrite B by exact N; reflexivity)). lia.
Qed.
Lemma answered_app a b : answered (a ++ b) = (answered a + answered b)%nat.
Proof. unfold answered. rewrite filter_app, app_length. reflexivity. Qed.
(** One interval. *)
Lemma iack_cases x i iv : TV (t_vec x) ->
  (exists r, rmc_sub_packet_interval_acknowledged x i iv = r /\ match r with
   | Ok (code, x', evs) => 0 <= i < v_size (t_vec x) /\ TV (t_vec x') /\ v_size (t_vec x') = v_size (t_vec x) /\ t_pubs x' = t_pubs x /\ t_ack x' = t_ack x /\ t_ato x' = t_ato x /\ ((code = 0 /\ answered evs = 1%nat) \/ (code <> 0 /\ answered evs = 0%nat))
   | Hang => False | _ => True end).
Proof.
  intros T. eexists. split; [reflexivity|]. unfold rmc_sub_packet_interval_acknowledged, write_interval_ack. destruct (slot (t_vec x) i) as [c| | |] eqn:Hs; cbn [bind]; try exact Logic.I.
  2: { unfold slot in Hs. destruct (0 <=? i); [destruct (nth_error _ _) in Hs; discriminate|discriminate]. }
  pose proof (slot_range _ _ _ Hs) as R.
  destruct (Z.eqb_spec (c_mode c) CONNECTED) as [Hm|Hm]; cbn [negb]; [|split; [exact R|]; split; [exact T|]; split; [reflexivity|]; split; [reflexivity|]; split; [reflexivity|]; split; [reflexivity|]; right; split; [discriminate|reflexivity]].
  destruct (tv_ring _ T i c Hs) as [W1 W2]. destruct (write_ack_spec (c_wbuf c) (iv_first iv) (iv_last iv) W1) as (A1 & A2 & A3).
  destruct (Z_lt_ge_dec (circ_buf_available (c_wbuf c)) 17) as [L|L].
  { rewrite (A1 L). cbn [bind fst snd]. change (negb (ENOMEM =? 0)) with true. cbv iota. split; [exact R|]. split; [exact T|]. split; [reflexivity|]. split; [reflexivity|]. split; [reflexivity|]. split; [reflexivity|]. right. split; [discriminate|reflexivity]. }
  destruct (Z.eq_dec (cb_stop (c_wbuf c)) (cb_size (c_wbuf c))) as [Q|Q]; [rewrite A3 by (lia || exact Q); exact Logic.I|].
  destruct A2 as (wb & Ew & X1 & X2 & _ & X3); [lia|destruct W1; unfold cb_wf in *; lia|]. rewrite Ew. cbn [bind fst snd]. change (negb (0 =? 0)) with false. cbv iota.
  split; [exact R|]. split; [cbn [set_tvec t_vec]; apply (TV_io _ i c); auto; [rewrite Hm; discriminate|cbn; congruence]|]. split; [apply size_put|]. split; [reflexivity|]. split; [reflexivity|]. split; [reflexivity|]. left. split; reflexivity.
Qed.
Lemma get_hang x i : get_spub x i <> Hang.
Proof. unfold get_spub. repeat match goal with |- context [match ?h with _ => _ end] => destruct h end; discriminate. Qed.
Lemma get_some x i s : get_spub x i = Ok s -> t_pubs x i = Some s.
Proof. unfold get_spub. repeat match goal with |- context [match ?h with _ => _ end] => destruct h end; congruence. Qed.
Definition kept_after (x x' : sctx) : Prop := TV (t_vec x') /\ v_size (t_vec x') = v_size (t_vec x) /\ t_ato x' = t_ato x.
Lemma ack_loop_count : forall l x i s, TV (t_vec x) -> t_pubs x i = Some s -> s_intv s = l ->
  match ack_loop x i s l with
  | Ok (code, x', evs) => kept_after x x' /\ t_ack x' = t_ack x /\ unsent x = (answered evs + unsent x')%nat /\ (code <> 0 -> (unsent x' < unsent x)%nat) /\ (code = 0 -> exists s', t_pubs x' i = Some s' /\ s_intv s' = [])
  | Hang => False | _ => True end.
Proof.
  induction l as [|iv l IH]; intros x i s T Hs Hl; cbn [ack_loop].
  { split; [split; [exact T|split; reflexivity]|]. split; [reflexivity|]. split; [reflexivity|]. split; [intros Q; destruct (Q eq_refl)|]. intros _. exists s. auto. }
  cbv zeta. set (s1 := mkSP (s_ready s) (s_maxrecv s) (s_recv s) l). set (x0 := put_spub x i s1).
  destruct (iack_cases x0 i iv T) as (r & Er & Hr). rewrite Er. destruct r as [[[code x1] e1]| | |]; cbn [bind]; try exact Logic.I; [|destruct Hr]. destruct Hr as (R & T1 & Sz & P1 & P2 & P3 & P4).
  assert (P0 : forall y, t_pubs y = t_pubs x0 -> pending_acks y i = l /\ forall j, j <> i -> pending_acks y j = pending_acks x j).
  { intros y E. unfold pending_acks. rewrite E. unfold x0, put_spub, tupd. cbn [set_tpubs t_pubs]. split; [rewrite Z.eqb_refl; reflexivity|]. intros j N. replace (j =? i) with false by lia. reflexivity. }
  assert (Px : pending_acks x i = iv :: l) by (unfold pending_acks; rewrite Hs; exact Hl).
  destruct (P0 x1 P1) as [Q1 Q2]. assert (U : unsent x = S (unsent x1)) by (apply (unsent_pop x x1 i); [exact Sz|exact R|exact Q2|rewrite Q1, Px; reflexivity]).
  destruct (Z.eqb_spec code 0) as [Ec|Ec]; cbn [negb].
  - assert (Hs1 : t_pubs x1 i = Some s1) by (rewrite P1; unfold x0, put_spub, tupd; cbn [set_tpubs t_pubs]; rewrite Z.eqb_refl; reflexivity). specialize (IH x1 i s1 T1 Hs1 eq_refl).
    destruct (ack_loop x1 i s1 l) as [[[code2 x2] e2]| | |]; cbn [bind]; try exact Logic.I; [|destruct IH]. destruct IH as ((B1 & B2 & B3) & B4 & B5 & B6 & B7).
    split; [split; [exact B1|split; [exact (eq_trans B2 Sz)|exact (eq_trans B3 P3)]]|]. split; [exact (eq_trans B4 P2)|]. rewrite answered_app. destruct P4 as [[_ P4]|[P4 _]]; [|contradiction]. split; [lia|]. split; [intros Q; specialize (B6 Q); lia|exact B7].
  - split; [split; [exact T1|split; [exact Sz|exact P3]]|]. split; [exact P2|]. rewrite answered_app. destruct P4 as [[P4 _]|[_ P4]]; [contradiction|]. rewrite P4. cbn. split; [exact U|]. split; [lia|intros Q; contradiction].
Qed.
Lemma timeout_count now : forall l x, TV (t_vec x) -> t_ack x = l ->
  match timeout_loop x now l with
  | Ok (code, x', evs) => kept_after x x' /\ unsent x = (answered evs + unsent x')%nat /\ (code <> 0 -> (unsent x' < unsent x)%nat) /\
      (code = 0 -> rmc_sub_timeout_get_next x' = Ok (-1) \/ exists t, rmc_sub_timeout_get_next x' = Ok t /\ now < t)
  | Hang => False | _ => True end.
Proof.
  induction l as [|i l IH]; intros x T Hl; cbn [timeout_loop].
  { split; [split; [exact T|split; reflexivity]|]. split; [reflexivity|]. split; [intros Q; destruct (Q eq_refl)|]. intros _. left. unfold rmc_sub_timeout_get_next. rewrite Hl. reflexivity. }
  destruct (get_spub x i) as [s| | |] eqn:Gs; cbn [bind]; try exact Logic.I; [|exact (get_hang _ _ Gs)]. pose proof (get_some _ _ _ Gs) as Hs. destruct (Z.ltb_spec now (sub_oldest_unacked s + t_ato x)) as [L|L].
  { split; [split; [exact T|split; reflexivity]|]. split; [reflexivity|]. split; [intros Q; destruct (Q eq_refl)|]. intros _. right. exists (sub_oldest_unacked s + t_ato x). split; [|exact L]. unfold rmc_sub_timeout_get_next. rewrite Hl, Gs. reflexivity. }
  pose proof (ack_loop_count (s_intv s) x i s T Hs eq_refl) as A. destruct (ack_loop x i s (s_intv s)) as [[[code x1] e1]| | |]; cbn [bind]; try exact Logic.I; [|destruct A]. destruct A as ((B1 & B2 & B3) & B4 & B5 & B6 & _).
  destruct (Z.eqb_spec code 0) as [Ec|Ec]; cbn [negb].
  - specialize (IH (set_tack x1 l) B1 eq_refl). destruct (timeout_loop (set_tack x1 l) now l) as [[[code2 x2] e2]| | |]; cbn [bind]; try exact Logic.I; [|destruct IH]. destruct IH as ((C1 & C2 & C3) & C4 & C5 & C6).
    change (unsent (set_tack x1 l)) with (unsent x1) in *. split; [split; [exact C1|split; [exact (eq_trans C2 B2)|exact (eq_trans C3 B3)]]|]. rewrite answered_app. split; [lia|]. split; [intros Q; specialize (C5 Q); lia|exact C6].
  - split; [split; [exact B1|split; assumption]|]. split; [exact B5|]. split; [exact B6|intros Q; contradiction].
Qed.
(** Catching up ends, after at most one call for each acknowledgement it may have to give up and
    one more; each acknowledgement that goes is sent or given up; and what is left is not due. *)
Theorem c91_sub_catchup : forall x log cur clock fuel, sreached false x log -> (forall k, cur <= clock k) -> (unsent x < fuel)%nat ->
  sub_catchup fuel x cur clock 0 <> Hang /\
  forall t x' evs n, sub_catchup fuel x cur clock 0 = Ok (t, x', evs, n) ->
    (n <= unsent x + 1)%nat /\ (t = -1 \/ cur <= t) /\ rmc_sub_timeout_get_next x' = Ok t /\ unsent x = (answered evs + unsent x')%nat.
Proof.
  intros x log cur clock fuel H Hc Hf.
  assert (G : forall fuel x k, TV (t_vec x) -> (unsent x < fuel)%nat -> match sub_catchup fuel x cur clock k with
    | Ok (t, x', evs, n) => (n <= k + unsent x + 1)%nat /\ (t = -1 \/ cur <= t) /\ rmc_sub_timeout_get_next x' = Ok t /\ unsent x = (answered evs + unsent x')%nat
    | Hang => False | _ => True end).
  { clear x log H fuel Hf. intros fuel. induction fuel as [|f IH]; intros x k T Hf; [lia|]. cbn [sub_catchup].
    destruct (rmc_sub_timeout_get_next x) as [t| | |] eqn:Et; cbn [bind]; try exact Logic.I.
    2: { unfold rmc_sub_timeout_get_next in Et. destruct (t_ack x) as [|i ?]; [discriminate|]. destruct (get_spub x i) eqn:Q; try discriminate. exact (get_hang _ _ Q). }
    destruct (Z.eqb_spec t (-1)) as [E1|E1]; cbn [orb]; [split; [lia|]; split; [left; exact E1|]; split; [exact Et|reflexivity]|].
    destruct (Z.ltb_spec t cur) as [E2|E2]; cbn [negb]; [|split; [lia|]; split; [right; exact E2|]; split; [exact Et|reflexivity]].
    pose proof (timeout_count (clock k) (t_ack x) x T eq_refl) as A. unfold rmc_sub_timeout_process. destruct (timeout_loop x (clock k) (t_ack x)) as [[[code x1] e1]| | |]; cbn [bind]; try exact Logic.I; [|destruct A].
    destruct A as ((B1 & B2 & B3) & B4 & B5 & B6). destruct (Z.eq_dec code 0) as [Ec|Ec].
    - assert (Stop : exists t2, rmc_sub_timeout_get_next x1 = Ok t2 /\ (t2 = -1 \/ cur <= t2)).
      { destruct (B6 Ec) as [Q|(t2 & Q1 & Q2)]; [exists (-1); auto|]. exists t2. split; [exact Q1|]. right. specialize (Hc k). lia. }
      destruct Stop as (t2 & Q1 & Q2). assert (Es : sub_catchup f x1 cur clock (S k) = Ok (t2, x1, [], S k)).
      { destruct f; cbn [sub_catchup]; rewrite Q1; cbn [bind]; replace ((t2 =? -1) || negb (t2 <? cur)) with true by lia; reflexivity. }
      rewrite Es. cbn [bind]. rewrite app_nil_r. split; [lia|]. split; [exact Q2|]. split; [exact Q1|exact B4].
    - specialize (B5 Ec). specialize (IH x1 (S k) B1 ltac:(lia)). destruct (sub_catchup f x1 cur clock (S k)) as [[[[t2 x2] e2] k2]| | |]; cbn [bind]; try exact Logic.I; [|destruct IH]. destruct IH as (C1 & C2 & C3 & C4).
      split; [lia|]. split; [exact C2|]. split; [exact C3|]. rewrite answered_app. lia. }
  specialize (G fuel x 0%nat (sinv _ _ H) Hf). destruct (sub_catchup fuel x cur clock 0) as [[[[t x1] e1] n1]| | |]; [|split; [discriminate|discriminate]..|destruct G].
  split; [discriminate|]. intros t' x' evs n E. assert (t' = t /\ x' = x1 /\ evs = e1 /\ n = n1) as (-> & -> & -> & ->) by (repeat split; congruence). exact G.
Qed.

(** ** Witnesses *)
(** Connections 0 and 1 have descriptors 5 and 6. The first is at its end, so that the read
    closes it and the write has no effect; then accept() gives its descriptor, and its index,
    to a new connection; the multicast socket has room; and writing to the second fails. *)
Definition c91_ready : list (ready * pin) :=
  let n r w := mkPin (AccOk 5 9 0) None None r [SndOk 3000] w in
  [(mkRdy 6 1 EPOLLOUT, n RErr (WErr EPIPE)); (mkRdy 3 RMC_MULTICAST_INDEX EPOLLOUT, n RErr (WOk 0));
   (mkRdy 4 RMC_LISTEN_INDEX EPOLLIN, n RErr (WOk 0)); (mkRdy 5 0 (EPOLLIN + EPOLLOUT), n (RData []) (WOk 0))].
Definition kinds (l : list pcall) : list Z :=
  flat_map (fun k => match k_op k with XRead i _ => [1; i; k_code k] | XWrite i _ => [2; i; k_code k] | XClose i => [3; i; k_code k] | _ => [] end) l.
Example c91_pub_witness : exists x g log s x' l, reached_by orderly x g log /\ kernel_ok (pub_polls log) /\ ep_run (pub_polls log) = Some s /\ once c91_ready /\
  (forall e, In e c91_ready -> reported s (fst e) /\ pin_ok (snd e)) /\ pub_process_events x c91_ready = Ok (0, x', l) /\
  kinds l = [1; 0; 0;  2; 0; ENOTCONN;  3; 0; EINVAL;  1; RMC_LISTEN_INDEX; 0;  2; RMC_MULTICAST_INDEX; 0;  2; 1; EPIPE;  3; 1; 0] /\ conn_desc (x_vec x') 5 /\ ~ conn_desc (x_vec x') 6.
Proof.
  destruct (xcheck_hist demo0 c68_ops (fun x g log => kernel_okb [] (pub_polls log) &&
    watchb (pub_polls log) 5 0 (EPOLLIN + EPOLLOUT) && watchb (pub_polls log) 6 1 (EPOLLIN + EPOLLOUT) && watchb (pub_polls log) 3 RMC_MULTICAST_INDEX EPOLLOUT && watchb (pub_polls log) 4 RMC_LISTEN_INDEX EPOLLIN &&
    match pub_process_events x c91_ready with Ok (0, x', l) =>
      listb (kinds l) [1; 0; 0;  2; 0; ENOTCONN;  3; 0; EINVAL;  1; RMC_LISTEN_INDEX; 0;  2; RMC_MULTICAST_INDEX; 0;  2; 1; EPIPE;  3; 1; 0] &&
      (match slot (x_vec x') 0 with Ok c => (c_desc c =? 5) && (c_mode c =? CONNECTED) | _ => false end) && forallb (fun c => negb (c_desc c =? 6)) (v_conns (x_vec x')) | _ => false end)) as (x & g & log & H & E); [vm_compute; reflexivity|].
  bool_split. repeat match goal with A : watchb _ _ _ _ = true |- _ => apply watchb_ok in A end.
  match goal with A : exists s, _ /\ e_watch s 5 = _, B : exists s, _ /\ e_watch s 6 = _, C : exists s, _ /\ e_watch s 3 = _, D : exists s, _ /\ e_watch s 4 = _ |- _ => destruct A as (s & Rs & A), B as (s1 & R1 & B), C as (s2 & R2 & C), D as (s3 & R3 & D) end.
  assert (s1 = s /\ s2 = s /\ s3 = s) as (-> & -> & ->) by (repeat split; congruence). clear R1 R2 R3.
  destruct (pub_process_events x c91_ready) as [[[[|p|p] x'] l]| | |] eqn:Ep; try discriminate. bool_split. exists x, g, log, s, x', l.
  split; [exact (obeys_reached _ _ _ _ _ demo0_fresh H ltac:(vm_compute; reflexivity))|]. split; [apply kernel_okb_nil; assumption|]. split; [exact Rs|].
  split; [repeat constructor; cbn; intuition lia|]. split.
  { intros e He. cbn [c91_ready In] in He. destruct He as [<-|[<-|[<-|[<-|[]]]]]; (split; [|split; [split; [lia|reflexivity]|]]); cbn [fst snd y_desc y_ind y_ev n_writev]; try (cbv; intuition congruence); eexists; (split; [eassumption|split; reflexivity || intros; assumption || discriminate]). }
  split; [exact Ep|]. split; [apply listb_eq; assumption|]. split.
  - destruct (slot (x_vec x') 0) as [c| | |] eqn:Es; try discriminate. bool_split. exists 0, c. split; [split; [exact Es|intros Q; match goal with Q2 : (c_mode c =? CONNECTED) = true |- _ => rewrite Q in Q2; discriminate Q2 end]|lia].
  - intros (i & c & [Hs _] & Hd). match goal with A : forallb _ _ = true |- _ => rewrite forallb_forall in A; specialize (A c) end.
    assert (In c (v_conns (x_vec x'))) as Hin by (unfold slot in Hs; destruct (0 <=? i); [|discriminate]; destruct (nth_error (v_conns (x_vec x')) (Z.to_nat i)) as [c0|] eqn:En; [|discriminate]; injection Hs as <-; exact (nth_error_In _ _ En)).
    match goal with A : In c _ -> _ = true |- _ => specialize (A Hin); rewrite Hd in A; discriminate A end.
Qed.
(** A publisher with the announcements switched on, and an idle multicast socket. *)
Definition c91_ops : list xop := [XActivate (ActOk 3 4 0); XInterval 1000000 500].
Definition foreign (now : Z) : turn := mkTurn now [(mkRdy 3 RMC_MULTICAST_INDEX EPOLLIN, mkPin (AccErr 11) None (Some 8) RErr [] (WOk 0))] now 900 (AnnYes [65] 1).
Example c91_pub_starved_witness : exists x g log s, reached_by orderly x g log /\ reached x g log /\ clock_ok log /\ 0 <= x_resend x /\ x_mcast x = 3 /\ x_anext x = 1000500 /\ rmc_pub_timeout_get_next x = Ok 1000500 /\
  kernel_ok (pub_polls log) /\ ep_run (pub_polls log) = Some s /\ e_watch s 3 = Some (RMC_MULTICAST_INDEX, EPOLLIN) /\
  (exists w x' l evs, pub_turn x 2000 [] 1001000 900 (AnnYes [65] 1) = Ok (w, x', l, evs) /\ w = 999 /\ queued x' <> []) /\
  exists l, pub_turns x [foreign 600000; foreign 1200000; foreign 9000000] = Ok (x, l, []).
Proof.
  destruct (xcheck_hist demo0 c91_ops (fun x g log => kernel_okb [] (pub_polls log) && watchb (pub_polls log) 3 RMC_MULTICAST_INDEX EPOLLIN && (0 <=? x_resend x) && (x_mcast x =? 3) && (x_anext x =? 1000500) && is_ok (rmc_pub_timeout_get_next x) 1000500 &&
    listb (flat_map cast_ts log) [] && match pub_turn x 2000 [] 1001000 900 (AnnYes [65] 1) with Ok (w, x', _, _) => (w =? 999) && (0 <? zlen (queued x')) | _ => false end)) as (x & g & log & H & E); [vm_compute; reflexivity|].
  bool_split. match goal with A : watchb _ _ _ _ = true |- _ => apply watchb_ok in A; destruct A as (s & Rs & Wm) end. exists x, g, log, s.
  assert (Rc : reached x g log) by (exists demo0, c91_ops; split; [exact demo0_fresh|exact H]).
  assert (Ck : clock_ok log). { match goal with A : listb _ _ = true |- _ => apply listb_eq in A; revert A end. intros Ek. unfold clock_ok. rewrite ?Ek. repeat constructor. }
  split; [exact (obeys_reached _ _ _ _ _ demo0_fresh H ltac:(vm_compute; reflexivity))|]. split; [exact Rc|]. split; [exact Ck|]. split; [lia|]. split; [lia|]. split; [lia|]. split; [apply is_ok_eq; assumption|]. split; [apply kernel_okb_nil; assumption|]. split; [exact Rs|]. split; [exact Wm|]. split.
  - destruct (pub_turn x 2000 [] 1001000 900 (AnnYes [65] 1)) as [[[[w x'] l] evs]| | |]; try discriminate. bool_split. exists w, x', l, evs. split; [reflexivity|]. split; [lia|]. intros Q. rewrite Q in *. discriminate.
  - destruct (c91_pub_starved_refuted x g log 3 [foreign 600000; foreign 1200000; foreign 9000000] Rc Ck ltac:(lia) ltac:(lia) ltac:(lia) ltac:(lia)) as (l & El & _); [|exists l; exact El].
    intros t Ht. cbn [In] in Ht. destruct Ht as [<-|[<-|[<-|[]]]]; eexists; eexists; split; reflexivity.
Qed.

(** A subscriber with acknowledgements on their way and a new announcement. *)
Definition c91_sready : list (ready * sin) :=
  let n f r w := mkSin f r [] (mkSw (CmpOk 0 0) w) in
  [(mkRdy 3 RMC_MULTICAST_INDEX EPOLLIN, n [McData 78 (dgram 0 [65]) (mkMi true (SockOk 4 false EINPROGRESS) no_acc)] RErr (WOk 0)); (mkRdy 4 0 (EPOLLIN + EPOLLOUT), n [] (RData []) (WOk 5))].
Definition skinds (l : list scall) : list Z :=
  flat_map (fun k => match k_op k with YRead i _ => [1; i; k_code k] | YWrite i _ => [2; i; k_code k] | YClose i => [3; i; k_code k] | _ => [] end) l.
Example c91_sub_witness : exists x log s x' l, sreached false x log /\ kernel_ok (sub_polls log) /\ ep_run (sub_polls log) = Some s /\ once c91_sready /\
  (forall e, In e c91_sready -> reported s (fst e) /\ sin_ok (snd e)) /\ sub_process_events x c91_sready = Ok (0, x', l) /\
  skinds l = [1; 0; 0;  2; 0; ENOTCONN;  3; 0; 0;  1; RMC_MULTICAST_INDEX; 0] /\ conn_desc (t_vec x') 4.
Proof.
  destruct (ycheck_hist false sdemo0 c68_sub_ops (fun x log => kernel_okb [] (sub_polls log) && watchb (sub_polls log) 4 0 (EPOLLIN + EPOLLOUT) && watchb (sub_polls log) 3 RMC_MULTICAST_INDEX EPOLLIN &&
    match sub_process_events x c91_sready with Ok (0, x', l) => listb (skinds l) [1; 0; 0;  2; 0; ENOTCONN;  3; 0; 0;  1; RMC_MULTICAST_INDEX; 0] && (match slot (t_vec x') 0 with Ok c => (c_desc c =? 4) && (c_mode c =? CONNECTING) | _ => false end) | _ => false end)) as (x & log & H & E); [vm_compute; reflexivity|].
  bool_split. repeat match goal with A : watchb _ _ _ _ = true |- _ => apply watchb_ok in A end.
  match goal with A : exists s, _ /\ e_watch s 4 = _, B : exists s, _ /\ e_watch s 3 = _ |- _ => destruct A as (s & Rs & A), B as (s1 & R1 & B) end. assert (s1 = s) as -> by congruence. clear R1.
  destruct (sub_process_events x c91_sready) as [[[[|p|p] x'] l]| | |] eqn:Ep; try discriminate. bool_split. exists x, log, s, x', l.
  split; [exists sdemo0, c68_sub_ops; split; [exact sdemo0_fresh|exact H]|]. split; [apply kernel_okb_nil; assumption|]. split; [exact Rs|].
  split; [repeat constructor; cbn; intuition lia|]. split.
  { intros e He. cbn [c91_sready In] in He. destruct He as [<-|[<-|[]]]; (split; [eexists; split; [cbn [fst y_desc]; eassumption|split; reflexivity || intros; assumption || discriminate]|]); unfold sin_ok; cbn [snd m_from m_readv m_wr sw_tcp sw_cmp].
    - split; [|split; [exact Logic.I|split; [cbv; intuition congruence|exact Logic.I]]]. constructor; [|constructor]. split; [cbv; intuition congruence|]. split; [vm_compute; repeat constructor; discriminate|cbn; lia].
    - split; [constructor|]. split; [constructor|]. split; [cbv; intuition congruence|exact Logic.I]. }
  split; [exact Ep|]. split; [apply listb_eq; assumption|].
  destruct (slot (t_vec x') 0) as [c| | |] eqn:Es; try discriminate. bool_split. exists 0, c. split; [split; [exact Es|intros Q; match goal with Q2 : (c_mode c =? CONNECTING) = true |- _ => rewrite Q in Q2; discriminate Q2 end]|lia].
Qed.
(** Two acknowledgements due at once go out with one call. *)
Example c91_sub_catchup_witness : exists x log x' evs, sreached false x log /\ unsent x = 2%nat /\ sub_catchup 3 x 900000 (fun _ => 900001) 0 = Ok (-1, x', evs, 1%nat) /\ answered evs = 2%nat.
Proof.
  destruct (ycheck_hist false sdemo0 sdemo_ops (fun x log => Nat.eqb (unsent x) 2 && match sub_catchup 3 x 900000 (fun _ => 900001) 0 with Ok (t, _, evs, n) => (t =? -1) && Nat.eqb n 1 && Nat.eqb (answered evs) 2 | _ => false end)) as (x & log & H & E); [vm_compute; reflexivity|].
  bool_split. destruct (sub_catchup 3 x 900000 (fun _ => 900001) 0) as [[[[t x'] evs] n]| | |] eqn:Ec; try discriminate. bool_split. exists x, log, x', evs.
  repeat match goal with A : Nat.eqb _ _ = true |- _ => apply Nat.eqb_eq in A end. split; [exists sdemo0, sdemo_ops; split; [exact sdemo0_fresh|exact H]|]. split; [assumption|]. split; [|assumption]. replace t with (-1) in * by lia. subst n. exact Ec.
Qed.
(** Bytes to send, and no room in the socket. *)
Example c91_sub_busy_witness : exists x log c code x' l, sreached false x log /\ sconnected x 0 c /\ contents (c_wbuf c) <> [] /\ c_desc c = 4 /\
  sub_process_events x [(mkRdy 4 0 EPOLLOUT, mkSin [] RErr [] (mkSw (CmpOk 0 0) (WErr EAGAIN)))] = Ok (code, x', l).
Proof.
  destruct (ycheck_hist false sdemo0 c68_sub_ops (fun x log => outb x 0 4 && match sub_process_events x [(mkRdy 4 0 EPOLLOUT, mkSin [] RErr [] (mkSw (CmpOk 0 0) (WErr EAGAIN)))] with Ok _ => true | _ => false end)) as (x & log & H & E); [vm_compute; reflexivity|].
  bool_split. match goal with A : outb _ _ _ = true |- _ => destruct (outb_ok _ _ _ A) as (c & Hc & Ed & Hn) end.
  destruct (sub_process_events x _) as [[[code x'] l]| | |] eqn:Ep; try discriminate. exists x, log, c, code, x', l. split; [exists sdemo0, c68_sub_ops; split; [exact sdemo0_fresh|exact H]|]. split; [exact Hc|]. split; [exact Hn|]. split; [exact Ed|exact Ep].
Qed.

Print Assumptions c91_wait.
Print Assumptions c91_wait_far_refuted.
Print Assumptions c91_pub_calls.
Print Assumptions c91_sub_calls.
Print Assumptions c91_pub_events.
Print Assumptions c91_sub_events.
Print Assumptions c91_sub_busy_refuted.
Print Assumptions c91_pub_announce.
Print Assumptions c91_pub_starved_refuted.
Print Assumptions c91_sub_catchup.
