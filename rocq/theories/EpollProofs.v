(** EpollProofs.v — the epoll set follows the tables of a context. *)
From Verif Require Import Base CircBuf CircBufProofs Wire Conn SpecConn ConnProofs SpecPoll SpecDesc PubCtx SubCtx PollSub Desc Epoll.

Lemma run_snoc l e : ep_run (l ++ [e]) = match ep_run l with Some s => ep_ev s e | None => None end.
Proof. unfold ep_run. rewrite fold_left_app. reflexivity. Qed.
Lemma poll_add_open s d i a s' : poll_add s d i a = Some s' -> e_open s' = e_open s.
Proof. unfold poll_add. destruct (negb _); [discriminate|]. destruct (e_watch s d); [discriminate|]. intros E. injection E as <-. reflexivity. Qed.
Lemma poll_modify_open s d i o a s' : poll_modify s d i o a = Some s' -> e_open s' = e_open s.
Proof. unfold poll_modify. destruct (_ =? _); [intros E; injection E as <-; reflexivity|]. destruct (negb _); [discriminate|]. destruct (e_watch s d); [|discriminate]. intros E. injection E as <-. reflexivity. Qed.
Lemma poll_remove_open s d s' : poll_remove s d = Some s' -> e_open s' = e_open s.
Proof. unfold poll_remove. destruct (negb _); [intros E; injection E as <-; reflexivity|]. destruct (e_watch s d); intros E; injection E as <-; reflexivity. Qed.
Lemma run_open l : forall s, ep_run l = Some s -> e_open s = opened l.
Proof.
  induction l as [|e l IH] using rev_ind; intros s; [intros E; injection E as <-; reflexivity|]. rewrite run_snoc. destruct (ep_run l) as [s0|]; [|discriminate]. specialize (IH s0 eq_refl).
  unfold opened. rewrite fold_left_app. cbn [fold_left]. fold (opened l). rewrite <- IH. destruct e as [d|d|d i a|d i o a|d i]; cbn [ep_ev open_ev].
  - intros E. injection E as <-. reflexivity.
  - intros E. injection E as <-. reflexivity.
  - apply poll_add_open.
  - apply poll_modify_open.
  - apply poll_remove_open.
Qed.
Lemma is_fd_In s d : is_fd s d = true <-> In d (e_open s).
Proof. unfold is_fd. rewrite existsb_exists. split; [intros (k & H & E); apply Z.eqb_eq in E; congruence|]. intros H. exists d. split; [exact H|apply Z.eqb_refl]. Qed.
(** Only open descriptors are watched. *)
Lemma run_watch l : forall s, ep_run l = Some s -> forall d w, e_watch s d = Some w -> In d (e_open s).
Proof.
  induction l as [|e l IH] using rev_ind; intros s; [intros E; injection E as <-; discriminate|]. rewrite run_snoc. destruct (ep_run l) as [s0|]; [|discriminate]. specialize (IH s0 eq_refl).
  destruct e as [d|d|d i a|d i o a|d i]; cbn [ep_ev].
  - intros E k w. injection E as <-. cbn [e_watch e_open]. intros H. right. exact (IH _ _ H).
  - intros E k w. injection E as <-. unfold set_watch. cbn [e_watch e_open]. destruct (Z.eqb_spec k d); [discriminate|]. intros H. apply in_in_remove; [assumption|exact (IH _ _ H)].
  - unfold poll_add. destruct (is_fd s0 d) eqn:F; [|discriminate]. cbn [negb]. destruct (e_watch s0 d); [discriminate|]. intros E k w. injection E as <-. cbn [set_watch e_watch e_open].
    destruct (Z.eqb_spec k d) as [->|]; [intros _; apply is_fd_In; exact F|apply IH].
  - unfold poll_modify. destruct (_ =? _); [intros E; injection E as <-; exact IH|]. destruct (is_fd s0 d) eqn:F; [|discriminate]. cbn [negb]. destruct (e_watch s0 d); [|discriminate]. intros E k w. injection E as <-. cbn [set_watch e_watch e_open].
    destruct (Z.eqb_spec k d) as [->|]; [intros _; apply is_fd_In; exact F|apply IH].
  - unfold poll_remove. destruct (is_fd s0 d) eqn:F; cbn [negb]; [|intros E; injection E as <-; exact IH]. destruct (e_watch s0 d); intros E; injection E as <-; [|exact IH]. intros k w. cbn [set_watch e_watch e_open].
    destruct (Z.eqb_spec k d) as [->|]; [discriminate|apply IH].
Qed.

(** ** A table of what is to be watched, by index *)
Definition wtab : Type := Z -> option (Z * Z).
Definition EP (W : wtab) (l : list cev) : Prop :=
  exists s, ep_run l = Some s /\ forall d j e, e_watch s d = Some (j, e) <-> exists a, W j = Some (d, a) /\ e = events_of a.
Definition WT (W : wtab) (evs : list cev) (W' : wtab) : Prop := forall l, kernel_ok (l ++ evs) -> EP W l -> EP W' (l ++ evs).
(** Nobody watches [d]. *)
Definition unwatched (W : wtab) (d : Z) : Prop := forall j a, W j <> Some (d, a).

Lemma EP_open W l j d a : EP W l -> W j = Some (d, a) -> In d (opened l).
Proof. intros (s & R & H) E. rewrite <- (run_open l s R). apply (run_watch l s R d (j, events_of a)). apply H. eauto. Qed.
Lemma EP_fresh W l d : EP W l -> ~ In d (opened l) -> unwatched W d.
Proof. intros H N j a E. exact (N (EP_open W l j d a H E)). Qed.
Lemma EP_nil W l : kernel_ok l -> EP W l -> unwatched W (-1).
Proof. intros K H. apply (EP_fresh W l); [exact H|]. intros A. pose proof (opened_nonneg l K _ A). lia. Qed.
Lemma EP_inj W l j k d a b : EP W l -> W j = Some (d, a) -> W k = Some (d, b) -> j = k.
Proof.
  intros (s & R & H) E1 E2. assert (A : e_watch s d = Some (j, events_of a)) by (apply H; eauto). assert (B : e_watch s d = Some (k, events_of b)) by (apply H; eauto). congruence.
Qed.
Lemma EP_ext W W' l : (forall j, W' j = W j) -> EP W l -> EP W' l.
Proof. intros E (s & R & H). exists s. split; [exact R|]. intros d j e. rewrite H, E. reflexivity. Qed.
Lemma WT_trans W e1 W1 e2 W2 : WT W e1 W1 -> WT W1 e2 W2 -> WT W (e1 ++ e2) W2.
Proof. intros A B l K H. rewrite app_assoc in *. apply B; [exact K|]. apply A; [exact (kernel_pre _ _ K)|exact H]. Qed.
Lemma WT_cons W e W1 e2 W2 : WT W [e] W1 -> WT W1 e2 W2 -> WT W (e :: e2) W2.
Proof. exact (WT_trans W [e] W1 e2 W2). Qed.
Lemma WT_nil W W' : (forall j, W' j = W j) -> WT W [] W'.
Proof. intros E l _ H. rewrite app_nil_r. exact (EP_ext _ _ _ E H). Qed.
Lemma WT_to W evs W1 W' : (forall j, W' j = W1 j) -> WT W evs W1 -> WT W evs W'.
Proof. intros E H l K P. exact (EP_ext _ _ _ E (H l K P)). Qed.
Lemma WT_open W d : WT W [EvOpen d] W.
Proof. intros l _ (s & R & H). exists (mkEp (d :: e_open s) (e_watch s)). rewrite run_snoc, R. split; [reflexivity|exact H]. Qed.
Lemma WT_ign W d j a : WT W [EvMod d j a a] W.
Proof. intros l _ (s & R & H). exists s. rewrite run_snoc, R. cbn [ep_ev]. unfold poll_modify. rewrite Z.eqb_refl. split; [reflexivity|exact H]. Qed.
Lemma EP_add W W' l d j a : EP W l -> In d (opened l) -> unwatched W d -> W j = None -> W' j = Some (d, a) -> (forall k, k <> j -> W' k = W k) -> EP W' (l ++ [EvAdd d j a]).
Proof.
  intros (s & R & H) Ho Hu Hj E1 E2. exists (set_watch s d (Some (j, events_of a))). rewrite run_snoc, R. cbn [ep_ev]. unfold poll_add.
  assert (F : is_fd s d = true) by (apply is_fd_In; rewrite (run_open _ _ R); exact Ho). rewrite F. cbn [negb].
  assert (Wn : e_watch s d = None). { destruct (e_watch s d) as [[k e]|] eqn:Ew; [|reflexivity]. exfalso. apply H in Ew. destruct Ew as (b & Ew & _). exact (Hu _ _ Ew). }
  rewrite Wn. split; [reflexivity|]. intros k i e. cbn [set_watch e_watch]. destruct (Z.eqb_spec k d) as [->|N].
  - split.
    + intros Q. injection Q as <- <-. exists a. auto.
    + intros (b & Q & ->). destruct (Z.eq_dec i j) as [->|Ni]; [rewrite E1 in Q; injection Q as <-; reflexivity|]. rewrite E2 in Q by exact Ni. destruct (Hu _ _ Q).
  - rewrite H. split; intros (b & Q & ->); exists b; (split; [|reflexivity]).
    + rewrite E2; [exact Q|]. intros ->. congruence.
    + destruct (Z.eq_dec i j) as [->|Ni]; [congruence|]. rewrite E2 in Q by exact Ni. exact Q.
Qed.
Lemma WT_mod W W' d j old0 old new : W j = Some (d, old0) -> (old = new -> old0 = new) -> W' j = Some (d, new) -> (forall k, k <> j -> W' k = W k) -> WT W [EvMod d j old new] W'.
Proof.
  intros Hj Ho E1 E2. destruct (Z.eq_dec old new) as [->|No].
  - rewrite (Ho eq_refl) in Hj. apply (WT_to _ _ W); [|apply WT_ign]. intros k. destruct (Z.eq_dec k j) as [->|N]; [congruence|exact (E2 k N)].
  - intros l K P. pose proof (EP_open _ _ _ _ _ P Hj) as Hin. pose proof (fun k b => EP_inj W l k j d b old0 P) as Inj. destruct P as (s & R & H).
    exists (set_watch s d (Some (j, events_of new))). rewrite run_snoc, R. cbn [ep_ev]. unfold poll_modify.
    replace (old =? new) with false by lia. assert (F : is_fd s d = true) by (apply is_fd_In; rewrite (run_open _ _ R); exact Hin). rewrite F. cbn [negb].
    assert (Wn : e_watch s d = Some (j, events_of old0)) by (apply H; eauto). rewrite Wn. split; [reflexivity|]. intros k i e. cbn [set_watch e_watch]. destruct (Z.eqb_spec k d) as [->|N].
    + split.
      * intros Q. injection Q as <- <-. exists new. auto.
      * intros (b & Q & ->). destruct (Z.eq_dec i j) as [->|Ni]; [rewrite E1 in Q; injection Q as <-; reflexivity|]. rewrite E2 in Q by exact Ni. destruct (Ni (Inj i b Q Hj)).
    + rewrite H. split; intros (b & Q & ->); exists b; (split; [|reflexivity]).
      * destruct (Z.eq_dec i j) as [->|Ni]; [congruence|]. rewrite E2 by exact Ni. exact Q.
      * destruct (Z.eq_dec i j) as [->|Ni]; [congruence|]. rewrite E2 in Q by exact Ni. exact Q.
Qed.
Lemma EP_cut W W' l s d j a : EP W l -> ep_run l = Some s -> W j = Some (d, a) -> W' j = None -> (forall k, k <> j -> W' k = W k) ->
  forall k i e, (if k =? d then None else e_watch s k) = Some (i, e) <-> exists b, W' i = Some (k, b) /\ e = events_of b.
Proof.
  intros P R Hj E1 E2 k i e. pose proof (fun k b => EP_inj W l k j d b a P) as Inj. destruct P as (s' & R' & H). assert (s' = s) as -> by congruence. destruct (Z.eqb_spec k d) as [->|N].
  - split; [discriminate|]. intros (b & Q & _). destruct (Z.eq_dec i j) as [->|Ni]; [congruence|]. rewrite E2 in Q by exact Ni. destruct (Ni (Inj i b Q Hj)).
  - rewrite H. split; intros (b & Q & ->); exists b; (split; [|reflexivity]); (destruct (Z.eq_dec i j) as [->|Ni]; [congruence|]); [rewrite E2 by exact Ni|rewrite E2 in Q by exact Ni]; exact Q.
Qed.
Lemma WT_rem W W' d j k a : W j = Some (d, a) -> W' j = None -> (forall i, i <> j -> W' i = W i) -> WT W [EvRem d k] W'.
Proof.
  intros Hj E1 E2 l K P. pose proof (EP_open _ _ _ _ _ P Hj) as Hin. pose proof P as (s & R & H). exists (set_watch s d None). rewrite run_snoc, R. cbn [ep_ev]. unfold poll_remove.
  assert (F : is_fd s d = true) by (apply is_fd_In; rewrite (run_open _ _ R); exact Hin). rewrite F. cbn [negb]. assert (Wn : e_watch s d = Some (j, events_of a)) by (apply H; eauto). rewrite Wn. split; [reflexivity|].
  exact (EP_cut W W' l s d j a P R Hj E1 E2).
Qed.
Lemma WT_close W W' d j a : W j = Some (d, a) -> W' j = None -> (forall i, i <> j -> W' i = W i) -> WT W [EvClose d] W'.
Proof.
  intros Hj E1 E2 l K P. pose proof P as (s & R & H). eexists. rewrite run_snoc, R. cbn [ep_ev]. split; [reflexivity|]. exact (EP_cut W W' l s d j a P R Hj E1 E2).
Qed.
Lemma EP_norem W l d k : EP W l -> unwatched W d -> EP W (l ++ [EvRem d k]).
Proof.
  intros (s & R & H) U. exists s. rewrite run_snoc, R. cbn [ep_ev]. unfold poll_remove. split; [|exact H]. destruct (negb _); [reflexivity|].
  destruct (e_watch s d) as [[j e]|] eqn:Ew; [|reflexivity]. exfalso. apply H in Ew. destruct Ew as (b & Ew & _). exact (U _ _ Ew).
Qed.
Lemma EP_noclose W l d : EP W l -> unwatched W d -> EP W (l ++ [EvClose d]).
Proof.
  intros (s & R & H) U. eexists. rewrite run_snoc, R. cbn [ep_ev]. split; [reflexivity|]. intros k i e. cbn [set_watch e_watch]. destruct (Z.eqb_spec k d) as [->|N]; [|apply H].
  split; [discriminate|]. intros (b & Q & _). destruct (U _ _ Q).
Qed.
Lemma WT_norem W d k : unwatched W d -> WT W [EvRem d k] W.
Proof. intros U l _ P. exact (EP_norem W l d k P U). Qed.
Lemma WT_noclose W d : unwatched W d -> WT W [EvClose d] W.
Proof. intros U l _ P. exact (EP_noclose W l d P U). Qed.
Lemma WT_nil_rem W k : WT W [EvRem (-1) k] W.
Proof. intros l K P. exact (EP_norem W l (-1) k P (EP_nil _ _ (kernel_pre _ _ K) P)). Qed.
Lemma WT_nil_close W : WT W [EvClose (-1)] W.
Proof. intros l K P. exact (EP_noclose W l (-1) P (EP_nil _ _ (kernel_pre _ _ K) P)). Qed.
Lemma opened_snoc l e : opened (l ++ [e]) = open_ev (opened l) e.
Proof. unfold opened. rewrite fold_left_app. reflexivity. Qed.
(** A new socket under an index that has none. *)
Lemma WT_add W W' d j a : (W j = None \/ exists b, W j = Some (-1, b)) -> W' j = Some (d, a) -> (forall k, k <> j -> W' k = W k) -> WT W [EvOpen d; EvAdd d j a] W'.
Proof.
  intros Hj E1 E2 l K P. change [EvOpen d; EvAdd d j a] with ([EvOpen d] ++ [EvAdd d j a]) in *. rewrite app_assoc in *.
  pose proof (kernel_pre _ _ K) as K1. destruct (kernel_next l d [] K1) as [_ Fr].
  assert (N : W j = None) by (destruct Hj as [Hj|[b Hj]]; [exact Hj|destruct (EP_nil W l (kernel_pre _ _ K1) P j b Hj)]).
  apply (EP_add W W'); [exact (WT_open W d l K1 P)| | |exact N|exact E1|exact E2].
  - rewrite opened_snoc. left. reflexivity.
  - exact (EP_fresh W l d P Fr).
Qed.
Lemma WT_temp W ds : WT W (map EvOpen ds ++ map EvClose ds) W.
Proof.
  intros l K P. rewrite app_assoc in *. pose proof (kernel_pre _ _ K) as K1.
  assert (A : forall ds l, kernel_ok (l ++ map EvOpen ds) -> EP W l -> EP W (l ++ map EvOpen ds) /\ forall d, In d ds -> unwatched W d).
  { clear. induction ds as [|d ds IH]; intros l K P; [cbn [map]; rewrite app_nil_r; split; [exact P|intros d []]|]. cbn [map] in *.
    change (EvOpen d :: map EvOpen ds) with ([EvOpen d] ++ map EvOpen ds) in *. destruct (kernel_next l d (map EvOpen ds) K) as [_ Fr]. rewrite app_assoc in *.
    destruct (IH _ K (WT_open W d l (kernel_pre _ _ K) P)) as [Q1 Q2]. split; [exact Q1|]. intros k [<-|Hk]; [exact (EP_fresh W l d P Fr)|exact (Q2 k Hk)]. }
  destruct (A ds l K1 P) as [Q1 Q2]. clear A P K K1. revert Q1 Q2. generalize (l ++ map EvOpen ds). clear l. induction ds as [|d ds IH]; intros l Q1 Q2; [cbn [map]; rewrite app_nil_r; exact Q1|].
  cbn [map]. change (EvClose d :: map EvClose ds) with ([EvClose d] ++ map EvClose ds). rewrite app_assoc. apply IH; [|intros k Hk; apply Q2; right; exact Hk].
  apply EP_noclose; [exact Q1|]. apply Q2. left. reflexivity.
Qed.

(** ** One call on the connection table *)
(** What is to be watched for a connection, and for the sockets of the context. *)
Definition wdesc (v : cvec) (i : Z) : option (Z * Z) := match slot v i with Ok c => if c_mode c =? CLOSED then None else Some (c_desc c, c_action c) | _ => None end.
Definition ovw (S : Z -> option (option (Z * Z))) (v : cvec) : wtab := fun j => match S j with Some r => r | None => wdesc v j end.
Definition special (S : Z -> option (option (Z * Z))) : Prop := forall j, j < RMC_LISTEN_INDEX -> S j = None.
Lemma wdesc_open v i c : is_open v i c -> wdesc v i = Some (c_desc c, c_action c).
Proof. intros [Hs Hm]. unfold wdesc. rewrite Hs. apply Z.eqb_neq in Hm. rewrite Hm. reflexivity. Qed.
Lemma wdesc_ext v v' j : slot v' j = slot v j -> wdesc v' j = wdesc v j.
Proof. unfold wdesc. intros ->. reflexivity. Qed.
Section Conn.
Variable S : Z -> option (option (Z * Z)).
Hypothesis HS : special S.
Lemma ovw_slot v i c : slot v i = Ok c -> v_size v <= RMC_LISTEN_INDEX -> ovw S v i = wdesc v i.
Proof. intros Hs Hz. unfold ovw. rewrite HS; [reflexivity|]. pose proof (slot_range _ _ _ Hs). lia. Qed.
Lemma ovw_ext v v' j : (wdesc v' j = wdesc v j) -> ovw S v' j = ovw S v j.
Proof. unfold ovw. intros ->. reflexivity. Qed.
Lemma free_case v i c : v_size v <= RMC_LISTEN_INDEX -> slot v i = Ok c -> c_desc c = -1 -> ovw S v i = None \/ exists b, ovw S v i = Some (-1, b).
Proof. intros Hz Hs Hd. rewrite (ovw_slot v i c Hs Hz). unfold wdesc. rewrite Hs, Hd. destruct (_ =? _); [left; reflexivity|right; eauto]. Qed.
(** A free slot is changed and stays free. *)
Lemma free_WT v v' i c evs : v_size v <= RMC_LISTEN_INDEX -> slot v i = Ok c -> c_desc c = -1 -> wdesc v' i = None \/ (exists b, wdesc v' i = Some (-1, b) /\ c_mode c <> CLOSED) -> (forall j, j <> i -> wdesc v' j = wdesc v j) ->
  WT (ovw S v) evs (ovw S v) -> WT (ovw S v) evs (ovw S v').
Proof.
  intros Hz Hs Hd E1 E2 H l K P. specialize (H l K P). assert (N : ovw S v i = None).
  { destruct (free_case v i c Hz Hs Hd) as [A|[b A]]; [exact A|]. destruct (EP_nil _ _ K H i b A). }
  apply (EP_ext (ovw S v)); [|exact H]. intros j. destruct (Z.eq_dec j i) as [->|Nj]; [|apply ovw_ext; exact (E2 j Nj)].
  rewrite N. rewrite (ovw_slot v i c Hs Hz) in N. unfold ovw. rewrite HS by (pose proof (slot_range _ _ _ Hs); lia). destruct E1 as [E1|(b & E1 & Hm)]; [exact E1|].
  unfold wdesc in N. rewrite Hs in N. apply Z.eqb_neq in Hm. rewrite Hm in N. discriminate.
Qed.
Lemma close_WT v i code v' evs : v_size v <= RMC_LISTEN_INDEX -> 0 <= i -> close_conn v i = Ok (code, v', evs) -> WT (ovw S v) evs (ovw S v').
Proof.
  intros Hz Hi E. destruct (close_cases v i Hi) as [[_ Ec]|[(c & _ & _ & Ec)|(c & Ho & Ec)]]; rewrite Ec in E; injection E as _ <- <-; [apply WT_nil; reflexivity..|].
  pose proof (slot_range _ _ _ (proj1 Ho)) as R. set (v' := set_active _ _).
  assert (A1 : ovw S v i = Some (c_desc c, c_action c)) by (rewrite (ovw_slot v i c (proj1 Ho) Hz); exact (wdesc_open _ _ _ Ho)).
  assert (A2 : ovw S v' i = None).
  { unfold ovw. rewrite HS by lia. unfold wdesc, v'. rewrite slot_set_active. replace (slot _ i) with (Ok (reset_conn c)) by (destruct (i =? v_max v); rewrite ?slot_reset_max, slot_put_same by exact R; reflexivity). reflexivity. }
  assert (A3 : forall j, j <> i -> ovw S v' j = ovw S v j).
  { intros j N. apply ovw_ext, wdesc_ext. unfold v'. rewrite slot_set_active. destruct (i =? v_max v); rewrite ?slot_reset_max; apply slot_put_other; lia || exact N. }
  intros l K P. pose proof (WT_rem _ (ovw S v') _ _ i _ A1 A2 A3) as H.
  change [EvRem (c_desc c) i; EvClose (c_desc c)] with ([EvRem (c_desc c) i] ++ [EvClose (c_desc c)]) in *. rewrite app_assoc in *.
  specialize (H l (kernel_pre _ _ K) P). apply EP_noclose; [exact H|]. intros j b Q. destruct (Z.eq_dec j i) as [->|N]; [congruence|]. rewrite A3 in Q by exact N.
  exact (N (EP_inj _ _ _ _ _ _ _ P Q A1)).
Qed.
Lemma accept_WT listen v o code ri v' evs : v_size v <= RMC_LISTEN_INDEX -> match o with AccOk _ _ nd => nd = 0 | _ => True end -> process_accept listen v o = Ok (code, ri, v', evs) -> WT (ovw S v) evs (ovw S v').
Proof.
  intros Hz Hn E. assert (Sz : v_size v <= RMC_NIL_INDEX) by (unfold RMC_NIL_INDEX, RMC_LISTEN_INDEX in *; lia).
  destruct (accept_cases listen v o Sz) as [[_ Ec]|(i & c & _ & Hs & Hd & Ec)]; [rewrite Ec in E; injection E as _ _ <- <-; apply WT_nil; reflexivity|].
  pose proof (slot_range _ _ _ Hs) as R.
  destruct o as [e|d addr nd].
  - rewrite Ec in E. injection E as _ _ <- <-. apply (free_WT v _ i c); [exact Hz|exact Hs|exact Hd| | |apply WT_nil; reflexivity].
    + unfold wdesc. rewrite slot_put_same by (rewrite bumped_size; exact R). cbn [set_desc c_mode c_desc]. destruct (Z.eqb_spec (c_mode c) CLOSED); [left; reflexivity|right; eauto].
    + intros j N. apply wdesc_ext. rewrite slot_put_other by (lia || exact N). apply bumped_slot.
  - destruct Ec as [[_ Ec]|[Q _]]; [|contradiction]. rewrite Ec in E. injection E as _ _ <- <-.
    change [EvOpen d; EvAdd d i POLLREAD; ?e] with ([EvOpen d; EvAdd d i POLLREAD] ++ [e]). refine (WT_trans _ _ _ _ _ (WT_add _ _ d i POLLREAD (free_case v i c Hz Hs Hd) _ _) (WT_ign _ _ _ _)).
    + unfold ovw. rewrite HS by lia. unfold wdesc. rewrite slot_set_active, slot_put_same by (rewrite bumped_size; exact R). reflexivity.
    + intros j N. apply ovw_ext, wdesc_ext. rewrite slot_set_active, slot_put_other by (lia || exact N). apply bumped_slot.
Qed.
Lemma connect_WT v addr port node o code ri v' evs : v_size v <= RMC_LISTEN_INDEX -> connect_tcp v addr port node o = Ok (code, ri, v', evs) -> WT (ovw S v) evs (ovw S v').
Proof.
  intros Hz E. assert (Sz : v_size v <= RMC_NIL_INDEX) by (unfold RMC_NIL_INDEX, RMC_LISTEN_INDEX in *; lia).
  destruct (connect_cases v addr port node o Sz) as [[_ Ec]|(i & c & _ & Hs & Hd & Ec)]; [rewrite Ec in E; injection E as _ _ <- <-; apply WT_nil; reflexivity|].
  pose proof (slot_range _ _ _ Hs) as R.
  destruct o as [e|d ok errno].
  - rewrite Ec in E. injection E as _ _ <- <-. apply (free_WT v _ i c); [exact Hz|exact Hs|exact Hd| | |apply WT_nil; reflexivity].
    + unfold wdesc. rewrite slot_put_same by (rewrite bumped_size; exact R). cbn [set_desc c_mode c_desc]. destruct (Z.eqb_spec (c_mode c) CLOSED); [left; reflexivity|right; eauto].
    + intros j N. apply wdesc_ext. rewrite slot_put_other by (lia || exact N). apply bumped_slot.
  - destruct Ec as [(_ & _ & Ec)|[_ Ec]]; rewrite Ec in E; injection E as _ _ <- <-.
    + apply (free_WT v _ i c); [exact Hz|exact Hs|exact Hd| | |exact (WT_temp _ [d])].
      * unfold wdesc. rewrite slot_reset_max, slot_put_same by (rewrite bumped_size; exact R). cbn [c_mode c_desc]. destruct (Z.eqb_spec (c_mode c) CLOSED); [left; reflexivity|right; eauto].
      * intros j N. apply wdesc_ext. rewrite slot_reset_max, slot_put_other by (lia || exact N). apply bumped_slot.
    + refine (WT_add _ _ d i POLLWRITE (free_case v i c Hz Hs Hd) _ _).
      * unfold ovw. rewrite HS by lia. unfold wdesc. rewrite slot_set_active, slot_put_same by (rewrite bumped_size; exact R). reflexivity.
      * intros j N. apply ovw_ext, wdesc_ext. rewrite slot_set_active, slot_put_other by (lia || exact N). apply bumped_slot.
Qed.
(** An open connection is changed and its new action is reported. *)
Lemma put_WT v i c c' : v_size v <= RMC_LISTEN_INDEX -> is_open v i c -> c_mode c' <> CLOSED -> c_desc c' = c_desc c ->
  WT (ovw S v) [EvMod (c_desc c) i (c_action c) (c_action c')] (ovw S (put_slot v i c')).
Proof.
  intros Hz Ho Hm Hd. pose proof (slot_range _ _ _ (proj1 Ho)) as R. apply (WT_mod _ _ _ _ (c_action c)).
  - rewrite (ovw_slot v i c (proj1 Ho) Hz). exact (wdesc_open _ _ _ Ho).
  - auto.
  - unfold ovw. rewrite HS by lia. rewrite (wdesc_open _ i c'); [rewrite Hd; reflexivity|]. split; [apply slot_put_same; exact R|exact Hm].
  - intros k N. apply ovw_ext, wdesc_ext. apply slot_put_other; [lia|exact N].
Qed.
Lemma keep_WT v i c c' : slot v i = Ok c -> (c_mode c' =? CLOSED) = (c_mode c =? CLOSED) -> (c_mode c <> CLOSED -> c_desc c' = c_desc c /\ c_action c' = c_action c) -> WT (ovw S v) [] (ovw S (put_slot v i c')).
Proof.
  intros Hs Hm Hd. apply WT_nil. intros j. apply ovw_ext. pose proof (slot_range _ _ _ Hs) as R. unfold wdesc. destruct (Z.eq_dec j i) as [->|N].
  - rewrite slot_put_same by exact R. rewrite Hs, Hm. destruct (Z.eqb_spec (c_mode c) CLOSED) as [|A]; [reflexivity|]. destruct (Hd A) as [-> ->]. reflexivity.
  - rewrite slot_put_other by (lia || exact N). reflexivity.
Qed.
Lemma complete_WT v i o code v' evs : v_size v <= RMC_LISTEN_INDEX -> 0 <= i -> (forall c, slot v i = Ok c -> c_mode c <> CLOSED) -> complete_conn v i o = Ok (code, v', evs) -> WT (ovw S v) evs (ovw S v').
Proof.
  intros Hz Hi Hm. unfold complete_conn. destruct (slot v i) as [c| | |] eqn:Hs; cbn [bind]; [|discriminate..]. specialize (Hm c eq_refl). assert (Ho : is_open v i c) by (split; assumption).
  assert (A1 : ovw S v i = Some (c_desc c, c_action c)) by (rewrite (ovw_slot v i c Hs Hz); exact (wdesc_open _ _ _ Ho)).
  destruct (close_cases v i Hi) as [[Hb _]|[(c1 & Hs1 & Hm1 & _)|(c1 & Ho1 & Ec)]]; [pose proof (slot_range _ _ _ Hs); lia|congruence|].
  assert (c1 = c) as -> by (destruct Ho1; congruence). cbv zeta in Ec.
  set (v1 := set_active _ _) in Ec. pose proof (close_WT v i _ _ _ Hz Hi Ec) as C1.
  assert (Pre : WT (ovw S v) (EvRem (c_desc c) i :: [EvRem (c_desc c) i; EvClose (c_desc c)]) (ovw S v1)).
  { assert (R : 0 <= i < v_size v) by exact (slot_range _ _ _ Hs).
    assert (A2 : ovw S v1 i = None).
    { unfold ovw. rewrite HS by lia. unfold wdesc, v1. rewrite slot_set_active. replace (slot _ i) with (Ok (reset_conn c)) by (destruct (i =? v_max v); rewrite ?slot_reset_max, slot_put_same by exact R; reflexivity). reflexivity. }
    assert (A3 : forall j, j <> i -> ovw S v1 j = ovw S v j).
    { intros j N. apply ovw_ext, wdesc_ext. unfold v1. rewrite slot_set_active. destruct (i =? v_max v); rewrite ?slot_reset_max; apply slot_put_other; lia || exact N. }
    intros l K P. change (EvRem (c_desc c) i :: [EvRem (c_desc c) i; EvClose (c_desc c)]) with ([EvRem (c_desc c) i] ++ [EvRem (c_desc c) i] ++ [EvClose (c_desc c)]) in *. rewrite !app_assoc in *.
    pose proof (WT_rem _ (ovw S v1) _ _ i _ A1 A2 A3 l (kernel_pre _ _ (kernel_pre _ _ K)) P) as H.
    assert (U : unwatched (ovw S v1) (c_desc c)).
    { intros j b Q. destruct (Z.eq_dec j i) as [->|N]; [congruence|]. rewrite A3 in Q by exact N. exact (N (EP_inj _ _ _ _ _ _ _ P Q A1)). }
    apply EP_noclose; [|exact U]. apply EP_norem; [exact H|exact U]. }
  destruct o as [e|so nd].
  - rewrite Ec. cbn [bind]. intros E. injection E as _ <- <-. exact C1.
  - destruct (negb (so =? 0)); [|destruct (negb (nd =? 0))].
    + rewrite Ec. cbn [bind]. intros E. injection E as _ <- <-. exact Pre.
    + rewrite Ec. cbn [bind]. intros E. injection E as _ <- <-. exact Pre.
    + intros E. injection E as _ <- <-. apply (put_WT v i c (set_action (set_mode c CONNECTED) POLLREAD)); [exact Hz|exact Ho|discriminate|reflexivity].
Qed.
End Conn.
