(** PropActivate.v — C87: activation makes exactly the system calls it needs, and undoes them
    when one of them fails. *)
From Verif Require Import Base CircBuf CircBufProofs Wire ListHeap SeqList Pub Sub Proto Conn PubCtx SubCtx SpecPubCtx SpecSubCtx Setup.

(** ** Specification *)
(** The bytes of an address and of a port on the wire, most significant first. *)
Definition ip_bytes (v : Z) : list Z := [v / 16777216 mod 256; v / 65536 mod 256; v / 256 mod 256; v mod 256].
Definition port_bytes (p : Z) : list Z := [p / 256 mod 256; p mod 256].
(** The descriptor a socket() call returned. *)
Definition sock (a : ans) : Z := match a with Ret d => d | Fail _ => -1 end.
(** socket() returns a descriptor; getsockname() reports a port. *)
Definition sock_ok (a : ans) : Prop := match a with Ret d => 0 <= d | Fail _ => True end.
Definition pans_ok (q : pans) : Prop := sock_ok (q_msock q) /\ sock_ok (q_lsock q) /\ match q_name q with Ret p => is_u16 p | Fail _ => True end.

(** The calls of a publisher's activation, in order, each with its answer. *)
Definition pub_script (n : pnet) (q : pans) : list (sysc * ans) :=
  let m := sock (q_msock q) in let l := sock (q_lsock q) in
  [(ScSocket false (q_msock q), q_msock q); (ScMcastIf m (ip_bytes (n_mif n)), q_mif q);
   (ScSocket true (q_lsock q), q_lsock q); (ScReuseAddr l, q_raddr q); (ScReusePort l, q_rport q);
   (ScBind l (ip_bytes (n_lif n)) (port_bytes (n_lport n)), q_bind q); (ScListen l 5, q_listen q)]
  ++ (if n_lport n =? 0 then [(ScName l, q_name q)] else []).
(** The calls of a subscriber's activation. *)
Definition sub_script (n : snet) (q : sans) : list (sysc * ans) :=
  let d := sock (u_sock q) in
  [(ScSocket false (u_sock q), u_sock q); (ScReusePort d, u_rport q); (ScRcvBuf d 1048576, u_rcv q);
   (ScBind d [0; 0; 0; 0] (port_bytes (w_mport n)), u_bind q);
   (ScMember d (ip_bytes (w_group n)) (ip_bytes (w_mif n)), u_member q); (ScLoop d, u_loop q)].
(** A script is followed up to and including the first call that fails; the error, if any. *)
Fixpoint until_failure (s : list (sysc * ans)) : list sysc * option Z :=
  match s with
  | [] => ([], None)
  | (c, Fail e) :: _ => ([c], Some e)
  | (c, Ret _) :: r => let (cs, e) := until_failure r in (c :: cs, e)
  end.
(** The sockets the calls opened. *)
Definition opened (cs : list sysc) : list Z := flat_map (fun c => match c with ScSocket _ (Ret d) => [d] | _ => [] end) cs.
(** The failing call was bind(). *)
Definition failed_bind (cs : list sysc) : bool := match last cs (ScClose 0) with ScBind _ _ _ => true | _ => false end.

(** ** Proofs *)
Lemma htonl_ip v : htonl_mem v = ip_bytes v.
Proof.
  unfold htonl_mem, ip_bytes. cbn [le_bytes rev app]. rewrite !Z.div_div by lia. reflexivity.
Qed.
Lemma htons_port v : htons_mem v = port_bytes v.
Proof.
  unfold htons_mem, port_bytes, u16. cbn [le_bytes rev app]. f_equal; [|f_equal].
  - change 65536 with (256 * 256). rewrite Z.rem_mul_r by lia. rewrite Z.mul_comm, Z.div_add by lia. rewrite Z.div_small with (a := v mod 256) by (apply Z.mod_pos_bound; lia). rewrite Z.add_0_l. apply Z.mod_mod. lia.
  - change 65536 with (256 * 256). rewrite Z.rem_mul_r by lia. rewrite Z.mul_comm, Z.mod_add by lia. apply Z.mod_mod. lia.
Qed.

(** Activating an inactive publisher context: the calls of the script up to the first failure.
    If there is none, both sockets are kept, a port the system chose is remembered, and both
    sockets are given to poll_add.  If there is one, every socket that was opened is closed
    again, nothing is given to poll_add, the context is as before, and the code is that of
    the failing call as far as logging and close() leave errno alone. *)
Theorem c87_pub_activate : forall later n q, pans_ok q -> n_mdesc n = -1 -> n_ldesc n = -1 ->
  pub_activate later n q =
    match until_failure (pub_script n q) with
    | (calls, None) =>
        let m := sock (q_msock q) in let l := sock (q_lsock q) in
        (0, mkPn (n_user n) (n_lif n) (n_mif n) (if n_lport n =? 0 then match q_name q with Ret p => p | Fail _ => 0 end else n_lport n) m l (n_add n),
         calls ++ if n_add n then [ScPollAdd (n_user n) m 32766 1; ScPollAdd (n_user n) l 32765 1] else [])
    | (calls, Some e) => (later e, n, calls ++ map ScClose (opened calls))
    end.
Proof.
  intros later [user lif mif lport md ld ad] q (S1 & S2 & _) E0 E. cbn [n_mdesc n_ldesc] in E0, E. subst md ld. destruct q as [qm qi ql qa qr qb qn qp].
  unfold pub_activate, pub_script, pub_act_error, orerr, set_net. cbn [q_msock q_mif q_lsock q_raddr q_rport q_bind q_listen q_name n_user n_lif n_mif n_lport n_mdesc n_ldesc n_add] in *.
  rewrite htonl_ip, htonl_ip, htons_port. change (-1 =? -1) with true.
  destruct qm as [m|e]; cbn [app until_failure sock sock_ok] in *; [|reflexivity].
  replace (m =? -1) with false by lia.
  destruct qi as [?|e]; cbn [until_failure opened flat_map map app]; [|reflexivity].
  destruct ql as [l|e]; cbn [app until_failure sock sock_ok opened flat_map map] in *; [|reflexivity].
  replace (l =? -1) with false by lia.
  destruct qa as [?|e]; cbn [until_failure opened flat_map map app]; [|reflexivity].
  destruct qr as [?|e]; cbn [until_failure opened flat_map map app]; [|reflexivity].
  destruct qb as [?|e]; cbn [until_failure opened flat_map map app]; [|reflexivity].
  destruct qn as [?|e]; cbn [until_failure opened flat_map map app]; [|reflexivity].
  destruct (lport =? 0); cbn [until_failure opened flat_map map app].
  - destruct qp as [p|e]; cbn [until_failure opened flat_map map app]; [|reflexivity]. destruct ad; reflexivity.
  - destruct ad; reflexivity.
Qed.
(** The code of an activation is 0 exactly if no call failed. *)
Theorem c87_pub_code : forall later n q, pans_ok q -> n_mdesc n = -1 -> n_ldesc n = -1 ->
  (forall e, later e <> 0) ->
  (fst (fst (pub_activate later n q)) = 0 <-> Forall (fun ca => exists v, snd ca = Ret v) (pub_script n q)).
Proof.
  intros later n q Hq H1 H2 L. rewrite (c87_pub_activate later n q Hq H1 H2).
  assert (U : forall s, snd (until_failure s) = None <-> Forall (fun ca : sysc * ans => exists v, snd ca = Ret v) s).
  { induction s as [|[c [v|e]] s IH]; cbn [until_failure snd].
    - split; auto.
    - destruct (until_failure s) as [cs o]. cbn [snd] in *. rewrite IH. split; [intros H; constructor; [exists v; reflexivity|exact H]|intros H; inversion H; assumption].
    - split; [discriminate|]. intros H. inversion H as [|? ? [v E] _]; discriminate E. }
  rewrite <- U. destruct (until_failure (pub_script n q)) as [cs [e|]]; cbn [fst snd].
  - split; [intros H; destruct (L e H)|discriminate].
  - split; reflexivity.
Qed.
(** An active context is not protected from being activated again: the sockets it had are
    forgotten without being closed; or, when the first socket() or IP_MULTICAST_IF fails, the
    multicast socket it had is forgotten and its listen socket closed while it is still polled. *)
Theorem c87_pub_again_refuted : forall later n q, pans_ok q -> n_mdesc n <> -1 -> n_ldesc n <> -1 ->
  let '(code, n', calls) := pub_activate later n q in
  (Forall (fun ca => exists v, snd ca = Ret v) (pub_script n q) -> code = 0 /\ (forall d, ~ In (ScClose d) calls)) /\
  ((exists e, q_msock q = Fail e) -> In (ScClose (n_ldesc n)) calls /\ (n_mdesc n <> n_ldesc n -> ~ In (ScClose (n_mdesc n)) calls)).
Proof.
  intros later n q (S1 & S2 & _) H1 H2. destruct (pub_activate later n q) as [[code n'] calls] eqn:E. split.
  - intros F. unfold pub_script in F.
    repeat match type of F with Forall _ (_ :: _) => inversion F as [|? ? [? ?] F']; subst; clear F; rename F' into F; cbn [snd] in * | Forall _ (([_] ++ _)) => cbn [app] in F | Forall _ ((_ :: _) ++ _) => cbn [app] in F end.
    unfold pub_activate, orerr in E. repeat match goal with H : _ = Ret _ |- _ => rewrite H in E; clear H end. cbn [app] in E. cbv zeta in E. cbn [set_net n_lport n_user n_add] in E.
    destruct (n_lport n =? 0).
    + inversion F as [|? ? [p P] _]; subst. cbn [snd] in P. rewrite P in E. assert (code = 0) as -> by congruence. split; [reflexivity|]. intros d D.
      match type of E with (_, _, ?cs) = _ => assert (calls = cs) as -> by congruence end. cbn [set_net n_user n_add app] in D. destruct (n_add n); cbn [In app] in D; intuition discriminate.
    + assert (code = 0) as -> by congruence. split; [reflexivity|]. intros d D.
      match type of E with (_, _, ?cs) = _ => assert (calls = cs) as -> by congruence end. cbn [set_net n_user n_add app] in D. destruct (n_add n); cbn [In app] in D; intuition discriminate.
  - intros [e Q]. unfold pub_activate in E. cbv zeta in E. rewrite Q in E. unfold pub_act_error, set_net in E. cbn [n_mdesc n_ldesc] in E. change (-1 =? -1) with true in E. replace (n_ldesc n =? -1) with false in E by lia.
    cbn [app] in E. match type of E with (_, _, ?cs) = _ => assert (calls = cs) as -> by congruence end. split; [right; left; reflexivity|]. intros N [D|[D|[]]]; [discriminate D|]. congruence.
Qed.
(** The port that is listened on is the one that is announced, if it is a port at all; with
    65536 the system picks one and the context does not ask which. *)
Theorem c87_pub_port : forall later n q n' calls d a p, pans_ok q -> n_mdesc n = -1 -> n_ldesc n = -1 -> (forall e, later e <> 0) ->
  pub_activate later n q = (0, n', calls) -> In (ScBind d a p) calls ->
  p = port_bytes (n_lport n) /\ (n_lport n <> 0 -> n_lport n' = n_lport n /\ ~ In (ScName d) calls) /\
  (n_lport n = 0 -> q_name q = Ret (n_lport n')).
Proof.
  intros later n q n' calls d a p Hq H1 H2 L E B. rewrite (c87_pub_activate later n q Hq H1 H2) in E.
  destruct (until_failure (pub_script n q)) as [cs [e|]] eqn:U.
  { exfalso. apply (L e). congruence. }
  cbv zeta in E. match type of E with (_, ?nn, ?cc) = _ => assert (n' = nn) as -> by congruence; assert (calls = cc) as -> by congruence end. clear E. cbn [n_lport].
  destruct Hq as (_ & _ & Hp). unfold pub_script in U. cbn [app] in U.
  cbn [until_failure] in U.
  destruct (q_msock q); [|discriminate U]. destruct (q_mif q); [|discriminate U]. destruct (q_lsock q); [|discriminate U].
  destruct (q_raddr q); [|discriminate U]. destruct (q_rport q); [|discriminate U]. destruct (q_bind q); [|discriminate U]. destruct (q_listen q); [|discriminate U].
  destruct (Z.eqb_spec (n_lport n) 0) as [Z0|Z0].
  - cbn [until_failure] in U. destruct (q_name q) as [np|e] eqn:Qn; [|discriminate U]. match type of U with (?cc, _) = _ => assert (cs = cc) as -> by congruence end.
    split; [|split; [congruence|intros _; reflexivity]]. destruct (n_add n); cbn [app In] in B; intuition congruence.
  - cbn [until_failure] in U. match type of U with (?cc, _) = _ => assert (cs = cc) as -> by congruence end.
    split; [|split; [intros _; split; [reflexivity|]|congruence]].
    + destruct (n_add n); cbn [app In] in B; intuition congruence.
    + destruct (n_add n); cbn [app In]; intuition congruence.
Qed.
Theorem c87_port_refuted : exists n q n' calls d a, n_mdesc n = -1 /\ n_ldesc n = -1 /\ pans_ok q /\
  pub_activate (fun e => e) n q = (0, n', calls) /\ In (ScBind d a [0; 0]) calls /\ ~ In (ScName d) calls /\ n_lport n' = 65536.
Proof.
  exists (mkPn 0 0 0 65536 (-1) (-1) true), (mkPans (Ret 3) (Ret 0) (Ret 4) (Ret 0) (Ret 0) (Ret 0) (Ret 0) (Ret 40000)).
  eexists _, _, 4, [0; 0; 0; 0]. split; [reflexivity|]. split; [reflexivity|]. split; [unfold pans_ok, is_u16; cbn; lia|].
  split; [reflexivity|]. split; [cbn; tauto|]. split; [cbn; intuition discriminate|reflexivity].
Qed.

(** Activating an inactive subscriber context: the same, except that a socket that cannot be
    bound is neither closed nor forgotten. *)
Theorem c87_sub_activate : forall later n q, sock_ok (u_sock q) -> w_mdesc n = -1 ->
  sub_activate later n q =
    match until_failure (sub_script n q) with
    | (calls, None) =>
        let d := sock (u_sock q) in
        (0, mkSn (w_user n) (w_group n) (w_mif n) (w_mport n) d (w_add n),
         calls ++ if w_add n then [ScPollAdd (w_user n) d 32766 1] else [])
    | (calls, Some e) =>
        if failed_bind calls then (later e, set_wnet n (sock (u_sock q)), calls)
        else (later e, n, calls ++ map ScClose (opened calls))
    end.
Proof.
  intros later [user group mif mport md ad] q S1 E. cbn [w_mdesc] in E. subst md. destruct q as [qs qr qv qb qm ql].
  unfold sub_activate, sub_script, sub_act_error, orerr, set_wnet, failed_bind. cbn [u_sock u_rport u_rcv u_bind u_member u_loop w_user w_group w_mif w_mport w_mdesc w_add] in *.
  rewrite !htonl_ip, htons_port. change (negb (-1 =? -1)) with false. change (-1 =? -1) with true.
  destruct qs as [d|e]; cbn [app until_failure sock sock_ok last] in *; [|reflexivity].
  replace (d =? -1) with false by lia.
  destruct qr as [?|e]; cbn [until_failure opened flat_map map app last]; [|reflexivity].
  destruct qv as [?|e]; cbn [until_failure opened flat_map map app last]; [|reflexivity].
  destruct qb as [?|e]; cbn [until_failure opened flat_map map app last]; [|reflexivity].
  destruct qm as [?|e]; cbn [until_failure opened flat_map map app last]; [|reflexivity].
  destruct ql as [?|e]; cbn [until_failure opened flat_map map app last]; [|reflexivity].
  destruct ad; reflexivity.
Qed.
Theorem c87_sub_code : forall later n q, sock_ok (u_sock q) -> (forall e, later e <> 0) ->
  (fst (fst (sub_activate later n q)) = 0 <-> w_mdesc n = -1 /\ Forall (fun ca => exists v, snd ca = Ret v) (sub_script n q)).
Proof.
  intros later n q Hq L. destruct (Z.eq_dec (w_mdesc n) (-1)) as [E|E].
  2: { unfold sub_activate. replace (w_mdesc n =? -1) with false by lia. cbn [negb fst]. split; [discriminate|tauto]. }
  rewrite (c87_sub_activate later n q Hq E).
  assert (U : forall s, snd (until_failure s) = None <-> Forall (fun ca : sysc * ans => exists v, snd ca = Ret v) s).
  { induction s as [|[c [v|e]] s IH]; cbn [until_failure snd].
    - split; auto.
    - destruct (until_failure s) as [cs o]. cbn [snd] in *. rewrite IH. split; [intros H; constructor; [exists v; reflexivity|exact H]|intros H; inversion H; assumption].
    - split; [discriminate|]. intros H. inversion H as [|? ? [v F] _]; discriminate F. }
  rewrite <- U. destruct (until_failure (sub_script n q)) as [cs [e|]]; cbn [fst snd].
  - destruct (failed_bind cs); cbn [fst]; (split; [intros H; destruct (L e H)|intros [_ H]; discriminate H]).
  - split; [intros _; split; [exact E|reflexivity]|reflexivity].
Qed.
(** After bind() failed the context counts as active without being polled, and every further
    activation is refused without a call, whatever the system would answer. *)
Theorem c87_sub_bind_refuted : forall later n q d e v1 v2, w_mdesc n = -1 -> 0 <= d ->
  u_sock q = Ret d -> u_rport q = Ret v1 -> u_rcv q = Ret v2 -> u_bind q = Fail e ->
  exists n' calls, sub_activate later n q = (later e, n', calls) /\ w_mdesc n' = d /\ opened calls = [d] /\
    (forall x, ~ In (ScClose x) calls) /\ (forall u x i a, ~ In (ScPollAdd u x i a) calls) /\
    forall q', sub_activate later n' q' = (EEXIST, n', []).
Proof.
  intros later n q d e v1 v2 H1 Hd E1 E2 E3 E4. assert (Hq : sock_ok (u_sock q)) by (rewrite E1; exact Hd).
  rewrite (c87_sub_activate later n q Hq H1). unfold sub_script. rewrite E1, E2, E3, E4. cbn [until_failure sock].
  eexists _, _. split; [reflexivity|]. split; [reflexivity|]. split; [reflexivity|]. split; [intros x; cbn; intuition discriminate|]. split; [intros u x i a; cbn; intuition discriminate|].
  intros q'. unfold sub_activate, set_wnet. cbn [w_mdesc]. replace (d =? -1) with false by lia. reflexivity.
Qed.

(** The life of multicast packets can be set while a context is active. *)
Theorem c87_ttl : forall later d hops a, pub_set_ttl later d hops a =
  if d =? -1 then (ENOTCONN, []) else match a with Ret _ => (0, [ScTtl d hops]) | Fail e => (later e, [ScTtl d hops]) end.
Proof. intros later d hops a. unfold pub_set_ttl. destruct (d =? -1); [reflexivity|]. destruct a; reflexivity. Qed.

(** ** The histories of C12 to C83 *)
(** What of a call the histories of those properties record. *)
Definition recorded (c : sysc) : list cev :=
  match c with
  | ScSocket _ (Ret d) => [EvOpen d]
  | ScClose d => [EvClose d]
  | ScPollAdd _ d i a => [EvAdd d i a]
  | _ => []
  end.
(** The activation of those histories is this one, on a context that is active or not, when
    there is a poll_add callback. *)
Theorem c87_pub_same : forall x user mif q code n' calls g, pans_ok q ->
  pub_activate (fun e => e) (mkPn user (x_lip x) mif (x_lport x) (x_mcast x) (x_listen x) true) q = (code, n', calls) ->
  exists o, xok x g (XActivate o) /\
    rmc_pub_activate_context x o = (code, set_lport (set_descs x (n_mdesc n') (n_ldesc n')) (n_lport n'), map PvConn (flat_map recorded calls)).
Proof.
  intros x user mif q code n' calls g (S1 & S2 & S3) E.
  assert (X0 : forall m l, set_lport (set_descs x m l) (x_lport x) = set_descs x m l) by (intros; destruct x; reflexivity).
  unfold pub_activate, orerr, pub_act_error in E. cbv zeta in E. cbn [set_net n_user n_lif n_mif n_lport n_mdesc n_ldesc n_add] in E.
  destruct (q_msock q) as [m|e] eqn:Qm; cbn [sock_ok] in S1.
  2: { exists (ActErr e [] true). split; [exact Logic.I|]. change (-1 =? -1) with true in E. cbn [app] in E. unfold rmc_pub_activate_context. cbn [map app andb].
    destruct (x_listen x =? -1); cbn [app] in E; injection E as <- <- <-; cbn [n_mdesc n_ldesc n_lport negb flat_map recorded map app]; rewrite X0; reflexivity. }
  replace (m =? -1) with false in E by lia.
  destruct (q_mif q) as [?|e] eqn:Qi.
  2: { exists (ActErr e [m] true). split; [exact Logic.I|]. cbn [app] in E. unfold rmc_pub_activate_context. cbn [map app andb].
    destruct (x_listen x =? -1); cbn [app] in E; injection E as <- <- <-; cbn [n_mdesc n_ldesc n_lport negb flat_map recorded map app]; rewrite X0; reflexivity. }
  destruct (q_lsock q) as [l|e] eqn:Ql; cbn [sock_ok] in S2.
  2: { exists (ActErr e [m] false). split; [exact Logic.I|]. change (-1 =? -1) with true in E. cbn [app] in E. injection E as <- <- <-.
    unfold rmc_pub_activate_context. cbn [n_mdesc n_ldesc n_lport flat_map recorded map app andb]. rewrite X0. reflexivity. }
  replace (l =? -1) with false in E by lia.
  destruct (q_raddr q) as [?|e]; [|exists (ActErr e [m; l] false); split; [exact Logic.I|]; cbn [app] in E; injection E as <- <- <-; unfold rmc_pub_activate_context; cbn [n_mdesc n_ldesc n_lport flat_map recorded map app andb]; rewrite X0; reflexivity].
  destruct (q_rport q) as [?|e]; [|exists (ActErr e [m; l] false); split; [exact Logic.I|]; cbn [app] in E; injection E as <- <- <-; unfold rmc_pub_activate_context; cbn [n_mdesc n_ldesc n_lport flat_map recorded map app andb]; rewrite X0; reflexivity].
  destruct (q_bind q) as [?|e]; [|exists (ActErr e [m; l] false); split; [exact Logic.I|]; cbn [app] in E; injection E as <- <- <-; unfold rmc_pub_activate_context; cbn [n_mdesc n_ldesc n_lport flat_map recorded map app andb]; rewrite X0; reflexivity].
  destruct (q_listen q) as [?|e]; [|exists (ActErr e [m; l] false); split; [exact Logic.I|]; cbn [app] in E; injection E as <- <- <-; unfold rmc_pub_activate_context; cbn [n_mdesc n_ldesc n_lport flat_map recorded map app andb]; rewrite X0; reflexivity].
  destruct (x_lport x =? 0) eqn:Z0.
  - destruct (q_name q) as [p|e].
    + exists (ActOk m l p). split; [exact S3|]. cbn [app] in E. injection E as <- <- <-. unfold rmc_pub_activate_context. rewrite Z0. cbn [n_mdesc n_ldesc n_lport flat_map recorded map app]. reflexivity.
    + exists (ActErr e [m; l] false). split; [exact Logic.I|]. cbn [app] in E. injection E as <- <- <-. unfold rmc_pub_activate_context. cbn [n_mdesc n_ldesc n_lport flat_map recorded map app andb]. rewrite X0. reflexivity.
  - exists (ActOk m l 0). split; [cbn; unfold is_u16; lia|]. cbn [app] in E. injection E as <- <- <-. unfold rmc_pub_activate_context. rewrite Z0. cbn [n_mdesc n_ldesc n_lport flat_map recorded map app]. rewrite X0. reflexivity.
Qed.
Theorem c87_sub_same : forall x user group mif port q code n' calls, sock_ok (u_sock q) ->
  sub_activate (fun e => e) (mkSn user group mif port (t_mcast x) true) q = (code, n', calls) ->
  exists o, rmc_sub_activate_context x o = (code, set_tmcast x (w_mdesc n'), map SvConn (flat_map recorded calls)).
Proof.
  intros x user group mif port q code n' calls S1 E.
  assert (X0 : set_tmcast x (t_mcast x) = x) by (destruct x; reflexivity).
  destruct (Z.eq_dec (t_mcast x) (-1)) as [M|M].
  2: { exists (SaSock 0). unfold sub_activate in E. cbn [w_mdesc] in E. unfold rmc_sub_activate_context. replace (t_mcast x =? -1) with false in * by lia. cbn [negb] in *. injection E as <- <- <-. cbn [w_mdesc flat_map map]. rewrite X0. reflexivity. }
  rewrite (c87_sub_activate _ _ _ S1) in E by exact M. unfold rmc_sub_activate_context. rewrite M. change (negb (-1 =? -1)) with false. rewrite M in *. unfold sub_script, set_wnet in E. cbn [w_user w_group w_mif w_mport w_add] in E.
  destruct (u_sock q) as [d|e]; cbn [sock until_failure failed_bind last opened flat_map map app] in E.
  2: { exists (SaSock e). injection E as <- <- <-. cbn [w_mdesc flat_map recorded map app]. rewrite X0. reflexivity. }
  destruct (u_rport q) as [?|e]; cbn [sock until_failure failed_bind last opened flat_map map app] in E; [|exists (SaOpt d e); injection E as <- <- <-; cbn [w_mdesc flat_map recorded map app]; rewrite X0; reflexivity].
  destruct (u_rcv q) as [?|e]; cbn [sock until_failure failed_bind last opened flat_map map app] in E; [|exists (SaOpt d e); injection E as <- <- <-; cbn [w_mdesc flat_map recorded map app]; rewrite X0; reflexivity].
  destruct (u_bind q) as [?|e]; cbn [sock until_failure failed_bind last opened flat_map map app] in E; [|exists (SaBind d e); injection E as <- <- <-; cbn [w_mdesc flat_map recorded map app]; reflexivity].
  destruct (u_member q) as [?|e]; cbn [sock until_failure failed_bind last opened flat_map map app] in E; [|exists (SaOpt d e); injection E as <- <- <-; cbn [w_mdesc flat_map recorded map app]; rewrite X0; reflexivity].
  destruct (u_loop q) as [?|e]; cbn [sock until_failure failed_bind last opened flat_map map app] in E; [|exists (SaOpt d e); injection E as <- <- <-; cbn [w_mdesc flat_map recorded map app]; rewrite X0; reflexivity].
  exists (SaOk d). injection E as <- <- <-. cbn [w_mdesc flat_map recorded map app]. reflexivity.
Qed.

(** *** Examples *)
Example c87_ex_ok : pub_activate (fun e => e) (mkPn 9 2130706433 0 0 (-1) (-1) true) (mkPans (Ret 3) (Ret 0) (Ret 4) (Ret 0) (Ret 0) (Ret 0) (Ret 0) (Ret 40000))
  = (0, mkPn 9 2130706433 0 40000 3 4 true,
     [ScSocket false (Ret 3); ScMcastIf 3 [0; 0; 0; 0]; ScSocket true (Ret 4); ScReuseAddr 4; ScReusePort 4;
      ScBind 4 [127; 0; 0; 1] [0; 0]; ScListen 4 5; ScName 4; ScPollAdd 9 3 32766 1; ScPollAdd 9 4 32765 1]).
Proof. reflexivity. Qed.
Example c87_ex_bind : pub_activate (fun e => e) (mkPn 9 0 0 4711 (-1) (-1) true) (mkPans (Ret 3) (Ret 0) (Ret 4) (Ret 0) (Ret 0) (Fail 98) (Ret 0) (Ret 0))
  = (98, mkPn 9 0 0 4711 (-1) (-1) true,
     [ScSocket false (Ret 3); ScMcastIf 3 [0; 0; 0; 0]; ScSocket true (Ret 4); ScReuseAddr 4; ScReusePort 4;
      ScBind 4 [0; 0; 0; 0] [18; 103]; ScClose 3; ScClose 4]).
Proof. reflexivity. Qed.
Example c87_ex_sub : sub_activate (fun e => e) (mkSn 9 3758096385 0 4723 (-1) true) (mkSans (Ret 3) (Ret 0) (Ret 0) (Ret 0) (Fail 19) (Ret 0))
  = (19, mkSn 9 3758096385 0 4723 (-1) true,
     [ScSocket false (Ret 3); ScReusePort 3; ScRcvBuf 3 1048576; ScBind 3 [0; 0; 0; 0] [18; 115]; ScMember 3 [224; 0; 0; 1] [0; 0; 0; 0]; ScClose 3]).
Proof. reflexivity. Qed.
Print Assumptions c87_pub_activate.
Print Assumptions c87_pub_code.
Print Assumptions c87_pub_again_refuted.
Print Assumptions c87_pub_port.
Print Assumptions c87_port_refuted.
Print Assumptions c87_sub_activate.
Print Assumptions c87_sub_code.
Print Assumptions c87_sub_bind_refuted.
Print Assumptions c87_ttl.
Print Assumptions c87_pub_same.
Print Assumptions c87_sub_same.
