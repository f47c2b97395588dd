(** PropLog.v — C84: what the logger prints, where, and in which colours. *)
From Coq Require Import String Ascii DecimalString DecimalZ.
From Verif Require Import Base Log.
Open Scope string_scope.
Open Scope Z_scope.

(** * Specification *)

(** A call of the logging interface.  [now] is the clock at the call. *)
Inductive lop : Type :=
| OStart (now : Z)                        (* rmc_log_set_start_time *)
| OLevel (now lv : Z)                     (* rmc_set_log_level *)
| OColor (c : Z)                          (* rmc_log_use_color *)
| OFile (f : Z)                           (* rmc_log_set_file, 0 = NULL *)
| OLog (now lv : Z) (file : string) (line ix : Z) (msg : string).  (* RMC_LOG_xxx *)

(** One call, as the model runs it: the new state and what is printed. *)
Definition lstep (tty : Z -> bool) (o : lop) (g : lg) : res (lg * list (Z * string)) :=
  match o with
  | OStart now => Ok (rmc_log_set_start_time now g, [])
  | OLevel now lv => match rmc_set_log_level tty now lv g with
                     | Ok (_, g', out) => Ok (g', out)
                     | UB k => UB k | Abort => Abort | Hang => Hang
                     end
  | OColor c => Ok (rmc_log_use_color c g, [])
  | OFile f => match rmc_log_set_file tty f g with
               | Ok g' => Ok (g', [])
               | UB k => UB k | Abort => Abort | Hang => Hang
               end
  | OLog now lv file line ix msg => log_macro tty now lv file line ix msg g
  end.

(** A whole history of calls, newest first, from the library being loaded. *)
Fixpoint lrun (tty : Z -> bool) (h : list lop) : res (lg * list (Z * string)) :=
  match h with
  | [] => Ok (lg0, [])
  | o :: h' =>
    match lrun tty h' with
    | Ok (g, out) => match lstep tty o g with
                     | Ok (g', out') => Ok (g', app out out')
                     | UB k => UB k | Abort => Abort | Hang => Hang
                     end
    | UB k => UB k | Abort => Abort | Hang => Hang
    end
  end.

(** The level in force: the last legal one asked for, at first none. *)
Fixpoint level_in_force (h : list lop) : Z :=
  match h with
  | [] => 0
  | OLevel _ lv :: h' => if (0 <=? lv) && (lv <=? 6) then lv else level_in_force h'
  | _ :: h' => level_in_force h'
  end.

(** The file printed to: the last one set, standard output if none or NULL. *)
Fixpoint file_in_force (h : list lop) : Z :=
  match h with
  | [] => 1
  | OFile f :: _ => if f =? 0 then 1 else f
  | _ :: h' => file_in_force h'
  end.

(** The colour setting asked for last; -1 (at first) stands for "automatic". *)
Fixpoint color_choice (h : list lop) : Z :=
  match h with
  | [] => -1
  | OColor c :: _ => c
  | _ :: h' => color_choice h'
  end.

(** Should a line printed now be coloured? *)
Definition colored_now (tty : Z -> bool) (h : list lop) : bool :=
  if color_choice h =? -1 then tty (file_in_force h) else negb (color_choice h =? 0).

(** Milliseconds since the start time last set; 0 if it never was. *)
Fixpoint start_in_force (h : list lop) : Z :=
  match h with
  | [] => 0
  | OStart now :: _ => now
  | _ :: h' => start_in_force h'
  end.
Definition elapsed (h : list lop) (now : Z) : Z :=
  if start_in_force h =? 0 then 0 else Z.quot (now - start_in_force h) 1000.

(** A line to be shown: where, coloured or not, and what it says. *)
Record shown := mkShown {
  sh_file : Z; sh_color : bool; sh_level : Z; sh_ms : Z; sh_ix : Z;
  sh_src : string; sh_line : Z; sh_msg : string
}.

(** What each call has to show: a message of a level in force, and a complaint about
    an illegal level — that one whatever the level in force. *)
Definition to_show (tty : Z -> bool) (o : lop) (h : list lop) : list shown :=
  match o with
  | OLog now lv src line ix msg =>
    if lv <=? level_in_force h
    then [mkShown (file_in_force h) (colored_now tty h) lv (elapsed h now) (ix mod 65536) src line msg]
    else []
  | OLevel now lv =>
    if (0 <=? lv) && (lv <=? 6) then []
    else [mkShown (file_in_force h) (colored_now tty h) 3 (elapsed h now) 65535 "rmc_log.c" 56
                  ("Illegal log level: " ++ NilZero.string_of_int (Z.to_int lv)
                   ++ ". Legal values [0-6]")]
  | _ => []
  end.
Fixpoint all_shown (tty : Z -> bool) (h : list lop) : list shown :=
  match h with
  | [] => []
  | o :: h' => app (all_shown tty h') (to_show tty o h')
  end.

(** The text of a line, without colours. *)
Definition number (z : Z) : string := NilZero.string_of_int (Z.to_int z).
Definition tag_of (lv : Z) : string :=
  if lv =? 6 then "[D]" else if lv =? 5 then "[C]" else if lv =? 4 then "[I]"
  else if lv =? 3 then "[W]" else if lv =? 2 then "[E]" else if lv =? 1 then "[F]" else "[?]".
Definition label_of (ix : Z) : string :=
  if ix =? 32767 then "     " else if ix =? 32766 then "[UDP]" else if ix =? 32765 then "[CTL]"
  else "[" ++ (if ix <? 10 then "00" else if ix <? 100 then "0" else "") ++ number ix ++ "]".
Definition plain (d : shown) : string :=
  tag_of (sh_level d) ++ " " ++ number (sh_ms d) ++ " " ++ label_of (sh_ix d) ++ " "
  ++ sh_src d ++ ":" ++ number (sh_line d) ++ " " ++ sh_msg d
  ++ String (Ascii.ascii_of_nat 10) EmptyString.

(** Taking terminal escape sequences (ESC ... m) out of a text. *)
Definition is_esc (c : ascii) : bool := Ascii.eqb c (Ascii.ascii_of_nat 27).
Fixpoint strip (inside : bool) (s : string) : string :=
  match s with
  | EmptyString => EmptyString
  | String c s' =>
    if inside then strip (negb (Ascii.eqb c "m"%char)) s'
    else if is_esc c then strip true s'
    else String c (strip false s')
  end.
Fixpoint has_esc (s : string) : bool :=
  match s with
  | EmptyString => false
  | String c s' => is_esc c || has_esc s'
  end.

(** A printed line shows [d]. *)
Definition shows (d : shown) (o : Z * string) : Prop :=
  fst o = sh_file d /\ strip false (snd o) = plain d /\ has_esc (snd o) = sh_color d.

(** The application's own texts contain no escape characters. *)
Definition plain_texts (h : list lop) : Prop :=
  forall now lv src line ix msg, In (OLog now lv src line ix msg) h ->
    has_esc src = false /\ has_esc msg = false.

(** "Automatic" has been resolved: nothing chosen since, and a line printed since. *)
Fixpoint printed_since (h : list lop) : bool :=
  match h with
  | [] => false
  | OColor _ :: _ => false
  | OLog _ lv _ _ _ _ :: h' => (lv <=? level_in_force h') || printed_since h'
  | OLevel _ lv :: h' => negb ((0 <=? lv) && (lv <=? 6)) || printed_since h'
  | _ :: h' => printed_since h'
  end.
Definition resolved (h : list lop) : bool := (color_choice h =? -1) && printed_since h.

(** The one misuse that crashes: going back to NULL after "automatic" was resolved. *)
Fixpoint null_file (h : list lop) : bool :=
  match h with
  | [] => false
  | OFile f :: h' => ((f =? 0) && resolved h') || null_file h'
  | _ :: h' => null_file h'
  end.

(** * Text lemmas *)

Lemma sapp_assoc a b c : (a ++ b) ++ c = a ++ (b ++ c).
Proof. induction a; cbn; [reflexivity|now rewrite IHa]. Qed.

Lemma has_esc_app a b : has_esc (a ++ b) = has_esc a || has_esc b.
Proof. induction a; cbn; [reflexivity|rewrite IHa; now rewrite orb_assoc]. Qed.

Lemma strip_plain a b : has_esc a = false -> strip false (a ++ b) = a ++ strip false b.
Proof.
  induction a as [|c a IH]; cbn; [reflexivity|].
  intros H. apply orb_false_iff in H. destruct H as [-> H]. now rewrite IH.
Qed.

Lemma esc_uint d : has_esc (NilEmpty.string_of_uint d) = false.
Proof. induction d; cbn; auto. Qed.

Lemma esc_number z : has_esc (number z) = false.
Proof.
  unfold number. destruct (Z.to_int z) as [d|d]; cbn.
  - destruct d; try reflexivity; apply esc_uint.
  - destruct d; try reflexivity; apply (esc_uint (_ d)).
Qed.

Lemma len_app a b : String.length (a ++ b) = (String.length a + String.length b)%nat.
Proof. induction a; cbn; [reflexivity|now rewrite IHa]. Qed.

(** Checking every number from [z] on, [n] of them. *)
Fixpoint upto (p : Z -> bool) (n : nat) (z : Z) : bool :=
  match n with O => true | S n' => p z && upto p n' (z + 1) end.
Lemma upto_spec p n : forall z, upto p n z = true -> forall x, z <= x < z + Z.of_nat n -> p x = true.
Proof.
  induction n as [|n IH]; intros z H x Hx; [lia|].
  cbn [upto] in H. apply andb_true_iff in H. destruct H as [H1 H2].
  destruct (Z.eq_dec x z) as [->|N]; [exact H1|]. apply (IH (z + 1) H2). lia.
Qed.

Lemma paint_len g s : (String.length (paint g s) <= S (String.length s))%nat.
Proof. unfold paint. destruct (_ =? _); cbn; lia. Qed.

Lemma paint_esc g s : has_esc (paint g s) = negb (lg_color g =? 0).
Proof. unfold paint. destruct (_ =? _); reflexivity. Qed.

(** The colour strings, whichever. *)
Definition a_color (g : lg) (s : string) : Prop :=
  (String.length s <= 20)%nat /\ has_esc s = negb (lg_color g =? 0) /\
  (forall b, strip false (s ++ b) = strip false b).

Lemma paint_color g s :
  (String.length s <= 19)%nat -> (forall b, strip true (s ++ b) = strip false b) ->
  a_color g (paint g s).
Proof.
  intros L H. split; [pose proof (paint_len g s); lia|]. split; [apply paint_esc|].
  intros b. unfold paint. destruct (_ =? _); [reflexivity|].
  cbn -[is_esc]. change (is_esc _) with true. cbn. apply H.
Qed.

Ltac col := apply paint_color; [cbn; lia|intros; reflexivity].

Lemma none_color g : a_color g (c_none g). Proof. col. Qed.
Lemma faint_color g : a_color g (c_faint g). Proof. col. Qed.
Lemma orange_color g : a_color g (c_orange g). Proof. col. Qed.
Lemma yellow_color g : a_color g (c_yellow g). Proof. col. Qed.
Lemma index_color g ix : a_color g (rmc_index_color g ix).
Proof. unfold rmc_index_color. repeat (destruct (_ =? _); [col|]). col. Qed.
Lemma level_color g lv : a_color g (fst (level_tag g lv)) /\ snd (level_tag g lv) = tag_of lv.
Proof.
  unfold level_tag, tag_of, LV_DEBUG, LV_COMMENT, LV_INFO, LV_WARNING, LV_ERROR, LV_FATAL.
  repeat (destruct (_ =? _); [split; [col|reflexivity]|]). split; [col|reflexivity].
Qed.

Lemma dec3_number ix :
  dec3 ix = (if ix <? 10 then "00" else if ix <? 100 then "0" else "") ++ number ix.
Proof. unfold dec3, dec, number. destruct (ix <? 10); [reflexivity|]. destruct (ix <? 100); reflexivity. Qed.

(** Every uint16_t prints in at most five characters (checked for each of them). *)
Lemma dec3_len_all :
  upto (fun z => Nat.leb (String.length (dec3 z)) 5) (Z.to_nat 65536) 0 = true.
Proof. vm_cast_no_check (@eq_refl bool true). Qed.

Lemma dec3_len ix : 0 <= ix < 65536 -> (String.length (dec3 ix) <= 5)%nat.
Proof.
  intros H. apply Nat.leb_le. refine (upto_spec _ _ _ dec3_len_all ix _).
  rewrite Z2Nat.id; lia.
Qed.

Lemma index_text_len g ix : 0 <= ix < 65536 -> (String.length (index_text g ix) <= 31)%nat.
Proof.
  intros H. unfold index_text.
  assert (N : (String.length (c_none g) <= 4)%nat) by apply paint_len.
  destruct (_ =? IX_NIL); [cbn; lia|].
  destruct (_ =? IX_MULTICAST).
  { rewrite !len_app. pose proof (orange_color g) as (L & _). cbn. lia. }
  destruct (_ =? IX_LISTEN).
  { rewrite !len_app. pose proof (yellow_color g) as (L & _). cbn. lia. }
  rewrite !len_app. pose proof (dec3_len ix H). pose proof (index_color g ix) as (L & _). cbn. lia.
Qed.

Lemma index_str_ok g ix : 0 <= ix < 65536 -> index_str g ix = Ok (index_text g ix).
Proof.
  intros H. unfold index_str. pose proof (index_text_len g ix H).
  replace (32 <? _) with false by lia. reflexivity.
Qed.

Lemma label_esc ix : has_esc (label_of ix) = false.
Proof.
  unfold label_of. repeat (destruct (_ =? _); [reflexivity|]).
  rewrite !has_esc_app, esc_number. destruct (ix <? 10); [reflexivity|]. destruct (ix <? 100); reflexivity.
Qed.

Lemma index_text_strip g ix b : strip false (index_text g ix ++ b) = label_of ix ++ strip false b.
Proof.
  unfold index_text, label_of. change IX_NIL with 32767.
  change IX_MULTICAST with 32766. change IX_LISTEN with 32765.
  destruct (ix =? 32767); [reflexivity|].
  destruct (ix =? 32766).
  { rewrite !sapp_assoc. destruct (orange_color g) as (_ & _ & ->).
    rewrite strip_plain by reflexivity. now destruct (none_color g) as (_ & _ & ->). }
  destruct (ix =? 32765).
  { rewrite !sapp_assoc. destruct (yellow_color g) as (_ & _ & ->).
    rewrite strip_plain by reflexivity. now destruct (none_color g) as (_ & _ & ->). }
  rewrite !sapp_assoc. destruct (index_color g ix) as (_ & _ & ->).
  rewrite dec3_number. rewrite !sapp_assoc.
  rewrite strip_plain by reflexivity. f_equal.
  rewrite strip_plain by (destruct (ix <? 10); [reflexivity|]; destruct (ix <? 100); reflexivity). f_equal.
  rewrite strip_plain by apply esc_number. f_equal.
  rewrite strip_plain by reflexivity. f_equal.
  now destruct (none_color g) as (_ & _ & ->).
Qed.

Lemma index_text_esc g ix : lg_color g = 0 -> has_esc (index_text g ix) = false.
Proof.
  intros Z0.
  assert (P : forall s, paint g s = "") by (intros s; unfold paint; now rewrite Z0).
  unfold index_text. destruct (ix =? IX_NIL); [reflexivity|].
  destruct (ix =? IX_MULTICAST); [unfold c_orange, c_none; now rewrite !P|].
  destruct (ix =? IX_LISTEN); [unfold c_yellow, c_none; now rewrite !P|].
  rewrite !has_esc_app, dec3_number, has_esc_app, esc_number.
  destruct (index_color g ix) as (_ & -> & _). destruct (none_color g) as (_ & -> & _). rewrite Z0.
  destruct (ix <? 10); [reflexivity|]. destruct (ix <? 100); reflexivity.
Qed.

(** * The state follows the history *)

Definition LI (tty : Z -> bool) (h : list lop) (g : lg) : Prop :=
  lg_level g = level_in_force h /\ lg_start g = start_in_force h /\
  (if lg_file g =? 0 then 1 else lg_file g) = file_in_force h /\
  lg_calc g = resolved h /\
  lg_color g = (if resolved h then (if tty (file_in_force h) then 1 else 0) else color_choice h).

(** What rmc_log does to such a state, and the line it prints. *)
Lemma log_line tty h g now lv src line ix msg :
  LI tty h g -> has_esc src = false -> has_esc msg = false ->
  exists g' s,
    rmc_log tty now lv src line ix msg g = Ok (g', [(file_in_force h, s)]) /\
    shows (mkShown (file_in_force h) (colored_now tty h) lv (elapsed h now) (ix mod 65536) src line msg)
          (file_in_force h, s) /\
    lg_level g' = lg_level g /\ lg_start g' = lg_start g /\ lg_file g' = file_in_force h /\
    lg_calc g' = (color_choice h =? -1) /\
    lg_color g' = (if color_choice h =? -1 then (if tty (file_in_force h) then 1 else 0) else color_choice h).
Proof.
  intros (L & S & F & C & K) Es Em. unfold rmc_log, F_NULL, F_STDOUT.
  set (g1 := if lg_file g =? 0 then _ else g).
  assert (F1 : lg_file g1 = file_in_force h)
    by (subst g1; destruct (lg_file g =? 0); cbn; congruence).
  assert (F0 : lg_file g1 <> 0)
    by (subst g1; destruct (Z.eqb_spec (lg_file g) 0); cbn; lia).
  assert (K1 : lg_color g1 = lg_color g) by (subst g1; destruct (lg_file g =? 0); reflexivity).
  assert (C1 : lg_calc g1 = lg_calc g) by (subst g1; destruct (lg_file g =? 0); reflexivity).
  assert (S1 : lg_start g1 = lg_start g) by (subst g1; destruct (lg_file g =? 0); reflexivity).
  assert (L1 : lg_level g1 = lg_level g) by (subst g1; destruct (lg_file g =? 0); reflexivity).
  clearbody g1.
  assert (R : exists g2, (if lg_color g1 =? -1 then
           match is_tty tty (lg_file g1) with
           | Ok t => Ok (mkLg (lg_start g1) (lg_level g1) (if t then 1 else 0) true (lg_file g1))
           | UB k => UB k | Abort => Abort | Hang => Hang
           end
         else Ok g1) = Ok g2 /\ lg_level g2 = lg_level g /\ lg_start g2 = lg_start g /\
      lg_file g2 = file_in_force h /\ lg_calc g2 = (color_choice h =? -1) /\
      lg_color g2 = (if color_choice h =? -1 then (if tty (file_in_force h) then 1 else 0) else color_choice h)).
  { unfold is_tty, F_NULL. replace (lg_file g1 =? 0) with false by lia.
    rewrite K1, K. unfold resolved in *. destruct (Z.eqb_spec (color_choice h) (-1)) as [E|N]; cbn [andb] in *.
    - destruct (printed_since h).
      + exists g1. destruct (tty (file_in_force h)) eqn:T; cbn; repeat split; congruence.
      + rewrite E. cbn. eexists. split; [reflexivity|]. cbn. rewrite F1. repeat split; congruence.
    - replace (color_choice h =? -1) with false by lia. exists g1. repeat split; congruence. }
  destruct R as (g2 & -> & L2 & S2 & F2 & C2 & K2).
  rewrite index_str_ok by (unfold u16; apply Z.mod_pos_bound; lia).
  destruct (level_tag g2 lv) as [color tag] eqn:T.
  pose proof (level_color g2 lv) as [(_ & TE & TS) TT]. rewrite T in TE, TS, TT. cbn [fst snd] in TE, TS, TT.
  eexists g2, _. rewrite F2. split; [reflexivity|]. split; [|auto].
  destruct (none_color g2) as (_ & NE & NS). destruct (faint_color g2) as (_ & FE & FS).
  assert (EL : (if lg_start g2 =? 0 then 0 else Z.quot (now - lg_start g2) 1000) = elapsed h now)
    by (unfold elapsed; rewrite S2, S; reflexivity).
  rewrite EL.
  split; [reflexivity|]. split.
  - cbn [snd]. unfold plain. cbn [sh_level sh_ms sh_ix sh_src sh_line sh_msg].
    rewrite TS, TT.
    rewrite strip_plain by (unfold tag_of; repeat (destruct (lv =? _); [reflexivity|]); reflexivity).
    f_equal. rewrite NS. rewrite strip_plain by reflexivity. f_equal.
    rewrite strip_plain by apply esc_number. f_equal.
    rewrite strip_plain by reflexivity. f_equal. rewrite index_text_strip. f_equal.
    rewrite strip_plain by reflexivity. f_equal. rewrite FS.
    rewrite strip_plain by exact Es. f_equal.
    rewrite strip_plain by reflexivity. f_equal.
    rewrite strip_plain by apply esc_number. f_equal. rewrite NS.
    rewrite strip_plain by reflexivity. f_equal.
    rewrite strip_plain by exact Em. f_equal.
  - cbn [snd sh_color].
    assert (CN : colored_now tty h = negb (lg_color g2 =? 0)).
    { unfold colored_now. rewrite K2. destruct (color_choice h =? -1); [|reflexivity].
      destruct (tty (file_in_force h)); reflexivity. }
    rewrite CN. rewrite !has_esc_app, TE, NE, FE.
    destruct (Z.eqb_spec (lg_color g2) 0) as [Z0|NZ]; [|reflexivity].
    rewrite (index_text_esc g2 _ Z0), Es, Em.
    change (dec (elapsed h now)) with (number (elapsed h now)).
    change (dec line) with (number line). rewrite !esc_number.
    rewrite TT. unfold tag_of. repeat (destruct (lv =? _); [reflexivity|]). reflexivity.
Qed.

Lemma illegal_same lv : illegal_text lv =
  "Illegal log level: " ++ NilZero.string_of_int (Z.to_int lv) ++ ". Legal values [0-6]".
Proof. reflexivity. Qed.

(** One call. *)
Lemma log_step tty h g o :
  LI tty h g -> plain_texts (o :: h) ->
  if match o with OFile f => (f =? 0) && resolved h | _ => false end
  then lstep tty o g = UB NullDeref
  else exists g' out, lstep tty o g = Ok (g', out) /\ LI tty (o :: h) g' /\
                      Forall2 shows (to_show tty o h) out.
Proof.
  intros I P. assert (I' := I). destruct I' as (L & S & F & C & K).
  destruct o as [now|now lv|c|f|now lv src line ix msg]; cbn match.
  - do 2 eexists. split; [reflexivity|]. split; [|constructor].
    unfold LI, resolved in *. cbn. repeat split; assumption.
  - cbn [lstep to_show]. unfold rmc_set_log_level, LV_NONE, LV_DEBUG.
    destruct ((0 <=? lv) && (lv <=? 6)) eqn:B.
    + replace ((lv <? 0) || (6 <? lv)) with false by lia.
      do 2 eexists. split; [reflexivity|]. split; [|constructor].
      unfold LI, resolved in *. cbn [level_in_force start_in_force file_in_force color_choice printed_since].
      rewrite B. cbn. repeat split; assumption.
    + replace ((lv <? 0) || (6 <? lv)) with true by lia.
      destruct (log_line tty h g now 3 "rmc_log.c" 56 (-1) (illegal_text lv) I eq_refl) as
        (g' & s & E & W & L' & S' & F' & C' & K').
      { rewrite illegal_same. rewrite !has_esc_app. change (NilZero.string_of_int (Z.to_int lv)) with (number lv). now rewrite esc_number. }
      change LV_WARNING with 3. rewrite E. do 2 eexists. split; [reflexivity|]. split.
      * unfold LI, resolved. cbn [level_in_force start_in_force file_in_force color_choice printed_since].
        rewrite B. cbn [negb orb]. rewrite andb_true_r. rewrite L', S', F', C', K', L, S.
        repeat split. destruct (Z.eqb_spec (file_in_force h) 0) as [E0|]; [|reflexivity].
        rewrite <- F in E0. destruct (Z.eqb_spec (lg_file g) 0); lia.
      * constructor; [exact W|constructor].
  - do 2 eexists. split; [reflexivity|]. split; [|constructor].
    unfold LI, resolved in *. cbn. rewrite andb_false_r. repeat split; assumption.
  - cbn [lstep resolved color_choice printed_since] in *. unfold rmc_log_set_file, is_tty, F_NULL.
    rewrite C. destruct (resolved h) eqn:R.
    + rewrite andb_true_r. destruct (Z.eqb_spec f 0) as [->|N].
      * cbn. reflexivity.
      * cbn. do 2 eexists. split; [reflexivity|]. split; [|constructor].
        unfold LI, resolved in *. cbn. rewrite R. replace (f =? 0) with false by lia.
        repeat split; assumption.
    + rewrite !andb_false_r. cbn. do 2 eexists. split; [reflexivity|]. split; [|constructor].
      unfold LI, resolved in *. cbn. rewrite R. repeat split; assumption.
  - cbn [lstep to_show]. unfold log_macro. rewrite L.
    destruct (P now lv src line ix msg (or_introl eq_refl)) as [Es Em].
    destruct (lv <=? level_in_force h) eqn:B.
    + destruct (log_line tty h g now lv src line ix msg I Es Em) as
        (g' & s & E & W & L' & S' & F' & C' & K').
      rewrite E. do 2 eexists. split; [reflexivity|]. split.
      * unfold LI, resolved. cbn [level_in_force start_in_force file_in_force color_choice printed_since].
        rewrite B. cbn [negb orb]. rewrite andb_true_r. rewrite L', S', F', C', K', L, S.
        repeat split. destruct (Z.eqb_spec (file_in_force h) 0) as [E0|]; [|reflexivity].
        rewrite <- F in E0. destruct (Z.eqb_spec (lg_file g) 0); lia.
      * constructor; [exact W|constructor].
    + do 2 eexists. split; [reflexivity|]. split; [|constructor].
      unfold LI, resolved in *. cbn [level_in_force start_in_force file_in_force color_choice printed_since].
      rewrite B. repeat split; assumption.
Qed.

(** * Theorems *)

Lemma lrun_ok tty h : plain_texts h -> null_file h = false ->
  exists g out, lrun tty h = Ok (g, out) /\ LI tty h g /\ Forall2 shows (all_shown tty h) out.
Proof.
  intros P N. induction h as [|o h IH].
  - exists lg0, []. split; [reflexivity|]. split; [|constructor]. repeat split.
  - destruct IH as (g & out & E & I & F).
    { intros now lv src line ix msg H. eapply P. right. exact H. }
    { destruct o; cbn in N; auto. apply orb_false_iff in N. apply N. }
    pose proof (log_step tty h g o I P) as H.
    replace (match o with OFile f => (f =? 0) && resolved h | _ => false end) with false in H.
    2:{ destruct o; try reflexivity. cbn in N. apply orb_false_iff in N. symmetry. apply N. }
    destruct H as (g' & out' & E' & I' & F').
    exists g', (app out out'). cbn [lrun all_shown]. rewrite E, E'. split; [reflexivity|]. split; [exact I'|].
    apply Forall2_app; assumption.
Qed.

(** C84 (what is printed). For every history of calls, whatever files are terminals,
    unless the application passed NULL to rmc_log_set_file at the one moment it is
    not allowed to, the logger does not crash and has printed exactly the lines the
    history calls for, in order: each message whose level was in force when it was
    logged, and a complaint about each illegal level; each to the file in force, with
    the text in full, and coloured exactly if asked for — under "automatic" exactly if
    that very file is a terminal, however files were switched in between. *)
Theorem c84_prints : forall tty h,
  plain_texts h -> null_file h = false ->
  exists g out, lrun tty h = Ok (g, out) /\ Forall2 shows (all_shown tty h) out.
Proof.
  intros tty h P N. destruct (lrun_ok tty h P N) as (g & out & E & _ & F). eauto.
Qed.

(** C84 (the crash). With NULL passed at that moment the process crashes: fileno(NULL). *)
Theorem c84_null_crash : forall tty h,
  plain_texts h -> null_file h = true -> lrun tty h = UB NullDeref.
Proof.
  intros tty h P N. induction h as [|o h IH]; [discriminate|].
  assert (P' : plain_texts h) by (intros now lv src line ix msg H; eapply P; right; exact H).
  destruct (null_file h) eqn:Nh.
  - cbn [lrun]. now rewrite IH.
  - destruct o as [| | |f|]; cbn [null_file] in N; try congruence.
    rewrite Nh, orb_false_r in N.
    destruct (lrun_ok tty h P' Nh) as (g & out & E & I & _). cbn [lrun]. rewrite E.
    pose proof (log_step tty h g (OFile f) I P) as H. cbn match in H. rewrite N in H. now rewrite H.
Qed.

(** C84 (levels). After any history a level is accepted exactly if it is between 0 and 6;
    the answer says so, and a refused one leaves the level in force alone. *)
Theorem c84_levels : forall tty h now lv,
  plain_texts h -> null_file h = false ->
  exists g out r g' out', lrun tty h = Ok (g, out) /\
    rmc_set_log_level tty now lv g = Ok (r, g', out') /\
    (r = 0 <-> 0 <= lv <= 6) /\ (r = 0 \/ r = 1) /\
    lg_level g' = (if (0 <=? lv) && (lv <=? 6) then lv else level_in_force h).
Proof.
  intros tty h now lv P N. destruct (lrun_ok tty h P N) as (g & out & Eg & I & _).
  exists g, out. unfold rmc_set_log_level, LV_NONE, LV_DEBUG.
  destruct ((lv <? 0) || (6 <? lv)) eqn:B.
  - destruct (log_line tty h g now 3 "rmc_log.c" 56 (-1) (illegal_text lv) I eq_refl) as
        (g' & s & E & W & L' & _).
    { rewrite illegal_same. rewrite !has_esc_app. change (NilZero.string_of_int (Z.to_int lv)) with (number lv). now rewrite esc_number. }
    change LV_WARNING with 3. rewrite E. do 3 eexists. split; [exact Eg|]. split; [reflexivity|].
    replace ((0 <=? lv) && (lv <=? 6)) with false by lia.
    destruct I as (L & _). repeat split; auto; try lia; congruence.
  - do 3 eexists. split; [exact Eg|]. split; [reflexivity|].
    replace ((0 <=? lv) && (lv <=? 6)) with true by lia. repeat split; auto; lia.
Qed.

(** C84 (no overrun). Whatever the index and the colour setting, the text written to the
    32-byte label buffer fits with its terminating NUL. *)
Theorem c84_buffer : forall g index,
  exists s, index_str g (u16 index) = Ok s /\ (String.length s + 1 <= 32)%nat.
Proof.
  intros g index. assert (H : 0 <= u16 index < 65536) by (unfold u16; apply Z.mod_pos_bound; lia).
  exists (index_text g (u16 index)). split; [now apply index_str_ok|].
  pose proof (index_text_len g _ H). lia.
Qed.

(** C84 (labels). A connection's label tells which index it is: no two of the 65536
    indices share one.  The digits of a text, read as a number: *)
Fixpoint digits (s : string) (acc : Z) : Z :=
  match s with
  | EmptyString => acc
  | String c s' =>
    let n := Z.of_N (Ascii.N_of_ascii c) in
    digits s' (if (48 <=? n) && (n <=? 57) then acc * 10 + (n - 48) else acc)
  end.
Lemma labels_all :
  upto (fun z => (digits (label_of z) 0 =? z) &&
                 negb (String.eqb (label_of z) "     ") && negb (String.eqb (label_of z) "[UDP]")
                 && negb (String.eqb (label_of z) "[CTL]")
                 || (32765 <=? z) && (z <=? 32767)) (Z.to_nat 65536) 0 = true.
Proof. vm_cast_no_check (@eq_refl bool true). Qed.

Theorem c84_labels : forall a b,
  0 <= a < 65536 -> 0 <= b < 65536 -> label_of a = label_of b -> a = b.
Proof.
  intros a b Ha Hb E.
  pose proof (upto_spec _ _ _ labels_all a ltac:(rewrite Z2Nat.id; lia)) as A.
  pose proof (upto_spec _ _ _ labels_all b ltac:(rewrite Z2Nat.id; lia)) as B.
  cbv beta in A, B.
  destruct ((32765 <=? a) && (a <=? 32767)) eqn:SA; destruct ((32765 <=? b) && (b <=? 32767)) eqn:SB.
  - assert (Oa : a = 32765 \/ a = 32766 \/ a = 32767) by lia.
    assert (Ob : b = 32765 \/ b = 32766 \/ b = 32767) by lia.
    destruct Oa as [-> | [-> | ->]], Ob as [-> | [-> | ->]]; try reflexivity; discriminate.
  - rewrite <- E in B. rewrite orb_false_r in B.
    assert (Oa : a = 32765 \/ a = 32766 \/ a = 32767) by lia.
    destruct Oa as [-> | [-> | ->]]; cbn in B; rewrite ?andb_false_r in B; discriminate.
  - rewrite E in A. rewrite orb_false_r in A.
    assert (Ob : b = 32765 \/ b = 32766 \/ b = 32767) by lia.
    destruct Ob as [-> | [-> | ->]]; cbn in A; rewrite ?andb_false_r in A; discriminate.
  - rewrite orb_false_r in A, B. rewrite !andb_true_iff in A, B. rewrite E in A. lia.
Qed.

(** C84 (the environment variable). Loading the library with RMC_LOG_LEVEL set is the same
    as calling rmc_set_log_level first thing. *)
Theorem c84_environment : forall tty now lv,
  set_log_level_on_env tty now (Some lv) lg0 = lrun tty [OLevel now lv] /\
  set_log_level_on_env tty now None lg0 = lrun tty [].
Proof.
  intros. split; [|reflexivity]. cbn [lrun lstep set_log_level_on_env].
  destruct (rmc_set_log_level tty now lv lg0) as [[[r g] out]| | |]; reflexivity.
Qed.

(** C84 (the clock). Readings of a clock that does not run backwards do not either, they
    are off by less than a microsecond, and they fit int64_t for 292271 years. *)
Theorem c84_clock : forall s n s' n',
  0 <= s < 9223372036854 -> 0 <= n < 1000000000 -> 0 <= n' < 1000000000 ->
  (s < s' \/ s = s' /\ n <= n' -> usec_of s n <= usec_of s' n') /\
  0 <= usec_of s n < 9223372036854775808 /\
  0 <= (s * 1000000000 + n) - usec_of s n * 1000 < 1000.
Proof.
  intros s n s' n' Hs Hn Hn'. unfold usec_of.
  pose proof (Z.div_mod n 1000 ltac:(lia)). pose proof (Z.mod_pos_bound n 1000 ltac:(lia)).
  pose proof (Z.div_mod n' 1000 ltac:(lia)). pose proof (Z.mod_pos_bound n' 1000 ltac:(lia)).
  assert (0 <= n / 1000 < 1000000) by (split; [apply Z.div_pos; lia|apply Z.div_lt_upper_bound; lia]).
  assert (0 <= n' / 1000 < 1000000) by (split; [apply Z.div_pos; lia|apply Z.div_lt_upper_bound; lia]).
  split; [intros [L | [-> L]]; lia|]. split; lia.
Qed.

(** C84 (elapsed time). So the milliseconds shown never decrease along a run of such a clock. *)
Theorem c84_elapsed : forall h a b, start_in_force h <= a <= b -> 0 <= elapsed h a <= elapsed h b.
Proof.
  intros h a b H. unfold elapsed. destruct (_ =? 0); [lia|].
  rewrite !Z.quot_div_nonneg by lia. split; [apply Z.div_pos; lia|apply Z.div_le_mono; lia].
Qed.

(** C84 (colours). Without colours every escape sequence is empty; with colours, each of the
    connections 0 to 8 has a colour of its own, and every further one none. *)
Definition rgb (r gr b : Z) : string := ESC ++ "[38;2;" ++ number r ++ ";" ++ number gr ++ ";" ++ number b ++ "m".
Theorem c84_colours : forall g,
  (lg_color g = 0 -> forall ix, rmc_index_color g ix = "") /\
  (lg_color g <> 0 ->
    map (rmc_index_color g) [0; 1; 2; 3; 4; 5; 6; 7; 8] =
      [rgb 0 0 255; rgb 0 204 0; rgb 0 255 255; rgb 153 255 153; rgb 255 204 204; rgb 0 255 0; rgb 0 128 255; rgb 255 0 0; rgb 192 0 0] /\
    NoDup (map (rmc_index_color g) [0; 1; 2; 3; 4; 5; 6; 7; 8]) /\
    rmc_index_color g (-1) = ESC ++ "[2m" /\
    forall ix, 8 < ix \/ ix < -1 -> rmc_index_color g ix = ESC ++ "[0m").
Proof.
  intros g. split.
  - intros E ix. unfold rmc_index_color, c_faint, c_dark_blue, c_dark_green, c_light_blue, c_light_green, c_light_red, c_green, c_blue, c_dark_red, c_red, c_none, paint.
    rewrite E. cbn [Z.eqb]. repeat (destruct (ix =? _); [reflexivity|]). reflexivity.
  - intros E. assert (P : forall s, paint g s = ESC ++ s) by (intros s; unfold paint; destruct (Z.eqb_spec (lg_color g) 0); [contradiction|reflexivity]).
    unfold rmc_index_color, c_faint, c_dark_blue, c_dark_green, c_light_blue, c_light_green, c_light_red, c_green, c_blue, c_dark_red, c_red, c_none.
    split; [cbn [map]; rewrite !P; reflexivity|]. split.
    + cbn [map]. rewrite !P. cbn [Z.eqb Pos.eqb]. repeat (constructor; [cbn [In]; intuition discriminate|]). constructor.
    + split; [apply P|]. intros ix H. repeat (match goal with |- context [ix =? ?k] => replace (ix =? k) with false by lia end). apply P.
Qed.

(** The level's tag is painted in the level's colour: flashing red, red, orange, blue, green,
    plain; with colours off not at all. *)
Theorem c84_level_colours : forall g,
  (lg_color g = 0 -> forall lv, fst (level_tag g lv) = "") /\
  (lg_color g <> 0 -> map (level_tag g) [1; 2; 3; 4; 5; 6] =
    [(ESC ++ "[5;38;2;192;0;0m", "[F]"); (rgb 192 0 0, "[E]"); (rgb 255 128 0, "[W]"); (rgb 0 128 255, "[I]"); (rgb 0 255 0, "[C]"); (ESC ++ "[0m", "[D]")]).
Proof.
  intros g. split.
  - intros E lv. unfold level_tag, c_none, c_green, c_blue, c_orange, c_red, c_flashing_red, paint. rewrite E. cbn [Z.eqb].
    repeat (destruct (lv =? _); [reflexivity|]). reflexivity.
  - intros E. assert (P : forall s, paint g s = ESC ++ s) by (intros s; unfold paint; destruct (Z.eqb_spec (lg_color g) 0); [contradiction|reflexivity]).
    cbn [map]. unfold level_tag, c_none, c_green, c_blue, c_orange, c_red, c_flashing_red. rewrite !P. reflexivity.
Qed.

(** * Witnesses *)

(** File 7 is a terminal, standard output is not: a message too detailed, one printed plain,
    one in colour after the switch, an illegal level, one forced plain. *)
Definition tty7 (f : Z) : bool := f =? 7.
Definition log_demo : list lop :=
  [OLog 5000000 4 "a.c" 40 32767 "last"; OColor 0; OLevel 4000000 9; OLog 4000000 3 "a.c" 30 12 "warm";
   OFile 7; OLog 3500000 2 "a.c" 20 32766 "cold"; OLog 3000000 6 "a.c" 10 0 "hidden"; OStart 1000000;
   OLevel 900000 4].

Example c84_witness :
  plain_texts log_demo /\ null_file log_demo = false /\
  map (fun d => (sh_file d, sh_color d, plain d)) (all_shown tty7 log_demo) =
    [(1, false, "[E] 2500 [UDP] a.c:20 cold" ++ NL);
     (7, true, "[W] 3000 [012] a.c:30 warm" ++ NL);
     (7, true, "[W] 3000 [65535] rmc_log.c:56 Illegal log level: 9. Legal values [0-6]" ++ NL);
     (7, false, "[I] 4000       a.c:40 last" ++ NL)].
Proof.
  split; [|split; reflexivity].
  intros now lv src line ix msg H. cbn in H.
  repeat (destruct H as [H|H]; [inversion H; subst; split; reflexivity|]). destruct H.
Qed.

Example c84_crash_witness :
  let h := [OFile 0; OLog 1 1 "a.c" 1 0 "x"; OLevel 0 1] in
  null_file h = true /\ lrun tty7 h = UB NullDeref.
Proof. split; reflexivity. Qed.

(** A colour function asked before the first line under "automatic" answers as if there
    were colours, terminal or not (rmc_log.c:79-149). *)
Example c84_early_color : c_red lg0 <> "" /\ colored_now (fun _ => false) [] = false.
Proof. split; [discriminate|reflexivity]. Qed.

Print Assumptions c84_prints.
Print Assumptions c84_null_crash.
Print Assumptions c84_labels.
Print Assumptions c84_colours.
Print Assumptions c84_level_colours.
