(** Log.v — model of the logger (rmc_log.c, rmc_log.h) and the clock (time.c).

    Text is [string]; an output file is a number, 0 being NULL; what
    isatty(fileno(f)) answers is the function [tty], constant during a run;
    what is printed is a list of (file, line) pairs. *)
From Coq Require Import String Ascii DecimalString.
From Verif Require Import Base.
Open Scope string_scope.
Open Scope Z_scope.

(** Log levels: rmc_log.h:18-24. *)
Definition LV_NONE : Z := 0.
(** rmc_log.h:19. *)
Definition LV_FATAL : Z := 1.
(** rmc_log.h:20. *)
Definition LV_ERROR : Z := 2.
(** rmc_log.h:21. *)
Definition LV_WARNING : Z := 3.
(** rmc_log.h:22. *)
Definition LV_INFO : Z := 4.
(** rmc_log.h:23. *)
Definition LV_COMMENT : Z := 5.
(** rmc_log.h:24. *)
Definition LV_DEBUG : Z := 6.

(** RMC_NIL_INDEX, rmc_internal.h:44, rmc_log.h:43-45. *)
Definition IX_NIL : Z := 32767.
(** RMC_MULTICAST_INDEX, rmc_internal.h:45. *)
Definition IX_MULTICAST : Z := 32766.
(** RMC_LISTEN_INDEX, rmc_internal.h:46. *)
Definition IX_LISTEN : Z := 32765.

(** The file numbers of this model: NULL and stdout, rmc_log.c:198-199. *)
Definition F_NULL : Z := 0.
(** stdout, rmc_log.c:199. *)
Definition F_STDOUT : Z := 1.

(** The file-scope variables of rmc_log.c:17-22. *)
Record lg := mkLg {
  lg_start : Z;      (* start_time *)
  lg_level : Z;      (* _rmc_log_level *)
  lg_color : Z;      (* _rmc_log_use_color *)
  lg_calc : bool;    (* _rmc_log_use_color_calculated *)
  lg_file : Z        (* _rmc_log_file *)
}.

(** Their initial values, rmc_log.c:17-22. *)
Definition lg0 : lg := mkLg 0 LV_NONE (-1) false F_NULL.

(** clock_gettime's answer turned into microseconds, time.c:12-19.  usec_timestamp_t
    is int64_t; tv_nsec is below 10^9 (clock_gettime(2)). *)
Definition usec_of (tv_sec tv_nsec : Z) : Z := tv_sec * 1000000 + tv_nsec / 1000.

(** The escape character "\033", rmc_log.c:81. *)
Definition ESC : string := String (Ascii.ascii_of_nat 27) EmptyString.

(** The colour functions' common shape, e.g. rmc_log.c:79-82: an escape sequence if
    _rmc_log_use_color is not 0, else the empty string. *)
Definition paint (g : lg) (s : string) : string := if (lg_color g =? 0)%Z then EmptyString else (ESC ++ s)%string.
(** rmc_log.c:79-82. *)
Definition c_flashing_red g := paint g "[5;38;2;192;0;0m".
(** rmc_log.c:84-87. *)
Definition c_light_red g := paint g "[38;2;255;204;204m".
(** rmc_log.c:89-92. *)
Definition c_red g := paint g "[38;2;192;0;0m".
(** rmc_log.c:94-97. *)
Definition c_dark_red g := paint g "[38;2;255;0;0m".
(** rmc_log.c:99-102. *)
Definition c_orange g := paint g "[38;2;255;128;0m".
(** rmc_log.c:104-107. *)
Definition c_yellow g := paint g "[38;2;255;255;0m".
(** rmc_log.c:109-112. *)
Definition c_light_blue g := paint g "[38;2;0;255;255m".
(** rmc_log.c:114-117. *)
Definition c_blue g := paint g "[38;2;0;128;255m".
(** rmc_log.c:119-122. *)
Definition c_dark_blue g := paint g "[38;2;0;0;255m".
(** rmc_log.c:124-127. *)
Definition c_light_green g := paint g "[38;2;153;255;153m".
(** rmc_log.c:130-133. *)
Definition c_green g := paint g "[38;2;0;255;0m".
(** rmc_log.c:136-139. *)
Definition c_dark_green g := paint g "[38;2;0;204;0m".
(** rmc_log.c:141-144. *)
Definition c_faint g := paint g "[2m".
(** rmc_log.c:146-149. *)
Definition c_none g := paint g "[0m".

(** rmc_index_color, rmc_log.c:152-188. *)
Definition rmc_index_color (g : lg) (ix : Z) : string :=
  if ix =? -1 then c_faint g
  else if ix =? 0 then c_dark_blue g
  else if ix =? 1 then c_dark_green g
  else if ix =? 2 then c_light_blue g
  else if ix =? 3 then c_light_green g
  else if ix =? 4 then c_light_red g
  else if ix =? 5 then c_green g
  else if ix =? 6 then c_blue g
  else if ix =? 7 then c_dark_red g
  else if ix =? 8 then c_red g
  else c_none g.

(** printf's "%d" / "%lld" (decimal, minus sign if negative), rmc_log.c:266. *)
Definition dec (z : Z) : string := NilZero.string_of_int (Z.to_int z).
(** printf's "%.3d" of a non-negative number: at least three digits, rmc_log.c:225. *)
Definition dec3 (z : Z) : string :=
  if z <? 10 then "00" ++ dec z else if z <? 100 then "0" ++ dec z else dec z.

(** The text put in index_str, rmc_log.c:211-225. *)
Definition index_text (g : lg) (ix : Z) : string :=
  if ix =? IX_NIL then "     "
  else if ix =? IX_MULTICAST then c_orange g ++ "[UDP]" ++ c_none g
  else if ix =? IX_LISTEN then c_yellow g ++ "[CTL]" ++ c_none g
  else rmc_index_color g ix ++ "[" ++ dec3 ix ++ "]" ++ c_none g.

(** The strcpy/sprintf into char index_str[32]: the text and its terminating NUL
    must fit, rmc_log.c:194, 211-225. *)
Definition index_str (g : lg) (ix : Z) : res string :=
  let s := index_text g ix in
  if 32 <? Z.of_nat (String.length s) + 1 then UB OutOfBounds else Ok s.

(** Colour and tag of the level, rmc_log.c:228-263. *)
Definition level_tag (g : lg) (lv : Z) : string * string :=
  if lv =? LV_DEBUG then (c_none g, "[D]")
  else if lv =? LV_COMMENT then (c_green g, "[C]")
  else if lv =? LV_INFO then (c_blue g, "[I]")
  else if lv =? LV_WARNING then (c_orange g, "[W]")
  else if lv =? LV_ERROR then (c_red g, "[E]")
  else if lv =? LV_FATAL then (c_flashing_red g, "[F]")
  else (c_none g, "[?]").

(** isatty(fileno(f)): fileno(NULL) is undefined, rmc_log.c:72, 205. *)
Definition is_tty (tty : Z -> bool) (f : Z) : res bool :=
  if f =? F_NULL then UB NullDeref else Ok (tty f).

(** The newline put by fputc, rmc_log.c:280. *)
Definition NL : string := String (Ascii.ascii_of_nat 10) EmptyString.

(** rmc_log, rmc_log.c:190-281.  [now] is what the clock shows, [file]/[line] the
    source position, [msg] the formatted message; prints one line. *)
Definition rmc_log (tty : Z -> bool) (now : Z) (lv : Z) (file : string) (line : Z)
    (index : Z) (msg : string) (g : lg) : res (lg * list (Z * string)) :=
  let ix := u16 index in                                             (* uint16_t index *)
  let g := if lg_file g =? F_NULL
           then mkLg (lg_start g) (lg_level g) (lg_color g) (lg_calc g) F_STDOUT else g in
  match (if lg_color g =? -1 then
           match is_tty tty (lg_file g) with
           | Ok t => Ok (mkLg (lg_start g) (lg_level g) (if t then 1 else 0) true (lg_file g))
           | UB k => UB k | Abort => Abort | Hang => Hang
           end
         else Ok g) with
  | Ok g =>
    match index_str g ix with
    | Ok istr =>
      let (color, tag) := level_tag g lv in
      let ms := if lg_start g =? 0 then 0 else Z.quot (now - lg_start g) 1000 in
      Ok (g, [(lg_file g,
               color ++ tag ++ c_none g ++ " " ++ dec ms ++ " " ++ istr ++ " " ++ c_faint g
               ++ file ++ ":" ++ dec line ++ c_none g ++ " " ++ msg ++ NL)])
    | UB k => UB k | Abort => Abort | Hang => Hang
    end
  | UB k => UB k | Abort => Abort | Hang => Hang
  end.

(** RMC_LOG_xxx and RMC_LOG_INDEX_xxx, rmc_log.h:47-59: one line if the level set is
    at least the message's. *)
Definition log_macro (tty : Z -> bool) (now lv : Z) (file : string) (line index : Z)
    (msg : string) (g : lg) : res (lg * list (Z * string)) :=
  if lv <=? lg_level g then rmc_log tty now lv file line index msg g else Ok (g, []).

(** rmc_log_set_start_time, rmc_log.c:36-39. *)
Definition rmc_log_set_start_time (now : Z) (g : lg) : lg :=
  mkLg now (lg_level g) (lg_color g) (lg_calc g) (lg_file g).

(** rmc_log_get_start_time, rmc_log.c:41-44. *)
Definition rmc_log_get_start_time (g : lg) : Z := lg_start g.

(** rmc_log_use_color, rmc_log.c:46-50. *)
Definition rmc_log_use_color (use_color : Z) (g : lg) : lg :=
  mkLg (lg_start g) (lg_level g) use_color false (lg_file g).

(** The text of the complaint, rmc_log.c:56-57. *)
Definition illegal_text (lv : Z) : string :=
  "Illegal log level: " ++ dec lv ++ ". Legal values [" ++ dec LV_NONE ++ "-" ++ dec LV_DEBUG ++ "]".

(** rmc_set_log_level, rmc_log.c:52-63: the return value, the state and what is printed.
    The complaint is printed by rmc_log itself, not by a macro. *)
Definition rmc_set_log_level (tty : Z -> bool) (now lv : Z) (g : lg)
  : res (Z * lg * list (Z * string)) :=
  if (lv <? LV_NONE) || (LV_DEBUG <? lv) then
    match rmc_log tty now LV_WARNING "rmc_log.c" 56 (-1) (illegal_text lv) g with
    | Ok (g', out) => Ok (1, g', out)
    | UB k => UB k | Abort => Abort | Hang => Hang
    end
  else Ok (0, mkLg (lg_start g) lv (lg_color g) (lg_calc g) (lg_file g), []).

(** rmc_log_set_file, rmc_log.c:65-77. *)
Definition rmc_log_set_file (tty : Z -> bool) (f : Z) (g : lg) : res lg :=
  if lg_calc g then
    match is_tty tty f with
    | Ok t => Ok (mkLg (lg_start g) (lg_level g) (if t then 1 else 0) (lg_calc g) f)
    | UB k => UB k | Abort => Abort | Hang => Hang
    end
  else Ok (mkLg (lg_start g) (lg_level g) (lg_color g) (lg_calc g) f).

(** set_log_level_on_env, rmc_log.c:26-34: run when the library is loaded.  [env] is the
    value of RMC_LOG_LEVEL as atoi reads it, if the variable is set. *)
Definition set_log_level_on_env (tty : Z -> bool) (now : Z) (env : option Z) (g : lg)
  : res (lg * list (Z * string)) :=
  match env with
  | None => Ok (g, [])
  | Some lv => match rmc_set_log_level tty now lv g with
               | Ok (_, g', out) => Ok (g', out)
               | UB k => UB k | Abort => Abort | Hang => Hang
               end
  end.
