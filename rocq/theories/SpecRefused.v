(** Specification: the error that each rejected string gets. *)
From Coq Require Import Ascii String ZArith NArith Bool List.
From Verif Require Import GoStr SpecCal SpecText SpecZone SpecGrammar SpecForms SpecSpan SpecSet SpecWrap SpecReads.
Import ListNotations.
Open Scope Z_scope.

(** ** Dates *)
(** A date text and its components without their marks. *)
Definition year_part : str -> Prop := cat minus_text four_x.
Definition month_part : str -> Prop := x_number (fun n => 1 <= n <= 12).
Definition day_part : str -> Prop := x_number (fun n => 0 <= n <= 31).
Inductive date_parts : str -> str -> option str -> option str -> Prop :=
| dp_y yt y : marked y yt -> year_part y -> date_parts yt y None None
| dp_ym yt y mt m : marked y yt -> year_part y -> marked m mt -> month_part m -> date_parts (yt ++ $"-" ++ mt) y (Some m) None
| dp_ymd yt y mt m dt d : marked y yt -> year_part y -> marked m mt -> month_part m -> marked d dt -> day_part d ->
    date_parts (yt ++ $"-" ++ mt ++ $"-" ++ dt) y (Some m) (Some d).
Definition ends_in_x (t : str) : Prop := exists u, t = u ++ $"X".
(** A year that ends in X has to begin with a digit; a day may not be 0X; an X is
    read only at the end of a component; both days have to exist. *)
Inductive date_refused (s : str) : err -> Prop :=
| dx_form : (forall y m d, ~ date_parts s y m d) -> date_refused s (EInvalid ($"date") s)
| dx_leading r m d : date_parts s ("X"%char :: r) m d -> ends_in_x r -> date_refused s (ENotImplemented ($"date") s)
| dx_minus r m d : date_parts s ("-"%char :: r) m d -> ends_in_x r -> date_refused s (EInt ($"-"))
| dx_day_0x y m : date_parts s y m (Some ($"0X")) -> (ends_in_x y -> exists c r, y = c :: r /\ is_digit c = true) ->
    date_refused s (EInvalid ($"date") s)
| dx_year y m d : date_parts s y m d -> d <> Some ($"0X") -> In "X"%char y -> ~ ends_in_x y -> date_refused s (ENum y)
| dx_month y l h c d : date_parts s y (Some ["X"%char; c]) d -> d <> Some ($"0X") -> year_reads y l h -> is_digit c = true ->
    date_refused s (ENum ["X"%char; c])
| dx_day y l h m l' h' c : date_parts s y (Some m) (Some ["X"%char; c]) -> year_reads y l h -> month_reads m l' h' -> is_digit c = true ->
    date_refused s (ENum ["X"%char; c])
| dx_days y m d y' m' d' : date_reads s y m d y' m' d' -> ~ (real_date y m d /\ real_date y' m' d') ->
    date_refused s (EText ($"Invalid days for month")).
Inductive half_refused (t : str) (e : err) : Prop :=
| hx_intro : t <> [] -> t <> $".." -> date_refused t e -> half_refused t e.
Definition half_fine (t : str) : Prop := exists lo hi, half_reads t lo hi.
(** The first half is looked at first. *)
Definition halves_refused (a b : str) (e : err) : Prop := half_refused a e \/ half_fine a /\ half_refused b e.
Definition slashless (t : str) : Prop := ~ In "/"%char t.
Inductive span_refused : str -> err -> Prop :=
| sx_date s e : slashless s -> date_refused s e -> span_refused s e
| sx_pair a b e : slashless a -> slashless b -> halves_refused a b e -> span_refused (a ++ $"/" ++ b) e
| sx_more a b c : span_refused (a ++ $"/" ++ b ++ $"/" ++ c) (EInvalid ($"date span") (a ++ $"/" ++ b ++ $"/" ++ c)).

(** ** The other features *)
(** The layout given to time.Parse. *)
Inductive layout_zone : str -> str -> Prop :=
| zl_none : layout_zone [] []
| zl_utc : layout_zone ($"Z") ($"Z")
| zl_hours c h : c = "+"%char \/ c = "-"%char -> 0 <= h <= 99 -> layout_zone (c :: two h) ($"-07")
| zl_minutes c h m : c = "+"%char \/ c = "-"%char -> 0 <= h <= 99 -> 0 <= m <= 99 -> layout_zone (c :: two h ++ $":" ++ two m) ($"-07:00").
Inductive leading_minus : str -> str -> Prop :=
| lm_yes r : leading_minus ("-"%char :: r) ($"-")
| lm_no t : (forall r, t <> "-"%char :: r) -> leading_minus t [].
Inductive stamp_refused : str -> err -> Prop :=
| tx_intro t h m sc z g l s : is_level0_date t -> 0 <= h <= 99 -> 0 <= m <= 99 -> 0 <= sc <= 99 -> leading_minus t g -> layout_zone z l ->
    s = t ++ $"T" ++ two h ++ $":" ++ two m ++ $":" ++ two sc ++ z -> (forall i, ~ stamp_reads s i) ->
    stamp_refused s (ETime (g ++ $"2006-01-02T15:04:05" ++ l) s).
Inductive letter_refused : str -> err -> Prop :=
| lx_long sg ds : minus_text sg -> digits_text ds -> (4 < length ds)%nat ->
    letter_refused ($"Y" ++ sg ++ ds) (EUnsupported ($"Letter-prefixed calendar year") ($"Y" ++ sg ++ ds))
| lx_short sg ds : minus_text sg -> digits_text ds -> (length ds < 4)%nat -> letter_refused ($"Y" ++ sg ++ ds) (EInvalid ($"date") (sg ++ ds)).
(** From month [b] of year [y] to the last month in year [y']: years with fewer than
    four digits are not written as EDTF wants them, and 10000 has too many. *)
Inductive months_refused (y b y' : Z) : err -> Prop :=
| mx_next : y' = 10000 -> months_refused y b y' (ETime ($"2006-01-02") ($"10000-03-01"))
| mx_first : -999 <= y <= -1 -> months_refused y b y' (EInvalid ($"date") ($"-" ++ three (- y) ++ $"-" ++ two b ++ $"-01"))
| mx_last : y = -1000 -> y' = -999 -> months_refused y b y' (EInvalid ($"date") ($"-999-02-28")).
Inductive season_refused : str -> err -> Prop :=
| nx_code t y n r b e j x : year4 t y -> season_months n b e j -> months_refused y b (y + j) x -> season_refused (t ++ $"-" ++ two n ++ r) x
| nx_words n w v sp sp' y b e j x : season_of n w b e j -> any_case w v -> spaces sp -> spaces sp' -> 0 <= y <= 9999 -> months_refused y b (y + j) x ->
    season_refused (v ++ sp ++ $"," ++ sp' ++ four y) x.
(** Notations: the exponent has to fit 64 bits, the mantissa together with a binary
    exponent of the same size has to stay below the largest binary exponent. *)
Definition beyond (n : Z) : Prop := 2 ^ 2147483647 <= n.
Definition oversized (m e : Z) : Prop := 2 ^ 63 - 1 < e \/ m <> 0 /\ 2147483647 < Z.log2 (Z.abs m) + 1 + e.
(** What is left of the number that is written. *)
Inductive notation_gives : str -> Z -> Prop :=
| ng_intro t m e y : exp_text t m e -> ~ oversized m e -> ~ beyond (Z.abs m * 10 ^ e) -> wraps (m * 10 ^ e) y -> notation_gives t y.
Inductive notation_refused : str -> err -> Prop :=
| nt_size t m e : exp_text t m e -> oversized m e -> notation_refused t (EBig t)
| nt_far t y : notation_gives t y -> 9999 < Z.abs y -> notation_refused t (EUnsupported ($"exponential notation") t).
Inductive exponential_refused : str -> err -> Prop :=
| ex_notation a t x : a = "Y"%char \/ a = "y"%char -> notation_refused t x -> exponential_refused (a :: t) x
| ex_short a t y w : a = "Y"%char \/ a = "y"%char -> notation_gives t y -> Z.abs y < 1000 -> canonical_text w y ->
    exponential_refused (a :: t) (EInvalid ($"date") w).
(** The year before the S. *)
Inductive year_before : str -> Z -> Prop :=
| yb_year t y : year4 t y -> year_before t y
| yb_letter (neg : bool) ds m : dec_digits ds m -> (length (sign neg ++ ds) <= 4)%nat -> year_before ("Y"%char :: sign neg ++ ds) (signed neg m)
| yb_exp c t y : c = "Y"%char \/ c = "y"%char -> notation_gives t y -> Z.abs y <= 9999 -> year_before (c :: t) y.
(** The earlier year: the last [v] characters replaced by 9 if a minus sign is left
    in front of them, else by 0. *)
Inductive earlier_text (w : str) (v : Z) : str -> Prop :=
| et_minus p q : w = "-"%char :: p ++ q -> Z.of_nat (length q) = v -> earlier_text w v ("-"%char :: p ++ repeat "9"%char (length q))
| et_plain p q : w = p ++ q -> Z.of_nat (length q) = v -> (forall r, p <> "-"%char :: r) -> earlier_text w v (p ++ repeat "0"%char (length q)).
Inductive significant_refused : str -> err -> Prop :=
| gx_long sg ds nd s : minus_text sg -> digits_text ds -> (4 < length (sg ++ ds))%nat -> digits_text nd -> s = "Y"%char :: (sg ++ ds) ++ $"S" ++ nd ->
    significant_refused s (EUnsupported ($"Significant digits") s)
| gx_notation c t nd x : c = "Y"%char \/ c = "y"%char -> notation_refused t x -> digits_text nd -> significant_refused (c :: t ++ $"S" ++ nd) x
| gx_many u y nd v s : year_before u y -> dec_digits nd v -> 10 ^ year_width y <= v -> s = u ++ $"S" ++ nd ->
    significant_refused s (EInvalid ($"Significant digits") s)
| gx_short u y nd v w x : year_before u y -> dec_digits nd v -> v <= year_width y -> (forall l h, ~ significant_years y v l h) ->
    canonical_text w y -> earlier_text w v x -> significant_refused (u ++ $"S" ++ nd) (EInvalid ($"date") x).
Inductive grouping_refused : str -> err -> Prop :=
| rx_intro y n b w : grouping_of n b 2 1 -> 0 <= y < 999 \/ y = 9999 -> canonical_text w (y + 1) ->
    grouping_refused (four y ++ $"-" ++ two n) (EInvalid ($"date") (w ++ $"-02")).
(** A piece with two times two dots. *)
Definition twice_dotted (p : str) : Prop := exists a b c, dotless a /\ dotless b /\ p = a ++ $".." ++ b ++ $".." ++ c.
Inductive set_refused : str -> err -> Prop :=
| ox_dots o l p c s : Forall (fun q => ~ In ","%char q) l -> In p l -> twice_dotted p -> s = o :: joined ($",") l ++ [c] ->
    set_refused s (EInvalid ($"Set representation") s)
| ox_bounds o l ds so eo c a b x : l <> [] -> set_pieces l ds so eo -> least ds a -> greatest ds b -> halves_refused a b x ->
    set_refused (o :: joined ($",") l ++ [c]) x.
Inductive refused_as : str -> str -> err -> Prop :=
| fx_span f s x : In f span_features -> span_refused s x -> refused_as f s x
| fx_stamp s x : stamp_refused s x -> refused_as ($"Date and Time") s x
| fx_letter s x : letter_refused s x -> refused_as ($"Letter-prefixed calendar year") s x
| fx_season s x : season_refused s x -> refused_as ($"Seasons") s x
| fx_exponential s x : exponential_refused s x -> refused_as ($"Exponential year") s x
| fx_significant s x : significant_refused s x -> refused_as ($"Significant digits") s x
| fx_grouping s x : grouping_refused s x -> refused_as ($"Sub-year groupings") s x
| fx_set s x : set_refused s x -> refused_as ($"Set representation") s x.

(** ** All strings *)
(** The level 2 test looks at the beginning only. *)
Definition level2_text (s : str) : Prop := exists u v, level2_form u /\ s = u ++ v.
Definition no_feature (s : str) (l : list (str * (str -> Prop))) : Prop := forall f, ~ first_of s l f.
Inductive refused : str -> err -> Prop :=
| rf_feature s lv f x : takes s lv f -> refused_as f s x -> refused s x
| rf_level1 s : ~ level0_form s -> level1_text s -> no_feature s level1_features -> refused s (EInvalid ($"Extended Interval") s)
| rf_level2 s : ~ level0_form s -> ~ level1_text s -> level2_text s -> no_feature s level2_features ->
    refused s (EInvalid ($"Invalid or unsupported Level 2 string") s)
| rf_none s : ~ level0_form s -> ~ level1_text s -> ~ level2_text s -> s <> $".." -> s <> [] ->
    refused s (EUnrecognized ($"Invalid or unsupported EDTF string") s).

(** ** Panics *)
(** The number has to be beyond all floating point numbers, but not the mantissa with
    a binary exponent. *)
Definition notation_crashes (t : str) : Prop := exists m e, exp_text t m e /\ ~ oversized m e /\ beyond (Z.abs m * 10 ^ e).
Inductive crashes : str -> Prop :=
| cr_exponential a t : a = "Y"%char \/ a = "y"%char -> notation_crashes t -> crashes (a :: t)
| cr_notation a t nd : a = "Y"%char \/ a = "y"%char -> notation_crashes t -> digits_text nd -> crashes (a :: t ++ $"S" ++ nd)
| cr_digits u y nd v : year_before u y -> dec_digits nd v -> year_width y < v < 10 ^ year_width y -> crashes (u ++ $"S" ++ nd).
(** A notation whose number is below 2^2147483647 by less than one part in 2^64:
    whether it is taken as that depends on how the powers of five are rounded. *)
Definition borderline_notation (t : str) : Prop :=
  exists m e, exp_text t m e /\ ~ beyond (Z.abs m * 10 ^ e) /\ (2 ^ 64 - 1) * 2 ^ 2147483583 < Z.abs m * 10 ^ e.
Inductive borderline : str -> Prop :=
| bl_exponential a t : a = "Y"%char \/ a = "y"%char -> borderline_notation t -> borderline (a :: t)
| bl_significant a t nd : a = "Y"%char \/ a = "y"%char -> borderline_notation t -> digits_text nd -> borderline (a :: t ++ $"S" ++ nd).
