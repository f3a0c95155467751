(** Specification: which feature a string is taken for, and the two outer bounds
    that each feature reads from it. *)
From Coq Require Import Ascii String ZArith NArith Bool List.
From Verif Require Import GoStr SpecCal SpecText SpecZone SpecGrammar SpecForms SpecSpan SpecSet SpecWrap Edtf CalFacts.
Import ListNotations.
Open Scope Z_scope.

(** ** Which feature *)
Definition pair_of_dates (s : str) : Prop := exists a b, is_level0_date a /\ is_level0_date b /\ s = a ++ "/"%char :: b.
(** The season test looks at the beginning or at the end only. *)
Definition season_like (s : str) : Prop := cat season_date anything s \/ cat anything season_words s.
(** The level 1 test also takes a lower case x. *)
Definition level1_text (s : str) : Prop := level1_form s \/ unspecified_digits (map upx s).
(** The features of each level, in the order in which they are tried. *)
Definition level0_features : list (str * (str -> Prop)) :=
  [($"Date", is_level0_date); ($"Date and Time", datetime_text); ($"Time Interval", pair_of_dates)].
Definition level1_features : list (str * (str -> Prop)) :=
  [($"Letter-prefixed calendar year", letter_year); ($"Seasons", season_like);
   ($"Qualification of a date (complete)", qualified_date); ($"Unspecified digit(s) from the right", unspecified_digits);
   ($"Negative calendar year", minus_year); ($"Extended Interval (Start)", extended_start);
   ($"Extended Interval (End)", extended_end)].
Definition level2_features : list (str * (str -> Prop)) :=
  [($"Exponential year", exponential_year); ($"Significant digits", significant_digits);
   ($"Sub-year groupings", sub_year_grouping); ($"Set representation", is_set);
   ($"Qualification (Group)", group_qualified); ($"Qualification (Individual)", individually_qualified);
   ($"Unspecified Digit", unspecified_form); ($"Interval", interval_form)].
(** [f] is the first feature of the list whose form [s] has. *)
Inductive first_of (s : str) : list (str * (str -> Prop)) -> str -> Prop :=
| fo_here f (P : str -> Prop) l : P s -> first_of s ((f, P) :: l) f
| fo_later g (P : str -> Prop) l f : ~ P s -> first_of s l f -> first_of s ((g, P) :: l) f.
Inductive takes (s : str) : Z -> str -> Prop :=
| tk_0 f : first_of s level0_features f -> takes s 0 f
| tk_1 f : ~ level0_form s -> level1_text s -> first_of s level1_features f -> takes s 1 f
| tk_2 f : ~ level0_form s -> ~ level1_text s -> first_of s level2_features f -> takes s 2 f.

(** ** Dates and halves of intervals *)
(** A bound is an instant, two dots, or nothing. *)
Inductive edge := At (t : Z) | Dots | Blank.
Definition shows (b : date) (x : edge) : Prop :=
  match x with
  | At t => d_timestamp b = Some t /\ d_open b = false /\ d_unknown b = false
  | Dots => d_timestamp b = None /\ d_open b = true /\ d_unknown b = false
  | Blank => d_timestamp b = None /\ d_open b = false /\ d_unknown b = true
  end.
Definition low_digit (c : ascii) : Z := if Ascii.eqb c "X" then 0 else digit_val c.
Definition high_digit (c : ascii) : Z := if Ascii.eqb c "X" then 9 else digit_val c.
(** The first and the last year. *)
Inductive year_reads : str -> Z -> Z -> Prop :=
| yr_number t y : year4 t y -> year_reads t y y
| yr_mask a b c : is_digit a = true -> d_or_x b -> d_or_x c ->
    year_reads [a; b; c; "X"%char] (digit_val a * 1000 + low_digit b * 100 + low_digit c * 10)
                                   (digit_val a * 1000 + high_digit b * 100 + high_digit c * 10 + 9).
(** The first and the last month.  0X is read as 1X. *)
Inductive month_reads : str -> Z -> Z -> Prop :=
| mr_number m : 1 <= m <= 12 -> month_reads (two m) m m
| mr_any : month_reads ($"XX") 1 12
| mr_mask a : a = "0"%char \/ a = "1"%char -> month_reads [a; "X"%char] 10 12.
(** The first and the last day, in months of [n] and [n'] days.  00 is read as the
    last day. *)
Inductive day_reads (n n' : Z) : str -> Z -> Z -> Prop :=
| dr_number d : 1 <= d <= 31 -> day_reads n n' (two d) d d
| dr_zero : day_reads n n' ($"00") n n'
| dr_any : day_reads n n' ($"XX") 1 n'
| dr_1x : day_reads n n' ($"1X") 10 19
| dr_2x : day_reads n n' ($"2X") 20 29
| dr_3x : day_reads n n' ($"3X") 30 n'.
(** A component with at most one mark, before or after it. *)
Inductive marked (c : str) : str -> Prop :=
| mk_none : marked c c
| mk_before q : a_mark q -> marked c (q :: c)
| mk_after q : a_mark q -> marked c (c ++ [q]).
(** The first and the last day of a date text. *)
Inductive date_reads : str -> Z -> Z -> Z -> Z -> Z -> Z -> Prop :=
| dt_y yt yc y y' : marked yc yt -> year_reads yc y y' -> date_reads yt y 1 1 y' 12 31
| dt_ym yt yc y y' mt mc m m' : marked yc yt -> year_reads yc y y' -> marked mc mt -> month_reads mc m m' ->
    date_reads (yt ++ $"-" ++ mt) y m 1 y' m' (month_len y' m')
| dt_ymd yt yc y y' mt mc m m' dt dc d d' : marked yc yt -> year_reads yc y y' -> marked mc mt -> month_reads mc m m' ->
    marked dc dt -> day_reads (month_len y m) (month_len y' m') dc d d' ->
    date_reads (yt ++ $"-" ++ mt ++ $"-" ++ dt) y m d y' m' d'.
Definition from_day (y m d : Z) : edge := At (instant y m d 0 0 0).
Definition to_day (y m d : Z) : edge := At (instant y m d 23 59 59).
(** Both days have to exist. *)
Inductive whole_date (s : str) : edge -> edge -> Prop :=
| wd_intro y m d y' m' d' : date_reads s y m d y' m' d' -> real_date y m d -> real_date y' m' d' ->
    whole_date s (from_day y m d) (to_day y' m' d').
Inductive half_reads : str -> edge -> edge -> Prop :=
| hr_blank : half_reads [] Blank Blank
| hr_dots : half_reads ($"..") Dots Dots
| hr_date s lo hi : whole_date s lo hi -> half_reads s lo hi.
(** A date, or two halves of which the second may come before the first. *)
Inductive span_reads : str -> edge -> edge -> Prop :=
| sr_date s lo hi : whole_date s lo hi -> span_reads s lo hi
| sr_pair a b lo x x' hi : half_reads a lo x -> half_reads b x' hi -> span_reads (a ++ $"/" ++ b) lo hi.

(** ** The other features *)
(** A time in a year with a minus sign is converted to UTC as if the year had none;
    the year of the result is then negated. *)
Inductive stamp_reads : str -> Z -> Prop :=
| st_plain y m d hh mi ss z off : 0 <= y <= 9999 -> real_date y m d -> clock hh mi ss -> zone_means z off ->
    stamp_reads (stamp_text y m d hh mi ss z) (instant y m d hh mi ss - off)
| st_minus y m d hh mi ss z off y' m' d' hh' mi' ss' : 0 <= y <= 9999 -> real_date y m d -> clock hh mi ss -> zone_means z off ->
    real_date y' m' d' -> clock hh' mi' ss' -> instant y m d hh mi ss - off = instant y' m' d' hh' mi' ss' ->
    stamp_reads ($"-" ++ stamp_text y m d hh mi ss z) (instant (- y') m' d' hh' mi' ss').
(** First month, last month, and years to add to the latter. *)
Inductive season_months : Z -> Z -> Z -> Z -> Prop :=
| sm_month n : 1 <= n <= 12 -> season_months n n n 0
| sm_season n w b e j : season_of n w b e j -> season_months n b e j.
Inductive season_reads : str -> edge -> edge -> Prop :=
| sn_code t y n r b e j : year4 t y -> season_months n b e j -> rendered y -> rendered (y + j) ->
    season_reads (t ++ $"-" ++ two n ++ r) (from_day y b 1) (to_day (y + j) e (month_len (y + j) e))
| sn_words n w v sp sp' y b e j : season_of n w b e j -> any_case w v -> spaces sp -> spaces sp' -> 0 <= y -> y + j <= 9999 ->
    season_reads (v ++ sp ++ $"," ++ sp' ++ four y) (from_day y b 1) (to_day (y + j) e (month_len (y + j) e)).
Inductive year_span : Z -> Z -> edge -> edge -> Prop :=
| ys_intro y y' : year_span y y' (from_day y 1 1) (to_day y' 12 31).
Inductive letter_reads : str -> edge -> edge -> Prop :=
| lt_intro t y lo hi : year4 t y -> year_span y y lo hi -> letter_reads ($"Y" ++ t) lo hi.
(** The year is what 64 bits leave of the number that is written. *)
Inductive exponential_reads : str -> edge -> edge -> Prop :=
| ey_intro a t m e y lo hi : a = "Y"%char \/ a = "y"%char -> exp_text t m e -> wraps (m * 10 ^ e) y -> 1000 <= Z.abs y <= 9999 ->
    year_span y y lo hi -> exponential_reads (a :: t) lo hi.
(** What stands before the S, and its year. *)
Inductive before_year : str -> Z -> Prop :=
| by_year t y : year4 t y -> before_year t y
| by_letter (neg : bool) ds m : dec_digits ds m -> (length (sign neg ++ ds) <= 4)%nat -> before_year ("Y"%char :: sign neg ++ ds) (signed neg m)
| by_exp c t m e y : c = "Y"%char \/ c = "y"%char -> exp_text t m e -> wraps (m * 10 ^ e) y -> y <> 0 -> Z.abs y <= 9999 -> before_year (c :: t) y.
(** The last [v] digits of the year are replaced by 0 or by 9; for negative years the
    larger number is the earlier year.  With a year of three digits and a sign, four
    characters are replaced. *)
Inductive significant_years : Z -> Z -> Z -> Z -> Prop :=
| sy_pos y v : 1000 <= y <= 9999 -> 0 <= v <= 4 -> significant_years y v (y / 10 ^ v * 10 ^ v) (y / 10 ^ v * 10 ^ v + 10 ^ v - 1)
| sy_neg y v : 1000 <= y <= 9999 -> 0 <= v <= 4 -> significant_years (- y) v (- (y / 10 ^ v * 10 ^ v + 10 ^ v - 1)) (- (y / 10 ^ v * 10 ^ v))
| sy_short y : 100 <= y <= 999 -> significant_years (- y) 4 0 9999.
Inductive significant_reads : str -> edge -> edge -> Prop :=
| sg_intro u y nd v l h lo hi : before_year u y -> dec_digits nd v -> significant_years y v l h -> year_span l h lo hi ->
    significant_reads (u ++ $"S" ++ nd) lo hi.
Inductive grouping_reads : str -> edge -> edge -> Prop :=
| gr_intro y n b e j : grouping_of n b e j -> 0 <= y <= 9999 -> j = 0 \/ 999 <= y <= 9998 ->
    grouping_reads (four y ++ $"-" ++ two n) (from_day y b 1) (to_day (y + j) e (month_len (y + j) e)).
(** The first and the last member in the order of the texts. *)
Fixpoint text_le (s t : str) : Prop :=
  match s, t with
  | [], _ => True
  | _ :: _, [] => False
  | a :: s', b :: t' => code a < code b \/ a = b /\ text_le s' t'
  end.
Definition least (ds : list str) (t : str) : Prop := In t ds /\ forall u, In u ds -> text_le t u.
Definition greatest (ds : list str) (t : str) : Prop := In t ds /\ forall u, In u ds -> text_le u t.
(** One piece between two commas.  A piece with no text is taken as a member, which is
    a blank; two dots alone are taken as open to the left. *)
Definition dotless (t : str) : Prop := ~ In ","%char t /\ ~ In "."%char t.
Inductive set_piece : str -> list str -> bool -> bool -> Prop :=
| pc_text t : dotless t -> set_piece t [t] false false
| pc_range a b : dotless a -> dotless b -> a <> [] -> b <> [] -> set_piece (a ++ $".." ++ b) [a; b] false false
| pc_upto b : dotless b -> set_piece ($".." ++ b) [b] true false
| pc_from a : dotless a -> a <> [] -> set_piece (a ++ $"..") [a] false true.
Inductive set_pieces : list str -> list str -> bool -> bool -> Prop :=
| pcs_nil : set_pieces [] [] false false
| pcs_cons x l ds ds' so so' eo eo' : set_piece x ds so eo -> set_pieces l ds' so' eo' ->
    set_pieces (x :: l) (ds ++ ds') (so || so') (eo || eo').
Inductive set_reads : str -> edge -> edge -> Prop :=
| se_intro o l ds so eo c a b lo x x' hi : l <> [] -> set_pieces l ds so eo -> least ds a -> greatest ds b ->
    half_reads a lo x -> half_reads b x' hi ->
    set_reads (o :: joined ($",") l ++ [c]) (if so then Dots else lo) (if eo && negb so then Dots else hi).

(** What feature [f] reads from [s]. *)
Definition span_features : list str :=
  [$"Date"; $"Time Interval"; $"Qualification of a date (complete)"; $"Unspecified digit(s) from the right";
   $"Negative calendar year"; $"Extended Interval (Start)"; $"Extended Interval (End)"; $"Qualification (Group)";
   $"Qualification (Individual)"; $"Unspecified Digit"; $"Interval"].
Inductive reads_as : str -> str -> edge -> edge -> Prop :=
| ra_span f s lo hi : In f span_features -> span_reads s lo hi -> reads_as f s lo hi
| ra_stamp s t : stamp_reads s t -> reads_as ($"Date and Time") s (At t) (At t)
| ra_letter s lo hi : letter_reads s lo hi -> reads_as ($"Letter-prefixed calendar year") s lo hi
| ra_season s lo hi : season_reads s lo hi -> reads_as ($"Seasons") s lo hi
| ra_exponential s lo hi : exponential_reads s lo hi -> reads_as ($"Exponential year") s lo hi
| ra_significant s lo hi : significant_reads s lo hi -> reads_as ($"Significant digits") s lo hi
| ra_grouping s lo hi : grouping_reads s lo hi -> reads_as ($"Sub-year groupings") s lo hi
| ra_set s lo hi : set_reads s lo hi -> reads_as ($"Set representation") s lo hi.
(** The result of a parse. *)
Definition result (e : edtfdate) (lv : Z) (f : str) (lo hi : edge) : Prop :=
  e_level e = lv /\ e_feature e = f /\ shows (r_lower (e_start e)) lo /\ shows (r_upper (e_end e)) hi.
