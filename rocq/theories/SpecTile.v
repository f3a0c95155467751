(** Specification: the days that a text names, for the forms of every level that name
    one run of days, and texts that follow each other without a gap. *)
From Coq Require Import Ascii String ZArith NArith Bool List.
From Verif Require Import GoStr SpecCal SpecText SpecGrammar SpecForms SpecSpan SpecInner SpecPeriod Edtf Common Parser.
Import ListNotations.
Open Scope Z_scope.

(** [days s y m d y' m' d']: the text names the days from the first to the second. *)
Inductive days : str -> Z -> Z -> Z -> Z -> Z -> Z -> Prop :=
(* level 0: a day, a month, a year; two of them with a slash *)
| dy_date s y m d : level0_date s y m d -> exists_date y m d ->
    days s y (first_month m) (first_day d) y (last_month m) (last_day y (last_month m) d)
| dy_interval a y m d b y' m' d' : level0_date a y m d -> exists_date y m d -> level0_date b y' m' d' -> exists_date y' m' d' ->
    days (a ++ "/"%char :: b) y (first_month m) (first_day d) y' (last_month m') (last_day y' (last_month m') d')
(* seasons, by code and by name *)
| dy_season n w b e j y : season_of n w b e j -> rendered y -> rendered (y + j) ->
    days (year_text y ++ $"-" ++ two n) y b 1 (y + j) e (month_len (y + j) e)
| dy_words n w v sp sp' b e j y : season_of n w b e j -> any_case w v -> spaces sp -> spaces sp' -> 0 <= y <= 9999 -> y + j <= 9999 ->
    days (v ++ sp ++ $"," ++ sp' ++ four y) y b 1 (y + j) e (month_len (y + j) e)
(* seasons of a hemisphere, quarters, thirds and halves of a year *)
| dy_grouping n b e j y : grouping_of n b e j -> 0 <= y <= 9999 -> j = 0 \/ 999 <= y <= 9998 ->
    days (four y ++ $"-" ++ two n) y b 1 (y + j) e (month_len (y + j) e)
(* decades, centuries, millennia; a year and a month with days left out *)
| dy_decade k : 0 <= k <= 999 -> days (three k ++ $"X") (10 * k) 1 1 (10 * k + 9) 12 31
| dy_century k : 0 <= k <= 99 -> days (two k ++ $"XX") (100 * k) 1 1 (100 * k + 99) 12 31
| dy_millennium k : 0 <= k <= 9 -> days (digit_char k :: $"XXX") (1000 * k) 1 1 (1000 * k + 999) 12 31
| dy_year_x y : 0 <= y <= 9999 -> days (four y ++ $"-XX") y 1 1 y 12 31
| dy_year_xx y : 0 <= y <= 9999 -> days (four y ++ $"-XX-XX") y 1 1 y 12 31
| dy_month_x y m : 0 <= y <= 9999 -> 1 <= m <= 12 -> days (four y ++ $"-" ++ two m ++ $"-XX") y m 1 y m (month_len y m)
(* years with a letter, in exponential notation, and with a mark *)
| dy_letter t y : year4 t y -> days ($"Y" ++ t) y 1 1 y 12 31
| dy_power a t n e : a = "Y"%char \/ a = "y"%char -> exp_text t n e -> 1000 <= Z.abs (n * 10 ^ e) <= 9999 ->
    days (a :: t) (n * 10 ^ e) 1 1 (n * 10 ^ e) 12 31
| dy_marked t q y : year4 t y -> a_mark q -> days (t ++ [q]) y 1 1 y 12 31
(* the years that agree with a year but for the last digits *)
| dy_significant u n nd v lo hi : before_s u n -> dec_digits nd v -> 1000 <= Z.abs n -> v <= 4 ->
    (forall z, lo <= z <= hi <-> 0 <= n * z /\ Z.abs z / 10 ^ v = Z.abs n / 10 ^ v) ->
    days (u ++ "S"%char :: nd) lo 1 1 hi 12 31
(* marks on the components *)
| dy_group x : q_ok x -> inner_mark x ->
    days (group_text x) (q_year x) (first_month (q_month x)) (first_day (q_day x))
      (q_year x) (last_month (q_month x)) (last_day (q_year x) (last_month (q_month x)) (q_day x))
| dy_individual x : q_ok x -> q_marks x <> (None, None, None) ->
    days (individual_text x) (q_year x) (first_month (q_month x)) (first_day (q_day x))
      (q_year x) (last_month (q_month x)) (last_day (q_year x) (last_month (q_month x)) (q_day x)).

(** One text ends in the second before the other begins. *)
Definition follows (b a : str) : Prop :=
  exists A B up lo, ParseString a = OK A /\ ParseString b = OK B /\ Upper A = OK up /\ Lower B = OK lo /\ lo = up + 1.
(** The texts begin, or end, in the same second. *)
Definition begin_alike (a b : str) : Prop := exists A B t, ParseString a = OK A /\ ParseString b = OK B /\ Lower A = OK t /\ Lower B = OK t.
Definition end_alike (a b : str) : Prop := exists A B t, ParseString a = OK A /\ ParseString b = OK B /\ Upper A = OK t /\ Upper B = OK t.
(** The parts follow each other and fill the whole: the first begins where the whole
    does, each of the others follows the one before, and the last ends where the whole
    does. *)
Fixpoint fill (parts : list str) (whole : str) : Prop :=
  match parts with
  | [] => False
  | [a] => end_alike a whole
  | a :: (b :: _) as rest => follows b a /\ fill rest whole
  end.
Definition parts_of_whole (parts : list str) (whole : str) : Prop :=
  match parts with [] => False | a :: _ => begin_alike a whole /\ fill parts whole end.
(** [f n], [f (n + 1)], ..., [c] of them. *)
Fixpoint run_of (f : Z -> str) (n : Z) (c : nat) : list str :=
  match c with O => [] | S k => f n :: run_of f (n + 1) k end.
(** A code or a month of a year, a day of a month. *)
Definition coded (y n : Z) : str := four y ++ $"-" ++ two n.
Definition dayed (y m d : Z) : str := four y ++ $"-" ++ two m ++ $"-" ++ two d.
(** A decade, a century, a millennium. *)
Definition decade (k : Z) : str := three k ++ $"X".
Definition century (k : Z) : str := two k ++ $"XX".
Definition millennium (k : Z) : str := digit_char k :: $"XXX".
(** The season after a season: [s] years on, the code is [n']. *)
Inductive next_season : Z -> Z -> Z -> Prop :=
| ns_21 : next_season 21 0 22 | ns_22 : next_season 22 0 23 | ns_23 : next_season 23 0 24 | ns_24 : next_season 24 1 21
| ns_25 : next_season 25 0 26 | ns_26 : next_season 26 0 27 | ns_27 : next_season 27 0 28 | ns_28 : next_season 28 1 25
| ns_29 : next_season 29 0 30 | ns_30 : next_season 30 1 31 | ns_31 : next_season 31 0 32 | ns_32 : next_season 32 0 29.
