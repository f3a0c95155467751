(** Specification: the written forms of level 1 and level 2, independent of the
    regular expressions of the library. *)
From Coq Require Import Ascii String ZArith NArith Bool List.
From Verif Require Import GoStr SpecCal SpecText SpecGrammar.
Import ListNotations.
Open Scope Z_scope.

(** One text after the other; an optional text. *)
Definition cat (P Q : str -> Prop) (s : str) : Prop := exists u v, P u /\ Q v /\ s = u ++ v.
Definition may (P : str -> Prop) (s : str) : Prop := s = [] \/ P s.
Definition is (t : str) (s : str) : Prop := s = t.
Definition anything (s : str) : Prop := True.
(** A year, optionally with month, optionally with day. *)
Inductive ymd_form (Y M D : str -> Prop) : str -> Prop :=
| yf_y y : Y y -> ymd_form Y M D y
| yf_ym y m : Y y -> M m -> ymd_form Y M D (y ++ "-"%char :: m)
| yf_ymd y m d : Y y -> M m -> D d -> ymd_form Y M D (y ++ "-"%char :: m ++ "-"%char :: d).

Definition mark (s : str) : Prop := s = $"?" \/ s = $"~" \/ s = $"%".
Definition digits_text (s : str) : Prop := s <> [] /\ Forall (fun c => is_digit c = true) s.
Definition minus_text : str -> Prop := may (is ($"-")).
Definition d_or_x (c : ascii) : Prop := is_digit c = true \/ c = "X"%char.
(** n bytes of a kind *)
Definition run_of (n : nat) (P : ascii -> Prop) (s : str) : Prop := length s = n /\ Forall P s.
Definition four_digits : str -> Prop := run_of 4 (fun c => is_digit c = true).
Definition two_digits : str -> Prop := run_of 2 (fun c => is_digit c = true).
Definition four_x : str -> Prop := run_of 4 d_or_x.
Definition two_x : str -> Prop := run_of 2 d_or_x.
(** A number of two digits in which each digit may be replaced by an X. *)
Definition x_for (c : ascii) (n : Z) : Prop := c = digit_char n \/ c = "X"%char.
Definition x_number (P : Z -> Prop) (s : str) : Prop :=
  exists n a b, P n /\ s = [a; b] /\ x_for a (n / 10) /\ x_for b (n mod 10).
Definition x_month : str -> Prop := x_number (fun n => 1 <= n <= 12).
(** The library has no 10 and no 20 here. *)
Definition x_day : str -> Prop := x_number (fun n => 1 <= n <= 31 /\ n <> 10 /\ n <> 20).

(** Level 1 *)
Definition letter_year : str -> Prop := cat (is ($"Y")) (cat minus_text digits_text).
Definition qualified_date : str -> Prop := cat is_level0_date mark.
Definition unspecified_digits : str -> Prop := ymd_form four_x x_month x_day.
Definition extended_start : str -> Prop := cat (may (is ($".."))) (cat (is ($"/")) is_level0_date).
Definition extended_end : str -> Prop := cat is_level0_date (cat (is ($"/")) (may (is ($"..")))).
Definition signed_year (s : str) : Prop := exists y, year4 s y.
Definition minus_year : str -> Prop := cat (is ($"-")) signed_year.
Definition season_number (s : str) : Prop := exists n, (1 <= n <= 12 \/ 21 <= n <= 24) /\ s = two n.
Definition season_date : str -> Prop := cat signed_year (cat (is ($"-")) season_number).
(** A word in any letter case; U+017F is a lower case s to the library. *)
Definition same_letter (c : ascii) (u : str) : Prop :=
  u = [c] \/ (exists d, u = [d] /\ code d = code c - 32) \/ c = "s"%char /\ u = [chr 197; chr 191].
Inductive any_case : str -> str -> Prop :=
| ac_nil : any_case [] []
| ac_cons c w u v : same_letter c u -> any_case w v -> any_case (c :: w) (u ++ v).
Definition season_name (s : str) : Prop :=
  any_case ($"spring") s \/ any_case ($"summer") s \/ any_case ($"fall") s \/ any_case ($"winter") s.
Definition is_space (c : ascii) : Prop := c = " "%char \/ c = chr 9 \/ c = chr 10 \/ c = chr 12 \/ c = chr 13.
Definition spaces (s : str) : Prop := Forall is_space s.
Definition season_words : str -> Prop := cat season_name (cat spaces (cat (is ($",")) (cat spaces four_digits))).

(** Level 2 *)
Definition letter_y (s : str) : Prop := s = $"Y" \/ s = $"y".
Definition letter_e (s : str) : Prop := s = $"E" \/ s = $"e".
Definition exponential_year : str -> Prop := cat letter_y (cat minus_text (cat digits_text (cat letter_e digits_text))).
Definition significant_digits : str -> Prop :=
  cat (fun s => signed_year s \/ letter_year s \/ exponential_year s) (cat (is ($"S")) digits_text).
Definition grouping_number (s : str) : Prop := exists n, (10 <= n <= 12 \/ 21 <= n <= 41) /\ s = two n.
Definition sub_year_grouping : str -> Prop := cat four_digits (cat (is ($"-")) grouping_number).
Definition group_qualified : str -> Prop :=
  ymd_form (cat four_digits (may mark)) (cat two_digits (may mark)) (cat two_digits (may mark)).
Definition individually_qualified : str -> Prop :=
  ymd_form (cat (may mark) four_digits) (cat (may mark) two_digits) (cat (may mark) two_digits).
Definition unspecified_form : str -> Prop := ymd_form four_x two_x two_x.
Definition half_form : str -> Prop :=
  ymd_form (cat (may mark) (cat minus_text four_x)) (cat (may mark) two_x) (cat (may mark) two_x).
Definition interval_form : str -> Prop := cat half_form (cat (is ($"/")) half_form).

(** The seasons: code, word, first and last month, and whether the last month is
    in the following year. *)
Inductive season_of : Z -> str -> Z -> Z -> Z -> Prop :=
| so_spring : season_of 21 ($"spring") 3 5 0
| so_summer : season_of 22 ($"summer") 6 8 0
| so_fall : season_of 23 ($"fall") 9 11 0
| so_winter : season_of 24 ($"winter") 12 2 1.
(** The sub-year groupings: code, first and last month, and whether the last month
    is in the following year.  Northern seasons, southern seasons, quarters,
    quadrimesters, semesters. *)
Inductive grouping_of : Z -> Z -> Z -> Z -> Prop :=
| go_25 : grouping_of 25 3 5 0 | go_26 : grouping_of 26 6 8 0 | go_27 : grouping_of 27 9 11 0 | go_28 : grouping_of 28 12 2 1
| go_29 : grouping_of 29 9 11 0 | go_30 : grouping_of 30 12 2 1 | go_31 : grouping_of 31 3 5 0 | go_32 : grouping_of 32 6 8 0
| go_33 : grouping_of 33 1 3 0 | go_34 : grouping_of 34 4 6 0 | go_35 : grouping_of 35 7 9 0 | go_36 : grouping_of 36 10 12 0
| go_37 : grouping_of 37 1 4 0 | go_38 : grouping_of 38 5 8 0 | go_39 : grouping_of 39 9 12 0
| go_40 : grouping_of 40 1 6 0 | go_41 : grouping_of 41 7 12 0.

(** Years that %04d renders as four digits with an optional sign. *)
Definition rendered (y : Z) : Prop := 0 <= y <= 9999 \/ -9999 <= y <= -1000.
(** Three digits. *)
Definition three (k : Z) : str := [digit_char (k / 100); digit_char (k / 10 mod 10); digit_char (k mod 10)].

(** The levels *)
Definition level0_form (s : str) : Prop :=
  is_level0_date s \/ datetime_text s \/ exists a b, is_level0_date a /\ is_level0_date b /\ s = a ++ "/"%char :: b.
Definition level1_form (s : str) : Prop :=
  letter_year s \/ season_date s \/ season_words s \/ qualified_date s \/ unspecified_digits s \/ extended_start s \/ extended_end s \/ minus_year s.
Definition is_set (s : str) : Prop := exists o body, set_string s o body.
Definition level2_exact (s : str) : Prop :=
  exponential_year s \/ significant_digits s \/ sub_year_grouping s \/ is_set s \/ group_qualified s \/
  individually_qualified s \/ unspecified_form s \/ interval_form s.
(** The library's level 2 test folds the letter case of Y, E, S and X; U+017F is a
    letter s to it. *)
Definition upx (c : ascii) : ascii := if Ascii.eqb c "x" then "X"%char else c.
Definition letter_s (s : str) : Prop := s = $"S" \/ s = $"s" \/ s = [chr 197; chr 191].
Definition significant_any_case : str -> Prop :=
  cat (fun s => signed_year s \/ cat letter_y (cat minus_text digits_text) s \/ exponential_year s) (cat letter_s digits_text).
Definition level2_form (s : str) : Prop :=
  exponential_year s \/ significant_any_case s \/ sub_year_grouping s \/ is_set s \/ group_qualified s \/
  individually_qualified s \/ unspecified_form (map upx s) \/ interval_form (map upx s).

(** The sign of a written number. *)
Definition sign (neg : bool) : str := if neg then $"-" else [].
Definition signed (neg : bool) (v : Z) : Z := if neg then - v else v.
(** An exponential notation: mantissa, letter E of either case, exponent. *)
Inductive exp_text : str -> Z -> Z -> Prop :=
| exp_of (neg : bool) ds c es m e : dec_digits ds m -> c = "E"%char \/ c = "e"%char -> dec_digits es e ->
    exp_text (sign neg ++ ds ++ c :: es) (signed neg m) e.
(** What may precede the S of significant digits, and its year. *)
Inductive before_s : str -> Z -> Prop :=
| sy_year t y : year4 t y -> before_s t y
| sy_letter (neg : bool) ds m : dec_digits ds m -> (length (sign neg ++ ds) <= 4)%nat -> before_s ("Y"%char :: sign neg ++ ds) (signed neg m)
| sy_exp c t m e : c = "Y"%char \/ c = "y"%char -> exp_text t m e -> m <> 0 -> Z.abs (m * 10 ^ e) <= 9999 -> before_s (c :: t) (m * 10 ^ e).
