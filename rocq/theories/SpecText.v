(** Specification: decimal integers as text, independent of the model's strconv. *)
From Coq Require Import Ascii String ZArith Bool List.
From Verif Require Import GoStr SpecCal.
Import ListNotations.
Open Scope Z_scope.

(** [dec_digits s v]: [s] is a non-empty digit string with value [v]. *)
Inductive dec_digits : str -> Z -> Prop :=
| dd_one n : 0 <= n <= 9 -> dec_digits [digit_char n] n
| dd_snoc s v n : dec_digits s v -> 0 <= n <= 9 -> dec_digits (s ++ [digit_char n]) (10 * v + n).

(** An optionally signed integer. *)
Inductive integer_text : str -> Z -> Prop :=
| it_plain s v : dec_digits s v -> integer_text s v
| it_plus s v : dec_digits s v -> integer_text ("+"%char :: s) v
| it_minus s v : dec_digits s v -> integer_text ("-"%char :: s) (- v).

(** The canonical decimal text: no sign on non-negative numbers, no leading zero. *)
Definition canonical_text (s : str) (v : Z) : Prop :=
  (0 <= v /\ dec_digits s v /\ (exists c t, s = c :: t /\ (c = "0"%char -> t = []))) \/
  (v < 0 /\ exists t, s = "-"%char :: t /\ dec_digits t (- v) /\ (exists c u, t = c :: u /\ c <> "0"%char)).

(** A year of up to five digits, padded to four. *)
Definition five (n : Z) : str := digit_char (n / 10000) :: four (n mod 10000).
Definition wide_year_text (y : Z) : str :=
  if (-9999 <=? y) && (y <=? 9999) then year_text y
  else if y <? 0 then "-"%char :: five (- y) else five y.
(** RFC 3339 in UTC, years -99999 .. 99999. *)
Definition wide_utc_text (y m d hh mi ss : Z) : str :=
  wide_year_text y ++ $"-" ++ two m ++ $"-" ++ two d ++ $"T" ++ clock_text hh mi ss ++ $"Z".

(** Pieces joined by a separator. *)
Fixpoint joined (sep : str) (l : list str) : str :=
  match l with
  | [] => []
  | [x] => x
  | x :: l' => x ++ sep ++ joined sep l'
  end.
(** [sep] occurs in [s]. *)
Definition occurs (sep s : str) : Prop := exists a b, s = a ++ sep ++ b.

(** The number of characters of a year of up to four digits written without padding. *)
Definition year_width (y : Z) : Z :=
  (if y <? 0 then 1 else 0) + (if Z.abs y <? 10 then 1 else if Z.abs y <? 100 then 2 else if Z.abs y <? 1000 then 3 else 4).

(** Texts of ASCII bytes and the two-byte character U+017F (long s): valid UTF-8. *)
Inductive latin_text : str -> Prop :=
| lt_nil : latin_text []
| lt_ascii c s : code c < 128 -> latin_text s -> latin_text (c :: s)
| lt_long_s s : latin_text s -> latin_text (chr 197 :: chr 191 :: s).
