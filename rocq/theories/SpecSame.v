(** Specification: different ways of writing the same time. *)
From Coq Require Import Ascii String ZArith NArith Bool List.
From Verif Require Import GoStr SpecCal SpecText SpecZone SpecGrammar SpecForms SpecSpan SpecSet Edtf CalFacts.
Import ListNotations.
Open Scope Z_scope.

(** The first month of a span of months and the last, as an interval. *)
Definition months_text (y b y' e : Z) : str := four y ++ $"-" ++ two b ++ $"/" ++ four y' ++ $"-" ++ two e.
Definition years_text (y y' : Z) : str := four y ++ $"/" ++ four y'.
(** One date wholly before another. *)
Definition wholly_before (y : Z) (m d : option Z) (y' : Z) (m' d' : option Z) : Prop := last_instant y m d < first_instant y' m' d'.
Definition opening (o : ascii) : Prop := o = "["%char \/ o = "{"%char.
Definition closing (c : ascii) : Prop := c = "]"%char \/ c = "}"%char.

Inductive same_time : str -> str -> Prop :=
(* times of day *)
| sm_instant y m d hh mi ss z off y' m' d' hh' mi' ss' z' off' : 0 <= y <= 9999 -> real_date y m d -> clock hh mi ss -> zone_means z off ->
    0 <= y' <= 9999 -> real_date y' m' d' -> clock hh' mi' ss' -> zone_means z' off' ->
    instant y m d hh mi ss - off = instant y' m' d' hh' mi' ss' - off' ->
    same_time (stamp_text y m d hh mi ss z) (stamp_text y' m' d' hh' mi' ss' z')
(* years *)
| sm_letter t y : year4 t y -> same_time ($"Y" ++ t) t
| sm_exponential a t m e : a = "Y"%char \/ a = "y"%char -> exp_text t m e -> 1000 <= m * 10 ^ e <= 9999 -> same_time (a :: t) (four (m * 10 ^ e))
| sm_decade k : 0 <= k <= 999 -> same_time (three k ++ $"X") (years_text (10 * k) (10 * k + 9))
| sm_century k : 0 <= k <= 99 -> same_time (two k ++ $"XX") (years_text (100 * k) (100 * k + 99))
| sm_millennium k : 0 <= k <= 9 -> same_time (digit_char k :: $"XXX") (years_text (1000 * k) (1000 * k + 999))
| sm_significant y nd v : 1000 <= y <= 9999 -> dec_digits nd v -> v <= 4 ->
    same_time (four y ++ $"S" ++ nd) (years_text (y / 10 ^ v * 10 ^ v) (y / 10 ^ v * 10 ^ v + 10 ^ v - 1))
(* months *)
| sm_any_month y : 0 <= y <= 9999 -> same_time (four y ++ $"-XX") (four y)
| sm_any_day y : 0 <= y <= 9999 -> same_time (four y ++ $"-XX-XX") (four y)
| sm_any_day_of y m : 0 <= y <= 9999 -> 1 <= m <= 12 -> same_time (four y ++ $"-" ++ two m ++ $"-XX") (four y ++ $"-" ++ two m)
| sm_season n w b e j y : season_of n w b e j -> 0 <= y -> y + j <= 9999 -> same_time (four y ++ $"-" ++ two n) (months_text y b (y + j) e)
| sm_words n w v sp sp' b e j y : season_of n w b e j -> any_case w v -> spaces sp -> spaces sp' -> 0 <= y -> y + j <= 9999 ->
    same_time (v ++ sp ++ $"," ++ sp' ++ four y) (four y ++ $"-" ++ two n)
| sm_grouping n b e j y : grouping_of n b e j -> 0 <= y <= 9999 -> j = 0 \/ 999 <= y <= 9998 -> same_time (four y ++ $"-" ++ two n) (months_text y b (y + j) e)
(* sets *)
| sm_one o t y m d c : opening o -> closing c -> plain_date t y m d -> exists_date y m d -> same_time (o :: t ++ [c]) t
| sm_range o a y m d b y' m' d' c : opening o -> closing c -> plain_date a y m d -> exists_date y m d -> plain_date b y' m' d' -> exists_date y' m' d' ->
    wholly_before y m d y' m' d' -> same_time (o :: (a ++ $".." ++ b) ++ [c]) (a ++ $"/" ++ b)
| sm_ends o a y m d b y' m' d' c : opening o -> closing c -> plain_date a y m d -> exists_date y m d -> plain_date b y' m' d' -> exists_date y' m' d' ->
    wholly_before y m d y' m' d' -> same_time (o :: (a ++ $"," ++ b) ++ [c]) (a ++ $"/" ++ b)
| sm_upto o t y m d c : opening o -> closing c -> plain_date t y m d -> exists_date y m d -> same_time (o :: ($".." ++ t) ++ [c]) ($"../" ++ t)
| sm_from o y c : opening o -> closing c -> 0 <= y <= 9999 -> same_time (o :: (four y ++ $"..") ++ [c]) (four y ++ $"/..")
| sm_sym s t : same_time s t -> same_time t s
| sm_trans s t u : same_time s t -> same_time t u -> same_time s u.

(** The outer bounds agree in everything but qualifiers, precision and inclusivity. *)
Definition same_bound (a b : date) : Prop :=
  d_timestamp a = d_timestamp b /\ d_datetime a = d_datetime b /\ d_open a = d_open b /\ d_unknown a = d_unknown b.
Definition same_outer (e e' : edtfdate) : Prop :=
  same_bound (r_lower (e_start e)) (r_lower (e_start e')) /\ same_bound (r_upper (e_end e)) (r_upper (e_end e')).
(** The same value, or the same error but for the texts around it, which name the
    dates. *)
Inductive alike {A} : res A -> res A -> Prop :=
| al_same r : alike r r
| al_texts m m' e e' : alike (Err e) (Err e') -> alike (Err (EWrap m e)) (Err (EWrap m' e')).
