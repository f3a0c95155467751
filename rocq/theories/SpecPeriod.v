(** Specification: the order of calendar days and of the periods that level 0 dates
    stand for, and the texts DaysInMonthWithString takes. *)
From Coq Require Import Ascii String ZArith Bool List.
From Verif Require Import GoStr SpecCal SpecGrammar.
Import ListNotations.
Open Scope Z_scope.

(** Earlier in the calendar: by year, then month, then day. *)
Definition earlier (y m d y' m' d' : Z) : Prop := y < y' \/ y = y' /\ (m < m' \/ m = m' /\ d < d').
(** The last day of one period is earlier than the first day of another. *)
Definition all_earlier (y : Z) (m d : option Z) (y' : Z) (m' d' : option Z) : Prop :=
  earlier y (last_month m) (last_day y (last_month m) d) y' (first_month m') (first_day d').
(** The same component is written and is the same, or the wider date leaves it out. *)
Definition within (y : Z) (m d : option Z) (y' : Z) (m' d' : option Z) : Prop :=
  y = y' /\ (m' = None \/ m' = m) /\ (d' = None \/ d' = d).
(** The next period of the same kind: day, month or year. *)
Definition next_period (y : Z) (m d : option Z) : Z * option Z * option Z :=
  match m, d with
  | Some m, Some d => let '(y', m', d') := next_day y m d in (y', Some m', Some d')
  | Some m, None => if m =? 12 then (y + 1, Some 1, None) else (y, Some (m + 1), None)
  | None, _ => (y + 1, None, None)
  end.
(** A year text and a month text joined by a hyphen; with two hyphens the year is
    negative, and what precedes the first one is not looked at. *)
Inductive year_and_month : str -> str -> str -> Prop :=
| yam_plain a b : ~ In "-"%char a -> ~ In "-"%char b -> year_and_month (a ++ "-"%char :: b) a b
| yam_minus x a b : ~ In "-"%char x -> ~ In "-"%char a -> ~ In "-"%char b ->
    year_and_month (x ++ "-"%char :: a ++ "-"%char :: b) ("-"%char :: a) b.
