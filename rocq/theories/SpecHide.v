(** Specification: digits replaced by X. *)
From Coq Require Import Ascii String ZArith NArith Bool List.
From Verif Require Import GoStr SpecText SpecGrammar SpecForms SpecSpan SpecReads.
Import ListNotations.
Open Scope Z_scope.

(** Some digits of the first text are an X in the second. *)
Definition hide (a b : ascii) : Prop := b = a \/ is_digit a = true /\ b = "X"%char.
Definition hides : str -> str -> Prop := Forall2 hide.
(** A text without its marks. *)
Definition is_mark (c : ascii) : bool := Ascii.eqb c "?" || Ascii.eqb c "~" || Ascii.eqb c "%".
Definition unmarked (s : str) : str := filter (fun c => negb (is_mark c)) s.
(** The second digit of a month 01 to 09 is among those replaced, and not the first. *)
Definition hides_month (s s' : str) : Prop := exists a b a' b' c, length a = length a' /\ is_digit c = true /\
  unmarked s = a ++ $"-0" ++ c :: b /\ unmarked s' = a' ++ $"-0X" ++ b'.
(** The code of a season or grouping that ends in the year in which it begins. *)
Inductive code_in_year : Z -> Prop :=
| cy_season n w b e : season_of n w b e 0 -> code_in_year n
| cy_grouping n b e : grouping_of n b e 0 -> code_in_year n.
