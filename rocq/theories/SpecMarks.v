(** Specification: dates without their marks of uncertainty and approximation, and the
    halves of intervals. *)
From Coq Require Import Ascii String ZArith NArith Bool List.
From Verif Require Import GoStr SpecCal SpecText SpecGrammar SpecForms SpecSpan SpecSame Edtf.
Import ListNotations.
Open Scope Z_scope.

Definition is_mark (c : ascii) : bool := Ascii.eqb c "?" || Ascii.eqb c "~" || Ascii.eqb c "%".
(** The text without its marks. *)
Definition bare (s : str) : str := filter (fun c => negb (is_mark c)) s.
(** A complete date with one mark behind it, and its month. *)
Inductive marked_day : str -> str -> Prop :=
| md_intro t y m d q : year4 t y -> 1 <= m <= 12 -> 1 <= d <= 31 -> a_mark q ->
    marked_day (t ++ $"-" ++ two m ++ $"-" ++ two d ++ [q]) (t ++ $"-" ++ two m).

(** ** The halves of an interval *)
Definition range_text (r : daterange) (t : str) : Prop := r_edtf r = t.
(** The range runs from the first bound of a date to its last bound. *)
Definition covers (r : daterange) (e : edtfdate) : Prop := r_lower r = r_lower (e_start e) /\ r_upper r = r_upper (e_end e).
