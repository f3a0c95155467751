(** Specification: the dates at the two ends of what a mask stands for. *)
From Coq Require Import Ascii String ZArith NArith Bool List.
From Verif Require Import GoStr SpecCal SpecText SpecGrammar SpecForms SpecMask Edtf.
Import ListNotations.
Open Scope Z_scope.

(** The month is given and the day has a digit and an X: 1985-04-1X. *)
Definition day_half_x (s : str) : Prop := exists t y n a b, year4 t y /\ 1 <= n <= 12 /\
  s = t ++ $"-" ++ two n ++ $"-" ++ [a; b] /\ (is_digit a = true /\ b = "X"%char \/ a = "X"%char /\ is_digit b = true).
(** [s] stands for at least one date, and the bounds of [e] are those of dates that
    [s] stands for. *)
Definition ends_reached (s : str) (e : edtfdate) : Prop :=
  (exists y m d, stands_for s y m d /\ Lower e = OK (first_instant y m d)) /\
  (exists y m d, stands_for s y m d /\ Upper e = OK (last_instant y m d)).
