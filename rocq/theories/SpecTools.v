(** Specification: what the test checker asks of a bound, and the line the matches
    tool writes. *)
From Coq Require Import Ascii String ZArith NArith Bool List.
From Verif Require Import GoStr Edtf Support SpecCal SpecText.
Import ListNotations.
Open Scope Z_scope.

(** No flags are expected, or one of them is set. *)
Definition asks_flags (w f : N) : Prop := w = 0%N \/ exists i, N.testbit f i = true /\ N.testbit w i = true.
Definition meets (b : date) (x : expected) : Prop :=
  (x_rfc3339 x = [] \/ d_datetime b = x_rfc3339 x) /\ (x_unix x = 0 \/ d_timestamp b = Some (x_unix x)) /\
  asks_flags (x_precision x) (d_precision b) /\ asks_flags (x_uncertain x) (d_uncertain b) /\
  asks_flags (x_approximate x) (d_approximate b) /\ d_open b = x_open x /\ d_unknown b = x_unknown x /\
  asks_flags (x_inclusivity x) (d_inclusivity b).
(** What one would expect: every expected flag is set. *)
Definition has_flags (w f : N) : Prop := forall i, N.testbit w i = true -> N.testbit f i = true.

(** The string, its level in decimal (one digit) and its feature. *)
Definition match_line (s : str) (level : Z) (feature : str) : str :=
  s ++ $" level " ++ [digit_char level] ++ $" (" ++ feature ++ $")" ++ [chr 10].
