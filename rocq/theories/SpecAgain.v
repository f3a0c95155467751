(** Specification: the texts that a result gives for its own bounds. *)
From Coq Require Import Ascii String ZArith NArith Bool List.
From Verif Require Import GoStr SpecCal Edtf.
Import ListNotations.
Open Scope Z_scope.

(** The calendar day of a bound, written as a complete date. *)
Definition day_of (b : date) (t : str) : Prop := exists y m d, d_timestamp b <> None /\ d_ymd b = Some (mkYMD y m d) /\ t = day_text y m d.
(** A bound as it would be written on the left of an interval. *)
Inductive left_of (b : date) : str -> Prop :=
| lf_day t : day_of b t -> left_of b t
| lf_open : d_open b = true -> left_of b ($"..")
| lf_unknown : d_unknown b = true -> left_of b [].
(** The years that have four digits. *)
Definition four_digit_time (t : Z) : Prop := instant (-9999) 1 1 0 0 0 <= t <= instant 9999 12 31 23 59 59.
