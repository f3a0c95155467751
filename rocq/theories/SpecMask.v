(** Specification: what a date with unspecified digits stands for. *)
From Coq Require Import Ascii String ZArith NArith Bool List.
From Verif Require Import GoStr SpecCal SpecText SpecGrammar SpecForms Edtf.
Import ListNotations.
Open Scope Z_scope.

(** Each X of the first text is replaced by a digit in the second. *)
Inductive fills : str -> str -> Prop :=
| fi_nil : fills [] []
| fi_same c s t : fills s t -> fills (c :: s) (c :: t)
| fi_x c s t : is_digit c = true -> fills s t -> fills ("X"%char :: s) (c :: t).
(** [s] stands for the date y-m-d, among others. *)
Definition stands_for (s : str) (y : Z) (m d : option Z) : Prop :=
  exists t, fills s t /\ level0_date t y m d /\ exists_date y m d.
(** The month is written 0X. *)
Definition month_0x (s : str) : Prop := exists y r, s = y ++ $"-0X" ++ r /\ (length y = 4%nat \/ length y = 5%nat).
(** The days from the first to the last day of y-m-d lie within the bounds of [e]. *)
Definition covers (e : edtfdate) (y : Z) (m d : option Z) : Prop :=
  exists lo hi, Lower e = OK lo /\ Upper e = OK hi /\ lo <= first_instant y m d /\ last_instant y m d <= hi.
