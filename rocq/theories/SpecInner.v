(** Specification: dates with a mark on a component that is not the last. *)
From Coq Require Import ZArith List.
From Verif Require Import SpecSpan.

(** A mark on a component that is not the last. *)
Definition inner_mark (x : qdate) : Prop :=
  match x with qd_y _ _ => False | qd_ym _ p _ _ => p <> None | qd_ymd _ p _ q _ _ => p <> None \/ q <> None end.
