(** Specification: texts without an apostrophe. *)
From Coq Require Import Ascii String ZArith NArith Bool List.
From Verif Require Import GoStr Common.
Import ListNotations.

Definition quoteless (s : str) : Prop := ~ In "'"%char s.
Definition plain_sd (d : stringdate) : Prop := quoteless (sd_year d) /\ quoteless (sd_month d) /\ quoteless (sd_day d).
