(** Specification: texts in capitals. *)
From Coq Require Import Ascii String ZArith NArith Bool List.
From Verif Require Import GoStr Edtf.
Import ListNotations.
Open Scope Z_scope.

Definition small_letters : str := $"abcdefghijklmnopqrstuvwxyz".
Definition capital_letters : str := $"ABCDEFGHIJKLMNOPQRSTUVWXYZ".
(** A small letter becomes the capital at the same place of the alphabet. *)
Inductive capital : ascii -> ascii -> Prop :=
| cp_letter n c u : nth_error small_letters n = Some c -> nth_error capital_letters n = Some u -> capital c u
| cp_other c : ~ In c small_letters -> capital c c.
Definition in_capitals : str -> str -> Prop := Forall2 capital.
(** Texts that differ in the case of letters only. *)
Definition same_but_case (s s' : str) : Prop := exists u, in_capitals s u /\ in_capitals s' u.
(** The same result for another text. *)
Definition retold (e : edtfdate) (s : str) (e' : edtfdate) : Prop :=
  e_start e' = e_start e /\ e_end e' = e_end e /\ e_level e' = e_level e /\ e_feature e' = e_feature e /\ e_edtf e' = s.
(** The features in which small letters occur. *)
Definition small_features : list str := [$"Seasons"; $"Exponential year"; $"Significant digits"].
