(** Specification: text without the characters that HTML gives a meaning to. *)
From Coq Require Import Ascii String ZArith List.
From Verif Require Import GoStr.
Import ListNotations.
Open Scope Z_scope.
(** Not [<], [>] or [&]. *)
Definition html_char (c : ascii) : Prop := code c <> 60 /\ code c <> 62 /\ code c <> 38.
Definition html_safe (t : str) : Prop := Forall html_char t.
