(** Specification: the bytes of which accepted strings are made. *)
From Coq Require Import Ascii String ZArith NArith Bool List.
From Verif Require Import GoStr SpecText SpecForms.
Import ListNotations.
Open Scope Z_scope.

(** Digits, the letters T, Z, X, x, Y, y, E, e and S, and thirteen signs. *)
Definition plain_byte (c : ascii) : Prop := is_digit c = true \/ In c ($"TZXxYyEeS-+:/.,?~%[]{}").
Definition plain_text (s : str) : Prop := Forall plain_byte s.
(** What has a meaning in a quoted string, in a markup, in a shell or in a query. *)
Definition marked_up (c : ascii) : Prop := In c ([chr 34; chr 39; chr 92; chr 96] ++ $"<>&;|$()*#!=_@^").
(** A byte that is no character of its own in a line of text. *)
Definition control (c : ascii) : Prop := code c < 32 \/ code c = 127.
