(** Specification: texts in quotes, with escapes. *)
From Coq Require Import Ascii String ZArith NArith Bool List.
From Verif Require Import GoStr SpecText SpecJsonText SpecUnmarshal.
Import ListNotations.
Open Scope Z_scope.

Inductive small_hex (c : ascii) : Z -> Prop :=
| sh_digit : 48 <= code c <= 57 -> small_hex c (code c - 48)
| sh_letter : 97 <= code c <= 102 -> small_hex c (code c - 87).
(** Hexadecimal digits in small letters. *)
Inductive hex_text : str -> Z -> Prop :=
| hx_none : hex_text [] 0
| hx_next t z c d : hex_text t z -> small_hex c d -> hex_text (t ++ [c]) (z * 16 + d).
(** Control characters that have a letter. *)
Inductive lettered : Z -> ascii -> Prop :=
| lr_a : lettered 7 "a" | lr_b : lettered 8 "b" | lr_f : lettered 12 "f" | lr_n : lettered 10 "n" | lr_r : lettered 13 "r" | lr_t : lettered 9 "t" | lr_v : lettered 11 "v".
(** A character, its bytes, and how it is written: quotes and backslashes with a backslash
    before them, what can be printed as it is, the rest by letters or numbers. *)
Inductive quoted_char (print : Z -> bool) (z : Z) (x : str) : str -> Prop :=
| qc_mark : z = 34 \/ z = 92 -> quoted_char print z x ("\"%char :: x)
| qc_shown : z <> 34 -> z <> 92 -> print z = true -> quoted_char print z x x
| qc_letter c : print z = false -> lettered z c -> quoted_char print z x ["\"%char; c]
| qc_control h : print z = false -> z < 32 \/ z = 127 -> (forall c, ~ lettered z c) -> length h = 2%nat -> hex_text h z -> quoted_char print z x ($"\x" ++ h)
| qc_short h : print z = false -> z <> 34 -> z <> 92 -> 32 <= z < 65536 -> z <> 127 -> length h = 4%nat -> hex_text h z -> quoted_char print z x ($"\u" ++ h)
| qc_long h : print z = false -> 65536 <= z -> length h = 8%nat -> hex_text h z -> quoted_char print z x ($"\U" ++ h).
(** Bytes that begin no character are written as numbers. *)
Inductive quoted_text (print : Z -> bool) : str -> str -> Prop :=
| qt_none : quoted_text print [] []
| qt_char z x s t u : utf8 z x -> ~ 55296 <= z <= 57343 -> z <= 1114111 -> quoted_char print z x t -> quoted_text print s u -> quoted_text print (x ++ s) (t ++ u)
| qt_byte c s h u : (forall x r, character x -> c :: s <> x ++ r) -> length h = 2%nat -> hex_text h (code c) -> quoted_text print s u -> quoted_text print (c :: s) ($"\x" ++ h ++ u).
(** The table up to U+00FF, for cases. *)
Definition latin_print (z : Z) : bool := (32 <=? z) && (z <=? 126) || (161 <=? z) && (z <=? 255) && negb (z =? 173).
