(** Specification: what is left of a whole number that is read as a number of 64 bits
    and then cut down to a signed number of 64 bits. *)
From Coq Require Import ZArith.
Open Scope Z_scope.

(** [v] with 64 binary digits, to the nearest, and from the middle to the even one. *)
Inductive kept64 (v : Z) : Z -> Prop :=
| k64_exact : v < 2 ^ 64 -> kept64 v v
| k64_round k q : 0 < k -> 2 ^ (63 + k) <= v < 2 ^ (64 + k) -> 2 * Z.abs (v - q * 2 ^ k) <= 2 ^ k ->
    (2 * Z.abs (v - q * 2 ^ k) = 2 ^ k -> Z.even q = true) -> kept64 v (q * 2 ^ k).
(** [y] is what is left of [n]. *)
Definition wraps (n y : Z) : Prop := exists w, kept64 (Z.abs n) w /\ - 2 ^ 63 <= y < 2 ^ 63 /\ (2 ^ 64 | Z.sgn n * w - y).
