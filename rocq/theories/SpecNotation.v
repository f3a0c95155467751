(** Specification: the texts that big.ParseFloat takes, and their values. *)
From Coq Require Import Ascii String ZArith NArith Bool List.
From Verif Require Import GoStr SpecText SpecForms.
Import ListNotations.
Open Scope Z_scope.

(** A sign that may be missing, or a plus. *)
Inductive any_sign : str -> bool -> Prop :=
| as_none : any_sign [] false
| as_plus : any_sign ($"+") false
| as_minus : any_sign ($"-") true.
(** Digits [m], with [f] of them after a point. *)
Inductive pointed : str -> Z -> Z -> Prop :=
| pt_whole ds m : dec_digits ds m -> pointed ds m 0
| pt_point ds fs m : dec_digits (ds ++ fs) m -> pointed (ds ++ "."%char :: fs) m (Z.of_nat (length fs)).
(** The base and the exponent. *)
Inductive exponent : str -> Z -> Z -> Prop :=
| ex_none : exponent [] 10 0
| ex_decimal c sg (neg : bool) es e : c = "e"%char \/ c = "E"%char -> any_sign sg neg -> dec_digits es e -> exponent (c :: sg ++ es) 10 (signed neg e)
| ex_binary c sg (neg : bool) es e : c = "p"%char \/ c = "P"%char -> any_sign sg neg -> dec_digits es e -> exponent (c :: sg ++ es) 2 (signed neg e).
(** A number: its sign, and m * 10^-f * b^x. *)
Inductive number_text : str -> bool -> Z -> Z -> Z -> Z -> Prop :=
| nt_number sg (neg : bool) ms m f es b x : any_sign sg neg -> pointed ms m f -> exponent es b x -> number_text (sg ++ ms ++ es) neg m f b x.
Definition infinity_text (t : str) : Prop :=
  exists sg, In sg [[]; $"+"; $"-"] /\ (t = sg ++ $"Inf" \/ t = sg ++ $"inf").
(** The exponents have 64 bits; the result has 32 for them. *)
Definition in_scale (m f x : Z) : Prop :=
  - 2 ^ 63 <= x < 2 ^ 63 /\ (m = 0 \/ - 2147483648 <= Z.log2 m + 1 - f + x <= 2147483647).

(** The value is [num m b x / den f b x]. *)
Definition num (m b x : Z) : Z := m * b ^ Z.max x 0.
Definition den (f b x : Z) : Z := 10 ^ f * b ^ Z.max (- x) 0.
(** By how many places the decimal point is moved to the left. *)
Definition places (f b x : Z) : Z := if b =? 10 then f - x else f.
(** [n] is the whole part of the value, and the value is not within one part in 2^62 of a
    whole number; it may be a whole number, or just above one, if the point moves by no
    more than 55 places. *)
Definition whole_part (m f b x n : Z) : Prop :=
  n * den f b x <= num m b x /\
  num m b x * (2 ^ 62 + 1) < (n + 1) * den f b x * 2 ^ 62 /\
  (places f b x <= 55 \/ n * den f b x * (2 ^ 62 + 1) <= num m b x * 2 ^ 62) /\
  (places f b x <= 2 ^ 29 \/ n = 0 /\ places f b x <= 2 ^ 32).
