(** The part of [math/big] that common/exponential.go uses: decimal
    [big.ParseFloat] with default precision (64 bits), [Float.Int] and
    [Int.Int64].

    A positive finite Float is (m, e) standing for m * 2^e; +Inf is [None]. *)
From Coq Require Import Ascii String ZArith NArith Bool List.
From Verif Require Import GoStr.
Import ListNotations.
Open Scope Z_scope.

Definition bitlen (m : Z) : Z := if m =? 0 then 0 else Z.log2 m + 1.
Definition max_exp : Z := 2147483647.   (* big.MaxExp *)

(** Float.round to [p] bits, to nearest even. *)
Definition bf_round (p : Z) (m e : Z) : Z * Z :=
  let sh := bitlen m - p in
  if sh <=? 0 then (m, e)
  else
    let q := m / 2 ^ sh in
    let r := m mod 2 ^ sh in
    let half := 2 ^ (sh - 1) in
    let q' := if (half <? r) || ((r =? half) && Z.odd q) then q + 1 else q in
    (q', e + sh).

Definition bfloat := option (Z * Z).

(** Float.setExpAndRound: overflow to +Inf above MaxExp. *)
Definition bf_make (p m e : Z) : bfloat :=
  let '(m', e') := bf_round p m e in
  if max_exp <? bitlen m' + e' then None else Some (m', e').

(** Float.Mul for positive operands, result precision [p]. *)
Definition bf_mul (p : Z) (x y : bfloat) : bfloat :=
  match x, y with
  | Some (m1, e1), Some (m2, e2) => bf_make p (m1 * m2) (e1 + e2)
  | _, _ => None
  end.

(** Float.pow5: 5^n, result precision 128, intermediate squares 192 bits. *)
Fixpoint pow5_loop (fuel : nat) (z f : bfloat) (n : Z) : bfloat :=
  match fuel with
  | O => z
  | S k => if n <=? 0 then z
           else pow5_loop k (if Z.odd n then bf_mul 128 z f else z) (bf_mul 192 f f) (n / 2)
  end.
Definition bf_pow5 (n : Z) : bfloat :=
  if n <=? 27 then Some (5 ^ n, 0)
  else pow5_loop 64 (Some (5 ^ 27, 0)) (Some (5, 0)) (n - 27).

(** The three cases of a scanned decimal number. *)
Inductive bnum := BZero | BInf | BFin (m e : Z).

(** Float.scan for an integer mantissa [m >= 0] and exponent [e >= 0]; [None] is
    an error (exponent out of int64 or of the Float exponent range). *)
Definition bf_scan (m e : Z) : option bnum :=
  if max_int64 <? e then None
  else if m =? 0 then Some BZero
  else if max_exp <? bitlen m + e then None
  else
    let r := if e =? 0 then bf_make 64 m 0
             else bf_mul 64 (Some (m, e)) (bf_pow5 e) in
    match r with Some (m', e') => Some (BFin m' e') | None => Some BInf end.

(** Int.Int64 of the integer m * 2^e with sign: low 64 bits, as two's complement. *)
Definition int64_of (neg : bool) (m e : Z) : Z :=
  let v := wrap64 (if e <? 64 then m * 2 ^ e else 0) in
  if neg then wrap64 (- v) else v.

(** Split -?digits[eE]digits. *)
Fixpoint span_digits (s : str) (acc : str) : str * str :=
  match s with
  | c :: t => if is_digit c then span_digits t (c :: acc) else (rev acc, s)
  | [] => (rev acc, [])
  end.
Definition exp_split (s : str) : option (bool * str * str) :=
  let '(neg, t) := match s with
                   | c :: t => if Ascii.eqb c "-" then (true, t) else (false, s)
                   | [] => (false, s)
                   end in
  let '(ds, u) := span_digits t [] in
  match ds, u with
  | _ :: _, c :: w =>
      if Ascii.eqb c "E" || Ascii.eqb c "e" then
        let '(es, r) := span_digits w [] in
        match es, r with _ :: _, [] => Some (neg, ds, es) | _, _ => None end
      else None
  | _, _ => None
  end.

Definition nat_val (s : str) : Z := match dec_val 0 s with Some v => v | None => 0 end.
