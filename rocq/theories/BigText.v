(** common/exponential.go for any text.  Common.v models ParseExponentialNotation for the
    texts that the parser hands to it (-?\d+[Ee]\d+).  The function is exported, and
    big.ParseFloat takes more: a plus sign, a decimal point, no exponent, a negative
    exponent, a binary exponent after p or P, and the names of the infinities. *)
From Coq Require Import Ascii String ZArith NArith Bool List.
From Verif Require Import GoStr GoBig Edtf Common ErrText.
Import ListNotations.
Open Scope Z_scope.

Definition min_exp : Z := - 2147483648.   (* big.MinExp *)
Definition no_digits : str := $"number has no digits".   (* Go: math/big/natconv.go, errNoDigits *)

(** ** The text *)
(* Go: math/big/intconv.go, scanSign; a text that is at its end is io.EOF *)
Definition scan_sign (s : str) : option (bool * str) :=
  match s with
  | [] => None
  | c :: t => Some (if Ascii.eqb c "-" then (true, t) else if Ascii.eqb c "+" then (false, t) else (false, s))
  end.
(* Go: math/big/natconv.go, nat.scan with base 10 and fracOk: digits, one of the places
   between them may have a point; the digits, the number of them after the point, the rest *)
Definition scan_mantissa (s : str) : str * Z * str :=
  let '(ds, u) := span_digits s [] in
  match u with
  | c :: w => if Ascii.eqb c "." then let '(fs, r) := span_digits w [] in (ds ++ fs, Z.of_nat (length fs), r) else (ds, 0, u)
  | [] => (ds, 0, u)
  end.
(* Go: math/big/ratconv.go, scanExponent with base2ok and without sepOk: a message, or the
   base, the exponent and the rest *)
Definition exponent_base (c : ascii) : option Z :=
  if Ascii.eqb c "e" || Ascii.eqb c "E" then Some 10 else if Ascii.eqb c "p" || Ascii.eqb c "P" then Some 2 else None.
Definition scan_exponent (s : str) : str + Z * Z * str :=
  match s with
  | [] => inr (10, 0, s)
  | c :: w =>
      match exponent_base c with
      | None => inr (10, 0, s)
      | Some b =>
          let '(neg, u) := match scan_sign w with Some p => p | None => (false, w) end in
          let '(es, r) := span_digits u [] in
          match es with
          | [] => inl no_digits
          | _ :: _ =>
              let x := if neg then - nat_val es else nat_val es in
              if (x <? min_int64) || (max_int64 <? x)
              then inl (num_text ($"ParseInt") ((if neg then $"-" else []) ++ es))
              else inr (b, x, r)
          end
      end
  end.

(** ** The value *)
(* Go: math/big/float.go, Float.uquo and setExpAndRound: a zero below MinExp, otherwise
   the quotient to [p] bits; a remainder of the division counts as one more bit *)
Definition bf_quo (p m1 e1 m2 e2 : Z) : bnum :=
  let s := Z.max 0 (p + 2 + bitlen m2 - bitlen m1) in
  let a := m1 * 2 ^ s in
  let q := 2 * (a / m2) + (if a mod m2 =? 0 then 0 else 1) in
  let e := e1 - e2 - s - 1 in
  if bitlen q + e <? min_exp then BZero
  else match bf_make p q e with Some (m, e) => BFin m e | None => BInf end.
Definition finite (v : bfloat) : bnum := match v with Some (m, e) => BFin m e | None => BInf end.
(* Go: math/big/floatconv.go, Float.scan after the exponent; [None] is "exponent overflow".
   The sums are of type int64 there.  They are out of the range of the exponents when they
   wrap, as long as the text has less than 2^60 bytes. *)
Definition float_value (m f b x : Z) : option bnum :=
  if m =? 0 then Some BZero
  else
    let exp2 := bitlen m - f + x in
    let exp5 := if b =? 10 then x - f else - f in
    if (exp2 <? min_exp) || (max_exp <? exp2) then None
    else if exp5 =? 0 then Some (finite (bf_make 64 m (x - f)))
    else if exp5 <? 0 then
      match bf_pow5 (- exp5) with
      | Some (p, q) => Some (bf_quo 64 m (x - f) p q)
      | None => Some BZero   (* Float.Quo by an infinity *)
      end
    else Some (finite (bf_mul 64 (Some (m, x - f)) (bf_pow5 exp5))).

(** The scanned text: an infinity, a message, or the sign and the value. *)
Inductive scanned := SInf | SFault (message : str) | SNum (neg : bool) (v : bnum).
(* fmt: the verb %q for a byte *)
Definition quoted_rune (c : ascii) : str := [chr 39] ++ (if (code c =? 39) || (code c =? 92) then [chr 92; c] else [c]) ++ [chr 39].
(* Go: math/big/floatconv.go, Float.scan *)
Definition float_scan (s : str) : str + bool * bnum * str :=
  match scan_sign s with
  | None => inl ($"EOF")
  | Some (neg, t) =>
      let '(ds, f, u) := scan_mantissa t in
      match ds with
      | [] => inl no_digits
      | _ :: _ =>
          match scan_exponent u with
          | inl message => inl message
          | inr (b, x, r) =>
              match float_value (nat_val ds) f b x with
              | None => inl ($"exponent overflow")
              | Some v => inr (neg, v, r)
              end
          end
      end
  end.
(* Go: math/big/floatconv.go, Float.Parse *)
Definition is_inf (s : str) : bool := seqb s ($"Inf") || seqb s ($"inf").
Definition float_parse (s : str) : scanned :=
  if is_inf s then SInf
  else if match s with c :: t => (Ascii.eqb c "+" || Ascii.eqb c "-") && is_inf t | [] => false end then SInf
  else
    match float_scan s with
    | inl message => SFault message
    | inr (neg, v, []) => SNum neg v
    | inr (_, _, c :: _) => SFault ($"expected end of string, found " ++ quoted_rune c)
    end.
(* Go: math/big/float.go, Float.Int, and int.go, Int.Int64: cut off the fraction, then the
   low 64 bits *)
Definition int64_part (neg : bool) (m e : Z) : Z :=
  if e <? 0 then
    let v := wrap64 (if bitlen m + e <=? 0 then 0 else m / 2 ^ (- e)) in
    if neg then wrap64 (- v) else v
  else int64_of neg m e.

(** ** common/exponential.go:9-26 *)
Definition ParseNotation (notation : str) : res Z :=
  match float_parse notation with
  | SFault _ => Err (EBig notation)   (* :11-15 *)
  | SInf | SNum _ BInf => Panic       (* :18 gives nil, :20 dereferences it *)
  | SNum neg v =>
      let y := match v with BFin m e => int64_part neg m e | _ => 0 end in
      if (MAX_YEARS <? y) || (y <? 0 - MAX_YEARS)
      then Err (Unsupported ($"exponential notation") notation)
      else OK y
  end.
(** The text of the error of big.ParseFloat, if there is one. *)
Definition notation_fault (notation : str) : option str :=
  match float_parse notation with SFault w => Some w | _ => None end.
