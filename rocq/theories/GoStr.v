(** Go byte strings, results, and the parts of [strings], [strconv], [sort] and
    [fmt.Sprintf] that go-edtf uses.

    A Go string is an arbitrary byte sequence; here it is [list ascii], so a
    quantifier over [str] ranges over exactly all Go strings. *)
From Coq Require Import Ascii String ZArith NArith Bool List.
Import ListNotations.
Open Scope Z_scope.

Definition str := list ascii.

(** String literals: [$"1985"]. *)
Definition lit (s : string) : str := list_ascii_of_string s.
Notation "$ s" := (lit s%string) (at level 1, s at level 0, format "$ s").

(** Bytes as numbers. *)
Definition code (c : ascii) : Z := Z.of_N (N_of_ascii c).
Definition chr (z : Z) : ascii := ascii_of_N (Z.to_N z).

(** Errors.  [ENotSet] .. [EUnrecognized] are the five error types of
    errors.go:7-130, with their (label, string) payloads.  The remaining
    constructors stand for errors of other origin: strconv ([ENum] from
    Atoi and [EInt] from ParseInt, with the offending text), time.Parse ([ETime], layout and value), math/big ([EBig]),
    errors.New / fmt.Errorf without %w ([EText], with the text; in Json.v,
    JsonText.v and Support.v only its constant prefix) and fmt.Errorf("..., %w")
    ([EWrap]).  The texts of all of them are in ErrText.v. *)
Inductive err : Type :=
| ENotSet
| ENotImplemented (label edtf_str : str)
| EInvalid (label edtf_str : str)
| EUnsupported (label edtf_str : str)
| EUnrecognized (label edtf_str : str)
| ENum (text : str)
| EInt (text : str)
| ETime (layout value : str)
| EBig (text : str)
| EText (msg : str)
| EWrap (msg : str) (inner : err).

(** Outcome of a Go call: a value, an error value, or a run-time panic. *)
Inductive res (A : Type) : Type :=
| OK (a : A)
| Err (e : err)
| Panic.
Arguments OK {A} a.
Arguments Err {A} e.
Arguments Panic {A}.

Definition bind {A B} (x : res A) (f : A -> res B) : res B :=
  match x with OK a => f a | Err e => Err e | Panic => Panic end.
Notation "'let*' x ':=' e 'in' k" := (bind e (fun x => k))
  (at level 200, x pattern, e at level 100, k at level 200, right associativity).

(** 64 bit two's complement wrap-around of Go [int] / [int64]. *)
Definition two64 : Z := 18446744073709551616.
Definition two63 : Z := 9223372036854775808.
Definition wrap64 (z : Z) : Z := (z + two63) mod two64 - two63.
Definition max_int64 : Z := 9223372036854775807.
Definition min_int64 : Z := -9223372036854775808.

(** Go string equality. *)
Fixpoint seqb (a b : str) : bool :=
  match a, b with
  | [], [] => true
  | x :: a', y :: b' => Ascii.eqb x y && seqb a' b'
  | _, _ => false
  end.

(** strings.HasPrefix, strings.HasSuffix *)
Fixpoint has_prefix (s p : str) : bool :=
  match p, s with
  | [], _ => true
  | c :: p', d :: s' => Ascii.eqb c d && has_prefix s' p'
  | _ :: _, [] => false
  end.
Definition has_suffix (s p : str) : bool := has_prefix (rev s) (rev p).

(** strings.Split(s, sep) for a non-empty separator: cut at every
    non-overlapping occurrence, left to right.  [skip] counts the remaining
    bytes of a separator being skipped, [cur] is the current piece reversed. *)
Fixpoint split_aux (sep : str) (s : str) (cur : str) (skip : nat) : list str :=
  match s with
  | [] => [rev cur]
  | c :: s' =>
      match skip with
      | S k => split_aux sep s' cur k
      | O => if has_prefix s sep
             then rev cur :: split_aux sep s' [] (pred (length sep))
             else split_aux sep s' (c :: cur) 0
      end
  end.
Definition split (s sep : str) : list str := split_aux sep s [] 0.

(** strings.Trim(s, cutset) for a one-byte cutset. *)
Fixpoint trim_left (c : ascii) (s : str) : str :=
  match s with
  | d :: s' => if Ascii.eqb c d then trim_left c s' else s
  | [] => []
  end.
Definition trim (c : ascii) (s : str) : str := rev (trim_left c (rev (trim_left c s))).

(** strings.ToUpper, for the strings it is applied to (season words): ASCII
    letters are mapped, the two-byte rune U+017F (bytes C5 BF) becomes 'S', all
    other bytes are kept.  (Other non-ASCII letters, which Go would also map,
    cannot occur: level1/season.go:61 applies it to a regexp capture only.) *)
Definition upper_byte (c : ascii) : ascii :=
  if (97 <=? code c) && (code c <=? 122) then chr (code c - 32) else c.
Fixpoint to_upper (s : str) : str :=
  match s with
  | a :: ((b :: s') as t) =>
      if (code a =? 197) && (code b =? 191) then "S"%char :: to_upper s'
      else upper_byte a :: to_upper t
  | [a] => [upper_byte a]
  | [] => []
  end.

(** strings.Repeat *)
Fixpoint repeat_str (s : str) (n : nat) : str :=
  match n with O => [] | S k => s ++ repeat_str s k end.

(** Byte-wise string order used by sort.Strings. *)
Fixpoint str_leb (a b : str) : bool :=
  match a, b with
  | [], _ => true
  | _ :: _, [] => false
  | x :: a', y :: b' =>
      if code x <? code y then true
      else if code x =? code y then str_leb a' b' else false
  end.
Fixpoint insert_str (x : str) (l : list str) : list str :=
  match l with
  | [] => [x]
  | y :: l' => if str_leb x y then x :: l else y :: insert_str x l'
  end.
(** sort.Strings.  Insertion sort: the order is total and equal keys are
    identical strings, so every correct sorting algorithm (Go uses pattern
    defeating quicksort) returns the same list. *)
Fixpoint sort_strs (l : list str) : list str :=
  match l with [] => [] | x :: l' => insert_str x (sort_strs l') end.

(** ** Numbers *)

Definition is_digit (c : ascii) : bool := (48 <=? code c) && (code c <=? 57).
Definition digit_val (c : ascii) : Z := code c - 48.

Fixpoint dec_val (acc : Z) (s : str) : option Z :=
  match s with
  | [] => Some acc
  | c :: s' => if is_digit c then dec_val (acc * 10 + digit_val c) s' else None
  end.

(** strconv.Atoi on a 64 bit platform: optional sign, at least one digit, only
    digits, in range. *)
Definition atoi (s : str) : res Z :=
  let '(neg, t) :=
    match s with
    | c :: t => if Ascii.eqb c "-" then (true, t)
                else if Ascii.eqb c "+" then (false, t) else (false, s)
    | [] => (false, s)
    end in
  match t with
  | [] => Err (ENum s)
  | _ => match dec_val 0 t with
         | None => Err (ENum s)
         | Some v =>
             let v := if neg then - v else v in
             if (min_int64 <=? v) && (v <=? max_int64) then OK v else Err (ENum s)
         end
  end.

(** strconv.ParseInt(s, 10, 64): the same numbers, but the error names ParseInt.
    With bit size 32 it is used on one byte only (common/range.go:284-329), where
    the range is no concern. *)
Definition parse_int (s : str) : res Z :=
  match atoi s with
  | Err _ => Err (EInt s)
  | r => r
  end.

(** strconv.Itoa / strconv.FormatInt(n, 10) *)
Fixpoint digits_aux (fuel : nat) (n : Z) (acc : str) : str :=
  match fuel with
  | O => acc
  | S k => let acc' := chr (48 + n mod 10) :: acc in
           if n <? 10 then acc' else digits_aux k (n / 10) acc'
  end.
Definition digits (n : Z) : str := digits_aux (S (Z.to_nat (Z.log2 n))) n [].
Definition itoa (n : Z) : str := if n <? 0 then "-"%char :: digits (- n) else digits n.

(** fmt.Sprintf("%0wd", n): zero padded to total width w, the sign included in
    the width (fmt's fmtInteger lowers the digit count by one for a sign). *)
Definition zeros (n : nat) : str := repeat "0"%char n.
Definition pad0 (w : nat) (s : str) : str := zeros (w - length s) ++ s.
Definition fmt_0d (w : nat) (n : Z) : str :=
  if n <? 0 then "-"%char :: pad0 (pred w) (digits (- n)) else pad0 w (digits n).

(** time's appendInt(n, width): sign, then at least [width] digits. *)
Definition append_int (w : nat) (n : Z) : str :=
  if n <? 0 then "-"%char :: pad0 w (digits (- n)) else pad0 w (digits n).
