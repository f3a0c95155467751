(** Specification: the string an error carries, and what strings derive from the input. *)
From Coq Require Import Ascii String ZArith Bool List.
From Verif Require Import GoStr Edtf SpecCal SpecText SpecGrammar SpecForms.
Import ListNotations.
Open Scope Z_scope.

(** The input named by an error of one of the package's four kinds. *)
Definition named (e : err) : option str :=
  match e with
  | ENotImplemented _ x | EInvalid _ x | EUnsupported _ x | EUnrecognized _ x => Some x
  | _ => None
  end.
(** A month, with or without a day, after a year. *)
Inductive month_day : str -> Prop :=
| md_month m : 1 <= m <= 12 -> month_day ("-"%char :: two m)
| md_day m d : 1 <= m <= 12 -> 1 <= d <= 31 -> month_day ("-"%char :: two m ++ "-"%char :: two d).
(** [derived s x]: [x] is a part of [s]; or, where the library rewrites [s], one
    end of the rewritten dates: a date in the year of [s] or in the year after
    it, an exponential year in full, or a year with its last digits replaced.
    [dv_overflow] is for notations outside the range of a 64 bit integer. *)
Inductive derived (s : str) : str -> Prop :=
| dv_part x : occurs x s -> derived s x
| dv_year t y r z x md : year4 t y -> s = t ++ r \/ s = r ++ t -> z = y \/ z = y + 1 ->
    integer_text x z -> month_day md -> derived s (x ++ md)
| dv_exponential c t m e x : s = c :: t -> exp_text t m e -> canonical_text x (m * 10 ^ e) -> derived s x
| dv_significant u y nd n x z : s = u ++ "S"%char :: nd -> before_s u y -> dec_digits nd n ->
    integer_text x z -> Z.abs z / 10 ^ n = Z.abs y / 10 ^ n -> derived s x
| dv_overflow c t r m e x z : s = c :: t ++ r -> exp_text t m e -> m = 0 \/ 2 ^ 63 <= Z.abs (m * 10 ^ e) ->
    integer_text x z -> derived s x.
