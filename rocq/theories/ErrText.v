(** The texts of errors: what their Error() methods return. *)
From Coq Require Import Ascii String ZArith NArith Bool List.
From Verif Require Import GoStr GoTime GoBig.
Import ListNotations.
Open Scope Z_scope.

(** strconv.Quote and time.quote.  Only printable ASCII is modelled: other bytes would
    be written as escapes, but the texts that are quoted here are parts of dates. *)
Definition quote_byte (c : ascii) : str :=
  if (code c =? 34) || (code c =? 92) then [chr 92; c] else [c].
Definition quote (s : str) : str := [chr 34] ++ flat_map quote_byte s ++ [chr 34].

(** strconv.NumError.Error (Go: strconv/atoi.go) for the functions Atoi and ParseInt. *)
Definition all_digits (s : str) : bool :=
  match s with [] => false | _ => forallb is_digit s end.
Definition unsigned (s : str) : str :=
  match s with
  | c :: t => if Ascii.eqb c "-" || Ascii.eqb c "+" then t else s
  | [] => []
  end.
Definition num_text (func s : str) : str :=
  $"strconv." ++ func ++ $": parsing " ++ quote s ++ $": " ++
  (if all_digits (unsigned s) then $"value out of range" else $"invalid syntax").

(** time.ParseError (Go: time/format.go): either the text of the value and of the
    layout that do not agree, or a message. *)
Inductive fault := Cannot (value_elem layout_elem : str) | Message (m : str).
Definition tok_text (t : tok) : str :=
  match t with
  | TYear => $"2006" | TMonth => $"01" | TDay => $"02" | THour => $"15" | TMin => $"04" | TSec => $"05"
  | TZColon => $"-07:00" | TZShort => $"-07" | TLit c => [c]
  end.
Definition out_of_range (what : str) : fault := Message ($": " ++ what ++ $" out of range").
Definition zone_fault (t : tok) (v : str) (sign : ascii) (hour min : str) : option fault :=
  let cannot := Some (Cannot v (tok_text t)) in
  match getnum hour true with
  | None => cannot
  | Some (hr, _) =>
      match getnum min true with
      | None => if 24 <? hr then Some (out_of_range ($"time zone offset hour")) else cannot
      | Some (mm, _) =>
          if 60 <? mm then Some (out_of_range ($"time zone offset minute"))
          else if 24 <? hr then Some (out_of_range ($"time zone offset hour"))
          else if Ascii.eqb sign "+" || Ascii.eqb sign "-" then None else cannot
      end
  end.
(** The loop of time.parse again (see [parse_toks]), for the error.  In the layouts
    used no two literal characters follow each other, so that a literal is the whole
    text between two elements. *)
Fixpoint parse_fault (l : list tok) (v : str) : option fault :=
  match l with
  | [] => match v with [] => None | _ => Some (Message ($": extra text: " ++ quote v)) end
  | t :: l' =>
      let cannot := Some (Cannot v (tok_text t)) in
      match t with
      | TLit c =>
          match v with
          | d :: v' => if Ascii.eqb c d then parse_fault l' v' else cannot
          | [] => cannot
          end
      | TYear =>
          match v with
          | a :: b :: c :: d :: v' =>
              match dec_val 0 [a; b; c; d] with Some _ => parse_fault l' v' | None => cannot end
          | _ => cannot
          end
      | TMonth =>
          match getnum v true with
          | Some (n, v') => if (1 <=? n) && (n <=? 12) then parse_fault l' v' else Some (out_of_range ($"month"))
          | None => cannot
          end
      | TDay => match getnum v true with Some (_, v') => parse_fault l' v' | None => cannot end
      | THour =>
          match getnum v false with
          | Some (n, v') => if n <? 24 then parse_fault l' v' else Some (out_of_range ($"hour"))
          | None => cannot
          end
      | TMin =>
          match getnum v true with
          | Some (n, v') => if n <? 60 then parse_fault l' v' else Some (out_of_range ($"minute"))
          | None => cannot
          end
      | TSec =>
          match getnum v true with
          | Some (n, v') =>
              if n <? 60 then
                parse_fault l' (match v' with
                                | c :: d :: t => if (Ascii.eqb c "." || Ascii.eqb c ",") && is_digit d
                                                 then skip_digits t else v'
                                | _ => v'
                                end)
              else Some (out_of_range ($"second"))
          | None => cannot
          end
      | TZColon =>
          match v with
          | sg :: h1 :: h2 :: co :: m1 :: m2 :: v' =>
              if Ascii.eqb co ":" then
                match zone_fault t v sg [h1; h2] [m1; m2] with Some f => Some f | None => parse_fault l' v' end
              else cannot
          | _ => cannot
          end
      | TZShort =>
          match v with
          | sg :: h1 :: h2 :: v' =>
              match zone_fault t v sg [h1; h2] ($"00") with Some f => Some f | None => parse_fault l' v' end
          | _ => cannot
          end
      end
  end.
(** What is wrong with a value that time.Parse refuses; the day is looked at last. *)
Definition time_fault (layout value : str) : fault :=
  match parse_fault (layout_toks layout 0) value with
  | Some f => f
  | None => out_of_range ($"day")
  end.
(** time.ParseError.Error *)
Definition time_text (layout value : str) : str :=
  $"parsing time " ++ quote value ++
  match time_fault layout value with
  | Cannot ve le => $" as " ++ quote layout ++ $": cannot parse " ++ quote ve ++ $" as " ++ quote le
  | Message m => m
  end.

(** Float.scan (Go: math/big/floatconv.go and ratconv.go, scanExponent): an exponent
    outside int64 is an error of ParseInt. *)
Definition big_text (notation : str) : str :=
  match exp_split notation with
  | Some (_, _, es) => if max_int64 <? nat_val es then num_text ($"ParseInt") es else $"exponent overflow"
  | None => $"number has no digits"   (* not at the call sites *)
  end.

(** Error(): errors.go:10-12, 33-35, 59-61, 85-87, 111-113 and the packages above; the
    text of fmt.Errorf("..., %w"). *)
Fixpoint error_text (e : err) : str :=
  match e with
  | ENotSet => $"This property has not (or can not) been set"
  | ENotImplemented label s => $"Not implemented '" ++ s ++ $"' (" ++ label ++ $")"
  | EInvalid label s => $"Invalid EDTF string '" ++ s ++ $"' (" ++ label ++ $")"
  | EUnsupported label s => $"Unsupported EDTF string '" ++ s ++ $"' (" ++ label ++ $")"
  | EUnrecognized label s => $"Unrecognized EDTF string '" ++ s ++ $"' (" ++ label ++ $")"
  | ENum s => num_text ($"Atoi") s
  | EInt s => num_text ($"ParseInt") s
  | ETime layout value => time_text layout value
  | EBig s => big_text s
  | EText m => m
  | EWrap m inner => m ++ $", " ++ error_text inner
  end.
