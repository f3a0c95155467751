(** Packages parser, cmp and unix. *)
From Coq Require Import Ascii String ZArith NArith Bool List.
From Verif Require Import GoStr GoTime ErrText Edtf Common Level0 Level1 Level2.
Import ListNotations.
Open Scope Z_scope.

(* parser/parser.go:14-34 *)
Definition IsValid (s : str) : bool :=
  if IsLevel0 s then true
  else if IsLevel1 s then true
  else if IsLevel2 s then true
  else seqb s OPEN || seqb s UNKNOWN.

(* parser/parser.go:37-81 *)
Definition ParseString (s : str) : res edtfdate :=
  if IsLevel0 s then L0_ParseString s
  else if IsLevel1 s then L1_ParseString s
  else if IsLevel2 s then L2_ParseString s
  else if seqb s OPEN then
    OK (mkEDTF (s_start OpenDateSpan) (s_end OpenDateSpan) s (-1) ($"Open"))
  else if seqb s UNKNOWN then
    OK (mkEDTF (s_start UnknownDateSpan) (s_end UnknownDateSpan) s (-1) ($"Unknown"))
  else Err (Unrecognized ($"Invalid or unsupported EDTF string") s).

(* parser/parser.go:84-120; on error Go also returns -1 and "" *)
Definition Matches (s : str) : res (Z * str) :=
  if IsLevel0 s then let* f := L0_Matches s in OK (LEVEL0, f)
  else if IsLevel1 s then let* f := L1_Matches s in OK (LEVEL1, f)
  else if IsLevel2 s then let* f := L2_Matches s in OK (LEVEL2, f)
  else Err (Unrecognized ($"Invalid or unsupported EDTF string") s).

(** cmp.  fmt.Errorf("Failed to parse '%s', %v") does not wrap: the inner error is
    only in the text. *)
Definition text_err {A} (s : str) (x : res A) : res A :=
  match x with Err e => Err (EText ($"Failed to parse '" ++ s ++ $"', " ++ error_text e)) | _ => x end.

(* cmp/after.go:9-24 *)
Definition IsAfter (this_d that_d : str) : res bool :=
  let* a := text_err this_d (ParseString this_d) in
  let* b := text_err that_d (ParseString that_d) in
  After a b.
(* cmp/before.go:9-24 *)
Definition IsBefore (this_d that_d : str) : res bool :=
  let* a := text_err this_d (ParseString this_d) in
  let* b := text_err that_d (ParseString that_d) in
  Before a b.
(* cmp/between.go:10-36 *)
Definition IsBetween (d inception cessation : str) : res bool :=
  let* b := wrap_err ($"Failed to determine if date is before inception date") (IsBefore d inception) in
  if (b : bool) then OK false
  else if negb (seqb cessation OPEN) then
    let* a := wrap_err ($"Failed to determine if date is after cessation date") (IsAfter d cessation) in
    if (a : bool) then OK false else OK true
  else OK true.

(** unix/range.go:11-24 *)
Record unixspan := mkUSpan { us_start : Z; us_end : Z }.
Record unixrange := mkURange { ur_outer : unixspan; ur_inner : unixspan }.
(* unix/range.go:112-127 *)
Definition unix_isValid (s : str) : bool :=
  if IsOpen s then false else if IsUnknown s then false else if IsUnspecified s then false else true.
(* unix/range.go:29-110; [OK None] is (false, nil, nil) *)
Definition DeriveRanges (s : str) : res (option unixrange) :=
  if negb (unix_isValid s) then OK None
  else
    let* d := wrap_err ($"Failed to parse '" ++ s ++ $"'") (ParseString s) in
    match d_timestamp (r_lower (e_start d)), d_timestamp (r_upper (e_start d)),
          d_timestamp (r_lower (e_end d)), d_timestamp (r_upper (e_end d)) with
    | Some sl, Some su, Some el, Some eu => OK (Some (mkURange (mkUSpan sl eu) (mkUSpan su el)))
    | _, _, _, _ => OK None
    end.
