(** The repository's own test tables replayed on the model (tests, not proofs).

    Generated from level0/tests.go, level1/tests.go and level2/tests.go; the checks
    follow tests/tests.go:55-438 and the *_test.go drivers. *)
From Coq Require Import Ascii String ZArith NArith Bool List.
From Verif Require Import GoStr GoTime Regex Edtf Calendar Common Level0 Level1 Level2 Parser.
Import ListNotations.
Open Scope Z_scope.

(** Expected RFC 3339 text, Unix time, flags of one Date (tests/tests.go:13-46). *)
Record expect := xp { x_rfc : option str; x_unix : option Z; x_unc : N; x_app : N; x_prec : N;
                      x_open : bool; x_unknown : bool; x_incl : N }.
Definition opt_ok {A} (o : option A) (f : A -> bool) : bool := match o with None => true | Some a => f a end.
Definition flag_ok (flags x : N) : bool := N.eqb x 0 || HasFlag flags x.
Definition date_ok (d : date) (x : expect) : bool :=
  opt_ok (x_rfc x) (fun s => match d_timestamp d with Some t => seqb (format_rfc3339 t) s | None => false end) &&
  opt_ok (x_unix x) (fun u => match d_timestamp d with Some t => t =? u | None => false end) &&
  flag_ok (d_uncertain d) (x_unc x) && flag_ok (d_approximate d) (x_app x) &&
  flag_ok (d_precision d) (x_prec x) && flag_ok (d_inclusivity d) (x_incl x) &&
  Bool.eqb (d_open d) (x_open x) && Bool.eqb (d_unknown d) (x_unknown x).
Definition edtf_ok (d : edtfdate) (x : list expect) : bool :=
  match x with
  | [a; b; c; e] => date_ok (r_lower (e_start d)) a && date_ok (r_upper (e_start d)) b &&
                    date_ok (r_lower (e_end d)) c && date_ok (r_upper (e_end d)) e
  | _ => false
  end.
(** The drivers skip strings that give a NotImplemented or Unsupported error. *)
Definition skip (e : err) : bool := IsNotImplemented e || IsUnsupported e.
Definition level_of (n : Z) : str -> bool := if n =? 0 then IsLevel0 else if n =? 1 then IsLevel1 else IsLevel2.
Definition parse_of (n : Z) : str -> res edtfdate :=
  if n =? 0 then L0_ParseString else if n =? 1 then L1_ParseString else L2_ParseString.
Definition res_ok {A} (x : res A) (f : A -> bool) : bool :=
  match x with OK a => f a | Err e => skip e | Panic => false end.
Definition run (t : (str -> res edtfdate) * Z * str * list expect) : bool :=
  let '(f, n, s, x) := t in
  res_ok (f s) (fun d => edtf_ok d x) && level_of n s && IsValid s &&
  res_ok (parse_of n s) (fun _ => true) && res_ok (ParseString s) (fun d => seqb (e_edtf d) s) &&
  match Matches s with OK _ => true | _ => false end.

Definition table : list ((str -> res edtfdate) * Z * str * list expect) := [
  ((ParseDate, 0, $"0000-01-01"),
    [(xp (Some ($"0000-01-01T00:00:00Z")) None NONE NONE NONE false false NONE); (xp (Some ($"0000-01-01T00:00:00Z")) None NONE NONE NONE false false NONE);
     (xp (Some ($"0000-01-01T23:59:59Z")) None NONE NONE NONE false false NONE); (xp (Some ($"0000-01-01T23:59:59Z")) None NONE NONE NONE false false NONE)]);
  ((ParseDate, 0, $"1985-04-12"),
    [(xp (Some ($"1985-04-12T00:00:00Z")) None NONE NONE NONE false false NONE); (xp (Some ($"1985-04-12T00:00:00Z")) None NONE NONE NONE false false NONE);
     (xp (Some ($"1985-04-12T23:59:59Z")) None NONE NONE NONE false false NONE); (xp (Some ($"1985-04-12T23:59:59Z")) None NONE NONE NONE false false NONE)]);
  ((ParseDate, 0, $"1985-04"),
    [(xp (Some ($"1985-04-01T00:00:00Z")) None NONE NONE NONE false false NONE); (xp (Some ($"1985-04-01T23:59:59Z")) None NONE NONE NONE false false NONE);
     (xp (Some ($"1985-04-30T00:00:00Z")) None NONE NONE NONE false false NONE); (xp (Some ($"1985-04-30T23:59:59Z")) None NONE NONE NONE false false NONE)]);
  ((ParseDate, 0, $"1985"),
    [(xp (Some ($"1985-01-01T00:00:00Z")) None NONE NONE NONE false false NONE); (xp (Some ($"1985-01-01T23:59:59Z")) None NONE NONE NONE false false NONE);
     (xp (Some ($"1985-12-31T00:00:00Z")) None NONE NONE NONE false false NONE); (xp (Some ($"1985-12-31T23:59:59Z")) None NONE NONE NONE false false NONE)]);
  ((ParseDate, 0, $"-0400"),
    [(xp (Some ($"-0400-01-01T00:00:00Z")) None NONE NONE NONE false false NONE); (xp (Some ($"-0400-01-01T23:59:59Z")) None NONE NONE NONE false false NONE);
     (xp (Some ($"-0400-12-31T00:00:00Z")) None NONE NONE NONE false false NONE); (xp (Some ($"-0400-12-31T23:59:59Z")) None NONE NONE NONE false false NONE)]);
  ((ParseDate, 0, $"-1200-06"),
    [(xp (Some ($"-1200-06-01T00:00:00Z")) None NONE NONE NONE false false NONE); (xp (Some ($"-1200-06-01T23:59:59Z")) None NONE NONE NONE false false NONE);
     (xp (Some ($"-1200-06-30T00:00:00Z")) None NONE NONE NONE false false NONE); (xp (Some ($"-1200-06-30T23:59:59Z")) None NONE NONE NONE false false NONE)]);
  ((ParseDateAndTime, 0, $"1985-04-12T23:20:30"),
    [(xp (Some ($"1985-04-12T23:20:30Z")) None NONE NONE NONE false false NONE); (xp (Some ($"1985-04-12T23:20:30Z")) None NONE NONE NONE false false NONE);
     (xp (Some ($"1985-04-12T23:20:30Z")) None NONE NONE NONE false false NONE); (xp (Some ($"1985-04-12T23:20:30Z")) None NONE NONE NONE false false NONE)]);
  ((ParseDateAndTime, 0, $"2021-12-10T01:29:00Z"),
    [(xp (Some ($"2021-12-10T01:29:00Z")) None NONE NONE NONE false false NONE); (xp (Some ($"2021-12-10T01:29:00Z")) None NONE NONE NONE false false NONE);
     (xp (Some ($"2021-12-10T01:29:00Z")) None NONE NONE NONE false false NONE); (xp (Some ($"2021-12-10T01:29:00Z")) None NONE NONE NONE false false NONE)]);
  ((ParseDateAndTime, 0, $"2021-10-10T00:24:00Z"),
    [(xp (Some ($"2021-10-10T00:24:00Z")) None NONE NONE NONE false false NONE); (xp (Some ($"2021-10-10T00:24:00Z")) None NONE NONE NONE false false NONE);
     (xp (Some ($"2021-10-10T00:24:00Z")) None NONE NONE NONE false false NONE); (xp (Some ($"2021-10-10T00:24:00Z")) None NONE NONE NONE false false NONE)]);
  ((ParseDateAndTime, 0, $"2021-09-20T21:14:00Z"),
    [(xp (Some ($"2021-09-20T21:14:00Z")) None NONE NONE NONE false false NONE); (xp (Some ($"2021-09-20T21:14:00Z")) None NONE NONE NONE false false NONE);
     (xp (Some ($"2021-09-20T21:14:00Z")) None NONE NONE NONE false false NONE); (xp (Some ($"2021-09-20T21:14:00Z")) None NONE NONE NONE false false NONE)]);
  ((ParseDateAndTime, 0, $"1985-04-12T23:20:30Z"),
    [(xp (Some ($"1985-04-12T23:20:30Z")) None NONE NONE NONE false false NONE); (xp (Some ($"1985-04-12T23:20:30Z")) None NONE NONE NONE false false NONE);
     (xp (Some ($"1985-04-12T23:20:30Z")) None NONE NONE NONE false false NONE); (xp (Some ($"1985-04-12T23:20:30Z")) None NONE NONE NONE false false NONE)]);
  ((ParseDateAndTime, 0, $"1985-04-12T23:20:30-04"),
    [(xp (Some ($"1985-04-13T03:20:30Z")) None NONE NONE NONE false false NONE); (xp (Some ($"1985-04-13T03:20:30Z")) None NONE NONE NONE false false NONE);
     (xp (Some ($"1985-04-13T03:20:30Z")) None NONE NONE NONE false false NONE); (xp (Some ($"1985-04-13T03:20:30Z")) None NONE NONE NONE false false NONE)]);
  ((ParseDateAndTime, 0, $"1985-04-12T23:20:30+04:30"),
    [(xp (Some ($"1985-04-12T18:50:30Z")) None NONE NONE NONE false false NONE); (xp (Some ($"1985-04-12T18:50:30Z")) None NONE NONE NONE false false NONE);
     (xp (Some ($"1985-04-12T18:50:30Z")) None NONE NONE NONE false false NONE); (xp (Some ($"1985-04-12T18:50:30Z")) None NONE NONE NONE false false NONE)]);
  ((ParseDateAndTime, 0, $"-1972-04-12T23:20:28"),
    [(xp (Some ($"-1972-04-12T23:20:28Z")) None NONE NONE NONE false false NONE); (xp (Some ($"-1972-04-12T23:20:28Z")) None NONE NONE NONE false false NONE);
     (xp (Some ($"-1972-04-12T23:20:28Z")) None NONE NONE NONE false false NONE); (xp (Some ($"-1972-04-12T23:20:28Z")) None NONE NONE NONE false false NONE)]);
  ((ParseTimeInterval, 0, $"1964/2008"),
    [(xp (Some ($"1964-01-01T00:00:00Z")) None NONE NONE NONE false false NONE); (xp (Some ($"1964-12-31T23:59:59Z")) None NONE NONE NONE false false NONE);
     (xp (Some ($"2008-01-01T00:00:00Z")) None NONE NONE NONE false false NONE); (xp (Some ($"2008-12-31T23:59:59Z")) None NONE NONE NONE false false NONE)]);
  ((ParseTimeInterval, 0, $"2004-06/2006-08"),
    [(xp (Some ($"2004-06-01T00:00:00Z")) None NONE NONE NONE false false NONE); (xp (Some ($"2004-06-30T23:59:59Z")) None NONE NONE NONE false false NONE);
     (xp (Some ($"2006-08-01T00:00:00Z")) None NONE NONE NONE false false NONE); (xp (Some ($"2006-08-31T23:59:59Z")) None NONE NONE NONE false false NONE)]);
  ((ParseTimeInterval, 0, $"2004-02-01/2005-02-08"),
    [(xp (Some ($"2004-02-01T00:00:00Z")) None NONE NONE NONE false false NONE); (xp (Some ($"2004-02-01T23:59:59Z")) None NONE NONE NONE false false NONE);
     (xp (Some ($"2005-02-08T00:00:00Z")) None NONE NONE NONE false false NONE); (xp (Some ($"2005-02-08T23:59:59Z")) None NONE NONE NONE false false NONE)]);
  ((ParseTimeInterval, 0, $"2004-02-01/2005-02"),
    [(xp (Some ($"2004-02-01T00:00:00Z")) None NONE NONE NONE false false NONE); (xp (Some ($"2004-02-01T23:59:59Z")) None NONE NONE NONE false false NONE);
     (xp (Some ($"2005-02-01T00:00:00Z")) None NONE NONE NONE false false NONE); (xp (Some ($"2005-02-28T23:59:59Z")) None NONE NONE NONE false false NONE)]);
  ((ParseTimeInterval, 0, $"2004-02-01/2005"),
    [(xp (Some ($"2004-02-01T00:00:00Z")) None NONE NONE NONE false false NONE); (xp (Some ($"2004-02-01T23:59:59Z")) None NONE NONE NONE false false NONE);
     (xp (Some ($"2005-01-01T00:00:00Z")) None NONE NONE NONE false false NONE); (xp (Some ($"2005-12-31T23:59:59Z")) None NONE NONE NONE false false NONE)]);
  ((ParseTimeInterval, 0, $"2005/2020-02"),
    [(xp (Some ($"2005-01-01T00:00:00Z")) None NONE NONE NONE false false NONE); (xp (Some ($"2005-12-31T23:59:59Z")) None NONE NONE NONE false false NONE);
     (xp (Some ($"2020-02-01T00:00:00Z")) None NONE NONE NONE false false NONE); (xp (Some ($"2020-02-29T23:59:59Z")) None NONE NONE NONE false false NONE)]);
  ((ParseTimeInterval, 0, $"-0200/0200"),
    [(xp (Some ($"-0200-01-01T00:00:00Z")) None NONE NONE NONE false false NONE); (xp (Some ($"-0200-12-31T23:59:59Z")) None NONE NONE NONE false false NONE);
     (xp (Some ($"0200-01-01T00:00:00Z")) None NONE NONE NONE false false NONE); (xp (Some ($"0200-12-31T23:59:59Z")) None NONE NONE NONE false false NONE)]);
  ((ParseTimeInterval, 0, $"-1200-06/0200-05-02"),
    [(xp (Some ($"-1200-06-01T00:00:00Z")) None NONE NONE NONE false false NONE); (xp (Some ($"-1200-06-30T23:59:59Z")) None NONE NONE NONE false false NONE);
     (xp (Some ($"0200-05-02T00:00:00Z")) None NONE NONE NONE false false NONE); (xp (Some ($"0200-05-02T23:59:59Z")) None NONE NONE NONE false false NONE)]);
  ((ParseLetterPrefixedCalendarYear, 1, $"Y170000002"),
    [(xp None None NONE NONE NONE false false NONE); (xp None None NONE NONE NONE false false NONE);
     (xp None None NONE NONE NONE false false NONE); (xp None None NONE NONE NONE false false NONE)]);
  ((ParseLetterPrefixedCalendarYear, 1, $"Y-17000002"),
    [(xp None None NONE NONE NONE false false NONE); (xp None None NONE NONE NONE false false NONE);
     (xp None None NONE NONE NONE false false NONE); (xp None None NONE NONE NONE false false NONE)]);
  ((ParseLetterPrefixedCalendarYear, 1, $"Y1700"),
    [(xp (Some ($"1700-01-01T00:00:00Z")) None NONE NONE NONE false false NONE); (xp (Some ($"1700-01-01T23:59:59Z")) None NONE NONE NONE false false NONE);
     (xp (Some ($"1700-12-31T00:00:00Z")) None NONE NONE NONE false false NONE); (xp (Some ($"1700-12-31T23:59:59Z")) None NONE NONE NONE false false NONE)]);
  ((ParseLetterPrefixedCalendarYear, 1, $"Y-1200"),
    [(xp (Some ($"-1200-01-01T00:00:00Z")) None NONE NONE NONE false false NONE); (xp (Some ($"-1200-01-01T23:59:59Z")) None NONE NONE NONE false false NONE);
     (xp (Some ($"-1200-12-31T00:00:00Z")) None NONE NONE NONE false false NONE); (xp (Some ($"-1200-12-31T23:59:59Z")) None NONE NONE NONE false false NONE)]);
  ((ParseSeason, 1, $"2001-01"),
    [(xp (Some ($"2001-01-01T00:00:00Z")) None NONE NONE NONE false false NONE); (xp (Some ($"2001-01-01T23:59:59Z")) None NONE NONE NONE false false NONE);
     (xp (Some ($"2001-01-31T00:00:00Z")) None NONE NONE NONE false false NONE); (xp (Some ($"2001-01-31T23:59:59Z")) None NONE NONE NONE false false NONE)]);
  ((ParseSeason, 1, $"2019-24"),
    [(xp (Some ($"2019-12-01T00:00:00Z")) None NONE NONE NONE false false NONE); (xp (Some ($"2019-12-01T23:59:59Z")) None NONE NONE NONE false false NONE);
     (xp (Some ($"2020-02-29T00:00:00Z")) None NONE NONE NONE false false NONE); (xp (Some ($"2020-02-29T23:59:59Z")) None NONE NONE NONE false false NONE)]);
  ((ParseSeason, 1, $"Spring, 2002"),
    [(xp (Some ($"2002-03-01T00:00:00Z")) None NONE NONE NONE false false NONE); (xp (Some ($"2002-03-01T23:59:59Z")) None NONE NONE NONE false false NONE);
     (xp (Some ($"2002-05-31T00:00:00Z")) None NONE NONE NONE false false NONE); (xp (Some ($"2002-05-31T23:59:59Z")) None NONE NONE NONE false false NONE)]);
  ((ParseSeason, 1, $"winter, 2002"),
    [(xp (Some ($"2002-12-01T00:00:00Z")) None NONE NONE NONE false false NONE); (xp (Some ($"2002-12-01T23:59:59Z")) None NONE NONE NONE false false NONE);
     (xp (Some ($"2003-02-28T00:00:00Z")) None NONE NONE NONE false false NONE); (xp (Some ($"2003-02-28T23:59:59Z")) None NONE NONE NONE false false NONE)]);
  ((ParseQualifiedDate, 1, $"1984?"),
    [(xp (Some ($"1984-01-01T00:00:00Z")) None NONE NONE NONE false false NONE); (xp (Some ($"1984-01-01T23:59:59Z")) None YEAR NONE NONE false false NONE);
     (xp (Some ($"1984-12-31T00:00:00Z")) None NONE NONE NONE false false NONE); (xp (Some ($"1984-12-31T23:59:59Z")) None NONE NONE NONE false false NONE)]);
  ((ParseQualifiedDate, 1, $"2004-06~"),
    [(xp (Some ($"2004-06-01T00:00:00Z")) None NONE NONE NONE false false NONE); (xp (Some ($"2004-06-01T23:59:59Z")) None NONE NONE NONE false false NONE);
     (xp (Some ($"2004-06-30T00:00:00Z")) None NONE MONTH NONE false false NONE); (xp (Some ($"2004-06-30T23:59:59Z")) None NONE NONE NONE false false NONE)]);
  ((ParseQualifiedDate, 1, $"2004-06-11%"),
    [(xp (Some ($"2004-06-11T00:00:00Z")) None NONE NONE NONE false false NONE); (xp (Some ($"2004-06-11T00:00:00Z")) None NONE NONE NONE false false NONE);
     (xp (Some ($"2004-06-11T23:59:59Z")) None DAY DAY NONE false false NONE); (xp (Some ($"2004-06-11T23:59:59Z")) None NONE NONE NONE false false NONE)]);
  ((ParseUnspecifiedDigits, 1, $"201X"),
    [(xp (Some ($"2010-01-01T00:00:00Z")) None NONE NONE NONE false false NONE); (xp (Some ($"2010-01-01T23:59:59Z")) None NONE NONE DECADE false false NONE);
     (xp (Some ($"2019-12-31T00:00:00Z")) None NONE NONE NONE false false NONE); (xp (Some ($"2019-12-31T23:59:59Z")) None NONE NONE NONE false false NONE)]);
  ((ParseUnspecifiedDigits, 1, $"20XX"),
    [(xp (Some ($"2000-01-01T00:00:00Z")) None NONE NONE NONE false false NONE); (xp (Some ($"2000-01-01T23:59:59Z")) None NONE NONE CENTURY false false NONE);
     (xp (Some ($"2099-12-31T00:00:00Z")) None NONE NONE NONE false false NONE); (xp (Some ($"2099-12-31T23:59:59Z")) None NONE NONE NONE false false NONE)]);
  ((ParseUnspecifiedDigits, 1, $"2004-XX"),
    [(xp (Some ($"2004-01-01T00:00:00Z")) None NONE NONE NONE false false NONE); (xp (Some ($"2004-01-01T23:59:59Z")) None NONE NONE YEAR false false NONE);
     (xp (Some ($"2004-12-31T00:00:00Z")) None NONE NONE NONE false false NONE); (xp (Some ($"2004-12-31T23:59:59Z")) None NONE NONE NONE false false NONE)]);
  ((ParseUnspecifiedDigits, 1, $"1985-04-XX"),
    [(xp (Some ($"1985-04-01T00:00:00Z")) None NONE NONE NONE false false NONE); (xp (Some ($"1985-04-01T23:59:59Z")) None NONE NONE MONTH false false NONE);
     (xp (Some ($"1985-04-30T00:00:00Z")) None NONE NONE NONE false false NONE); (xp (Some ($"1985-04-30T23:59:59Z")) None NONE NONE NONE false false NONE)]);
  ((ParseUnspecifiedDigits, 1, $"1985-XX-XX"),
    [(xp (Some ($"1985-01-01T00:00:00Z")) None NONE NONE NONE false false NONE); (xp (Some ($"1985-01-01T23:59:59Z")) None NONE NONE YEAR false false NONE);
     (xp (Some ($"1985-12-31T00:00:00Z")) None NONE NONE NONE false false NONE); (xp (Some ($"1985-12-31T23:59:59Z")) None NONE NONE NONE false false NONE)]);
  ((ParseExtendedIntervalStart, 1, $"../1985-04-12"),
    [(xp None None NONE NONE NONE true false NONE); (xp None None NONE NONE NONE true false NONE);
     (xp (Some ($"1985-04-12T00:00:00Z")) None NONE NONE NONE false false NONE); (xp (Some ($"1985-04-12T23:59:59Z")) None NONE NONE NONE false false NONE)]);
  ((ParseExtendedIntervalStart, 1, $"../1985-04"),
    [(xp None None NONE NONE NONE true false NONE); (xp None None NONE NONE NONE true false NONE);
     (xp (Some ($"1985-04-01T00:00:00Z")) None NONE NONE NONE false false NONE); (xp (Some ($"1985-04-30T23:59:59Z")) None NONE NONE NONE false false NONE)]);
  ((ParseExtendedIntervalStart, 1, $"../1985"),
    [(xp None None NONE NONE NONE true false NONE); (xp None None NONE NONE NONE true false NONE);
     (xp (Some ($"1985-01-01T00:00:00Z")) None NONE NONE NONE false false NONE); (xp (Some ($"1985-12-31T23:59:59Z")) None NONE NONE NONE false false NONE)]);
  ((ParseExtendedIntervalStart, 1, $"/1985-04-12"),
    [(xp None None NONE NONE NONE false true NONE); (xp None None NONE NONE NONE false true NONE);
     (xp (Some ($"1985-04-12T00:00:00Z")) None NONE NONE NONE false false NONE); (xp (Some ($"1985-04-12T23:59:59Z")) None NONE NONE NONE false false NONE)]);
  ((ParseExtendedIntervalStart, 1, $"/1985-04"),
    [(xp None None NONE NONE NONE false true NONE); (xp None None NONE NONE NONE false true NONE);
     (xp (Some ($"1985-04-01T00:00:00Z")) None NONE NONE NONE false false NONE); (xp (Some ($"1985-04-30T23:59:59Z")) None NONE NONE NONE false false NONE)]);
  ((ParseExtendedIntervalStart, 1, $"/1985"),
    [(xp None None NONE NONE NONE false true NONE); (xp None None NONE NONE NONE false true NONE);
     (xp (Some ($"1985-01-01T00:00:00Z")) None NONE NONE NONE false false NONE); (xp (Some ($"1985-12-31T23:59:59Z")) None NONE NONE NONE false false NONE)]);
  ((ParseExtendedIntervalEnd, 1, $"1985-04-12/.."),
    [(xp (Some ($"1985-04-12T00:00:00Z")) None NONE NONE NONE false false NONE); (xp (Some ($"1985-04-12T23:59:59Z")) None NONE NONE NONE false false NONE);
     (xp None None NONE NONE NONE true false NONE); (xp None None NONE NONE NONE true false NONE)]);
  ((ParseExtendedIntervalEnd, 1, $"1985-04/.."),
    [(xp (Some ($"1985-04-01T00:00:00Z")) None NONE NONE NONE false false NONE); (xp (Some ($"1985-04-30T23:59:59Z")) None NONE NONE NONE false false NONE);
     (xp None None NONE NONE NONE true false NONE); (xp None None NONE NONE NONE true false NONE)]);
  ((ParseExtendedIntervalEnd, 1, $"1985/.."),
    [(xp (Some ($"1985-01-01T00:00:00Z")) None NONE NONE NONE false false NONE); (xp (Some ($"1985-12-31T23:59:59Z")) None NONE NONE NONE false false NONE);
     (xp None None NONE NONE NONE true false NONE); (xp None None NONE NONE NONE true false NONE)]);
  ((ParseExtendedIntervalEnd, 1, $"1985-04-12/"),
    [(xp (Some ($"1985-04-12T00:00:00Z")) None NONE NONE NONE false false NONE); (xp (Some ($"1985-04-12T23:59:59Z")) None NONE NONE NONE false false NONE);
     (xp None None NONE NONE NONE false true NONE); (xp None None NONE NONE NONE false true NONE)]);
  ((ParseExtendedIntervalEnd, 1, $"1985-04/"),
    [(xp (Some ($"1985-04-01T00:00:00Z")) None NONE NONE NONE false false NONE); (xp (Some ($"1985-04-30T23:59:59Z")) None NONE NONE NONE false false NONE);
     (xp None None NONE NONE NONE false true NONE); (xp None None NONE NONE NONE false true NONE)]);
  ((ParseExtendedIntervalEnd, 1, $"1985/"),
    [(xp (Some ($"1985-01-01T00:00:00Z")) None NONE NONE NONE false false NONE); (xp (Some ($"1985-12-31T23:59:59Z")) None NONE NONE NONE false false NONE);
     (xp None None NONE NONE NONE false true NONE); (xp None None NONE NONE NONE false true NONE)]);
  ((ParseNegativeCalendarYear, 1, $"-1985"),
    [(xp (Some ($"-1985-01-01T00:00:00Z")) None NONE NONE NONE false false NONE); (xp (Some ($"-1985-01-01T23:59:59Z")) None NONE NONE NONE false false NONE);
     (xp (Some ($"-1985-12-31T00:00:00Z")) None NONE NONE NONE false false NONE); (xp (Some ($"-1985-12-31T23:59:59Z")) None NONE NONE NONE false false NONE)]);
  ((ParseExponentialYear, 2, $"Y-17E7"),
    [(xp None None NONE NONE NONE false false NONE); (xp None None NONE NONE NONE false false NONE);
     (xp None None NONE NONE NONE false false NONE); (xp None None NONE NONE NONE false false NONE)]);
  ((ParseExponentialYear, 2, $"Y10E7"),
    [(xp None None NONE NONE NONE false false NONE); (xp None None NONE NONE NONE false false NONE);
     (xp None None NONE NONE NONE false false NONE); (xp None None NONE NONE NONE false false NONE)]);
  ((ParseExponentialYear, 2, $"Y20E2"),
    [(xp (Some ($"2000-01-01T00:00:00Z")) None NONE NONE NONE false false NONE); (xp (Some ($"2000-01-01T23:59:59Z")) None NONE NONE NONE false false NONE);
     (xp (Some ($"2000-12-31T00:00:00Z")) None NONE NONE NONE false false NONE); (xp (Some ($"2000-12-31T23:59:59Z")) None NONE NONE NONE false false NONE)]);
  ((ParseSignificantDigits, 2, $"1950S2"),
    [(xp (Some ($"1900-01-01T00:00:00Z")) None NONE NONE NONE false false NONE); (xp (Some ($"1900-12-31T23:59:59Z")) None NONE NONE NONE false false NONE);
     (xp (Some ($"1999-01-01T00:00:00Z")) None NONE NONE NONE false false NONE); (xp (Some ($"1999-12-31T23:59:59Z")) None NONE NONE NONE false false NONE)]);
  ((ParseSignificantDigits, 2, $"Y171010000S3"),
    [(xp None None NONE NONE NONE false false NONE); (xp None None NONE NONE NONE false false NONE);
     (xp None None NONE NONE NONE false false NONE); (xp None None NONE NONE NONE false false NONE)]);
  ((ParseSignificantDigits, 2, $"Y-20E2S3"),
    [(xp (Some ($"-2999-01-01T00:00:00Z")) None NONE NONE NONE false false NONE); (xp (Some ($"-2999-12-31T23:59:59Z")) None NONE NONE NONE false false NONE);
     (xp (Some ($"-2000-01-01T00:00:00Z")) None NONE NONE NONE false false NONE); (xp (Some ($"-2000-12-31T23:59:59Z")) None NONE NONE NONE false false NONE)]);
  ((ParseSignificantDigits, 2, $"Y3388E2S3"),
    [(xp None None NONE NONE NONE false false NONE); (xp None None NONE NONE NONE false false NONE);
     (xp None None NONE NONE NONE false false NONE); (xp None None NONE NONE NONE false false NONE)]);
  ((ParseSubYearGroupings, 2, $"2001-34"),
    [(xp (Some ($"2001-04-01T00:00:00Z")) None NONE NONE NONE false false NONE); (xp (Some ($"2001-04-01T23:59:59Z")) None NONE NONE NONE false false NONE);
     (xp (Some ($"2001-06-30T00:00:00Z")) None NONE NONE NONE false false NONE); (xp (Some ($"2001-06-30T23:59:59Z")) None NONE NONE NONE false false NONE)]);
  ((ParseSubYearGroupings, 2, $"2019-28"),
    [(xp (Some ($"2019-12-01T00:00:00Z")) None NONE NONE NONE false false NONE); (xp (Some ($"2019-12-01T23:59:59Z")) None NONE NONE NONE false false NONE);
     (xp (Some ($"2020-02-01T00:00:00Z")) None NONE NONE NONE false false NONE); (xp (Some ($"2020-02-29T23:59:59Z")) None NONE NONE NONE false false NONE)]);
  ((ParseSetRepresentations, 2, $"[1760-01,1760-02,1760-12..]"),
    [(xp (Some ($"1760-01-01T00:00:00Z")) None NONE NONE NONE false false ANY); (xp (Some ($"1760-12-31T23:59:59Z")) None NONE NONE NONE false false NONE);
     (xp None None NONE NONE NONE true false NONE); (xp None None NONE NONE NONE true false NONE)]);
  ((ParseSetRepresentations, 2, $"[1667,1668,1670..1672]"),
    [(xp (Some ($"1667-01-01T00:00:00Z")) None NONE NONE NONE false false ANY); (xp (Some ($"1667-12-31T23:59:59Z")) None NONE NONE NONE false false NONE);
     (xp (Some ($"1672-01-01T00:00:00Z")) None NONE NONE NONE false false NONE); (xp (Some ($"1672-12-31T23:59:59Z")) None NONE NONE NONE false false ANY)]);
  ((ParseSetRepresentations, 2, $"[..1760-12-03]"),
    [(xp None None NONE NONE NONE true false NONE); (xp None None NONE NONE NONE true false NONE);
     (xp (Some ($"1760-12-03T00:00:00Z")) None NONE NONE NONE false false NONE); (xp (Some ($"1760-12-03T23:59:59Z")) None NONE NONE NONE false false ANY)]);
  ((ParseSetRepresentations, 2, $"[1760-12..]"),
    [(xp (Some ($"1760-12-01T00:00:00Z")) None NONE NONE NONE false false NONE); (xp (Some ($"1760-12-31T23:59:59Z")) None NONE NONE NONE false false ANY);
     (xp None None NONE NONE NONE true false NONE); (xp None None NONE NONE NONE true false NONE)]);
  ((ParseSetRepresentations, 2, $"[1667,1760-12]"),
    [(xp (Some ($"1667-01-01T00:00:00Z")) None NONE NONE NONE false false NONE); (xp (Some ($"1667-12-31T23:59:59Z")) None NONE NONE NONE false false ANY);
     (xp (Some ($"1760-12-01T00:00:00Z")) None NONE NONE NONE false false ANY); (xp (Some ($"1760-12-31T23:59:59Z")) None NONE NONE NONE false false NONE)]);
  ((ParseSetRepresentations, 2, $"[..1984]"),
    [(xp None None NONE NONE NONE true false NONE); (xp None None NONE NONE NONE true false NONE);
     (xp (Some ($"1984-01-01T00:00:00Z")) None NONE NONE NONE false false ANY); (xp (Some ($"1984-12-31T23:59:59Z")) None NONE NONE NONE false false NONE)]);
  ((ParseSetRepresentations, 2, $"{1667,1668,1670..1672}"),
    [(xp (Some ($"1667-01-01T00:00:00Z")) None NONE NONE NONE false false NONE); (xp (Some ($"1667-12-31T23:59:59Z")) None NONE NONE NONE false false ALL);
     (xp (Some ($"1672-01-01T00:00:00Z")) None NONE NONE NONE false false ALL); (xp (Some ($"1672-12-31T23:59:59Z")) None NONE NONE NONE false false NONE)]);
  ((ParseSetRepresentations, 2, $"{1960,1961-12}"),
    [(xp (Some ($"1960-01-01T00:00:00Z")) None NONE NONE NONE false false NONE); (xp (Some ($"1960-12-31T23:59:59Z")) None NONE NONE NONE false false ALL);
     (xp (Some ($"1961-12-01T00:00:00Z")) None NONE NONE NONE false false ALL); (xp (Some ($"1961-12-31T23:59:59Z")) None NONE NONE NONE false false NONE)]);
  ((ParseSetRepresentations, 2, $"{..1984}"),
    [(xp None None NONE NONE NONE true false NONE); (xp None None NONE NONE NONE true false NONE);
     (xp (Some ($"1984-01-01T00:00:00Z")) None NONE NONE NONE false false ALL); (xp (Some ($"1984-12-31T23:59:59Z")) None NONE NONE NONE false false NONE)]);
  ((ParseGroupQualification, 2, $"2004-06-11%"),
    [(xp (Some ($"2004-06-11T00:00:00Z")) None NONE NONE NONE false false NONE); (xp (Some ($"2004-06-11T00:00:00Z")) None DAY DAY NONE false false NONE);
     (xp (Some ($"2004-06-11T23:59:59Z")) None MONTH YEAR NONE false false NONE); (xp (Some ($"2004-06-11T23:59:59Z")) None NONE NONE NONE false false NONE)]);
  ((ParseGroupQualification, 2, $"2004-06~-11"),
    [(xp (Some ($"2004-06-11T00:00:00Z")) None NONE NONE NONE false false NONE); (xp (Some ($"2004-06-11T00:00:00Z")) None NONE NONE NONE false false NONE);
     (xp (Some ($"2004-06-11T23:59:59Z")) None NONE YEAR NONE false false NONE); (xp (Some ($"2004-06-11T23:59:59Z")) None NONE MONTH NONE false false NONE)]);
  ((ParseGroupQualification, 2, $"2004?-06-11"),
    [(xp (Some ($"2004-06-11T00:00:00Z")) None NONE NONE NONE false false NONE); (xp (Some ($"2004-06-11T00:00:00Z")) None NONE NONE NONE false false NONE);
     (xp (Some ($"2004-06-11T23:59:59Z")) None YEAR NONE NONE false false NONE); (xp (Some ($"2004-06-11T23:59:59Z")) None NONE NONE NONE false false NONE)]);
  ((ParseIndividualQualification, 2, $"?2004-06-~11"),
    [(xp (Some ($"2004-06-11T00:00:00Z")) None NONE NONE NONE false false NONE); (xp (Some ($"2004-06-11T00:00:00Z")) None NONE NONE NONE false false NONE);
     (xp (Some ($"2004-06-11T23:59:59Z")) None NONE NONE NONE false false NONE); (xp (Some ($"2004-06-11T23:59:59Z")) None NONE DAY NONE false false NONE)]);
  ((ParseIndividualQualification, 2, $"2004-%06-11"),
    [(xp (Some ($"2004-06-11T00:00:00Z")) None NONE NONE NONE false false NONE); (xp (Some ($"2004-06-11T00:00:00Z")) None NONE NONE NONE false false NONE);
     (xp (Some ($"2004-06-11T23:59:59Z")) None NONE NONE NONE false false NONE); (xp (Some ($"2004-06-11T23:59:59Z")) None MONTH MONTH NONE false false NONE)]);
  ((ParseUnspecifiedDigit, 2, $"156X-12-25"),
    [(xp (Some ($"1560-12-25T00:00:00Z")) None NONE NONE NONE false false NONE); (xp (Some ($"1560-12-25T23:59:59Z")) None NONE NONE DECADE false false NONE);
     (xp (Some ($"1569-12-25T00:00:00Z")) None NONE NONE NONE false false NONE); (xp (Some ($"1569-12-25T23:59:59Z")) None NONE NONE NONE false false NONE)]);
  ((ParseUnspecifiedDigit, 2, $"15XX-12-25"),
    [(xp (Some ($"1500-12-25T00:00:00Z")) None NONE NONE NONE false false NONE); (xp (Some ($"1500-12-25T23:59:59Z")) None NONE NONE CENTURY false false NONE);
     (xp (Some ($"1599-12-25T00:00:00Z")) None NONE NONE NONE false false NONE); (xp (Some ($"1599-12-25T23:59:59Z")) None NONE NONE NONE false false NONE)]);
  ((ParseUnspecifiedDigit, 2, $"1XXX-XX"),
    [(xp (Some ($"1000-01-01T00:00:00Z")) None NONE NONE NONE false false NONE); (xp (Some ($"1000-01-01T23:59:59Z")) None NONE NONE MILLENIUM false false NONE);
     (xp (Some ($"1999-12-31T00:00:00Z")) None NONE NONE NONE false false NONE); (xp (Some ($"1999-12-31T23:59:59Z")) None NONE NONE NONE false false NONE)]);
  ((ParseUnspecifiedDigit, 2, $"1XXX-12"),
    [(xp (Some ($"1000-12-01T00:00:00Z")) None NONE NONE NONE false false NONE); (xp (Some ($"1000-12-01T23:59:59Z")) None NONE NONE MILLENIUM false false NONE);
     (xp (Some ($"1999-12-31T00:00:00Z")) None NONE NONE NONE false false NONE); (xp (Some ($"1999-12-31T23:59:59Z")) None NONE NONE NONE false false NONE)]);
  ((ParseUnspecifiedDigit, 2, $"1984-1X"),
    [(xp (Some ($"1984-10-01T00:00:00Z")) None NONE NONE NONE false false NONE); (xp (Some ($"1984-10-01T23:59:59Z")) None NONE NONE MONTH false false NONE);
     (xp (Some ($"1984-12-31T00:00:00Z")) None NONE NONE NONE false false NONE); (xp (Some ($"1984-12-31T23:59:59Z")) None NONE NONE NONE false false NONE)]);
  ((ParseInterval, 2, $"2004-06-~01/2004-06-~20"),
    [(xp (Some ($"2004-06-01T00:00:00Z")) None NONE NONE NONE false false NONE); (xp (Some ($"2004-06-01T23:59:59Z")) None NONE NONE NONE false false NONE);
     (xp (Some ($"2004-06-20T00:00:00Z")) None NONE NONE NONE false false NONE); (xp (Some ($"2004-06-20T23:59:59Z")) None NONE DAY NONE false false NONE)]);
  ((ParseInterval, 2, $"2004-06-XX/2004-07-03"),
    [(xp (Some ($"2004-06-01T00:00:00Z")) None NONE NONE NONE false false NONE); (xp (Some ($"2004-06-30T23:59:59Z")) None NONE NONE NONE false false NONE);
     (xp (Some ($"2004-07-03T00:00:00Z")) None NONE NONE NONE false false NONE); (xp (Some ($"2004-07-03T23:59:59Z")) None NONE NONE NONE false false NONE)]);
  ((ParseInterval, 2, $"~-0100/~2020"),
    [(xp (Some ($"-0100-01-01T00:00:00Z")) None NONE NONE NONE false false NONE); (xp (Some ($"-0100-12-31T23:59:59Z")) None NONE NONE NONE false false NONE);
     (xp (Some ($"2020-01-01T00:00:00Z")) None NONE NONE NONE false false NONE); (xp (Some ($"2020-12-31T23:59:59Z")) None NONE NONE NONE false false NONE)]);
  ((ParseInterval, 2, $"~-0100/~-0010"),
    [(xp (Some ($"-0100-01-01T00:00:00Z")) None NONE NONE NONE false false NONE); (xp (Some ($"-0100-12-31T23:59:59Z")) None NONE NONE NONE false false NONE);
     (xp (Some ($"-0010-01-01T00:00:00Z")) None NONE NONE NONE false false NONE); (xp (Some ($"-0010-12-31T23:59:59Z")) None NONE NONE NONE false false NONE)])].

Example repo_tables_pass : forallb run table = true.
Proof. vm_compute. reflexivity. Qed.

(** calendar/calendar_test.go, common/*_test.go, cmp/*_test.go, unix/range_test.go *)
Definition ok_eq (x : res Z) (n : Z) : bool := match x with OK m => m =? n | _ => false end.
Definition is_ok {A} (x : res A) : bool := match x with OK _ => true | _ => false end.
Definition is_true (x : res bool) : bool := match x with OK true => true | _ => false end.
Definition is_false (x : res bool) : bool := match x with OK false => true | _ => false end.
Definition ymd_is (x : res ymd) (y m d : Z) : bool :=
  match x with OK v => ymd_equals v (mkYMD y m d) | _ => false end.
Definition ranges_are (x : res (option unixrange)) (a b c d : Z) : bool :=
  match x with
  | OK (Some (mkURange (mkUSpan a' b') (mkUSpan c' d'))) => (a =? a') && (b =? b') && (c =? c') && (d =? d')
  | _ => false
  end.
Example repo_small_tests_pass :
  forallb (fun b => b)
  [ ok_eq (DaysInMonthWithString ($"2019-02")) 28; ok_eq (DaysInMonthWithString ($"2020-02")) 29;
    ok_eq (DaysInMonthWithString ($"1985-06")) 30; ok_eq (DaysInMonthWithString ($"1950-12")) 31;
    is_ok (StringRangeFromYMD ($"1984-05-31")); is_ok (StringRangeFromYMD ($"2020"));
    is_ok (StringRangeFromYMD ($"1972-11")); is_ok (StringRangeFromYMD ($"1972-XX-31"));
    is_ok (StringRangeFromYMD ($"1972-12-15?")); is_ok (StringRangeFromYMD ($"~1972-12-15"));
    is_ok (StringRangeFromYMD ($"-1967")); is_ok (StringRangeFromYMD ($"2004-06-~20"));
    negb (is_ok (StringRangeFromYMD ($"~2021?")));
    FlipYear (-1900) =? 1900; FlipYear 900 =? -900;
    match time_parse ($"2006-01-02") ($"1970-01-01") with OK t => t_year (TimeToBCE t) =? -1970 | _ => false end;
    ymd_is (YMDFromString ($"2020-02")) 2020 2 29; ymd_is (YMDFromString ($"1972-06")) 1972 6 30;
    ymd_is (YMDFromString ($"1972")) 1972 1 31; ymd_is (YMDFromString ($"-200-05-30")) (-200) 5 30;
    is_true (IsAfter ($"2021-09-10") ($"2020-10-16")); is_true (IsAfter ($"203X") ($"2020-10-16"));
    is_true (IsBefore ($"2017-09-10") ($"2020-10-16")); is_true (IsBefore ($"201X") ($"2020-10-16"));
    is_true (IsBefore ($"2020-09-XX") ($"2020-10-16"));
    is_true (IsBetween ($"2024-03-21") ($"2022-12") ($"2024-06-17"));
    is_true (IsBetween ($"2024-03-21") ($"2024~") ($"2024-06-17"));
    is_true (IsBetween ($"2024-03-21") ($"2024~") ($"2024~"));
    is_true (IsBetween ($"2024-03-21") ($"2024~") OPEN);
    is_true (IsBetween ($"2024-06-18") ($"2024-06-17") OPEN);
    is_false (IsBetween ($"2021-03-21") ($"2022-12") ($"2024-06-17"));
    is_false (IsBetween ($"2024-03-21") ($"2024~") ($"2024-02~"));
    is_false (IsBetween ($"2021-03-21") ($"1984-12") ($"1996-12-08"));
    ranges_are (DeriveRanges ($"2021-05-25")) 1621900800 1621987199 1621900800 1621987199;
    ranges_are (DeriveRanges ($"2021-11-09")) 1636416000 1636502399 1636416000 1636502399;
    match DeriveRanges UNKNOWN with OK None => true | _ => false end;
    match DeriveRanges OPEN with OK None => true | _ => false end;
    forallb IsOpen [OPEN; OPEN_2012]; negb (existsb IsOpen [$""; $"2021-09-28"]);
    forallb IsUnspecified [UNSPECIFIED; UNSPECIFIED_2012]; forallb IsUnknown [UNKNOWN; UNKNOWN_2012];
    forallb IsDeprecated [OPEN_2012; UNSPECIFIED_2012]; negb (existsb IsDeprecated [OPEN; UNSPECIFIED]);
    is_ok (ParseString OPEN); is_ok (ParseString UNKNOWN); IsValid OPEN; IsValid UNKNOWN ] = true.
Proof. vm_compute. reflexivity. Qed.
