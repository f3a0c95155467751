(** Package edtf (the root package): constants, data types, errors, precision
    flags, timestamps, comparison methods. *)
From Coq Require Import Ascii String ZArith NArith Bool List.
From Verif Require Import GoStr GoTime.
Import ListNotations.
Open Scope Z_scope.

(** edtf.go:11-23 (UNCERTAIN, APPROXIMATE, UNCERTAIN_AND_APPROXIMATE, lines 8-10,
    are in Patterns.v) *)
Definition OPEN : str := $"..".
Definition OPEN_2012 : str := $"open".
Definition UNSPECIFIED : str := $"".
Definition UNSPECIFIED_2012 : str := $"uuuu".
Definition UNKNOWN : str := UNSPECIFIED.
Definition UNKNOWN_2012 : str := UNSPECIFIED_2012.
Definition HMS_LOWER : str := $"00:00:00".
Definition HMS_UPPER : str := $"23:59:59".
Definition MAX_YEARS : Z := 9999.

(** edtf.go:26-56 *)
Definition IsOpen (s : str) : bool := seqb s OPEN || seqb s OPEN_2012.
Definition IsUnspecified (s : str) : bool := seqb s UNSPECIFIED || seqb s UNSPECIFIED_2012.
Definition IsUnknown (s : str) : bool := seqb s UNKNOWN || seqb s UNKNOWN_2012.

(** ** precision.go: a uint32 bit set, modelled by N *)
(* precision.go:5-16 *)
Definition NONE : N := 0.
Definition ALL : N := N.shiftl 1 1.
Definition ANY : N := N.shiftl 1 2.
Definition DAY : N := N.shiftl 1 3.
Definition WEEK : N := N.shiftl 1 4.
Definition MONTH : N := N.shiftl 1 5.
Definition YEAR : N := N.shiftl 1 6.
Definition DECADE : N := N.shiftl 1 7.
Definition CENTURY : N := N.shiftl 1 8.
Definition MILLENIUM : N := N.shiftl 1 9.
(* precision.go:22-37 *)
Definition HasFlag (f flag : N) : bool := negb (N.eqb (N.land f flag) 0).
Definition AddFlag (f flag : N) : N := N.lor f flag.
(* f & ^flag; ^ is the complement within 32 bits *)
Definition ClearFlag (f flag : N) : N := N.land f (N.lxor flag 4294967295).
Definition ToggleFlag (f flag : N) : N := N.lxor f flag.
Definition IsAnnual (f : N) : bool := HasFlag f YEAR.
Definition IsMonthly (f : N) : bool := HasFlag f MONTH.
Definition IsDaily (f : N) : bool := HasFlag f DAY.

(** ** ymd.go:7-32 *)
Record ymd := mkYMD { y_year : Z; y_month : Z; y_day : Z }.
Definition ymd_equals (a b : ymd) : bool :=
  if negb (y_year a =? y_year b) then false
  else if negb (y_month a =? y_month b) then false
  else if negb (y_day a =? y_day b) then false
  else true.

(** ** date.go:8-19.  A nil *Timestamp / *YMD is [None]. *)
Record date := mkDate {
  d_datetime : str;
  d_timestamp : option Z;
  d_ymd : option ymd;
  d_uncertain : N;
  d_approximate : N;
  d_unspecified : N;
  d_precision : N;
  d_open : bool;
  d_unknown : bool;
  d_inclusivity : N
}.
Definition zero_date : date := mkDate [] None None 0 0 0 0 false false 0.

(** timestamp.go:13-27: NewTimestampWithTime keeps t.Unix(), Time() gives the
    same instant in UTC; with times as Unix seconds both are the identity. *)
Definition NewTimestampWithTime (t : time) : Z := t.
Definition ts_time (ts : Z) : time := ts.

(** date.go:21-24 *)
Definition SetTime (d : date) (t : time) : date :=
  mkDate (format_rfc3339 t) (Some (NewTimestampWithTime t)) (d_ymd d)
         (d_uncertain d) (d_approximate d) (d_unspecified d) (d_precision d)
         (d_open d) (d_unknown d) (d_inclusivity d).

Definition set_open (d : date) : date :=
  mkDate (d_datetime d) (d_timestamp d) (d_ymd d) (d_uncertain d) (d_approximate d)
         (d_unspecified d) (d_precision d) true (d_unknown d) (d_inclusivity d).
Definition set_unknown (d : date) : date :=
  mkDate (d_datetime d) (d_timestamp d) (d_ymd d) (d_uncertain d) (d_approximate d)
         (d_unspecified d) (d_precision d) (d_open d) true (d_inclusivity d).
Definition set_inclusivity (d : date) (i : N) : date :=
  mkDate (d_datetime d) (d_timestamp d) (d_ymd d) (d_uncertain d) (d_approximate d)
         (d_unspecified d) (d_precision d) (d_open d) (d_unknown d) i.

(** timestamp.go:29-45 on the raw JSON bytes *)
Definition ts_unmarshal (b : str) : res Z := parse_int (trim """" b).
Definition ts_marshal (ts : Z) : str := itoa ts.

(** ** daterange.go:7-11, datespan.go:7-10, edtf.go:58-64.  The library never
    leaves the Lower/Upper/Start/End pointers nil, so they are plain values. *)
Record daterange := mkRange { r_edtf : str; r_lower : date; r_upper : date }.
Record datespan := mkSpan { s_start : daterange; s_end : daterange }.
Record edtfdate := mkEDTF {
  e_start : daterange;
  e_end : daterange;
  e_edtf : str;
  e_level : Z;
  e_feature : str
}.

(** ** errors.go *)
(* errors.go:14-16 - returns a NotImplementedError with empty fields *)
Definition NotSet : err := ENotImplemented [] [].
Definition NotImplemented (label s : str) : err := ENotImplemented label s.
Definition Invalid (label s : str) : err := EInvalid label s.
Definition Unsupported (label s : str) : err := EUnsupported label s.
Definition Unrecognized (label s : str) : err := EUnrecognized label s.
(* errors.go:18-26, 44-52, 70-78, 96-104, 122-130: type switches, no unwrapping *)
Definition IsNotSet (e : err) : bool := match e with ENotSet => true | _ => false end.
Definition IsNotImplemented (e : err) : bool := match e with ENotImplemented _ _ => true | _ => false end.
Definition IsInvalid (e : err) : bool := match e with EInvalid _ _ => true | _ => false end.
Definition IsUnsupported (e : err) : bool := match e with EUnsupported _ _ => true | _ => false end.
Definition IsUnrecognized (e : err) : bool := match e with EUnrecognized _ _ => true | _ => false end.

(** ** deprecated.go:11-42.  The map has two entries; the iteration order of the
    map does not affect the result. *)
Definition deprecated : list (str * str) :=
  [(OPEN_2012, OPEN); (UNSPECIFIED_2012, UNSPECIFIED)].
Definition IsDeprecated (s : str) : bool := existsb (fun kv => seqb s (fst kv)) deprecated.
(* %v of a map: the entries in the order of their keys *)
Definition deprecated_v : str :=
  $"map[" ++ OPEN_2012 ++ $":" ++ OPEN ++ $" " ++ UNSPECIFIED_2012 ++ $":" ++ UNSPECIFIED ++ $"]".
Definition ReplaceDeprecated (old : str) : res str :=
  match find (fun kv => seqb old (fst kv)) deprecated with
  | Some (_, new) => OK new
  | None => Err (EText ($"Unknown or unsupported EDTF string '" ++ old ++ $"' : " ++ deprecated_v))
  end.

(** ** edtf.go:66-98 *)
Definition Lower (d : edtfdate) : res time :=
  match d_timestamp (r_lower (e_start d)) with
  | None => Err NotSet
  | Some ts => OK (ts_time ts)
  end.
Definition Upper (d : edtfdate) : res time :=
  match d_timestamp (r_upper (e_end d)) with
  | None => Err NotSet
  | Some ts => OK (ts_time ts)
  end.
Definition edtf_string (d : edtfdate) : str := e_edtf d.

Definition wrap_err {A} (msg : str) (x : res A) : res A :=
  match x with Err e => Err (EWrap msg e) | _ => x end.

(** edtf.go:101-124; Time.After is [>] on instants *)
Definition After (d u : edtfdate) : res bool :=
  if IsOpen (e_edtf d) then OK false
  else
    let* u_t := wrap_err ($"Failed to derive upper time for inception date (" ++ e_edtf u ++ $")") (Upper u) in
    let* t := wrap_err ($"Failed to derive lower time for cessation date (" ++ e_edtf d ++ $")") (Lower d) in
    if t <? u_t then OK false else OK true.

(** edtf.go:127-150 *)
Definition Before (d u : edtfdate) : res bool :=
  if IsOpen (e_edtf d) then OK false
  else
    let* u_t := wrap_err ($"Failed to derive lower time for inception date (" ++ e_edtf u ++ $")") (Lower u) in
    let* t := wrap_err ($"Failed to derive upper time for cessation date (" ++ e_edtf d ++ $")") (Upper d) in
    if u_t <? t then OK false else OK true.
