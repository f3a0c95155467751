(** Package level1. *)
From Coq Require Import Ascii String ZArith NArith Bool List.
From Verif Require Import GoStr GoTime Regex Patterns Edtf Calendar Common.
Import ListNotations.
Open Scope Z_scope.

(* level1/level1.go:8-17 *)
Definition LEVEL1 : Z := 1.
Definition LETTER_PREFIXED_CALENDAR_YEAR : str := $"Letter-prefixed calendar year".
Definition SEASON : str := $"Seasons".
Definition QUALIFIED_DATE : str := $"Qualification of a date (complete)".
Definition UNSPECIFIED_DIGITS : str := $"Unspecified digit(s) from the right".
Definition EXTENDED_INTERVAL : str := $"Extended Interval".
Definition EXTENDED_INTERVAL_START : str := $"Extended Interval (Start)".
Definition EXTENDED_INTERVAL_END : str := $"Extended Interval (End)".
Definition NEGATIVE_CALENDAR_YEAR : str := $"Negative calendar year".

Definition IsLevel1 (s : str) : bool := match_string Level1_re s.   (* level1.go:19-21 *)
(* letter_prefixed_calendar_year.go:19-21, season.go:23-25, qualified_date.go:21-23,
   unspecified_digits.go:28-30, negative_calendar_year.go:19-21 *)
Definition IsLetterPrefixedCalendarYear (s : str) : bool := match_string LetterPrefixedCalendarYear s.
Definition IsSeason (s : str) : bool := match_string Season s.
Definition IsQualifiedDate (s : str) : bool := match_string QualifiedDate s.
Definition IsUnspecifiedDigits (s : str) : bool := match_string UnspecifiedDigits s.
Definition IsNegativeCalendarYear (s : str) : bool := match_string NegativeYear s.
(* extended_interval.go:55-66: true in every case *)
Definition IsExtendedInterval (s : str) : bool :=
  if match_string IntervalEnd s then true
  else if match_string IntervalStart s then true
  else true.

(* letter_prefixed_calendar_year.go:23-69 *)
Definition ParseLetterPrefixedCalendarYear (s : str) : res edtfdate :=
  let m := find_submatch LetterPrefixedCalendarYear s in
  if negb (Nat.eqb (length m) 2) then Err (Invalid LETTER_PREFIXED_CALENDAR_YEAR s)
  else
    let yyyy := sub m 1 in
    let max_length := if has_prefix yyyy ($"-") then 5%nat else 4%nat in
    if Nat.ltb max_length (length yyyy) then Err (Unsupported LETTER_PREFIXED_CALENDAR_YEAR s)
    else let* sp := DateSpanFromEDTF yyyy in OK (edtf_of_span sp s LEVEL1 LETTER_PREFIXED_CALENDAR_YEAR).

(* season.go:61-100: start year, month, end year, month of a season word *)
Definition season_word (season : str) (yyyy : Z) : option (Z * Z * Z * Z) :=
  let s := to_upper season in
  if seqb s ($"WINTER") then Some (yyyy, 12, yyyy + 1, 2)
  else if seqb s ($"SPRING") then Some (yyyy, 3, yyyy, 5)
  else if seqb s ($"SUMMER") then Some (yyyy, 6, yyyy, 8)
  else if seqb s ($"FALL") then Some (yyyy, 9, yyyy, 11)
  else None.
(* season.go:119-164 *)
Definition season_code (mm yyyy : Z) : Z * Z * Z * Z :=
  if mm =? 21 then (yyyy, 3, yyyy, 5)
  else if mm =? 22 then (yyyy, 6, yyyy, 8)
  else if mm =? 23 then (yyyy, 9, yyyy, 11)
  else if mm =? 24 then (yyyy, 12, yyyy + 1, 2)
  else (yyyy, mm, yyyy, mm).

(* season.go:27-193.  The additions yyyy + 1 are unbounded here; yyyy has at most
   four digits. *)
Definition ParseSeason (s : str) : res edtfdate :=
  let m := find_submatch Season s in
  if negb (Nat.eqb (length m) 5) then Err (Invalid SEASON s)
  else
    let* (start_yyyy, start_mm, end_yyyy, end_mm) :=
      if is_empty (sub m 1) then
        let* yyyy := atoi (sub m 4) in
        match season_word (sub m 3) yyyy with
        | Some x => OK x
        | None => Err (Invalid SEASON s)
        end
      else
        let* yyyy := atoi (sub m 1) in
        let* mm := atoi (sub m 2) in
        OK (season_code mm yyyy) in
    let start_dd := 1 in
    let* end_dd := DaysInMonth end_yyyy end_mm in
    let _str := fmt_0d 4 start_yyyy ++ $"-" ++ fmt_0d 2 start_mm ++ $"-" ++ fmt_0d 2 start_dd ++ $"/" ++
                fmt_0d 4 end_yyyy ++ $"-" ++ fmt_0d 2 end_mm ++ $"-" ++ fmt_0d 2 end_dd in
    let* sp := DateSpanFromEDTF _str in
    OK (edtf_of_span sp s LEVEL1 SEASON).

(* qualified_date.go:25-46 *)
Definition ParseQualifiedDate (s : str) : res edtfdate :=
  if negb (match_string QualifiedDate s) then Err (Invalid QUALIFIED_DATE s)
  else let* sp := DateSpanFromEDTF s in OK (edtf_of_span sp s LEVEL1 QUALIFIED_DATE).

(* unspecified_digits.go:32-53 *)
Definition ParseUnspecifiedDigits (s : str) : res edtfdate :=
  if negb (match_string UnspecifiedDigits s) then Err (Invalid UNSPECIFIED_DIGITS s)
  else let* sp := DateSpanFromEDTF s in OK (edtf_of_span sp s LEVEL1 UNSPECIFIED_DIGITS).

(* negative_calendar_year.go:23-44 *)
Definition ParseNegativeCalendarYear (s : str) : res edtfdate :=
  if negb (match_string NegativeYear s) then Err (Invalid NEGATIVE_CALENDAR_YEAR s)
  else let* sp := DateSpanFromEDTF s in OK (edtf_of_span sp s LEVEL1 NEGATIVE_CALENDAR_YEAR).

(* extended_interval.go:81-113 *)
Definition ParseExtendedIntervalStart (s : str) : res edtfdate :=
  if negb (match_string IntervalStart s) then Err (Invalid EXTENDED_INTERVAL_START s)
  else let* sp := DateSpanFromEDTF s in OK (edtf_of_span sp s LEVEL1 EXTENDED_INTERVAL_START).

(* extended_interval.go:115-141 *)
Definition ParseExtendedIntervalEnd (s : str) : res edtfdate :=
  if negb (match_string IntervalEnd s) then Err (Invalid EXTENDED_INTERVAL_END s)
  else let* sp := DateSpanFromEDTF s in OK (edtf_of_span sp s LEVEL1 EXTENDED_INTERVAL_END).

(* extended_interval.go:68-79 *)
Definition ParseExtendedInterval (s : str) : res edtfdate :=
  if match_string IntervalStart s then ParseExtendedIntervalStart s
  else if match_string IntervalEnd s then ParseExtendedIntervalEnd s
  else Err (Invalid EXTENDED_INTERVAL s).

(* level1.go:23-57 *)
Definition L1_Matches (s : str) : res str :=
  if IsLetterPrefixedCalendarYear s then OK LETTER_PREFIXED_CALENDAR_YEAR
  else if IsSeason s then OK SEASON
  else if IsQualifiedDate s then OK QUALIFIED_DATE
  else if IsUnspecifiedDigits s then OK UNSPECIFIED_DIGITS
  else if IsNegativeCalendarYear s then OK NEGATIVE_CALENDAR_YEAR
  else if IsExtendedInterval s && match_string IntervalStart s then OK EXTENDED_INTERVAL_START
  else if IsExtendedInterval s && match_string IntervalEnd s then OK EXTENDED_INTERVAL_END
  else Err (Invalid ($"Invalid Level 1 string") s).

(* level1.go:59-86 *)
Definition L1_ParseString (s : str) : res edtfdate :=
  if IsLetterPrefixedCalendarYear s then ParseLetterPrefixedCalendarYear s
  else if IsSeason s then ParseSeason s
  else if IsQualifiedDate s then ParseQualifiedDate s
  else if IsUnspecifiedDigits s then ParseUnspecifiedDigits s
  else if IsNegativeCalendarYear s then ParseNegativeCalendarYear s
  else if IsExtendedInterval s then ParseExtendedInterval s
  else Err (Invalid ($"Invalid or unsupported Level 1 EDTF string") s).
