(** The parser once more, with the objects its pointers point to: what is allocated,
    what is shared, and what is assigned through a pointer.  The other files model
    pointers by values; C77 shows that this gives the same dates. *)
From Coq Require Import Ascii String ZArith NArith Bool List.
From Verif Require Import GoStr GoTime Regex Patterns Edtf Calendar Common Level0 Level1 Level2 Parser.
Import ListNotations.
Open Scope Z_scope.

(** ** Objects.  An address is the number of the object among those of its type.
    Timestamps are no objects here: each is made by SetTime for one Date (date.go:23)
    and handed to no other; only Timestamp.UnmarshalJSON (timestamp.go:38) assigns to
    one, and the parser does not call it. *)
(* date.go:8-19 *)
Record hdate := mkHDate {
  hd_datetime : str; hd_timestamp : option Z; hd_ymd : option nat;
  hd_uncertain : N; hd_approximate : N; hd_unspecified : N; hd_precision : N;
  hd_open : bool; hd_unknown : bool; hd_inclusivity : N }.
(* daterange.go:7-11 *)
Record hrange := mkHRange { hr_edtf : str; hr_lower : nat; hr_upper : nat }.
(* datespan.go:7-10; the spans themselves do not leave the parser and none of them is
   shared, so they are values *)
Record hspan := mkHSpan { hs_start : nat; hs_end : nat }.
(* edtf.go:58-64 *)
Record hedtf := mkHEDTF { he_start : nat; he_end : nat; he_edtf : str; he_level : Z; he_feature : str }.
Record heap := mkHeap { h_ymds : list ymd; h_dates : list hdate; h_ranges : list hrange }.

(** Computations that may allocate and assign, and fail. *)
Definition M (A : Type) : Type := heap -> res A * heap.
Definition ret {A} (a : A) : M A := fun h => (OK a, h).
Definition lift {A} (x : res A) : M A := fun h => (x, h).
Definition mbind {A B} (m : M A) (k : A -> M B) : M B := fun h =>
  match m h with
  | (OK a, h') => k a h'
  | (Err e, h') => (Err e, h')
  | (Panic, h') => (Panic, h')
  end.
Notation "'let!' x ':=' m 'in' k" := (mbind m (fun x => k)) (at level 200, x pattern, m at level 100, k at level 200).
(* &T{...} *)
Definition new_ymd (v : ymd) : M nat := fun h =>
  (OK (length (h_ymds h)), mkHeap (h_ymds h ++ [v]) (h_dates h) (h_ranges h)).
Definition new_date (c : hdate) : M nat := fun h =>
  (OK (length (h_dates h)), mkHeap (h_ymds h) (h_dates h ++ [c]) (h_ranges h)).
Definition new_range (c : hrange) : M nat := fun h =>
  (OK (length (h_ranges h)), mkHeap (h_ymds h) (h_dates h) (h_ranges h ++ [c])).
(* reading through a pointer and assigning through it *)
Definition get_date (a : nat) : M hdate := fun h =>
  (match nth_error (h_dates h) a with Some c => OK c | None => Panic end, h).
Definition get_range (a : nat) : M hrange := fun h =>
  (match nth_error (h_ranges h) a with Some c => OK c | None => Panic end, h).
Fixpoint update {A} (l : list A) (a : nat) (c : A) : list A :=
  match l, a with
  | [], _ => []
  | _ :: l', O => c :: l'
  | x :: l', S b => x :: update l' b c
  end.
Definition put_date (a : nat) (c : hdate) : M unit := fun h => (OK tt, mkHeap (h_ymds h) (update (h_dates h) a c) (h_ranges h)).
Definition put_range (a : nat) (c : hrange) : M unit := fun h => (OK tt, mkHeap (h_ymds h) (h_dates h) (update (h_ranges h) a c)).

(** ** Assignments to single fields *)
(* date.go:21-24 *)
Definition HSetTime (a : nat) (t : time) : M unit :=
  let! c := get_date a in
  put_date a (mkHDate (format_rfc3339 t) (Some (NewTimestampWithTime t)) (hd_ymd c) (hd_uncertain c) (hd_approximate c)
                      (hd_unspecified c) (hd_precision c) (hd_open c) (hd_unknown c) (hd_inclusivity c)).
Definition assign_open (a : nat) : M unit :=
  let! c := get_date a in
  put_date a (mkHDate (hd_datetime c) (hd_timestamp c) (hd_ymd c) (hd_uncertain c) (hd_approximate c)
                      (hd_unspecified c) (hd_precision c) true (hd_unknown c) (hd_inclusivity c)).
Definition assign_unknown (a : nat) : M unit :=
  let! c := get_date a in
  put_date a (mkHDate (hd_datetime c) (hd_timestamp c) (hd_ymd c) (hd_uncertain c) (hd_approximate c)
                      (hd_unspecified c) (hd_precision c) (hd_open c) true (hd_inclusivity c)).
Definition assign_inclusivity (a : nat) (i : N) : M unit :=
  let! c := get_date a in
  put_date a (mkHDate (hd_datetime c) (hd_timestamp c) (hd_ymd c) (hd_uncertain c) (hd_approximate c)
                      (hd_unspecified c) (hd_precision c) (hd_open c) (hd_unknown c) i).
Definition assign_edtf (r : nat) (s : str) : M unit :=
  let! c := get_range r in put_range r (mkHRange s (hr_lower c) (hr_upper c)).
Definition assign_lower (r a : nat) : M unit :=
  let! c := get_range r in put_range r (mkHRange (hr_edtf c) a (hr_upper c)).
Definition assign_upper (r a : nat) : M unit :=
  let! c := get_range r in put_range r (mkHRange (hr_edtf c) (hr_lower c) a).

(** ** common/range.go and common/span.go *)
Definition hzero_date : hdate := mkHDate [] None None 0 0 0 0 false false 0.
(* range.go:472-483 *)
Definition HEmptyDateRange : M nat :=
  let! lower_d := new_date hzero_date in
  let! upper_d := new_date hzero_date in
  new_range (mkHRange [] lower_d upper_d).
(* range.go:485-491 *)
Definition HUnknownDateRange : M nat :=
  let! dr := HEmptyDateRange in
  let! r := get_range dr in
  let! _ := assign_unknown (hr_lower r) in
  let! _ := assign_unknown (hr_upper r) in
  ret dr.
(* range.go:493-499 *)
Definition HOpenDateRange : M nat :=
  let! dr := HEmptyDateRange in
  let! r := get_range dr in
  let! _ := assign_open (hr_lower r) in
  let! _ := assign_open (hr_upper r) in
  ret dr.
(* span.go:260-284 *)
Definition HUnknownDateSpan : M hspan :=
  let! s := HUnknownDateRange in let! e := HUnknownDateRange in ret (mkHSpan s e).
Definition HOpenDateSpan : M hspan :=
  let! s := HOpenDateRange in let! e := HOpenDateRange in ret (mkHSpan s e).

(* span.go:90-245 *)
Definition HdateSpanFromYMD (edtf_str : str) : M hspan :=
  let! sr := lift (StringRangeFromYMD edtf_str) in
  let! v := lift (YMDFromStringDate (sr_start sr)) in
  let! start_ymd := new_ymd v in
  let! w := lift (YMDFromStringDate (sr_end sr)) in
  let! end_ymd := new_ymd w in
  let! (sl, su, el, eu) :=
    if sd_equals (sr_end sr) (sr_start sr) then
      let! st := lift (TimeWithYMD v HMS_LOWER) in
      let! et := lift (TimeWithYMD w HMS_UPPER) in
      ret (st, st, et, et)
    else
      let! sl := lift (TimeWithYMD v HMS_LOWER) in
      let! su := lift (TimeWithYMD v HMS_UPPER) in
      let! el := lift (TimeWithYMD w HMS_LOWER) in
      let! eu := lift (TimeWithYMD w HMS_UPPER) in
      ret (sl, su, el, eu) in
  let cell y := mkHDate [] None (Some y) (sr_uncertain sr) (sr_approximate sr) 0 (sr_precision sr) false false 0 in
  let! start_lower := new_date (cell start_ymd) in
  let! start_upper := new_date (cell start_ymd) in
  let! end_lower := new_date (cell end_ymd) in
  let! end_upper := new_date (cell end_ymd) in
  let! _ := HSetTime start_lower sl in
  let! _ := HSetTime start_upper su in
  let! _ := HSetTime end_lower el in
  let! _ := HSetTime end_upper eu in
  let! start_range := new_range (mkHRange edtf_str start_lower start_upper) in
  let! end_range := new_range (mkHRange edtf_str end_lower end_upper) in
  ret (mkHSpan start_range end_range).

(* span.go:57-88 *)
Definition HdateSpanFromEDTF (edtf_str : str) : M hspan :=
  if seqb edtf_str UNKNOWN then
    let! span := HUnknownDateSpan in
    let! _ := assign_edtf (hs_start span) edtf_str in
    let! _ := assign_edtf (hs_end span) edtf_str in
    ret span
  else if seqb edtf_str OPEN then
    let! span := HOpenDateSpan in
    let! _ := assign_edtf (hs_start span) edtf_str in
    let! _ := assign_edtf (hs_end span) edtf_str in
    ret span
  else HdateSpanFromYMD edtf_str.

(* span.go:9-53 *)
Definition HDateSpanFromEDTF (edtf_str : str) : M hspan :=
  match split edtf_str ($"/") with
  | [left_edtf; right_edtf] =>
      let! l := HdateSpanFromEDTF left_edtf in
      let! r := HdateSpanFromEDTF right_edtf in
      let! le := get_range (hs_end l) in
      let! _ := assign_upper (hs_start l) (hr_upper le) in
      let! rs := get_range (hs_start r) in
      let! _ := assign_lower (hs_end r) (hr_lower rs) in
      ret (mkHSpan (hs_start l) (hs_end r))
  | [left_edtf] => HdateSpanFromYMD left_edtf
  | _ => lift (Err (Invalid ($"date span") edtf_str))
  end.

(* The EDTFDate construction that ends every feature parser. *)
Definition hedtf_of_span (sp : hspan) (edtf_str : str) (level : Z) (feature : str) : hedtf :=
  mkHEDTF (hs_start sp) (hs_end sp) edtf_str level feature.

(** ** level0 *)
(* level0/date.go:26-47 *)
Definition HParseDate (s : str) : M hedtf :=
  if negb (match_string Date_re s) then lift (Err (Invalid DATE s))
  else let! sp := HDateSpanFromEDTF s in ret (hedtf_of_span sp s LEVEL0 DATE).
(* level0/date_and_time.go:35-104 *)
Definition HParseDateAndTime (s : str) : M hedtf :=
  let m := find_submatch DateAndTime s in
  if negb (Nat.eqb (length m) 12) then lift (Err (Invalid DATE_AND_TIME s))
  else
    let t_fmt := $"2006-01-02T15:04:05" in
    let t_fmt := if seqb (sub m 7) ($"Z") then $"2006-01-02T15:04:05Z" else t_fmt in
    let t_fmt := if seqb (sub m 8) ($"-") || seqb (sub m 8) ($"+")
                 then if has_prefix (sub m 10) ($":") then $"2006-01-02T15:04:05-07:00"
                      else $"2006-01-02T15:04:05-07"
                 else t_fmt in
    let is_bce := has_prefix s ($"-") in
    let t_fmt := if is_bce then $"-" ++ t_fmt else t_fmt in
    let! t := lift (time_parse t_fmt s) in
    let t := if is_bce then TimeToBCE t else t in
    let! upper_date := new_date hzero_date in
    let! lower_date := new_date hzero_date in
    let! _ := HSetTime upper_date t in
    let! _ := HSetTime lower_date t in
    let! start := new_range (mkHRange [] lower_date lower_date) in
    let! end_ := new_range (mkHRange [] upper_date upper_date) in
    ret (mkHEDTF start end_ s LEVEL0 DATE_AND_TIME).
(* level0/time_interval.go:28-49 *)
Definition HParseTimeInterval (s : str) : M hedtf :=
  if negb (match_string TimeInterval s) then lift (Err (Invalid TIME_INTERVAL s))
  else let! sp := HDateSpanFromEDTF s in ret (hedtf_of_span sp s LEVEL0 TIME_INTERVAL).
(* level0/level0.go:35-50 *)
Definition HL0_ParseString (s : str) : M hedtf :=
  if IsDate s then HParseDate s
  else if IsDateAndTime s then HParseDateAndTime s
  else if IsTimeInterval s then HParseTimeInterval s
  else lift (Err (Invalid ($"Invalid Level 0 string") s)).

(** ** level1 *)
(* letter_prefixed_calendar_year.go:23-69 *)
Definition HParseLetterPrefixedCalendarYear (s : str) : M hedtf :=
  let m := find_submatch LetterPrefixedCalendarYear s in
  if negb (Nat.eqb (length m) 2) then lift (Err (Invalid LETTER_PREFIXED_CALENDAR_YEAR s))
  else
    let yyyy := sub m 1 in
    let max_length := if has_prefix yyyy ($"-") then 5%nat else 4%nat in
    if Nat.ltb max_length (length yyyy) then lift (Err (Unsupported LETTER_PREFIXED_CALENDAR_YEAR s))
    else let! sp := HDateSpanFromEDTF yyyy in ret (hedtf_of_span sp s LEVEL1 LETTER_PREFIXED_CALENDAR_YEAR).
(* season.go:27-193 *)
Definition HParseSeason (s : str) : M hedtf :=
  let m := find_submatch Season s in
  if negb (Nat.eqb (length m) 5) then lift (Err (Invalid SEASON s))
  else
    let! (start_yyyy, start_mm, end_yyyy, end_mm) :=
      if is_empty (sub m 1) then
        let! yyyy := lift (atoi (sub m 4)) in
        match season_word (sub m 3) yyyy with
        | Some x => ret x
        | None => lift (Err (Invalid SEASON s))
        end
      else
        let! yyyy := lift (atoi (sub m 1)) in
        let! mm := lift (atoi (sub m 2)) in
        ret (season_code mm yyyy) in
    let start_dd := 1 in
    let! end_dd := lift (DaysInMonth end_yyyy end_mm) in
    let _str := fmt_0d 4 start_yyyy ++ $"-" ++ fmt_0d 2 start_mm ++ $"-" ++ fmt_0d 2 start_dd ++ $"/" ++
                fmt_0d 4 end_yyyy ++ $"-" ++ fmt_0d 2 end_mm ++ $"-" ++ fmt_0d 2 end_dd in
    let! sp := HDateSpanFromEDTF _str in
    ret (hedtf_of_span sp s LEVEL1 SEASON).
(* qualified_date.go:25-46 *)
Definition HParseQualifiedDate (s : str) : M hedtf :=
  if negb (match_string QualifiedDate s) then lift (Err (Invalid QUALIFIED_DATE s))
  else let! sp := HDateSpanFromEDTF s in ret (hedtf_of_span sp s LEVEL1 QUALIFIED_DATE).
(* unspecified_digits.go:32-53 *)
Definition HParseUnspecifiedDigits (s : str) : M hedtf :=
  if negb (match_string UnspecifiedDigits s) then lift (Err (Invalid UNSPECIFIED_DIGITS s))
  else let! sp := HDateSpanFromEDTF s in ret (hedtf_of_span sp s LEVEL1 UNSPECIFIED_DIGITS).
(* negative_calendar_year.go:23-44 *)
Definition HParseNegativeCalendarYear (s : str) : M hedtf :=
  if negb (match_string NegativeYear s) then lift (Err (Invalid NEGATIVE_CALENDAR_YEAR s))
  else let! sp := HDateSpanFromEDTF s in ret (hedtf_of_span sp s LEVEL1 NEGATIVE_CALENDAR_YEAR).
(* extended_interval.go:81-113 *)
Definition HParseExtendedIntervalStart (s : str) : M hedtf :=
  if negb (match_string IntervalStart s) then lift (Err (Invalid EXTENDED_INTERVAL_START s))
  else let! sp := HDateSpanFromEDTF s in ret (hedtf_of_span sp s LEVEL1 EXTENDED_INTERVAL_START).
(* extended_interval.go:115-141 *)
Definition HParseExtendedIntervalEnd (s : str) : M hedtf :=
  if negb (match_string IntervalEnd s) then lift (Err (Invalid EXTENDED_INTERVAL_END s))
  else let! sp := HDateSpanFromEDTF s in ret (hedtf_of_span sp s LEVEL1 EXTENDED_INTERVAL_END).
(* extended_interval.go:68-79 *)
Definition HParseExtendedInterval (s : str) : M hedtf :=
  if match_string IntervalStart s then HParseExtendedIntervalStart s
  else if match_string IntervalEnd s then HParseExtendedIntervalEnd s
  else lift (Err (Invalid EXTENDED_INTERVAL s)).
(* level1.go:59-86 *)
Definition HL1_ParseString (s : str) : M hedtf :=
  if IsLetterPrefixedCalendarYear s then HParseLetterPrefixedCalendarYear s
  else if IsSeason s then HParseSeason s
  else if IsQualifiedDate s then HParseQualifiedDate s
  else if IsUnspecifiedDigits s then HParseUnspecifiedDigits s
  else if IsNegativeCalendarYear s then HParseNegativeCalendarYear s
  else if IsExtendedInterval s then HParseExtendedInterval s
  else lift (Err (Invalid ($"Invalid or unsupported Level 1 EDTF string") s)).

(** ** level2 *)
(* exponential_year.go:25-67 *)
Definition HParseExponentialYear (s : str) : M hedtf :=
  if negb (match_string ExponentialYear s) then lift (Err (Invalid EXPONENTIAL_YEAR s))
  else
    let m := find_submatch ExponentialYear s in
    if negb (Nat.eqb (length m) 2) then lift (Err (Invalid EXPONENTIAL_YEAR s))
    else
      let! yyyy := lift (ParseExponentialNotation (sub m 1)) in
      let! sp := HDateSpanFromEDTF (itoa yyyy) in
      ret (hedtf_of_span sp s LEVEL2 EXPONENTIAL_YEAR).
(* significant_digits.go:31-138 *)
Definition HParseSignificantDigits (s : str) : M hedtf :=
  let m := find_submatch SignificantDigits s in
  if negb (Nat.eqb (length m) 5) then lift (Err (Invalid SIGNIFICANT_DIGITS s))
  else
    let! yyyy := lift (
      if negb (is_empty (sub m 1)) then or_invalid (atoi (sub m 1)) SIGNIFICANT_DIGITS s
      else if negb (is_empty (sub m 2)) then
        if 4 <? slen (sub m 2) then Err (Unsupported SIGNIFICANT_DIGITS s)
        else or_invalid (atoi (sub m 2)) SIGNIFICANT_DIGITS s
      else if negb (is_empty (sub m 3)) then ParseExponentialNotation (sub m 3)
      else Err (Invalid SIGNIFICANT_DIGITS s)) in
    if MAX_YEARS <? yyyy then lift (Err (Unsupported SIGNIFICANT_DIGITS s))
    else
      let! digits := lift (or_invalid (atoi (sub m 4)) SIGNIFICANT_DIGITS s) in
      if slen (itoa yyyy) <? slen (itoa digits) then lift (Err (Invalid SIGNIFICANT_DIGITS s))
      else
        let str_yyyy := itoa yyyy in
        if (slen str_yyyy <? digits) || (digits <? 0) then lift Panic
        else
          let prefix_yyyy := firstn (length str_yyyy - Z.to_nat digits) str_yyyy in
          let start_yyyy := prefix_yyyy ++ repeat_str ($"0") (Z.to_nat digits) in
          let end_yyyy := prefix_yyyy ++ repeat_str ($"9") (Z.to_nat digits) in
          let _str := if has_prefix start_yyyy ($"-") && has_prefix end_yyyy ($"-")
                      then end_yyyy ++ $"/" ++ start_yyyy
                      else start_yyyy ++ $"/" ++ end_yyyy in
          let! sp := HDateSpanFromEDTF _str in
          ret (hedtf_of_span sp s LEVEL2 SIGNIFICANT_DIGITS).
(* sub_year_grouping.go:46-204 *)
Definition HParseSubYearGroupings (s : str) : M hedtf :=
  let m := find_submatch SubYearGrouping s in
  if negb (Nat.eqb (length m) 3) then lift (Err (Invalid SUB_YEAR_GROUPINGS s))
  else
    let year := sub m 1 in
    match grouping_bounds (sub m 2) with
    | None => lift (Err (Invalid SUB_YEAR_GROUPINGS s))
    | Some (start_mm, start_dd, end_mm, end_dd, next) =>
        let! end_yyyy := lift (if (next : bool) then let* y := atoi year in OK (itoa (y + 1)) else OK year) in
        let start := year ++ $"-" ++ start_mm ++ $"-" ++ start_dd in
        let end_ := end_yyyy ++ $"-" ++ end_mm in
        let end_ := if is_empty end_dd then end_ else end_ ++ $"-" ++ end_dd in
        let! sp := HDateSpanFromEDTF (start ++ $"/" ++ end_) in
        ret (hedtf_of_span sp s LEVEL2 SUB_YEAR_GROUPINGS)
    end.
(* set_representation.go:208-222: the assignments for a set that is open although two
   of its members were parsed as an interval *)
Definition reopen (start_open end_open : bool) (sp : hspan) : M hspan :=
  let! open_range := HOpenDateRange in
  let! sp := if start_open then
               let! r := get_range (hs_start sp) in
               let! _ := assign_lower (hs_end sp) (hr_lower r) in
               ret (mkHSpan open_range (hs_end sp))
             else ret sp in
  if end_open then
    let! r := get_range (hs_end sp) in
    let! _ := assign_upper (hs_start sp) (hr_upper r) in
    ret (mkHSpan (hs_start sp) open_range)
  else ret sp.
(* set_representation.go:224-232 *)
Definition include (r : nat) (i : N) : M unit :=
  let! c := get_range r in
  let! _ := assign_inclusivity (hr_lower c) i in
  let! c := get_range r in
  assign_inclusivity (hr_upper c) i.
(* set_representation.go:54-243 *)
Definition HParseSetRepresentations (s : str) : M hedtf :=
  let m := find_submatch SetRepresentations s in
  if negb (Nat.eqb (length m) 6) then lift (Err (Invalid SET_REPRESENTATIONS s))
  else
    let class := sub m 1 in
    let candidates := sub m 2 in
    let! inclusivity := lift (if seqb class ($"[") then OK ANY
                        else if seqb class ($"{") then OK ALL
                        else Err (Invalid SET_REPRESENTATIONS s)) in
    let! (possible, start_open, end_open) := lift (set_members s (split candidates ($","))) in
    let possible := sort_strs possible in
    match possible with
    | [] => lift (Err (Invalid SET_REPRESENTATIONS s))
    | start_ymd :: _ =>
        let end_ymd := last possible start_ymd in
        let _str :=
          if (start_open : bool) then $"../" ++ start_ymd
          else if (end_open : bool) then start_ymd ++ $"/.."
          else if negb (seqb start_ymd end_ymd) then start_ymd ++ $"/" ++ end_ymd
          else start_ymd in
        let open_post_facto := (start_open || end_open) && Nat.ltb 1 (length possible) in
        let _str := if open_post_facto then start_ymd ++ $"/" ++ end_ymd else _str in
        let! sp := HDateSpanFromEDTF _str in
        let! sp := if open_post_facto then reopen start_open end_open sp else ret sp in
        let! _ := if start_open then ret tt else include (hs_start sp) inclusivity in
        let! _ := if end_open then ret tt else include (hs_end sp) inclusivity in
        ret (hedtf_of_span sp s LEVEL2 SET_REPRESENTATIONS)
    end.
(* qualification.go:27-56 *)
Definition HParseGroupQualification (s : str) : M hedtf :=
  if negb (match_string GroupQualification s) then lift (Err (Invalid GROUP_QUALIFICATION s))
  else let! sp := HDateSpanFromEDTF s in ret (hedtf_of_span sp s LEVEL2 GROUP_QUALIFICATION).
(* qualification.go:75-103 *)
Definition HParseIndividualQualification (s : str) : M hedtf :=
  if negb (match_string IndividualQualification s) then lift (Err (Invalid INDIVIDUAL_QUALIFICATION s))
  else let! sp := HDateSpanFromEDTF s in ret (hedtf_of_span sp s LEVEL2 INDIVIDUAL_QUALIFICATION).
(* unspecified_digit.go:36-67 *)
Definition HParseUnspecifiedDigit (s : str) : M hedtf :=
  if negb (match_string UnspecifiedDigit s) then lift (Err (Invalid UNSPECIFIED_DIGIT s))
  else let! sp := HDateSpanFromEDTF s in ret (hedtf_of_span sp s LEVEL2 UNSPECIFIED_DIGIT).
(* interval.go:27-55 *)
Definition HParseInterval (s : str) : M hedtf :=
  if negb (match_string Interval s) then lift (Err (Invalid INTERVAL s))
  else let! sp := HDateSpanFromEDTF s in ret (hedtf_of_span sp s LEVEL2 INTERVAL).
(* level2.go:60-95 *)
Definition HL2_ParseString (s : str) : M hedtf :=
  if IsExponentialYear s then HParseExponentialYear s
  else if IsSignificantDigits s then HParseSignificantDigits s
  else if IsSubYearGrouping s then HParseSubYearGroupings s
  else if IsSetRepresentation s then HParseSetRepresentations s
  else if IsGroupQualification s then HParseGroupQualification s
  else if IsIndividualQualification s then HParseIndividualQualification s
  else if IsUnspecifiedDigit s then HParseUnspecifiedDigit s
  else if IsInterval s then HParseInterval s
  else lift (Err (Invalid ($"Invalid or unsupported Level 2 string") s)).

(* parser/parser.go:37-81 *)
Definition HParseString (s : str) : M hedtf :=
  if IsLevel0 s then HL0_ParseString s
  else if IsLevel1 s then HL1_ParseString s
  else if IsLevel2 s then HL2_ParseString s
  else if seqb s OPEN then
    let! sp := HOpenDateSpan in ret (mkHEDTF (hs_start sp) (hs_end sp) s (-1) ($"Open"))
  else if seqb s UNKNOWN then
    let! sp := HUnknownDateSpan in ret (mkHEDTF (hs_start sp) (hs_end sp) s (-1) ($"Unknown"))
  else lift (Err (Unrecognized ($"Invalid or unsupported EDTF string") s)).
