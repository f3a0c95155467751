(** Package level2. *)
From Coq Require Import Ascii String ZArith NArith Bool List.
From Verif Require Import GoStr GoTime Regex Patterns Edtf Calendar Common.
Import ListNotations.
Open Scope Z_scope.

(* level2/level2.go:8-17 *)
Definition LEVEL2 : Z := 2.
Definition EXPONENTIAL_YEAR : str := $"Exponential year".
Definition SIGNIFICANT_DIGITS : str := $"Significant digits".
Definition SUB_YEAR_GROUPINGS : str := $"Sub-year groupings".
Definition SET_REPRESENTATIONS : str := $"Set representation".
Definition GROUP_QUALIFICATION : str := $"Qualification (Group)".
Definition INDIVIDUAL_QUALIFICATION : str := $"Qualification (Individual)".
Definition UNSPECIFIED_DIGIT : str := $"Unspecified Digit".
Definition INTERVAL : str := $"Interval".

Definition IsLevel2 (s : str) : bool := match_string Level2_re s.   (* level2.go:19-21 *)
(* exponential_year.go:21-23, significant_digits.go:27-29, sub_year_grouping.go:42-44,
   set_representation.go:50-52, qualification.go:23-25 and 71-73, unspecified_digit.go:32-34,
   interval.go:23-25 *)
Definition IsExponentialYear (s : str) : bool := match_string ExponentialYear s.
Definition IsSignificantDigits (s : str) : bool := match_string SignificantDigits s.
Definition IsSubYearGrouping (s : str) : bool := match_string SubYearGrouping s.
Definition IsSetRepresentation (s : str) : bool := match_string SetRepresentations s.
Definition IsGroupQualification (s : str) : bool := match_string GroupQualification s.
Definition IsIndividualQualification (s : str) : bool := match_string IndividualQualification s.
Definition IsUnspecifiedDigit (s : str) : bool := match_string UnspecifiedDigit s.
Definition IsInterval (s : str) : bool := match_string Interval s.

(* exponential_year.go:25-67 *)
Definition ParseExponentialYear (s : str) : res edtfdate :=
  if negb (match_string ExponentialYear s) then Err (Invalid EXPONENTIAL_YEAR s)
  else
    let m := find_submatch ExponentialYear s in
    if negb (Nat.eqb (length m) 2) then Err (Invalid EXPONENTIAL_YEAR s)
    else
      let* yyyy := ParseExponentialNotation (sub m 1) in
      let* sp := DateSpanFromEDTF (itoa yyyy) in
      OK (edtf_of_span sp s LEVEL2 EXPONENTIAL_YEAR).

Definition slen (s : str) : Z := Z.of_nat (length s).
(* errors of Atoi replaced as at significant_digits.go:60-62, 74-76, 100-102 *)
Definition or_invalid {A} (x : res A) (label s : str) : res A :=
  match x with Err _ => Err (Invalid label s) | _ => x end.

(* significant_digits.go:31-138 *)
Definition ParseSignificantDigits (s : str) : res edtfdate :=
  let m := find_submatch SignificantDigits s in
  if negb (Nat.eqb (length m) 5) then Err (Invalid SIGNIFICANT_DIGITS s)
  else
    let* yyyy :=
      if negb (is_empty (sub m 1)) then or_invalid (atoi (sub m 1)) SIGNIFICANT_DIGITS s
      else if negb (is_empty (sub m 2)) then
        if 4 <? slen (sub m 2) then Err (Unsupported SIGNIFICANT_DIGITS s)
        else or_invalid (atoi (sub m 2)) SIGNIFICANT_DIGITS s
      else if negb (is_empty (sub m 3)) then ParseExponentialNotation (sub m 3)
      else Err (Invalid SIGNIFICANT_DIGITS s) in
    if MAX_YEARS <? yyyy then Err (Unsupported SIGNIFICANT_DIGITS s)
    else
      let* digits := or_invalid (atoi (sub m 4)) SIGNIFICANT_DIGITS s in
      if slen (itoa yyyy) <? slen (itoa digits) then Err (Invalid SIGNIFICANT_DIGITS s)
      else
        let str_yyyy := itoa yyyy in
        (* str_yyyy[0 : len(str_yyyy)-digits] panics when the bound is negative;
           digits is never negative here, strings.Repeat would panic *)
        if (slen str_yyyy <? digits) || (digits <? 0) then Panic
        else
          let prefix_yyyy := firstn (length str_yyyy - Z.to_nat digits) str_yyyy in
          let start_yyyy := prefix_yyyy ++ repeat_str ($"0") (Z.to_nat digits) in
          let end_yyyy := prefix_yyyy ++ repeat_str ($"9") (Z.to_nat digits) in
          let _str := if has_prefix start_yyyy ($"-") && has_prefix end_yyyy ($"-")
                      then end_yyyy ++ $"/" ++ start_yyyy
                      else start_yyyy ++ $"/" ++ end_yyyy in
          let* sp := DateSpanFromEDTF _str in
          OK (edtf_of_span sp s LEVEL2 SIGNIFICANT_DIGITS).

(* sub_year_grouping.go:71-178: start month-day, end month-day, and whether the
   grouping ends in the following year *)
Definition grouping_table : list (str * (str * str * str * str * bool)) :=
  let g a b c d e := (a, b, c, d, e) in
  [ ($"21", g ($"03") ($"01") ($"05") ($"31") false); ($"25", g ($"03") ($"01") ($"05") ($"31") false);
    ($"22", g ($"06") ($"01") ($"08") ($"31") false); ($"26", g ($"06") ($"01") ($"08") ($"31") false);
    ($"23", g ($"09") ($"01") ($"11") ($"30") false); ($"27", g ($"09") ($"01") ($"11") ($"30") false);
    ($"24", g ($"12") ($"01") ($"02") ($"") true);    ($"28", g ($"12") ($"01") ($"02") ($"") true);
    ($"29", g ($"09") ($"01") ($"11") ($"30") false); ($"30", g ($"12") ($"01") ($"02") ($"") true);
    ($"31", g ($"03") ($"01") ($"05") ($"31") false); ($"32", g ($"06") ($"01") ($"08") ($"31") false);
    ($"33", g ($"01") ($"01") ($"03") ($"31") false); ($"34", g ($"04") ($"01") ($"06") ($"30") false);
    ($"35", g ($"07") ($"01") ($"09") ($"30") false); ($"36", g ($"10") ($"01") ($"12") ($"31") false);
    ($"37", g ($"01") ($"01") ($"04") ($"30") false); ($"38", g ($"05") ($"01") ($"08") ($"31") false);
    ($"39", g ($"09") ($"01") ($"12") ($"31") false); ($"40", g ($"01") ($"01") ($"06") ($"30") false);
    ($"41", g ($"07") ($"01") ($"12") ($"31") false) ].
Definition grouping_bounds (g : str) : option (str * str * str * str * bool) :=
  option_map snd (find (fun kv => seqb (fst kv) g) grouping_table).

(* sub_year_grouping.go:46-204 *)
Definition ParseSubYearGroupings (s : str) : res edtfdate :=
  let m := find_submatch SubYearGrouping s in
  if negb (Nat.eqb (length m) 3) then Err (Invalid SUB_YEAR_GROUPINGS s)
  else
    let year := sub m 1 in
    match grouping_bounds (sub m 2) with
    | None => Err (Invalid SUB_YEAR_GROUPINGS s)
    | Some (start_mm, start_dd, end_mm, end_dd, next) =>
        let* end_yyyy := if (next : bool) then let* y := atoi year in OK (itoa (y + 1)) else OK year in
        let start := year ++ $"-" ++ start_mm ++ $"-" ++ start_dd in
        let end_ := end_yyyy ++ $"-" ++ end_mm in
        let end_ := if is_empty end_dd then end_ else end_ ++ $"-" ++ end_dd in
        let* sp := DateSpanFromEDTF (start ++ $"/" ++ end_) in
        OK (edtf_of_span sp s LEVEL2 SUB_YEAR_GROUPINGS)
    end.

(* set_representation.go:102-141: candidate dates and the two open flags *)
Fixpoint set_members (s : str) (dates : list str) : res (list str * bool * bool) :=
  match dates with
  | [] => OK ([], false, false)
  | d :: rest =>
      let* (here, so, eo) :=
        match split d ($"..") with
        | [_] => OK ([d], false, false)
        | [a; b] => if negb (is_empty a) && negb (is_empty b) then OK ([a; b], false, false)
                    else if is_empty a then OK ([b], true, false)
                    else OK ([a], false, true)
        | _ => Err (Invalid SET_REPRESENTATIONS s)
        end in
      let* (l, so', eo') := set_members s rest in
      OK (here ++ l, so || so', eo || eo')
  end.

(* set_representation.go:54-243.  The pointer assignments at lines 213-220 are
   modelled by copying: no Date is shared between the result's start and end
   except when both ends are open, where line 220 makes start and end the same
   DateRange and nothing is modified afterwards. *)
Definition ParseSetRepresentations (s : str) : res edtfdate :=
  let m := find_submatch SetRepresentations s in
  if negb (Nat.eqb (length m) 6) then Err (Invalid SET_REPRESENTATIONS s)
  else
    let class := sub m 1 in
    let candidates := sub m 2 in
    let* inclusivity := if seqb class ($"[") then OK ANY
                        else if seqb class ($"{") then OK ALL
                        else Err (Invalid SET_REPRESENTATIONS s) in
    let* (possible, start_open, end_open) := set_members s (split candidates ($",")) in
    let possible := sort_strs possible in
    match possible with
    | [] => Err (Invalid SET_REPRESENTATIONS s)
    | start_ymd :: _ =>
        let end_ymd := last possible start_ymd in
        let _str :=
          if (start_open : bool) then $"../" ++ start_ymd
          else if (end_open : bool) then start_ymd ++ $"/.."
          else if negb (seqb start_ymd end_ymd) then start_ymd ++ $"/" ++ end_ymd
          else start_ymd in
        let open_post_facto := (start_open || end_open) && Nat.ltb 1 (length possible) in
        let _str := if open_post_facto then start_ymd ++ $"/" ++ end_ymd else _str in
        let* sp := DateSpanFromEDTF _str in
        let sp :=
          if open_post_facto && start_open
          then mkSpan OpenDateRange (mkRange (r_edtf (s_end sp)) (r_lower (s_start sp)) (r_upper (s_end sp)))
          else sp in
        let sp :=
          if open_post_facto && end_open then
            let start := mkRange (r_edtf (s_start sp)) (r_lower (s_start sp)) (r_upper (s_end sp)) in
            if start_open
            then mkSpan start start        (* sp.Start is open_range itself *)
            else mkSpan start OpenDateRange
          else sp in
        let incl r := mkRange (r_edtf r) (set_inclusivity (r_lower r) inclusivity)
                              (set_inclusivity (r_upper r) inclusivity) in
        let sp := mkSpan (if start_open then s_start sp else incl (s_start sp))
                         (if end_open then s_end sp else incl (s_end sp)) in
        OK (edtf_of_span sp s LEVEL2 SET_REPRESENTATIONS)
    end.

(* qualification.go:27-56 *)
Definition ParseGroupQualification (s : str) : res edtfdate :=
  if negb (match_string GroupQualification s) then Err (Invalid GROUP_QUALIFICATION s)
  else let* sp := DateSpanFromEDTF s in OK (edtf_of_span sp s LEVEL2 GROUP_QUALIFICATION).

(* qualification.go:75-103 *)
Definition ParseIndividualQualification (s : str) : res edtfdate :=
  if negb (match_string IndividualQualification s) then Err (Invalid INDIVIDUAL_QUALIFICATION s)
  else let* sp := DateSpanFromEDTF s in OK (edtf_of_span sp s LEVEL2 INDIVIDUAL_QUALIFICATION).

(* unspecified_digit.go:36-67 *)
Definition ParseUnspecifiedDigit (s : str) : res edtfdate :=
  if negb (match_string UnspecifiedDigit s) then Err (Invalid UNSPECIFIED_DIGIT s)
  else let* sp := DateSpanFromEDTF s in OK (edtf_of_span sp s LEVEL2 UNSPECIFIED_DIGIT).

(* interval.go:27-55 *)
Definition ParseInterval (s : str) : res edtfdate :=
  if negb (match_string Interval s) then Err (Invalid INTERVAL s)
  else let* sp := DateSpanFromEDTF s in OK (edtf_of_span sp s LEVEL2 INTERVAL).

(* level2.go:23-58 *)
Definition L2_Matches (s : str) : res str :=
  if IsExponentialYear s then OK EXPONENTIAL_YEAR
  else if IsSignificantDigits s then OK SIGNIFICANT_DIGITS
  else if IsSubYearGrouping s then OK SUB_YEAR_GROUPINGS
  else if IsSetRepresentation s then OK SET_REPRESENTATIONS
  else if IsGroupQualification s then OK GROUP_QUALIFICATION
  else if IsIndividualQualification s then OK INDIVIDUAL_QUALIFICATION
  else if IsUnspecifiedDigit s then OK UNSPECIFIED_DIGIT
  else if IsInterval s then OK INTERVAL
  else Err (Invalid ($"Invalid or unsupported Level 2 string") s).

(* level2.go:60-95 *)
Definition L2_ParseString (s : str) : res edtfdate :=
  if IsExponentialYear s then ParseExponentialYear s
  else if IsSignificantDigits s then ParseSignificantDigits s
  else if IsSubYearGrouping s then ParseSubYearGroupings s
  else if IsSetRepresentation s then ParseSetRepresentations s
  else if IsGroupQualification s then ParseGroupQualification s
  else if IsIndividualQualification s then ParseIndividualQualification s
  else if IsUnspecifiedDigit s then ParseUnspecifiedDigit s
  else if IsInterval s then ParseInterval s
  else Err (Invalid ($"Invalid or unsupported Level 2 string") s).
