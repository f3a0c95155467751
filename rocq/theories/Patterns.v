(** The pattern constants of re/re.go and the compiled expressions of
    re/common.go, re/level0.go, re/level1.go and re/level2.go.  The strings are
    copied verbatim; '+' on Go strings is [++]. *)
From Coq Require Import Ascii String ZArith NArith Bool List.
From Verif Require Import GoStr Regex.
Import ListNotations.

(** ** edtf.go:8-10, used by re/re.go:13 *)
Definition UNCERTAIN : str := $"?".
Definition APPROXIMATE : str := $"~".
Definition UNCERTAIN_AND_APPROXIMATE : str := $"%".

(** ** re/re.go *)
(* re/re.go:9 *)
Definition PATTERN_YEAR : str := $"(\-?\d{4})".
(* re/re.go:13 *)
Definition PATTERN_QUALIFIER : str := $"[\" ++ UNCERTAIN ++ APPROXIMATE ++ UNCERTAIN_AND_APPROXIMATE ++ $"]".
(* re/re.go:15-17 *)
Definition PATTERN_YEAR_X : str := $"\-?[0-9X]{4}".
Definition PATTERN_MONTH_X : str := $"(?:[0X][1-9X]|[1X][0-2X])".
Definition PATTERN_DAY_X : str := $"(?:[012X][0-9X]|[3X][01X])".
(* re/re.go:19-21 *)
Definition PATTERN_YYYY : str :=
  $"(" ++ PATTERN_QUALIFIER ++ $"?" ++ PATTERN_YEAR_X ++ $"|" ++ PATTERN_YEAR_X ++ PATTERN_QUALIFIER ++ $"?)".
Definition PATTERN_MM : str :=
  $"(" ++ PATTERN_QUALIFIER ++ $"?" ++ PATTERN_MONTH_X ++ $"|" ++ PATTERN_MONTH_X ++ PATTERN_QUALIFIER ++ $"?)".
Definition PATTERN_DD : str :=
  $"(" ++ PATTERN_QUALIFIER ++ $"?" ++ PATTERN_DAY_X ++ $"|" ++ PATTERN_DAY_X ++ PATTERN_QUALIFIER ++ $"?)".
(* re/re.go:23 *)
Definition PATTERN_YMD_X : str :=
  $"^" ++ PATTERN_YYYY ++ $"(?:\-" ++ PATTERN_MM ++ $"(?:\-" ++ PATTERN_DD ++ $")?" ++ $")?$".
(* re/re.go:25 *)
Definition PATTERN_DATE_X : str :=
  $"(" ++ PATTERN_YEAR_X ++ $"|(?:" ++ PATTERN_MONTH_X ++ $")|(?:" ++ PATTERN_DAY_X ++ $"))".

(* re/re.go:29 *)
Definition PATTERN_DATE : str := $"(\-?\d{4})(?:-([0][1-9]|1[0-2])(?:-(0[1-9]|[12][0-9]|3[01]))?)?".
(* re/re.go:31 *)
Definition PATTERN_DATE_AND_TIME : str :=
  PATTERN_DATE ++ $"T(\d{2}):(\d{2}):(\d{2})(Z|(\+|-)(\d{2})(\:(\d{2}))?)?".
(* re/re.go:33 *)
Definition PATTERN_TIME_INTERVAL : str := PATTERN_DATE ++ $"/" ++ PATTERN_DATE.

(* re/re.go:37 *)
Definition PATTERN_LETTER_PREFIXED_CALENDAR_YEAR : str := $"Y(\-?\d+)".
(* re/re.go:39 *)
Definition PATTERN_SEASON : str :=
  PATTERN_YEAR ++ $"\-(0[1-9]|1[0-2]|2[1-4])|(?i)(spring|summer|fall|winter)\s*,\s*(\d{4})".
(* re/re.go:41 *)
Definition PATTERN_QUALIFIED_DATE : str := PATTERN_DATE ++ $"(\?|~|%)".
(* re/re.go:43 *)
Definition PATTERN_UNSPECIFIED_DIGITS : str :=
  $"(?:([0-9X]{4})(?:-([0X][1-9X]|[1X][0-2X])(?:-([012X][1-9X]|[3X][01X]))?)?)".
(* re/re.go:45 *)
Definition PATTERN_INTERVAL_START : str := $"(\.\.)?\/" ++ PATTERN_DATE.
(* re/re.go:47 *)
Definition PATTERN_INTERVAL_END : str := PATTERN_DATE ++ $"\/(\.\.)?".
(* re/re.go:49 *)
Definition PATTERN_NEGATIVE_YEAR : str := $"\-" ++ PATTERN_YEAR.

(* re/re.go:53 *)
Definition PATTERN_EXPONENTIAL_YEAR : str := $"(?i)Y(\-?\d+E\d+)".
(* re/re.go:55 *)
Definition PATTERN_SIGNIFICANT_DIGITS : str :=
  $"(?:" ++ PATTERN_YEAR ++ $"|" ++ PATTERN_LETTER_PREFIXED_CALENDAR_YEAR ++ $"|" ++ PATTERN_EXPONENTIAL_YEAR ++ $")S(\d+)".
(* re/re.go:57 *)
Definition PATTERN_SUB_YEAR_GROUPING : str := $"(\d{4})\-(1[0-2]|2[1-9]|3[0-9]|4[0-1])".
(* re/re.go:61 *)
Definition PATTERN_SET_REPRESENTATIONS : str :=
  $"(\[|\{)((?:\.\.)?(?:(?:" ++ PATTERN_DATE ++ $"(?:,|\.\.)?)+(?:\.\.)?))[\}\]]".
(* re/re.go:63 *)
Definition PATTERN_GROUP_QUALIFICATION : str :=
  $"(?:(\d{4})(%|~|\?)?(?:-(\d{2})(%|~|\?)?(?:-(\d{2})(%|~|\?)?)?)?)".
(* re/re.go:65 *)
Definition PATTERN_INDIVIDUAL_QUALIFICATION : str :=
  $"(?:(%|~|\?)?(\d{4})(?:-(%|~|\?)?(\d{2})(?:-(%|~|\?)?(\d{2}))?)?)".
(* re/re.go:67 *)
Definition PATTERN_UNSPECIFIED_DIGIT : str := $"([0-9X]{4})(?:-([0-9X]{2})(?:-([0-9X]{2}))?)?".
(* re/re.go:69 *)
Definition PATTERN_INTERVAL : str :=
  $"(%|~|\?)?(\-?[0-9X]{4})(?:-(%|~|\?)?([0-9X]{2})(?:-(%|~|\?)?([0-9X]{2}))?)?\/(%|~|\?)?(\-?[0-9X]{4})(?:-(%|~|\?)?([0-9X]{2})(?:-(%|~|\?)?([0-9X]{2}))?)?".

(** strings.Join *)
Fixpoint join (l : list str) (sep : str) : str :=
  match l with
  | [] => []
  | [x] => x
  | x :: l' => x ++ sep ++ join l' sep
  end.

(** ** Pattern texts handed to regexp.MustCompile *)
(* re/common.go:15-21 *)
Definition P_Year : str := $"^" ++ PATTERN_YEAR ++ $"$".
Definition P_YMD : str := $"^" ++ PATTERN_YMD_X ++ $"$".
Definition P_QualifiedIndividual : str := $"^(" ++ PATTERN_QUALIFIER ++ $")?" ++ PATTERN_DATE_X ++ $"$".
Definition P_QualifiedGroup : str := $"^" ++ PATTERN_DATE_X ++ $"(" ++ PATTERN_QUALIFIER ++ $")?$".
(* re/level0.go:16-28 *)
Definition P_Date : str := $"^" ++ PATTERN_DATE ++ $"$".
Definition P_DateAndTime : str := $"^" ++ PATTERN_DATE_AND_TIME ++ $"$".
Definition P_TimeInterval : str := $"^" ++ PATTERN_TIME_INTERVAL ++ $"$".
Definition level0_patterns : list str :=
  [PATTERN_DATE; PATTERN_DATE_AND_TIME; PATTERN_TIME_INTERVAL].
Definition P_Level0 : str := $"^(" ++ join level0_patterns ($"|") ++ $")$".
(* re/level1.go:19-43 *)
Definition P_LetterPrefixedCalendarYear : str := $"^" ++ PATTERN_LETTER_PREFIXED_CALENDAR_YEAR ++ $"$".
Definition P_Season : str := $"^" ++ PATTERN_SEASON ++ $"$".
Definition P_QualifiedDate : str := $"^" ++ PATTERN_QUALIFIED_DATE ++ $"$".
Definition P_UnspecifiedDigits : str := $"^" ++ PATTERN_UNSPECIFIED_DIGITS ++ $"$".
Definition P_IntervalStart : str := $"^" ++ PATTERN_INTERVAL_START ++ $"$".
Definition P_IntervalEnd : str := $"^" ++ PATTERN_INTERVAL_END ++ $"$".
Definition P_NegativeYear : str := $"^" ++ PATTERN_NEGATIVE_YEAR ++ $"$".
Definition level1_patterns : list str :=
  [PATTERN_LETTER_PREFIXED_CALENDAR_YEAR; PATTERN_SEASON; PATTERN_QUALIFIED_DATE;
   PATTERN_UNSPECIFIED_DIGITS; PATTERN_INTERVAL_START; PATTERN_INTERVAL_END; PATTERN_NEGATIVE_YEAR].
Definition P_Level1 : str := $"^(" ++ join level1_patterns ($"|") ++ $")$".
(* re/level2.go:21-48 *)
Definition P_ExponentialYear : str := $"^" ++ PATTERN_EXPONENTIAL_YEAR ++ $"$".
Definition P_SignificantDigits : str := $"^" ++ PATTERN_SIGNIFICANT_DIGITS ++ $"$".
Definition P_SubYearGrouping : str := $"^" ++ PATTERN_SUB_YEAR_GROUPING ++ $"$".
Definition P_SetRepresentations : str := $"^" ++ PATTERN_SET_REPRESENTATIONS ++ $"$".
Definition P_GroupQualification : str := $"^" ++ PATTERN_GROUP_QUALIFICATION ++ $"$".
Definition P_IndividualQualification : str := $"^" ++ PATTERN_INDIVIDUAL_QUALIFICATION ++ $"$".
Definition P_UnspecifiedDigit : str := $"^" ++ PATTERN_UNSPECIFIED_DIGIT ++ $"$".
Definition P_Interval : str := $"^" ++ PATTERN_INTERVAL ++ $"$".
Definition level2_patterns : list str :=
  [PATTERN_EXPONENTIAL_YEAR; PATTERN_SIGNIFICANT_DIGITS; PATTERN_SUB_YEAR_GROUPING;
   PATTERN_SET_REPRESENTATIONS; PATTERN_GROUP_QUALIFICATION; PATTERN_INDIVIDUAL_QUALIFICATION;
   PATTERN_UNSPECIFIED_DIGIT; PATTERN_INTERVAL].
Definition P_Level2 : str := $"^" ++ $"(" ++ join level2_patterns ($"|") ++ $")".

(** Every pattern compiles (regexp.MustCompile does not panic in init). *)
Definition all_patterns : list str :=
  [P_Year; P_YMD; P_QualifiedIndividual; P_QualifiedGroup;
   P_Date; P_DateAndTime; P_TimeInterval; P_Level0;
   P_LetterPrefixedCalendarYear; P_Season; P_QualifiedDate; P_UnspecifiedDigits;
   P_IntervalStart; P_IntervalEnd; P_NegativeYear; P_Level1;
   P_ExponentialYear; P_SignificantDigits; P_SubYearGrouping; P_SetRepresentations;
   P_GroupQualification; P_IndividualQualification; P_UnspecifiedDigit; P_Interval; P_Level2].
Lemma all_patterns_compile :
  forallb (fun p => match compile_opt p with Some _ => true | None => false end) all_patterns = true.
Proof. vm_compute. reflexivity. Qed.

(** ** Compiled expressions.  [Eval vm_compute] runs the compiler once, here. *)
Definition Year := Eval vm_compute in must_compile P_Year.
Definition YMD_re := Eval vm_compute in must_compile P_YMD.
Definition QualifiedIndividual := Eval vm_compute in must_compile P_QualifiedIndividual.
Definition QualifiedGroup := Eval vm_compute in must_compile P_QualifiedGroup.
Definition Date_re := Eval vm_compute in must_compile P_Date.
Definition DateAndTime := Eval vm_compute in must_compile P_DateAndTime.
Definition TimeInterval := Eval vm_compute in must_compile P_TimeInterval.
Definition Level0_re := Eval vm_compute in must_compile P_Level0.
Definition LetterPrefixedCalendarYear := Eval vm_compute in must_compile P_LetterPrefixedCalendarYear.
Definition Season := Eval vm_compute in must_compile P_Season.
Definition QualifiedDate := Eval vm_compute in must_compile P_QualifiedDate.
Definition UnspecifiedDigits := Eval vm_compute in must_compile P_UnspecifiedDigits.
Definition IntervalStart := Eval vm_compute in must_compile P_IntervalStart.
Definition IntervalEnd := Eval vm_compute in must_compile P_IntervalEnd.
Definition NegativeYear := Eval vm_compute in must_compile P_NegativeYear.
Definition Level1_re := Eval vm_compute in must_compile P_Level1.
Definition ExponentialYear := Eval vm_compute in must_compile P_ExponentialYear.
Definition SignificantDigits := Eval vm_compute in must_compile P_SignificantDigits.
Definition SubYearGrouping := Eval vm_compute in must_compile P_SubYearGrouping.
Definition SetRepresentations := Eval vm_compute in must_compile P_SetRepresentations.
Definition GroupQualification := Eval vm_compute in must_compile P_GroupQualification.
Definition IndividualQualification := Eval vm_compute in must_compile P_IndividualQualification.
Definition UnspecifiedDigit := Eval vm_compute in must_compile P_UnspecifiedDigit.
Definition Interval := Eval vm_compute in must_compile P_Interval.
Definition Level2_re := Eval vm_compute in must_compile P_Level2.
