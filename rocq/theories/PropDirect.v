(** C71: the parsers of the single features and of the levels, called directly. *)
From Coq Require Import Ascii String ZArith NArith Bool List.
From Verif Require Import GoStr Common Edtf Level0 Level1 Level2 Parser SpecText SpecForms SpecGrammar SpecCal SpecSpan SpecReads SpecWhole SpecRefused SpecDirect DirectProofs.
Import ListNotations.
Open Scope Z_scope.

(** ** The parser of each feature *)
Theorem C71_date : feature_parser ParseDate 0 ($"Date") is_level0_date.
Proof. exact (parser_answers _ _ _ _ Date_parser). Qed.
Theorem C71_time_interval : feature_parser ParseTimeInterval 0 ($"Time Interval") pair_of_dates.
Proof. exact (parser_answers _ _ _ _ TimeInterval_parser). Qed.
Theorem C71_date_and_time : feature_parser ParseDateAndTime 0 ($"Date and Time") datetime_text.
Proof. exact (parser_answers _ _ _ _ stamp_parser). Qed.
Theorem C71_letter_year : feature_parser ParseLetterPrefixedCalendarYear 1 ($"Letter-prefixed calendar year") letter_year.
Proof. exact (parser_answers _ _ _ _ letter_parser). Qed.
Theorem C71_season : feature_parser ParseSeason 1 ($"Seasons") season_like.
Proof. exact (parser_answers _ _ _ _ season_parser). Qed.
Theorem C71_qualified_date : feature_parser ParseQualifiedDate 1 ($"Qualification of a date (complete)") qualified_date.
Proof. exact (parser_answers _ _ _ _ QualifiedDate_parser). Qed.
Theorem C71_unspecified_digits : feature_parser ParseUnspecifiedDigits 1 ($"Unspecified digit(s) from the right") unspecified_digits.
Proof. exact (parser_answers _ _ _ _ UnspecifiedDigits_parser). Qed.
Theorem C71_negative_year : feature_parser ParseNegativeCalendarYear 1 ($"Negative calendar year") minus_year.
Proof. exact (parser_answers _ _ _ _ NegativeYear_parser). Qed.
Theorem C71_interval_start : feature_parser ParseExtendedIntervalStart 1 ($"Extended Interval (Start)") extended_start.
Proof. exact (parser_answers _ _ _ _ IntervalStart_parser). Qed.
Theorem C71_interval_end : feature_parser ParseExtendedIntervalEnd 1 ($"Extended Interval (End)") extended_end.
Proof. exact (parser_answers _ _ _ _ IntervalEnd_parser). Qed.
Theorem C71_exponential : feature_parser ParseExponentialYear 2 ($"Exponential year") exponential_year.
Proof. exact (parser_answers _ _ _ _ exponential_parser). Qed.
Theorem C71_significant : feature_parser ParseSignificantDigits 2 ($"Significant digits") significant_digits.
Proof. exact (parser_answers _ _ _ _ significant_parser). Qed.
Theorem C71_grouping : feature_parser ParseSubYearGroupings 2 ($"Sub-year groupings") sub_year_grouping.
Proof. exact (parser_answers _ _ _ _ grouping_parser). Qed.
Theorem C71_set : feature_parser ParseSetRepresentations 2 ($"Set representation") is_set.
Proof. exact (parser_answers _ _ _ _ set_parser). Qed.
Theorem C71_group_qualified : feature_parser ParseGroupQualification 2 ($"Qualification (Group)") group_qualified.
Proof. exact (parser_answers _ _ _ _ Group_parser). Qed.
Theorem C71_individually_qualified : feature_parser ParseIndividualQualification 2 ($"Qualification (Individual)") individually_qualified.
Proof. exact (parser_answers _ _ _ _ Individual_parser). Qed.
Theorem C71_unspecified_digit : feature_parser ParseUnspecifiedDigit 2 ($"Unspecified Digit") unspecified_form.
Proof. exact (parser_answers _ _ _ _ Unspecified_parser). Qed.
Theorem C71_interval : feature_parser ParseInterval 2 ($"Interval") interval_form.
Proof. exact (parser_answers _ _ _ _ Interval_parser). Qed.
(** ** The parsers of several features *)
Theorem C71_extended_interval : level_parser ParseExtendedInterval 1
  [($"Extended Interval (Start)", extended_start); ($"Extended Interval (End)", extended_end)] ($"Extended Interval").
Proof. exact interval_parser. Qed.
Theorem C71_level0 : level_parser L0_ParseString 0 level0_features ($"Invalid Level 0 string").
Proof. exact level0_parser. Qed.
Theorem C71_level1 : level_parser L1_ParseString 1 level1_features ($"Extended Interval").
Proof. exact level1_parser. Qed.
Theorem C71_level2 : level_parser L2_ParseString 2 level2_features ($"Invalid or unsupported Level 2 string").
Proof. exact level2_parser. Qed.
(** ** The names that the levels give *)
Theorem C71_names : forall s,
  ((forall f, L0_Matches s = OK f <-> first_of s level0_features f) /\ (no_feature s level0_features -> L0_Matches s = Err (EInvalid ($"Invalid Level 0 string") s))) /\
  ((forall f, L1_Matches s = OK f <-> first_of s level1_features f) /\ (no_feature s level1_features -> L1_Matches s = Err (EInvalid ($"Invalid Level 1 string") s))) /\
  ((forall f, L2_Matches s = OK f <-> first_of s level2_features f) /\ (no_feature s level2_features -> L2_Matches s = Err (EInvalid ($"Invalid or unsupported Level 2 string") s))).
Proof. exact (fun s => conj (names0 s) (conj (names1 s) (names2 s))). Qed.
(** ** The span of a string *)
Theorem C71_span : forall s, (forall sp, DateSpanFromEDTF s = OK sp <-> whole_span s sp) /\
  (forall x, DateSpanFromEDTF s = Err x <-> span_refused s x) /\ DateSpanFromEDTF s <> Panic.
Proof. exact span_parser. Qed.
(** The reservation in [level_parser] concerns two features only. *)
Theorem C71_borderline : forall s, borderline s -> exponential_year s \/ significant_digits s.
Proof. exact borderline_only. Qed.

Print Assumptions C71_date.
Print Assumptions C71_time_interval.
Print Assumptions C71_date_and_time.
Print Assumptions C71_letter_year.
Print Assumptions C71_season.
Print Assumptions C71_qualified_date.
Print Assumptions C71_unspecified_digits.
Print Assumptions C71_negative_year.
Print Assumptions C71_interval_start.
Print Assumptions C71_interval_end.
Print Assumptions C71_exponential.
Print Assumptions C71_significant.
Print Assumptions C71_grouping.
Print Assumptions C71_set.
Print Assumptions C71_group_qualified.
Print Assumptions C71_individually_qualified.
Print Assumptions C71_unspecified_digit.
Print Assumptions C71_interval.
Print Assumptions C71_extended_interval.
Print Assumptions C71_level0.
Print Assumptions C71_level1.
Print Assumptions C71_level2.
Print Assumptions C71_names.
Print Assumptions C71_span.
Print Assumptions C71_borderline.

(** Every parser on a string of its feature and on one of another feature. *)
Definition gives_bounds (r : res edtfdate) (lv : Z) (label first last : str) : Prop :=
  exists e, r = OK e /\ e_level e = lv /\ e_feature e = label /\ d_datetime (r_lower (e_start e)) = first /\ d_datetime (r_upper (e_end e)) = last.
Example C71_level0_case :
  gives_bounds (ParseDate ($"2004-02")) 0 ($"Date") ($"2004-02-01T00:00:00Z") ($"2004-02-29T23:59:59Z") /\
  ParseDate ($"2004-06?") = Err (EInvalid ($"Date") ($"2004-06?")) /\
  gives_bounds (ParseTimeInterval ($"1964/2008")) 0 ($"Time Interval") ($"1964-01-01T00:00:00Z") ($"2008-12-31T23:59:59Z") /\
  ParseTimeInterval ($"1964") = Err (EInvalid ($"Time Interval") ($"1964")) /\
  gives_bounds (ParseDateAndTime ($"1985-04-12T23:20:30Z")) 0 ($"Date and Time") ($"1985-04-12T23:20:30Z") ($"1985-04-12T23:20:30Z") /\
  L0_ParseString ($"../1985") = Err (EInvalid ($"Invalid Level 0 string") ($"../1985")).
Proof. repeat split; try (eexists; split; [vm_compute; reflexivity|repeat split]); vm_compute; reflexivity. Qed.
Example C71_level1_case :
  gives_bounds (ParseQualifiedDate ($"2004-06~")) 1 ($"Qualification of a date (complete)") ($"2004-06-01T00:00:00Z") ($"2004-06-30T23:59:59Z") /\
  gives_bounds (ParseUnspecifiedDigits ($"201X")) 1 ($"Unspecified digit(s) from the right") ($"2010-01-01T00:00:00Z") ($"2019-12-31T23:59:59Z") /\
  ParseNegativeCalendarYear ($"1985") = Err (EInvalid ($"Negative calendar year") ($"1985")) /\
  ParseExtendedIntervalStart ($"1985/..") = Err (EInvalid ($"Extended Interval (Start)") ($"1985/..")) /\
  (exists e, ParseExtendedInterval ($"1985/..") = OK e /\ e_feature e = $"Extended Interval (End)") /\
  L1_ParseString ($"hello") = Err (EInvalid ($"Extended Interval") ($"hello")).
Proof. repeat split; try (eexists; split; [vm_compute; reflexivity|repeat split]); vm_compute; reflexivity. Qed.
Example C71_level2_case :
  gives_bounds (ParseGroupQualification ($"2004-06-11%")) 2 ($"Qualification (Group)") ($"2004-06-11T00:00:00Z") ($"2004-06-11T23:59:59Z") /\
  gives_bounds (ParseSetRepresentations ($"{1667,1760-12}")) 2 ($"Set representation") ($"1667-01-01T00:00:00Z") ($"1760-12-31T23:59:59Z") /\
  ParseSetRepresentations ($"1667") = Err (EInvalid ($"Set representation") ($"1667")) /\
  ParseSignificantDigits ($"1950S5") = Panic /\
  L2_ParseString ($"hello") = Err (EInvalid ($"Invalid or unsupported Level 2 string") ($"hello")).
Proof. repeat split; try (eexists; split; [vm_compute; reflexivity|repeat split]); vm_compute; reflexivity. Qed.
(** Text before the name of a season, which [ParseString] does not accept. *)
Example C71_season_case :
  gives_bounds (ParseSeason ($"maybe Spring, 1985")) 1 ($"Seasons") ($"1985-03-01T00:00:00Z") ($"1985-05-31T23:59:59Z") /\
  gives_bounds (ParseSeason ($"1985-21 or so")) 1 ($"Seasons") ($"1985-03-01T00:00:00Z") ($"1985-05-31T23:59:59Z") /\
  ParseString ($"maybe Spring, 1985") = Err (EUnrecognized ($"Invalid or unsupported EDTF string") ($"maybe Spring, 1985")).
Proof. repeat split; try (eexists; split; [vm_compute; reflexivity|repeat split]); vm_compute; reflexivity. Qed.
(** A season as a grouping, which [ParseString] takes as a season, and a month. *)
Example C71_grouping_case :
  gives_bounds (ParseSubYearGroupings ($"1985-21")) 2 ($"Sub-year groupings") ($"1985-03-01T00:00:00Z") ($"1985-05-31T23:59:59Z") /\
  (exists e, ParseString ($"1985-21") = OK e /\ e_feature e = $"Seasons") /\
  ParseSubYearGroupings ($"1985-10") = Err (EInvalid ($"Sub-year groupings") ($"1985-10")) /\
  (exists e, ParseString ($"1985-10") = OK e /\ e_feature e = $"Date").
Proof. repeat split; try (eexists; split; [vm_compute; reflexivity|repeat split]); vm_compute; reflexivity. Qed.
