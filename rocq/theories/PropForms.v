(** Written forms: C03 and C49. *)
From Coq Require Import Ascii String ZArith NArith Bool Lia ZifyBool List.
From Verif Require Import GoStr Regex Patterns SpecCal SpecGrammar SpecForms Edtf Common Level0 Level1 Level2 Parser LangForms LangForms2 FormProofs.
Import ListNotations.
Open Scope Z_scope.

(** ** C03: valid strings and named strings.  The claim is false; the two theorems
    below say exactly which strings are valid and which are named, so the
    difference is: strings that merely begin with a level 2 form, and forms with a
    lower case x or s that only the level tests accept. *)
Theorem C03_named_exactly_partial : forall s, (exists l f, Matches s = OK (l, f)) <->
  level0_form s \/ level1_form s \/ unspecified_digits (map upx s) /\ cat season_date anything s \/ level2_exact s.
Proof. exact named_iff. Qed.
Print Assumptions C03_named_exactly_partial.
Theorem C03_valid_exactly_partial : forall s, IsValid s = true <->
  level0_form s \/ level1_form s \/ unspecified_digits (map upx s) \/ (exists u v, level2_form u /\ s = u ++ v) \/ s = $".." \/ s = [].
Proof. exact valid_iff. Qed.
Print Assumptions C03_valid_exactly_partial.
Theorem C03_level_partial : forall s l f, Matches s = OK (l, f) ->
  l = 0 /\ level0_form s \/ l = 1 /\ IsLevel1 s = true \/ l = 2 /\ level2_exact s.
Proof. exact named_level. Qed.
Print Assumptions C03_level_partial.
Theorem C03_refuted : exists s, IsValid s = true /\ s <> $".." /\ s <> [] /\ exists err, Matches s = Err err.
Proof. exists ($"1985 garbage"). vm_compute. repeat split; try discriminate. eexists. reflexivity. Qed.
Print Assumptions C03_refuted.
Theorem C03_lower_case_refuted : exists s, IsValid s = true /\ s <> $".." /\ s <> [] /\ exists err, Matches s = Err err.
Proof. exists ($"201x"). vm_compute. repeat split; try discriminate. eexists. reflexivity. Qed.
Print Assumptions C03_lower_case_refuted.
Example C03_case : Matches ($"2001-21") = OK (1, $"Seasons") /\ Matches ($"1985/19XX") = OK (2, $"Interval") /\ IsValid ($"1985-13-01") = true.
Proof. vm_compute. repeat split. Qed.

(** ** C49: the language of each test. *)
Theorem C49_letter_prefixed_year : forall s, IsLetterPrefixedCalendarYear s = true <-> letter_year s.
Proof. exact LetterYear_spec. Qed.
Print Assumptions C49_letter_prefixed_year.
Theorem C49_qualified_date : forall s, IsQualifiedDate s = true <-> qualified_date s.
Proof. exact QualifiedDate_spec. Qed.
Print Assumptions C49_qualified_date.
Theorem C49_exponential_year : forall s, IsExponentialYear s = true <-> exponential_year s.
Proof. exact Exponential_spec. Qed.
Print Assumptions C49_exponential_year.
Theorem C49_significant_digits : forall s, IsSignificantDigits s = true <-> significant_digits s.
Proof. exact Significant_spec. Qed.
Print Assumptions C49_significant_digits.
Theorem C49_group_qualification : forall s, IsGroupQualification s = true <-> group_qualified s.
Proof. exact Group_spec. Qed.
Print Assumptions C49_group_qualification.
Theorem C49_individual_qualification : forall s, IsIndividualQualification s = true <-> individually_qualified s.
Proof. exact Individual_spec. Qed.
Print Assumptions C49_individual_qualification.
Theorem C49_unspecified_digit : forall s, IsUnspecifiedDigit s = true <-> unspecified_form s.
Proof. exact Unspecified_spec. Qed.
Print Assumptions C49_unspecified_digit.
Theorem C49_interval : forall s, IsInterval s = true <-> interval_form s.
Proof. exact Interval_spec. Qed.
Print Assumptions C49_interval.
(** The remaining tests accept more than the documented form (see below); these are
    the exact languages. *)
Theorem C49_season_partial : forall s, IsSeason s = true <-> cat season_date anything s \/ cat anything season_words s.
Proof. exact Season_spec. Qed.
Print Assumptions C49_season_partial.
Theorem C49_unspecified_digits_partial : forall s, IsUnspecifiedDigits s = true <-> unspecified_digits s.
Proof. exact UnspecifiedDigits_spec. Qed.
Print Assumptions C49_unspecified_digits_partial.
Theorem C49_negative_year_partial : forall s, IsNegativeCalendarYear s = true <-> minus_year s.
Proof. exact NegativeYear_spec. Qed.
Print Assumptions C49_negative_year_partial.
Theorem C49_sub_year_partial : forall s, IsSubYearGrouping s = true <-> sub_year_grouping s.
Proof. exact Grouping_spec. Qed.
Print Assumptions C49_sub_year_partial.
Theorem C49_set_partial : forall s, IsSetRepresentation s = true <-> is_set s.
Proof. exact set_test. Qed.
Print Assumptions C49_set_partial.
Theorem C49_extended_start_partial : forall s, match_string IntervalStart s = true <-> extended_start s.
Proof. exact IntervalStart_spec. Qed.
Print Assumptions C49_extended_start_partial.
Theorem C49_extended_end_partial : forall s, match_string IntervalEnd s = true <-> extended_end s.
Proof. exact IntervalEnd_spec. Qed.
Print Assumptions C49_extended_end_partial.

Theorem C49_extended_interval_refuted : exists s, IsExtendedInterval s = true /\ ~ extended_start s /\ ~ extended_end s.
Proof.
  exists ($"garbage"). split; [vm_compute; reflexivity|]. split; intro H.
  - apply IntervalStart_spec in H. vm_compute in H. discriminate.
  - apply IntervalEnd_spec in H. vm_compute in H. discriminate.
Qed.
Print Assumptions C49_extended_interval_refuted.
Theorem C49_season_refuted : exists s, IsSeason s = true /\ IsDate s = true.
Proof. exists ($"1985-04-12"). vm_compute. split; reflexivity. Qed.
Print Assumptions C49_season_refuted.
Theorem C49_set_refuted : exists r, IsSetRepresentation ("["%char :: r ++ ["}"%char]) = true.
Proof. exists ($"1984"). vm_compute. reflexivity. Qed.
Print Assumptions C49_set_refuted.
Theorem C49_unspecified_digits_refuted : exists s, IsUnspecifiedDigits s = true /\ ~ In "X"%char s.
Proof. exists ($"1985"). split; [vm_compute; reflexivity|]. intros [H|[H|[H|[H|[]]]]]; discriminate. Qed.
Print Assumptions C49_unspecified_digits_refuted.
Theorem C49_negative_year_refuted : exists s, IsNegativeCalendarYear ("-"%char :: "-"%char :: s) = true.
Proof. exists ($"1985"). vm_compute. reflexivity. Qed.
Print Assumptions C49_negative_year_refuted.
Theorem C49_sub_year_refuted : exists s, IsSubYearGrouping s = true /\ IsDate s = true.
Proof. exists ($"1985-11"). vm_compute. split; reflexivity. Qed.
Print Assumptions C49_sub_year_refuted.
Example C49_case : IsExponentialYear ($"Y-17E7") = true /\ IsExponentialYear ($"Y-17E") = false /\ IsSignificantDigits ($"Y171010000S3") = true /\
  IsGroupQualification ($"2004-06~-11") = true /\ IsIndividualQualification ($"2004-06~-11") = false /\ IsInterval ($"2004-06-XX/2004-07-03") = true.
Proof. vm_compute. repeat split. Qed.
