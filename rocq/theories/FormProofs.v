(** The feature tests and the strings that Matches names. *)
From Coq Require Import Ascii String ZArith NArith Bool Lia ZifyBool List.
From Verif Require Import GoStr Regex Patterns RegexSym RegexRel RegexGen SpecCal SpecText SpecGrammar SpecForms StrFacts TextFacts Edtf Common Level0 Level1 Level2 Parser SetGrammar LangFacts LangNorm LangForms LangForms2 Level0Proofs FormFacts SeasonFacts Level1Proofs XProofs.
Import ListNotations.
Open Scope Z_scope.

Lemma set_test s : match_string SetRepresentations s = true <-> is_set s.
Proof. apply IsSet_spec. Qed.
Lemma x_free s : level2_exact s -> ~ In "x"%char s.
Proof.
  intros H Hx.
  assert (N : forall R, match_string R s = true -> match_string R s = false -> False) by (intros R H1 H2; congruence).
  destruct H as [H|[H|[H|[H|[H|[H|[H|H]]]]]]].
  - apply Exponential_spec in H. apply (N _ H). no_byte "x"%char. exact Hx.
  - apply Significant_spec in H. apply (N _ H). no_byte "x"%char. exact Hx.
  - apply Grouping_spec in H. apply (N _ H). no_byte "x"%char. exact Hx.
  - apply set_test in H. apply (N _ H). no_byte "x"%char. exact Hx.
  - apply Group_spec in H. apply (N _ H). no_byte "x"%char. exact Hx.
  - apply Individual_spec in H. apply (N _ H). no_byte "x"%char. exact Hx.
  - apply Unspecified_spec in H. apply (N _ H). no_byte "x"%char. exact Hx.
  - apply Interval_spec in H. apply (N _ H). no_byte "x"%char. exact Hx.
Qed.
Lemma unspec_x_free s : unspecified_digits s -> ~ In "x"%char s.
Proof. intros H Hx. apply UnspecifiedDigits_spec in H. revert H. apply not_true_iff_false. no_byte "x"%char. exact Hx. Qed.
Lemma level1_iff s : IsLevel1 s = true <-> level1_form s \/ unspecified_digits (map upx s).
Proof.
  unfold IsLevel1. rewrite Level1_spec. unfold level1_form. split; [tauto|]. intros [H|H]; [|tauto].
  destruct H as [H|[H|[H|[H|[H|H]]]]]; try tauto. do 4 right. left. rewrite upx_id; [exact H|]. apply unspec_x_free. exact H.
Qed.
Lemma exact_form s : level2_exact s -> level2_form s.
Proof.
  intro H. pose proof (x_free _ H) as Hx. unfold level2_form. rewrite upx_id by exact Hx.
  destruct H as [H|[H|[H|[H|[H|[H|[H|H]]]]]]]; try tauto. right. left.
  destruct H as (u & v & Hu & Hv & ->). exists u, v. split; [|split; [|reflexivity]].
  - destruct Hu as [Hu|[(a & b & -> & Hb & ->)|Hu]]; [auto|right; left; exists ($"Y"), b; split; [left; reflexivity|auto]|auto].
  - destruct Hv as (a & b & -> & Hb & ->). exists ($"S"), b. split; [left; reflexivity|auto].
Qed.
Lemma level2_iff s : IsLevel2 s = true <-> exists u v, level2_form u /\ s = u ++ v.
Proof. apply Level2_spec. Qed.
Theorem valid_iff s : IsValid s = true <->
  level0_form s \/ level1_form s \/ unspecified_digits (map upx s) \/ (exists u v, level2_form u /\ s = u ++ v) \/ s = $".." \/ s = [].
Proof.
  unfold IsValid. destruct (IsLevel0 s) eqn:E0.
  - split; [|reflexivity]. intros _. left. apply level0_grammar. exact E0.
  - assert (N0 : ~ level0_form s) by (intro H; apply level0_grammar in H; congruence).
    destruct (IsLevel1 s) eqn:E1.
    + split; [|reflexivity]. intros _. apply level1_iff in E1. tauto.
    + assert (N1 : ~ (level1_form s \/ unspecified_digits (map upx s))) by (intro H; apply level1_iff in H; congruence).
      destruct (IsLevel2 s) eqn:E2.
      * split; [|reflexivity]. intros _. apply level2_iff in E2. tauto.
      * assert (N2 : ~ (exists u v, level2_form u /\ s = u ++ v)) by (intro H; apply level2_iff in H; congruence).
        rewrite orb_true_iff, !seqb_eq. change OPEN with ($".."). change UNKNOWN with (@nil ascii). tauto.
Qed.
Lemma bind_named {l : Z} {x : res str} : (exists (a : Z) f, (let* f := x in OK (l, f)) = OK (a, f)) <-> exists f, x = OK f.
Proof.
  split.
  - intros (a & f & H). destruct x; cbn [bind] in H; try discriminate. eexists. reflexivity.
  - intros (f & ->). exists l, f. reflexivity.
Qed.
Lemma l1_named s : (exists f, L1_Matches s = OK f) <-> letter_year s \/ (cat season_date anything s \/ cat anything season_words s) \/
  qualified_date s \/ unspecified_digits s \/ minus_year s \/ extended_start s \/ extended_end s.
Proof.
  unfold L1_Matches, IsLetterPrefixedCalendarYear, IsSeason, IsQualifiedDate, IsUnspecifiedDigits, IsNegativeCalendarYear.
  replace (IsExtendedInterval s) with true by (unfold IsExtendedInterval; destruct (match_string IntervalEnd s), (match_string IntervalStart s); reflexivity).
  cbn [andb]. rewrite <- LetterYear_spec, <- Season_spec, <- QualifiedDate_spec, <- UnspecifiedDigits_spec, <- NegativeYear_spec, <- IntervalStart_spec, <- IntervalEnd_spec.
  destruct (match_string LetterPrefixedCalendarYear s); [split; [auto|eauto]|].
  destruct (match_string Season s); [split; [auto|eauto]|].
  destruct (match_string QualifiedDate s); [split; [auto|eauto]|].
  destruct (match_string UnspecifiedDigits s); [split; [auto|eauto]|].
  destruct (match_string NegativeYear s); [split; [auto 10|eauto]|].
  destruct (match_string IntervalStart s); [split; [auto 10|eauto]|].
  destruct (match_string IntervalEnd s); [split; [auto 10|eauto]|].
  split; [intros (f & H); discriminate|]. intuition discriminate.
Qed.
Lemma l2_named s : (exists f, L2_Matches s = OK f) <-> level2_exact s.
Proof.
  unfold L2_Matches, IsExponentialYear, IsSignificantDigits, IsSubYearGrouping, IsSetRepresentation, IsGroupQualification, IsIndividualQualification, IsUnspecifiedDigit, IsInterval, level2_exact.
  rewrite <- Exponential_spec, <- Significant_spec, <- Grouping_spec, <- set_test, <- Group_spec, <- Individual_spec, <- Unspecified_spec, <- Interval_spec.
  destruct (match_string ExponentialYear s); [split; [auto|eauto]|].
  destruct (match_string SignificantDigits s); [split; [auto|eauto]|].
  destruct (match_string SubYearGrouping s); [split; [auto|eauto]|].
  destruct (match_string SetRepresentations s); [split; [auto|eauto]|].
  destruct (match_string GroupQualification s); [split; [auto 10|eauto]|].
  destruct (match_string IndividualQualification s); [split; [auto 10|eauto]|].
  destruct (match_string UnspecifiedDigit s); [split; [auto 10|eauto]|].
  destruct (match_string Interval s); [split; [auto 10|eauto]|].
  split; [intros (f & H); discriminate|]. intuition discriminate.
Qed.
Lemma in_upx c s : c <> "x"%char -> c <> "X"%char -> In c s -> In c (map upx s).
Proof.
  intros H1 H2 H. apply in_map_iff. exists c. split; [|exact H]. unfold upx. destruct (Ascii.eqb c "x") eqn:E; [|reflexivity].
  apply Ascii.eqb_eq in E. contradiction.
Qed.
Theorem named_iff s : (exists l f, Matches s = OK (l, f)) <->
  level0_form s \/ level1_form s \/ unspecified_digits (map upx s) /\ cat season_date anything s \/ level2_exact s.
Proof.
  destruct (IsLevel0 s) eqn:E0.
  { split; intros _; [left; apply level0_grammar; exact E0|]. destruct (level0_matches s E0) as (f & H). exists 0, f. exact H. }
  assert (N0 : ~ level0_form s) by (intro H; apply level0_grammar in H; congruence).
  unfold Matches. rewrite E0. destruct (IsLevel1 s) eqn:E1.
  - rewrite bind_named, l1_named. apply level1_iff in E1. unfold level1_form in *. split.
    + intro H. destruct E1 as [E1|E1]; [tauto|]. destruct H as [H|[[H|H]|H]]; try tauto. exfalso.
      destruct H as (u & v & _ & Hv & ->). apply words_comma in Hv.
      assert (C : In ","%char (map upx (u ++ v))) by (apply in_upx; [discriminate|discriminate|apply in_or_app; auto]).
      apply UnspecifiedDigits_spec in E1. revert E1. apply not_true_iff_false. no_byte ","%char. exact C.
    + assert (A : forall t, anything t) by exact (fun _ => I).
      intro H. destruct H as [H|[H|[(_ & H)|H]]]; [contradiction| |tauto|].
      * destruct H as [H|[H|[H|[H|H]]]]; try tauto.
        -- right. left. left. exists s, []. rewrite app_nil_r. auto.
        -- right. left. right. exists [], s. auto.
      * assert (U : level1_form s).
        { unfold level1_form. destruct E1 as [E1|E1]; [exact E1|]. rewrite upx_id in E1 by (apply x_free; exact H). tauto. }
        destruct U as [U|[U|[U|[U|U]]]]; try tauto.
        -- right. left. left. exists s, []. rewrite app_nil_r. auto.
        -- right. left. right. exists [], s. auto.
  - assert (N1 : ~ (level1_form s \/ unspecified_digits (map upx s))) by (intro H; apply level1_iff in H; congruence).
    destruct (IsLevel2 s) eqn:E2.
    + rewrite bind_named, l2_named. tauto.
    + split; [intros (l & f & H); discriminate|]. intros [H|[H|[H|H]]]; try tauto. exfalso.
      assert (X : IsLevel2 s = true) by (apply level2_iff; exists s, []; rewrite app_nil_r; split; [apply exact_form; exact H|reflexivity]). congruence.
Qed.
(** The level that is named. *)
Theorem named_level s l f : Matches s = OK (l, f) -> l = 0 /\ level0_form s \/ l = 1 /\ IsLevel1 s = true \/ l = 2 /\ level2_exact s.
Proof.
  unfold Matches. destruct (IsLevel0 s) eqn:E0; [|destruct (IsLevel1 s) eqn:E1; [|destruct (IsLevel2 s) eqn:E2]]; intro H.
  - left. apply level0_grammar in E0. split; [|exact E0]. destruct (L0_Matches s); cbn [bind] in H; try discriminate. injection H as <- _. reflexivity.
  - right. left. split; [|reflexivity]. destruct (L1_Matches s); cbn [bind] in H; try discriminate. injection H as <- _. reflexivity.
  - right. right. destruct (L2_Matches s) as [g| |] eqn:E; cbn [bind] in H; try discriminate. split; [injection H as <- _; reflexivity|]. apply l2_named. exists g. exact E.
  - discriminate.
Qed.
