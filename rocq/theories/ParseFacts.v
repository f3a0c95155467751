(** Which parser a successful ParseString went through. *)
From Coq Require Import Ascii String ZArith NArith Bool Lia ZifyBool List.
From Verif Require Import GoStr GoTime Regex Patterns StrFacts Edtf Calendar Common Level0 Level1 Level2 Parser CalFacts ApiFacts.
Import ListNotations.
Open Scope Z_scope.

(** The features whose parser hands the input unchanged to DateSpanFromEDTF. *)
Definition self_features : list (Z * str * regexp) :=
  [(LEVEL0, DATE, Date_re); (LEVEL0, TIME_INTERVAL, TimeInterval);
   (LEVEL1, QUALIFIED_DATE, QualifiedDate); (LEVEL1, UNSPECIFIED_DIGITS, UnspecifiedDigits);
   (LEVEL1, NEGATIVE_CALENDAR_YEAR, NegativeYear);
   (LEVEL1, EXTENDED_INTERVAL_START, IntervalStart); (LEVEL1, EXTENDED_INTERVAL_END, IntervalEnd);
   (LEVEL2, GROUP_QUALIFICATION, GroupQualification); (LEVEL2, INDIVIDUAL_QUALIFICATION, IndividualQualification);
   (LEVEL2, UNSPECIFIED_DIGIT, UnspecifiedDigit); (LEVEL2, INTERVAL, Interval)].

Inductive parsed (s : str) : edtfdate -> Prop :=
| ps_datetime d : IsDateAndTime s = true -> ParseDateAndTime s = OK d -> parsed s d
| ps_self lv f re sp : In (lv, f, re) self_features -> match_string re s = true -> DateSpanFromEDTF s = OK sp ->
    parsed s (edtf_of_span sp s lv f)
| ps_letter d : ParseLetterPrefixedCalendarYear s = OK d -> parsed s d
| ps_season d : ParseSeason s = OK d -> parsed s d
| ps_exponential d : ParseExponentialYear s = OK d -> parsed s d
| ps_significant d : ParseSignificantDigits s = OK d -> parsed s d
| ps_grouping d : ParseSubYearGroupings s = OK d -> parsed s d
| ps_set d : ParseSetRepresentations s = OK d -> parsed s d
| ps_open : s = $".." -> parsed s (mkEDTF OpenDateRange OpenDateRange s (-1) ($"Open"))
| ps_unknown : s = [] -> parsed s (mkEDTF UnknownDateRange UnknownDateRange s (-1) ($"Unknown")).

Lemma self_parse s lv f re d : In (lv, f, re) self_features ->
  (if negb (match_string re s) then Err (Invalid f s) else let* sp := DateSpanFromEDTF s in OK (edtf_of_span sp s lv f)) = OK d ->
  parsed s d.
Proof.
  intros Hin H. destruct (match_string re s) eqn:E; [|discriminate H]. cbn [negb] in H.
  apply bind_OK in H. destruct H as (sp & Hsp & H). injection H as <-. econstructor; eassumption.
Qed.
Ltac selfp := eapply self_parse; [|eassumption]; unfold self_features; cbn [In]; tauto.

Theorem parse_parsed s d : ParseString s = OK d -> parsed s d.
Proof.
  unfold ParseString. intro H. destruct (IsLevel0 s) eqn:E0.
  { unfold L0_ParseString in H. destruct (IsDate s); [selfp|].
    destruct (IsDateAndTime s) eqn:Et; [apply ps_datetime; assumption|].
    destruct (IsTimeInterval s); [selfp|discriminate]. }
  destruct (IsLevel1 s).
  { unfold L1_ParseString in H. destruct (IsLetterPrefixedCalendarYear s); [apply ps_letter; assumption|].
    destruct (IsSeason s); [apply ps_season; assumption|]. destruct (IsQualifiedDate s); [selfp|].
    destruct (IsUnspecifiedDigits s); [selfp|]. destruct (IsNegativeCalendarYear s); [selfp|].
    destruct (IsExtendedInterval s); [|discriminate]. unfold ParseExtendedInterval in H.
    destruct (match_string IntervalStart s); [selfp|]. destruct (match_string IntervalEnd s); [selfp|discriminate]. }
  destruct (IsLevel2 s).
  { unfold L2_ParseString in H. destruct (IsExponentialYear s); [apply ps_exponential; assumption|].
    destruct (IsSignificantDigits s); [apply ps_significant; assumption|].
    destruct (IsSubYearGrouping s); [apply ps_grouping; assumption|].
    destruct (IsSetRepresentation s); [apply ps_set; assumption|].
    destruct (IsGroupQualification s); [selfp|]. destruct (IsIndividualQualification s); [selfp|].
    destruct (IsUnspecifiedDigit s); [selfp|]. destruct (IsInterval s); [selfp|discriminate]. }
  destruct (seqb s OPEN) eqn:E1; [apply seqb_eq in E1; injection H as <-; apply ps_open; assumption|].
  destruct (seqb s UNKNOWN) eqn:E2; [apply seqb_eq in E2; injection H as <-; apply ps_unknown; assumption|discriminate].
Qed.

(** *** The other parsers, opened up *)
Lemma letter_inv s d : ParseLetterPrefixedCalendarYear s = OK d -> exists sp,
  length (find_submatch LetterPrefixedCalendarYear s) = 2%nat /\
  DateSpanFromEDTF (sub (find_submatch LetterPrefixedCalendarYear s) 1) = OK sp /\
  d = edtf_of_span sp s LEVEL1 LETTER_PREFIXED_CALENDAR_YEAR.
Proof.
  unfold ParseLetterPrefixedCalendarYear. intro H. destruct (Nat.eqb _ 2) eqn:E; [|discriminate H]. cbn [negb] in H. cbv zeta in H.
  destruct (Nat.ltb _ _); [discriminate H|]. apply bind_OK in H. destruct H as (sp & Hsp & H). injection H as <-.
  exists sp. apply Nat.eqb_eq in E. auto.
Qed.
Definition season_text (a b c d e : Z) : str :=
  fmt_0d 4 a ++ $"-" ++ fmt_0d 2 b ++ $"-" ++ fmt_0d 2 1 ++ $"/" ++
  fmt_0d 4 c ++ $"-" ++ fmt_0d 2 d ++ $"-" ++ fmt_0d 2 e.
Lemma season_inv s d : ParseSeason s = OK d -> exists a b c e dd sp,
  let m := find_submatch Season s in length m = 5%nat /\
  ((sub m 1 = [] /\ exists y, atoi (sub m 4) = OK y /\ season_word (sub m 3) y = Some (a, b, c, e)) \/
   (sub m 1 <> [] /\ exists y mm, atoi (sub m 1) = OK y /\ atoi (sub m 2) = OK mm /\ season_code mm y = (a, b, c, e))) /\
  DaysInMonth c e = OK dd /\ DateSpanFromEDTF (season_text a b c e dd) = OK sp /\ d = edtf_of_span sp s LEVEL1 SEASON.
Proof.
  unfold ParseSeason. intro H. destruct (Nat.eqb _ 5) eqn:E; [|discriminate H]. cbn [negb] in H. cbv zeta in H.
  apply bind_OK in H. destruct H as ((((a & b) & c) & e) & H1 & H). apply bind_OK in H. destruct H as (dd & Hdd & H).
  apply bind_OK in H. destruct H as (sp & Hsp & H). injection H as <-. exists a, b, c, e, dd, sp. cbv zeta.
  apply Nat.eqb_eq in E. split; [exact E|]. split; [|auto]. destruct (is_empty (sub _ 1)) eqn:Em.
  - left. split; [destruct (sub _ 1); [reflexivity|discriminate]|]. apply bind_OK in H1. destruct H1 as (y & Hy & H1).
    exists y. destruct (season_word _ y) eqn:Ew; [|discriminate]. injection H1 as ->. auto.
  - right. split; [intro Q; rewrite Q in Em; discriminate|]. apply bind_OK in H1. destruct H1 as (y & Hy & H1).
    apply bind_OK in H1. destruct H1 as (mm & Hmm & H1). exists y, mm. split; [exact Hy|]. split; [exact Hmm|]. injection H1 as H1. exact H1.
Qed.
Lemma exponential_inv s d : ParseExponentialYear s = OK d -> exists y sp,
  length (find_submatch ExponentialYear s) = 2%nat /\
  ParseExponentialNotation (sub (find_submatch ExponentialYear s) 1) = OK y /\ DateSpanFromEDTF (itoa y) = OK sp /\
  d = edtf_of_span sp s LEVEL2 EXPONENTIAL_YEAR.
Proof.
  unfold ParseExponentialYear. intro H. destruct (negb (match_string _ s)); [discriminate|].
  destruct (Nat.eqb _ 2) eqn:E; [|discriminate H]. cbn [negb] in H. cbv zeta in H.
  apply bind_OK in H. destruct H as (y & Hy & H). apply bind_OK in H. destruct H as (sp & Hsp & H). injection H as <-.
  exists y, sp. apply Nat.eqb_eq in E. auto.
Qed.
Lemma or_invalid_OK {A} (x : res A) f s a : or_invalid x f s = OK a <-> x = OK a.
Proof. destruct x; cbn; split; congruence. Qed.
(** the year text of a significant digits form, and its span text *)
Definition significant_text (y n : Z) : str :=
  let p := firstn (length (itoa y) - Z.to_nat n) (itoa y) in
  let a := p ++ repeat_str ($"0") (Z.to_nat n) in
  let b := p ++ repeat_str ($"9") (Z.to_nat n) in
  if has_prefix a ($"-") && has_prefix b ($"-") then b ++ $"/" ++ a else a ++ $"/" ++ b.
Lemma significant_inv s d : ParseSignificantDigits s = OK d -> exists y n sp,
  let m := find_submatch SignificantDigits s in length m = 5%nat /\
  ((sub m 1 <> [] /\ atoi (sub m 1) = OK y) \/
   (sub m 1 = [] /\ sub m 2 <> [] /\ slen (sub m 2) <= 4 /\ atoi (sub m 2) = OK y) \/
   (sub m 1 = [] /\ sub m 2 = [] /\ sub m 3 <> [] /\ ParseExponentialNotation (sub m 3) = OK y)) /\
  y <= MAX_YEARS /\ atoi (sub m 4) = OK n /\ slen (itoa n) <= slen (itoa y) /\ 0 <= n <= slen (itoa y) /\
  DateSpanFromEDTF (significant_text y n) = OK sp /\ d = edtf_of_span sp s LEVEL2 SIGNIFICANT_DIGITS.
Proof.
  unfold ParseSignificantDigits. intro H. destruct (Nat.eqb _ 5) eqn:E; [|discriminate H]. cbn [negb] in H. cbv zeta in H.
  apply bind_OK in H. destruct H as (y & Hy & H). destruct (MAX_YEARS <? y) eqn:Emax; [discriminate|].
  apply bind_OK in H. destruct H as (n & Hn & H). apply or_invalid_OK in Hn.
  destruct (slen (itoa y) <? slen (itoa n)) eqn:El; [discriminate|].
  destruct ((slen (itoa y) <? n) || (n <? 0)) eqn:Ep; [discriminate|].
  apply bind_OK in H. destruct H as (sp & Hsp & H). injection H as <-. exists y, n, sp. cbv zeta.
  apply Nat.eqb_eq in E. split; [exact E|]. split; [|unfold MAX_YEARS in *; repeat split; auto; lia].
  destruct (is_empty (sub _ 1)) eqn:E1; cbn [negb] in Hy.
  - assert (Q1 : sub (find_submatch SignificantDigits s) 1 = []) by (destruct (sub _ 1); [reflexivity|discriminate]).
    right. destruct (is_empty (sub _ 2)) eqn:E2; cbn [negb] in Hy.
    + assert (Q2 : sub (find_submatch SignificantDigits s) 2 = []) by (destruct (sub _ 2); [reflexivity|discriminate]).
      right. destruct (is_empty (sub _ 3)) eqn:E3; cbn [negb] in Hy; [discriminate|].
      repeat split; auto. intro Q; rewrite Q in E3; discriminate.
    + left. destruct (4 <? slen _) eqn:E4; [discriminate|]. apply or_invalid_OK in Hy.
      repeat split; auto; [intro Q; rewrite Q in E2; discriminate|lia].
  - left. apply or_invalid_OK in Hy. split; auto. intro Q; rewrite Q in E1; discriminate.
Qed.
Lemma grouping_inv s d : ParseSubYearGroupings s = OK d -> exists a b c e (nx : bool) ey sp,
  let m := find_submatch SubYearGrouping s in length m = 3%nat /\
  grouping_bounds (sub m 2) = Some (a, b, c, e, nx) /\
  (if nx then exists y, atoi (sub m 1) = OK y /\ ey = itoa (y + 1) else ey = sub m 1) /\
  DateSpanFromEDTF ((sub m 1 ++ $"-" ++ a ++ $"-" ++ b) ++ $"/" ++
     (if is_empty e then ey ++ $"-" ++ c else (ey ++ $"-" ++ c) ++ $"-" ++ e)) = OK sp /\
  d = edtf_of_span sp s LEVEL2 SUB_YEAR_GROUPINGS.
Proof.
  unfold ParseSubYearGroupings. intro H. destruct (Nat.eqb _ 3) eqn:E; [|discriminate H]. cbn [negb] in H. cbv zeta in H.
  destruct (grouping_bounds _) as [((((a & b) & c) & e) & nx)|] eqn:Eg; [|discriminate].
  apply bind_OK in H. destruct H as (ey & Hey & H). apply bind_OK in H. destruct H as (sp & Hsp & H). injection H as <-.
  exists a, b, c, e, nx, ey, sp. cbv zeta. apply Nat.eqb_eq in E. split; [exact E|]. split; [reflexivity|]. split; [|auto].
  destruct nx; [|injection Hey as <-; reflexivity]. apply bind_OK in Hey. destruct Hey as (y & Hy & Hey). injection Hey as <-. eauto.
Qed.

(** Everything but date-times, sets and the two bare strings is a span. *)
Lemma parsed_span s d : ParseString s = OK d ->
  ParseDateAndTime s = OK d \/ ParseSetRepresentations s = OK d \/
  (s = $".." /\ d = mkEDTF OpenDateRange OpenDateRange s (-1) ($"Open")) \/
  (s = [] /\ d = mkEDTF UnknownDateRange UnknownDateRange s (-1) ($"Unknown")) \/
  (exists t sp lv f, DateSpanFromEDTF t = OK sp /\ d = edtf_of_span sp s lv f /\
     f <> $"Date and Time" /\ f <> $"Set representation").
Proof.
  intro H. apply parse_parsed in H.
  destruct H as [d Hm H|lv f r sp Hin Hm H|d H|d H|d H|d H|d H|d H|H|H]; auto 6.
  - right; right; right; right. exists s, sp, lv, f. split; [exact H|]. split; [reflexivity|].
    unfold self_features in Hin. cbn [In] in Hin. decompose [or] Hin; try contradiction;
    match goal with E : (_, _, _) = _ |- _ => injection E as <- <- <- end; split; discriminate.
  - right; right; right; right. destruct (letter_inv _ _ H) as (sp & _ & Hsp & ->). do 4 eexists. split; [exact Hsp|]. split; [reflexivity|]. split; discriminate.
  - right; right; right; right. destruct (season_inv _ _ H) as (a & b & c & e & dd & sp & Hq). cbv zeta in Hq. destruct Hq as (_ & _ & _ & Hsp & ->). do 4 eexists. split; [exact Hsp|]. split; [reflexivity|]. split; discriminate.
  - right; right; right; right. destruct (exponential_inv _ _ H) as (y & sp & _ & _ & Hsp & ->). do 4 eexists. split; [exact Hsp|]. split; [reflexivity|]. split; discriminate.
  - right; right; right; right. destruct (significant_inv _ _ H) as (y & n & sp & Hq). cbv zeta in Hq. destruct Hq as (_ & _ & _ & _ & _ & _ & Hsp & ->). do 4 eexists. split; [exact Hsp|]. split; [reflexivity|]. split; discriminate.
  - right; right; right; right. destruct (grouping_inv _ _ H) as (a & b & c & e & nx & ey & sp & Hq). cbv zeta in Hq. destruct Hq as (_ & _ & _ & Hsp & ->). do 4 eexists. split; [exact Hsp|]. split; [reflexivity|]. split; discriminate.
Qed.
