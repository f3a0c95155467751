(** The error that every rejected string gets. *)
From Coq Require Import Ascii String ZArith NArith Bool Lia ZifyBool List.
From Verif Require Import GoStr GoTime Regex Patterns SpecCal SpecText SpecZone SpecGrammar SpecForms SpecSpan SpecSet SpecReads SpecRefused StrFacts TextFacts Edtf Calendar Common Level0 Level1 Level2 Parser ApiFacts SpanFacts InvFacts GrammarFacts LangFacts LangNorm LangForms LangForms2 ParseFacts Level0Facts Level0Proofs FormFacts SeasonFacts Level1Proofs FormProofs ExpProofs InvProofs ReadsFacts ReadsSeason ReadsYears ReadsSet ReadsProofs RefDate RefStamp RefYears RefExp RefSet.
Import ListNotations.
Open Scope Z_scope.

Lemma refused_span f s x : In f span_features -> (refused_as f s x <-> span_refused s x).
Proof.
  intro H. split; [|apply fx_span; exact H]. intro R. destruct R; try assumption;
    (exfalso; cbn [In span_features] in H; repeat (destruct H as [H|H]; [discriminate H|]); exact H).
Qed.
Ltac only_refused := split; [|first [apply fx_stamp|apply fx_letter|apply fx_season|apply fx_exponential|apply fx_significant|apply fx_grouping|apply fx_set]];
  let R := fresh in intro R; inversion R; subst; try assumption;
  exfalso; match goal with H : In _ span_features |- _ => cbn [In span_features] in H; repeat (destruct H as [H|H]; [discriminate H|]); exact H end.
Lemma refused_stamp s x : refused_as ($"Date and Time") s x <-> stamp_refused s x.
Proof. only_refused. Qed.
Lemma refused_letter s x : refused_as ($"Letter-prefixed calendar year") s x <-> letter_refused s x.
Proof. only_refused. Qed.
Lemma refused_season s x : refused_as ($"Seasons") s x <-> season_refused s x.
Proof. only_refused. Qed.
Lemma refused_exponential s x : refused_as ($"Exponential year") s x <-> exponential_refused s x.
Proof. only_refused. Qed.
Lemma refused_significant s x : refused_as ($"Significant digits") s x <-> significant_refused s x.
Proof. only_refused. Qed.
Lemma refused_grouping s x : refused_as ($"Sub-year groupings") s x <-> grouping_refused s x.
Proof. only_refused. Qed.
Lemma refused_set s x : refused_as ($"Set representation") s x <-> set_refused s x.
Proof. only_refused. Qed.

Lemma span_err s t lv f x : (let* sp := DateSpanFromEDTF t in OK (edtf_of_span sp s lv f)) = Err x <-> span_refused t x.
Proof. rewrite <- span_errors. destruct (DateSpanFromEDTF t); cbn [bind]; [split; discriminate|split; intro H; apply err_same in H; subst; reflexivity|split; discriminate]. Qed.
(** One feature. *)
Lemma feature_complete s lv f x : takes s lv f -> ParseString s = Err x -> refused_as f s x.
Proof.
  intros T H. pose proof T as M. apply matches_takes in M. apply named_routed in M.
  assert (T1 : lv = 1 -> level1_text s) by (intro E; destruct T; [discriminate|assumption|discriminate]).
  assert (T2 : lv = 2 -> ~ level0_form s /\ ~ level1_text s) by (intro E; destruct T; [discriminate|discriminate|auto]).
  destruct M as [lv f Hf E|I E|I E|I E|I E|I E|I E|I E].
  - rewrite (refused_span f s x Hf). rewrite E in H. apply span_err in H. exact H.
  - unfold DATE_AND_TIME. rewrite refused_stamp. apply stamp_errors; [apply DateAndTime_spec; exact I|exact H].
  - unfold LETTER_PREFIXED_CALENDAR_YEAR. rewrite refused_letter. apply letter_errors; [apply LetterYear_spec; exact I|congruence].
  - unfold SEASON. rewrite refused_season. apply season_errors; [auto|apply Season_spec; exact I|congruence].
  - unfold EXPONENTIAL_YEAR. rewrite refused_exponential. apply Exponential_spec in I. pose proof (exponential_complete s I) as C. rewrite H in C. exact C.
  - unfold SIGNIFICANT_DIGITS. rewrite refused_significant. apply Significant_spec in I. pose proof (significant_complete s I) as C. rewrite H in C. exact C.
  - unfold SUB_YEAR_GROUPINGS. rewrite refused_grouping. destruct (T2 eq_refl) as (N0 & N1). apply grouping_errors; [exact N0|exact N1|apply Grouping_spec; exact I|congruence].
  - unfold SET_REPRESENTATIONS. rewrite refused_set. apply set_errors; [apply set_test; exact I|congruence].
Qed.
Lemma feature_sound s lv f x : takes s lv f -> refused_as f s x -> ParseString s = Err x \/ borderline s /\ ParseString s = Panic.
Proof.
  intros T H. pose proof T as M. apply matches_takes in M. apply named_routed in M.
  assert (T1 : lv = 1 -> level1_text s) by (intro E; destruct T; [discriminate|assumption|discriminate]).
  assert (T2 : lv = 2 -> ~ level0_form s /\ ~ level1_text s) by (intro E; destruct T; [discriminate|discriminate|auto]).
  destruct M as [lv f Hf E|I E|I E|I E|I E|I E|I E|I E].
  - left. rewrite E. apply span_err. exact (proj1 (refused_span f s x Hf) H).
  - left. apply refused_stamp in H. apply stamp_errors; [apply DateAndTime_spec; exact I|exact H].
  - left. apply refused_letter in H. rewrite E. apply letter_errors; [apply LetterYear_spec; exact I|exact H].
  - left. apply refused_season in H. rewrite E. apply season_errors; [auto|apply Season_spec; exact I|exact H].
  - apply refused_exponential in H. apply exponential_sound. exact H.
  - apply refused_significant in H. apply significant_sound. exact H.
  - left. apply refused_grouping in H. rewrite E. destruct (T2 eq_refl) as (N0 & N1). apply grouping_errors; [exact N0|exact N1|apply Grouping_spec; exact I|exact H].
  - left. apply refused_set in H. rewrite E. apply set_errors; [apply set_test; exact I|exact H].
Qed.

(** No feature. *)
Lemma unnamed1 s : no_feature s level1_features -> L1_ParseString s = Err (EInvalid ($"Extended Interval") s).
Proof.
  intro N. assert (M : forall f, L1_Matches s <> OK f) by (intros f H; apply (N f), first1; exact H). clear N.
  unfold L1_Matches in M. unfold L1_ParseString, ParseExtendedInterval.
  replace (IsExtendedInterval s) with true in * by (unfold IsExtendedInterval; destruct (match_string IntervalEnd s), (match_string IntervalStart s); reflexivity).
  cbn [andb] in M. repeat match goal with |- context [if ?b then _ else _] => destruct b; [exfalso; eapply M; reflexivity|] end. reflexivity.
Qed.
Lemma unnamed2 s : no_feature s level2_features -> L2_ParseString s = Err (EInvalid ($"Invalid or unsupported Level 2 string") s).
Proof.
  intro N. assert (M : forall f, L2_Matches s <> OK f) by (intros f H; apply (N f), first2; exact H). clear N.
  unfold L2_Matches in M. unfold L2_ParseString.
  repeat match goal with |- context [if ?b then _ else _] => destruct b; [exfalso; eapply M; reflexivity|] end. reflexivity.
Qed.
Lemma level0_test s : IsLevel0 s = true <-> level0_form s.
Proof. exact (level0_grammar s). Qed.
Lemma level1_test s : IsLevel1 s = true <-> level1_text s.
Proof. exact (level1_iff s). Qed.
Lemma level2_test s : IsLevel2 s = true <-> level2_text s.
Proof. exact (level2_iff s). Qed.
Lemma untest (b : bool) (P : Prop) : (b = true <-> P) -> ~ P -> b = false.
Proof. intros H N. destruct b; [destruct N; apply H; reflexivity|reflexivity]. Qed.

Theorem refused_sound s x : refused s x -> ParseString s = Err x \/ borderline s /\ ParseString s = Panic.
Proof.
  intros [s0 lv f x0 T H|s0 N0 T1 N|s0 N0 N1 T2 N|s0 N0 N1 N2 D1 D2].
  - exact (feature_sound s0 lv f x0 T H).
  - left. unfold ParseString. rewrite (untest _ _ (level0_test s0) N0). rewrite (proj2 (level1_test s0) T1). apply unnamed1. exact N.
  - left. unfold ParseString. rewrite (untest _ _ (level0_test s0) N0), (untest _ _ (level1_test s0) N1). rewrite (proj2 (level2_test s0) T2). apply unnamed2. exact N.
  - left. unfold ParseString. rewrite (untest _ _ (level0_test s0) N0), (untest _ _ (level1_test s0) N1), (untest _ _ (level2_test s0) N2).
    change OPEN with ($".."). change UNKNOWN with (@nil ascii). rewrite (proj2 (seqb_neq s0 _) D1), (proj2 (seqb_neq s0 _) D2). reflexivity.
Qed.
Theorem refused_complete s x : ParseString s = Err x -> refused s x.
Proof.
  intro H. destruct (Matches s) as [(lv & f)|e|] eqn:M.
  - apply matches_takes in M. exact (rf_feature s lv f x M (feature_complete s lv f x M H)).
  - unfold Matches in M. unfold ParseString in H. pose proof (level0_test s) as G0. pose proof (level1_test s) as G1. pose proof (level2_test s) as G2.
    destruct (IsLevel0 s) eqn:E0.
    { destruct (level0_matches s E0) as (f & Q). unfold Matches in Q. rewrite E0 in Q. congruence. }
    assert (N0 : ~ level0_form s) by (intro Q; apply G0 in Q; discriminate). destruct (IsLevel1 s) eqn:E1.
    { assert (N : no_feature s level1_features) by (intros f Q; apply first1 in Q; rewrite Q in M; discriminate).
      rewrite (unnamed1 s N) in H. apply err_same in H. subst x. apply rf_level1; [exact N0|apply G1; reflexivity|exact N]. }
    assert (N1 : ~ level1_text s) by (intro Q; apply G1 in Q; discriminate). destruct (IsLevel2 s) eqn:E2.
    { assert (N : no_feature s level2_features) by (intros f Q; apply first2 in Q; rewrite Q in M; discriminate).
      rewrite (unnamed2 s N) in H. apply err_same in H. subst x. apply rf_level2; [exact N0|exact N1|apply G2; reflexivity|exact N]. }
    assert (N2 : ~ level2_text s) by (intro Q; apply G2 in Q; discriminate).
    destruct (seqb s OPEN) eqn:D1; [discriminate|]. destruct (seqb s UNKNOWN) eqn:D2; [discriminate|]. apply err_same in H. subst x.
    apply rf_none; [exact N0|exact N1|exact N2|apply seqb_neq; exact D1|apply seqb_neq; exact D2].
  - exfalso. revert M. unfold Matches, L0_Matches, L1_Matches, L2_Matches. repeat match goal with |- context [if ?b then _ else _] => destruct b end; discriminate.
Qed.
Theorem panic_complete s : ParseString s = Panic -> crashes s \/ borderline s.
Proof.
  intro H. destruct (match_string ExponentialYear s) eqn:E1.
  { apply Exponential_spec in E1. pose proof (exponential_complete s E1) as C. rewrite H in C. exact C. }
  destruct (match_string SignificantDigits s) eqn:E2.
  { apply Significant_spec in E2. pose proof (significant_complete s E2) as C. rewrite H in C. exact C. }
  exfalso. apply (only_two_panic s); [rewrite <- Exponential_spec; congruence|rewrite <- Significant_spec; congruence|exact H].
Qed.
(** Away from the borderline. *)
Theorem refused_exactly s : ~ borderline s -> forall x, ParseString s = Err x <-> refused s x.
Proof. intros N x. split; [apply refused_complete|]. intro H. apply refused_sound in H. tauto. Qed.
Theorem panic_exactly s : ~ borderline s -> (ParseString s = Panic <-> crashes s).
Proof. intro N. split; [intro H; apply panic_complete in H; tauto|apply crashes_panic]. Qed.
(** Without Y and y nothing is borderline. *)
Theorem unborder s : (forall c r, s = c :: r -> c <> "Y"%char /\ c <> "y"%char) -> ~ borderline s.
Proof. intros H B. destruct B as [a t Ha _|a t nd Ha _ _]; destruct (H _ _ eq_refl) as (N1 & N2); destruct Ha; contradiction. Qed.
