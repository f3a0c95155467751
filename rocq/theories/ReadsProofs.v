(** The bounds that every accepted string is read as. *)
From Coq Require Import Ascii String ZArith NArith Bool Lia ZifyBool List.
From Verif Require Import GoStr GoTime Regex Patterns SpecCal SpecText SpecZone SpecGrammar SpecForms SpecSpan SpecSet SpecReads StrFacts TextFacts Edtf Calendar Common Level0 Level1 Level2 Parser CalFacts ApiFacts SpanFacts InvFacts GrammarFacts LangFacts LangNorm LangForms LangForms2 ParseFacts Level0Facts Level0Proofs FormFacts SeasonFacts Level1Proofs FormProofs InvProofs ReadsFacts ReadsStamp ReadsSeason ReadsYears ReadsSet.
Import ListNotations.
Open Scope Z_scope.

Lemma reads_span f s lo hi : In f span_features -> (reads_as f s lo hi <-> span_reads s lo hi).
Proof.
  intro H. split; [|apply ra_span; exact H]. intro R. destruct R; try assumption;
    (exfalso; cbn [In span_features] in H; repeat (destruct H as [H|H]; [discriminate H|]); exact H).
Qed.
Ltac only_reads := split; [|first [apply ra_letter|apply ra_season|apply ra_exponential|apply ra_significant|apply ra_grouping|apply ra_set]];
  let R := fresh in intro R; inversion R; subst; try assumption;
  exfalso; match goal with H : In _ span_features |- _ => cbn [In span_features] in H; repeat (destruct H as [H|H]; [discriminate H|]); exact H end.
Lemma reads_letter s lo hi : reads_as ($"Letter-prefixed calendar year") s lo hi <-> letter_reads s lo hi.
Proof. only_reads. Qed.
Lemma reads_season s lo hi : reads_as ($"Seasons") s lo hi <-> season_reads s lo hi.
Proof. only_reads. Qed.
Lemma reads_exponential s lo hi : reads_as ($"Exponential year") s lo hi <-> exponential_reads s lo hi.
Proof. only_reads. Qed.
Lemma reads_significant s lo hi : reads_as ($"Significant digits") s lo hi <-> significant_reads s lo hi.
Proof. only_reads. Qed.
Lemma reads_grouping s lo hi : reads_as ($"Sub-year groupings") s lo hi <-> grouping_reads s lo hi.
Proof. only_reads. Qed.
Lemma reads_set s lo hi : reads_as ($"Set representation") s lo hi <-> set_reads s lo hi.
Proof. only_reads. Qed.
Lemma reads_stamp s lo hi : reads_as ($"Date and Time") s lo hi <-> exists t, lo = At t /\ hi = At t /\ stamp_reads s t.
Proof.
  split; [|intros (t & -> & -> & H); apply ra_stamp; exact H]. intro R. inversion R; subst; [|eauto].
  exfalso; match goal with H : In _ span_features |- _ => cbn [In span_features] in H; repeat (destruct H as [H|H]; [discriminate H|]); exact H end.
Qed.

Theorem meaning s lv f : takes s lv f -> forall lo hi, reads_as f s lo hi <-> exists e, ParseString s = OK e /\ result e lv f lo hi.
Proof.
  intros T lo hi. pose proof T as M. apply matches_takes in M. apply named_routed in M.
  assert (T1 : lv = 1 -> level1_text s) by (intro E; destruct T; [discriminate|assumption|discriminate]).
  assert (T2 : lv = 2 -> ~ level0_form s /\ ~ level1_text s) by (intro E; destruct T; [discriminate|discriminate|auto]).
  destruct M as [lv f Hf E|I E|I E|I E|I E|I E|I E|I E].
  - rewrite (reads_span f s lo hi Hf), E. apply span_result.
  - unfold DATE_AND_TIME. rewrite reads_stamp. apply stamp_bridge. apply DateAndTime_spec. exact I.
  - unfold LETTER_PREFIXED_CALENDAR_YEAR. rewrite reads_letter, E. apply letter_bridge. apply LetterYear_spec. exact I.
  - unfold SEASON. rewrite reads_season, E. apply season_bridge; [auto|]. apply Season_spec. exact I.
  - unfold EXPONENTIAL_YEAR. rewrite reads_exponential, E. apply exponential_bridge. apply Exponential_spec. exact I.
  - unfold SIGNIFICANT_DIGITS. rewrite reads_significant, E. apply significant_bridge. apply Significant_spec. exact I.
  - unfold SUB_YEAR_GROUPINGS. rewrite reads_grouping, E. destruct (T2 eq_refl) as (N0 & N1). apply grouping_bridge; [exact N0|exact N1|]. apply Grouping_spec. exact I.
  - unfold SET_REPRESENTATIONS. rewrite reads_set, E. apply set_bridge. apply set_test. exact I.
Qed.
Lemma bound_shows s d b : ParseString s = OK d -> In b (bounds d) -> exists x, shows b x.
Proof.
  intros H Hb. destruct (proj1 (bound_kinds s d H b Hb)) as [(A & B & C)|[(A & B & C)|(A & B & C)]].
  - exists Dots. repeat split; assumption.
  - exists Blank. repeat split; assumption.
  - destruct (d_timestamp b) as [t|] eqn:E; [|congruence]. exists (At t). repeat split; assumption.
Qed.
Theorem read_strings s e : ParseString s = OK e ->
  s = $".." /\ result e (-1) ($"Open") Dots Dots \/ s = [] /\ result e (-1) ($"Unknown") Blank Blank \/
  exists lv f lo hi, takes s lv f /\ reads_as f s lo hi /\ result e lv f lo hi.
Proof.
  intros H. destruct (seqb s ($"..")) eqn:E1.
  { apply seqb_eq in E1. subst s. left. split; [reflexivity|]. vm_compute in H. injection H as <-. repeat split. }
  destruct (is_empty s) eqn:E2.
  { apply is_empty_spec in E2. subst s. right. left. split; [reflexivity|]. vm_compute in H. injection H as <-. repeat split. }
  right. right. destruct (parse_class s e H) as (_ & _ & M & _).
  assert (N1 : s <> $"..") by (intros ->; discriminate E1). assert (N2 : s <> []) by (intros ->; discriminate E2). specialize (M N1 N2).
  destruct (bound_shows s e (r_lower (e_start e)) H) as (lo & L); [left; reflexivity|].
  destruct (bound_shows s e (r_upper (e_end e)) H) as (hi & U); [cbn; auto|].
  apply matches_takes in M. exists (e_level e), (e_feature e), lo, hi.
  assert (R : result e (e_level e) (e_feature e) lo hi) by (repeat split; assumption).
  split; [exact M|]. split; [|exact R]. apply (meaning s _ _ M). eauto.
Qed.
Theorem read_once s lv f lo hi lo' hi' : takes s lv f -> reads_as f s lo hi -> reads_as f s lo' hi' -> lo = lo' /\ hi = hi'.
Proof.
  intros T H H'. apply (meaning s lv f T) in H. apply (meaning s lv f T) in H'.
  destruct H as (e & E & R). destruct H' as (e' & E' & R'). rewrite E in E'. injection E' as <-. exact (result_fun _ _ _ _ _ _ _ R R').
Qed.
