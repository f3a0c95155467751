(** Level 0: the statements of C09, C10 and C48. *)
From Coq Require Import Ascii String ZArith NArith Bool Lia ZifyBool List.
From Verif Require Import GoStr GoTime Regex Patterns SpecCal SpecText SpecGrammar SpecSpan SpecZone StrFacts TextFacts Edtf Calendar Common Level0 Level1 Level2 Parser CalFacts ApiFacts SpanFacts GrammarFacts LangFacts DateFacts Level0Facts TimeFacts DateTimeFacts InvProofs.
Import ListNotations.
Open Scope Z_scope.
Ltac Zify.zify_post_hook ::= Z.div_mod_to_equations.

Lemma stamp_bounds s t : exists b, bounds (stamp_date s t) = [b; b; b; b] /\ d_timestamp b = Some t.
Proof. eexists. split; reflexivity. Qed.
Theorem stamp_ce y m d hh mi ss z off : 0 <= y <= 9999 -> real_date y m d -> clock hh mi ss -> zone_means z off ->
  exists e b, ParseString (stamp_text y m d hh mi ss z) = OK e /\ e_level e = 0 /\ e_feature e = $"Date and Time" /\
    bounds e = [b; b; b; b] /\ d_timestamp b = Some (instant y m d hh mi ss - off).
Proof.
  intros Hy Hr Hc Hz. rewrite (stamp_parses _ _ _ _ _ _ _ _ Hy Hr Hc Hz).
  destruct (stamp_bounds (stamp_text y m d hh mi ss z) (instant y m d hh mi ss - off)) as (b & E1 & E2).
  eexists. exists b. split; [reflexivity|]. split; [reflexivity|]. split; [reflexivity|]. split; [exact E1|exact E2].
Qed.
Theorem stamp_neg y m d hh mi ss z off : -9999 <= y <= -1 -> real_date y m d -> clock hh mi ss -> zone_means z off ->
  instant y 1 1 0 0 0 <= instant y m d hh mi ss - off <= instant y 12 31 23 59 59 ->
  exists e b, ParseString (stamp_text y m d hh mi ss z) = OK e /\ e_level e = 0 /\ e_feature e = $"Date and Time" /\
    bounds e = [b; b; b; b] /\ d_timestamp b = Some (instant y m d hh mi ss - off).
Proof.
  intros Hy Hr Hc Hz Hb. destruct (instant_exists (instant y m d hh mi ss - off)) as (y' & m' & d' & hh' & mi' & ss' & Hr' & Hc' & E).
  assert (Y : y' = y).
  { pose proof (epoch_year_bounds _ _ _ Hr') as (B1 & B2). rewrite E in Hb. unfold clock in Hc'.
    assert (B : epoch_day y 1 1 <= epoch_day y' m' d' <= epoch_day y 12 31) by (unfold instant in Hb; lia).
    assert (N : epoch_day y 12 31 + 1 = epoch_day (y + 1) 1 1).
    { pose proof (epoch_pred (y + 1) 1 ltac:(lia)) as P. change (1 =? 1) with true in P. cbv iota in P.
      replace (y + 1 - 1) with y in P by lia. lia. }
    destruct (Z_lt_ge_dec y' y) as [L|L].
    - pose proof (epoch_year_mono (y' + 1) (y - (y' + 1))) as M. replace (y' + 1 + (y - (y' + 1))) with y in M by lia. lia.
    - destruct (Z_lt_ge_dec y y') as [L'|L']; [|lia].
      pose proof (epoch_year_mono (y + 1) (y' - (y + 1))) as M. replace (y + 1 + (y' - (y + 1))) with y' in M by lia. lia. }
  subst y'. pose proof (stamp_bce_same_year (- y) m d hh mi ss z off m' d' hh' mi' ss') as H. rewrite Z.opp_involutive in H.
  specialize (H ltac:(lia) Hr Hc Hz Hr' Hc' E). cbv zeta in H. rewrite H.
  destruct (stamp_bounds (stamp_text y m d hh mi ss z) (instant y m d hh mi ss - off)) as (b & E1 & E2).
  eexists. exists b. split; [reflexivity|]. split; [reflexivity|]. split; [reflexivity|]. split; [exact E1|exact E2].
Qed.
(** What is returned in general: the calendar reading of the time in the positive
    year, with the year negated. *)
Theorem stamp_neg_mirror y m d hh mi ss z off y' m' d' hh' mi' ss' : 1 <= y <= 9999 -> real_date y m d -> clock hh mi ss -> zone_means z off ->
  real_date y' m' d' -> clock hh' mi' ss' -> instant y m d hh mi ss - off = instant y' m' d' hh' mi' ss' ->
  exists e b, ParseString (stamp_text (- y) m d hh mi ss z) = OK e /\ e_level e = 0 /\ e_feature e = $"Date and Time" /\
    bounds e = [b; b; b; b] /\ d_timestamp b = Some (instant (- y') m' d' hh' mi' ss').
Proof.
  intros Hy Hr Hc Hz Hr' Hc' E. rewrite (stamp_bce _ _ _ _ _ _ _ _ Hy Hr Hc Hz), E, TimeToBCE_instant by assumption.
  destruct (stamp_bounds (stamp_text (- y) m d hh mi ss z) (instant (- y') m' d' hh' mi' ss')) as (b & E1 & E2).
  eexists. exists b. split; [reflexivity|]. split; [reflexivity|]. split; [reflexivity|]. split; [exact E1|exact E2].
Qed.
Lemma stamp_refuted : exists e t, zone_means ($"+01") 3600 /\ ParseString (stamp_text (-1985) 1 1 0 0 0 ($"+01")) = OK e /\
  d_timestamp (r_lower (e_start e)) = Some t /\ t <> instant (-1985) 1 1 0 0 0 - 3600.
Proof.
  pose proof (zm_east 1 ltac:(lia)) as Z1. change ("+"%char :: two 1) with ($"+01") in Z1.
  eexists. eexists. split; [exact Z1|]. split; [vm_compute; reflexivity|]. split; [reflexivity|]. vm_compute. discriminate.
Qed.

Theorem level0_grammar s : IsLevel0 s = true <->
  is_level0_date s \/ datetime_text s \/ exists a b, is_level0_date a /\ is_level0_date b /\ s = a ++ "/"%char :: b.
Proof. unfold IsLevel0. rewrite Level0_spec, IsDate_spec, DateAndTime_spec, TimeInterval_spec. reflexivity. Qed.
Theorem level0_matches s : IsLevel0 s = true -> exists f, Matches s = OK (0, f).
Proof.
  intro H. unfold Matches. rewrite H. unfold L0_Matches, IsDate, IsDateAndTime, IsTimeInterval.
  unfold IsLevel0 in H. apply Level0_spec in H.
  destruct (match_string Date_re s); [eexists; reflexivity|]. destruct (match_string DateAndTime s); [eexists; reflexivity|].
  destruct (match_string TimeInterval s); [eexists; reflexivity|]. destruct H as [H|[H|H]]; discriminate.
Qed.
