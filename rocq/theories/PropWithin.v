(** C85: dates within other dates, and what the comparisons make of them. *)
From Coq Require Import Ascii String ZArith NArith Bool Lia List.
From Verif Require Import GoStr SpecCal SpecText SpecZone SpecGrammar SpecForms SpecSpan SpecSet SpecReads SpecSame SpecWithin CalFacts Edtf Level0Facts Parser WithinProofs.
Import ListNotations.
Open Scope Z_scope.

Theorem C85_within : forall s t, within s t -> exists e e', ParseString s = OK e /\ ParseString t = OK e' /\ inside e e'.
Proof. exact within_inside. Qed.
Print Assumptions C85_within.
(** Of every two strings, one inside the other: what is after or before the outer one
    is after or before the inner one, and likewise the other way round. *)
Theorem C85_compare : forall s t e e' u, ParseString s = OK e -> ParseString t = OK e' -> inside e e' ->
  (IsAfter t u = OK true -> IsAfter s u = OK true) /\ (IsAfter u t = OK true -> IsAfter u s = OK true) /\
  (IsBefore t u = OK true -> IsBefore s u = OK true) /\ (IsBefore u t = OK true -> IsBefore u s = OK true).
Proof. exact inside_after. Qed.
Print Assumptions C85_compare.
Theorem C85_apart : forall s t e e', ParseString s = OK e -> ParseString t = OK e' -> inside e e' -> lasting e ->
  IsAfter s t <> OK true /\ IsBefore s t <> OK true /\ IsAfter t s <> OK true /\ IsBefore t s <> OK true.
Proof. exact inside_apart. Qed.
Print Assumptions C85_apart.
Theorem C85_between : forall s t e e', ParseString s = OK e -> ParseString t = OK e' -> inside e e' -> lasting e -> lasting e' -> IsBetween s t t = OK true.
Proof. exact inside_between. Qed.
Print Assumptions C85_between.
(** The last second of a day is inside the day and after it, and not between. *)
Theorem C85_instant_refuted : exists s t e e', ParseString s = OK e /\ ParseString t = OK e' /\ inside e e' /\ IsAfter s t = OK true /\ IsBetween s t t = OK false.
Proof.
  exists ($"1985-04-12T23:59:59Z"), ($"1985-04-12"). do 2 eexists. split; [vm_compute; reflexivity|]. split; [vm_compute; reflexivity|].
  split; [|split; vm_compute; reflexivity].
  exists (At (instant 1985 4 12 23 59 59)), (At (instant 1985 4 12 23 59 59)), (At (instant 1985 4 12 0 0 0)), (At (instant 1985 4 12 23 59 59)).
  split; [vm_compute; repeat split|]. split; [vm_compute; repeat split|]. split; [vm_compute; repeat split|]. split; [vm_compute; repeat split|].
  split; vm_compute; discriminate.
Qed.
Print Assumptions C85_instant_refuted.
(** A day in its month, in its year, in its decade, in an interval, in all time from
    1900; a quarter in a year. *)
Example C85_case : within ($"1985-04-12") ($"1985-04") /\ within ($"1985-04-12") ($"1985") /\ within ($"1985-04-12") ($"198X") /\
  within ($"1985-04-12") ($"1983/1985-05") /\ within ($"1985-04-12") ($"1900/..") /\ within ($"1985-34") ($"1985").
Proof.
  assert (D : level0_span ($"1985-04-12") (first_instant 1985 (Some 4) (Some 12)) (last_instant 1985 (Some 4) (Some 12)))
    by (constructor; [exact (day_level0 1985 4 12 ltac:(lia) ltac:(lia) ltac:(lia))|cbv; repeat split; discriminate]).
  assert (Y : level0_span ($"1985") (first_instant 1985 None None) (last_instant 1985 None None))
    by (constructor; [exact (year_level0 1985 ltac:(lia))|cbv; repeat split; discriminate]).
  split; [|split; [|split; [|split; [|split]]]].
  - refine (wi_span _ _ _ _ _ _ D (ls_date _ 1985 (Some 4) None (month_level0 1985 4 ltac:(lia) ltac:(lia)) _) _ _); cbv; repeat split; discriminate.
  - refine (wi_span _ _ _ _ _ _ D Y _ _); cbv; discriminate.
  - refine (wi_trans _ ($"1980/1989") _ (wi_span _ _ _ _ _ _ D (ls_pair ($"1980") 1980 None None ($"1989") 1989 None None (year_level0 1980 ltac:(lia)) _ (year_level0 1989 ltac:(lia)) _) _ _) _);
      [cbv; repeat split; discriminate|cbv; repeat split; discriminate|cbv; discriminate|cbv; discriminate|].
    apply wi_same, sm_sym. exact (sm_decade 198 ltac:(lia)).
  - refine (wi_span _ _ _ _ _ _ D (ls_pair ($"1983") 1983 None None ($"1985-05") 1985 (Some 5) None (year_level0 1983 ltac:(lia)) _ (month_level0 1985 5 ltac:(lia) ltac:(lia)) _) _ _);
      cbv; repeat split; discriminate.
  - refine (wi_from _ _ _ 1900 D ltac:(lia) _). cbv. discriminate.
  - refine (wi_trans _ _ _ (wi_same _ _ (sm_grouping 34 4 6 0 1985 go_34 ltac:(lia) (or_introl eq_refl))) (wi_span _ _ _ _ _ _
      (ls_pair ($"1985-04") 1985 (Some 4) None ($"1985-06") 1985 (Some 6) None (month_level0 1985 4 ltac:(lia) ltac:(lia)) _ (month_level0 1985 6 ltac:(lia) ltac:(lia)) _) Y _ _));
      cbv; repeat split; discriminate.
Qed.
Example C85_compared : exists e e', ParseString ($"1985-34") = OK e /\ ParseString ($"198X") = OK e' /\ lasting e /\ lasting e' /\
  IsAfter ($"198X") ($"1979") = OK true /\ IsAfter ($"1985-34") ($"1979") = OK true /\ IsBetween ($"1985-34") ($"198X") ($"198X") = OK true.
Proof.
  do 2 eexists. split; [vm_compute; reflexivity|]. split; [vm_compute; reflexivity|].
  split; [do 2 eexists; split; [vm_compute; reflexivity|]; split; [vm_compute; reflexivity|reflexivity]|].
  split; [do 2 eexists; split; [vm_compute; reflexivity|]; split; [vm_compute; reflexivity|reflexivity]|].
  split; [vm_compute; reflexivity|]. split; vm_compute; reflexivity.
Qed.
