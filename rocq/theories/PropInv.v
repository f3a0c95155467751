(** Properties of every parsed date: C25-C30. *)
From Coq Require Import Ascii String ZArith NArith Bool Lia ZifyBool List.
From Verif Require Import GoStr GoTime SpecCal SpecText SpecGrammar Edtf Calendar Common Level0 Level1 Level2 Parser CalFacts InvFacts InvProofs InvProofs2 OrderProofs.
Import ListNotations.
Open Scope Z_scope.

(** ** C25: brackets and inclusivity.  Missing: sets with both a member that starts
    with dots and one that ends with them; for those the claim is false. *)
Theorem C25_inclusivity_partial : forall s d, ParseString s = OK d -> e_feature d = $"Set representation" ->
  exists o body i,
  set_string s o body /\ ((o = "["%char /\ i = ANY) \/ (o = "{"%char /\ i = ALL)) /\
  ((forall l, body = joined ($",") l -> l <> [] -> Forall (fun p => ~ In ","%char p) l ->
      (forall b, ~ In ($".." ++ b) l) \/ (forall a, a <> [] -> ~ In (a ++ $"..") l)) ->
   forall b, In b (bounds d) -> d_inclusivity b = if d_open b then 0%N else i).
Proof. exact inclusivity_ok. Qed.
Print Assumptions C25_inclusivity_partial.
Theorem C25_no_other_feature : forall s d, ParseString s = OK d -> e_feature d <> $"Set representation" ->
  forall b, In b (bounds d) -> d_inclusivity b = 0%N.
Proof. exact no_inclusivity. Qed.
Print Assumptions C25_no_other_feature.
Theorem C25_inclusivity_refuted : exists s d b, ParseString s = OK d /\ e_feature d = $"Set representation" /\ In b (bounds d) /\
  d_open b = false /\ d_timestamp b <> None /\ d_inclusivity b = 0%N.
Proof. exact inclusivity_refuted. Qed.
Print Assumptions C25_inclusivity_refuted.
Example C25_case : exists d, ParseString ($"{1667,1668,1670..}") = OK d /\ e_feature d = $"Set representation" /\
  d_inclusivity (r_lower (e_start d)) = ALL /\ d_open (r_upper (e_end d)) = true /\ d_inclusivity (r_upper (e_end d)) = 0%N.
Proof. eexists. split; [vm_compute; reflexivity|]. repeat split. Qed.

(** ** C26: text, timestamp and calendar date agree.  [wide_utc_text] is the RFC 3339
    text, with five digits for the years -10000 and 10000. *)
Theorem C26_bounds_agree : forall s d, ParseString s = OK d -> forall b ts, In b (bounds d) -> d_timestamp b = Some ts ->
  exists y m dd hh mi ss, real_date y m dd /\ clock hh mi ss /\ -10000 <= y <= 10000 /\
    ts = instant y m dd hh mi ss /\ d_datetime b = wide_utc_text y m dd hh mi ss /\
    (d_ymd b = Some (mkYMD y m dd) \/ (d_ymd b = None /\ e_feature d = $"Date and Time")).
Proof. exact bounds_agree. Qed.
Print Assumptions C26_bounds_agree.
Example C26_case : exists d, ParseString ($"-0044-03") = OK d /\
  d_timestamp (r_upper (e_end d)) = Some (instant (-44) 3 31 23 59 59) /\
  d_datetime (r_upper (e_end d)) = $"-0044-03-31T23:59:59Z" /\ d_ymd (r_upper (e_end d)) = Some (mkYMD (-44) 3 31).
Proof. eexists. split; [vm_compute; reflexivity|]. repeat split. Qed.

(** ** C27: order within the ranges.  Missing: sets with dots, for which it is false. *)
Theorem C27_ranges_partial : forall s d, ParseString s = OK d ->
  (e_feature d = $"Set representation" -> ~ occurs ($"..") s) ->
  (forall t t', d_timestamp (r_lower (e_start d)) = Some t -> d_timestamp (r_upper (e_start d)) = Some t' -> t <= t') /\
  (forall t t', d_timestamp (r_lower (e_end d)) = Some t -> d_timestamp (r_upper (e_end d)) = Some t' -> t <= t').
Proof. exact in_range_order. Qed.
Print Assumptions C27_ranges_partial.
Theorem C27_ranges_refuted : exists s d t t', ParseString s = OK d /\
  d_timestamp (r_lower (e_end d)) = Some t /\ d_timestamp (r_upper (e_end d)) = Some t' /\ t' < t.
Proof. exact in_range_order_refuted. Qed.
Print Assumptions C27_ranges_refuted.
(** Second clause.  The outer bounds are in order for every other feature. *)
Theorem C27_outer : forall s d, ParseString s = OK d ->
  e_feature d <> $"Time Interval" -> e_feature d <> $"Interval" -> e_feature d <> $"Set representation" ->
  forall t t', Lower d = OK t -> Upper d = OK t' -> t <= t'.
Proof. exact outer_order_features. Qed.
Print Assumptions C27_outer.
Example C27_outer_case : exists d, ParseString ($"-1985S2") = OK d /\ e_feature d = $"Significant digits" /\
  Lower d = OK (instant (-1999) 1 1 0 0 0) /\ Upper d = OK (instant (-1900) 12 31 23 59 59).
Proof. eexists. split; [vm_compute; reflexivity|]. split; [reflexivity|]. split; vm_compute; reflexivity. Qed.
Example C27_case : exists d, ParseString ($"1985-04/1985-06") = OK d /\
  d_timestamp (r_lower (e_end d)) = Some (instant 1985 6 1 0 0 0) /\
  d_timestamp (r_upper (e_end d)) = Some (instant 1985 6 30 23 59 59).
Proof. eexists. split; [vm_compute; reflexivity|]. split; vm_compute; reflexivity. Qed.

(** ** C28: spans start at midnight and end one second before midnight. *)
Theorem C28_whole_days : forall s d, ParseString s = OK d -> e_feature d <> $"Date and Time" ->
  (forall t, Lower d = OK t -> exists y m dd, real_date y m dd /\ t = instant y m dd 0 0 0) /\
  (forall t, Upper d = OK t -> exists y m dd, real_date y m dd /\ t = instant y m dd 23 59 59).
Proof. exact outer_clock. Qed.
Print Assumptions C28_whole_days.
Example C28_case : exists d, ParseString ($"Y-1700E0") = OK d /\ e_feature d <> $"Date and Time" /\
  Lower d = OK (instant (-1700) 1 1 0 0 0) /\ Upper d = OK (instant (-1700) 12 31 23 59 59).
Proof. eexists. split; [vm_compute; reflexivity|]. split; [discriminate|]. split; vm_compute; reflexivity. Qed.

(** ** C29: four digit years.  Missing: dates with a time, whose offset can lead one
    year beyond; there the claim is false. *)
Theorem C29_years_partial : forall s d, ParseString s = OK d -> forall b ts, In b (bounds d) -> d_timestamp b = Some ts ->
  exists y m dd hh mi ss, real_date y m dd /\ clock hh mi ss /\ ts = instant y m dd hh mi ss /\ -10000 <= y <= 10000 /\
    (e_feature d <> $"Date and Time" -> -9999 <= y <= 9999 /\ d_datetime b = utc_text y m dd hh mi ss).
Proof. exact bounds_years. Qed.
Print Assumptions C29_years_partial.
Theorem C29_years_refuted : exists s d b ts, ParseString s = OK d /\ In b (bounds d) /\ d_timestamp b = Some ts /\
  instant 10000 1 1 0 0 0 <= ts /\ d_datetime b = $"10000-01-01T00:59:59Z".
Proof. exact years_refuted. Qed.
Print Assumptions C29_years_refuted.
Example C29_case : exists d, ParseString ($"9999-12-31") = OK d /\ e_feature d <> $"Date and Time" /\
  d_timestamp (r_upper (e_end d)) = Some (instant 9999 12 31 23 59 59).
Proof. eexists. split; [vm_compute; reflexivity|]. split; [discriminate|vm_compute; reflexivity]. Qed.

(** ** C30: each bound is exactly one of open, unknown or dated. *)
Theorem C30_bound_kinds : forall s d, ParseString s = OK d -> forall b, In b (bounds d) ->
  ((d_open b = true /\ d_unknown b = false /\ d_timestamp b = None) \/
   (d_open b = false /\ d_unknown b = true /\ d_timestamp b = None) \/
   (d_open b = false /\ d_unknown b = false /\ d_timestamp b <> None)) /\
  (d_timestamp b = None <-> d_datetime b = []).
Proof. exact bound_kinds. Qed.
Print Assumptions C30_bound_kinds.
Example C30_case : exists d, ParseString ($"1985/") = OK d /\ d_unknown (r_upper (e_end d)) = true /\
  d_timestamp (r_upper (e_end d)) = None /\ d_timestamp (r_lower (e_start d)) = Some (instant 1985 1 1 0 0 0).
Proof. eexists. split; [vm_compute; reflexivity|]. repeat split. Qed.
