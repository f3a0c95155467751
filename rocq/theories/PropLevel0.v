(** Level 0: C05-C11 and C48. *)
From Coq Require Import Ascii String ZArith NArith Bool Lia ZifyBool List.
From Verif Require Import GoStr GoTime SpecCal SpecText SpecGrammar SpecSpan SpecZone Edtf Calendar Common Level0 Level1 Level2 Parser CalFacts InvProofs Level0Facts DateTimeFacts Level0Proofs.
Import ListNotations.
Open Scope Z_scope.

(** ** C05: a complete date is that calendar day. *)
Theorem C05_complete_date : forall y m d, -9999 <= y <= 9999 -> real_date y m d ->
  exists e, ParseString (day_text y m d) = OK e /\ e_level e = 0 /\
  (forall b, b = r_lower (e_start e) \/ b = r_upper (e_start e) -> dated b y m d 0 0 0) /\
  (forall b, b = r_lower (e_end e) \/ b = r_upper (e_end e) -> dated b y m d 23 59 59).
Proof. exact day_parses. Qed.
Print Assumptions C05_complete_date.
Example C05_case : real_date (-44) 2 29 /\ day_text (-44) 2 29 = $"-0044-02-29" /\
  match ParseString ($"-0044-02-29") with OK e => d_datetime (r_upper (e_end e)) = $"-0044-02-29T23:59:59Z" | _ => False end.
Proof. vm_compute. repeat split; discriminate. Qed.

(** ** C06: a year and month is that calendar month. *)
Theorem C06_year_month : forall y m, -9999 <= y <= 9999 -> 1 <= m <= 12 ->
  exists e, ParseString (month_text y m) = OK e /\ e_level e = 0 /\
  from_to (e_start e) y m 1 y m 1 /\ from_to (e_end e) y m (month_len y m) y m (month_len y m).
Proof. exact month_parses. Qed.
Print Assumptions C06_year_month.
Example C06_case : month_text 1900 2 = $"1900-02" /\ month_len 1900 2 = 28 /\ month_len 2000 2 = 29 /\
  match ParseString ($"1900-02") with OK e => d_datetime (r_upper (e_end e)) = $"1900-02-28T23:59:59Z" | _ => False end.
Proof. vm_compute. repeat split. Qed.

(** ** C07: a year is that calendar year. *)
Theorem C07_year : forall y, -9999 <= y <= 9999 ->
  exists e, ParseString (year_text y) = OK e /\ e_level e = 0 /\
  from_to (e_start e) y 1 1 y 1 1 /\ from_to (e_end e) y 12 31 y 12 31.
Proof. exact year_parses. Qed.
Print Assumptions C07_year.
Example C07_case : year_text (-7) = $"-0007" /\
  match ParseString ($"-0007") with OK e => d_datetime (r_upper (e_end e)) = $"-0007-12-31T23:59:59Z" | _ => False end.
Proof. split; vm_compute; reflexivity. Qed.

(** ** C08: days that do not exist are errors. *)
Theorem C08_missing_day : forall y m d, -9999 <= y <= 9999 -> 1 <= m <= 12 -> month_len y m < d <= 31 ->
  exists err, ParseString (day_text y m d) = Err err.
Proof. exact missing_day. Qed.
Print Assumptions C08_missing_day.
Example C08_case : day_text 1985 2 29 = $"1985-02-29" /\ month_len 1985 2 = 28 /\
  match ParseString ($"1985-02-29") with Err _ => True | _ => False end.
Proof. vm_compute. repeat split. Qed.

(** ** C09: date and time.  [zone_means] lists the designators and their offsets
    (hours up to 24, minutes up to 60; time.Parse rejects larger ones). *)
Theorem C09_date_and_time : forall y m d hh mi ss z off, 0 <= y <= 9999 -> real_date y m d -> clock hh mi ss -> zone_means z off ->
  exists e b, ParseString (stamp_text y m d hh mi ss z) = OK e /\ e_level e = 0 /\ e_feature e = $"Date and Time" /\
    bounds e = [b; b; b; b] /\ d_timestamp b = Some (instant y m d hh mi ss - off).
Proof. exact stamp_ce. Qed.
Print Assumptions C09_date_and_time.
(** Nothing else with a time of day parses: the date must be complete and real and
    the clock and zone in range ("-0000" is also taken as the year 0). *)
Theorem C09_only_those : forall s e, datetime_text s -> ParseString s = OK e ->
  exists y m d hh mi ss z off, -9999 <= y <= 9999 /\ real_date y m d /\ clock hh mi ss /\ zone_means z off /\
    (s = stamp_text y m d hh mi ss z \/ y = 0 /\ s = "-"%char :: stamp_text y m d hh mi ss z).
Proof. exact datetime_complete. Qed.
Print Assumptions C09_only_those.
Example C09_case : stamp_text 1985 4 12 23 20 30 ($"+04:30") = $"1985-04-12T23:20:30+04:30" /\ zone_means ($"+04:30") 16200 /\
  match ParseString ($"1985-04-12T23:20:30+04:30") with
  | OK e => d_timestamp (r_lower (e_start e)) = Some (instant 1985 4 12 18 50 30) | _ => False end.
Proof.
  split; [reflexivity|]. split; [exact (zm_east_min 4 30 ltac:(lia) ltac:(lia))|]. vm_compute. reflexivity.
Qed.

(** ** C10: date and time of a negative year.  Missing: offsets that carry the time
    into another year, for which the claim is false; [C10_mirror_partial] says what
    is returned then. *)
Theorem C10_date_and_time_bce_partial : forall y m d hh mi ss z off,
  -9999 <= y <= -1 -> real_date y m d -> clock hh mi ss -> zone_means z off ->
  instant y 1 1 0 0 0 <= instant y m d hh mi ss - off <= instant y 12 31 23 59 59 ->
  exists e b, ParseString (stamp_text y m d hh mi ss z) = OK e /\ e_level e = 0 /\ e_feature e = $"Date and Time" /\
    bounds e = [b; b; b; b] /\ d_timestamp b = Some (instant y m d hh mi ss - off).
Proof. exact stamp_neg. Qed.
Print Assumptions C10_date_and_time_bce_partial.
Theorem C10_mirror_partial : forall y m d hh mi ss z off y' m' d' hh' mi' ss',
  1 <= y <= 9999 -> real_date y m d -> clock hh mi ss -> zone_means z off ->
  real_date y' m' d' -> clock hh' mi' ss' -> instant y m d hh mi ss - off = instant y' m' d' hh' mi' ss' ->
  exists e b, ParseString (stamp_text (- y) m d hh mi ss z) = OK e /\ e_level e = 0 /\ e_feature e = $"Date and Time" /\
    bounds e = [b; b; b; b] /\ d_timestamp b = Some (instant (- y') m' d' hh' mi' ss').
Proof. exact stamp_neg_mirror. Qed.
Print Assumptions C10_mirror_partial.
Theorem C10_date_and_time_bce_refuted : exists e t, zone_means ($"+01") 3600 /\
  ParseString (stamp_text (-1985) 1 1 0 0 0 ($"+01")) = OK e /\
  d_timestamp (r_lower (e_start e)) = Some t /\ t <> instant (-1985) 1 1 0 0 0 - 3600.
Proof. exact stamp_refuted. Qed.
Print Assumptions C10_date_and_time_bce_refuted.
Example C10_case : stamp_text (-1985) 4 12 23 20 30 ($"-05") = $"-1985-04-12T23:20:30-05" /\ zone_means ($"-05") (-18000) /\
  instant (-1985) 4 12 23 20 30 + 18000 = instant (-1985) 4 13 4 20 30 /\
  match ParseString ($"-1985-04-12T23:20:30-05") with
  | OK e => d_timestamp (r_lower (e_start e)) = Some (instant (-1985) 4 13 4 20 30) | _ => False end.
Proof.
  split; [reflexivity|]. split; [exact (zm_west 5 ltac:(lia))|]. split; vm_compute; reflexivity.
Qed.

(** ** C11: intervals of two level 0 dates. *)
Theorem C11_interval : forall a b y m d y' m' d', level0_date a y m d -> level0_date b y' m' d' ->
  exists_date y m d -> exists_date y' m' d' ->
  exists e, ParseString (a ++ "/"%char :: b) = OK e /\ e_level e = 0 /\ e_feature e = $"Time Interval" /\
    whole (e_start e) a y m d /\ whole (e_end e) b y' m' d'.
Proof. exact interval_parses. Qed.
Print Assumptions C11_interval.
Theorem C11_interval_rejected : forall a b y m d y' m' d', level0_date a y m d -> level0_date b y' m' d' ->
  ~ (exists_date y m d /\ exists_date y' m' d') -> exists err, ParseString (a ++ "/"%char :: b) = Err err.
Proof. exact interval_rejects. Qed.
Print Assumptions C11_interval_rejected.
Example C11_case : level0_date ($"-0044") (-44) None None /\ level0_date ($"2004-02") 2004 (Some 2) None /\
  match ParseString ($"-0044/2004-02") with
  | OK e => d_datetime (r_upper (e_start e)) = $"-0044-12-31T23:59:59Z" /\ d_datetime (r_upper (e_end e)) = $"2004-02-29T23:59:59Z"
  | _ => False end.
Proof.
  split; [exact (year_level0 (-44) ltac:(lia))|]. split; [exact (month_level0 2004 2 ltac:(lia) ltac:(lia))|].
  vm_compute. split; reflexivity.
Qed.

(** ** C48: the grammar of level 0. *)
Theorem C48_level0 : forall s, IsLevel0 s = true <->
  is_level0_date s \/ datetime_text s \/ exists a b, is_level0_date a /\ is_level0_date b /\ s = a ++ "/"%char :: b.
Proof. exact level0_grammar. Qed.
Print Assumptions C48_level0.
Theorem C48_date : forall s, IsDate s = true <-> is_level0_date s.
Proof. exact GrammarFacts.IsDate_spec. Qed.
Print Assumptions C48_date.
Theorem C48_date_and_time : forall s, IsDateAndTime s = true <-> datetime_text s.
Proof. exact LangFacts.DateAndTime_spec. Qed.
Print Assumptions C48_date_and_time.
Theorem C48_interval : forall s, IsTimeInterval s = true <-> exists a b, is_level0_date a /\ is_level0_date b /\ s = a ++ "/"%char :: b.
Proof. exact LangFacts.TimeInterval_spec. Qed.
Print Assumptions C48_interval.
Theorem C48_matches : forall s, IsLevel0 s = true -> exists f, Matches s = OK (0, f).
Proof. exact level0_matches. Qed.
Print Assumptions C48_matches.
Example C48_case : IsLevel0 ($"1985-04-12T23:20:30Z") = true /\ IsLevel0 ($"1985-13") = false /\ IsLevel0 ($"1985-04-12/") = false.
Proof. vm_compute. repeat split. Qed.
