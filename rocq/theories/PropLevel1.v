(** Level 1: C12-C14, C17, C19 and C21. *)
From Coq Require Import Ascii String ZArith NArith Bool Lia ZifyBool List.
From Verif Require Import GoStr SpecCal SpecText SpecGrammar SpecForms SpecSpan Edtf Common Level0 Level1 Level2 Parser Level0Facts FormFacts Level1Proofs XProofs.
Import ListNotations.
Open Scope Z_scope.

(** ** C12: intervals with an open or unknown start. *)
Theorem C12_extended_start : forall b y m d, level0_date b y m d -> exists_date y m d ->
  (exists e, ParseString ($"../" ++ b) = OK e /\ e_level e = 1 /\ open_range (e_start e) /\ whole (e_end e) b y m d) /\
  (exists e, ParseString ($"/" ++ b) = OK e /\ e_level e = 1 /\ unknown_range (e_start e) /\ whole (e_end e) b y m d).
Proof. exact start_parses. Qed.
Print Assumptions C12_extended_start.
Example C12_case : level0_date ($"2004-02") 2004 (Some 2) None /\ exists_date 2004 (Some 2) None /\
  match ParseString ($"../2004-02") with
  | OK e => d_open (r_upper (e_start e)) = true /\ d_datetime (r_upper (e_end e)) = $"2004-02-29T23:59:59Z" | _ => False end.
Proof. split; [exact (month_level0 2004 2 ltac:(lia) ltac:(lia))|]. vm_compute. repeat split; discriminate. Qed.

(** ** C13: intervals with an open or unknown end.  ParseString takes a date with a
    month for a season and loses the end; proved are ParseString for years, and
    ParseExtendedIntervalEnd for every date. *)
Theorem C13_extended_end_year_partial : forall t y b, year4 t y -> b = [] \/ b = $".." ->
  exists e, ParseString (t ++ "/"%char :: b) = OK e /\ e_level e = 1 /\ e_feature e = $"Extended Interval (End)" /\
    whole (e_start e) t y None None /\ open_or_unknown b (e_end e).
Proof. exact end_string. Qed.
Print Assumptions C13_extended_end_year_partial.
Theorem C13_extended_end_direct_partial : forall a b y m d, level0_date a y m d -> exists_date y m d -> b = [] \/ b = $".." ->
  exists e, ParseExtendedIntervalEnd (a ++ "/"%char :: b) = OK e /\ e_level e = 1 /\ e_feature e = $"Extended Interval (End)" /\
    whole (e_start e) a y m d /\ open_or_unknown b (e_end e).
Proof. exact end_direct. Qed.
Print Assumptions C13_extended_end_direct_partial.
(** What ParseString gives instead, for every date with a month. *)
Theorem C13_extended_end_lost_partial : forall a b y m d, level0_date a y (Some m) d -> rendered y -> b = [] \/ b = $".." ->
  exists e, ParseString (a ++ "/"%char :: b) = OK e /\ e_level e = 1 /\ e_feature e = $"Seasons" /\ months e y m y m.
Proof. exact end_lost. Qed.
Print Assumptions C13_extended_end_lost_partial.
Theorem C13_refuted : exists a y m d, level0_date a y m d /\ exists_date y m d /\
  match ParseString (a ++ $"/..") with OK e => d_open (r_upper (e_end e)) = false | _ => False end.
Proof.
  exists ($"1985-04"), 1985, (Some 4), None. split; [exact (month_level0 1985 4 ltac:(lia) ltac:(lia))|].
  vm_compute. repeat split; discriminate.
Qed.
Print Assumptions C13_refuted.
Example C13_case : year4 ($"1985") 1985 /\ match ParseString ($"1985/..") with
  | OK e => d_open (r_lower (e_end e)) = true /\ d_datetime (r_upper (e_start e)) = $"1985-12-31T23:59:59Z" | _ => False end.
Proof. split; [exact (year4_pos 1985 ltac:(lia))|]. vm_compute. repeat split. Qed.

(** ** C14: a qualifier on the complete date.  As for C13, ParseString is right for
    years only. *)
Theorem C14_qualified_year_partial : forall t q y, year4 t y -> a_mark q ->
  exists e, ParseString (t ++ [q]) = OK e /\ e_level e = 1 /\ e_feature e = $"Qualification of a date (complete)" /\ qualified_as e q y None None.
Proof. exact qualified_string. Qed.
Print Assumptions C14_qualified_year_partial.
Theorem C14_qualified_direct_partial : forall a q y m d, level0_date a y m d -> exists_date y m d -> a_mark q ->
  exists e, ParseQualifiedDate (a ++ [q]) = OK e /\ e_level e = 1 /\ e_feature e = $"Qualification of a date (complete)" /\ qualified_as e q y m d.
Proof. exact qualified_direct. Qed.
Print Assumptions C14_qualified_direct_partial.
Theorem C14_qualified_lost_partial : forall a q y m d, level0_date a y (Some m) d -> rendered y -> a_mark q ->
  exists e, ParseString (a ++ [q]) = OK e /\ e_level e = 1 /\ e_feature e = $"Seasons" /\ months e y m y m.
Proof. exact qualified_lost. Qed.
Print Assumptions C14_qualified_lost_partial.
Theorem C14_refuted : exists a y m d, level0_date a y m d /\ exists_date y m d /\
  match ParseString (a ++ $"~") with OK e => d_approximate (r_lower (e_start e)) = 0%N | _ => False end.
Proof.
  exists ($"2004-06-11"), 2004, (Some 6), (Some 11). split; [exact (day_level0 2004 6 11 ltac:(lia) ltac:(lia) ltac:(lia))|].
  vm_compute. repeat split; discriminate.
Qed.
Print Assumptions C14_refuted.
Example C14_case : a_mark "%"%char /\ components (Some 6) (Some 11) = (YEAR + MONTH + DAY)%N /\ match ParseQualifiedDate ($"2004-06-11%") with
  | OK e => d_approximate (r_lower (e_start e)) = components (Some 6) (Some 11) /\ d_datetime (r_upper (e_end e)) = $"2004-06-11T23:59:59Z" | _ => False end.
Proof. split; [right; right; reflexivity|]. vm_compute. repeat split. Qed.

(** ** C17: unspecified digits from the right. *)
Theorem C17_decade : forall k, 0 <= k <= 999 -> exists e, ParseString (three k ++ $"X") = OK e /\ e_level e = 1 /\
  e_feature e = $"Unspecified digit(s) from the right" /\ runs e (10 * k) 1 1 (10 * k + 9) 12 31 /\ flagged e 0 0 /\ precise e DECADE.
Proof. exact decade_spans. Qed.
Print Assumptions C17_decade.
Theorem C17_century : forall k, 0 <= k <= 99 -> exists e, ParseString (two k ++ $"XX") = OK e /\ e_level e = 1 /\
  e_feature e = $"Unspecified digit(s) from the right" /\ runs e (100 * k) 1 1 (100 * k + 99) 12 31 /\ flagged e 0 0 /\ precise e CENTURY.
Proof. exact century_spans. Qed.
Print Assumptions C17_century.
Theorem C17_millennium : forall k, 0 <= k <= 9 -> exists e, ParseString (digit_char k :: $"XXX") = OK e /\ e_level e = 1 /\
  e_feature e = $"Unspecified digit(s) from the right" /\ runs e (1000 * k) 1 1 (1000 * k + 999) 12 31 /\ flagged e 0 0 /\ precise e MILLENIUM.
Proof. exact millennium_spans. Qed.
Print Assumptions C17_millennium.
Theorem C17_months_of_year : forall y, 0 <= y <= 9999 -> exists e, ParseString (four y ++ $"-XX") = OK e /\ e_level e = 1 /\
  e_feature e = $"Unspecified digit(s) from the right" /\ runs e y 1 1 y 12 31 /\ flagged e 0 0 /\ precise e YEAR.
Proof. exact year_xx_spans. Qed.
Print Assumptions C17_months_of_year.
Theorem C17_days_of_year : forall y, 0 <= y <= 9999 -> exists e, ParseString (four y ++ $"-XX-XX") = OK e /\ e_level e = 1 /\
  e_feature e = $"Unspecified digit(s) from the right" /\ runs e y 1 1 y 12 31 /\ flagged e 0 0 /\ precise e YEAR.
Proof. exact year_xx_xx_spans. Qed.
Print Assumptions C17_days_of_year.
Theorem C17_days_of_month : forall y m, 0 <= y <= 9999 -> 1 <= m <= 12 -> exists e, ParseString (four y ++ $"-" ++ two m ++ $"-XX") = OK e /\ e_level e = 1 /\
  runs e y m 1 y m (month_len y m).
Proof. exact month_xx_string. Qed.
Print Assumptions C17_days_of_month.
Theorem C17_days_of_month_direct : forall y m, 0 <= y <= 9999 -> 1 <= m <= 12 ->
  exists e, ParseUnspecifiedDigits (four y ++ $"-" ++ two m ++ $"-XX") = OK e /\ e_level e = 1 /\ runs e y m 1 y m (month_len y m) /\ precise e MONTH.
Proof. exact month_xx_direct. Qed.
Print Assumptions C17_days_of_month_direct.
Example C17_case : three 7 ++ $"X" = $"007X" /\ four 2000 ++ $"-" ++ two 2 ++ $"-XX" = $"2000-02-XX" /\
  match ParseString ($"2000-02-XX") with OK e => d_datetime (r_upper (e_end e)) = $"2000-02-29T23:59:59Z" | _ => False end /\
  match ParseString ($"007X") with OK e => d_datetime (r_upper (e_end e)) = $"0079-12-31T23:59:59Z" | _ => False end.
Proof. vm_compute. repeat split. Qed.

(** ** C19: seasons.  Missing: years -999..-1, and winters that end outside the
    four digit years, where the claim is false. *)
Theorem C19_season_code_partial : forall n w b e j y, season_of n w b e j -> rendered y -> rendered (y + j) ->
  exists d, ParseString (year_text y ++ $"-" ++ two n) = OK d /\ e_level d = 1 /\ e_feature d = $"Seasons" /\ months d y b (y + j) e.
Proof. exact season_code_string. Qed.
Print Assumptions C19_season_code_partial.
Theorem C19_season_words_partial : forall n w v sp sp' y b e j, season_of n w b e j -> any_case w v -> spaces sp -> spaces sp' ->
  0 <= y <= 9999 -> y + j <= 9999 ->
  exists d, ParseString (v ++ sp ++ $"," ++ sp' ++ four y) = OK d /\ e_level d = 1 /\ e_feature d = $"Seasons" /\ months d y b (y + j) e.
Proof. exact season_words_string. Qed.
Print Assumptions C19_season_words_partial.
Theorem C19_refuted : exists y n w b e j, season_of n w b e j /\ 0 <= y <= 9999 /\
  match ParseString (four y ++ $"-" ++ two n) with OK _ => False | _ => True end.
Proof. exists 9999, 24, ($"winter"), 12, 2, 1. split; [constructor|]. vm_compute. repeat split; discriminate. Qed.
Print Assumptions C19_refuted.
Theorem C19_negative_refuted : exists y n w b e j, season_of n w b e j /\ -9999 <= y <= -1 /\
  match ParseString (year_text y ++ $"-" ++ two n) with OK _ => False | _ => True end.
Proof. exists (-5), 21, ($"spring"), 3, 5, 0. split; [constructor|]. vm_compute. repeat split; discriminate. Qed.
Print Assumptions C19_negative_refuted.
Example C19_case : season_of 24 ($"winter") 12 2 1 /\
  match ParseString ($"1999-24") with OK e => d_datetime (r_upper (e_end e)) = $"2000-02-29T23:59:59Z" | _ => False end /\
  match ParseString ($"wInTeR ,  1999") with OK e => d_datetime (r_lower (e_start e)) = $"1999-12-01T00:00:00Z" | _ => False end.
Proof. split; [constructor|]. vm_compute. repeat split. Qed.

(** ** C21: letter prefixed years. *)
Theorem C21_letter_year : forall t y, year4 t y -> exists e, ParseString ($"Y" ++ t) = OK e /\ e_level e = 1 /\
  e_feature e = $"Letter-prefixed calendar year" /\
  from_to (e_start e) y 1 1 y 1 1 /\ from_to (e_end e) y 12 31 y 12 31 /\ flagged e 0 0 /\ precise e YEAR /\
  exists e0, ParseString t = OK e0 /\ e_start e0 = e_start e /\ e_end e0 = e_end e.
Proof. exact letter_year_parses. Qed.
Print Assumptions C21_letter_year.
Theorem C21_unsupported : forall t, digits_text t -> (4 < length t)%nat ->
  ParseString ($"Y" ++ t) = Err (Unsupported ($"Letter-prefixed calendar year") ($"Y" ++ t)) /\
  ParseString ($"Y-" ++ t) = Err (Unsupported ($"Letter-prefixed calendar year") ($"Y-" ++ t)).
Proof. exact letter_year_unsupported. Qed.
Print Assumptions C21_unsupported.
Example C21_case : year4 ($"-0044") (-44) /\
  match ParseString ($"Y-0044") with OK e => d_datetime (r_upper (e_end e)) = $"-0044-12-31T23:59:59Z" | _ => False end /\
  ParseString ($"Y170000002") = Err (Unsupported ($"Letter-prefixed calendar year") ($"Y170000002")).
Proof. split; [exact (year4_neg 44 ltac:(lia))|]. vm_compute. repeat split. Qed.
