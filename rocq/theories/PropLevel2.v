(** Level 2: C15, C16, C20 and C22-C24. *)
From Coq Require Import Ascii String ZArith NArith Bool Lia ZifyBool List.
From Verif Require Import GoStr SpecCal SpecText SpecGrammar SpecForms SpecSpan SpecInner TextFacts Edtf Common Level0 Level1 Level2 Parser Level0Facts QualProofs GroupingProofs SigProofs ExpProofs ExpPanic.
Import ListNotations.
Open Scope Z_scope.

(** ** C15: group qualification. *)
Theorem C15_group : forall x, q_ok x -> exists e, ParseGroupQualification (group_text x) = OK e /\ e_level e = 2 /\
  e_feature e = $"Qualification (Group)" /\ q_result e x (group_bits marks_uncertain x) (group_bits marks_approximate x).
Proof. exact group_direct. Qed.
Print Assumptions C15_group.
(** ParseString goes there whenever a component before the last has a mark. *)
Theorem C15_group_string : forall x, q_ok x -> inner_mark x -> exists e, ParseString (group_text x) = OK e /\ e_level e = 2 /\
  e_feature e = $"Qualification (Group)" /\ q_result e x (group_bits marks_uncertain x) (group_bits marks_approximate x).
Proof. exact group_string. Qed.
Print Assumptions C15_group_string.
Example C15_case : let x := qd_ymd 2004 (Some "?"%char) 6 (Some "~"%char) 11 None in
  q_ok x /\ inner_mark x /\ group_text x = $"2004?-06~-11" /\
  group_bits marks_uncertain x = YEAR /\ group_bits marks_approximate x = (YEAR + MONTH)%N /\
  match ParseString ($"2004?-06~-11") with
  | OK e => d_uncertain (r_lower (e_start e)) = YEAR /\ d_approximate (r_upper (e_end e)) = (YEAR + MONTH)%N | _ => False end.
Proof.
  split; [split; [cbn; lia|]; split; [split; cbn; lia|]; cbn; unfold a_mark; auto|]. split; [left; discriminate|]. vm_compute. repeat split.
Qed.

(** ** C16: individual qualification. *)
Theorem C16_individual : forall x, q_ok x -> exists e, ParseIndividualQualification (individual_text x) = OK e /\ e_level e = 2 /\
  e_feature e = $"Qualification (Individual)" /\ q_result e x (individual_bits marks_uncertain x) (individual_bits marks_approximate x).
Proof. exact individual_direct. Qed.
Print Assumptions C16_individual.
Theorem C16_individual_string : forall x, q_ok x -> q_marks x <> (None, None, None) -> exists e, ParseString (individual_text x) = OK e /\ e_level e = 2 /\
  e_feature e = $"Qualification (Individual)" /\ q_result e x (individual_bits marks_uncertain x) (individual_bits marks_approximate x).
Proof. exact individual_string. Qed.
Print Assumptions C16_individual_string.
Example C16_case : let x := qd_ymd 2004 None 6 (Some "%"%char) 11 (Some "~"%char) in
  q_ok x /\ individual_text x = $"2004-%06-~11" /\
  individual_bits marks_uncertain x = MONTH /\ individual_bits marks_approximate x = (MONTH + DAY)%N /\
  match ParseString ($"2004-%06-~11") with
  | OK e => d_uncertain (r_lower (e_start e)) = MONTH /\ d_approximate (r_upper (e_end e)) = (MONTH + DAY)%N | _ => False end.
Proof.
  split; [split; [cbn; lia|]; split; [split; cbn; lia|]; cbn; unfold a_mark; auto|]. vm_compute. repeat split.
Qed.

(** ** C20: sub-year groupings.  Codes 28 and 30 end in the next year, which the
    library writes without leading zeros: only years 999..9998 work. *)
Theorem C20_grouping_partial : forall n b e j y, grouping_of n b e j -> 0 <= y <= 9999 -> j = 0 \/ 999 <= y <= 9998 ->
  exists d, ParseString (four y ++ $"-" ++ two n) = OK d /\ e_level d = 2 /\ e_feature d = $"Sub-year groupings" /\
    from_to (e_start d) y b 1 y b 1 /\ grouping_end (e_end d) (y + j) e j /\ flagged d 0 0 /\ precise d YEAR.
Proof. exact grouping_parses. Qed.
Print Assumptions C20_grouping_partial.
Example C20_case : grouping_of 28 12 2 1 /\ four 2003 ++ $"-" ++ two 28 = $"2003-28" /\
  match ParseString ($"2003-28") with
  | OK d => d_ymd (r_lower (e_start d)) = Some (mkYMD 2003 12 1) /\ d_ymd (r_upper (e_end d)) = Some (mkYMD 2004 2 29) | _ => False end.
Proof. split; [constructor|]. vm_compute. repeat split. Qed.
Theorem C20_refuted : exists n b e j y y', grouping_of n b e j /\ 0 <= y <= 9999 /\ 0 <= y' <= 9999 /\
  (exists err, ParseString (four y ++ $"-" ++ two n) = Err err) /\ exists err, ParseString (four y' ++ $"-" ++ two n) = Err err.
Proof.
  exists 28, 12, 2, 1, 500, 9999. split; [constructor|]. split; [lia|]. split; [lia|].
  split; eexists; vm_compute; reflexivity.
Qed.
Print Assumptions C20_refuted.

(** ** C22: exponential years.  Exact while the value fits in 63 bits; beyond that
    the low 64 bits of the rounded value count. *)
Theorem C22_year_partial : forall a t m e, a = "Y"%char \/ a = "y"%char -> exp_text t m e ->
  1000 <= Z.abs (m * 10 ^ e) <= 9999 -> exists d, ParseString (a :: t) = OK d /\ e_level d = 2 /\ e_feature d = $"Exponential year" /\
    runs d (m * 10 ^ e) 1 1 (m * 10 ^ e) 12 31 /\ flagged d 0 0 /\ precise d YEAR.
Proof. exact exp_year. Qed.
Print Assumptions C22_year_partial.
Theorem C22_unsupported_partial : forall a t m e, a = "Y"%char \/ a = "y"%char -> exp_text t m e ->
  9999 < Z.abs (m * 10 ^ e) < 2 ^ 63 -> ParseString (a :: t) = Err (Unsupported ($"exponential notation") t).
Proof. exact exp_beyond. Qed.
Print Assumptions C22_unsupported_partial.
(** Years of less than four digits are errors. *)
Theorem C22_short_partial : forall a t m e, a = "Y"%char \/ a = "y"%char -> exp_text t m e ->
  Z.abs (m * 10 ^ e) < 1000 -> exists err, ParseString (a :: t) = Err err.
Proof. exact exp_below. Qed.
Print Assumptions C22_short_partial.
(** Exponents from 64 on never give a date. *)
Theorem C22_large_partial : forall a t m e d, a = "Y"%char \/ a = "y"%char -> exp_text t m e -> 64 <= e -> ParseString (a :: t) <> OK d.
Proof. exact exp_never. Qed.
Print Assumptions C22_large_partial.
Example C22_case : exp_text ($"-17E2") (-17) 2 /\ 1000 <= Z.abs (-17 * 10 ^ 2) <= 9999 /\ exp_text ($"17E7") 17 7 /\
  match ParseString ($"Y-17E2") with OK d => d_ymd (r_lower (e_start d)) = Some (mkYMD (-1700) 1 1) | _ => False end /\
  ParseString ($"Y17E7") = Err (Unsupported ($"exponential notation") ($"17E7")).
Proof.
  assert (D17 : dec_digits ($"17") 17) by exact (dd_snoc ($"1") 1 7 (dd_one 1 ltac:(lia)) ltac:(lia)).
  assert (D2 : dec_digits ($"2") 2) by exact (dd_one 2 ltac:(lia)). assert (D7 : dec_digits ($"7") 7) by exact (dd_one 7 ltac:(lia)).
  split; [exact (exp_of true _ "E"%char _ _ _ D17 (or_introl eq_refl) D2)|]. split; [lia|].
  split; [exact (exp_of false _ "E"%char _ _ _ D17 (or_introl eq_refl) D7)|]. vm_compute. repeat split.
Qed.
(** 2^64 + 2000 is taken for the year 2000. *)
Theorem C22_refuted : exists t m d, exp_text t m 0 /\ m = 18446744073709553616 /\ ParseString ("Y"%char :: t) = OK d /\
  d_ymd (r_lower (e_start d)) = Some (mkYMD 2000 1 1).
Proof.
  exists ($"18446744073709553616E0"), 18446744073709553616. eexists.
  split; [|split; [reflexivity|split; [vm_compute; reflexivity|reflexivity]]].
  apply (exp_of false ($"18446744073709553616") "E"%char ($"0") 18446744073709553616 0); [apply dec_digits_iff; split; [discriminate|vm_compute; reflexivity]|auto|apply (dd_one 0); lia].
Qed.
Print Assumptions C22_refuted.
(** A year of three digits is not a date. *)
Theorem C22_short_refuted : exists t m e err, exp_text t m e /\ m * 10 ^ e = 500 /\ ParseString ("Y"%char :: t) = Err err.
Proof.
  exists ($"5E2"), 5, 2. eexists. split; [|split; [reflexivity|vm_compute; reflexivity]].
  apply (exp_of false ($"5") "E"%char ($"2") 5 2); [apply (dd_one 5); lia|auto|apply (dd_one 2); lia].
Qed.
Print Assumptions C22_short_refuted.

(** ** C23: significant digits. *)
Theorem C23_significant_partial : forall u y nd v, before_s u y -> dec_digits nd v -> 1000 <= Z.abs y -> v <= 4 ->
  exists e lo hi, ParseString (u ++ "S"%char :: nd) = OK e /\ e_level e = 2 /\ e_feature e = $"Significant digits" /\
    from_to (e_start e) lo 1 1 lo 12 31 /\ from_to (e_end e) hi 1 1 hi 12 31 /\ flagged e 0 0 /\ precise e YEAR /\
    forall z, lo <= z <= hi <-> 0 <= y * z /\ Z.abs z / 10 ^ v = Z.abs y / 10 ^ v.
Proof. exact before_spans. Qed.
Print Assumptions C23_significant_partial.
(** A date results in no other case but one. *)
Theorem C23_only_partial : forall u y nd v e, before_s u y -> dec_digits nd v -> ParseString (u ++ "S"%char :: nd) = OK e ->
  1000 <= Z.abs y /\ v <= 4 \/ -999 <= y <= -100 /\ v = 4.
Proof. exact before_only. Qed.
Print Assumptions C23_only_partial.
Example C23_case : before_s ($"-1950") (-1950) /\ dec_digits ($"2") 2 /\
  (forall z, -1999 <= z <= -1900 <-> 0 <= -1950 * z /\ Z.abs z / 10 ^ 2 = Z.abs (-1950) / 10 ^ 2) /\
  match ParseString ($"-1950S2") with
  | OK e => d_ymd (r_lower (e_start e)) = Some (mkYMD (-1999) 1 1) /\ d_ymd (r_upper (e_end e)) = Some (mkYMD (-1900) 12 31) | _ => False end.
Proof.
  split; [constructor; exact (year4_neg 1950 ltac:(lia))|]. split; [exact (dd_one 2 ltac:(lia))|]. split; [|vm_compute; repeat split].
  intro z. change (10 ^ 2) with 100. change (Z.abs (-1950) / 100) with 19. split; intros H.
  - split; [lia|]. symmetry. apply (Z.div_unique _ _ 19 (Z.abs z - 1900)); lia.
  - destruct H as (H1 & H2). pose proof (Z.div_mod (Z.abs z) 100 ltac:(lia)). pose proof (Z.mod_pos_bound (Z.abs z) 100 ltac:(lia)). lia.
Qed.
(** A count larger than the number of digits panics instead of being an error. *)
Theorem C23_count_refuted : exists u y nd v, before_s u y /\ dec_digits nd v /\ 4 < v /\ ParseString (u ++ "S"%char :: nd) = Panic.
Proof.
  exists ($"1950"), 1950, ($"5"), 5. split; [constructor; exact (year4_pos 1950 ltac:(lia))|]. split; [exact (dd_one 5 ltac:(lia))|]. split; [lia|vm_compute; reflexivity].
Qed.
Print Assumptions C23_count_refuted.
(** The years that agree with -123 up to the last four digits are -9999..0. *)
Theorem C23_sign_refuted : exists u y nd v e, before_s u y /\ dec_digits nd v /\ y = -123 /\ v = 4 /\ ParseString (u ++ "S"%char :: nd) = OK e /\
  d_ymd (r_lower (e_start e)) = Some (mkYMD 0 1 1) /\ d_ymd (r_upper (e_end e)) = Some (mkYMD 9999 12 31).
Proof.
  exists ($"-0123"), (-123), ($"4"), 4. eexists. split; [constructor; exact (year4_neg 123 ltac:(lia))|]. split; [exact (dd_one 4 ltac:(lia))|].
  split; [reflexivity|]. split; [reflexivity|]. split; [vm_compute; reflexivity|]. split; reflexivity.
Qed.
Print Assumptions C23_sign_refuted.
(** A year of three digits is not a date. *)
Theorem C23_short_refuted : exists u y nd v err, before_s u y /\ dec_digits nd v /\ y = 950 /\ v = 2 /\ ParseString (u ++ "S"%char :: nd) = Err err.
Proof.
  exists ($"0950"), 950, ($"2"), 2. eexists. split; [constructor; exact (year4_pos 950 ltac:(lia))|]. split; [exact (dd_one 2 ltac:(lia))|].
  split; [reflexivity|]. split; [reflexivity|]. vm_compute. reflexivity.
Qed.
Print Assumptions C23_short_refuted.

(** ** C04: panics.  Only exponential years and significant digits can panic. *)
Theorem C04_others_partial : forall s, ~ exponential_year s -> ~ significant_digits s -> ParseString s <> Panic.
Proof. exact only_two_panic. Qed.
Print Assumptions C04_others_partial.
(** Significant digits panic exactly when the count exceeds the characters of the
    year but not in its own number of digits. *)
Theorem C04_significant_partial : forall u y nd v, before_s u y -> dec_digits nd v ->
  (ParseString (u ++ "S"%char :: nd) = Panic <-> year_width y < v < 10 ^ year_width y).
Proof. exact before_panics. Qed.
Print Assumptions C04_significant_partial.
(** Exponential years panic when big.Float overflows: never up to the largest number
    below 2^2147483647 with 64 significant bits, and always from 2^2147483647 on, until
    the binary exponent itself is out of range, which is an error. *)
Theorem C04_exponential_partial : forall a t m e, a = "Y"%char \/ a = "y"%char -> exp_text t m e ->
  (Z.abs m * 10 ^ e <= (2 ^ 64 - 1) * 2 ^ 2147483583 -> ParseString (a :: t) <> Panic) /\
  (2 ^ 2147483647 <= Z.abs m * 10 ^ e -> Z.log2 (Z.abs m) + 1 + e <= 2147483647 -> ParseString (a :: t) = Panic) /\
  (m <> 0 -> 2147483647 < Z.log2 (Z.abs m) + 1 + e -> exists err, ParseString (a :: t) = Err err).
Proof. exact exp_limit. Qed.
Print Assumptions C04_exponential_partial.
(** In decimal: [k] bounds the number of digits of the mantissa. *)
Theorem C04_exponential_decimal_partial : forall a t m e k, a = "Y"%char \/ a = "y"%char -> exp_text t m e ->
  (Z.abs m < 10 ^ k -> 0 <= k -> e + k <= 646456992 -> ParseString (a :: t) <> Panic) /\
  (m <> 0 -> 646456992 < e -> Z.log2 (Z.abs m) + 1 + e <= 2147483647 -> ParseString (a :: t) = Panic).
Proof. exact exp_decimal. Qed.
Print Assumptions C04_exponential_decimal_partial.
(** Significant digits of exponential years outside [before_s]. *)
Theorem C04_significant_exponential_partial : forall c t m e nd v, c = "Y"%char \/ c = "y"%char -> exp_text t m e -> dec_digits nd v ->
  (m = 0 \/ 64 <= e -> Z.log2 (Z.abs m) + 1 + e <= 2147483647 -> Z.abs m * 10 ^ e <= (2 ^ 64 - 1) * 2 ^ 2147483583 ->
     (ParseString (c :: t ++ "S"%char :: nd) = Panic <-> 2 <= v <= 9)) /\
  (2 ^ 2147483647 <= Z.abs m * 10 ^ e -> Z.log2 (Z.abs m) + 1 + e <= 2147483647 -> ParseString (c :: t ++ "S"%char :: nd) = Panic) /\
  (m <> 0 -> 2147483647 < Z.log2 (Z.abs m) + 1 + e -> exists err, ParseString (c :: t ++ "S"%char :: nd) = Err err) /\
  (9999 < Z.abs (m * 10 ^ e) < 2 ^ 63 -> exists err, ParseString (c :: t ++ "S"%char :: nd) = Err err).
Proof. exact sig_exp_panics. Qed.
Print Assumptions C04_significant_exponential_partial.
Theorem C04_significant_letter : forall (neg : bool) ds m nd v, dec_digits ds m -> (4 < length (sign neg ++ ds))%nat -> dec_digits nd v ->
  ParseString ("Y"%char :: sign neg ++ ds ++ "S"%char :: nd) = Err (Unsupported SIGNIFICANT_DIGITS ("Y"%char :: sign neg ++ ds ++ "S"%char :: nd)).
Proof. exact sig_letter_long. Qed.
Print Assumptions C04_significant_letter.
Example C04_limits_case : ParseString ($"Y1E646456993") = Panic /\ ParseString ($"Y1E99S2") = Panic /\
  match ParseString ($"Y9E646456991") with Err _ => True | _ => False end /\ match ParseString ($"Y1E2147483647") with Err _ => True | _ => False end /\
  match ParseString ($"Y1E99S1") with Err _ => True | _ => False end.
Proof. vm_compute. repeat split. Qed.
Example C04_case : before_s ($"0950") 950 /\ year_width 950 = 3 /\ dec_digits ($"4") 4 /\ ParseString ($"0950S4") = Panic /\
  exp_text ($"5E99") 5 99 /\ ParseString ($"Y5E99") <> Panic.
Proof.
  split; [constructor; exact (year4_pos 950 ltac:(lia))|]. split; [reflexivity|]. split; [exact (dd_one 4 ltac:(lia))|]. split; [vm_compute; reflexivity|].
  assert (X : exp_text ($"5E99") 5 99).
  { apply (exp_of false ($"5") "E"%char ($"99") 5 99); [apply (dd_one 5); lia|auto|exact (dd_snoc ($"9") 9 9 (dd_one 9 ltac:(lia)) ltac:(lia))]. }
  split; [exact X|]. refine (proj1 (exp_decimal "Y"%char _ 5 99 1 (or_introl eq_refl) X) _ _ _); lia.
Qed.
Theorem C04_refuted : exists s, ParseString s = Panic.
Proof. exists ($"1950S5"). vm_compute. reflexivity. Qed.
Print Assumptions C04_refuted.
Theorem C04_exponential_refuted : exists t m e, exp_text t m e /\ ParseString ("Y"%char :: t) = Panic.
Proof.
  exists ($"1E999999999"), 1, 999999999. split; [|vm_compute; reflexivity].
  apply (exp_of false ($"1") "E"%char ($"999999999") 1 999999999); [apply (dd_one 1); lia|auto|apply dec_digits_iff; split; [discriminate|vm_compute; reflexivity]].
Qed.
Print Assumptions C04_exponential_refuted.
