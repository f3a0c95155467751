(** Properties of the dispatch, comparison and small interfaces:
    C01, C02, C31-C36, C38, C41-C43, C46, C52. *)
From Coq Require Import Ascii String ZArith NArith Bool Lia ZifyBool List.
From Verif Require Import GoStr GoTime SpecCal StrFacts Edtf Calendar Common Level0 Level1 Level2 Parser Json Cmd CalFacts ApiFacts ApiProofs.
Import ListNotations.
Open Scope Z_scope.

(** ** C01: a parsed date echoes its input and carries the classification Matches
    reports. *)
Theorem C01_echo_and_classification : forall s d, ParseString s = OK d ->
  e_edtf d = s /\ edtf_string d = s /\
  (s <> $".." -> s <> [] -> Matches s = OK (e_level d, e_feature d)) /\
  (s = $".." -> e_level d = -1 /\ e_feature d = $"Open") /\
  (s = [] -> e_level d = -1 /\ e_feature d = $"Unknown").
Proof. exact parse_class. Qed.
Print Assumptions C01_echo_and_classification.
Example C01_case : exists d, ParseString ($"1985-28") = OK d /\ Matches ($"1985-28") = OK (2, $"Sub-year groupings").
Proof. eexists. split; vm_compute; reflexivity. Qed.

(** ** C02: nothing outside the validator is ever parsed. *)
Theorem C02_parse_implies_valid : forall s d, ParseString s = OK d -> IsValid s = true.
Proof. exact parse_valid. Qed.
Print Assumptions C02_parse_implies_valid.
Theorem C02_invalid_is_unrecognized : forall s, IsValid s = false ->
  (exists label, ParseString s = Err (EUnrecognized label s)) /\
  (exists label, Matches s = Err (EUnrecognized label s)).
Proof. exact invalid_unrecognized. Qed.
Print Assumptions C02_invalid_is_unrecognized.
Example C02_case : IsValid ($"12 April 1985") = false /\ IsValid ($"1985-04-12") = true.
Proof. vm_compute. split; reflexivity. Qed.

(** ** C31: Lower and Upper return the outer bounds or an error.  The error is not
    one that IsNotSet recognises. *)
Theorem C31_lower_upper_partial : forall d,
  (forall t, Lower d = OK t <-> d_timestamp (r_lower (e_start d)) = Some t) /\
  (forall t, Upper d = OK t <-> d_timestamp (r_upper (e_end d)) = Some t) /\
  (d_timestamp (r_lower (e_start d)) = None -> exists e, Lower d = Err e /\ IsNotImplemented e = true) /\
  (d_timestamp (r_upper (e_end d)) = None -> exists e, Upper d = Err e /\ IsNotImplemented e = true).
Proof. exact lower_upper. Qed.
Print Assumptions C31_lower_upper_partial.
Theorem C31_not_set_refuted : exists s d e, ParseString s = OK d /\ Lower d = Err e /\ IsNotSet e = false.
Proof. exact not_set_refuted. Qed.
Print Assumptions C31_not_set_refuted.
Example C31_case : exists d, ParseString ($"1985/..") = OK d /\
  Lower d = OK (instant 1985 1 1 0 0 0) /\ exists e, Upper d = Err e.
Proof. eexists. split; [vm_compute; reflexivity|]. split; [vm_compute; reflexivity|]. eexists. vm_compute. reflexivity. Qed.

(** ** C32: Before and After compare spans. *)
Theorem C32_after : forall d u,
  (IsOpen (e_edtf d) = true -> After d u = OK false) /\
  (IsOpen (e_edtf d) = false ->
    (forall b, After d u = OK b <-> exists lo up, Lower d = OK lo /\ Upper u = OK up /\ (b = true <-> up <= lo)) /\
    ((exists e, After d u = Err e) <-> (exists e, Lower d = Err e) \/ (exists e, Upper u = Err e))).
Proof. exact after_spec. Qed.
Print Assumptions C32_after.
Theorem C32_before : forall d u,
  (IsOpen (e_edtf d) = true -> Before d u = OK false) /\
  (IsOpen (e_edtf d) = false ->
    (forall b, Before d u = OK b <-> exists up lo, Upper d = OK up /\ Lower u = OK lo /\ (b = true <-> up <= lo)) /\
    ((exists e, Before d u = Err e) <-> (exists e, Upper d = Err e) \/ (exists e, Lower u = Err e))).
Proof. exact before_spec. Qed.
Print Assumptions C32_before.
Example C32_case : IsAfter ($"1986") ($"1985") = OK true /\ IsAfter ($"1985-06") ($"1985") = OK false /\
  IsBefore ($"1985") ($"1986") = OK true /\ (exists e, IsAfter ($"../1985") ($"1980") = Err e).
Proof. repeat split; try (vm_compute; reflexivity). eexists. vm_compute. reflexivity. Qed.

(** ** C33: Before and After are converses. *)
Theorem C33_converse : forall d u, IsOpen (e_edtf d) = false -> IsOpen (e_edtf u) = false ->
  (forall b, Before d u = OK b <-> After u d = OK b) /\
  ((exists e, Before d u = Err e) <-> (exists e, After u d = Err e)).
Proof. exact converse. Qed.
Print Assumptions C33_converse.
Theorem C33_converse_strings : forall x y, x <> $".." -> y <> $".." ->
  forall b, IsBefore x y = OK b <-> IsAfter y x = OK b.
Proof. exact converse_strings. Qed.
Print Assumptions C33_converse_strings.
Example C33_case : IsBefore ($"1984-26") ($"1986?") = OK true /\ IsAfter ($"1986?") ($"1984-26") = OK true.
Proof. vm_compute. split; reflexivity. Qed.

(** ** C34: After is transitive; it is irreflexive only on dates that are not a
    single instant. *)
Theorem C34_after_transitive : forall a b c lo up, Lower b = OK lo -> Upper b = OK up -> lo <= up ->
  IsOpen (e_edtf b) = false ->
  After a b = OK true -> After b c = OK true -> After a c = OK true.
Proof. exact after_trans. Qed.
Print Assumptions C34_after_transitive.
Theorem C34_after_irreflexive_partial : forall d lo up, Lower d = OK lo -> Upper d = OK up -> lo < up ->
  After d d = OK false.
Proof. exact after_irrefl. Qed.
Print Assumptions C34_after_irreflexive_partial.
Theorem C34_irreflexive_refuted : exists s d, ParseString s = OK d /\ After d d = OK true.
Proof. exact after_irrefl_refuted. Qed.
Print Assumptions C34_irreflexive_refuted.
Example C34_case : IsAfter ($"1990") ($"1985-26") = OK true /\ IsAfter ($"1985-26") ($"1980/1982") = OK true.
Proof. vm_compute. split; reflexivity. Qed.

(** ** C35: IsBetween means neither before the inception nor after the cessation. *)
Theorem C35_between_closed : forall d i c D I C lod upd loi upc, d <> $".." -> c <> $".." ->
  ParseString d = OK D -> ParseString i = OK I -> ParseString c = OK C ->
  Lower D = OK lod -> Upper D = OK upd -> Lower I = OK loi -> Upper C = OK upc ->
  exists b, IsBetween d i c = OK b /\ (b = true <-> loi < upd /\ lod < upc).
Proof. exact between_closed. Qed.
Print Assumptions C35_between_closed.
Theorem C35_between_open : forall d i D I upd loi, d <> $".." ->
  ParseString d = OK D -> ParseString i = OK I -> Upper D = OK upd -> Lower I = OK loi ->
  exists b, IsBetween d i ($"..") = OK b /\ (b = true <-> loi < upd).
Proof. exact between_open. Qed.
Print Assumptions C35_between_open.
Theorem C35_unparseable_partial : forall d i c b, IsBetween d i c = OK b ->
  (exists D, ParseString d = OK D) /\ (exists I, ParseString i = OK I) /\
  (c = $".." \/ (exists C, ParseString c = OK C) \/ IsBefore d i = OK true).
Proof. exact between_parses. Qed.
Print Assumptions C35_unparseable_partial.
Theorem C35_unparseable_refuted : exists d i c b,
  (forall C, ParseString c <> OK C) /\ c <> $".." /\ IsBetween d i c = OK b.
Proof. exact between_refuted. Qed.
Print Assumptions C35_unparseable_refuted.
Theorem C35_widening : forall d i c, IsBetween d i c = OK true -> IsBetween d i ($"..") = OK true.
Proof. exact between_widen. Qed.
Print Assumptions C35_widening.
Example C35_case : IsBetween ($"1985-06") ($"1980") ($"1990") = OK true /\
  IsBetween ($"1985-06") ($"1980") ($"1985") = OK true /\ IsBetween ($"1991") ($"1980") ($"1990") = OK false.
Proof. vm_compute. repeat split. Qed.

(** ** C36: DeriveRanges reports exactly the parsed timestamps. *)
Theorem C36_derived : forall s r, DeriveRanges s = OK (Some r) <->
  exists d sl su el eu, ParseString s = OK d /\
    d_timestamp (r_lower (e_start d)) = Some sl /\ d_timestamp (r_upper (e_start d)) = Some su /\
    d_timestamp (r_lower (e_end d)) = Some el /\ d_timestamp (r_upper (e_end d)) = Some eu /\
    us_start (ur_outer r) = sl /\ us_end (ur_outer r) = eu /\ us_start (ur_inner r) = su /\ us_end (ur_inner r) = el.
Proof. exact derived. Qed.
Print Assumptions C36_derived.
Theorem C36_not_derived : forall s,
  (In s [$".."; $"open"; $""; $"uuuu"] -> DeriveRanges s = OK None) /\
  (~ In s [$".."; $"open"; $""; $"uuuu"] ->
     (forall e, ParseString s = Err e -> exists e', DeriveRanges s = Err e') /\
     (forall d, ParseString s = OK d -> exists o, DeriveRanges s = OK o)).
Proof. exact not_derived. Qed.
Print Assumptions C36_not_derived.
Example C36_case : DeriveRanges ($"1985/1987-03") =
  OK (Some (mkURange (mkUSpan (instant 1985 1 1 0 0 0) (instant 1987 3 31 23 59 59))
                     (mkUSpan (instant 1985 12 31 23 59 59) (instant 1987 3 1 0 0 0)))) /\
  DeriveRanges ($"1985/..") = OK None.
Proof. vm_compute. split; reflexivity. Qed.

(** ** C38: flipping the era keeps month, day and time of day. *)
Theorem C38_flip_year : forall y, min_int64 < y <= max_int64 -> FlipYear y = - y /\ FlipYear (FlipYear y) = y.
Proof. exact flip_year. Qed.
Print Assumptions C38_flip_year.
Theorem C38_time_to_bce : forall y m d hh mi ss, real_date y m d ->
  0 <= hh <= 23 -> 0 <= mi <= 59 -> 0 <= ss <= 59 ->
  TimeToBCE (instant y m d hh mi ss) = instant (- y) m d hh mi ss.
Proof. exact time_to_bce. Qed.
Print Assumptions C38_time_to_bce.
(** Every instant is of that form. *)
Theorem C38_every_instant : forall t, exists y m d hh mi ss, real_date y m d /\
  0 <= hh <= 23 /\ 0 <= mi <= 59 /\ 0 <= ss <= 59 /\ t = instant y m d hh mi ss.
Proof. exact every_instant. Qed.
Print Assumptions C38_every_instant.
Example C38_case : real_date 2000 2 29 /\ TimeToBCE (instant 2000 2 29 12 0 0) = instant (-2000) 2 29 12 0 0.
Proof. split; [split; cbv; split; discriminate|vm_compute; reflexivity]. Qed.

(** ** C41: deprecated spellings have exactly one current spelling. *)
Theorem C41_deprecated : forall s,
  (IsDeprecated s = true <-> exists r, ReplaceDeprecated s = OK r) /\
  (forall r, ReplaceDeprecated s = OK r ->
     IsDeprecated r = false /\ IsOpen r = IsOpen s /\ IsUnspecified r = IsUnspecified s /\
     (IsOpen s = true \/ IsUnspecified s = true)).
Proof. exact deprecated_spec. Qed.
Print Assumptions C41_deprecated.
Example C41_case : ReplaceDeprecated ($"open") = OK ($"..") /\ IsDeprecated ($"1985") = false.
Proof. vm_compute. split; reflexivity. Qed.

(** ** C42: open, unspecified and unknown spellings. *)
Theorem C42_spellings_partial : forall s,
  (IsOpen s = true <-> s = $".." \/ s = $"open") /\
  (IsUnspecified s = true <-> s = $"" \/ s = $"uuuu") /\
  (IsUnknown s = true <-> s = $"" \/ s = $"uuuu") /\
  IsUnknown s = IsUnspecified s /\
  (IsOpen s && IsUnspecified s = false) /\
  (IsOpen s || IsUnspecified s = true -> IsDeprecated s = false -> IsValid s = true).
Proof. exact spellings. Qed.
Print Assumptions C42_spellings_partial.
Theorem C42_valid_refuted : IsOpen ($"open") = true /\ IsValid ($"open") = false /\
  IsUnspecified ($"uuuu") = true /\ IsValid ($"uuuu") = false.
Proof. exact spellings_refuted. Qed.
Print Assumptions C42_valid_refuted.
Example C42_case : IsOpen ($"..") = true /\ IsValid ($"..") = true /\ IsUnknown ($"") = true.
Proof. vm_compute. repeat split. Qed.

(** ** C43: precision flags form a bit set (32 bit). *)
Theorem C43_add : forall f x y,
  (x <> 0%N -> HasFlag (AddFlag f x) x = true) /\
  (forall i, N.testbit (AddFlag f x) i = N.testbit f i || N.testbit x i) /\
  (N.land x y = 0%N -> HasFlag (AddFlag f x) y = HasFlag f y).
Proof. exact add_flag. Qed.
Print Assumptions C43_add.
Theorem C43_clear : forall f x y, (f < 2 ^ 32)%N -> (x < 2 ^ 32)%N ->
  HasFlag (ClearFlag f x) x = false /\
  (forall i, N.testbit (ClearFlag f x) i = N.testbit f i && negb (N.testbit x i)) /\
  (N.land x y = 0%N -> HasFlag (ClearFlag f x) y = HasFlag f y).
Proof. exact clear_flag. Qed.
Print Assumptions C43_clear.
Theorem C43_toggle : forall f x y, ToggleFlag (ToggleFlag f x) x = f /\
  (forall i, N.testbit (ToggleFlag f x) i = xorb (N.testbit f i) (N.testbit x i)) /\
  (N.land x y = 0%N -> HasFlag (ToggleFlag f x) y = HasFlag f y).
Proof. exact toggle_flag. Qed.
Print Assumptions C43_toggle.
Theorem C43_named_flags : forall i j a b, 
  nth_error [ALL; ANY; DAY; WEEK; MONTH; YEAR; DECADE; CENTURY; MILLENIUM] i = Some a ->
  nth_error [ALL; ANY; DAY; WEEK; MONTH; YEAR; DECADE; CENTURY; MILLENIUM] j = Some b ->
  (exists k, a = (2 ^ k)%N /\ (k < 32)%N) /\ (i <> j -> N.land a b = 0%N).
Proof. exact named_flags. Qed.
Print Assumptions C43_named_flags.
Theorem C43_tests : forall f, IsAnnual f = HasFlag f YEAR /\ IsMonthly f = HasFlag f MONTH /\ IsDaily f = HasFlag f DAY /\
  (forall x, HasFlag f x = true <-> exists i, N.testbit f i = true /\ N.testbit x i = true).
Proof. exact flag_tests. Qed.
Print Assumptions C43_tests.
Example C43_case : HasFlag (AddFlag YEAR MONTH) MONTH = true /\ HasFlag (ClearFlag (AddFlag YEAR MONTH) MONTH) YEAR = true /\
  HasFlag (ClearFlag (AddFlag YEAR MONTH) MONTH) MONTH = false.
Proof. vm_compute. repeat split. Qed.

(** ** C46: error predicates.  NotSet() builds a NotImplementedError. *)
Theorem C46_predicates_partial : forall l s,
  (map (fun p => p (NotImplemented l s)) [IsNotSet; IsNotImplemented; IsInvalid; IsUnsupported; IsUnrecognized] = [false; true; false; false; false]) /\
  (map (fun p => p (Invalid l s)) [IsNotSet; IsNotImplemented; IsInvalid; IsUnsupported; IsUnrecognized] = [false; false; true; false; false]) /\
  (map (fun p => p (Unsupported l s)) [IsNotSet; IsNotImplemented; IsInvalid; IsUnsupported; IsUnrecognized] = [false; false; false; true; false]) /\
  (map (fun p => p (Unrecognized l s)) [IsNotSet; IsNotImplemented; IsInvalid; IsUnsupported; IsUnrecognized] = [false; false; false; false; true]).
Proof. exact error_predicates. Qed.
Print Assumptions C46_predicates_partial.
Theorem C46_not_set_refuted : IsNotSet NotSet = false /\ IsNotImplemented NotSet = true.
Proof. exact not_set_predicate. Qed.
Print Assumptions C46_not_set_refuted.

(** ** C52: the parse tool prints one JSON array with one element per argument. *)
Theorem C52_all_parse : forall args ds, Forall2 (fun a d => ParseString a = OK d) args ds ->
  cmd_parse args = ($"[" ++ join_with ($",") (map (fun d => print (enc_edtf d)) ds) ++ $"]", Done).
Proof. exact cmd_all. Qed.
Print Assumptions C52_all_parse.
Theorem C52_first_failure : forall good ds bad rest, Forall2 (fun a d => ParseString a = OK d) good ds ->
  (forall d, ParseString bad <> OK d) ->
  exists e, cmd_parse (good ++ bad :: rest) = ($"[" ++ join_with ($",") (map (fun d => print (enc_edtf d)) ds), e) /\ e <> Done.
Proof. exact cmd_stop. Qed.
Print Assumptions C52_first_failure.
Example C52_case : exists d e, Forall2 (fun a d => ParseString a = OK d) [$"1985"; $".."] [d; e] /\
  (forall x, ParseString ($"x") <> OK x).
Proof.
  do 2 eexists. split.
  - constructor; [vm_compute; reflexivity|]. constructor; [vm_compute; reflexivity|constructor].
  - intro x. vm_compute. discriminate.
Qed.
