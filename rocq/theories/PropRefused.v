(** C69: the error that every rejected string gets, and every panic. *)
From Coq Require Import Ascii String ZArith NArith Bool Lia List.
From Verif Require Import GoStr SpecCal SpecText SpecZone SpecGrammar SpecForms SpecSpan SpecSet SpecWrap SpecReads SpecRefused TextFacts Edtf Parser CalFacts ReadsFacts RefYears RefExp RefProofs.
Import ListNotations.
Open Scope Z_scope.

Theorem C69_error : forall s, ~ borderline s -> forall x, ParseString s = Err x <-> refused s x.
Proof. exact refused_exactly. Qed.
Print Assumptions C69_error.
Theorem C69_panic : forall s, ~ borderline s -> (ParseString s = Panic <-> crashes s).
Proof. exact panic_exactly. Qed.
Print Assumptions C69_panic.
(** Only strings that begin with Y or y can be borderline. *)
Theorem C69_no_borderline : forall s, (forall c r, s = c :: r -> c <> "Y"%char /\ c <> "y"%char) -> ~ borderline s.
Proof. exact unborder. Qed.
Print Assumptions C69_no_borderline.
(** What is certain at the borderline too. *)
Theorem C69_all_errors : forall s x, ParseString s = Err x -> refused s x.
Proof. exact refused_complete. Qed.
Print Assumptions C69_all_errors.
Theorem C69_refused : forall s x, refused s x -> ParseString s = Err x \/ borderline s /\ ParseString s = Panic.
Proof. exact refused_sound. Qed.
Print Assumptions C69_refused.
Theorem C69_crashes : forall s, crashes s -> ParseString s = Panic.
Proof. exact crashes_panic. Qed.
Print Assumptions C69_crashes.
Theorem C69_all_panics : forall s, ParseString s = Panic -> crashes s \/ borderline s.
Proof. exact panic_complete. Qed.
Print Assumptions C69_all_panics.

Ltac none_in := let H := fresh in intro H; cbn in H; repeat (destruct H as [H|H]; [discriminate H|]); exact H.
(** A date that the calendar does not have. *)
Example C69_days_case : refused ($"2023-02-29") (EText ($"Invalid days for month")).
Proof.
  apply (rf_feature _ 0 ($"Date")); [apply matches_takes; vm_compute; reflexivity|]. apply fx_span; [cbn; tauto|].
  apply sx_date; [none_in|]. apply (dx_days _ 2023 2 29 2023 2 29).
  - refine (dt_ymd ($"2023") ($"2023") 2023 2023 ($"02") ($"02") 2 2 ($"29") ($"29") 29 29 _ _ _ _ _ _);
      [apply mk_none|apply yr_number; exact (year4_pos 2023 ltac:(lia))|apply mk_none|exact (mr_number 2 ltac:(lia))|apply mk_none|exact (dr_number _ _ 29 ltac:(lia))].
  - intros ((_ & H) & _). change (month_len 2023 2) with 28 in H. lia.
Qed.
(** The first half is fine; of the second only the minus sign is taken for the century. *)
Example C69_half_case : refused ($"1985/-190X") (EInt ($"-")).
Proof.
  apply (rf_feature _ 2 ($"Interval")); [apply matches_takes; vm_compute; reflexivity|]. apply fx_span; [cbn; tauto|].
  apply (sx_pair ($"1985") ($"-190X")); [none_in..|]. right. split.
  - do 2 eexists. apply hr_date.
    refine (wd_intro _ _ _ _ _ _ _ (dt_y _ _ _ _ (mk_none _) (yr_number _ _ (year4_pos 1985 ltac:(lia)))) _ _).
    + split; [lia|]. change (month_len 1985 1) with 31. lia.
    + split; [lia|]. change (month_len 1985 12) with 31. lia.
  - apply hx_intro; [discriminate..|]. apply (dx_minus _ ($"190X") None None); [|exists ($"190"); reflexivity].
    apply dp_y; [apply mk_none|]. exists ($"-"), ($"190X"). split; [|split; [|reflexivity]].
    + right. reflexivity.
    + split; [reflexivity|]. repeat (apply Forall_cons; [first [left; reflexivity|right; reflexivity]|]). apply Forall_nil.
Qed.
(** Five digits. *)
Example C69_letter_case : refused ($"Y12345") (EUnsupported ($"Letter-prefixed calendar year") ($"Y12345")).
Proof.
  apply (rf_feature _ 1 ($"Letter-prefixed calendar year")); [apply matches_takes; vm_compute; reflexivity|]. apply fx_letter.
  apply (lx_long [] ($"12345")); [left; reflexivity|split; [discriminate|repeat constructor]|cbn; lia].
Qed.
(** The winter of 9999 ends in a year that time.Parse does not read. *)
Example C69_season_case : refused ($"9999-24") (ETime ($"2006-01-02") ($"10000-03-01")).
Proof.
  apply (rf_feature _ 1 ($"Seasons")); [apply matches_takes; vm_compute; reflexivity|]. apply fx_season.
  refine (nx_code ($"9999") 9999 24 [] 12 2 1 _ (year4_pos 9999 ltac:(lia)) _ (mx_next _ _ _ eq_refl)). exact (sm_season 24 ($"winter") 12 2 1 so_winter).
Qed.
Example C69_set_case : refused ($"[1985..1986..1987]") (EInvalid ($"Set representation") ($"[1985..1986..1987]")).
Proof.
  apply (rf_feature _ 2 ($"Set representation")); [apply matches_takes; vm_compute; reflexivity|]. apply fx_set.
  apply (ox_dots "["%char [$"1985..1986..1987"] ($"1985..1986..1987") "]"%char); [|left; reflexivity| |reflexivity].
  - apply Forall_cons; [none_in|apply Forall_nil].
  - exists ($"1985"), ($"1986"), ($"1987"). split; [split; none_in|split; [split; none_in|reflexivity]].
Qed.
(** No level. *)
Example C69_none_case : refused ($"hello") (EUnrecognized ($"Invalid or unsupported EDTF string") ($"hello")).
Proof.
  apply rf_none; [rewrite <- level0_test|rewrite <- level1_test|rewrite <- level2_test| |]; try discriminate; vm_compute; discriminate.
Qed.
(** More digits than the year has. *)
Example C69_panic_case : crashes ($"1950S5") /\ ~ borderline ($"1950S5").
Proof.
  split.
  - apply (cr_digits ($"1950") 1950 ($"5") 5); [apply yb_year; exact (year4_pos 1950 ltac:(lia))| |change (year_width 1950) with 4; lia].
    exact (dd_one 5 ltac:(lia)).
  - apply C69_no_borderline. intros c r H. injection H as <- _. split; discriminate.
Qed.
