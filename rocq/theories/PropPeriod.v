(** Level 0 dates as periods (C54 to C57), and the length of months (C58). *)
From Coq Require Import Ascii String ZArith NArith Bool Lia ZifyBool List.
From Verif Require Import GoStr GoTime SpecCal SpecText SpecGrammar SpecPeriod Edtf Calendar Common Parser Level0Facts PeriodProofs CalendarProofs.
Import ListNotations.
Open Scope Z_scope.

(** ** C54: consecutive days, months and years leave no gap and do not overlap. *)
Theorem C54_tiling : forall a y m d b y' m' d',
  level0_date a y m d -> exists_date y m d -> next_period y m d = (y', m', d') -> level0_date b y' m' d' ->
  exists A B up lo, ParseString a = OK A /\ ParseString b = OK B /\ Upper A = OK up /\ Lower B = OK lo /\ lo = up + 1.
Proof. exact tiling. Qed.
Print Assumptions C54_tiling.
Example C54_case : level0_date ($"2024-02") 2024 (Some 2) None /\ exists_date 2024 (Some 2) None /\
  next_period 2024 (Some 2) None = (2024, Some 3, None) /\ level0_date ($"2024-03") 2024 (Some 3) None /\
  next_period 1999 (Some 12) (Some 31) = (2000, Some 1, Some 1) /\ next_period (-1) None None = (0, None, None) /\
  match ParseString ($"2024-02"), ParseString ($"2024-03") with
  | OK A, OK B => Upper A = OK 1709251199 /\ Lower B = OK 1709251200 | _, _ => False end.
Proof.
  split; [apply (month_level0 2024 2); lia|]. split; [vm_compute; repeat split; discriminate|]. split; [reflexivity|].
  split; [apply (month_level0 2024 3); lia|]. vm_compute. repeat split.
Qed.

(** ** C55: a finer date lies within the coarser date that it refines. *)
Theorem C55_nesting : forall a y m d b y' m' d',
  level0_date a y m d -> level0_date b y' m' d' -> exists_date y m d -> exists_date y' m' d' -> within y m d y' m' d' ->
  exists A B la ua lb ub, ParseString a = OK A /\ ParseString b = OK B /\ Lower A = OK la /\ Upper A = OK ua /\
    Lower B = OK lb /\ Upper B = OK ub /\ lb <= la /\ la <= ua /\ ua <= ub.
Proof. exact nesting. Qed.
Print Assumptions C55_nesting.
Example C55_case : level0_date ($"-0044-03-15") (-44) (Some 3) (Some 15) /\ level0_date ($"-0044") (-44) None None /\
  exists_date (-44) (Some 3) (Some 15) /\ within (-44) (Some 3) (Some 15) (-44) None None /\
  ~ within (-44) None None (-44) (Some 3) None.
Proof.
  split; [apply (day_level0 (-44) 3 15); lia|]. split; [apply (year_level0 (-44)); lia|]. split; [vm_compute; repeat split; discriminate|].
  unfold within. split; [auto|]. intros (_ & [H|H] & _); discriminate H.
Qed.

(** ** C56: the order of level 0 dates. *)
Theorem C56_order : forall a y m d b y' m' d',
  level0_date a y m d -> level0_date b y' m' d' -> exists_date y m d -> exists_date y' m' d' ->
  exists r, IsBefore a b = OK r /\ IsAfter b a = OK r /\ (r = true <-> all_earlier y m d y' m' d').
Proof. exact before_level0. Qed.
Print Assumptions C56_order.
(** Two dates of which one contains the other are in neither order. *)
Theorem C56_contained : forall a y m d b y' m' d',
  level0_date a y m d -> level0_date b y' m' d' -> exists_date y m d -> exists_date y' m' d' -> within y m d y' m' d' ->
  IsBefore a b = OK false /\ IsAfter a b = OK false.
Proof. exact contained_level0. Qed.
Print Assumptions C56_contained.
Example C56_case : all_earlier 1985 (Some 4) None 1985 (Some 4) (Some 30) = earlier 1985 4 30 1985 4 30 /\
  ~ all_earlier 1985 (Some 4) None 1985 (Some 4) (Some 30) /\ all_earlier 1985 (Some 4) None 1985 (Some 5) (Some 1) /\
  IsBefore ($"1985-04") ($"1985-04-30") = OK false /\ IsBefore ($"1985-04") ($"1985-05-01") = OK true /\
  IsBefore ($"-0010") ($"0010") = OK true /\ IsBefore ($"-0010") ($"-0009-01") = OK true.
Proof.
  split; [reflexivity|]. split; [vm_compute; intuition discriminate|]. split; [right; split; [reflexivity|left; reflexivity]|].
  vm_compute. repeat split.
Qed.

(** ** C57: between. *)
Theorem C57_between : forall s y m d i y' m' d' c y'' m'' d'',
  level0_date s y m d -> level0_date i y' m' d' -> level0_date c y'' m'' d'' ->
  exists_date y m d -> exists_date y' m' d' -> exists_date y'' m'' d'' ->
  exists r, IsBetween s i c = OK r /\ (r = true <-> ~ all_earlier y m d y' m' d' /\ ~ all_earlier y'' m'' d'' y m d).
Proof. exact between_level0. Qed.
Print Assumptions C57_between.
Theorem C57_between_open : forall s y m d i y' m' d',
  level0_date s y m d -> level0_date i y' m' d' -> exists_date y m d -> exists_date y' m' d' ->
  exists r, IsBetween s i ($"..") = OK r /\ (r = true <-> ~ all_earlier y m d y' m' d').
Proof. exact between_level0_open. Qed.
Print Assumptions C57_between_open.
Example C57_case : IsBetween ($"1985-04") ($"1985-04-30") ($"1986") = OK true /\ IsBetween ($"1985-04") ($"1985-05") ($"1986") = OK false /\
  IsBetween ($"1987") ($"1985-05") ($"1986") = OK false /\ IsBetween ($"1987") ($"1985-05") ($"..") = OK true.
Proof. vm_compute. repeat split. Qed.

(** ** C58: the number of days of a month. *)
Theorem C58_days_in_month_refuted : exists y m, ~ 1 <= m <= 12 /\ DaysInMonth y m = OK 31.
Proof. exists 1985, 13. split; [lia|]. vm_compute. reflexivity. Qed.
Print Assumptions C58_days_in_month_refuted.
(** For every year and month an int can hold. *)
Theorem C58_days_in_month_partial : forall y m, min_int64 <= y <= max_int64 -> min_int64 <= m <= max_int64 ->
  (-9999 <= y <= 9999 /\ 0 <= m -> DaysInMonth y m = OK (if (1 <=? m) && (m <=? 12) then month_len y m else 31)) /\
  (~ (-9999 <= y <= 9999 /\ 0 <= m) -> exists e, DaysInMonth y m = Err e).
Proof. exact days_total. Qed.
Print Assumptions C58_days_in_month_partial.
(** For every string. *)
Theorem C58_days_in_month_string_partial : forall s n, DaysInMonthWithString s = OK n <->
  exists a b y m, year_and_month s a b /\ integer_text a y /\ integer_text b m /\
    -9999 <= y <= 9999 /\ 0 <= m <= max_int64 /\ n = if (1 <=? m) && (m <=? 12) then month_len y m else 31.
Proof. exact days_string. Qed.
Print Assumptions C58_days_in_month_string_partial.
Theorem C58_days_in_month_string_total : forall s, DaysInMonthWithString s <> Panic.
Proof. exact days_string_no_panic. Qed.
Print Assumptions C58_days_in_month_string_total.
Example C58_case : DaysInMonthWithString ($"-0004-02") = OK 29 /\ DaysInMonthWithString ($"x-1985-02") = OK 28 /\
  DaysInMonthWithString ($"1985-00") = OK 31 /\ year_and_month ($"-0004-02") ($"-0004") ($"02") /\ month_len (-4) 2 = 29.
Proof.
  split; [vm_compute; reflexivity|]. split; [vm_compute; reflexivity|]. split; [vm_compute; reflexivity|]. split; [|reflexivity].
  apply (yam_minus [] ($"0004") ($"02")); cbn; intuition discriminate.
Qed.
