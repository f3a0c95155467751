(** The helper functions of the packages common and calendar, called directly (C75). *)
From Coq Require Import Ascii String ZArith NArith Bool List.
From Verif Require Import GoStr GoTime SpecCal SpecText SpecForms SpecReads SpecWhole SpecRefused SpecHelpers Edtf Calendar Common HelperProofs RangeProofs NotationProofs.
Import ListNotations.
Open Scope Z_scope.

(** ** C75: every answer and every error of the helpers. *)
Theorem C75_days_in_month : forall y m x, min_int64 <= y <= max_int64 -> min_int64 <= m <= max_int64 -> DaysInMonth y m = Err x <-> days_refused y m x.
Proof. exact days_errors. Qed.
Print Assumptions C75_days_in_month.
Theorem C75_days_in_month_string : forall s x, DaysInMonthWithString s = Err x <-> days_text_refused s x.
Proof. exact days_text_errors. Qed.
Print Assumptions C75_days_in_month_string.
Theorem C75_strings : forall a b c,
  (forall v, YMDFromStrings a b c = OK v <-> ymd_gives a b c v) /\ (forall x, YMDFromStrings a b c = Err x <-> ymd_refused a b c x) /\ YMDFromStrings a b c <> Panic.
Proof. exact (fun a b c => conj (ymd_values a b c) (conj (ymd_errors a b c) (ymd_no_panic a b c))). Qed.
Print Assumptions C75_strings.
Theorem C75_string_date : forall d,
  (forall v, YMDFromStringDate d = OK v <-> ymd_gives (sd_year d) (sd_month d) (sd_day d) v) /\
  (forall x, YMDFromStringDate d = Err x <-> ymd_refused (sd_year d) (sd_month d) (sd_day d) x) /\ YMDFromStringDate d <> Panic.
Proof. exact (fun d => C75_strings (sd_year d) (sd_month d) (sd_day d)). Qed.
Print Assumptions C75_string_date.
Theorem C75_string : forall s,
  (forall v, YMDFromString s = OK v <-> exists a b c, three_pieces s a b c /\ ymd_gives a b c v) /\
  (forall x, YMDFromString s = Err x <-> ymd_text_refused s x) /\ YMDFromString s <> Panic.
Proof. exact (fun s => conj (ymd_text_values s) (conj (ymd_text_errors s) (ymd_text_no_panic s))). Qed.
Print Assumptions C75_string.
Theorem C75_time : forall v hms, min_int64 <= y_year v <= max_int64 ->
  (forall t, TimeWithYMD v hms = OK t <-> time_gives v hms t) /\ (forall x, TimeWithYMD v hms = Err x <-> time_refused v hms x) /\ TimeWithYMD v hms <> Panic.
Proof. exact (fun v hms H => conj (fun t => time_values v hms t H) (conj (fun x => time_errors v hms x H) (time_no_panic v hms))). Qed.
Print Assumptions C75_time.
Theorem C75_time_strings : forall a b c hms,
  (forall t, TimeWithYMDString a b c hms = OK t <-> times_gives a b c hms t) /\
  (forall x, TimeWithYMDString a b c hms = Err x <-> times_refused a b c hms x) /\ TimeWithYMDString a b c hms <> Panic.
Proof. exact (fun a b c hms => conj (times_values a b c hms) (conj (times_errors a b c hms) (times_no_panic a b c hms))). Qed.
Print Assumptions C75_time_strings.
Theorem C75_string_range : forall s,
  (forall r, StringRangeFromYMD s = OK r <-> range_gives s r) /\ (forall x, StringRangeFromYMD s = Err x <-> range_refused s x) /\ StringRangeFromYMD s <> Panic.
Proof. exact (fun s => conj (range_values s) (conj (range_errors s) (range_no_panic s))). Qed.
Print Assumptions C75_string_range.
(** Only for texts of the form -?\d+[Ee]\d+, and not for those next to the largest
    number that math/big can hold. *)
Theorem C75_notation_partial : forall t m e, exp_text t m e -> ~ borderline_notation t ->
  (forall y, ParseExponentialNotation t = OK y <-> notation_gives t y /\ Z.abs y <= 9999) /\
  (forall x, ParseExponentialNotation t = Err x <-> notation_refused t x) /\ (ParseExponentialNotation t = Panic <-> notation_crashes t).
Proof. exact (fun t m e H N => conj (fun y => notation_values t m e y H N) (conj (fun x => notation_errors t m e x H N) (notation_panics t m e H N))). Qed.
Print Assumptions C75_notation_partial.

(** What comes before three dashes is dropped, a negative day is kept, zero is the
    last day; the smallest int passes the test for the year. *)
Example C75_case_days : YMDFromString ($"x-1985-04-12") = OK (mkYMD (-1985) 4 12) /\ YMDFromStrings ($"1985") ($"4") ($"-5") = OK (mkYMD 1985 4 (-5)) /\
  YMDFromStrings ($"1984") ($"02") ($"00") = OK (mkYMD 1984 2 29) /\ YMDFromStrings ($"1985") ($"0") ($"") = OK (mkYMD 1985 1 31) /\
  YMDFromStrings ($"10000") ($"") ($"") = Err (EUnsupported ($"year") ($"10000")) /\
  YMDFromStrings ($"-9223372036854775808") ($"") ($"") = Err (ETime ($"2006-01-02") ($"-9223372036854775808-02-01")).
Proof. vm_compute. repeat split. Qed.
Example C75_case_times : TimeWithYMD (mkYMD 1985 4 12) ($"7:04:05.5") = TimeWithYMD (mkYMD 1985 4 12) ($"07:04:05") /\
  TimeWithYMD (mkYMD 1985 4 12) ($"07:04:05") = OK (instant 1985 4 12 7 4 5) /\
  TimeWithYMD (mkYMD 1985 2 30) ($"07:04:05") = Err (ETime ($"2006-01-02T15:04:05") ($"1985-02-30T07:04:05")).
Proof. vm_compute. repeat split. Qed.
Example C75_case_ranges : StringRangeFromYMD ($"1985-X1-05") = OK (mkSR (mkSD ($"1985") ($"X1") ($"05")) (mkSD ($"1985") ($"X1") ($"05")) 64%N 0%N 0%N) /\
  StringRangeFromYMD ($"1985-X1-3X") = Err (ENum ($"X1")) /\ StringRangeFromYMD ($"?00XX-02") = OK (mkSR (mkSD ($"0") ($"02") ($"01")) (mkSD ($"99") ($"02") ($"28")) 256%N 64%N 0%N).
Proof. vm_compute. repeat split. Qed.
Example C75_case_notation : ParseExponentialNotation ($"17e2") = OK 1700 /\ ParseExponentialNotation ($"17e3") = Err (EUnsupported ($"exponential notation") ($"17e3")).
Proof. vm_compute. repeat split. Qed.
