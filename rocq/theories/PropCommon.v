(** Calendar helpers, timestamps and JSON: C37, C39, C40, C44 and C45. *)
From Coq Require Import Ascii String ZArith NArith Bool Lia ZifyBool List.
From Verif Require Import GoStr GoTime SpecCal SpecText StrFacts Edtf Calendar Common Level0 Level1 Level2 Parser Json CommonProofs JsonProofs TypedProofs.
Import ListNotations.
Open Scope Z_scope.

(** ** C37: the length of a month. *)
Theorem C37_month_length : forall y m, -9999 <= y <= 9999 -> 1 <= m <= 12 ->
  DaysInMonth y m = OK (month_len y m) /\ DaysInMonthWithString (month_text y m) = OK (month_len y m).
Proof. exact month_length. Qed.
Print Assumptions C37_month_length.
Example C37_case : month_text (-4) 2 = $"-0004-02" /\ month_len (-4) 2 = 29 /\ month_len (-100) 2 = 28 /\
  DaysInMonthWithString ($"-0004-02") = OK 29 /\ DaysInMonth (-100) 2 = OK 28.
Proof. vm_compute. repeat split. Qed.

(** ** C39: YMDFromString returns real dates that the string spells. *)
Theorem C39_ymd_from_string : forall s v, YMDFromString s = OK v ->
  (exists a b c, ymd_pieces s a b c /\ ~ In "-"%char b /\ ~ In "-"%char c /\ spells a b c v) /\
  -9999 <= y_year v <= 9999 /\ real_date (y_year v) (y_month v) (y_day v).
Proof. exact ymd_string. Qed.
Print Assumptions C39_ymd_from_string.
Example C39_case : YMDFromString ($"2024-02") = OK (mkYMD 2024 2 29) /\ YMDFromString ($"-0044-03-15") = OK (mkYMD (-44) 3 15) /\
  YMDFromString ($"2023") = OK (mkYMD 2023 1 31).
Proof. vm_compute. repeat split. Qed.

(** ** C40: YMDFromStrings. *)
(** A day text without a minus sign gives a real date; a negative day is
    returned as it is. *)
Theorem C40_ymd_from_strings_partial : forall a b c v, YMDFromStrings a b c = OK v -> ~ In "-"%char c ->
  spells a b c v /\ -9999 <= y_year v <= 9999 /\ real_date (y_year v) (y_month v) (y_day v).
Proof. exact ymd_strings_partial. Qed.
Print Assumptions C40_ymd_from_strings_partial.
Theorem C40_any_day_partial : forall a b c v, YMDFromStrings a b c = OK v ->
  spells a b c v /\ -9999 <= y_year v <= 9999 /\ 1 <= y_month v <= 12 /\
  (1 <= y_day v \/ y_day v < 0 /\ exists r, c = "-"%char :: r) /\ y_day v <= month_len (y_year v) (y_month v).
Proof. exact ymd_strings_all. Qed.
Print Assumptions C40_any_day_partial.
Theorem C40_ymd_from_strings_refuted : exists a b c v, YMDFromStrings a b c = OK v /\ ~ real_date (y_year v) (y_month v) (y_day v).
Proof. exists ($"1985"), ($"04"), ($"-5"). exact ymd_strings_refuted. Qed.
Print Assumptions C40_ymd_from_strings_refuted.
Example C40_case : YMDFromStrings ($"2023") ($"2") ($"") = OK (mkYMD 2023 2 28) /\ ~ In "-"%char ($"") /\
  YMDFromStrings ($"1985") ($"04") ($"-5") = OK (mkYMD 1985 4 (-5)).
Proof. vm_compute. repeat split. intros []. Qed.

(** ** C44: timestamps in JSON. *)
Theorem C44_timestamp_roundtrip : forall ts, min_int64 <= ts <= max_int64 ->
  canonical_text (ts_marshal ts) ts /\ ts_unmarshal (ts_marshal ts) = OK ts /\
  ts_unmarshal ($"""" ++ ts_marshal ts ++ $"""") = OK ts.
Proof. exact timestamp_roundtrip. Qed.
Print Assumptions C44_timestamp_roundtrip.
Theorem C44_timestamp_decode : forall b z, ts_unmarshal b = OK z <->
  exists n k t, b = quotes n ++ t ++ quotes k /\ integer_text t z /\ min_int64 <= z <= max_int64.
Proof. exact timestamp_decode. Qed.
Print Assumptions C44_timestamp_decode.
Theorem C44_timestamp_error : forall b,
  (forall n k t z, b = quotes n ++ t ++ quotes k -> integer_text t z -> ~ min_int64 <= z <= max_int64) ->
  exists err, ts_unmarshal b = Err err.
Proof. exact timestamp_error. Qed.
Print Assumptions C44_timestamp_error.
Example C44_case : ts_marshal min_int64 = $"-9223372036854775808" /\ ts_unmarshal ($"""-9223372036854775808""") = OK min_int64 /\
  (exists err, ts_unmarshal ($"9223372036854775808") = Err err) /\ (exists err, ts_unmarshal ($"1.5") = Err err).
Proof. vm_compute. repeat split; eexists; reflexivity. Qed.

(** ** C45: dates in JSON (trees; the text layer is described in DESIGN.md). *)
Theorem C45_parsed_date_roundtrip : forall s d, ParseString s = OK d -> dec_edtf (enc_edtf d) = OK d.
Proof. exact parsed_roundtrip. Qed.
Print Assumptions C45_parsed_date_roundtrip.
(** And for every other date that the Go types can hold. *)
Theorem C45_typed_date_roundtrip : forall d, typed d -> dec_edtf (enc_edtf d) = OK d.
Proof. exact json_roundtrip. Qed.
Print Assumptions C45_typed_date_roundtrip.
Example C45_case : match ParseString ($"1970-01-01/..") with
  | OK d => enc_edtf d <> JNull /\ d_timestamp (r_lower (e_start d)) = Some 0 /\ dec_edtf (enc_edtf d) = OK d
  | _ => False end.
Proof. vm_compute. repeat split. discriminate. Qed.
