(** The texts of errors (C73). *)
From Coq Require Import Ascii String ZArith NArith Bool Lia ZifyBool List.
From Verif Require Import GoStr ErrText SpecCal SpecText SpecZone SpecGrammar SpecForms SpecReads SpecRefused SpecMessage Edtf Parser RefProofs MessageProofs CompareProofs.
Import ListNotations.
Open Scope Z_scope.

(** ** C73: every error has exactly the text that its kind and string give. *)
Theorem C73_parse : forall s e, ParseString s = Err e -> forall w, error_text e = w <-> err_says e w.
Proof. exact parse_wording. Qed.
Print Assumptions C73_parse.
(** The text from the string alone; [borderline] as in C69. *)
Theorem C73_string : forall s, ~ borderline s -> forall w,
  (exists e, ParseString s = Err e /\ error_text e = w) <-> (exists e, refused s e /\ err_says e w).
Proof. exact string_wording. Qed.
Print Assumptions C73_string.
Theorem C73_compare : forall s t e, IsAfter s t = Err e \/ IsBefore s t = Err e -> forall w, error_text e = w <-> err_says e w.
Proof. exact compare_wording. Qed.
Print Assumptions C73_compare.
Theorem C73_between : forall d i c e, IsBetween d i c = Err e -> forall w, error_text e = w <-> err_says e w.
Proof. exact between_wording. Qed.
Print Assumptions C73_between.
Theorem C73_ranges : forall s e, DeriveRanges s = Err e -> forall w, error_text e = w <-> err_says e w.
Proof. exact ranges_wording. Qed.
Print Assumptions C73_ranges.

Definition parse_text (s : str) : str := match ParseString s with Err e => error_text e | _ => [] end.
Example C73_texts :
  parse_text ($"1985-04-12T24:00:00Z") = $"parsing time " ++ in_quotes ($"1985-04-12T24:00:00Z") ++ $": hour out of range" /\
  parse_text ($"1985-04-12T23:20:30+25:61") = $"parsing time " ++ in_quotes ($"1985-04-12T23:20:30+25:61") ++ $": time zone offset minute out of range" /\
  parse_text ($"1985-02-30T23:20:30-25") = $"parsing time " ++ in_quotes ($"1985-02-30T23:20:30-25") ++ $": time zone offset hour out of range" /\
  parse_text ($"1985-02-30T23:20:30") = $"parsing time " ++ in_quotes ($"1985-02-30T23:20:30") ++ $": day out of range" /\
  parse_text ($"-1985-04T23:20:30Z") = $"parsing time " ++ in_quotes ($"-1985-04T23:20:30Z") ++ $" as " ++ in_quotes ($"-2006-01-02T15:04:05Z") ++
    $": cannot parse " ++ in_quotes ($"T23:20:30Z") ++ $" as " ++ in_quotes ($"-") /\
  parse_text ($"9999-24") = $"parsing time " ++ in_quotes ($"10000-03-01") ++ $" as " ++ in_quotes ($"2006-01-02") ++
    $": cannot parse " ++ in_quotes ($"0-03-01") ++ $" as " ++ in_quotes ($"-") /\
  parse_text ($"1985/-190X") = $"strconv.ParseInt: parsing " ++ in_quotes ($"-") ++ $": invalid syntax" /\
  parse_text ($"1985/19X0") = $"strconv.Atoi: parsing " ++ in_quotes ($"19X0") ++ $": invalid syntax" /\
  parse_text ($"Y1E9223372036854775808") = $"strconv.ParseInt: parsing " ++ in_quotes ($"9223372036854775808") ++ $": value out of range" /\
  parse_text ($"Y1E9223372036854775807") = $"exponent overflow" /\
  parse_text ($"Y12345") = $"Unsupported EDTF string 'Y12345' (Letter-prefixed calendar year)".
Proof. vm_compute. repeat split. Qed.
Example C73_stamp_case : err_says (ETime ($"2006-01-02T15:04:05Z") ($"1985-02-30T23:20:30Z"))
  ($"parsing time " ++ in_quotes ($"1985-02-30T23:20:30Z") ++ $": day out of range").
Proof.
  apply em_stamp. apply (st_range _ ($"1985-02-30") 1985 2 30 23 20 30 ($"Z") ($"day")); [|lia..|].
  - exact (level0 _ _ _ _ _ (year4_pos 1985 ltac:(lia)) (mmdd_md 2 30 ltac:(lia) ltac:(lia))).
  - apply re_day; [lia..| |].
    + intros w H. inversion H as [c h [E|E] _|c h m [E|E] _ _|c h m [E|E] _ _]; subst; discriminate.
    + intros (_ & H). change (month_len 1985 2) with 28 in H. lia.
Qed.
Definition message {A} (x : res A) : str := match x with Err e => error_text e | _ => [] end.
Example C73_compare_texts :
  message (IsBetween ($"1985") ($"1985-13") ($"1990")) =
    $"Failed to determine if date is before inception date, Failed to parse '1985-13', Invalid EDTF string '1985-13' (date)" /\
  message (IsBetween ($"1985") ($"1984") ($"1990/")) =
    $"Failed to determine if date is after cessation date, Failed to derive upper time for inception date (1990/), Not implemented '' ()" /\
  message (IsBefore ($"1985") ($"/1984")) = $"Failed to derive lower time for inception date (/1984), Not implemented '' ()" /\
  message (DeriveRanges ($"1985-04-31")) = $"Failed to parse '1985-04-31', Invalid days for month".
Proof. vm_compute. repeat split. Qed.
