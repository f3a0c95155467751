(** The texts meant for people (C59, C60), the test checker (C61) and the matches
    tool (C62). *)
From Coq Require Import Ascii String ZArith NArith Bool Lia ZifyBool List.
From Verif Require Import GoStr GoTime ErrText SpecCal SpecText SpecReads SpecTools SpecMessage Edtf Calendar Common Parser Cmd Debug Support ApiFacts InvProofs SupportProofs TextKinds MatchProofs.
Import ListNotations.
Open Scope Z_scope.

(** ** C59: the text of an error says what kind it is and what string it is about. *)
Theorem C59_kind : forall e e', library_error e -> library_error e' -> error_text e = error_text e' ->
  IsNotSet e = IsNotSet e' /\ IsNotImplemented e = IsNotImplemented e' /\ IsInvalid e = IsInvalid e' /\
  IsUnsupported e = IsUnsupported e' /\ IsUnrecognized e = IsUnrecognized e'.
Proof. exact library_tests. Qed.
Print Assumptions C59_kind.
(** Also among all errors of parsing, of whatever package. *)
Theorem C59_parse_kind : forall s s' e e', ParseString s = Err e -> ParseString s' = Err e' -> error_text e = error_text e' ->
  IsNotSet e = IsNotSet e' /\ IsNotImplemented e = IsNotImplemented e' /\ IsInvalid e = IsInvalid e' /\
  IsUnsupported e = IsUnsupported e' /\ IsUnrecognized e = IsUnrecognized e'.
Proof. exact parse_tests. Qed.
Print Assumptions C59_parse_kind.
Theorem C59_string_refuted : exists l s l' s', s <> s' /\ error_text (Invalid l s) = error_text (Invalid l' s').
Proof. exact text_ambiguous. Qed.
Print Assumptions C59_string_refuted.
(** The labels that parsing uses make the text of its own errors unambiguous. *)
Theorem C59_string_partial : forall s s' e e', ParseString s = Err e -> ParseString s' = Err e' -> library_error e -> error_text e = error_text e' -> e = e'.
Proof. exact (fun s s' e e' H H' => parse_strings s e s' e' H H'). Qed.
Print Assumptions C59_string_partial.
(** Errors of other packages need not name the string. *)
Theorem C59_foreign_refuted : exists s s' e e', ParseString s = Err e /\ ParseString s' = Err e' /\ e <> e' /\ error_text e = error_text e'.
Proof. exact overflow_ambiguous. Qed.
Print Assumptions C59_foreign_refuted.
(** The text of the error for a string that is no date at all quotes it. *)
Theorem C59_unrecognized : forall s, IsValid s = false -> exists e, ParseString s = Err e /\
  error_text e = $"Unrecognized EDTF string '" ++ s ++ $"' (Invalid or unsupported EDTF string)".
Proof. exact text_unrecognized. Qed.
Print Assumptions C59_unrecognized.
Example C59_case : IsValid ($"It's") = false /\
  match ParseString ($"It's") with
  | Err e => error_text e = $"Unrecognized EDTF string 'It's' (Invalid or unsupported EDTF string)" | _ => False end /\
  error_text NotSet = $"Not implemented '' ()".
Proof. vm_compute. repeat split. Qed.
Example C59_parse_case : match ParseString ($"Y12345"), ParseString ($"1985-04-XX/Y1985") with
  | Err e, Err e' => error_text e = $"Unsupported EDTF string 'Y12345' (Letter-prefixed calendar year)" /\ error_text e' <> error_text e
  | _, _ => False end.
Proof. vm_compute. repeat split; discriminate. Qed.

(** ** C60: comparing and printing year, month and day. *)
Theorem C60_equals : forall a b, ymd_equals a b = true <-> a = b.
Proof. exact ymd_equals_spec. Qed.
Print Assumptions C60_equals.
Theorem C60_ymd_text : forall a b, YMD_String a = YMD_String b -> a = b.
Proof. exact ymd_string_inj. Qed.
Print Assumptions C60_ymd_text.
Theorem C60_date_text : forall a b, Date_String a = Date_String b -> d_timestamp a = d_timestamp b /\ d_ymd a = d_ymd b.
Proof. exact date_string_inj. Qed.
Print Assumptions C60_date_text.
Theorem C60_range_text : forall a b, Range_String a = Range_String b ->
  Date_String (r_lower a) = Date_String (r_lower b) /\ Date_String (r_upper a) = Date_String (r_upper b).
Proof. exact range_string_inj. Qed.
Print Assumptions C60_range_text.
Theorem C60_span_text : forall a b, Span_String a = Span_String b ->
  Range_String (s_start a) = Range_String (s_start b) /\ Range_String (s_end a) = Range_String (s_end b).
Proof. exact span_string_inj. Qed.
Print Assumptions C60_span_text.
Example C60_case : ymd_equals (mkYMD 1985 4 12) (mkYMD 1985 4 13) = false /\
  YMD_String (mkYMD (-44) 3 15) = $"[*edtf.YMD] Y: '-44' M: '3' D: '15'" /\
  match ParseString ($"1985-04-12") with
  | OK d => Date_String (r_lower (e_start d)) = $"[[*edtf.Date] Time: '&{482112000}' YMD: '[*edtf.YMD] Y: '1985' M: '4' D: '12'']"
  | _ => False end.
Proof. vm_compute. repeat split. Qed.

(** ** C61: what the checker of the repository's tests accepts. *)
Theorem C61_accepts_partial : forall s d o, ParseString s = OK d ->
  (TestDate o d = OK tt <-> Forall2 meets (bounds d) [o_start_lower o; o_start_upper o; o_end_lower o; o_end_upper o]).
Proof. exact test_date. Qed.
Print Assumptions C61_accepts_partial.
(** Not every expected flag need be set, and a time of 0 is not checked. *)
Theorem C61_flags_refuted : exists s d o, ParseString s = OK d /\ TestDate o d = OK tt /\
  ~ has_flags (x_precision (o_start_lower o)) (d_precision (r_lower (e_start d))).
Proof. exact flags_unchecked. Qed.
Print Assumptions C61_flags_refuted.
Theorem C61_epoch_refuted : exists s d o, ParseString s = OK d /\ TestDate o d = OK tt /\
  x_unix (o_start_lower o) = 0 /\ d_timestamp (r_lower (e_start d)) <> Some 0.
Proof. exact epoch_unchecked. Qed.
Print Assumptions C61_epoch_refuted.
Example C61_case :
  let none := mkExp [] 0 0 0 0 false false 0 in
  match ParseString ($"1985") with
  | OK d => TestDate (mkOptions (mkExp ($"1985-01-01T00:00:00Z") 473385600 0 0 YEAR false false 0) none none none) d = OK tt /\
            TestDate (mkOptions (mkExp ($"1985-01-01T00:00:01Z") 0 0 0 0 false false 0) none none none) d <> OK tt /\
            TestDate (mkOptions none none none (mkExp [] 0 0 0 0 true false 0)) d <> OK tt /\
            TestDate (mkOptions none none none (mkExp [] 0 0 0 MONTH false false 0)) d <> OK tt
  | _ => False end.
Proof. vm_compute. repeat split; discriminate. Qed.

(** ** C62: the matches tool. *)
Theorem C62_errors : forall s e, Matches s = Err e <-> unmatched s e.
Proof. exact unmatched_exactly. Qed.
Print Assumptions C62_errors.
Theorem C62_run : forall args out x, cmd_matches args = (out, x) <-> match_run args out x.
Proof. exact match_runs. Qed.
Print Assumptions C62_run.
Theorem C62_lines : forall args ds, Forall2 (fun a d => ParseString a = OK d /\ a <> $".." /\ a <> []) args ds ->
  cmd_matches args = (concat (map (fun d => match_line (e_edtf d) (e_level d) (e_feature d)) ds), Done).
Proof. exact matches_all. Qed.
Print Assumptions C62_lines.
Theorem C62_stops : forall args ds bad rest, Forall2 (fun a d => ParseString a = OK d /\ a <> $".." /\ a <> []) args ds ->
  IsValid bad = false \/ bad = $".." \/ bad = [] ->
  cmd_matches (args ++ bad :: rest) = (concat (map (fun d => match_line (e_edtf d) (e_level d) (e_feature d)) ds),
    Fatal ($"Failed to parse EDTF string '" ++ bad ++ $"', Unrecognized EDTF string '" ++ bad ++ $"' (Invalid or unsupported EDTF string)")).
Proof. exact matches_stop. Qed.
Print Assumptions C62_stops.
Example C62_case : cmd_matches [$"1985"; $"Y-170000002"; $"x"; $"1986"] =
  ($"1985 level 0 (Date)" ++ [chr 10] ++ $"Y-170000002 level 1 (Letter-prefixed calendar year)" ++ [chr 10],
   Fatal ($"Failed to parse EDTF string 'x', Unrecognized EDTF string 'x' (Invalid or unsupported EDTF string)")).
Proof. vm_compute. reflexivity. Qed.
(** The level 1 test takes a small x, no feature does. *)
Example C62_level1_case : match_run [$"198X"; $"198x"] ($"198X level 1 (Unspecified digit(s) from the right)" ++ [chr 10])
  (Fatal ($"Failed to parse EDTF string '198x', Invalid EDTF string '198x' (Invalid Level 1 string)")).
Proof. apply C62_run. vm_compute. reflexivity. Qed.
