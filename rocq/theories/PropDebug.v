(** C86: the texts of the String methods of common/range.go. *)
From Coq Require Import Ascii String ZArith NArith Bool Lia List.
From Verif Require Import GoStr SpecCal SpecDebug Edtf Common DebugCommon DebugProofs.
Import ListNotations.
Open Scope Z_scope.

(** ** C86 *)
Theorem C86_equals : forall a b, sd_equals a b = true <-> a = b.
Proof. exact sd_equals_spec. Qed.
Print Assumptions C86_equals.
(** The text tells the dates apart as long as no component has an apostrophe ... *)
Theorem C86_date_text : forall a b, plain_sd a -> plain_sd b -> StringDate_String a = StringDate_String b -> a = b.
Proof. exact sd_string_inj. Qed.
Print Assumptions C86_date_text.
Theorem C86_qualifier_text : forall a b, quoteless (q_value a) -> quoteless (q_value b) -> Qualifier_String a = Qualifier_String b -> a = b.
Proof. exact qualifier_string_inj. Qed.
Print Assumptions C86_qualifier_text.
(** ... which the parser never produces. *)
Theorem C86_parsed : forall s r, StringRangeFromYMD s = OK r -> plain_sd (sr_start r) /\ plain_sd (sr_end r).
Proof. exact range_plain. Qed.
Print Assumptions C86_parsed.
Theorem C86_range_text : forall s s' r r', StringRangeFromYMD s = OK r -> StringRangeFromYMD s' = OK r' -> StringRange_String r = StringRange_String r' ->
  sr_start r = sr_start r' /\ sr_end r = sr_end r'.
Proof. exact range_texts. Qed.
Print Assumptions C86_range_text.
Theorem C86_date_text_refuted : exists a b, sd_equals a b = false /\ StringDate_String a = StringDate_String b.
Proof. exists (mkSD ($"1' M: '2") ($"3") ($"4")), (mkSD ($"1") ($"2' M: '3") ($"4")). vm_compute. split; reflexivity. Qed.
Print Assumptions C86_date_text_refuted.
(** The marks and the precision are not part of the text. *)
Theorem C86_range_text_refuted : exists s s' r r', StringRangeFromYMD s = OK r /\ StringRangeFromYMD s' = OK r' /\ StringRange_String r = StringRange_String r' /\ r <> r'.
Proof.
  exists ($"1985"), ($"1985?"). do 2 eexists. split; [vm_compute; reflexivity|]. split; [vm_compute; reflexivity|]. split; [vm_compute; reflexivity|]. discriminate.
Qed.
Print Assumptions C86_range_text_refuted.
Example C86_case : exists r, StringRangeFromYMD ($"156X-02") = OK r /\
  StringRange_String r = $"[[*common.StringRange] Start: '[[*common.StringDate] Y: '1560' M: '02' D: '01']' End: '[[*common.StringDate] Y: '1569' M: '02' D: '28']']" /\
  Qualifier_String (mkQual ($"~") Group) = $"[*common.Qualifier] Value: '~' Type: 'Group'".
Proof. eexists. split; [vm_compute; reflexivity|]. split; vm_compute; reflexivity. Qed.
