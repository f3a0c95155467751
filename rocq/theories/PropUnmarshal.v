(** C76: json.Unmarshal of any text into a date, and the methods on what it leaves. *)
From Coq Require Import Ascii String ZArith NArith Bool Lia List.
From Verif Require Import GoStr GoTime SpecCal SpecText SpecJson SpecJsonText Edtf Json JsonText Parser JsonDoc Unmarshal SpecUnmarshal DocProofs UnmarshalProofs RoundProofs InvProofs PointerProofs AsciiProofs.
Import ListNotations.
Open Scope Z_scope.

(** ** C76: a text is read exactly if it is JSON, nested no deeper than 10000, and every
    member with the name of a field, in any letter case, has a value for that field. *)
Theorem C76_exact : forall t o, Unmarshal t = OK o <-> date_text t o.
Proof. exact unmarshal_exact. Qed.
Print Assumptions C76_exact.
Theorem C76_error : forall t, (exists e, Unmarshal t = Err e) <-> forall o, ~ date_text t o.
Proof. exact unmarshal_error. Qed.
Print Assumptions C76_error.
Theorem C76_no_panic : forall t, Unmarshal t <> Panic.
Proof. exact unmarshal_safe. Qed.
Print Assumptions C76_no_panic.
(** The reader below it, and the text that a string stands for. *)
Theorem C76_reader : forall v t, read_doc t = Some v <-> doc_text v t /\ nested (Z.to_nat 10000) v.
Proof. exact read_doc_exact. Qed.
Print Assumptions C76_reader.
Theorem C76_one_tree : forall v v' t, doc_text v t -> doc_text v' t -> v = v'.
Proof. exact doc_once. Qed.
Print Assumptions C76_one_tree.
Theorem C76_repair : forall s f, repaired s f <-> utf8_fix s = f.
Proof. exact repaired_iff. Qed.
Print Assumptions C76_repair.

(** ** Writing and reading back *)
(** Any date the Go types can hold, with any bytes and any nil pointers: it comes back
    with its strings repaired. *)
Theorem C76_roundtrip : forall o o', held o -> both repaired_edtf o o' -> Unmarshal (Marshal o) = OK o'.
Proof. exact marshal_round. Qed.
Print Assumptions C76_roundtrip.
(** What has once been read is not changed by writing and reading. *)
Theorem C76_stable : forall t o, Unmarshal t = OK o -> Unmarshal (Marshal o) = OK o.
Proof. exact unmarshal_marshal. Qed.
Print Assumptions C76_stable.
(** Parsed dates: all their strings but the parsed one are ASCII, so the text is the one
    of C45, and the date comes back with all its pointers set. *)
Theorem C76_ascii : forall s d, ParseString s = OK d ->
  ascii_text (r_edtf (e_start d)) /\ ascii_text (r_edtf (e_end d)) /\ ascii_text (e_feature d) /\ forall b, In b (bounds d) -> ascii_text (d_datetime b).
Proof. exact parsed_ascii. Qed.
Print Assumptions C76_ascii.
Theorem C76_same_text : forall s d, ParseString s = OK d -> Marshal (Some (of_edtf d)) = marshal_edtf d.
Proof. exact same_text. Qed.
Print Assumptions C76_same_text.
Theorem C76_parsed : forall s d, ParseString s = OK d -> Unmarshal (marshal_edtf d) = OK (Some (of_edtf d)).
Proof. exact parsed_read. Qed.
Print Assumptions C76_parsed.

(** ** Methods *)
Theorem C76_lower : forall o r, PLower o = r <-> bound_result (begins o) r.
Proof. exact lower_exact. Qed.
Print Assumptions C76_lower.
Theorem C76_upper : forall o r, PUpper o = r <-> bound_result (ends o) r.
Proof. exact upper_exact. Qed.
Print Assumptions C76_upper.
Theorem C76_after : forall d u r, PAfter d u = r <-> after_result d u r.
Proof. exact after_exact. Qed.
Print Assumptions C76_after.
Theorem C76_before : forall d u r, PBefore d u = r <-> before_result d u r.
Proof. exact before_exact. Qed.
Print Assumptions C76_before.
(** On parsed dates that were written and read back they answer as before. *)
Theorem C76_methods : forall s d t u, ParseString s = OK d -> ParseString t = OK u ->
  exists x y, Unmarshal (marshal_edtf d) = OK x /\ Unmarshal (marshal_edtf u) = OK y /\
    PLower x = Lower d /\ PUpper x = Upper d /\ PString x = OK (edtf_string d) /\ PAfter x y = After d u /\ PBefore x y = Before d u.
Proof. exact parsed_methods. Qed.
Print Assumptions C76_methods.
(** Not so on every date that is read without an error: a pointer may be nil, and the
    comparison overflows. *)
Theorem C76_panic_case : exists t o, Unmarshal t = OK o /\ o <> None /\ PLower o = Panic /\ PUpper o = Panic /\ PAfter o o = Panic /\ PBefore o o = Panic.
Proof. exists ($"{}"), (Some (mkPEDTF None None [] 0 [])). vm_compute. repeat split. discriminate. Qed.
Print Assumptions C76_panic_case.
Theorem C76_overflow_case : exists t u o p x y, Unmarshal t = OK o /\ Unmarshal u = OK p /\ ends o (Some x) /\ begins p (Some y) /\ x < y /\ PBefore o p = OK false.
Proof.
  exists ($"{""end"":{""upper"":{""timestamp"":0}}}"), ($"{""start"":{""lower"":{""timestamp"":9223372036854775807}}}").
  eexists. eexists. exists 0, 9223372036854775807.
  split; [vm_compute; reflexivity|]. split; [vm_compute; reflexivity|].
  split; [do 3 eexists; repeat split|]. split; [do 3 eexists; repeat split|]. split; [lia|]. vm_compute. reflexivity.
Qed.
Print Assumptions C76_overflow_case.

(** Names in another letter case (the last of them has the long s), a member given twice,
    unknown members, and white space. *)
Example C76_case : Unmarshal ($" { ""START"" : { ""lower"": {""datetime"":""a"",""year"":1}, ""Upper"":null }, ""start"": {""lower"":{""time" ++ chr 197 :: chr 191 :: $"tamp"":""5""}},
  ""level"": -0, ""x"":[1e5, {}] }") =
  OK (Some (mkPEDTF (Some (mkPRange [] (Some (mkDate ($"a") (Some 5) None 0 0 0 0 false false 0)) None)) None [] 0 [])).
Proof. vm_compute. reflexivity. Qed.
(** null takes a pointer away again but leaves a number as it is; the timestamp may be
    in quotes, but not escaped; a number for a flag set has no sign. *)
Example C76_case_values :
  Unmarshal ($"{""start"":{},""start"":null,""level"":2,""level"":null}") = OK (Some (mkPEDTF None None [] 2 [])) /\
  Unmarshal ($"null") = OK None /\
  (exists e, Unmarshal ($"{""start"":{""lower"":{""timestamp"":""\u0035""}}}") = Err e) /\
  (exists e, Unmarshal ($"{""start"":{""lower"":{""precision"":-1}}}") = Err e) /\
  (exists e, Unmarshal ($"{""level"":1.0}") = Err e) /\ (exists e, Unmarshal ($"[]") = Err e) /\ (exists e, Unmarshal ($"{} {}") = Err e).
Proof. vm_compute. repeat split; eexists; reflexivity. Qed.
(** Bytes that are no UTF-8 come back as U+FFFD. *)
Example C76_case_repair : let o := Some (mkPEDTF None None (chr 255 :: $"<") 1 []) in let o' := Some (mkPEDTF None None (chr 239 :: chr 191 :: chr 189 :: $"<") 1 []) in
  held o /\ both repaired_edtf o o' /\ Marshal o = $"{""start"":null,""end"":null,""edtf"":""\ufffd\u003c"",""level"":1,""feature"":""""}" /\ Unmarshal (Marshal o) = OK o'.
Proof.
  cbv zeta. split; [|split; [|split; vm_compute; reflexivity]].
  - intros d E. injection E as <-. split; [unfold int64; cbn [pe_level]; lia|]. split; intros r E; discriminate E.
  - constructor. apply (re_intro (mkPEDTF None None (chr 255 :: $"<") 1 [])); [apply bt_nil|apply bt_nil|apply repaired_iff; vm_compute; reflexivity|apply repaired_iff; vm_compute; reflexivity].
Qed.
Example C76_case_methods : exists o p, Unmarshal ($"{""end"":{""upper"":{""timestamp"":7}}}") = OK o /\ Unmarshal ($"{""edtf"":""x"",""start"":{""lower"":{""timestamp"":7}}}") = OK p /\
  before_result o p (OK true) /\ after_result p o (OK true) /\ before_result p o Panic /\ after_result (Some (mkPEDTF None None ($"open") 0 [])) None (OK false).
Proof.
  eexists. eexists. split; [vm_compute; reflexivity|]. split; [vm_compute; reflexivity|].
  rewrite <- !C76_before, <- !C76_after. vm_compute. repeat split.
Qed.
