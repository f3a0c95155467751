(** JSON texts: C45 and C52 down to the bytes, and C53. *)
From Coq Require Import Ascii String ZArith NArith Bool Lia ZifyBool List.
From Verif Require Import GoStr GoTime SpecText SpecJson SpecHtml Edtf Common Parser Json JsonText Cmd JsonProofs JsonTextProofs Utf8Proofs JsonHtml SpecJsonText JsonReadProofs.
Import ListNotations.
Open Scope Z_scope.

(** ** C45: the JSON text of a date is JSON, and reading it gives the date back. *)
Theorem C45_text_roundtrip : forall s d, ParseString s = OK d -> unmarshal_edtf (marshal_edtf d) = OK d.
Proof. exact parsed_text_roundtrip. Qed.
Print Assumptions C45_text_roundtrip.
Theorem C45_typed_text_roundtrip : forall d, typed d -> unmarshal_edtf (marshal_edtf d) = OK d.
Proof. exact text_roundtrip. Qed.
Print Assumptions C45_typed_text_roundtrip.
Theorem C45_text_is_json : forall d, compact (enc_edtf d) (marshal_edtf d).
Proof. exact marshal_compact. Qed.
Print Assumptions C45_text_is_json.
(** Any date, whatever strings it holds, and the whole output of the parse tool. *)
Theorem C45_html : forall d, html_safe (marshal_edtf d).
Proof. exact marshal_safe. Qed.
Print Assumptions C45_html.
Example C45_html_case : match ParseString ($"1985") with
  | OK d => has_suffix (marshal_edtf (mkEDTF (e_start d) (e_end d) ($"<&>") 0 ($"Date")))
              ($"""edtf"":""\u003c\u0026\u003e"",""level"":0,""feature"":""Date""}") = true
  | _ => False end.
Proof. vm_compute. reflexivity. Qed.
(** The reader accepts every compact text. *)
Theorem C45_reader : forall v t, compact v t -> read_json t = Some v.
Proof. exact read_compact. Qed.
Print Assumptions C45_reader.
(** It reads exactly the texts of RFC 8259, with white space and all escapes, and each
    of them as one tree. *)
Theorem C45_reader_exact : forall v t, read_json t = Some v <-> json_text v t.
Proof. exact reads_exactly. Qed.
Print Assumptions C45_reader_exact.
Theorem C45_one_tree : forall v v' t, json_text v t -> json_text v' t -> v = v'.
Proof. exact text_once. Qed.
Print Assumptions C45_one_tree.
(** A number with all its parts; U+20AC, a pair for U+1F600, and half of a pair. *)
Example C45_exact_case :
  json_text (JArr [JNum ($"-1.50E+3"); JStr ([chr 226; chr 130; chr 172] ++ [chr 240; chr 159; chr 152; chr 128] ++ [chr 239; chr 191; chr 189] ++ $"x")])
    ($" [ -1.50E+3 ,""\u20aC\uD83d\uDe00\uD83dx""] ") /\
  (forall v, ~ json_text v ($"1.")) /\ (forall v, ~ json_text v ($"[,1]")).
Proof.
  split; [apply reads_exactly; vm_compute; reflexivity|]. split; intros v H; apply reads_exactly in H; vm_compute in H; discriminate.
Qed.
(** The strings that parse are valid UTF-8, so Go's replacement of invalid bytes does
    not come into play. *)
Theorem C45_utf8 : forall s d, ParseString s = OK d -> latin_text s.
Proof. exact parsed_latin. Qed.
Print Assumptions C45_utf8.
Example C45_text_case :
  match ParseString ($"SPRING, " ++ $"1999") with
  | OK d => has_prefix (marshal_edtf d) ($"{""start"":{""edtf"":""1999-03-01"",""lower"":{""datetime"":""1999-03-01T00:00:00Z"",""timestamp"":920246400,")
            = true /\ unmarshal_edtf (marshal_edtf d) = OK d /\ unmarshal_edtf ($" " ++ marshal_edtf d ++ [chr 10]) = OK d
  | _ => False end.
Proof. vm_compute. repeat split. Qed.
(** A line feed in the input is escaped, and the long s survives. *)
Example C45_escape_case :
  match ParseString ([chr 197; chr 191] ++ $"ummer," ++ [chr 10] ++ $"1999") with
  | OK d => unmarshal_edtf (marshal_edtf d) = OK d /\ e_edtf d = [chr 197; chr 191] ++ $"ummer," ++ [chr 10] ++ $"1999" /\
            read_json ($"""" ++ [chr 197; chr 191] ++ $"ummer,\n1999""") = Some (JStr (e_edtf d))
  | _ => False end.
Proof. vm_compute. repeat split. Qed.
Example C45_reader_rejects : read_json ($"{""a"":1,}") = None /\ read_json ($"01") = None /\ read_json ($"[1 2]") = None /\
  read_json ($"""\x""") = None /\ read_json ([chr 34; chr 10; chr 34]) = None /\ read_json ($"{} {}") = None.
Proof. vm_compute. repeat split. Qed.

(** ** C52: the output of the parse tool is one JSON array holding the dates. *)
Theorem C52_output_is_json : forall args ds, Forall2 (fun a d => ParseString a = OK d) args ds ->
  exists text, cmd_parse args = (text, Done) /\ compact (JArr (map enc_edtf ds)) text /\
    read_json text = Some (JArr (map enc_edtf ds)) /\ Forall (fun d => dec_edtf (enc_edtf d) = OK d) ds.
Proof. exact tool_output. Qed.
Print Assumptions C52_output_is_json.
Theorem C52_html : forall args ds, Forall2 (fun a d => ParseString a = OK d) args ds -> html_safe (fst (cmd_parse args)).
Proof. exact tool_safe. Qed.
Print Assumptions C52_html.
Example C52_output_case :
  match ParseString ($"1985"), read_json (fst (cmd_parse [$"1985"; $".."])) with
  | OK d, Some (JArr [a; b]) => a = enc_edtf d /\ has_member ($"feature") (JStr ($"Open")) b
  | _, _ => False end.
Proof.
  vm_compute. split; [reflexivity|]. constructor; [cbn [In]; auto 6|].
  intros v' H. cbn [In] in H. repeat (destruct H as [H|H]; [injection H; intros; (discriminate || (subst; reflexivity))|]). destruct H.
Qed.

(** ** C53: the members of the JSON object. *)
Theorem C53_members : forall d, edtf_json d (enc_edtf d).
Proof. exact edtf_fields. Qed.
Print Assumptions C53_members.
Example C53_case : match ParseString ($"1970-01-01/..") with
  | OK d => exists r b, has_member ($"start") r (enc_edtf d) /\ has_member ($"lower") b r /\ has_member ($"timestamp") (JNum ($"0")) b
  | _ => False end.
Proof.
  vm_compute. do 2 eexists. repeat split.
  all: try (cbn [In]; eauto 6; fail).
  all: intros v' H; cbn [In] in H; repeat (destruct H as [H|H]; [injection H; intros; (discriminate || (subst; reflexivity))|]); destruct H.
Qed.
