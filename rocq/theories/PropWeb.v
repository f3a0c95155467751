(** The web page (C89). *)
From Coq Require Import Ascii String ZArith NArith Bool Lia ZifyBool List.
From Verif Require Import GoStr SpecText SpecJsonText SpecMessage SpecWeb Edtf Parser Json JsonText Web WebProofs.
Import ListNotations.
Open Scope Z_scope.

(** ** C89: what the page shows.  Missing: the reason of a rejection, which is not shown
    but only the length of a message; and anything after a panic (C04). *)
Theorem C89_result : forall typed raw d, unbroken typed raw -> ParseString raw = OK d ->
  exists p, click true typed = (Result p, true) /\ page_text (enc_edtf d) p /\ json_text (enc_edtf d) p /\ unmarshal_edtf p = OK d.
Proof. exact click_result. Qed.
Print Assumptions C89_result.
Example C89_result_case : exists d, ParseString ($"..") = OK d /\ unbroken ($"." ++ [chr 13; chr 10] ++ $".") ($"..") /\
  exists p, text_of [$"{"; $"  ""start"": {"; $"    ""edtf"": """","; $"    ""lower"": {"; $"      ""ymd"": null,"; $"      ""open"": true"; $"    },";
             $"    ""upper"": {"; $"      ""ymd"": null,"; $"      ""open"": true"; $"    }"; $"  },";
             $"  ""end"": {"; $"    ""edtf"": """","; $"    ""lower"": {"; $"      ""ymd"": null,"; $"      ""open"": true"; $"    },";
             $"    ""upper"": {"; $"      ""ymd"": null,"; $"      ""open"": true"; $"    }"; $"  },";
             $"  ""edtf"": "".."","; $"  ""level"": -1,"; $"  ""feature"": ""Open"""; $"}"] p /\
    click true ($"." ++ [chr 13; chr 10] ++ $".") = (Result p, true).
Proof.
  eexists. split; [vm_compute; reflexivity|]. split; [apply field_spec; reflexivity|]. eexists. split; [repeat (apply to_one || eapply to_more)|vm_compute; reflexivity].
Qed.
Theorem C89_message_partial : forall typed raw e, unbroken typed raw -> ParseString raw = Err e ->
  exists w n, err_says e w /\ canonical_text n (Z.of_nat (length ($"Failed to parse '" ++ raw ++ $"', " ++ w ++ [chr 10]))) /\
    click true typed = (Message ($"There was a problem parsing your EDTF string:" ++ n), true).
Proof. exact click_message. Qed.
Print Assumptions C89_message_partial.
Example C89_message_case : (exists e, ParseString ($"1985-13") = Err e) /\
  click true ($"1985-13") = (Message ($"There was a problem parsing your EDTF string:64"), true).
Proof. split; [eexists|]; vm_compute; reflexivity. Qed.
Theorem C89_exactly : forall typed raw s r, unbroken typed raw -> click true typed = (s, r) ->
  ((exists p, s = Result p) <-> exists d, ParseString raw = OK d) /\ ((exists m, s = Message m) <-> exists e, ParseString raw = Err e) /\
  (s = Nothing <-> ParseString raw = Panic) /\ (r = false <-> ParseString raw = Panic) /\ s <> Unreadable /\ s <> Other.
Proof. exact click_exactly. Qed.
Print Assumptions C89_exactly.
Theorem C89_told : forall t t' raw raw' p r r', unbroken t raw -> unbroken t' raw' ->
  click true t = (Result p, r) -> click true t' = (Result p, r') -> ParseString raw = ParseString raw'.
Proof. exact click_told. Qed.
Print Assumptions C89_told.
Theorem C89_visit : forall l, Forall (fun t => exists raw, unbroken t raw /\ ParseString raw <> Panic) l ->
  visit true l = map (fun t => fst (click true t)) l /\ ~ In Nothing (visit true l).
Proof. exact visit_all. Qed.
Print Assumptions C89_visit.
Theorem C89_stops : forall l t raw rest, Forall (fun t => exists raw, unbroken t raw /\ ParseString raw <> Panic) l -> unbroken t raw -> ParseString raw = Panic ->
  visit true (l ++ t :: rest) = visit true l ++ repeat Nothing (S (length rest)).
Proof. exact visit_stops. Qed.
Print Assumptions C89_stops.
Example C89_stops_case : ParseString ($"0950S4") = Panic /\ exists m, visit true [$"1985-13"; $"0950S4"; $"1985"; $".."] = [Message m; Nothing; Nothing; Nothing].
Proof. split; [|eexists]; vm_compute; reflexivity. Qed.
Theorem C89_reason_refuted : exists t t' e e', unbroken t t /\ unbroken t' t' /\ ParseString t = Err e /\ ParseString t' = Err e' /\ e <> e' /\ click true t = click true t'.
Proof. exact click_same. Qed.
Print Assumptions C89_reason_refuted.
Theorem C89_visit_refuted : exists t t' d, ParseString t' = OK d /\ unbroken t' t' /\
  visit true [t'; t; t'] = [fst (click true t'); Nothing; Nothing] /\ fst (click true t') <> Nothing.
Proof. exact visit_lost. Qed.
Print Assumptions C89_visit_refuted.
