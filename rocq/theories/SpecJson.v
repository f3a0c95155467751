(** JSON texts (RFC 8259) without white space between the tokens, as a relation
    between a tree and a text.  Used to state what Marshal writes. *)
From Coq Require Import Ascii String ZArith NArith Bool List.
From Verif Require Import GoStr SpecText Edtf Json.
Import ListNotations.
Open Scope Z_scope.

(** The character escapes of RFC 8259, section 7, that stand for one byte. *)
Inductive json_char : ascii -> str -> Prop :=
| jc_plain c : 32 <= code c -> c <> """"%char -> c <> "\"%char -> json_char c [c]
| jc_quote : json_char """" ($"\""")
| jc_backslash : json_char "\" ($"\\")
| jc_slash : json_char "/" ($"\/")
| jc_b : json_char (chr 8) ($"\b")
| jc_f : json_char (chr 12) ($"\f")
| jc_n : json_char (chr 10) ($"\n")
| jc_r : json_char (chr 13) ($"\r")
| jc_t : json_char (chr 9) ($"\t")
| jc_u a b h1 h2 : nth_error ($"01234567") a = Some h1 -> nth_error ($"0123456789abcdef") b = Some h2 ->
    json_char (chr (16 * Z.of_nat a + Z.of_nat b)) ($"\u00" ++ [h1; h2]).
Inductive json_chars : str -> str -> Prop :=
| jcs_nil : json_chars [] []
| jcs_cons c t b u : json_char c t -> json_chars b u -> json_chars (c :: b) (t ++ u).

(** Integers: "0" or digits without a leading zero, after an optional minus. *)
Definition json_digit (c : ascii) : Prop := 48 <= code c <= 57.
Inductive json_int : str -> Prop :=
| ji_zero : json_int ($"0")
| ji_pos c t : json_digit c -> c <> "0"%char -> Forall json_digit t -> json_int (c :: t)
| ji_neg0 : json_int ($"-0")
| ji_neg c t : json_digit c -> c <> "0"%char -> Forall json_digit t -> json_int ("-"%char :: c :: t).

Inductive compact : json -> str -> Prop :=
| ct_null : compact JNull ($"null")
| ct_true : compact (JBool true) ($"true")
| ct_false : compact (JBool false) ($"false")
| ct_int t : json_int t -> compact (JNum t) t
| ct_str b t : json_chars b t -> compact (JStr b) ($"""" ++ t ++ $"""")
| ct_arr0 : compact (JArr []) ($"[]")
| ct_arr l t : compact_items l t -> compact (JArr l) ($"[" ++ t ++ $"]")
| ct_obj0 : compact (JObj []) ($"{}")
| ct_obj l t : compact_members l t -> compact (JObj l) ($"{" ++ t ++ $"}")
with compact_items : list json -> str -> Prop :=
| ci_one v t : compact v t -> compact_items [v] t
| ci_more v t l u : compact v t -> compact_items l u -> compact_items (v :: l) (t ++ $"," ++ u)
with compact_members : list (str * json) -> str -> Prop :=
| cm_one k kt v t : json_chars k kt -> compact v t ->
    compact_members [(k, v)] ($"""" ++ kt ++ $""":" ++ t)
| cm_more k kt v t l u : json_chars k kt -> compact v t -> compact_members l u ->
    compact_members ((k, v) :: l) ($"""" ++ kt ++ $""":" ++ t ++ $"," ++ u).

(** The member named [k] of an object. *)
Inductive has_member (k : str) (v : json) : json -> Prop :=
| hm l : In (k, v) l -> (forall v', In (k, v') l -> v' = v) -> has_member k v (JObj l).
Inductive no_member (k : str) : json -> Prop :=
| nm l : (forall v, ~ In (k, v) l) -> no_member k (JObj l).

(** Which members an encoded date has: zero numbers, false, empty texts and missing
    timestamps are left out of a bound; everything else is written. *)
Definition int_member (k : str) (z : Z) (j : json) : Prop :=
  exists t, canonical_text t z /\ has_member k (JNum t) j.
Definition number_member (k : str) (p : N) (j : json) : Prop :=
  if N.eqb p 0 then no_member k j else int_member k (Z.of_N p) j.
Definition flag_member (k : str) (b : bool) (j : json) : Prop :=
  if b then has_member k (JBool true) j else no_member k j.
Definition text_member (k : str) (s : str) (j : json) : Prop :=
  match s with [] => no_member k j | _ => has_member k (JStr s) j end.
Record bound_json (d : date) (j : json) : Prop := {
  bj_datetime : text_member ($"datetime") (d_datetime d) j;
  bj_timestamp : match d_timestamp d with
                 | None => no_member ($"timestamp") j
                 | Some t => int_member ($"timestamp") t j
                 end;
  bj_ymd : match d_ymd d with
           | None => has_member ($"ymd") JNull j
           | Some v => exists o, has_member ($"ymd") o j /\ int_member ($"year") (y_year v) o /\
                                 int_member ($"month") (y_month v) o /\ int_member ($"day") (y_day v) o
           end;
  bj_uncertain : number_member ($"uncertain") (d_uncertain d) j;
  bj_approximate : number_member ($"approximate") (d_approximate d) j;
  bj_unspecified : number_member ($"unspecified") (d_unspecified d) j;
  bj_precision : number_member ($"precision") (d_precision d) j;
  bj_open : flag_member ($"open") (d_open d) j;
  bj_unknown : flag_member ($"unknown") (d_unknown d) j;
  bj_inclusivity : number_member ($"inclusivity") (d_inclusivity d) j }.
Record range_json (r : daterange) (j : json) : Prop := {
  rj_edtf : has_member ($"edtf") (JStr (r_edtf r)) j;
  rj_lower : exists b, has_member ($"lower") b j /\ bound_json (r_lower r) b;
  rj_upper : exists b, has_member ($"upper") b j /\ bound_json (r_upper r) b }.
Record edtf_json (d : edtfdate) (j : json) : Prop := {
  ej_start : exists r, has_member ($"start") r j /\ range_json (e_start d) r;
  ej_end : exists r, has_member ($"end") r j /\ range_json (e_end d) r;
  ej_edtf : has_member ($"edtf") (JStr (e_edtf d)) j;
  ej_level : int_member ($"level") (e_level d) j;
  ej_feature : has_member ($"feature") (JStr (e_feature d)) j }.
