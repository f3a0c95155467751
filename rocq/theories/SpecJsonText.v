(** JSON texts (RFC 8259) with white space, fractions, exponents and all escapes, as a
    relation between a tree and a text. *)
From Coq Require Import Ascii String ZArith NArith Bool List.
From Verif Require Import GoStr SpecText Edtf Json SpecJson.
Import ListNotations.
Open Scope Z_scope.

(** Section 2: white space. *)
Definition blank_char (c : ascii) : Prop := c = " "%char \/ code c = 9 \/ code c = 10 \/ code c = 13.
Definition blanks (w : str) : Prop := Forall blank_char w.
(** Section 7: strings.  [u] and four hexadecimal digits is a UTF-16 code unit. *)
Inductive hex_digit : ascii -> Z -> Prop :=
| hd_num c : 48 <= code c <= 57 -> hex_digit c (code c - 48)
| hd_low c : 97 <= code c <= 102 -> hex_digit c (10 + (code c - 97))
| hd_up c : 65 <= code c <= 70 -> hex_digit c (10 + (code c - 65)).
Inductive unit_text : str -> Z -> Prop :=
| ut_intro a b c d x y z w : hex_digit a x -> hex_digit b y -> hex_digit c z -> hex_digit d w ->
    unit_text ($"\u" ++ [a; b; c; d]) (((x * 16 + y) * 16 + z) * 16 + w).
Definition high_unit (r : Z) : Prop := 55296 <= r <= 56319.
Definition low_unit (r : Z) : Prop := 56320 <= r <= 57343.
(** UTF-8 *)
Inductive utf8 : Z -> str -> Prop :=
| u8_one r : 0 <= r < 128 -> utf8 r [chr r]
| u8_two a b : 2 <= a < 32 -> 0 <= b < 64 -> utf8 (a * 64 + b) [chr (192 + a); chr (128 + b)]
| u8_three a b c : 0 <= a < 16 -> 0 <= b < 64 -> 0 <= c < 64 -> 2048 <= (a * 64 + b) * 64 + c ->
    utf8 ((a * 64 + b) * 64 + c) [chr (224 + a); chr (128 + b); chr (128 + c)]
| u8_four a b c d : 0 <= a < 8 -> 0 <= b < 64 -> 0 <= c < 64 -> 0 <= d < 64 -> 65536 <= ((a * 64 + b) * 64 + c) * 64 + d ->
    utf8 (((a * 64 + b) * 64 + c) * 64 + d) [chr (240 + a); chr (128 + b); chr (128 + c); chr (128 + d)].
Inductive escape : ascii -> ascii -> Prop :=
| es_quote : escape """" """" | es_backslash : escape "\" "\" | es_slash : escape "/" "/"
| es_b : escape "b" (chr 8) | es_f : escape "f" (chr 12) | es_n : escape "n" (chr 10) | es_r : escape "r" (chr 13) | es_t : escape "t" (chr 9).
(** Half of a pair is read as U+FFFD unless the other half follows. *)
Definition completes (r : Z) (u : str) : Prop := high_unit r /\ exists t r' w, unit_text t r' /\ low_unit r' /\ u = t ++ w.
Inductive string_body : str -> str -> Prop :=
| sb_nil : string_body [] []
| sb_plain c b u : 32 <= code c -> c <> """"%char -> c <> "\"%char -> string_body b u -> string_body (c :: b) (c :: u)
| sb_escape e c b u : escape e c -> string_body b u -> string_body (c :: b) ("\"%char :: e :: u)
| sb_unit t r x b u : unit_text t r -> ~ high_unit r -> ~ low_unit r -> utf8 r x -> string_body b u -> string_body (x ++ b) (t ++ u)
| sb_pair t r t' r' x b u : unit_text t r -> high_unit r -> unit_text t' r' -> low_unit r' ->
    utf8 (65536 + (r - 55296) * 1024 + (r' - 56320)) x -> string_body b u -> string_body (x ++ b) (t ++ t' ++ u)
| sb_half t r b u : unit_text t r -> high_unit r \/ low_unit r -> ~ completes r u -> string_body b u ->
    string_body ([chr 239; chr 191; chr 189] ++ b) (t ++ u).
(** Section 6: numbers. *)
Definition some_digits (t : str) : Prop := t <> [] /\ Forall json_digit t.
Inductive fraction : str -> Prop :=
| fr_none : fraction [] | fr_some d : some_digits d -> fraction ("."%char :: d).
Inductive exponent : str -> Prop :=
| ex_none : exponent []
| ex_some e g d : e = "e"%char \/ e = "E"%char -> g = [] \/ g = $"+" \/ g = $"-" -> some_digits d -> exponent (e :: g ++ d).
Definition number_text (t : str) : Prop := exists i f e, json_int i /\ fraction f /\ exponent e /\ t = i ++ f ++ e.
(** Sections 3 to 5: values. *)
Inductive value_text : json -> str -> Prop :=
| vt_null : value_text JNull ($"null")
| vt_true : value_text (JBool true) ($"true")
| vt_false : value_text (JBool false) ($"false")
| vt_num t : number_text t -> value_text (JNum t) t
| vt_str b t : string_body b t -> value_text (JStr b) ($"""" ++ t ++ $"""")
| vt_arr0 w : blanks w -> value_text (JArr []) ($"[" ++ w ++ $"]")
| vt_arr l t : items_text l t -> value_text (JArr l) ($"[" ++ t ++ $"]")
| vt_obj0 w : blanks w -> value_text (JObj []) ($"{" ++ w ++ $"}")
| vt_obj l t : members_text l t -> value_text (JObj l) ($"{" ++ t ++ $"}")
with items_text : list json -> str -> Prop :=
| it_one w v t w' : blanks w -> value_text v t -> blanks w' -> items_text [v] (w ++ t ++ w')
| it_more w v t w' l u : blanks w -> value_text v t -> blanks w' -> items_text l u -> items_text (v :: l) (w ++ t ++ w' ++ $"," ++ u)
with members_text : list (str * json) -> str -> Prop :=
| mt_one w k kt w1 w2 v t w' : blanks w -> string_body k kt -> blanks w1 -> blanks w2 -> value_text v t -> blanks w' ->
    members_text [(k, v)] (w ++ $"""" ++ kt ++ $"""" ++ w1 ++ $":" ++ w2 ++ t ++ w')
| mt_more w k kt w1 w2 v t w' l u : blanks w -> string_body k kt -> blanks w1 -> blanks w2 -> value_text v t -> blanks w' -> members_text l u ->
    members_text ((k, v) :: l) (w ++ $"""" ++ kt ++ $"""" ++ w1 ++ $":" ++ w2 ++ t ++ w' ++ $"," ++ u).
Definition json_text (v : json) (t : str) : Prop := exists w u w', blanks w /\ value_text v u /\ blanks w' /\ t = w ++ u ++ w'.
