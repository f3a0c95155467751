(** Which JSON texts can be read into an EDTFDate, and what they say. *)
From Coq Require Import Ascii String ZArith NArith Bool List.
From Verif Require Import GoStr GoTime SpecText SpecHelpers Edtf Json SpecJson SpecJsonText JsonDoc Unmarshal.
Import ListNotations.
Open Scope Z_scope.

(** ** Texts (RFC 8259).  Strings and names are kept as they are written. *)
Definition string_text (t : str) : Prop := exists b, string_body b t.
Inductive dvalue_text : doc -> str -> Prop :=
| dt_null : dvalue_text DNull ($"null")
| dt_true : dvalue_text (DBool true) ($"true")
| dt_false : dvalue_text (DBool false) ($"false")
| dt_num t : number_text t -> dvalue_text (DNum t) t
| dt_str t : string_text t -> dvalue_text (DStr t) ($"""" ++ t ++ $"""")
| dt_arr0 w : blanks w -> dvalue_text (DArr []) ($"[" ++ w ++ $"]")
| dt_arr l t : ditems_text l t -> dvalue_text (DArr l) ($"[" ++ t ++ $"]")
| dt_obj0 w : blanks w -> dvalue_text (DObj []) ($"{" ++ w ++ $"}")
| dt_obj l t : dmembers_text l t -> dvalue_text (DObj l) ($"{" ++ t ++ $"}")
with ditems_text : list doc -> str -> Prop :=
| di_one w v t w' : blanks w -> dvalue_text v t -> blanks w' -> ditems_text [v] (w ++ t ++ w')
| di_more w v t w' l u : blanks w -> dvalue_text v t -> blanks w' -> ditems_text l u -> ditems_text (v :: l) (w ++ t ++ w' ++ $"," ++ u)
with dmembers_text : list (str * doc) -> str -> Prop :=
| dm_one w kt w1 w2 v t w' : blanks w -> string_text kt -> blanks w1 -> blanks w2 -> dvalue_text v t -> blanks w' ->
    dmembers_text [(kt, v)] (w ++ $"""" ++ kt ++ $"""" ++ w1 ++ $":" ++ w2 ++ t ++ w')
| dm_more w kt w1 w2 v t w' l u : blanks w -> string_text kt -> blanks w1 -> blanks w2 -> dvalue_text v t -> blanks w' -> dmembers_text l u ->
    dmembers_text ((kt, v) :: l) (w ++ $"""" ++ kt ++ $"""" ++ w1 ++ $":" ++ w2 ++ t ++ w' ++ $"," ++ u).
Definition doc_text (v : doc) (t : str) : Prop := exists w u w', blanks w /\ dvalue_text v u /\ blanks w' /\ t = w ++ u ++ w'.
(** Not more than [n] arrays and objects inside each other. *)
Inductive nested : nat -> doc -> Prop :=
| ns_null n : nested n DNull
| ns_bool n b : nested n (DBool b)
| ns_num n t : nested n (DNum t)
| ns_str n t : nested n (DStr t)
| ns_arr n l : (forall v, In v l -> nested n v) -> nested (S n) (DArr l)
| ns_obj n l : (forall k v, In (k, v) l -> nested n v) -> nested (S n) (DObj l).

(** ** Strings: escapes resolved, and U+FFFD for every byte that is no part of a
    character in UTF-8 *)
Definition character (x : str) : Prop := exists r, utf8 r x /\ ~ 55296 <= r <= 57343 /\ r <= 1114111.
Inductive repaired : str -> str -> Prop :=
| rp_nil : repaired [] []
| rp_char x b f : character x -> repaired b f -> repaired (x ++ b) (x ++ f)
| rp_bad c b f : (forall x u, character x -> c :: b <> x ++ u) -> repaired b f ->
    repaired (c :: b) (chr 239 :: chr 191 :: chr 189 :: f).
Definition string_value (t s : str) : Prop := exists b, string_body b t /\ repaired b s.
(** Names are compared without regard to case; the long s and the Kelvin sign are
    the letters s and k as well. *)
Definition same_letter (c d : ascii) : Prop :=
  c = d \/ 97 <= code c <= 122 /\ code d = code c - 32.
Inductive same_name : str -> str -> Prop :=
| sn_nil : same_name [] []
| sn_letter c d n k : same_letter c d -> same_name n k -> same_name (c :: n) (d :: k)
| sn_long_s n k : same_name n k -> same_name ("s"%char :: n) (chr 197 :: chr 191 :: k)
| sn_kelvin n k : same_name n k -> same_name ("k"%char :: n) (chr 226 :: chr 132 :: chr 170 :: k).
Definition names (n kt : str) : Prop := exists k, string_value kt k /\ same_name n k.
(** The values of the members called [n], in the order in which they are written. *)
Inductive called (n : str) : list (str * doc) -> list doc -> Prop :=
| cl_nil : called n [] []
| cl_yes kt v l vs : names n kt -> called n l vs -> called n ((kt, v) :: l) (v :: vs)
| cl_no kt v l vs : string_text kt -> ~ names n kt -> called n l vs -> called n ((kt, v) :: l) vs.

(** ** Plain fields: every value has the type of the field or is null, and the last
    one that is not null counts *)
Inductive text_value : doc -> str -> Prop := tv_intro t s : string_value t s -> text_value (DStr t) s.
Inductive truth_value : doc -> bool -> Prop := bv_intro b : truth_value (DBool b) b.
Inductive int_value : doc -> Z -> Prop := iv_intro t z : whole_number t z -> int_value (DNum t) z.
Inductive flags_value : doc -> N -> Prop :=
| fv_intro t z : dec_digits t (Z.of_N z) -> Z.of_N z < 2 ^ 32 -> flags_value (DNum t) z.
Inductive last_value {A} (P : doc -> A -> Prop) (zero : A) : list doc -> A -> Prop :=
| lv_none : last_value P zero [] zero
| lv_null vs a : last_value P zero vs a -> last_value P zero (vs ++ [DNull]) a
| lv_some vs a v b : last_value P zero vs a -> P v b -> last_value P zero (vs ++ [v]) b.
(** Timestamps are pointers: null takes the value away.  The number may be written as
    a string.  (Quotes around it would be ignored; neither a number nor the inside of
    a string has any.) *)
Inductive stamp_text : str -> Z -> Prop :=
| st_intro n t k z : whole_number t z -> stamp_text (repeat """"%char n ++ t ++ repeat """"%char k) z.
Inductive stamp_value : doc -> Z -> Prop :=
| sv_num t z : stamp_text t z -> stamp_value (DNum t) z
| sv_str t z : stamp_text t z -> stamp_value (DStr t) z.
Inductive last_stamp : list doc -> option Z -> Prop :=
| ls_none : last_stamp [] None
| ls_null vs o : last_stamp vs o -> last_stamp (vs ++ [DNull]) None
| ls_some vs o v z : last_stamp vs o -> stamp_value v z -> last_stamp (vs ++ [v]) (Some z).
(** ** Pointers to structs: null takes the struct away; several objects after each
    other are read as one.  [R]: what the members of one object say. *)
Inductive merged {A} (R : list (str * doc) -> A -> Prop) : list doc -> option (list (str * doc)) -> Prop :=
| mg_none : merged R [] None
| mg_null vs o : merged R vs o -> (forall l, o = Some l -> exists a, R l a) -> merged R (vs ++ [DNull]) None
| mg_new vs l : merged R vs None -> merged R (vs ++ [DObj l]) (Some l)
| mg_more vs l l' : merged R vs (Some l) -> merged R (vs ++ [DObj l']) (Some (l ++ l')).
Inductive pointed {A} (R : list (str * doc) -> A -> Prop) (vs : list doc) : option A -> Prop :=
| pt_nil : merged R vs None -> pointed R vs None
| pt_some l a : merged R vs (Some l) -> R l a -> pointed R vs (Some a).

(** ** The types.  Members with other names are not looked at. *)
Definition field {A} (n : str) (P : list doc -> A -> Prop) (l : list (str * doc)) (a : A) : Prop :=
  exists vs, called n l vs /\ P vs a.
Definition says_ymd (l : list (str * doc)) (v : ymd) : Prop :=
  field ($"year") (last_value int_value 0) l (y_year v) /\
  field ($"month") (last_value int_value 0) l (y_month v) /\
  field ($"day") (last_value int_value 0) l (y_day v).
Definition says_date (l : list (str * doc)) (d : date) : Prop :=
  field ($"datetime") (last_value text_value []) l (d_datetime d) /\
  field ($"timestamp") last_stamp l (d_timestamp d) /\
  field ($"ymd") (pointed says_ymd) l (d_ymd d) /\
  field ($"uncertain") (last_value flags_value 0%N) l (d_uncertain d) /\
  field ($"approximate") (last_value flags_value 0%N) l (d_approximate d) /\
  field ($"unspecified") (last_value flags_value 0%N) l (d_unspecified d) /\
  field ($"precision") (last_value flags_value 0%N) l (d_precision d) /\
  field ($"open") (last_value truth_value false) l (d_open d) /\
  field ($"unknown") (last_value truth_value false) l (d_unknown d) /\
  field ($"inclusivity") (last_value flags_value 0%N) l (d_inclusivity d).
Definition says_range (l : list (str * doc)) (r : prange) : Prop :=
  field ($"edtf") (last_value text_value []) l (pr_edtf r) /\
  field ($"lower") (pointed says_date) l (pr_lower r) /\
  field ($"upper") (pointed says_date) l (pr_upper r).
Definition says_edtf (l : list (str * doc)) (d : pedtf) : Prop :=
  field ($"start") (pointed says_range) l (pe_start d) /\
  field ($"end") (pointed says_range) l (pe_end d) /\
  field ($"edtf") (last_value text_value []) l (pe_edtf d) /\
  field ($"level") (last_value int_value 0) l (pe_level d) /\
  field ($"feature") (last_value text_value []) l (pe_feature d).
Definition date_text (t : str) (o : option pedtf) : Prop :=
  exists v, doc_text v t /\ nested (Z.to_nat 10000) v /\ pointed says_edtf [v] o.

(** ** Dates that the Go types can hold, and the same date with its strings repaired *)
Definition int64 (z : Z) : Prop := - 2 ^ 63 <= z < 2 ^ 63.
Definition uint32 (p : N) : Prop := (p < 2 ^ 32)%N.
Record held_date (d : date) : Prop := {
  hd_ts : forall t, d_timestamp d = Some t -> int64 t;
  hd_ymd : forall v, d_ymd d = Some v -> int64 (y_year v) /\ int64 (y_month v) /\ int64 (y_day v);
  hd_flags : Forall uint32 [d_uncertain d; d_approximate d; d_unspecified d; d_precision d; d_inclusivity d] }.
Definition held_range (r : prange) : Prop :=
  (forall d, pr_lower r = Some d -> held_date d) /\ (forall d, pr_upper r = Some d -> held_date d).
Definition held (o : option pedtf) : Prop := forall d, o = Some d -> int64 (pe_level d) /\
  (forall r, pe_start d = Some r -> held_range r) /\ (forall r, pe_end d = Some r -> held_range r).
(** [other P]: both nil, or both there and [P]. *)
Inductive both {A} (P : A -> A -> Prop) : option A -> option A -> Prop :=
| bt_nil : both P None None
| bt_some a b : P a b -> both P (Some a) (Some b).
Inductive repaired_date (d : date) : date -> Prop :=
| rd_intro s : repaired (d_datetime d) s ->
    repaired_date d (mkDate s (d_timestamp d) (d_ymd d) (d_uncertain d) (d_approximate d) (d_unspecified d) (d_precision d) (d_open d) (d_unknown d) (d_inclusivity d)).
Inductive repaired_range (r : prange) : prange -> Prop :=
| rr_intro s l u : repaired (pr_edtf r) s -> both repaired_date (pr_lower r) l -> both repaired_date (pr_upper r) u -> repaired_range r (mkPRange s l u).
Inductive repaired_edtf (d : pedtf) : pedtf -> Prop :=
| re_intro s e x f : both repaired_range (pe_start d) s -> both repaired_range (pe_end d) e -> repaired (pe_edtf d) x -> repaired (pe_feature d) f ->
    repaired_edtf d (mkPEDTF s e x (pe_level d) f).

(** ** The methods of a date that may have nil pointers *)
(** There is a lower bound of the start, with this timestamp; and an upper bound of the
    end. *)
Definition begins (o : option pedtf) (ts : option Z) : Prop :=
  exists d r b, o = Some d /\ pe_start d = Some r /\ pr_lower r = Some b /\ d_timestamp b = ts.
Definition ends (o : option pedtf) (ts : option Z) : Prop :=
  exists d r b, o = Some d /\ pe_end d = Some r /\ pr_upper r = Some b /\ d_timestamp b = ts.
Definition missing (P : option Z -> Prop) : Prop := forall ts, ~ P ts.
Inductive bound_result (P : option Z -> Prop) : res Z -> Prop :=
| br_missing : missing P -> bound_result P Panic
| br_unset : P None -> bound_result P (Err (ENotImplemented [] []))
| br_set z : P (Some z) -> bound_result P (OK z).
(** The seconds since the year 1, in 64 bits. *)
Definition counts_as (z n : Z) : Prop := - 2 ^ 63 <= n < 2 ^ 63 /\ exists k, z + 62135596800 = n + k * 2 ^ 64.
Definition sooner (x y : Z) : Prop := exists n m, counts_as x n /\ counts_as y m /\ n < m.
Definition open_word (s : str) : Prop := s = $".." \/ s = $"open".
Definition no_time (text : str) (d : pedtf) : res bool := Err (EWrap (text ++ $" (" ++ pe_edtf d ++ $")") (ENotImplemented [] [])).
(** [d] compared with the other date: [theirs] is the bound of the other date [u],
    [ours] that of [d]. *)
Inductive compared (late : Z -> Z -> Prop) (text text' : str) (theirs ours : option pedtf -> option Z -> Prop) : option pedtf -> option pedtf -> res bool -> Prop :=
| cp_nil u : compared late text text' theirs ours None u Panic
| cp_open d u : open_word (pe_edtf d) -> compared late text text' theirs ours (Some d) u (OK false)
| cp_theirs_missing d u : ~ open_word (pe_edtf d) -> missing (theirs u) -> compared late text text' theirs ours (Some d) u Panic
| cp_theirs_unset d u : ~ open_word (pe_edtf d) -> theirs (Some u) None -> compared late text text' theirs ours (Some d) (Some u) (no_time text u)
| cp_ours_missing d u x : ~ open_word (pe_edtf d) -> theirs u (Some x) -> missing (ours (Some d)) -> compared late text text' theirs ours (Some d) u Panic
| cp_ours_unset d u x : ~ open_word (pe_edtf d) -> theirs u (Some x) -> ours (Some d) None -> compared late text text' theirs ours (Some d) u (no_time text' d)
| cp_no d u x y : ~ open_word (pe_edtf d) -> theirs u (Some x) -> ours (Some d) (Some y) -> late x y -> compared late text text' theirs ours (Some d) u (OK false)
| cp_yes d u x y : ~ open_word (pe_edtf d) -> theirs u (Some x) -> ours (Some d) (Some y) -> ~ late x y -> compared late text text' theirs ours (Some d) u (OK true).
Definition after_result : option pedtf -> option pedtf -> res bool -> Prop :=
  compared (fun x y => sooner y x) ($"Failed to derive upper time for inception date") ($"Failed to derive lower time for cessation date") ends begins.
Definition before_result : option pedtf -> option pedtf -> res bool -> Prop :=
  compared sooner ($"Failed to derive lower time for inception date") ($"Failed to derive upper time for cessation date") begins ends.
Definition ascii_text (s : str) : Prop := Forall (fun c => code c < 128) s.
