(** encoding/json on the date types (struct tags of edtf.go:58-64, date.go:8-19,
    ymd.go:7-11, daterange.go:7-11; timestamp.go:29-45), at the level of JSON
    trees, and the compact text json.Marshal prints for a tree.  The reader of the
    text is in JsonText.v.

    Numbers keep their text.  Decoding looks fields up by exact name, the last
    occurrence winning; encoding/json would also accept names that differ in
    letter case only, which Marshal never produces. *)
From Coq Require Import Ascii String ZArith NArith Bool List.
From Verif Require Import GoStr GoTime Edtf.
Import ListNotations.
Open Scope Z_scope.

Inductive json :=
| JNull
| JBool (b : bool)
| JNum (text : str)
| JStr (s : str)
| JArr (items : list json)
| JObj (members : list (str * json)).

(** ** Marshal *)
Definition enc_ymd (o : option ymd) : json :=
  match o with
  | None => JNull
  | Some d => JObj [($"year", JNum (itoa (y_year d))); ($"month", JNum (itoa (y_month d)));
                    ($"day", JNum (itoa (y_day d)))]
  end.
(* omitempty: zero numbers, false, "" and nil pointers are left out *)
Definition enc_prec (k : str) (p : N) : list (str * json) :=
  if N.eqb p 0 then [] else [(k, JNum (itoa (Z.of_N p)))].
Definition enc_flag (k : str) (b : bool) : list (str * json) := if b then [(k, JBool true)] else [].
(* date.go:8-19 *)
Definition enc_date (d : date) : json :=
  JObj ((match d_datetime d with [] => [] | s => [($"datetime", JStr s)] end) ++
        (match d_timestamp d with None => [] | Some t => [($"timestamp", JNum (ts_marshal t))] end) ++
        [($"ymd", enc_ymd (d_ymd d))] ++
        enc_prec ($"uncertain") (d_uncertain d) ++ enc_prec ($"approximate") (d_approximate d) ++
        enc_prec ($"unspecified") (d_unspecified d) ++ enc_prec ($"precision") (d_precision d) ++
        enc_flag ($"open") (d_open d) ++ enc_flag ($"unknown") (d_unknown d) ++
        enc_prec ($"inclusivity") (d_inclusivity d)).
(* daterange.go:7-11 *)
Definition enc_range (r : daterange) : json :=
  JObj [($"edtf", JStr (r_edtf r)); ($"lower", enc_date (r_lower r)); ($"upper", enc_date (r_upper r))].
(* edtf.go:58-64 *)
Definition enc_edtf (d : edtfdate) : json :=
  JObj [($"start", enc_range (e_start d)); ($"end", enc_range (e_end d)); ($"edtf", JStr (e_edtf d));
        ($"level", JNum (itoa (e_level d))); ($"feature", JStr (e_feature d))].

(** ** Unmarshal *)
Definition type_error {A} : res A := Err (EText ($"json: cannot unmarshal")).
Fixpoint member (k : str) (l : list (str * json)) : option json :=
  match l with
  | [] => None
  | (k', v) :: l' => match member k l' with
                     | Some v' => Some v'
                     | None => if seqb k k' then Some v else None
                     end
  end.
(* a missing member or null leaves the zero value *)
Definition dec_field {A} (k : str) (l : list (str * json)) (zero : A) (f : json -> res A) : res A :=
  match member k l with
  | None => OK zero
  | Some JNull => OK zero
  | Some v => f v
  end.
Definition dec_str (v : json) : res str := match v with JStr s => OK s | _ => type_error end.
Definition dec_bool (v : json) : res bool := match v with JBool b => OK b | _ => type_error end.
(* int fields: strconv.ParseInt of the number text *)
Definition dec_int (v : json) : res Z :=
  match v with JNum t => match atoi t with OK z => OK z | _ => type_error end | _ => type_error end.
(* Precision (uint32) fields *)
Definition dec_prec (v : json) : res N :=
  match v with
  | JNum t => match dec_val 0 t with
              | Some z => if z <=? 4294967295 then OK (Z.to_N z) else type_error
              | None => type_error
              end
  | _ => type_error
  end.
(* Timestamp.UnmarshalJSON gets the raw text, with quotes for a string.  (Strings
   that need escapes are modelled unescaped; they fail either way.) *)
Definition dec_ts (v : json) : res (option Z) :=
  match v with
  | JNum t => let* z := ts_unmarshal t in OK (Some z)
  | JStr s => let* z := ts_unmarshal ($"""" ++ s ++ $"""") in OK (Some z)
  | _ => Err (EInt ($"json"))
  end.
Definition dec_ymd (v : json) : res (option ymd) :=
  match v with
  | JObj l => let* y := dec_field ($"year") l 0 dec_int in
              let* m := dec_field ($"month") l 0 dec_int in
              let* d := dec_field ($"day") l 0 dec_int in
              OK (Some (mkYMD y m d))
  | _ => type_error
  end.
Definition dec_date (v : json) : res date :=
  match v with
  | JObj l =>
      let* dt := dec_field ($"datetime") l [] dec_str in
      let* ts := dec_field ($"timestamp") l None dec_ts in
      let* y := dec_field ($"ymd") l None dec_ymd in
      let* un := dec_field ($"uncertain") l 0%N dec_prec in
      let* ap := dec_field ($"approximate") l 0%N dec_prec in
      let* us := dec_field ($"unspecified") l 0%N dec_prec in
      let* pr := dec_field ($"precision") l 0%N dec_prec in
      let* op := dec_field ($"open") l false dec_bool in
      let* uk := dec_field ($"unknown") l false dec_bool in
      let* inc := dec_field ($"inclusivity") l 0%N dec_prec in
      OK (mkDate dt ts y un ap us pr op uk inc)
  | _ => type_error
  end.
(* A missing range or date would be a nil pointer in Go; it does not occur in
   what Marshal writes and is an error here. *)
Definition dec_req {A} (k : str) (l : list (str * json)) (f : json -> res A) : res A :=
  match member k l with Some v => f v | None => type_error end.
Definition dec_range (v : json) : res daterange :=
  match v with
  | JObj l => let* e := dec_field ($"edtf") l [] dec_str in
              let* lo := dec_req ($"lower") l dec_date in
              let* up := dec_req ($"upper") l dec_date in
              OK (mkRange e lo up)
  | _ => type_error
  end.
Definition dec_edtf (v : json) : res edtfdate :=
  match v with
  | JObj l => let* st := dec_req ($"start") l dec_range in
              let* en := dec_req ($"end") l dec_range in
              let* e := dec_field ($"edtf") l [] dec_str in
              let* lv := dec_field ($"level") l 0 dec_int in
              let* f := dec_field ($"feature") l [] dec_str in
              OK (mkEDTF st en e lv f)
  | _ => type_error
  end.

(** ** Text of a tree: compact encoding, as json.Marshal prints it *)
Definition hex (n : Z) : ascii := if n <? 10 then chr (48 + n) else chr (87 + n).
(* Escapes of json's encoder with HTML escaping.  Bytes >= 128 are copied
   (encoding/json replaces invalid UTF-8 and escapes U+2028/9; strings the library
   returns contain no such bytes except U+017F, which is copied). *)
Definition esc (c : ascii) : str :=
  let n := code c in
  if n =? 34 then $"\""" else if n =? 92 then $"\\"
  else if n =? 10 then $"\n" else if n =? 13 then $"\r" else if n =? 9 then $"\t"
  else if (n <? 32) || (n =? 60) || (n =? 62) || (n =? 38)
  then $"\u00" ++ [hex (n / 16); hex (n mod 16)]
  else [c].
Definition quote (s : str) : str := $"""" ++ flat_map esc s ++ $"""".
Fixpoint print (v : json) : str :=
  match v with
  | JNull => $"null"
  | JBool true => $"true"
  | JBool false => $"false"
  | JNum t => t
  | JStr s => quote s
  | JArr l =>
      $"[" ++
      (fix items (first : bool) (l : list json) : str :=
         match l with
         | [] => []
         | v :: l' => (if first then [] else $",") ++ print v ++ items false l'
         end) true l ++ $"]"
  | JObj l =>
      $"{" ++
      (fix members (first : bool) (l : list (str * json)) : str :=
         match l with
         | [] => []
         | (k, v) :: l' => (if first then [] else $",") ++ quote k ++ $":" ++ print v ++ members false l'
         end) true l ++ $"}"
  end.
