(** json.Unmarshal of any text into a variable of type *EDTFDate (as in
    edtf_test.go:63-65), and the methods of edtf.go:66-150 on what it leaves there:
    unlike what the parser returns, such a date may have nil pointers.

    Error texts are not modelled here, only that there is an error. *)
From Coq Require Import Ascii String ZArith NArith Bool List.
From Verif Require Import GoStr GoTime Edtf Json JsonText JsonDoc.
Import ListNotations.
Open Scope Z_scope.

(** daterange.go:7-11 and edtf.go:58-64, with their pointers *)
Record prange := mkPRange { pr_edtf : str; pr_lower : option date; pr_upper : option date }.
Record pedtf := mkPEDTF {
  pe_start : option prange; pe_end : option prange; pe_edtf : str; pe_level : Z; pe_feature : str }.

(** encoding/json/fold.go: foldName, the least letter of each class of letters that
    simple case folding identifies.  Only the classes with an ASCII letter matter for
    the names of these structs; U+017F folds to S and U+212A (Kelvin) to K. *)
Fixpoint fold_name (s : str) : str :=
  match s with
  | [] => []
  | a :: t =>
      if between 97 122 a then chr (code a - 32) :: fold_name t
      else match t with
           | [] => a :: fold_name t
           | b :: t2 =>
               if (code a =? 197) && (code b =? 191) then "S"%char :: fold_name t2
               else match t2 with
                    | [] => a :: fold_name t
                    | c :: t3 => if (code a =? 226) && (code b =? 132) && (code c =? 170) then "K"%char :: fold_name t3
                                 else a :: fold_name t
                    end
           end
  end.
Definition is_name (k : str) (name : string) : bool := seqb k (fold_name ($ name)).

(** decode.go: panics with phasePanicMsg if the text of a string is none *)
Definition unquoted (raw : str) : res str := match unquote raw with Some s => OK s | None => Panic end.
(** decode.go: literalStore.  null leaves a value that is no pointer as it is. *)
Definition set_text (cur : str) (v : doc) : res str :=
  match v with DNull => OK cur | DStr raw => unquoted raw | _ => type_error end.
Definition set_bool (cur : bool) (v : doc) : res bool :=
  match v with DNull => OK cur | DBool b => OK b | _ => type_error end.
Definition set_int (cur : Z) (v : doc) : res Z :=
  match v with
  | DNull => OK cur
  | DNum t => match atoi t with OK z => OK z | _ => type_error end
  | _ => type_error
  end.
(* precision.go: Precision is a uint32; strconv.ParseUint takes no sign *)
Definition set_prec (cur : N) (v : doc) : res N :=
  match v with
  | DNull => OK cur
  | DNum [] => type_error
  | DNum t => match dec_val 0 t with
              | Some z => if z <=? 4294967295 then OK (Z.to_N z) else type_error
              | None => type_error
              end
  | _ => type_error
  end.
(* decode.go: indirect; null makes the pointer nil, otherwise timestamp.go:29-41 gets
   the text of the value.  No array, object or boolean is a number. *)
Definition set_ts (cur : option Z) (v : doc) : res (option Z) :=
  match v with
  | DNull => OK None
  | DNum t => let* z := ts_unmarshal t in OK (Some z)
  | DStr raw => let* z := ts_unmarshal ($"""" ++ raw ++ $"""") in OK (Some z)
  | DBool true => let* z := ts_unmarshal ($"true") in OK (Some z)
  | DBool false => let* z := ts_unmarshal ($"false") in OK (Some z)
  | DArr _ | DObj _ => type_error
  end.
(** decode.go: object; the members one after the other *)
Fixpoint set_members {A} (set : str -> doc -> A -> res A) (l : list (str * doc)) (cur : A) : res A :=
  match l with
  | [] => OK cur
  | (raw, v) :: l' => let* k := unquoted raw in let* cur' := set (fold_name k) v cur in set_members set l' cur'
  end.
(** A pointer to a struct: null makes it nil, an object is read into the struct that
    it points to, or into a new one. *)
Definition set_pointer {A} (zero : A) (set : str -> doc -> A -> res A) (cur : option A) (v : doc) : res (option A) :=
  match v with
  | DNull => OK None
  | DObj l => let* a := set_members set l (match cur with Some a => a | None => zero end) in OK (Some a)
  | _ => type_error
  end.

(* ymd.go:7-11 *)
Definition blank_ymd : ymd := mkYMD 0 0 0.
Definition ymd_member (k : str) (v : doc) (c : ymd) : res ymd :=
  if is_name k "year" then let* x := set_int (y_year c) v in OK (mkYMD x (y_month c) (y_day c))
  else if is_name k "month" then let* x := set_int (y_month c) v in OK (mkYMD (y_year c) x (y_day c))
  else if is_name k "day" then let* x := set_int (y_day c) v in OK (mkYMD (y_year c) (y_month c) x)
  else OK c.
(* date.go:8-19 *)
Definition blank_date : date := mkDate [] None None 0 0 0 0 false false 0.
Definition date_member (k : str) (v : doc) (c : date) : res date :=
  let '(mkDate dt ts y un ap us pr op uk inc) := c in
  if is_name k "datetime" then let* x := set_text dt v in OK (mkDate x ts y un ap us pr op uk inc)
  else if is_name k "timestamp" then let* x := set_ts ts v in OK (mkDate dt x y un ap us pr op uk inc)
  else if is_name k "ymd" then let* x := set_pointer blank_ymd ymd_member y v in OK (mkDate dt ts x un ap us pr op uk inc)
  else if is_name k "uncertain" then let* x := set_prec un v in OK (mkDate dt ts y x ap us pr op uk inc)
  else if is_name k "approximate" then let* x := set_prec ap v in OK (mkDate dt ts y un x us pr op uk inc)
  else if is_name k "unspecified" then let* x := set_prec us v in OK (mkDate dt ts y un ap x pr op uk inc)
  else if is_name k "precision" then let* x := set_prec pr v in OK (mkDate dt ts y un ap us x op uk inc)
  else if is_name k "open" then let* x := set_bool op v in OK (mkDate dt ts y un ap us pr x uk inc)
  else if is_name k "unknown" then let* x := set_bool uk v in OK (mkDate dt ts y un ap us pr op x inc)
  else if is_name k "inclusivity" then let* x := set_prec inc v in OK (mkDate dt ts y un ap us pr op uk x)
  else OK c.
(* daterange.go:7-11 *)
Definition blank_range : prange := mkPRange [] None None.
Definition range_member (k : str) (v : doc) (c : prange) : res prange :=
  if is_name k "edtf" then let* x := set_text (pr_edtf c) v in OK (mkPRange x (pr_lower c) (pr_upper c))
  else if is_name k "lower" then let* x := set_pointer blank_date date_member (pr_lower c) v in OK (mkPRange (pr_edtf c) x (pr_upper c))
  else if is_name k "upper" then let* x := set_pointer blank_date date_member (pr_upper c) v in OK (mkPRange (pr_edtf c) (pr_lower c) x)
  else OK c.
(* edtf.go:58-64 *)
Definition blank_edtf : pedtf := mkPEDTF None None [] 0 [].
Definition edtf_member (k : str) (v : doc) (c : pedtf) : res pedtf :=
  if is_name k "start" then let* x := set_pointer blank_range range_member (pe_start c) v in OK (mkPEDTF x (pe_end c) (pe_edtf c) (pe_level c) (pe_feature c))
  else if is_name k "end" then let* x := set_pointer blank_range range_member (pe_end c) v in OK (mkPEDTF (pe_start c) x (pe_edtf c) (pe_level c) (pe_feature c))
  else if is_name k "edtf" then let* x := set_text (pe_edtf c) v in OK (mkPEDTF (pe_start c) (pe_end c) x (pe_level c) (pe_feature c))
  else if is_name k "level" then let* x := set_int (pe_level c) v in OK (mkPEDTF (pe_start c) (pe_end c) (pe_edtf c) x (pe_feature c))
  else if is_name k "feature" then let* x := set_text (pe_feature c) v in OK (mkPEDTF (pe_start c) (pe_end c) (pe_edtf c) (pe_level c) x)
  else OK c.

(** var d *EDTFDate; json.Unmarshal(t, &d): edtf_test.go:63-65.  [None] is nil. *)
Definition Unmarshal (t : str) : res (option pedtf) :=
  match read_doc t with
  | Some v => set_pointer blank_edtf edtf_member None v
  | None => Err (EText ($"json: syntax error"))
  end.

(** A date of the parser has no nil pointers. *)
Definition of_range (r : daterange) : prange := mkPRange (r_edtf r) (Some (r_lower r)) (Some (r_upper r)).
Definition of_edtf (d : edtfdate) : pedtf :=
  mkPEDTF (Some (of_range (e_start d))) (Some (of_range (e_end d))) (e_edtf d) (e_level d) (e_feature d).

(** ** edtf.go:66-150 with nil pointers: reading a field through one panics *)
Definition deref {A} (o : option A) : res A := match o with Some a => OK a | None => Panic end.
Definition PLower (d : option pedtf) : res time :=
  let* d := deref d in let* r := deref (pe_start d) in let* b := deref (pr_lower r) in
  match d_timestamp b with None => Err NotSet | Some ts => OK (ts_time ts) end.
Definition PUpper (d : option pedtf) : res time :=
  let* d := deref d in let* r := deref (pe_end d) in let* b := deref (pr_upper r) in
  match d_timestamp b with None => Err NotSet | Some ts => OK (ts_time ts) end.
Definition PString (d : option pedtf) : res str := let* d := deref d in OK (pe_edtf d).
(* fmt.Errorf reads u.EDTF only when u.Upper() has returned, so u is not nil there *)
Definition edtf_of (d : option pedtf) : str := match d with Some d => pe_edtf d | None => [] end.
(* time.Unix adds the seconds from year 1 to 1970 in an int64, and After and Before
   compare the sums (time/time.go: unixTime, sec) *)
Definition time_sec (t : time) : Z := wrap64 (t + 62135596800).
Definition PAfter (d u : option pedtf) : res bool :=
  let* x := deref d in
  if IsOpen (pe_edtf x) then OK false
  else
    let* u_t := wrap_err ($"Failed to derive upper time for inception date (" ++ edtf_of u ++ $")") (PUpper u) in
    let* t := wrap_err ($"Failed to derive lower time for cessation date (" ++ edtf_of d ++ $")") (PLower d) in
    if time_sec t <? time_sec u_t then OK false else OK true.
Definition PBefore (d u : option pedtf) : res bool :=
  let* x := deref d in
  if IsOpen (pe_edtf x) then OK false
  else
    let* u_t := wrap_err ($"Failed to derive lower time for inception date (" ++ edtf_of u ++ $")") (PLower u) in
    let* t := wrap_err ($"Failed to derive upper time for cessation date (" ++ edtf_of d ++ $")") (PUpper d) in
    if time_sec u_t <? time_sec t then OK false else OK true.

(** ** json.Marshal of a *EDTFDate: a nil pointer is written as null *)
Definition enc_pdate (o : option date) : json := match o with Some d => enc_date d | None => JNull end.
Definition enc_prange (o : option prange) : json :=
  match o with
  | Some r => JObj [($"edtf", JStr (pr_edtf r)); ($"lower", enc_pdate (pr_lower r)); ($"upper", enc_pdate (pr_upper r))]
  | None => JNull
  end.
Definition enc_pedtf (o : option pedtf) : json :=
  match o with
  | Some d => JObj [($"start", enc_prange (pe_start d)); ($"end", enc_prange (pe_end d)); ($"edtf", JStr (pe_edtf d));
                    ($"level", JNum (itoa (pe_level d))); ($"feature", JStr (pe_feature d))]
  | None => JNull
  end.
(* encode.go: appendString also writes invalid UTF-8 as \ufffd and U+2028/9 as
   escapes.  Such bytes occur in strings only, so this can be done to the whole text. *)
Fixpoint escape_runes (s : str) : str :=
  match s with
  | [] => []
  | a :: t =>
      if code a <? 128 then a :: escape_runes t
      else match t with
           | [] => $"\ufffd" ++ escape_runes t
           | b :: t2 =>
               if two_bytes a b then a :: b :: escape_runes t2
               else match t2 with
                    | [] => $"\ufffd" ++ escape_runes t
                    | c :: t3 =>
                        if three_bytes a b c then
                          if (code a =? 226) && (code b =? 128) && (code c =? 168) then $"\u2028" ++ escape_runes t3
                          else if (code a =? 226) && (code b =? 128) && (code c =? 169) then $"\u2029" ++ escape_runes t3
                          else a :: b :: c :: escape_runes t3
                        else match t3 with
                             | [] => $"\ufffd" ++ escape_runes t
                             | d :: t4 => if four_bytes a b c d then a :: b :: c :: d :: escape_runes t4
                                          else $"\ufffd" ++ escape_runes t
                             end
                    end
           end
  end.
Definition Marshal (o : option pedtf) : str := escape_runes (print (enc_pedtf o)).
