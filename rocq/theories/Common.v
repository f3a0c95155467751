(** Package common. *)
From Coq Require Import Ascii String ZArith NArith Bool List.
From Verif Require Import GoStr GoTime GoBig Regex Patterns Edtf Calendar.
Import ListNotations.
Open Scope Z_scope.

Definition is_empty (s : str) : bool := match s with [] => true | _ => false end.

(** ** common/year.go *)
(* year.go:7-9 *)
Definition FlipYear (yyyy : Z) : Z := wrap64 (yyyy - wrap64 (yyyy * 2)).
(* year.go:11-13 *)
Definition TimeToBCE (t : time) : time := add_date t (-2 * t_year t) 0.

(** ** common/ymd.go *)
(* ymd.go:44-153 *)
Definition YMDFromStrings (str_yyyy str_mm str_dd : str) : res ymd :=
  if is_empty str_yyyy then Err (EText ($"Missing year"))
  else if is_empty str_mm && negb (is_empty str_dd) then Err (EText ($"Missing month"))
  else
    let* yyyy := atoi str_yyyy in
    let is_bce := yyyy <? 0 in
    let yyyy := if is_bce then FlipYear yyyy else yyyy in
    let* mm := if is_empty str_mm then OK 0 else atoi str_mm in
    let* dd := if is_empty str_dd then OK 0 else atoi str_dd in
    if MAX_YEARS <? yyyy then Err (Unsupported ($"year") (itoa yyyy))
    else if (mm =? 0) && negb (dd =? 0) then Err (EText ($"Missing month"))
    else if negb (mm =? 0) && (12 <? mm) then Err (EText ($"Invalid month"))
    else
      let mm := if mm =? 0 then 1 else mm in
      let* days := DaysInMonth yyyy mm in
      if negb (dd =? 0) && (days <? dd) then Err (EText ($"Invalid days for month"))
      else
        let dd := if dd =? 0 then days else dd in
        let yyyy := if is_bce then FlipYear yyyy else yyyy in
        OK (mkYMD yyyy mm dd).

(* ymd.go:15-42 *)
Definition YMDFromString (s : str) : res ymd :=
  match split s ($"-") with
  | [_; b; c; d] => YMDFromStrings ($"-" ++ b) c d
  | [a; b; c] => YMDFromStrings a b c
  | [a; b] => YMDFromStrings a b []
  | [a] => YMDFromStrings a [] []
  | _ => Err (EText ($"Invalid YMD string"))
  end.

(** ** common/time.go *)
(* time.go:20-56 *)
Definition TimeWithYMD (d : ymd) (hms : str) : res time :=
  let is_bce := y_year d <? 0 in
  let yyyy := if is_bce then FlipYear (y_year d) else y_year d in
  let t_str := fmt_0d 4 yyyy ++ $"-" ++ fmt_0d 2 (y_month d) ++ $"-" ++ fmt_0d 2 (y_day d) ++ $"T" ++ hms in
  let* t := time_parse ($"2006-01-02T15:04:05") t_str in
  OK (if is_bce then TimeToBCE t else t).
(* time.go:9-18 *)
Definition TimeWithYMDString (yyyy mm dd hms : str) : res time :=
  let* d := YMDFromStrings yyyy mm dd in TimeWithYMD d hms.

(** ** common/exponential.go:9-26.  [notation] is always -?\d+[Ee]\d+ at the call
    sites; other texts are modelled as a ParseFloat error. *)
Definition ParseExponentialNotation (notation : str) : res Z :=
  match exp_split notation with
  | None => Err (EBig notation)
  | Some (neg, ds, es) =>
      match bf_scan (nat_val ds) (nat_val es) with
      | None => Err (EBig notation)
      | Some BInf => Panic   (* Float.Int returns nil, Int64 dereferences it *)
      | Some v =>
          let y := match v with BFin m e => int64_of neg m e | _ => 0 end in
          if (MAX_YEARS <? y) || (y <? 0 - MAX_YEARS)
          then Err (Unsupported ($"exponential notation") notation)
          else OK y
      end
  end.

(** ** common/range.go *)
(* range.go:12-15, 24-28, 51-58; the EDTF field of StringRange is never read *)
Inductive qtype := Individual | Group.
Record qualifier := mkQual { q_value : str; q_type : qtype }.
Record stringdate := mkSD { sd_year : str; sd_month : str; sd_day : str }.
Definition sd_equals (a b : stringdate) : bool :=
  seqb (sd_year a) (sd_year b) && seqb (sd_month a) (sd_month b) && seqb (sd_day a) (sd_day b).
Record stringrange := mkSR {
  sr_start : stringdate; sr_end : stringdate;
  sr_precision : N; sr_uncertain : N; sr_approximate : N }.

(* range.go:501-538 *)
Definition parseYMDComponent (d : str) : res (str * option qualifier) :=
  let m := find_submatch QualifiedIndividual d in
  if Nat.eqb (length m) 3 then
    OK (sub m 2, if is_empty (sub m 1) then None else Some (mkQual (sub m 1) Individual))
  else
    let m := find_submatch QualifiedGroup d in
    if Nat.eqb (length m) 3 then
      OK (sub m 1, if is_empty (sub m 2) then None else Some (mkQual (sub m 2) Group))
    else Err (Invalid ($"date") d).
(* the calls at range.go:97-131: only for non-empty components *)
Definition component (d : str) : res (str * option qualifier) :=
  if is_empty d then OK (d, None) else parseYMDComponent d.

(* One "switch q.Value" block of range.go:137-249: add [flags] to the uncertain
   and/or approximate set if [q] is a qualifier of type [ty]. *)
Definition qtype_eqb (a b : qtype) : bool :=
  match a, b with Individual, Individual => true | Group, Group => true | _, _ => false end.
Definition apply_q (q : option qualifier) (ty : qtype) (flags : N) (ua : N * N) : N * N :=
  match q with
  | Some q =>
      if qtype_eqb (q_type q) ty then
        let '(u, a) := ua in
        if seqb (q_value q) UNCERTAIN then (AddFlag u flags, a)
        else if seqb (q_value q) APPROXIMATE then (u, AddFlag a flags)
        else if seqb (q_value q) UNCERTAIN_AND_APPROXIMATE then (AddFlag u flags, AddFlag a flags)
        else ua
      else ua
  | None => ua
  end.
Definition YMD_FLAGS : N := AddFlag (AddFlag (AddFlag NONE YEAR) MONTH) DAY.
Definition YM_FLAGS : N := AddFlag (AddFlag NONE YEAR) MONTH.
(* range.go:137-249 *)
Definition qualifier_flags (yq mq dq : option qualifier) : N * N :=
  apply_q dq Individual DAY
    (apply_q mq Individual MONTH
       (apply_q yq Individual YEAR
          (apply_q yq Group YEAR
             (apply_q mq Group YM_FLAGS
                (apply_q dq Group YMD_FLAGS (NONE, NONE)))))).

(* string(s[i]): an out of range index panics; the conversion of a byte >= 128 to
   a two-byte string is irrelevant as components only contain [-0-9X]. *)
Definition byte_at (s : str) (i : nat) : res str :=
  match nth_error s i with Some c => OK [c] | None => Panic end.

(* range.go:297-340, one digit after the first: the contribution of digit [i] with
   weight [w] to start and end year, and the precision, given those for "X". *)
Definition year_digit (s : str) (i : nat) (w : Z) (fl : N) (prec : N) : res (Z * Z * N) :=
  let* c := byte_at s i in
  if seqb c ($"X") then OK (0, 9 * w, prec)
  else let* v := parse_int c in OK (v * w, v * w, fl).

(* range.go:261-351 *)
Definition year_range (edtf_str yyyy : str) : res (str * str * N) :=
  if negb (has_suffix yyyy ($"X")) then OK (yyyy, yyyy, YEAR)
  else
    let* c0 := byte_at yyyy 0 in
    if seqb c0 ($"X") then Err (NotImplemented ($"date") edtf_str)
    else
      let* m := parse_int c0 in
      let* (sc, ec, p) := year_digit yyyy 1 100 CENTURY MILLENIUM in
      let* (sd, ed, p) := year_digit yyyy 2 10 DECADE p in
      let* (sy, ey, p) := year_digit yyyy 3 1 YEAR p in
      OK (itoa (m * 1000 + sc + sd + sy), itoa (m * 1000 + ec + ed + ey), p).

(* range.go:355-377 *)
Definition month_range (mm : str) (prec : N) : str * str * N :=
  if negb (has_suffix mm ($"X")) then
    (mm, mm, if negb (is_empty mm) && N.eqb prec NONE then MONTH else prec)
  else if has_prefix mm ($"X") then ($"01", $"12", prec)
  else ($"10", $"12", MONTH).

(* range.go:381-406 *)
Definition day_range (edtf_str dd : str) (prec : N) : res (str * str * N) :=
  if negb (has_suffix dd ($"X")) then
    OK (dd, dd, if negb (is_empty dd) && N.eqb prec NONE then DAY else prec)
  else
    let* c := byte_at dd 0 in
    if seqb c ($"X") then OK ($"01", $"", prec)
    else if seqb c ($"1") then OK ($"10", $"19", prec)
    else if seqb c ($"2") then OK ($"20", $"29", prec)
    else if seqb c ($"3") then OK ($"30", $"", prec)
    else Err (Invalid ($"date") edtf_str).

(* range.go:64-470.  The precision set at lines 83-89 is always overwritten at
   lines 263-264, 293-294. *)
Definition StringRangeFromYMD (edtf_str : str) : res stringrange :=
  let parts := find_submatch YMD_re edtf_str in
  if negb (Nat.eqb (length parts) 4) then Err (Invalid ($"date") edtf_str)
  else
    let* (yyyy, yyyy_q) := component (sub parts 1) in
    let* (mm, mm_q) := component (sub parts 2) in
    let* (dd, dd_q) := component (sub parts 3) in
    let '(uncertain, approximate) := qualifier_flags yyyy_q mm_q dd_q in
    let* (start_yyyy, end_yyyy, precision) := year_range edtf_str yyyy in
    let '(start_mm, end_mm, precision) := month_range mm precision in
    let* (start_dd, end_dd, precision) := day_range edtf_str dd precision in
    let precision :=
      if seqb dd ($"XX") && seqb mm ($"XX") then YEAR
      else if seqb dd ($"XX") then MONTH else precision in
    let start_mm := if is_empty start_mm then $"01" else start_mm in
    let start_dd := if is_empty start_dd then $"01" else start_dd in
    let end_mm := if is_empty end_mm then $"12" else end_mm in
    let* end_dd := if is_empty end_dd
                   then let* dd := DaysInMonthWithString (end_yyyy ++ $"-" ++ end_mm) in OK (itoa dd)
                   else OK end_dd in
    OK (mkSR (mkSD start_yyyy start_mm start_dd) (mkSD end_yyyy end_mm end_dd)
             precision uncertain approximate).

(* range.go:472-499 *)
Definition EmptyDateRange : daterange := mkRange [] zero_date zero_date.
Definition UnknownDateRange : daterange := mkRange [] (set_unknown zero_date) (set_unknown zero_date).
Definition OpenDateRange : daterange := mkRange [] (set_open zero_date) (set_open zero_date).

(** ** common/span.go *)
(* span.go:247-284 *)
Definition UnknownDateSpan : datespan := mkSpan UnknownDateRange UnknownDateRange.
Definition OpenDateSpan : datespan := mkSpan OpenDateRange OpenDateRange.
Definition set_edtf (r : daterange) (s : str) : daterange := mkRange s (r_lower r) (r_upper r).

(* ymd.go:11-13 *)
Definition YMDFromStringDate (d : stringdate) : res ymd := YMDFromStrings (sd_year d) (sd_month d) (sd_day d).

(* span.go:90-245 *)
Definition dateSpanFromYMD (edtf_str : str) : res datespan :=
  let* sr := StringRangeFromYMD edtf_str in
  let* start_ymd := YMDFromStringDate (sr_start sr) in
  let* end_ymd := YMDFromStringDate (sr_end sr) in
  let* (sl, su, el, eu) :=
    if sd_equals (sr_end sr) (sr_start sr) then
      let* st := TimeWithYMD start_ymd HMS_LOWER in
      let* et := TimeWithYMD end_ymd HMS_UPPER in
      OK (st, st, et, et)
    else
      let* sl := TimeWithYMD start_ymd HMS_LOWER in
      let* su := TimeWithYMD start_ymd HMS_UPPER in
      let* el := TimeWithYMD end_ymd HMS_LOWER in
      let* eu := TimeWithYMD end_ymd HMS_UPPER in
      OK (sl, su, el, eu) in
  let mk d t := SetTime (mkDate [] None (Some d) (sr_uncertain sr) (sr_approximate sr) 0
                                (sr_precision sr) false false 0) t in
  OK (mkSpan (mkRange edtf_str (mk start_ymd sl) (mk start_ymd su))
             (mkRange edtf_str (mk end_ymd el) (mk end_ymd eu))).

(* span.go:57-88 *)
Definition dateSpanFromEDTF (edtf_str : str) : res datespan :=
  if seqb edtf_str UNKNOWN then
    OK (mkSpan (set_edtf UnknownDateRange edtf_str) (set_edtf UnknownDateRange edtf_str))
  else if seqb edtf_str OPEN then
    OK (mkSpan (set_edtf OpenDateRange edtf_str) (set_edtf OpenDateRange edtf_str))
  else dateSpanFromYMD edtf_str.

(* span.go:9-53.  The pointer assignments at lines 46-50 never make the result's
   start and end share a Date, so they are modelled by copying. *)
Definition DateSpanFromEDTF (edtf_str : str) : res datespan :=
  match split edtf_str ($"/") with
  | [left_edtf; right_edtf] =>
      let* l := dateSpanFromEDTF left_edtf in
      let* r := dateSpanFromEDTF right_edtf in
      OK (mkSpan (mkRange (r_edtf (s_start l)) (r_lower (s_start l)) (r_upper (s_end l)))
                 (mkRange (r_edtf (s_end r)) (r_lower (s_start r)) (r_upper (s_end r))))
  | [left_edtf] => dateSpanFromYMD left_edtf
  | _ => Err (Invalid ($"date span") edtf_str)
  end.

(* The EDTFDate construction that ends every feature parser. *)
Definition edtf_of_span (sp : datespan) (edtf_str : str) (level : Z) (feature : str) : edtfdate :=
  mkEDTF (s_start sp) (s_end sp) edtf_str level feature.
