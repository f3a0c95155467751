(** Package calendar. *)
From Coq Require Import Ascii String ZArith NArith Bool List.
From Verif Require Import GoStr GoTime Edtf.
Import ListNotations.
Open Scope Z_scope.

(** calendar/calendar.go:47-74 *)
Definition DaysInMonth (yyyy mm : Z) : res Z :=
  let yyyy := if yyyy <? 0 then wrap64 (yyyy - wrap64 (yyyy * 2)) else yyyy in
  let next_yyyy := yyyy in
  (* line 59 assigns the next year to the wrong variable; line 60 overwrites it *)
  let next_mm := if 12 <=? mm then 1 else wrap64 (mm + 1) in
  let next_ymd := fmt_0d 4 next_yyyy ++ $"-" ++ fmt_0d 2 next_mm ++ $"-01" in
  let* next_t := time_parse ($"2006-01-02") next_ymd in
  let mm_t := add_date next_t 0 (-1) in
  OK (t_mday mm_t).

(** calendar/calendar.go:13-44 *)
Definition DaysInMonthWithString (yyyymm : str) : res Z :=
  match split yyyymm ($"-") with
  | [_; b; c] =>
      let* yyyy := atoi ($"-" ++ b) in
      let* mm := atoi c in
      DaysInMonth yyyy mm
  | [a; b] =>
      let* yyyy := atoi a in
      let* mm := atoi b in
      DaysInMonth yyyy mm
  | _ => Err (EText ($"Invalid YYYYMM string"))
  end.
