(** Package level0. *)
From Coq Require Import Ascii String ZArith NArith Bool List.
From Verif Require Import GoStr GoTime Regex Patterns Edtf Common.
Import ListNotations.
Open Scope Z_scope.

(* level0/level0.go:8-12 *)
Definition LEVEL0 : Z := 0.
Definition DATE : str := $"Date".
Definition DATE_AND_TIME : str := $"Date and Time".
Definition TIME_INTERVAL : str := $"Time Interval".

(* level0/date.go:22-24, date_and_time.go:31-33, time_interval.go:24-26, level0.go:14-16 *)
Definition IsDate (s : str) : bool := match_string Date_re s.
Definition IsDateAndTime (s : str) : bool := match_string DateAndTime s.
Definition IsTimeInterval (s : str) : bool := match_string TimeInterval s.
Definition IsLevel0 (s : str) : bool := match_string Level0_re s.

(* level0/date.go:26-47 *)
Definition ParseDate (s : str) : res edtfdate :=
  if negb (match_string Date_re s) then Err (Invalid DATE s)
  else let* sp := DateSpanFromEDTF s in OK (edtf_of_span sp s LEVEL0 DATE).

(* level0/date_and_time.go:35-104 *)
Definition ParseDateAndTime (s : str) : res edtfdate :=
  let m := find_submatch DateAndTime s in
  if negb (Nat.eqb (length m) 12) then Err (Invalid DATE_AND_TIME s)
  else
    let t_fmt := $"2006-01-02T15:04:05" in
    let t_fmt := if seqb (sub m 7) ($"Z") then $"2006-01-02T15:04:05Z" else t_fmt in
    let t_fmt := if seqb (sub m 8) ($"-") || seqb (sub m 8) ($"+")
                 then if has_prefix (sub m 10) ($":") then $"2006-01-02T15:04:05-07:00"
                      else $"2006-01-02T15:04:05-07"
                 else t_fmt in
    let is_bce := has_prefix s ($"-") in
    let t_fmt := if is_bce then $"-" ++ t_fmt else t_fmt in
    let* t := time_parse t_fmt s in
    let t := if is_bce then TimeToBCE t else t in
    let dt := SetTime zero_date t in
    OK (mkEDTF (mkRange [] dt dt) (mkRange [] dt dt) s LEVEL0 DATE_AND_TIME).

(* level0/time_interval.go:28-49 *)
Definition ParseTimeInterval (s : str) : res edtfdate :=
  if negb (match_string TimeInterval s) then Err (Invalid TIME_INTERVAL s)
  else let* sp := DateSpanFromEDTF s in OK (edtf_of_span sp s LEVEL0 TIME_INTERVAL).

(* level0/level0.go:18-33 *)
Definition L0_Matches (s : str) : res str :=
  if IsDate s then OK DATE
  else if IsDateAndTime s then OK DATE_AND_TIME
  else if IsTimeInterval s then OK TIME_INTERVAL
  else Err (Invalid ($"Invalid Level 0 string") s).

(* level0/level0.go:35-50 *)
Definition L0_ParseString (s : str) : res edtfdate :=
  if IsDate s then ParseDate s
  else if IsDateAndTime s then ParseDateAndTime s
  else if IsTimeInterval s then ParseTimeInterval s
  else Err (Invalid ($"Invalid Level 0 string") s).
