(** Specification: the written forms of level 0 dates, independent of the
    regular expressions of the library. *)
From Coq Require Import Ascii String ZArith NArith Bool List.
From Verif Require Import GoStr SpecCal.
Import ListNotations.
Open Scope Z_scope.

(** Four digits with an optional minus sign, and the year they denote. *)
Inductive year4 : str -> Z -> Prop :=
| year4_pos n : 0 <= n <= 9999 -> year4 (four n) n
| year4_neg n : 0 <= n <= 9999 -> year4 ("-"%char :: four n) (- n).

(** Nothing, -MM, or -MM-DD with a month number 01..12 and a day number 01..31
    (the day need not exist in the month). *)
Inductive mmdd : str -> option Z -> option Z -> Prop :=
| mmdd_none : mmdd [] None None
| mmdd_m m : 1 <= m <= 12 -> mmdd ("-"%char :: two m) (Some m) None
| mmdd_md m d : 1 <= m <= 12 -> 1 <= d <= 31 -> mmdd ("-"%char :: two m ++ "-"%char :: two d) (Some m) (Some d).

(** A level 0 date: year, year and month, or year, month and day. *)
Inductive level0_date : str -> Z -> option Z -> option Z -> Prop :=
| level0 t y r m d : year4 t y -> mmdd r m d -> level0_date (t ++ r) y m d.

(** The first and the last calendar day it stands for. *)
Definition first_month (m : option Z) : Z := match m with Some m => m | None => 1 end.
Definition last_month (m : option Z) : Z := match m with Some m => m | None => 12 end.
Definition first_day (d : option Z) : Z := match d with Some d => d | None => 1 end.
Definition last_day (y m' : Z) (d : option Z) : Z := match d with Some d => d | None => month_len y m' end.
(** The date exists: its day, if written, is a day of its month. *)
Definition exists_date (y : Z) (m d : option Z) : Prop := real_date y (first_month m) (first_day d).
Definition first_instant (y : Z) (m d : option Z) : Z := instant y (first_month m) (first_day d) 0 0 0.
Definition last_instant (y : Z) (m d : option Z) : Z :=
  instant y (last_month m) (last_day y (last_month m) d) 23 59 59.

Definition is_level0_date (t : str) : Prop := exists y m d, level0_date t y m d.

(** A date with a time of day and an optional zone.  The numbers are two digits
    each; that they are in range is not part of the written form. *)
Inductive zone_text : str -> Prop :=
| zone_none : zone_text []
| zone_utc : zone_text ["Z"%char]
| zone_hours c h : c = "+"%char \/ c = "-"%char -> 0 <= h <= 99 -> zone_text (c :: two h)
| zone_minutes c h m : c = "+"%char \/ c = "-"%char -> 0 <= h <= 99 -> 0 <= m <= 99 ->
    zone_text (c :: two h ++ ":"%char :: two m).
Inductive datetime_text : str -> Prop :=
| datetime_intro t h m sc z : is_level0_date t -> 0 <= h <= 99 -> 0 <= m <= 99 -> 0 <= sc <= 99 -> zone_text z ->
    datetime_text (t ++ "T"%char :: two h ++ ":"%char :: two m ++ ":"%char :: two sc ++ z).

(** Sets as the library recognises them: a bracket, dates each optionally followed
    by a comma or two dots, optional dots at both ends, and a bracket. *)
Definition set_sep (t : str) : Prop := t = [] \/ t = $"," \/ t = $"..".
Definition maybe_dots (t : str) : Prop := t = [] \/ t = $"..".
Inductive set_items : str -> Prop :=
| si_one t sep : is_level0_date t -> set_sep sep -> set_items (t ++ sep)
| si_more t sep r : is_level0_date t -> set_sep sep -> set_items r -> set_items (t ++ sep ++ r).
Inductive set_body : str -> Prop :=
| set_body_intro a r b : maybe_dots a -> set_items r -> maybe_dots b -> set_body (a ++ r ++ b).
Inductive set_string : str -> ascii -> str -> Prop :=
| set_string_intro o body c : o = "["%char \/ o = "{"%char -> set_body body -> c = "]"%char \/ c = "}"%char ->
    set_string (o :: body ++ [c]) o body.
