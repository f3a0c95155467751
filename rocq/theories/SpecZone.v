(** Specification vocabulary for zone designators. *)
From Coq Require Import Ascii String ZArith NArith Bool List.
From Verif Require Import GoStr SpecCal.
Import ListNotations.
Open Scope Z_scope.

(** What a zone designator says, as seconds east of UTC.  A missing designator is
    UTC; hours go up to 24 and minutes up to 60, which is what time.Parse takes. *)
Inductive zone_means : str -> Z -> Prop :=
| zm_none : zone_means [] 0
| zm_utc : zone_means ["Z"%char] 0
| zm_east h : 0 <= h <= 24 -> zone_means ("+"%char :: two h) (h * 3600)
| zm_west h : 0 <= h <= 24 -> zone_means ("-"%char :: two h) (- (h * 3600))
| zm_east_min h m : 0 <= h <= 24 -> 0 <= m <= 60 -> zone_means ("+"%char :: two h ++ ":"%char :: two m) (h * 3600 + m * 60)
| zm_west_min h m : 0 <= h <= 24 -> 0 <= m <= 60 -> zone_means ("-"%char :: two h ++ ":"%char :: two m) (- (h * 3600 + m * 60)).

(** The text of a complete date with a time of day and a zone designator. *)
Definition stamp_text (y m d hh mi ss : Z) (z : str) : str :=
  day_text y m d ++ "T"%char :: clock_text hh mi ss ++ z.
