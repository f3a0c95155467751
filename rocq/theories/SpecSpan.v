(** Specification vocabulary for results: what it means for a bound to be a given
    civil time, and for a date to run from one calendar day to another. *)
From Coq Require Import Ascii String ZArith NArith Bool List.
From Verif Require Import GoStr SpecCal SpecGrammar Edtf.
Import ListNotations.
Open Scope Z_scope.

(** The bound is the civil time y-m-d hh:mi:ss UTC, in all three renderings. *)
Definition dated (b : date) (y m d hh mi ss : Z) : Prop :=
  d_timestamp b = Some (instant y m d hh mi ss) /\ d_datetime b = utc_text y m d hh mi ss /\
  d_ymd b = Some (mkYMD y m d) /\ d_open b = false /\ d_unknown b = false.
(** The range runs from the first second of one day to the last second of another. *)
Definition from_to (r : daterange) (y m d y' m' d' : Z) : Prop :=
  dated (r_lower r) y m d 0 0 0 /\ dated (r_upper r) y' m' d' 23 59 59.
(** The date runs from one day to another: start and end are whole days, or, for a
    complete date, the first and the last second of the day. *)
Definition runs (e : edtfdate) (y m d y' m' d' : Z) : Prop :=
  dated (r_lower (e_start e)) y m d 0 0 0 /\ dated (r_upper (e_end e)) y' m' d' 23 59 59 /\
  (from_to (e_start e) y m d y m d /\ from_to (e_end e) y' m' d' y' m' d' \/
   (y, m, d) = (y', m', d') /\ dated (r_upper (e_start e)) y m d 0 0 0 /\ dated (r_lower (e_end e)) y m d 23 59 59).
(** All four bounds carry these uncertain and approximate flags. *)
Definition flagged (e : edtfdate) (u a : N) : Prop :=
  Forall (fun b => d_uncertain b = u /\ d_approximate b = a)
    [r_lower (e_start e); r_upper (e_start e); r_lower (e_end e); r_upper (e_end e)].
Definition precise (e : edtfdate) (p : N) : Prop :=
  Forall (fun b => d_precision b = p)
    [r_lower (e_start e); r_upper (e_start e); r_lower (e_end e); r_upper (e_end e)].
(** Open and unknown ranges carry no time. *)
Definition open_range (r : daterange) : Prop :=
  forall b, b = r_lower r \/ b = r_upper r -> d_open b = true /\ d_unknown b = false /\ d_timestamp b = None /\ d_datetime b = [].
Definition unknown_range (r : daterange) : Prop :=
  forall b, b = r_lower r \/ b = r_upper r -> d_unknown b = true /\ d_open b = false /\ d_timestamp b = None /\ d_datetime b = [].
(** The range runs from the first to the last second of a level 0 date, and is
    labelled with its text. *)
Definition whole (r : daterange) (s : str) (y : Z) (m d : option Z) : Prop :=
  r_edtf r = s /\ from_to r y (first_month m) (first_day d) y (last_month m) (last_day y (last_month m) d).
(** A written end that is two dots or nothing. *)
Definition open_or_unknown (b : str) (r : daterange) : Prop := b = $".." /\ open_range r \/ b = [] /\ unknown_range r.
(** Whole months, from one to another. *)
Definition months (d : edtfdate) (a b c e : Z) : Prop :=
  from_to (e_start d) a b 1 a b 1 /\ from_to (e_end d) c e (month_len c e) c e (month_len c e) /\ flagged d 0 0 /\ precise d YEAR.
(** The components that a date has. *)
Definition components (m d : option Z) : N :=
  (YEAR + (match m with Some _ => MONTH | None => 0 end) + (match d with Some _ => DAY | None => 0 end))%N.
(** The qualifier marks. *)
Definition a_mark (q : ascii) : Prop := q = "?"%char \/ q = "~"%char \/ q = "%"%char.
Definition marks_uncertain (q : ascii) : bool := Ascii.eqb q "?" || Ascii.eqb q "%".
Definition marks_approximate (q : ascii) : bool := Ascii.eqb q "~" || Ascii.eqb q "%".
(** The span of a date, with a qualifier on every component it has. *)
Definition qualified_as (e : edtfdate) (q : ascii) (y : Z) (m d : option Z) : Prop :=
  runs e y (first_month m) (first_day d) y (last_month m) (last_day y (last_month m) d) /\
  flagged e (if marks_uncertain q then components m d else 0) (if marks_approximate q then components m d else 0).

(** A date of one to three components, each with an optional qualifier mark. *)
Inductive qdate :=
| qd_y (y : Z) (p : option ascii)
| qd_ym (y : Z) (p : option ascii) (m : Z) (q : option ascii)
| qd_ymd (y : Z) (p : option ascii) (m : Z) (q : option ascii) (d : Z) (r : option ascii).
Definition q_year (x : qdate) : Z := match x with qd_y y _ | qd_ym y _ _ _ | qd_ymd y _ _ _ _ _ => y end.
Definition q_month (x : qdate) : option Z := match x with qd_y _ _ => None | qd_ym _ _ m _ | qd_ymd _ _ m _ _ _ => Some m end.
Definition q_day (x : qdate) : option Z := match x with qd_ymd _ _ _ _ d _ => Some d | _ => None end.
(** The marks of year, month and day. *)
Definition q_marks (x : qdate) : option ascii * option ascii * option ascii :=
  match x with qd_y _ p => (p, None, None) | qd_ym _ p _ q => (p, q, None) | qd_ymd _ p _ q _ r => (p, q, r) end.
Definition mark_text (q : option ascii) : str := match q with Some c => [c] | None => [] end.
(** Marks after the components (group) and before them (individual). *)
Definition group_text (x : qdate) : str :=
  match x with
  | qd_y y p => four y ++ mark_text p
  | qd_ym y p m q => four y ++ mark_text p ++ $"-" ++ two m ++ mark_text q
  | qd_ymd y p m q d r => four y ++ mark_text p ++ $"-" ++ two m ++ mark_text q ++ $"-" ++ two d ++ mark_text r
  end.
Definition individual_text (x : qdate) : str :=
  match x with
  | qd_y y p => mark_text p ++ four y
  | qd_ym y p m q => mark_text p ++ four y ++ $"-" ++ mark_text q ++ two m
  | qd_ymd y p m q d r => mark_text p ++ four y ++ $"-" ++ mark_text q ++ two m ++ $"-" ++ mark_text r ++ two d
  end.
Definition mark_ok (q : option ascii) : Prop := match q with Some c => a_mark c | None => True end.
(** Four digit year, existing date, and the marks are marks. *)
Definition q_ok (x : qdate) : Prop :=
  0 <= q_year x <= 9999 /\ exists_date (q_year x) (q_month x) (q_day x) /\
  match q_marks x with (p, q, r) => mark_ok p /\ mark_ok q /\ mark_ok r end.
Definition has_mark (f : ascii -> bool) (q : option ascii) : bool := match q with Some c => f c | None => false end.
Definition bits (y m d : bool) : N := ((if y then YEAR else 0) + (if m then MONTH else 0) + (if d then DAY else 0))%N.
(** A mark after a component applies to it and to all before it. *)
Definition group_bits (f : ascii -> bool) (x : qdate) : N :=
  match q_marks x with
  | (p, q, r) => bits (has_mark f p || has_mark f q || has_mark f r) (has_mark f q || has_mark f r) (has_mark f r)
  end.
(** A mark before a component applies to it alone. *)
Definition individual_bits (f : ascii -> bool) (x : qdate) : N :=
  match q_marks x with (p, q, r) => bits (has_mark f p) (has_mark f q) (has_mark f r) end.
(** The result is the span of the bare date with these flags. *)
Definition q_result (e : edtfdate) (x : qdate) (u a : N) : Prop :=
  runs e (q_year x) (first_month (q_month x)) (first_day (q_day x))
         (q_year x) (last_month (q_month x)) (last_day (q_year x) (last_month (q_month x)) (q_day x)) /\ flagged e u a.

(** The end of a sub-year grouping: the last day of its last month, or, for a
    grouping that runs into the next year (j = 1), that whole month. *)
Definition grouping_end (r : daterange) (y e j : Z) : Prop :=
  from_to r y e (if j =? 0 then month_len y e else 1) y e (month_len y e).
