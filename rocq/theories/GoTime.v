(** The part of Go's [time] package that go-edtf uses.

    A [time.Time] is modelled by its UTC Unix seconds: the code converts every
    time to UTC before looking at it, and nanoseconds are never observable
    (results expose [Unix()] and the RFC 3339 text only). *)
From Coq Require Import Ascii String ZArith NArith Bool List.
From Verif Require Import GoStr.
Import ListNotations.
Open Scope Z_scope.

Definition time := Z.

(** time.isLeap *)
Definition is_leap (y : Z) : bool :=
  (y mod 4 =? 0) && (negb (y mod 100 =? 0) || (y mod 400 =? 0)).

(** time.daysBefore: days before month m+1 in a non leap year. *)
Definition days_before : list Z := [0; 31; 59; 90; 120; 151; 181; 212; 243; 273; 304; 334; 365].
Definition db (i : Z) : Z := nth (Z.to_nat i) days_before 0.

(** time.daysIn *)
Definition days_in (m y : Z) : Z :=
  if (m =? 2) && is_leap y then 29 else db m - db (m - 1).

(** time.daysSinceEpoch: days from the start of year 1 to the start of [year],
    by 400, 100, 4 and 1 year cycles.  Go counts from absoluteZeroYear
    (-292277022399) in unsigned arithmetic; that year is 1 modulo 400, so counting
    from year 1 with floor division gives the same day numbers. *)
Definition days_to_year (year : Z) : Z :=
  let y := year - 1 in
  let n := y / 400 in let y := y - 400 * n in let d := 146097 * n in
  let n := y / 100 in let y := y - 100 * n in let d := d + 36524 * n in
  let n := y / 4 in let y := y - 4 * n in let d := d + 1461 * n in
  d + 365 * y.

(** Days from 0001-01-01 to 1970-01-01. *)
Definition unix_day0 : Z := 719162.

(** time.Date(y, m, d, 0, 0, 0, 0, UTC) as a Unix day number, for months 1..12
    (the code never passes other months); the day may be out of range, it is
    added linearly as Go does. *)
Definition unix_day (y m d : Z) : Z :=
  days_to_year y + db (m - 1) + (if is_leap y && (3 <=? m) then 1 else 0) + (d - 1) - unix_day0.

Definition time_date (y m d hh mi ss : Z) : time :=
  unix_day y m d * 86400 + hh * 3600 + mi * 60 + ss.

(** Time.Date(): Go's absDate on the day number counted from year 1. *)
Definition civil_of_day (unixday : Z) : Z * Z * Z :=
  let d := unixday + unix_day0 in
  let n := d / 146097 in let y := 400 * n in let d := d - 146097 * n in
  let n := d / 36524 in let n := n - n / 4 in let y := y + 100 * n in let d := d - 36524 * n in
  let n := d / 1461 in let y := y + 4 * n in let d := d - 1461 * n in
  let n := d / 365 in let n := n - n / 4 in let y := y + n in let d := d - 365 * n in
  let year := y + 1 in
  let yday := d in
  if is_leap year && (yday =? 59) then (year, 2, 29)
  else
    let day := if is_leap year && (59 <? yday) then yday - 1 else yday in
    let month := day / 31 in
    let en := db (month + 1) in
    if en <=? day then (year, month + 2, day - en + 1)
    else (year, month + 1, day - db month + 1).

Definition t_day (t : time) : Z := t / 86400.
Definition t_secs (t : time) : Z := t mod 86400.
(** Time.Date, Time.Year, Time.Day *)
Definition t_civil (t : time) : Z * Z * Z := civil_of_day (t_day t).
Definition t_year (t : time) : Z := fst (fst (t_civil t)).
Definition t_mday (t : time) : Z := snd (t_civil t).

(** Time.AddDate(years, 0, days) *)
Definition add_date (t : time) (years days : Z) : time :=
  let '(y, m, d) := t_civil t in
  time_date (y + years) m (d + days) 0 0 0 + t_secs t.

(** Time.Format(time.RFC3339) of a UTC time. *)
Definition format_rfc3339 (t : time) : str :=
  let '(y, m, d) := t_civil t in
  let s := t_secs t in
  append_int 4 y ++ $"-" ++ append_int 2 m ++ $"-" ++ append_int 2 d ++ $"T" ++
  append_int 2 (s / 3600) ++ $":" ++ append_int 2 (s / 60 mod 60) ++ $":" ++ append_int 2 (s mod 60) ++ $"Z".

(** ** time.Parse *)

(** Layout elements (time.nextStdChunk), restricted to those that occur in the
    layouts of level0/date_and_time.go:43-63, common/time.go:45 and
    calendar/calendar.go:64. *)
Inductive tok := TYear | TMonth | TDay | THour | TMin | TSec | TZColon | TZShort | TLit (c : ascii).
Definition std_chunk (s : str) : option (tok * nat) :=
  if has_prefix s ($"2006") then Some (TYear, 4%nat)
  else if has_prefix s ($"01") then Some (TMonth, 2%nat)
  else if has_prefix s ($"02") then Some (TDay, 2%nat)
  else if has_prefix s ($"15") then Some (THour, 2%nat)
  else if has_prefix s ($"04") then Some (TMin, 2%nat)
  else if has_prefix s ($"05") then Some (TSec, 2%nat)
  else if has_prefix s ($"-07:00") then Some (TZColon, 6%nat)
  else if has_prefix s ($"-07") then Some (TZShort, 3%nat)
  else None.
Fixpoint layout_toks (s : str) (skip : nat) : list tok :=
  match s with
  | [] => []
  | c :: s' =>
      match skip with
      | S k => layout_toks s' k
      | O => match std_chunk s with
             | Some (t, n) => t :: layout_toks s' (pred n)
             | None => TLit c :: layout_toks s' 0
             end
      end
  end.

(** time.getnum *)
Definition getnum (s : str) (fixed : bool) : option (Z * str) :=
  match s with
  | a :: t =>
      if is_digit a then
        match t with
        | b :: u => if is_digit b then Some (digit_val a * 10 + digit_val b, u)
                    else if fixed then None else Some (digit_val a, t)
        | [] => if fixed then None else Some (digit_val a, t)
        end
      else None
  | [] => None
  end.

Fixpoint skip_digits (s : str) : str :=
  match s with
  | c :: t => if is_digit c then skip_digits t else s
  | [] => []
  end.

Record parts := mkparts { pt_y : Z; pt_mo : Z; pt_d : Z; pt_h : Z; pt_mi : Z; pt_s : Z; pt_zone : Z }.

(** Zone offset from sign, two hour digits and two minute digits.  The limits 24
    and 60 are those of Go 1.20 and later. *)
Definition zone_offset (sign : ascii) (hour min : str) : option Z :=
  match getnum hour true, getnum min true with
  | Some (hr, _), Some (mm, _) =>
      if (24 <? hr) || (60 <? mm) then None
      else let off := (hr * 60 + mm) * 60 in
           if Ascii.eqb sign "+" then Some off
           else if Ascii.eqb sign "-" then Some (- off) else None
  | _, _ => None
  end.

(** The main loop of time.parse; [None] is an error. *)
Fixpoint parse_toks (l : list tok) (v : str) (p : parts) : option parts :=
  match l with
  | [] => match v with [] => Some p | _ => None end   (* extra text *)
  | TLit c :: l' =>
      match v with
      | d :: v' => if Ascii.eqb c d then parse_toks l' v' p else None
      | [] => None
      end
  | TYear :: l' =>
      match v with
      | a :: b :: c :: d :: v' =>
          match dec_val 0 [a; b; c; d] with
          | Some y => parse_toks l' v' (mkparts y (pt_mo p) (pt_d p) (pt_h p) (pt_mi p) (pt_s p) (pt_zone p))
          | None => None
          end
      | _ => None
      end
  | TMonth :: l' =>
      match getnum v true with
      | Some (n, v') =>
          if (1 <=? n) && (n <=? 12)
          then parse_toks l' v' (mkparts (pt_y p) n (pt_d p) (pt_h p) (pt_mi p) (pt_s p) (pt_zone p))
          else None
      | None => None
      end
  | TDay :: l' =>
      match getnum v true with
      | Some (n, v') => parse_toks l' v' (mkparts (pt_y p) (pt_mo p) n (pt_h p) (pt_mi p) (pt_s p) (pt_zone p))
      | None => None
      end
  | THour :: l' =>
      match getnum v false with
      | Some (n, v') =>
          if n <? 24
          then parse_toks l' v' (mkparts (pt_y p) (pt_mo p) (pt_d p) n (pt_mi p) (pt_s p) (pt_zone p))
          else None
      | None => None
      end
  | TMin :: l' =>
      match getnum v true with
      | Some (n, v') =>
          if n <? 60
          then parse_toks l' v' (mkparts (pt_y p) (pt_mo p) (pt_d p) (pt_h p) n (pt_s p) (pt_zone p))
          else None
      | None => None
      end
  | TSec :: l' =>
      match getnum v true with
      | Some (n, v') =>
          if n <? 60
          then
            (* fractional seconds are accepted in the value even if the layout has none *)
            let v'' := match v' with
                       | c :: d :: t => if (Ascii.eqb c "." || Ascii.eqb c ",") && is_digit d
                                        then skip_digits t else v'
                       | _ => v'
                       end in
            parse_toks l' v'' (mkparts (pt_y p) (pt_mo p) (pt_d p) (pt_h p) (pt_mi p) n (pt_zone p))
          else None
      | None => None
      end
  | TZColon :: l' =>
      match v with
      | sg :: h1 :: h2 :: co :: m1 :: m2 :: v' =>
          if Ascii.eqb co ":" then
            match zone_offset sg [h1; h2] [m1; m2] with
            | Some z => parse_toks l' v' (mkparts (pt_y p) (pt_mo p) (pt_d p) (pt_h p) (pt_mi p) (pt_s p) z)
            | None => None
            end
          else None
      | _ => None
      end
  | TZShort :: l' =>
      match v with
      | sg :: h1 :: h2 :: v' =>
          match zone_offset sg [h1; h2] ($"00") with
          | Some z => parse_toks l' v' (mkparts (pt_y p) (pt_mo p) (pt_d p) (pt_h p) (pt_mi p) (pt_s p) z)
          | None => None
          end
      | _ => None
      end
  end.

(** time.Parse(layout, value), converted to UTC. *)
Definition time_parse (layout value : str) : res time :=
  match parse_toks (layout_toks layout 0) value (mkparts 0 1 1 0 0 0 0) with
  | Some p =>
      if (1 <=? pt_d p) && (pt_d p <=? days_in (pt_mo p) (pt_y p))
      then OK (time_date (pt_y p) (pt_mo p) (pt_d p) (pt_h p) (pt_mi p) (pt_s p) - pt_zone p)
      else Err (ETime layout value)
  | None => Err (ETime layout value)
  end.
