(** Specification: the proleptic Gregorian calendar and its textual forms.
    Nothing here uses the model of the library. *)
From Coq Require Import Ascii String ZArith NArith Bool Lia ZifyBool List.
From Verif Require Import GoStr.
Import ListNotations.
Open Scope Z_scope.

(** Leap years: divisible by 4, except centuries not divisible by 400.  Year 0 is
    the year before year 1 (astronomical numbering, as EDTF prescribes). *)
Definition leap_year (y : Z) : Prop := (y mod 4 = 0 /\ y mod 100 <> 0) \/ y mod 400 = 0.
Definition leap_yearb (y : Z) : bool := ((y mod 4 =? 0) && negb (y mod 100 =? 0)) || (y mod 400 =? 0).

Definition month_len (y m : Z) : Z :=
  if m =? 2 then (if leap_yearb y then 29 else 28)
  else if (m =? 4) || (m =? 6) || (m =? 9) || (m =? 11) then 30 else 31.

Definition real_date (y m d : Z) : Prop := 1 <= m <= 12 /\ 1 <= d <= month_len y m.
Definition real_dateb (y m d : Z) : bool :=
  (1 <=? m) && (m <=? 12) && (1 <=? d) && (d <=? month_len y m).

(** The calendar day after a day. *)
Definition next_day (y m d : Z) : Z * Z * Z :=
  if d <? month_len y m then (y, m, d + 1)
  else if m <? 12 then (y, m + 1, 1)
  else (y + 1, 1, 1).

(** Day number: days since 1970-01-01.  [leaps_before y] counts the leap years
    before year [y] (up to a constant). *)
Definition leaps_before (y : Z) : Z := (y - 1) / 4 - (y - 1) / 100 + (y - 1) / 400.
Fixpoint month_sum (y : Z) (n : nat) : Z :=    (* days in the first n months *)
  match n with
  | O => 0
  | S k => month_sum y k + month_len y (Z.of_nat n)
  end.
Definition epoch_day (y m d : Z) : Z :=
  365 * (y - 1970) + (leaps_before y - leaps_before 1970) + month_sum y (Z.to_nat (m - 1)) + (d - 1).

(** Seconds since 1970-01-01T00:00:00Z. *)
Definition instant (y m d hh mi ss : Z) : Z := epoch_day y m d * 86400 + hh * 3600 + mi * 60 + ss.

(** Text forms. *)
Definition digit_char (n : Z) : ascii := ascii_of_N (48 + Z.to_N n).
Definition two (n : Z) : str := [digit_char (n / 10); digit_char (n mod 10)].
Definition four (n : Z) : str :=
  [digit_char (n / 1000); digit_char (n / 100 mod 10); digit_char (n / 10 mod 10); digit_char (n mod 10)].
(** A four digit year, with a minus sign for negative years. *)
Definition year_text (y : Z) : str := if y <? 0 then "-"%char :: four (- y) else four y.
Definition month_text (y m : Z) : str := year_text y ++ $"-" ++ two m.
Definition day_text (y m d : Z) : str := year_text y ++ $"-" ++ two m ++ $"-" ++ two d.
Definition clock_text (hh mi ss : Z) : str := two hh ++ $":" ++ two mi ++ $":" ++ two ss.
(** RFC 3339 in UTC. *)
Definition utc_text (y m d hh mi ss : Z) : str := day_text y m d ++ $"T" ++ clock_text hh mi ss ++ $"Z".

(** ** The day number is the one determined by 1970-01-01 and "next day" *)
Ltac Zify.zify_post_hook ::= Z.div_mod_to_equations.

Lemma leap_yearb_spec y : leap_yearb y = true <-> leap_year y.
Proof. unfold leap_yearb, leap_year. lia. Qed.

Lemma epoch_1970 : epoch_day 1970 1 1 = 0.
Proof. reflexivity. Qed.

Lemma month_sum_13 y : month_sum y 12 = if leap_yearb y then 366 else 365.
Proof. cbn [month_sum]. unfold month_len. cbn. destruct (leap_yearb y); reflexivity. Qed.

Lemma leaps_step y : leaps_before (y + 1) = leaps_before y + (if leap_yearb y then 1 else 0).
Proof. unfold leaps_before, leap_yearb. destruct (_ || _) eqn:E; lia. Qed.

Lemma epoch_next y m d : real_date y m d ->
  let '(y', m', d') := next_day y m d in
  epoch_day y' m' d' = epoch_day y m d + 1 /\ real_date y' m' d'.
Proof.
  intros (Hm & Hd). unfold next_day.
  assert (Hl : forall y m, 28 <= month_len y m <= 31).
  { intros y0 m0. unfold month_len. destruct (m0 =? 2); [destruct (leap_yearb y0); lia|destruct (_ || _ || _ || _); lia]. }
  destruct (d <? month_len y m) eqn:E1.
  - split; [unfold epoch_day; lia|split; lia].
  - assert (d = month_len y m) by lia. subst d. destruct (m <? 12) eqn:E2.
    + split; [|split; [lia|pose proof (Hl y (m + 1)); lia]]. unfold epoch_day.
      replace (Z.to_nat (m + 1 - 1)) with (S (Z.to_nat (m - 1))) by lia.
      cbn [month_sum]. replace (Z.of_nat (S (Z.to_nat (m - 1)))) with m by lia. lia.
    + assert (m = 12) by lia. subst m.
      split; [|split; [lia|pose proof (Hl (y + 1) 1); lia]]. unfold epoch_day.
      rewrite leaps_step. change (Z.to_nat (12 - 1)) with 11%nat. change (Z.to_nat (1 - 1)) with 0%nat.
      pose proof (month_sum_13 y) as H13. change (month_sum y 12) with (month_sum y 11 + month_len y 12) in H13.
      change (month_sum (y + 1) 0) with 0. destruct (leap_yearb y); lia.
Qed.
