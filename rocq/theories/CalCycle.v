(** Go's day number to date conversion: the cycle arithmetic, and the table of the
    days of one year. *)
From Coq Require Import ZArith NArith Bool Lia ZifyBool List.
From Verif Require Import GoTime SpecCal StrFacts.
Import ListNotations.
Open Scope Z_scope.
Ltac Zify.zify_post_hook ::= Z.div_mod_to_equations.

(** Month and day of a day of the year (counted from 0), the last part of absDate. *)
Definition day_of_year (leap : bool) (yday : Z) : Z * Z :=
  if leap && (yday =? 59) then (2, 29)
  else
    let day := if leap && (59 <? yday) then yday - 1 else yday in
    let month := day / 31 in
    let en := db (month + 1) in
    if en <=? day then (month + 2, day - en + 1) else (month + 1, day - db month + 1).

Definition doy_ok (leap : bool) (yday : Z) : bool :=
  let '(m, d) := day_of_year leap yday in
  (1 <=? m) && (m <=? 12) && (1 <=? d) && (d <=? month_len (if leap then 4 else 1) m) &&
  (db (m - 1) + (if leap && (3 <=? m) then 1 else 0) + (d - 1) =? yday).
Lemma doy_leap : forallb (doy_ok true) (zrange 0 (N.to_nat 366)) = true.
Proof. vm_compute. reflexivity. Qed.
Lemma doy_common : forallb (doy_ok false) (zrange 0 (N.to_nat 365)) = true.
Proof. vm_compute. reflexivity. Qed.

Lemma leap_month_len y m : month_len y m = month_len (if is_leap y then 4 else 1) m.
Proof.
  unfold month_len. replace (leap_yearb y) with (is_leap y) by (unfold is_leap, leap_yearb; lia).
  destruct (is_leap y); reflexivity.
Qed.

(** Year and day of the year of a day number counted from 0001-01-01. *)
Definition year_part (d : Z) : Z * Z :=
  let n := d / 146097 in let y := 400 * n in let d := d - 146097 * n in
  let n := d / 36524 in let n := n - n / 4 in let y := y + 100 * n in let d := d - 36524 * n in
  let n := d / 1461 in let y := y + 4 * n in let d := d - 1461 * n in
  let n := d / 365 in let n := n - n / 4 in let y := y + n in let d := d - 365 * n in
  (y + 1, d).

Lemma civil_split n :
  civil_of_day n = let '(y, yday) := year_part (n + unix_day0) in
                   let '(m, d) := day_of_year (is_leap y) yday in (y, m, d).
Proof.
  unfold civil_of_day, year_part, day_of_year. cbv zeta.
  match goal with |- context [is_leap ?a && (?b =? 59)] => generalize a b end. intros yy yd.
  destruct (is_leap yy && (yd =? 59)); [reflexivity|].
  destruct (db _ <=? _); reflexivity.
Qed.

Lemma cycle_year n c q k : 0 <= c <= 3 -> 0 <= q <= 24 -> 0 <= k <= 3 ->
  days_to_year (400 * n + 100 * c + 4 * q + k + 1) = 146097 * n + 36524 * c + 1461 * q + 365 * k /\
  is_leap (400 * n + 100 * c + 4 * q + k + 1) = (k =? 3) && (negb (q =? 24) || (c =? 3)).
Proof.
  intros Hc Hq Hk. split.
  - unfold days_to_year. cbv zeta. lia.
  - unfold is_leap.
    assert (H4 : (400 * n + 100 * c + 4 * q + k + 1) mod 4 = (k + 1) mod 4) by lia.
    assert (H100 : (400 * n + 100 * c + 4 * q + k + 1) mod 100 = (4 * q + k + 1) mod 100) by lia.
    assert (H400 : (400 * n + 100 * c + 4 * q + k + 1) mod 400 = (100 * c + 4 * q + k + 1) mod 400) by lia.
    rewrite H4, H100, H400. lia.
Qed.

Lemma year_part_ok d : let '(y, yday) := year_part d in
  days_to_year y + yday = d /\ 0 <= yday < 365 + (if is_leap y then 1 else 0).
Proof.
  unfold year_part. cbv zeta.
  set (n := d / 146097). assert (Hn : 0 <= d - 146097 * n <= 146096) by (unfold n; lia).
  remember (d - 146097 * n) as r0 eqn:E0.
  set (c := r0 / 36524 - r0 / 36524 / 4).
  assert (Hc : 0 <= c <= 3 /\ 0 <= r0 - 36524 * c <= 36524 /\ (c < 3 -> r0 - 36524 * c < 36524)) by (unfold c; lia).
  remember (r0 - 36524 * c) as r1 eqn:E1. clearbody c.
  set (q := r1 / 1461).
  assert (Hq : 0 <= q <= 24 /\ 0 <= r1 - 1461 * q <= 1460 /\ (q = 24 -> c < 3 -> r1 - 1461 * q < 1460)) by (unfold q; lia).
  remember (r1 - 1461 * q) as r2 eqn:E2. clearbody q.
  set (k := r2 / 365 - r2 / 365 / 4).
  assert (Hk : 0 <= k <= 3 /\ 0 <= r2 - 365 * k <= 365 /\ (k < 3 -> r2 - 365 * k < 365)) by (unfold k; lia).
  clearbody k n.
  destruct (cycle_year n c q k) as (Hd & Hl); [tauto..|]. rewrite Hd, Hl.
  destruct ((k =? 3) && _) eqn:E; lia.
Qed.

(** The date found for a day number is a real date with that day number. *)
Lemma civil_ok n : let '(y, m, d) := civil_of_day n in
  1 <= m <= 12 /\ 1 <= d <= month_len y m /\ unix_day y m d = n.
Proof.
  rewrite civil_split. pose proof (year_part_ok (n + unix_day0)) as Hy.
  destruct (year_part _) as (y & yd). destruct Hy as (Hy & Hr).
  assert (Hd : doy_ok (is_leap y) yd = true).
  { destruct (is_leap y).
    - apply (zrange_forall (doy_ok true) 0 366 doy_leap). lia.
    - apply (zrange_forall (doy_ok false) 0 365 doy_common). lia. }
  unfold doy_ok in Hd. destruct (day_of_year (is_leap y) yd) as (m & d).
  rewrite leap_month_len. unfold unix_day. lia.
Qed.
