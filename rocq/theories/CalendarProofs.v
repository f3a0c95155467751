(** DaysInMonth for all integers and DaysInMonthWithString for all strings. *)
From Coq Require Import Ascii String ZArith NArith Bool Lia ZifyBool List.
From Verif Require Import GoStr GoTime SpecCal SpecText SpecPeriod StrFacts TextFacts Edtf Calendar Common CalFacts ApiFacts SpanFacts.
Import ListNotations.
Open Scope Z_scope.
Ltac Zify.zify_post_hook ::= Z.div_mod_to_equations.

Lemma long_year l n r p : 10000 <= n -> parse_toks (TYear :: TLit "-" :: l) (fmt_0d 4 n ++ r) p = None.
Proof.
  intro H. unfold fmt_0d. replace (n <? 0) with false by lia. destruct (digits_ok n ltac:(lia)) as (Hd & _ & _).
  pose proof (proj1 (digits_len n ltac:(lia))) as Hl. unfold pad0.
  assert (L : (5 <= length (digits n))%nat).
  { destruct (le_lt_dec 5 (length (digits n))) as [L|L]; [exact L|]. exfalso.
    assert (10 ^ Z.of_nat (length (digits n)) <= 10 ^ 4) by (apply Z.pow_le_mono_r; lia). change (10 ^ 4) with 10000 in *. lia. }
  replace (4 - length (digits n))%nat with 0%nat by lia. cbn [zeros repeat app].
  destruct (digits n) as [|a [|b [|c [|d [|e t]]]]]; cbn [length] in L; try lia. cbn [app parse_toks].
  destruct (dec_val 0 [a; b; c; d]); [|reflexivity].
  destruct (Ascii.eqb "-" e) eqn:E; [|reflexivity]. apply Ascii.eqb_eq in E. subst e.
  unfold digit_str in Hd. rewrite Forall_forall in Hd. specialize (Hd "-"%char). exfalso.
  discriminate Hd. do 4 right. left. reflexivity.
Qed.
Lemma days_far y m : min_int64 <= y <= max_int64 -> ~ -9999 <= y <= 9999 -> exists e, DaysInMonth y m = Err e.
Proof.
  intros Hy Hn. unfold DaysInMonth. cbv zeta. set (nm := if 12 <=? m then 1 else wrap64 (m + 1)).
  set (y0 := if y <? 0 then wrap64 (y - wrap64 (y * 2)) else y).
  assert (Hy0 : y0 = Z.abs y \/ y0 = min_int64).
  { unfold y0. destruct (y <? 0) eqn:E; [|left; lia]. change (wrap64 (y - wrap64 (y * 2))) with (FlipYear y).
    destruct (Z.eq_dec y min_int64) as [->|Hm]; [right; reflexivity|].
    left. unfold min_int64, max_int64 in *. rewrite FlipYear_neg; unfold two63; lia. }
  assert (E : forall r p, parse_toks [TYear; TLit "-"; TMonth; TLit "-"; TDay] (fmt_0d 4 y0 ++ r) p = None).
  { intros r p. destruct Hy0 as [-> | ->]; [apply long_year; lia|].
    unfold fmt_0d. change (min_int64 <? 0) with true. cbv iota. apply toks_year_minus. }
  unfold time_parse. rewrite layout_date, E. eexists. reflexivity.
Qed.
Lemma days_none y m : -9999 <= y <= 9999 -> min_int64 <= m < 0 -> exists e, DaysInMonth y m = Err e.
Proof.
  intros Hy Hm. assert (H : exists r, DaysInMonth y m = r) by eauto. destruct H as (r & H).
  assert (Hp : r <> Panic).
  { subst r. unfold DaysInMonth, time_parse. cbv zeta. destruct (parse_toks _ _ _) as [p|]; [|discriminate].
    destruct (_ && _); discriminate. }
  destruct r as [n|e|]; [|eauto|tauto]. exfalso.
  assert (Q : exists a, 0 <= a <= 9999 /\ DaysInMonth a m = OK n).
  { destruct (Z_lt_le_dec y 0) as [E|E]; [|exists y; split; [lia|exact H]].
    exists (- y). split; [lia|]. rewrite <- H. unfold DaysInMonth.
    replace (- y <? 0) with false by lia. replace (y <? 0) with true by lia.
    change (wrap64 (y - wrap64 (y * 2))) with (FlipYear y). rewrite FlipYear_neg by (unfold two63; lia). reflexivity. }
  destruct Q as (a & Ha & Q). apply DaysInMonth_inv in Q; lia.
Qed.
Lemma days_like_12 y m : m = 0 \/ 12 <= m -> DaysInMonth y m = DaysInMonth y 12.
Proof.
  intro H. unfold DaysInMonth. cbv zeta. change (12 <=? 12) with true. cbv iota. destruct H as [-> | H].
  - change (12 <=? 0) with false. cbv iota. change (wrap64 (0 + 1)) with 1. reflexivity.
  - replace (12 <=? m) with true by lia. reflexivity.
Qed.
Theorem days_total y m : min_int64 <= y <= max_int64 -> min_int64 <= m <= max_int64 ->
  (-9999 <= y <= 9999 /\ 0 <= m -> DaysInMonth y m = OK (if (1 <=? m) && (m <=? 12) then month_len y m else 31)) /\
  (~ (-9999 <= y <= 9999 /\ 0 <= m) -> exists e, DaysInMonth y m = Err e).
Proof.
  intros Hy Hm. split.
  - intros (H1 & H2). destruct ((1 <=? m) && (m <=? 12)) eqn:E; [apply DaysInMonth_ok; lia|].
    rewrite days_like_12 by lia. rewrite DaysInMonth_ok by lia. reflexivity.
  - intro H. assert (D : ~ -9999 <= y <= 9999 \/ -9999 <= y <= 9999 /\ m < 0) by lia.
    destruct D as [D|(D & D')]; [apply days_far; assumption|apply days_none; lia].
Qed.

(** ** Strings *)
Lemma dash_app : $"-" = ["-"%char]. Proof. reflexivity. Qed.
Theorem days_string s n : DaysInMonthWithString s = OK n <->
  exists a b y m, year_and_month s a b /\ integer_text a y /\ integer_text b m /\
    -9999 <= y <= 9999 /\ 0 <= m <= max_int64 /\ n = if (1 <=? m) && (m <=? 12) then month_len y m else 31.
Proof.
  unfold DaysInMonthWithString. rewrite dash_app. split.
  - intro H. assert (Q : exists a b, year_and_month s a b /\ (let* y := atoi a in let* m := atoi b in DaysInMonth y m) = OK n).
    { destruct (split s ["-"%char]) as [|x [|b [|c [|d l]]]] eqn:E; try discriminate H.
      - apply split_inv2 in E. destruct E as (-> & H1 & H2). exists x, b. split; [constructor; assumption|exact H].
      - apply split_inv_cons in E. destruct E as (t & -> & Hx & E). apply split_inv2 in E. destruct E as (-> & H1 & H2).
        exists ("-"%char :: b), c. split; [constructor; assumption|exact H]. }
    destruct Q as (a & b & Hs & Q). apply bind_OK in Q. destruct Q as (y & Hy & Q). apply bind_OK in Q. destruct Q as (m & Hm & Q).
    apply atoi_spec in Hy, Hm. destruct Hy as (Ty & Ry), Hm as (Tm & Rm).
    destruct (days_total y m Ry Rm) as (D1 & D2).
    assert (D : -9999 <= y <= 9999 /\ 0 <= m).
    { assert (Z : (-9999 <= y <= 9999 /\ 0 <= m) \/ ~ (-9999 <= y <= 9999 /\ 0 <= m)) by lia. destruct Z as [Z|Z]; [exact Z|].
      destruct (D2 Z) as (e & F). rewrite F in Q. discriminate Q. }
    rewrite (D1 D) in Q. injection Q as <-. exists a, b, y, m. repeat (split; [assumption|]). split; [lia|]. split; [lia|reflexivity].
  - intros (a & b & y & m & Hs & Ty & Tm & Hy & Hm & ->).
    assert (Ry : min_int64 <= y <= max_int64) by (unfold min_int64, max_int64; lia).
    assert (Rm : min_int64 <= m <= max_int64) by (unfold min_int64; lia).
    assert (Ay : atoi a = OK y) by (apply atoi_spec; split; assumption).
    assert (Am : atoi b = OK m) by (apply atoi_spec; split; assumption).
    pose proof (proj1 (days_total y m Ry Rm) ltac:(lia)) as D.
    destruct Hs as [a b Ha Hb|x a b Hx Ha Hb].
    + rewrite split_two by assumption. rewrite Ay, Am. exact D.
    + rewrite split_one by assumption. rewrite split_two by assumption. change (["-"%char] ++ a) with ("-"%char :: a). rewrite Ay. cbn [bind]. rewrite Am. exact D.
Qed.
Lemma days_string_no_panic s : DaysInMonthWithString s <> Panic.
Proof.
  assert (T : forall y m, DaysInMonth y m <> Panic).
  { intros y m. unfold DaysInMonth, time_parse. cbv zeta. destruct (parse_toks _ _ _) as [p|]; [|discriminate]. destruct (_ && _); discriminate. }
  assert (A : forall a b, (let* y := atoi a in let* m := atoi b in DaysInMonth y m) <> Panic).
  { intros a b. pose proof (atoi_not_panic a). pose proof (atoi_not_panic b). destruct (atoi a), (atoi b); try tauto; try discriminate. apply T. }
  unfold DaysInMonthWithString. destruct (split s _) as [|x [|b [|c [|d l]]]]; try discriminate; apply A.
Qed.
Lemma days_refuted : DaysInMonth 1985 0 = OK 31 /\ DaysInMonth 1985 13 = OK 31 /\ DaysInMonthWithString ($"x-1985-02") = OK 28.
Proof. vm_compute. repeat split. Qed.
