(** Package common: what a successful YMDFromStrings, dateSpanFromYMD or
    DateSpanFromEDTF returns, for arbitrary strings. *)
From Coq Require Import Ascii String ZArith NArith Bool Lia ZifyBool List.
From Verif Require Import GoStr GoTime Regex SpecCal SpecText StrFacts TextFacts Edtf Calendar Common CalFacts ApiFacts.
Import ListNotations.
Open Scope Z_scope.
Ltac Zify.zify_post_hook ::= Z.div_mod_to_equations.

Lemma is_empty_spec s : is_empty s = true <-> s = [].
Proof. destruct s; cbn; split; congruence. Qed.
Lemma is_empty_false s : is_empty s = false <-> s <> [].
Proof. destruct s; cbn; split; congruence. Qed.

(** ** DaysInMonth outside the months 1..12 *)
Lemma toks_year_minus l r p : parse_toks (TYear :: l) ("-"%char :: r) p = None.
Proof. cbn [parse_toks]. destruct r as [|b [|c [|d r]]]; reflexivity. Qed.
Lemma DaysInMonth_inv y m r : (0 <= y <= 9999 \/ y = min_int64) -> min_int64 <= m <= 12 -> m <> 0 ->
  DaysInMonth y m = OK r -> 0 <= y /\ 1 <= m /\ r = month_len y m.
Proof.
  intros Hy Hm Hz H. destruct Hy as [Hy|Hy].
  - destruct (Z_le_gt_dec 1 m) as [H1|H1].
    + rewrite DaysInMonth_ok in H by lia. injection H as <-. repeat split; lia.
    + exfalso. unfold DaysInMonth in H. replace (y <? 0) with false in H by lia. cbv zeta in H.
      replace (12 <=? m) with false in H by lia. rewrite wrap64_id in H by (unfold min_int64, max_int64 in *; lia).
      apply bind_OK in H. destruct H as (t & H & _). revert H. rewrite fmt_four by lia.
      unfold time_parse. rewrite layout_date, toks_year by lia. cbn [app lit list_ascii_of_string].
      rewrite toks_lit. destruct (Z.eq_dec m (-1)) as [->|Hn].
      * change (-1 + 1) with 0. rewrite fmt_two by lia. rewrite toks_month by lia. cbn. discriminate.
      * unfold fmt_0d. replace (m + 1 <? 0) with true by lia. cbn. discriminate.
  - exfalso. subst y. unfold DaysInMonth in H. change (min_int64 <? 0) with true in H. cbv zeta in H.
    replace (wrap64 (min_int64 - wrap64 (min_int64 * 2))) with min_int64 in H by reflexivity.
    apply bind_OK in H. destruct H as (t & H & _). revert H.
    unfold fmt_0d at 1. change (min_int64 <? 0) with true. cbv iota.
    unfold time_parse. rewrite layout_date. cbn [app]. rewrite toks_year_minus. discriminate.
Qed.

(** ** YMDFromStrings *)
Definition opt_num (s : str) (n : Z) : Prop := (s = [] /\ n = 0) \/ (s <> [] /\ atoi s = OK n).
Lemma opt_num_fun s n : opt_num s n -> (if is_empty s then OK 0 else atoi s) = OK n.
Proof.
  intros [(-> & ->)|(Hs & H)]; [reflexivity|]. apply is_empty_false in Hs. rewrite Hs. exact H.
Qed.
Lemma opt_num_inv s n : (if is_empty s then OK 0 else atoi s) = OK n -> opt_num s n.
Proof.
  destruct (is_empty s) eqn:E; intro H.
  - injection H as <-. left. apply is_empty_spec in E. auto.
  - right. apply is_empty_false in E. auto.
Qed.
Lemma opt_num_inj s n k : opt_num s n -> opt_num s k -> n = k.
Proof. intros [(-> & ->)|(H1 & H2)] [(H3 & ->)|(H3 & H4)]; congruence. Qed.

Lemma YMDFromStrings_inv a b c v : YMDFromStrings a b c = OK v ->
  exists y mm dd, atoi a = OK y /\ opt_num b mm /\ opt_num c dd /\
    -9999 <= y <= 9999 /\ 0 <= mm <= 12 /\ (mm = 0 -> dd = 0) /\
    let m := if mm =? 0 then 1 else mm in
    dd <= month_len y m /\ v = mkYMD y m (if dd =? 0 then month_len y m else dd).
Proof.
  unfold YMDFromStrings. intro H.
  destruct (is_empty a) eqn:Ea; [discriminate|]. destruct (is_empty b && _); [discriminate|].
  apply bind_OK in H. destruct H as (y & Hy & H). apply bind_OK in H. destruct H as (mm & Hm & H).
  apply bind_OK in H. destruct H as (dd & Hd & H). apply opt_num_inv in Hm, Hd.
  assert (Hyr : min_int64 <= y <= max_int64) by (apply atoi_spec in Hy; apply Hy).
  assert (Hmr : min_int64 <= mm <= max_int64).
  { destruct Hm as [(_ & ->)|(_ & Hm)]; [unfold min_int64, max_int64; lia|]. apply atoi_spec in Hm. apply Hm. }
  set (y0 := if y <? 0 then FlipYear y else y) in *.
  assert (Hy0 : y0 = Z.abs y \/ y0 = min_int64 /\ y = min_int64).
  { unfold y0. destruct (y <? 0) eqn:E; [|left; lia].
    destruct (Z.eq_dec y min_int64) as [->|Hn]; [right; split; reflexivity|].
    left. unfold min_int64, max_int64 in *. rewrite FlipYear_neg; unfold two63; lia. }
  destruct (MAX_YEARS <? y0) eqn:Emax; [discriminate|]. unfold MAX_YEARS in Emax.
  destruct ((mm =? 0) && negb (dd =? 0)) eqn:Emd; [discriminate|].
  destruct (negb (mm =? 0) && (12 <? mm)) eqn:E12; [discriminate|].
  set (m := if mm =? 0 then 1 else mm) in *.
  apply bind_OK in H. destruct H as (days & Hdays & H).
  assert (Hmv : m = 1 /\ mm = 0 \/ m = mm /\ mm <> 0) by (unfold m; destruct (mm =? 0) eqn:E; lia).
  apply DaysInMonth_inv in Hdays; [|unfold min_int64 in *; lia..].
  destruct Hdays as (Hpos & Hm1 & Hdv).
  assert (Hay : y0 = Z.abs y) by (destruct Hy0 as [Hq|(Hq & _)]; [exact Hq|exfalso; rewrite Hq in Hpos; unfold min_int64 in Hpos; lia]).
  assert (Hml : month_len y0 m = month_len y m).
  { rewrite Hay. destruct (Z.abs_spec y) as [(_ & ->)|(_ & ->)]; [reflexivity|apply month_len_neg]. }
  rewrite Hml in Hdv. subst days.
  destruct (negb (dd =? 0) && (month_len y m <? dd)) eqn:Edd; [discriminate|].
  assert (Hback : (if y <? 0 then FlipYear y0 else y0) = y).
  { rewrite Hay. destruct (y <? 0) eqn:E; [|lia]. rewrite FlipYear_neg; unfold two63; lia. }
  cbv zeta in H. rewrite Hback in H. injection H as <-.
  exists y, mm, dd. split; [exact Hy|]. split; [exact Hm|]. split; [exact Hd|].
  split; [lia|]. split; [unfold m in Hmv; lia|]. split; [lia|]. cbv zeta. fold m.
  pose proof (month_len_range y m). split; [lia|reflexivity].
Qed.

Lemma YMDFromStrings_fwd a b c y mm dd : atoi a = OK y -> opt_num b mm -> opt_num c dd ->
  -9999 <= y <= 9999 -> 0 <= mm <= 12 -> (mm = 0 -> dd = 0) -> (b = [] -> c = []) ->
  let m := if mm =? 0 then 1 else mm in
  YMDFromStrings a b c =
  if month_len y m <? dd then Err (EText ($"Invalid days for month"))
  else OK (mkYMD y m (if dd =? 0 then month_len y m else dd)).
Proof.
  intros Hy Hm Hd Hyr Hmr H0 Hbc. cbv zeta. unfold YMDFromStrings.
  replace (is_empty a) with false by (symmetry; apply is_empty_false; intros ->; discriminate).
  replace (is_empty b && negb (is_empty c)) with false.
  2: { symmetry. destruct (is_empty b) eqn:Eb; [|reflexivity]. apply is_empty_spec in Eb. rewrite (Hbc Eb). reflexivity. }
  rewrite Hy. cbn [bind]. rewrite (opt_num_fun _ _ Hm), (opt_num_fun _ _ Hd). cbn [bind]. cbv zeta.
  set (y0 := if y <? 0 then FlipYear y else y) in *.
  assert (Hay : y0 = Z.abs y).
  { unfold y0. destruct (y <? 0) eqn:E; [|lia]. rewrite FlipYear_neg; unfold two63; lia. }
  rewrite Hay. unfold MAX_YEARS. replace (9999 <? Z.abs y) with false by lia.
  replace ((mm =? 0) && negb (dd =? 0)) with false by lia.
  replace (negb (mm =? 0) && (12 <? mm)) with false by lia.
  set (m := if mm =? 0 then 1 else mm) in *.
  assert (Hm1 : 1 <= m <= 12) by (unfold m; destruct (mm =? 0) eqn:E; lia).
  rewrite DaysInMonth_ok by lia. cbn [bind].
  assert (Hml : month_len (Z.abs y) m = month_len y m).
  { destruct (Z.abs_spec y) as [(_ & ->)|(_ & ->)]; [reflexivity|apply month_len_neg]. }
  rewrite Hml. assert (Hback : (if y <? 0 then FlipYear (Z.abs y) else Z.abs y) = y).
  { destruct (y <? 0) eqn:E; [|lia]. rewrite FlipYear_neg; unfold two63; lia. }
  rewrite Hback. pose proof (month_len_range y m).
  replace (negb (dd =? 0) && (month_len y m <? dd)) with (month_len y m <? dd) by lia. reflexivity.
Qed.

(** A time is only made from a real date. *)
Lemma TimeWithYMD_inv y m d hh mi ss t : -9999 <= y <= 9999 -> 1 <= m <= 12 -> d <= month_len y m -> clock hh mi ss ->
  TimeWithYMD (mkYMD y m d) (clock_text hh mi ss) = OK t -> real_date y m d /\ t = instant y m d hh mi ss.
Proof.
  intros Hy Hm Hd Hc H. destruct (Z_lt_ge_dec d 0) as [Hn|Hn].
  - exfalso. exact (TimeWithYMD_neg y m d _ t Hy Hm Hn H).
  - pose proof (month_len_range y m). rewrite TimeWithYMD_ok in H by (lia || assumption).
    destruct (real_dateb y m d) eqn:E; [|discriminate]. injection H as <-. split; [apply real_dateb_spec; exact E|reflexivity].
Qed.

(** ** Spans *)
(** A bound with a date and a time of day. *)
Definition bound (y m d hh mi ss : Z) (u a p : N) : date :=
  mkDate (utc_text y m d hh mi ss) (Some (instant y m d hh mi ss)) (Some (mkYMD y m d)) u a 0 p false false 0.
Definition day_start y m d := bound y m d 0 0 0.
Definition day_end y m d := bound y m d 23 59 59.

Lemma clock_lower : clock 0 0 0. Proof. unfold clock. lia. Qed.
Lemma clock_upper : clock 23 59 59. Proof. unfold clock. lia. Qed.
#[global] Hint Resolve clock_lower clock_upper : core.

Definition single_day (sr : stringrange) : bool := sd_equals (sr_end sr) (sr_start sr).
Definition span_of (s : str) (sr : stringrange) (y m d y' m' d' : Z) : datespan :=
  let u := sr_uncertain sr in let a := sr_approximate sr in let p := sr_precision sr in
  mkSpan (mkRange s (day_start y m d u a p) (if single_day sr then day_start y m d u a p else day_end y m d u a p))
         (mkRange s (if single_day sr then day_end y' m' d' u a p else day_start y' m' d' u a p) (day_end y' m' d' u a p)).

Lemma dateSpanFromYMD_inv s sp : dateSpanFromYMD s = OK sp ->
  exists sr y m d y' m' d', StringRangeFromYMD s = OK sr /\
    YMDFromStringDate (sr_start sr) = OK (mkYMD y m d) /\ YMDFromStringDate (sr_end sr) = OK (mkYMD y' m' d') /\
    -9999 <= y <= 9999 /\ -9999 <= y' <= 9999 /\ real_date y m d /\ real_date y' m' d' /\
    sp = span_of s sr y m d y' m' d'.
Proof.
  unfold dateSpanFromYMD. intro H. apply bind_OK in H. destruct H as (sr & Hsr & H).
  apply bind_OK in H. destruct H as (v & Hv & H). apply bind_OK in H. destruct H as (v' & Hv' & H).
  exists sr.
  assert (Hi := YMDFromStrings_inv _ _ _ _ Hv). destruct Hi as (y & mm & dd & _ & _ & _ & Hy & Hmm & _ & Hdd & Ev).
  assert (Hi' := YMDFromStrings_inv _ _ _ _ Hv'). destruct Hi' as (y' & mm' & dd' & _ & _ & _ & Hy' & Hmm' & _ & Hdd' & Ev').
  set (m := if mm =? 0 then 1 else mm) in *. set (m' := if mm' =? 0 then 1 else mm') in *.
  assert (Hm : 1 <= m <= 12) by (unfold m; destruct (mm =? 0) eqn:E; lia).
  assert (Hm' : 1 <= m' <= 12) by (unfold m'; destruct (mm' =? 0) eqn:E; lia).
  set (d := if dd =? 0 then month_len y m else dd) in *. set (d' := if dd' =? 0 then month_len y' m' else dd') in *.
  assert (Hd : d <= month_len y m) by (unfold d; destruct (dd =? 0); lia).
  assert (Hd' : d' <= month_len y' m') by (unfold d'; destruct (dd' =? 0); lia).
  exists y, m, d, y', m', d'. subst v v'. split; [exact Hsr|]. split; [exact Hv|]. split; [exact Hv'|].
  split; [exact Hy|]. split; [exact Hy'|].
  apply bind_OK in H. destruct H as ((((sl & su) & el) & eu) & Ht & H).
  rewrite hms_lower, hms_upper in Ht.
  assert (G : real_date y m d /\ real_date y' m' d' /\ sl = instant y m d 0 0 0 /\ eu = instant y' m' d' 23 59 59 /\
              su = (if single_day sr then instant y m d 0 0 0 else instant y m d 23 59 59) /\
              el = (if single_day sr then instant y' m' d' 23 59 59 else instant y' m' d' 0 0 0)).
  { unfold single_day. destruct (sd_equals _ _).
    - apply bind_OK in Ht. destruct Ht as (st & Hst & Ht). apply bind_OK in Ht. destruct Ht as (et & Het & Ht).
      apply TimeWithYMD_inv in Hst; auto. apply TimeWithYMD_inv in Het; auto.
      destruct Hst as (Hr1 & ->). destruct Het as (Hr2 & ->). injection Ht as <- <- <- <-. auto 10.
    - apply bind_OK in Ht. destruct Ht as (sl0 & H1 & Ht). apply bind_OK in Ht. destruct Ht as (su0 & H2 & Ht).
      apply bind_OK in Ht. destruct Ht as (el0 & H3 & Ht). apply bind_OK in Ht. destruct Ht as (eu0 & H4 & Ht).
      apply TimeWithYMD_inv in H1, H2, H3, H4; auto.
      destruct H1 as (Hr1 & ->). destruct H2 as (_ & ->). destruct H3 as (Hr2 & ->). destruct H4 as (_ & ->).
      injection Ht as <- <- <- <-. auto 10. }
  destruct G as (Hr & Hr' & -> & -> & -> & ->).
  split; [exact Hr|]. split; [exact Hr'|]. injection H as <-. unfold span_of, SetTime, NewTimestampWithTime.
  cbn [d_ymd d_uncertain d_approximate d_unspecified d_precision d_open d_unknown d_inclusivity].
  unfold day_start, day_end, bound.
  destruct (single_day sr); rewrite !format_instant by auto; reflexivity.
Qed.

Lemma dateSpanFromYMD_fwd s sr y m d y' m' d' : StringRangeFromYMD s = OK sr ->
  YMDFromStringDate (sr_start sr) = OK (mkYMD y m d) -> YMDFromStringDate (sr_end sr) = OK (mkYMD y' m' d') ->
  -9999 <= y <= 9999 -> -9999 <= y' <= 9999 -> real_date y m d -> real_date y' m' d' ->
  dateSpanFromYMD s = OK (span_of s sr y m d y' m' d').
Proof.
  intros Hsr Hv Hv' Hy Hy' Hr Hr'. unfold dateSpanFromYMD. rewrite Hsr. cbn [bind]. rewrite Hv, Hv'. cbn [bind].
  rewrite hms_lower, hms_upper.
  assert (Hq : forall y m d, real_date y m d -> 0 <= m <= 99 /\ 0 <= d <= 99).
  { intros y0 m0 d0 (H1 & H2). pose proof (month_len_range y0 m0). lia. }
  assert (HT : forall hh mi ss, clock hh mi ss -> TimeWithYMD (mkYMD y m d) (clock_text hh mi ss) = OK (instant y m d hh mi ss)).
  { intros hh mi ss Hc. destruct (Hq _ _ _ Hr). rewrite TimeWithYMD_ok by assumption. apply real_dateb_spec in Hr. rewrite Hr. reflexivity. }
  assert (HT' : forall hh mi ss, clock hh mi ss -> TimeWithYMD (mkYMD y' m' d') (clock_text hh mi ss) = OK (instant y' m' d' hh mi ss)).
  { intros hh mi ss Hc. destruct (Hq _ _ _ Hr'). rewrite TimeWithYMD_ok by assumption. apply real_dateb_spec in Hr'. rewrite Hr'. reflexivity. }
  rewrite !HT, !HT' by auto. cbn [bind]. unfold span_of, single_day.
  destruct (sd_equals _ _); cbn [bind]; unfold SetTime, NewTimestampWithTime, day_start, day_end, bound;
    rewrite !format_instant by auto; reflexivity.
Qed.
