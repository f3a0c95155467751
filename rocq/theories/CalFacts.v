(** The model of package time and package calendar against the calendar
    specification. *)
From Coq Require Import Ascii String ZArith NArith Bool Lia ZifyBool List.
From Verif Require Import GoStr GoTime SpecCal StrFacts CalCycle Edtf Calendar Common.
Import ListNotations.
Open Scope Z_scope.
Ltac Zify.zify_post_hook ::= Z.div_mod_to_equations.

Lemma is_leap_spec y : is_leap y = leap_yearb y.
Proof. unfold is_leap, leap_yearb. lia. Qed.

Lemma month_cases m (P : Z -> Prop) : 1 <= m <= 12 ->
  P 1 -> P 2 -> P 3 -> P 4 -> P 5 -> P 6 -> P 7 -> P 8 -> P 9 -> P 10 -> P 11 -> P 12 -> P m.
Proof.
  intros H. intros.
  assert (E : m = 1 \/ m = 2 \/ m = 3 \/ m = 4 \/ m = 5 \/ m = 6 \/ m = 7 \/ m = 8 \/ m = 9 \/ m = 10 \/ m = 11 \/ m = 12) by lia.
  repeat (destruct E as [->|E]; [assumption|]). subst. assumption.
Qed.

Lemma month_len_range y m : 28 <= month_len y m <= 31.
Proof.
  unfold month_len. destruct (m =? 2); [destruct (leap_yearb y); lia|destruct (_ || _ || _ || _); lia].
Qed.

Lemma days_in_spec y m : 1 <= m <= 12 -> days_in m y = month_len y m.
Proof.
  intro H. unfold days_in. rewrite is_leap_spec. unfold month_len.
  apply (month_cases m (fun m => (if (m =? 2) && leap_yearb y then 29 else db m - db (m - 1)) =
     (if m =? 2 then if leap_yearb y then 29 else 28
      else if (m =? 4) || (m =? 6) || (m =? 9) || (m =? 11) then 30 else 31)) H);
  destruct (leap_yearb y); reflexivity.
Qed.

Lemma days_to_year_spec y : days_to_year y - unix_day0 = 365 * (y - 1970) + (leaps_before y - leaps_before 1970).
Proof.
  unfold days_to_year, unix_day0, leaps_before. lia.
Qed.

Lemma unix_day_spec y m d : 1 <= m <= 12 -> unix_day y m d = epoch_day y m d.
Proof.
  intro H. unfold unix_day, epoch_day. rewrite is_leap_spec.
  pose proof (days_to_year_spec y) as Hy.
  enough (E : db (m - 1) + (if leap_yearb y && (3 <=? m) then 1 else 0) = month_sum y (Z.to_nat (m - 1))) by lia.
  apply (month_cases m (fun m => db (m - 1) + (if leap_yearb y && (3 <=? m) then 1 else 0) = month_sum y (Z.to_nat (m - 1))) H);
  cbv -[leap_yearb]; destruct (leap_yearb y); reflexivity.
Qed.

Lemma civil_of_day_ok n : let '(y, m, d) := civil_of_day n in real_date y m d /\ epoch_day y m d = n.
Proof.
  pose proof (civil_ok n) as H. destruct (civil_of_day n) as ((y & m) & d).
  unfold real_date. rewrite <- unix_day_spec by lia. tauto.
Qed.

(** The day number determines the date. *)
Lemma month_sum_mono y n k : (n <= k)%nat -> month_sum y n <= month_sum y k.
Proof.
  intro H. induction H as [|k H IH]; [lia|]. cbn [month_sum].
  pose proof (month_len_range y (Z.of_nat (S k))). lia.
Qed.
Lemma month_sum_step y m : 1 <= m -> month_sum y (Z.to_nat m) = month_sum y (Z.to_nat (m - 1)) + month_len y m.
Proof.
  intro H. replace (Z.to_nat m) with (S (Z.to_nat (m - 1))) by lia. cbn [month_sum].
  do 2 f_equal. lia.
Qed.
Lemma epoch_month_lt y m d m' d' : real_date y m d -> real_date y m' d' -> m < m' -> epoch_day y m d < epoch_day y m' d'.
Proof.
  intros (Hm & Hd) (Hm' & Hd') H. unfold epoch_day.
  pose proof (month_sum_step y m ltac:(lia)) as Hs.
  pose proof (month_sum_mono y (Z.to_nat m) (Z.to_nat (m' - 1)) ltac:(lia)). lia.
Qed.
Lemma epoch_year_bounds y m d : real_date y m d ->
  epoch_day y 1 1 <= epoch_day y m d < epoch_day (y + 1) 1 1.
Proof.
  intros (Hm & Hd). unfold epoch_day.
  change (Z.to_nat (1 - 1)) with 0%nat. change (month_sum y 0) with 0. change (month_sum (y + 1) 0) with 0.
  pose proof (month_sum_step y m ltac:(lia)) as Hs.
  pose proof (month_sum_mono y (Z.to_nat m) 12 ltac:(lia)) as H12.
  rewrite month_sum_13 in H12. rewrite leaps_step.
  pose proof (month_sum_mono y 0 (Z.to_nat (m - 1)) ltac:(lia)) as H0. change (month_sum y 0) with 0 in H0.
  destruct (leap_yearb y); lia.
Qed.
Lemma epoch_year_mono y k : 0 <= k -> epoch_day y 1 1 <= epoch_day (y + k) 1 1.
Proof.
  intro H. unfold epoch_day. change (Z.to_nat (1 - 1)) with 0%nat. cbn [month_sum].
  unfold leaps_before. lia.
Qed.
Lemma epoch_year_lt y m d y' m' d' : real_date y m d -> real_date y' m' d' -> y < y' ->
  epoch_day y m d < epoch_day y' m' d'.
Proof.
  intros H H' Hy. pose proof (epoch_year_bounds y m d H). pose proof (epoch_year_bounds y' m' d' H').
  pose proof (epoch_year_mono (y + 1) (y' - (y + 1)) ltac:(lia)) as Hm.
  replace (y + 1 + (y' - (y + 1))) with y' in Hm by lia. lia.
Qed.
Lemma epoch_day_lt y m d d' : d < d' -> epoch_day y m d < epoch_day y m d'.
Proof. unfold epoch_day. lia. Qed.

Lemma epoch_day_shift y m d : epoch_day y m d = epoch_day y m 1 + (d - 1).
Proof. unfold epoch_day. ring. Qed.

Definition date_lt (a b : Z * Z * Z) : Prop :=
  let '(y, m, d) := a in let '(y', m', d') := b in
  y < y' \/ (y = y' /\ (m < m' \/ (m = m' /\ d < d'))).
(** The day number is an order isomorphism. *)
Lemma epoch_lt y m d y' m' d' : real_date y m d -> real_date y' m' d' ->
  (epoch_day y m d < epoch_day y' m' d' <-> date_lt (y, m, d) (y', m', d')).
Proof.
  intros H H'.
  assert (F : forall y m d y' m' d', real_date y m d -> real_date y' m' d' ->
    date_lt (y, m, d) (y', m', d') -> epoch_day y m d < epoch_day y' m' d').
  { clear. intros y m d y' m' d' H H' [Hy|(-> & [Hm|(-> & Hd)])].
    - apply epoch_year_lt; assumption.
    - apply epoch_month_lt; assumption.
    - apply epoch_day_lt; assumption. }
  split; [|apply F; assumption].
  intro Hlt.
  assert (T : date_lt (y, m, d) (y', m', d') \/ (y, m, d) = (y', m', d') \/ date_lt (y', m', d') (y, m, d)).
  { unfold date_lt. destruct (Z.lt_trichotomy y y') as [?|[->|?]]; [left; lia| |right; right; lia].
    destruct (Z.lt_trichotomy m m') as [?|[->|?]]; [left; lia| |right; right; lia].
    destruct (Z.lt_trichotomy d d') as [?|[->|?]]; [left; lia| |right; right; lia].
    right; left; reflexivity. }
  destruct T as [T|[T|T]]; [exact T| |].
  - injection T as -> -> ->. lia.
  - apply F in T; auto. lia.
Qed.
Lemma epoch_inj y m d y' m' d' : real_date y m d -> real_date y' m' d' ->
  epoch_day y m d = epoch_day y' m' d' -> (y, m, d) = (y', m', d').
Proof.
  intros H H' E.
  pose proof (epoch_lt _ _ _ _ _ _ H H') as H1. pose proof (epoch_lt _ _ _ _ _ _ H' H) as H2.
  unfold date_lt in *.
  assert (y = y' /\ m = m' /\ d = d') as (-> & -> & ->) by lia. reflexivity.
Qed.

Lemma civil_of_epoch y m d : real_date y m d -> civil_of_day (epoch_day y m d) = (y, m, d).
Proof.
  intro H. pose proof (civil_of_day_ok (epoch_day y m d)) as Hc.
  destruct (civil_of_day _) as ((y' & m') & d'). destruct Hc as (Hr & He).
  apply epoch_inj; auto.
Qed.

(** ** Times *)
Definition clock (hh mi ss : Z) : Prop := 0 <= hh <= 23 /\ 0 <= mi <= 59 /\ 0 <= ss <= 59.

Lemma time_date_instant y m d hh mi ss : 1 <= m <= 12 -> time_date y m d hh mi ss = instant y m d hh mi ss.
Proof. intro H. unfold time_date, instant. rewrite unix_day_spec by exact H. reflexivity. Qed.

Lemma t_day_instant y m d hh mi ss : clock hh mi ss -> t_day (instant y m d hh mi ss) = epoch_day y m d.
Proof. unfold clock, t_day, instant. lia. Qed.
Lemma t_secs_instant y m d hh mi ss : clock hh mi ss -> t_secs (instant y m d hh mi ss) = hh * 3600 + mi * 60 + ss.
Proof. unfold clock, t_secs, instant. lia. Qed.
Lemma t_civil_instant y m d hh mi ss : real_date y m d -> clock hh mi ss ->
  t_civil (instant y m d hh mi ss) = (y, m, d).
Proof. intros H Hc. unfold t_civil. rewrite t_day_instant by exact Hc. apply civil_of_epoch; exact H. Qed.

(** Every instant has a civil representation. *)
Lemma instant_exists t : exists y m d hh mi ss,
  real_date y m d /\ clock hh mi ss /\ t = instant y m d hh mi ss.
Proof.
  pose proof (civil_of_day_ok (t_day t)) as H. destruct (civil_of_day _) as ((y & m) & d).
  destruct H as (Hr & He). exists y, m, d, (t_secs t / 3600), (t_secs t / 60 mod 60), (t_secs t mod 60).
  split; [exact Hr|]. unfold t_secs, t_day, clock, instant in *. lia.
Qed.

Lemma leap_neg y : leap_yearb (- y) = leap_yearb y.
Proof. unfold leap_yearb. lia. Qed.
Lemma month_len_neg y m : month_len (- y) m = month_len y m.
Proof. unfold month_len. rewrite leap_neg. reflexivity. Qed.
Lemma real_date_neg y m d : real_date (- y) m d <-> real_date y m d.
Proof. unfold real_date. rewrite month_len_neg. reflexivity. Qed.

Lemma TimeToBCE_instant y m d hh mi ss : real_date y m d -> clock hh mi ss ->
  TimeToBCE (instant y m d hh mi ss) = instant (- y) m d hh mi ss.
Proof.
  intros H Hc. unfold TimeToBCE, add_date, t_year. rewrite t_civil_instant by assumption. cbn [fst].
  rewrite t_secs_instant, time_date_instant by (assumption || apply H).
  replace (y + -2 * y) with (- y) by lia. rewrite Z.add_0_r. unfold instant. lia.
Qed.

Lemma format_instant y m d hh mi ss : -9999 <= y <= 9999 -> real_date y m d -> clock hh mi ss ->
  format_rfc3339 (instant y m d hh mi ss) = utc_text y m d hh mi ss.
Proof.
  intros Hy H Hc. unfold format_rfc3339. rewrite t_civil_instant, t_secs_instant by assumption.
  assert (Hc' := Hc). destruct Hc' as (Hh & Hmi & Hs).
  assert (Hm := proj1 H). pose proof (proj2 H) as Hd. pose proof (month_len_range y m).
  replace ((hh * 3600 + mi * 60 + ss) / 3600) with hh by lia.
  replace ((hh * 3600 + mi * 60 + ss) / 60 mod 60) with mi by lia.
  replace ((hh * 3600 + mi * 60 + ss) mod 60) with ss by lia.
  rewrite append_year, !append_two by lia.
  unfold utc_text, day_text, clock_text. rewrite <- !app_assoc. reflexivity.
Qed.

(** ** time.Parse on digit texts *)
Lemma getnum_two n v fixed : 0 <= n <= 99 -> getnum (two n ++ v) fixed = Some (n, v).
Proof.
  intro H. unfold two. cbn [app getnum]. rewrite !is_digit_char, !digit_val_char by lia.
  do 2 f_equal. lia.
Qed.

Lemma toks_year l v p n : 0 <= n <= 9999 ->
  parse_toks (TYear :: l) (four n ++ v) p =
  parse_toks l v (mkparts n (pt_mo p) (pt_d p) (pt_h p) (pt_mi p) (pt_s p) (pt_zone p)).
Proof.
  intro H. cbn [parse_toks]. unfold four at 1. cbn [app]. fold (four n). unfold four at 1.
  change (match dec_val 0 (four n) with
    | Some y => parse_toks l v (mkparts y (pt_mo p) (pt_d p) (pt_h p) (pt_mi p) (pt_s p) (pt_zone p))
    | None => None end = parse_toks l v (mkparts n (pt_mo p) (pt_d p) (pt_h p) (pt_mi p) (pt_s p) (pt_zone p))).
  rewrite dec_val_four by exact H. reflexivity.
Qed.
Lemma toks_month l v p n : 0 <= n <= 99 ->
  parse_toks (TMonth :: l) (two n ++ v) p =
  if (1 <=? n) && (n <=? 12)
  then parse_toks l v (mkparts (pt_y p) n (pt_d p) (pt_h p) (pt_mi p) (pt_s p) (pt_zone p)) else None.
Proof. intro H. cbn [parse_toks]. rewrite getnum_two by exact H. reflexivity. Qed.
Lemma toks_day l v p n : 0 <= n <= 99 ->
  parse_toks (TDay :: l) (two n ++ v) p =
  parse_toks l v (mkparts (pt_y p) (pt_mo p) n (pt_h p) (pt_mi p) (pt_s p) (pt_zone p)).
Proof. intro H. cbn [parse_toks]. rewrite getnum_two by exact H. reflexivity. Qed.
Lemma toks_hour l v p n : 0 <= n <= 99 ->
  parse_toks (THour :: l) (two n ++ v) p =
  if n <? 24 then parse_toks l v (mkparts (pt_y p) (pt_mo p) (pt_d p) n (pt_mi p) (pt_s p) (pt_zone p)) else None.
Proof. intro H. cbn [parse_toks]. rewrite getnum_two by exact H. reflexivity. Qed.
Lemma toks_min l v p n : 0 <= n <= 99 ->
  parse_toks (TMin :: l) (two n ++ v) p =
  if n <? 60 then parse_toks l v (mkparts (pt_y p) (pt_mo p) (pt_d p) (pt_h p) n (pt_s p) (pt_zone p)) else None.
Proof. intro H. cbn [parse_toks]. rewrite getnum_two by exact H. reflexivity. Qed.
(** after the seconds: no fraction follows *)
Definition no_frac (v : str) : Prop := match v with c :: _ => Ascii.eqb c "." || Ascii.eqb c "," = false | [] => True end.
Lemma toks_sec l v p n : 0 <= n <= 99 -> no_frac v ->
  parse_toks (TSec :: l) (two n ++ v) p =
  if n <? 60 then parse_toks l v (mkparts (pt_y p) (pt_mo p) (pt_d p) (pt_h p) (pt_mi p) n (pt_zone p)) else None.
Proof.
  intros H Hf. cbn [parse_toks]. rewrite getnum_two by exact H. destruct (n <? 60); [|reflexivity].
  destruct v as [|c [|d v]]; [reflexivity|reflexivity|]. cbn [no_frac] in Hf. rewrite Hf. reflexivity.
Qed.
Lemma toks_lit l v p c : parse_toks (TLit c :: l) (c :: v) p = parse_toks l v p.
Proof. cbn [parse_toks]. rewrite Ascii.eqb_refl. reflexivity. Qed.

Lemma layout_date : layout_toks ($"2006-01-02") 0 = [TYear; TLit "-"; TMonth; TLit "-"; TDay].
Proof. reflexivity. Qed.
Lemma layout_datetime : layout_toks ($"2006-01-02T15:04:05") 0 =
  [TYear; TLit "-"; TMonth; TLit "-"; TDay; TLit "T"; THour; TLit ":"; TMin; TLit ":"; TSec].
Proof. reflexivity. Qed.

Lemma parse_date_text y m d : 0 <= y <= 9999 -> 0 <= m <= 99 -> 0 <= d <= 99 ->
  time_parse ($"2006-01-02") (four y ++ $"-" ++ two m ++ $"-" ++ two d) =
  if real_dateb y m d then OK (instant y m d 0 0 0)
  else Err (ETime ($"2006-01-02") (four y ++ $"-" ++ two m ++ $"-" ++ two d)).
Proof.
  intros Hy Hm Hd. unfold time_parse. rewrite layout_date.
  rewrite toks_year by exact Hy. cbn [pt_y pt_mo pt_d pt_h pt_mi pt_s pt_zone].
  change ($"-" ++ two m ++ $"-" ++ two d) with ("-"%char :: two m ++ "-"%char :: two d).
  rewrite toks_lit, toks_month by exact Hm. unfold real_dateb.
  destruct ((1 <=? m) && (m <=? 12)) eqn:Em; [|reflexivity].
  rewrite toks_lit. rewrite <- (app_nil_r (two d)). rewrite toks_day by exact Hd.
  cbn [parse_toks pt_y pt_mo pt_d pt_h pt_mi pt_s pt_zone]. rewrite days_in_spec by lia. cbn [andb].
  destruct ((1 <=? d) && (d <=? month_len y m)); [|reflexivity].
  rewrite time_date_instant by lia. rewrite Z.sub_0_r. reflexivity.
Qed.

Lemma parse_datetime_text y m d hh mi ss : 0 <= y <= 9999 -> 0 <= m <= 99 -> 0 <= d <= 99 -> clock hh mi ss ->
  time_parse ($"2006-01-02T15:04:05") (four y ++ $"-" ++ two m ++ $"-" ++ two d ++ $"T" ++ clock_text hh mi ss) =
  if real_dateb y m d then OK (instant y m d hh mi ss)
  else Err (ETime ($"2006-01-02T15:04:05") (four y ++ $"-" ++ two m ++ $"-" ++ two d ++ $"T" ++ clock_text hh mi ss)).
Proof.
  intros Hy Hm Hd (Hh & Hmi & Hs). unfold time_parse. rewrite layout_datetime.
  rewrite toks_year by exact Hy. cbn [pt_y pt_mo pt_d pt_h pt_mi pt_s pt_zone].
  change ($"-" ++ two m ++ $"-" ++ two d ++ $"T" ++ clock_text hh mi ss)
    with ("-"%char :: two m ++ "-"%char :: two d ++ "T"%char :: two hh ++ ":"%char :: two mi ++ ":"%char :: two ss).
  rewrite toks_lit, toks_month by exact Hm. unfold real_dateb.
  destruct ((1 <=? m) && (m <=? 12)) eqn:Em; [|reflexivity].
  rewrite toks_lit, toks_day by exact Hd.
  cbn [pt_y pt_mo pt_d pt_h pt_mi pt_s pt_zone].
  rewrite toks_lit, toks_hour by lia. replace (hh <? 24) with true by lia.
  rewrite toks_lit, toks_min by lia. replace (mi <? 60) with true by lia.
  rewrite toks_lit, <- (app_nil_r (two ss)), toks_sec by (try lia; exact I). replace (ss <? 60) with true by lia.
  cbn [parse_toks pt_y pt_mo pt_d pt_h pt_mi pt_s pt_zone]. rewrite days_in_spec by lia. cbn [andb].
  destruct ((1 <=? d) && (d <=? month_len y m)); [|reflexivity].
  rewrite time_date_instant by lia. rewrite Z.sub_0_r. reflexivity.
Qed.

(** ** calendar.DaysInMonth *)
Lemma FlipYear_neg y : - two63 < y < two63 -> FlipYear y = - y.
Proof. unfold FlipYear, wrap64, two63, two64. lia. Qed.

Lemma real_first y m : 1 <= m <= 12 -> real_date y m 1.
Proof. intro H. pose proof (month_len_range y m). split; lia. Qed.

Lemma real_dateb_spec y m d : real_dateb y m d = true <-> real_date y m d.
Proof. unfold real_dateb, real_date. lia. Qed.

(** Day before the first of a month. *)
Lemma epoch_pred y m : 1 <= m <= 12 ->
  epoch_day y m 1 - 1 = if m =? 1 then epoch_day (y - 1) 12 31 else epoch_day y (m - 1) (month_len y (m - 1)).
Proof.
  intro H. destruct (m =? 1) eqn:E.
  - assert (m = 1) by lia. subst m.
    pose proof (epoch_next (y - 1) 12 31) as Hn. unfold next_day in Hn.
    assert (Hl : month_len (y - 1) 12 = 31) by reflexivity. rewrite Hl in Hn.
    destruct Hn as (Hn & _); [split; [lia|rewrite Hl; lia]|]. replace (y - 1 + 1) with y in Hn by lia. lia.
  - pose proof (epoch_next y (m - 1) (month_len y (m - 1))) as Hn. unfold next_day in Hn.
    rewrite Z.ltb_irrefl in Hn. replace (m - 1 <? 12) with true in Hn by lia.
    destruct Hn as (Hn & _); [pose proof (month_len_range y (m - 1)); split; lia|].
    replace (m - 1 + 1) with m in Hn by lia. lia.
Qed.

Lemma DaysInMonth_ok y m : -9999 <= y <= 9999 -> 1 <= m <= 12 -> DaysInMonth y m = OK (month_len y m).
Proof.
  intros Hy Hm. unfold DaysInMonth.
  set (y0 := if y <? 0 then wrap64 (y - wrap64 (y * 2)) else y).
  assert (Hy0 : y0 = Z.abs y).
  { unfold y0. destruct (y <? 0) eqn:E; [|lia]. change (wrap64 (y - wrap64 (y * 2))) with (FlipYear y).
    rewrite FlipYear_neg; unfold two63; lia. }
  clearbody y0. subst y0.
  assert (Hl : month_len y m = month_len (Z.abs y) m).
  { destruct (Z.abs_spec y) as [(_ & ->)|(_ & ->)]; [reflexivity|]. symmetry. apply month_len_neg. }
  rewrite Hl. set (a := Z.abs y) in *. assert (Ha : 0 <= a <= 9999) by lia. clearbody a. clear Hl Hy.
  set (nm := if 12 <=? m then 1 else wrap64 (m + 1)).
  assert (Hnm : nm = if m =? 12 then 1 else m + 1).
  { unfold nm. destruct (12 <=? m) eqn:E1; destruct (m =? 12) eqn:E2; try lia.
    rewrite wrap64_id; unfold min_int64, max_int64; lia. }
  assert (Hr : 1 <= nm <= 12) by (destruct (m =? 12) eqn:E; lia).
  clearbody nm. cbv zeta.
  rewrite fmt_four, fmt_two by lia.
  change ($"-01") with ($"-" ++ two 1).
  rewrite parse_date_text by lia.
  replace (real_dateb a nm 1) with true
    by (symmetry; apply real_dateb_spec, real_first; exact Hr).
  cbn [bind]. f_equal. unfold add_date.
  rewrite t_civil_instant by (try apply real_first; try exact Hr; unfold clock; lia).
  rewrite t_secs_instant by (unfold clock; lia).
  rewrite time_date_instant by exact Hr.
  assert (Hi : instant (a + 0) nm (1 + -1) 0 0 0 + (0 * 3600 + 0 * 60 + 0) = (epoch_day a nm 1 - 1) * 86400).
  { replace (a + 0) with a by ring. unfold instant. rewrite (epoch_day_shift a nm (1 + -1)). ring. }
  rewrite Hi.
  unfold t_mday, t_civil, t_day. rewrite Z.div_mul by lia.
  rewrite epoch_pred by exact Hr. rewrite Hnm. destruct (m =? 12) eqn:E.
  - assert (m = 12) by lia. subst m. change (1 =? 1) with true. cbv iota.
    rewrite civil_of_epoch; [reflexivity|]. split; [lia|]. change (month_len (a - 1) 12) with 31. lia.
  - replace (m + 1 =? 1) with false by lia. replace (m + 1 - 1) with m by lia.
    rewrite civil_of_epoch; [reflexivity|]. pose proof (month_len_range a m). split; lia.
Qed.

(** ** common.TimeWithYMD *)
Lemma hms_lower : HMS_LOWER = clock_text 0 0 0. Proof. reflexivity. Qed.
Lemma hms_upper : HMS_UPPER = clock_text 23 59 59. Proof. reflexivity. Qed.

Lemma TimeWithYMD_ok y m d hh mi ss : -9999 <= y <= 9999 -> 0 <= m <= 99 -> 0 <= d <= 99 -> clock hh mi ss ->
  TimeWithYMD (mkYMD y m d) (clock_text hh mi ss) =
  if real_dateb y m d then OK (instant y m d hh mi ss)
  else Err (ETime ($"2006-01-02T15:04:05")
             (four (Z.abs y) ++ $"-" ++ two m ++ $"-" ++ two d ++ $"T" ++ clock_text hh mi ss)).
Proof.
  intros Hy Hm Hd Hc. unfold TimeWithYMD. cbn [y_year y_month y_day].
  set (y0 := if y <? 0 then FlipYear y else y).
  assert (Hy0 : y0 = Z.abs y).
  { unfold y0. destruct (y <? 0) eqn:E; [|lia]. rewrite FlipYear_neg; unfold two63; lia. }
  clearbody y0. subst y0. cbv zeta.
  rewrite fmt_four, !fmt_two by lia. rewrite parse_datetime_text by (assumption || lia).
  assert (Hr : real_dateb (Z.abs y) m d = real_dateb y m d).
  { unfold real_dateb. destruct (Z.abs_spec y) as [(_ & ->)|(_ & ->)]; [|rewrite month_len_neg]; reflexivity. }
  rewrite Hr. destruct (real_dateb y m d) eqn:E; [|reflexivity].
  apply real_dateb_spec in E. cbn [bind]. destruct (y <? 0) eqn:Ey.
  - rewrite TimeToBCE_instant; [|apply real_dateb_spec; exact Hr|exact Hc].
    f_equal. f_equal. lia.
  - f_equal. f_equal. lia.
Qed.
(** A negative day number is never accepted. *)
Lemma TimeWithYMD_neg y m d hms t : -9999 <= y <= 9999 -> 1 <= m <= 12 -> d < 0 ->
  TimeWithYMD (mkYMD y m d) hms <> OK t.
Proof.
  intros Hy Hm Hd. unfold TimeWithYMD. cbn [y_year y_month y_day].
  set (y0 := if y <? 0 then FlipYear y else y).
  assert (Hy0 : y0 = Z.abs y).
  { unfold y0. destruct (y <? 0) eqn:E; [|lia]. rewrite FlipYear_neg; unfold two63; lia. }
  clearbody y0. subst y0. cbv zeta.
  rewrite fmt_four, fmt_two by lia. unfold fmt_0d. replace (d <? 0) with true by lia.
  unfold time_parse. rewrite layout_datetime. rewrite toks_year by lia.
  cbn [pt_y pt_mo pt_d pt_h pt_mi pt_s pt_zone].
  match goal with |- context [parse_toks _ ($"-" ++ two m ++ $"-" ++ ("-"%char :: ?r) ++ ?s)] =>
    change ($"-" ++ two m ++ $"-" ++ ("-"%char :: r) ++ s) with ("-"%char :: two m ++ "-"%char :: "-"%char :: r ++ s) end.
  rewrite toks_lit, toks_month by lia. replace ((1 <=? m) && (m <=? 12)) with true by lia.
  rewrite toks_lit. cbn [parse_toks getnum]. change (is_digit "-") with false. cbv iota. discriminate.
Qed.
