(** Level 0: dates and intervals. *)
From Coq Require Import Ascii String ZArith NArith Bool Lia ZifyBool List.
From Verif Require Import GoStr GoTime Regex Patterns RegexSym RegexRel RegexGen SpecCal SpecText SpecGrammar SpecSpan StrFacts TextFacts Edtf Calendar Common Level0 Level1 Level2 Parser CalFacts ApiFacts SpanFacts YmdShapes YmdFacts InvFacts GrammarFacts LangFacts DateFacts.
Import ListNotations.
Open Scope Z_scope.
Ltac Zify.zify_post_hook ::= Z.div_mod_to_equations.

(** ** Bytes *)
Lemma date_bytes s c : is_level0_date s -> In c s -> is_digit c = true \/ c = "-"%char.
Proof.
  intros H Hc. unfold is_level0_date in H. apply IsDate_spec in H. apply match_bytes in H; [|reflexivity].
  unfold all_in in H. rewrite Forall_forall in H. specialize (H c Hc). unfold is_digit.
  match type of H with in_set ?b _ = _ => let v := eval vm_compute in b in change (in_set v c = true) in H end.
  unfold in_set in H. cbn [existsb fst snd] in H.
  destruct (Z.eq_dec (code c) 45) as [E|E]; [right; apply code_inj; exact E|left; lia].
Qed.
Lemma no_slash s : is_level0_date s -> ~ In "/"%char s.
Proof. intros H Hi. destruct (date_bytes _ _ H Hi) as [E|E]; discriminate E. Qed.
Lemma level0_is s y m d : level0_date s y m d -> is_level0_date s.
Proof. intro H. exists y, m, d. exact H. Qed.

(** ** Which parser *)
Lemma parse_date s : is_level0_date s -> ParseString s = let* sp := dateSpanFromYMD s in OK (edtf_of_span sp s 0 ($"Date")).
Proof.
  intro H. assert (HD : match_string Date_re s = true) by (apply IsDate_spec; exact H).
  unfold ParseString, IsLevel0. rewrite (proj2 (Level0_spec s)) by auto.
  unfold L0_ParseString, IsDate. rewrite HD. unfold ParseDate. rewrite HD. cbn [negb].
  rewrite single_fwd by (apply no_slash; exact H). reflexivity.
Qed.
Lemma slash_not_date s : In "/"%char s -> match_string Date_re s = false /\ match_string DateAndTime s = false.
Proof.
  intro H. split.
  - destruct (match_string Date_re s) eqn:E; [|reflexivity]. exfalso. apply IsDate_spec in E. exact (no_slash _ E H).
  - destruct (match_string DateAndTime s) eqn:E; [|reflexivity]. exfalso. apply match_bytes in E; [|reflexivity].
    unfold all_in in E. rewrite Forall_forall in E. specialize (E _ H). vm_compute in E. discriminate.
Qed.
Lemma parse_interval a b : is_level0_date a -> is_level0_date b ->
  ParseString (a ++ "/"%char :: b) = let* sp := DateSpanFromEDTF (a ++ "/"%char :: b) in OK (edtf_of_span sp (a ++ "/"%char :: b) 0 ($"Time Interval")).
Proof.
  intros Ha Hb. assert (HT : match_string TimeInterval (a ++ "/"%char :: b) = true) by (apply TimeInterval_spec; eauto).
  assert (Hs : In "/"%char (a ++ "/"%char :: b)) by (apply in_or_app; right; left; reflexivity).
  destruct (slash_not_date _ Hs) as (N1 & N2).
  unfold ParseString, IsLevel0. rewrite (proj2 (Level0_spec _)) by auto.
  unfold L0_ParseString, IsDate, IsDateAndTime, IsTimeInterval. rewrite N1, N2, HT. unfold ParseTimeInterval. rewrite HT. reflexivity.
Qed.

(** ** Dates *)
Lemma year4_text y : -9999 <= y <= 9999 -> year4 (year_text y) y.
Proof.
  intro H. unfold year_text. destruct (y <? 0) eqn:E.
  - replace y with (- (- y)) at 2 by lia. constructor. lia.
  - constructor. lia.
Qed.
Lemma year4_range t y : year4 t y -> -9999 <= y <= 9999.
Proof. intros [n Hn|n Hn]; lia. Qed.
Lemma level0_range s y m d : level0_date s y m d -> -9999 <= y <= 9999 /\ (forall k, m = Some k -> 1 <= k <= 12) /\ (forall k, d = Some k -> 1 <= k <= 31) /\ (m = None -> d = None).
Proof.
  intros [t y0 r m0 d0 Hy [|k Hk|k j Hk Hj]]; (split; [exact (year4_range _ _ Hy)|]); repeat split; intros; try discriminate;
  try match goal with H : Some _ = Some _ |- _ => injection H as <- end; lia.
Qed.
Lemma last_real s y m d : level0_date s y m d -> exists_date y m d -> real_date y (last_month m) (last_day y (last_month m) d).
Proof.
  intros H (Hm & Hd). destruct (level0_range _ _ _ _ H) as (_ & R & _ & N). unfold last_month, last_day.
  destruct m as [m|]; cbn [first_month] in *; [destruct d as [d|]; cbn [first_day] in *|rewrite (N eq_refl)].
  - split; lia.
  - pose proof (month_len_range y m). split; lia.
  - pose proof (month_len_range y 12). split; lia.
Qed.
Lemma exists_none y m : (forall k, m = Some k -> 1 <= k <= 12) -> exists_date y m None.
Proof.
  intro H. unfold exists_date, first_month, first_day. pose proof (month_len_range y (first_month m)). unfold first_month in *.
  destruct m as [m|]; [specialize (H m eq_refl)|]; split; lia.
Qed.
Lemma dated_bound y m d hh mi ss u a p : dated (bound y m d hh mi ss u a p) y m d hh mi ss.
Proof. unfold dated, bound. cbn. auto. Qed.
Lemma span6_runs s lv f u a p g y m d y' m' d' : (g = true -> (y, m, d) = (y', m', d')) ->
  let e := edtf_of_span (span6 s u a p g y m d y' m' d') s lv f in runs e y m d y' m' d' /\ flagged e u a /\ precise e p.
Proof.
  intros Hg. cbv zeta. split; [|split; destruct g; repeat constructor].
  unfold runs, from_to, span6, edtf_of_span, day_start, day_end. cbn [s_start s_end e_start e_end r_lower r_upper].
  split; [apply dated_bound|]. split; [apply dated_bound|]. destruct g.
  - right. specialize (Hg eq_refl). injection Hg as <- <- <-. split; [reflexivity|]. split; apply dated_bound.
  - left. split; split; apply dated_bound.
Qed.
Lemma complete_same s y m d : level0_date s y m d -> complete m d = true ->
  (y, first_month m, first_day d) = (y, last_month m, last_day y (last_month m) d).
Proof. intros _ H. destruct m, d; try discriminate. reflexivity. Qed.
Theorem level0_parses s y m d : level0_date s y m d -> exists_date y m d -> exists e, ParseString s = OK e /\
  e_level e = 0 /\ e_feature e = $"Date" /\ runs e y (first_month m) (first_day d) y (last_month m) (last_day y (last_month m) d) /\
  flagged e 0 0 /\ precise e YEAR.
Proof.
  intros H Hx. rewrite parse_date by (eapply level0_is; exact H).
  destruct (span_fwd _ _ _ _ _ _ _ _ _ _ _ (level0_den _ _ _ _ H) Hx (last_real _ _ _ _ H Hx)) as (-> & _). cbn [bind].
  eexists. split; [reflexivity|]. split; [reflexivity|]. split; [reflexivity|].
  apply span6_runs. apply (complete_same _ _ _ _ H).
Qed.
Theorem level0_rejects s y m d : level0_date s y m d -> ~ exists_date y m d -> exists err, ParseString s = Err err.
Proof.
  intros H Hx. rewrite parse_date by (eapply level0_is; exact H).
  destruct (span_err _ _ _ _ _ _ _ _ _ _ _ (level0_den _ _ _ _ H)) as (err & ->); [|eexists; reflexivity].
  intros (Hr & _). exact (Hx Hr).
Qed.

Lemma day_level0 y m d : -9999 <= y <= 9999 -> 1 <= m <= 12 -> 1 <= d <= 31 -> level0_date (day_text y m d) y (Some m) (Some d).
Proof.
  intros Hy Hm Hd. unfold day_text. change ($"-" ++ two m ++ $"-" ++ two d) with ("-"%char :: two m ++ "-"%char :: two d).
  constructor; [apply year4_text; exact Hy|constructor; assumption].
Qed.
Lemma month_level0 y m : -9999 <= y <= 9999 -> 1 <= m <= 12 -> level0_date (month_text y m) y (Some m) None.
Proof.
  intros Hy Hm. unfold month_text. change ($"-" ++ two m) with ("-"%char :: two m).
  constructor; [apply year4_text; exact Hy|constructor; assumption].
Qed.
Lemma year_level0 y : -9999 <= y <= 9999 -> level0_date (year_text y) y None None.
Proof. intro Hy. rewrite <- (app_nil_r (year_text y)). constructor; [apply year4_text; exact Hy|constructor]. Qed.

(** C05-C08 *)
Lemma day_parses y m d : -9999 <= y <= 9999 -> real_date y m d -> exists e, ParseString (day_text y m d) = OK e /\ e_level e = 0 /\
  (forall b, b = r_lower (e_start e) \/ b = r_upper (e_start e) -> dated b y m d 0 0 0) /\
  (forall b, b = r_lower (e_end e) \/ b = r_upper (e_end e) -> dated b y m d 23 59 59).
Proof.
  intros Hy Hr. assert (Hd : 1 <= d <= 31) by (pose proof (month_len_range y m); destruct Hr; lia). destruct Hr as (Hm & Hr).
  pose proof (day_level0 y m d Hy Hm Hd) as H. rewrite parse_date by (eapply level0_is; exact H).
  assert (Hx : exists_date y (Some m) (Some d)) by (split; assumption).
  destruct (span_fwd _ _ _ _ _ _ _ _ _ _ _ (level0_den _ _ _ _ H) Hx Hx) as (-> & _). cbn [bind].
  eexists. split; [reflexivity|]. split; [reflexivity|]. cbn. split; intros b [-> | ->]; apply dated_bound.
Qed.
Lemma month_parses y m : -9999 <= y <= 9999 -> 1 <= m <= 12 -> exists e, ParseString (month_text y m) = OK e /\ e_level e = 0 /\
  from_to (e_start e) y m 1 y m 1 /\ from_to (e_end e) y m (month_len y m) y m (month_len y m).
Proof.
  intros Hy Hm. pose proof (month_level0 y m Hy Hm) as H. rewrite parse_date by (eapply level0_is; exact H).
  assert (Hx : exists_date y (Some m) None) by (apply exists_none; intros k E; injection E as <-; exact Hm).
  destruct (span_fwd _ _ _ _ _ _ _ _ _ _ _ (level0_den _ _ _ _ H) Hx (last_real _ _ _ _ H Hx)) as (-> & _). cbn [bind].
  eexists. split; [reflexivity|]. split; [reflexivity|]. cbn. split; split; apply dated_bound.
Qed.
Lemma year_parses y : -9999 <= y <= 9999 -> exists e, ParseString (year_text y) = OK e /\ e_level e = 0 /\
  from_to (e_start e) y 1 1 y 1 1 /\ from_to (e_end e) y 12 31 y 12 31.
Proof.
  intros Hy. pose proof (year_level0 y Hy) as H. rewrite parse_date by (eapply level0_is; exact H).
  assert (Hx : exists_date y None None) by (apply exists_none; discriminate).
  destruct (span_fwd _ _ _ _ _ _ _ _ _ _ _ (level0_den _ _ _ _ H) Hx (last_real _ _ _ _ H Hx)) as (-> & _). cbn [bind].
  eexists. split; [reflexivity|]. split; [reflexivity|]. cbn. split; split; apply dated_bound.
Qed.
Lemma missing_day y m d : -9999 <= y <= 9999 -> 1 <= m <= 12 -> month_len y m < d <= 31 -> exists err, ParseString (day_text y m d) = Err err.
Proof.
  intros Hy Hm Hd. assert (H1 : 1 <= d <= 31) by (pose proof (month_len_range y m); lia).
  apply (level0_rejects _ _ _ _ (day_level0 y m d Hy Hm H1)). intros (_ & Hr). cbn in Hr. lia.
Qed.

(** ** Intervals *)
Lemma level0_half s y m d : level0_date s y m d -> exists_date y m d ->
  half s (day_start y (first_month m) (first_day d) 0 0 YEAR) (day_end y (last_month m) (last_day y (last_month m) d) 0 0 YEAR).
Proof.
  intros H Hx. pose proof (level0_range _ _ _ _ H) as (Hy & _). eapply half_date; [exact (level0_den _ _ _ _ H)|exact Hx|exact (last_real _ _ _ _ H Hx)|exact Hy|exact Hy].
Qed.
Lemma half_level0 s y m d lo hi : level0_date s y m d -> half s lo hi -> exists_date y m d.
Proof.
  intros H Hh. assert (N : s <> [] /\ s <> $"..").
  { split; intros ->; assert (match_string Date_re _ = true) as Q by (apply IsDate_spec; eexists; eexists; eexists; exact H); vm_compute in Q; discriminate. }
  destruct Hh as [| |t y1 m1 d1 y1' m1' d1' u a p g HD Hr Hr' _ _]; [tauto|tauto|].
  destruct (date_den_fun _ _ _ _ _ _ _ _ _ _ _ _ _ _ _ _ _ _ _ _ _ HD (level0_den _ _ _ _ H)) as (-> & -> & -> & _). exact Hr.
Qed.
Theorem interval_parses a b y m d y' m' d' : level0_date a y m d -> level0_date b y' m' d' -> exists_date y m d -> exists_date y' m' d' ->
  exists e, ParseString (a ++ "/"%char :: b) = OK e /\ e_level e = 0 /\ e_feature e = $"Time Interval" /\
    whole (e_start e) a y m d /\ whole (e_end e) b y' m' d'.
Proof.
  intros Ha Hb Xa Xb. pose proof (level0_is _ _ _ _ Ha) as Ia. pose proof (level0_is _ _ _ _ Hb) as Ib.
  rewrite parse_interval by assumption.
  rewrite (interval_fwd _ _ _ _ _ _ (no_slash _ Ia) (no_slash _ Ib) (level0_half _ _ _ _ Ha Xa) (level0_half _ _ _ _ Hb Xb)). cbn [bind].
  eexists. split; [reflexivity|]. split; [reflexivity|]. split; [reflexivity|]. cbn.
  split; (split; [reflexivity|]; split; apply dated_bound).
Qed.
Lemma split_once (a b l r : str) c : ~ In c a -> ~ In c l -> a ++ c :: b = l ++ c :: r -> a = l /\ b = r.
Proof.
  revert l. induction a as [|x a IH]; intros [|z l] Ha Hl E; cbn in E.
  - injection E as ->. auto.
  - exfalso. injection E as <- _. apply Hl. left. reflexivity.
  - exfalso. injection E as -> _. apply Ha. left. reflexivity.
  - injection E as <- E. destruct (IH l) as (-> & ->); auto; intro Q; [apply Ha|apply Hl]; right; exact Q.
Qed.
Theorem interval_rejects a b y m d y' m' d' : level0_date a y m d -> level0_date b y' m' d' -> ~ (exists_date y m d /\ exists_date y' m' d') ->
  exists err, ParseString (a ++ "/"%char :: b) = Err err.
Proof.
  intros Ha Hb Hn. pose proof (level0_is _ _ _ _ Ha) as Ia. pose proof (level0_is _ _ _ _ Hb) as Ib.
  rewrite parse_interval by assumption. pose proof (np_DateSpan (a ++ "/"%char :: b)) as N.
  destruct (DateSpanFromEDTF (a ++ "/"%char :: b)) as [sp|err|] eqn:E; [|eexists; reflexivity|contradiction (N eq_refl)].
  exfalso. destruct (DateSpan_inv _ _ E) as [(Hs & _)|(l & r & lo & hi & lo' & hi' & Es & Hl & Hr & H1 & H2 & _)].
  - apply Hs. apply in_or_app. right. left. reflexivity.
  - destruct (split_once _ _ _ _ _ (no_slash _ Ia) Hl Es) as (<- & <-).
    apply Hn. split; [exact (half_level0 _ _ _ _ _ _ Ha H1)|exact (half_level0 _ _ _ _ _ _ Hb H2)].
Qed.
