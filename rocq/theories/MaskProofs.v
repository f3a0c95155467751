(** Unspecified digits: the span covers what the mask stands for. *)
From Coq Require Import Ascii String ZArith NArith Bool Lia ZifyBool List.
From Verif Require Import GoStr GoTime Regex Patterns RegexSym RegexRel RegexGen SpecCal SpecText SpecGrammar SpecForms SpecSpan SpecMask StrFacts TextFacts Edtf Calendar Common Level0 Level1 Level2 Parser CalFacts ApiFacts SpanFacts YmdShapes YmdFacts InvFacts GrammarFacts LangFacts LangNorm LangForms LangForms2 DateFacts ParseFacts SplitFacts Level0Facts FormFacts SeasonFacts Level1Proofs XProofs SetGrammar SetFacts GroupingProofs SigProofs OrderProofs.
Import ListNotations.
Open Scope Z_scope.
Ltac Zify.zify_post_hook ::= Z.div_mod_to_equations.

(** ** Filling in *)
Lemma fills_app a : forall b t, fills (a ++ b) t -> exists a' b', t = a' ++ b' /\ fills a a' /\ fills b b'.
Proof.
  induction a as [|c a IH]; cbn [app]; intros b t H; [exists [], t; repeat split; [constructor|exact H]|].
  inversion H; subst; match goal with K : fills (a ++ b) _ |- _ => destruct (IH _ _ K) as (a' & b' & -> & Ha & Hb) end;
    eexists (_ :: a'), b'; (split; [reflexivity|]); (split; [|exact Hb]); [apply fi_same|apply fi_x]; assumption.
Qed.
Lemma fills_same s : forall t, fills s t -> ~ In "X"%char s -> t = s.
Proof.
  induction s as [|c s IH]; intros t H N; inversion H; subst; [reflexivity| |].
  - f_equal. apply IH; [assumption|]. intro Q. apply N. right. exact Q.
  - destruct N. left. reflexivity.
Qed.
Lemma fills_byte s t : fills s t -> forall c, In c s -> c = "X"%char \/ In c t.
Proof.
  induction 1 as [|c s t H IH|c s t Hc H IH]; intros d Hd; [destruct Hd| |].
  - destruct Hd as [->|Hd]; [right; left; reflexivity|]. destruct (IH _ Hd); [left; assumption|right; right; assumption].
  - destruct Hd as [<-|Hd]; [left; reflexivity|]. destruct (IH _ Hd); [left; assumption|right; right; assumption].
Qed.
Lemma fills_cons c s t : fills (c :: s) t -> exists d u, t = d :: u /\ fills s u /\ (d = c \/ c = "X"%char /\ is_digit d = true).
Proof. intro H. inversion H; subst; eauto 8. Qed.
Ltac fill H := let d := fresh "d" in let u := fresh "u" in let K := fresh "K" in
  apply fills_cons in H; destruct H as (d & u & -> & H & K).
Lemma fills_nil t : fills [] t -> t = [].
Proof. intro H. inversion H. reflexivity. Qed.
Lemma level0_byte t y m d c : level0_date t y m d -> In c t -> is_digit c = true \/ c = "-"%char.
Proof. intros H. apply date_bytes. exists y, m, d. exact H. Qed.
Lemma mask_byte s t y m d c : fills s t -> level0_date t y m d -> In c s -> is_digit c = true \/ c = "-"%char \/ c = "X"%char.
Proof. intros F H Hc. destruct (fills_byte _ _ F _ Hc) as [->|Q]; [auto|]. destruct (level0_byte _ _ _ _ _ H Q); auto. Qed.
Lemma atoi_noX t z : atoi t = OK z -> ~ In "X"%char t.
Proof.
  intro H. apply atoi_spec in H. destruct H as (H & _).
  assert (N : forall u v, dec_digits u v -> ~ In "X"%char u).
  { intros u v D Hi. apply dec_digits_iff in D. destruct D as (_ & D). assert (F : digit_str u) by (apply (dec_val_digits u 0); eauto).
    unfold digit_str in F. rewrite Forall_forall in F. specialize (F _ Hi). discriminate F. }
  destruct H; intro Hi; [eapply N; eassumption|destruct Hi as [Hi|Hi]; [discriminate|eapply N; eassumption]..].
Qed.
Lemma xlo_fill a d : is_dx a = true -> (d = a \/ a = "X"%char /\ is_digit d = true) -> is_digit d = true -> xlo a <= digit_val d <= xhi a.
Proof.
  intros Ha K Hd. unfold xlo, xhi. pose proof (digit_val_range _ Hd). destruct K as [->|(-> & _)].
  - rewrite (digit_not_X _ Hd). lia.
  - cbn. lia.
Qed.
Lemma digit_fill a d : is_digit a = true -> (d = a \/ a = "X"%char /\ is_digit d = true) -> d = a.
Proof. intros Ha [->|(-> & _)]; [reflexivity|discriminate Ha]. Qed.
Lemma four_inv n a b c d : 0 <= n <= 9999 -> [a; b; c; d] = four n ->
  is_digit a = true /\ is_digit b = true /\ is_digit c = true /\ is_digit d = true /\ n = digit_val a * 1000 + digit_val b * 100 + digit_val c * 10 + digit_val d.
Proof.
  intros H E. unfold four in E. injection E as -> -> -> ->. rewrite !is_digit_char, !digit_val_char by lia. repeat split. lia.
Qed.
Lemma two_inv n a b : 0 <= n <= 99 -> [a; b] = two n -> is_digit a = true /\ is_digit b = true /\ n = digit_val a * 10 + digit_val b.
Proof. intros H E. unfold two in E. injection E as -> ->. rewrite !is_digit_char, !digit_val_char by lia. repeat split. lia. Qed.
(** The filled year is the year of the date. *)
Lemma year_align yt yt' r t q y : core_in year_shapes yt -> fills yt yt' -> year4 t y -> yt' ++ r = t ++ q -> yt' = t /\ r = q.
Proof.
  intros C F Hy E. apply year_core in C. destruct C as (a & b & c & d & Ht & Ha & Hb & Hc & Hd). pose proof digit_not_minus as N.
  destruct Ht as [->| ->].
  - fill F. fill F. fill F. fill F. apply fills_nil in F. subst.
    destruct Hy as [n Hn|n Hn]; unfold four in *; cbn [app] in E.
    + injection E as -> -> -> -> ->. auto.
    + injection E as E1 _. subst d0. exfalso. destruct K as [<-|(_ & K)]; [unfold is_dx in Ha|]; discriminate.
  - fill F. fill F. fill F. fill F. fill F. apply fills_nil in F. subst.
    destruct K as [->|(K & _)]; [|discriminate]. destruct Hy as [n Hn|n Hn]; unfold four in *; cbn [app] in E.
    + injection E as E1 _. symmetry in E1. apply N in E1; [destruct E1|lia].
    + injection E as -> -> -> -> ->. auto.
Qed.
Lemma year_fill yt t y1 y2 p sg y : year_den yt y1 y2 p sg -> fills yt t -> year4 t y -> y1 <= y <= y2.
Proof.
  intros D F Hy. destruct D as [yt y1 C A|a b c Ha Hb Hc].
  - apply fills_same in F; [|exact (atoi_noX _ _ A)]. subst t. rewrite (SeasonFacts.atoi_year4 _ _ Hy) in A. injection A as ->. lia.
  - fill F. fill F. fill F. fill F. apply fills_nil in F. subst. apply digit_fill in K; [|exact Ha]. subst d.
    unfold year_lo, year_hi. remember [a; d0; d1; d2] as t eqn:Et. destruct Hy as [n Hn|n Hn].
    + symmetry in Et. apply four_inv in Et; [|exact Hn]. destruct Et as (_ & G1 & G2 & G3 & E).
      pose proof (xlo_fill _ _ Hb K0 G1). pose proof (xlo_fill _ _ Hc K1 G2). pose proof (digit_val_range _ G3). lia.
    + exfalso. injection Et as <- _. discriminate Ha.
Qed.
Lemma month_fill mt m1 m2 sg m : month_den mt m1 m2 sg -> fills mt (two m) -> 1 <= m <= 12 -> mt <> $"0X" -> m1 <= m <= m2.
Proof.
  intros D F Hm N. destruct D as [|mt m1 C A| |a Ha].
  - lia.
  - apply fills_same in F; [|exact (atoi_noX _ _ A)]. subst mt. rewrite StrFacts.atoi_two in A by lia. injection A as ->. lia.
  - lia.
  - apply fills_cons in F. destruct F as (d & u & E & F & K). apply fills_cons in F. destruct F as (d' & u' & -> & F & K'). apply fills_nil in F. subst u'.
    symmetry in E. apply two_inv in E; [|lia]. destruct E as (Hd & Hd' & ->). pose proof (digit_val_range _ Hd').
    destruct Ha as [->| ->]; [destruct N; reflexivity|]. destruct K as [->|(K & _)]; [|discriminate]. change (digit_val "1") with 1 in *. lia.
Qed.
Lemma day_fill L L' dt d1 d2 sg d : day_den L L' dt d1 d2 sg -> fills dt (two d) -> 1 <= d <= 31 -> d1 <= d /\ (d <= d2 \/ d2 = L').
Proof.
  intros D F Hd. destruct D as [|dt d1 C A Hz| | | | |].
  - lia.
  - apply fills_same in F; [|exact (atoi_noX _ _ A)]. subst dt. rewrite StrFacts.atoi_two in A by lia. injection A as ->. lia.
  - apply fills_same in F; [|intros [Q|[Q|[]]]; discriminate]. exfalso. assert (A : atoi (two d) = OK d) by (apply StrFacts.atoi_two; lia). rewrite F in A. change (atoi ($"00")) with (@OK Z 0) in A. injection A as A. lia.
  - lia.
  - apply fills_cons in F. destruct F as (c & u & E & F & K). apply fills_cons in F. destruct F as (c' & u' & -> & F & K'). apply fills_nil in F. subst u'.
    symmetry in E. apply two_inv in E; [|lia]. destruct E as (G & G' & ->). pose proof (digit_val_range _ G').
    destruct K as [->|(K & _)]; [|discriminate]. change (digit_val "1") with 1 in *. lia.
  - apply fills_cons in F. destruct F as (c & u & E & F & K). apply fills_cons in F. destruct F as (c' & u' & -> & F & K'). apply fills_nil in F. subst u'.
    symmetry in E. apply two_inv in E; [|lia]. destruct E as (G & G' & ->). pose proof (digit_val_range _ G').
    destruct K as [->|(K & _)]; [|discriminate]. change (digit_val "2") with 2 in *. lia.
  - apply fills_cons in F. destruct F as (c & u & E & F & K). apply fills_cons in F. destruct F as (c' & u' & -> & F & K'). apply fills_nil in F. subst u'.
    symmetry in E. apply two_inv in E; [|lia]. destruct E as (G & G' & ->). pose proof (digit_val_range _ G').
    destruct K as [->|(K & _)]; [|discriminate]. change (digit_val "3") with 3 in *. lia.
Qed.
(** ** A reading covers every date the mask stands for *)
Lemma mask_plain s t y m d yt yc yq mt mc mq dt dc dq : fills s t -> level0_date t y m d -> ymd_text s yt mt dt -> parts_ok yt yc yq mt mc mq dt dc dq ->
  yc = yt /\ mc = mt /\ dc = dt.
Proof.
  intros F H Ht [Q1 _ Q2 _ Q3 _].
  assert (G : forall u c v, qualified u c v -> (forall b, In b u -> In b s) -> c = u).
  { intros u c v Q Hu. destruct Q as [c|b c Hb|b c Hb]; [reflexivity|exfalso..].
    - destruct (mask_byte _ _ _ _ _ _ F H (Hu b (or_introl eq_refl))) as [E|[->| ->]]; [|discriminate Hb..].
      unfold in_set, qset in Hb. cbn in Hb. unfold is_digit in E. lia.
    - assert (Hi : In b (c ++ [b])) by (apply in_or_app; right; left; reflexivity).
      destruct (mask_byte _ _ _ _ _ _ F H (Hu b Hi)) as [E|[->| ->]]; [|discriminate Hb..].
      unfold in_set, qset in Hb. cbn in Hb. unfold is_digit in E. lia. }
  destruct Ht as [yt|yt mt Hm|yt mt dt Hm Hd].
  - split; [eapply G; [exact Q1|auto]|]. split; [eapply G; [exact Q2|intros b []]|eapply G; [exact Q3|intros b []]].
  - split; [eapply G; [exact Q1|intros; apply in_or_app; auto]|]. split; [eapply G; [exact Q2|intros; apply in_or_app; right; right; assumption]|eapply G; [exact Q3|intros b []]].
  - split; [eapply G; [exact Q1|intros; apply in_or_app; auto]|]. split; [eapply G; [exact Q2|intros; apply in_or_app; right; right; apply in_or_app; auto]|].
    eapply G; [exact Q3|intros; apply in_or_app; right; right; apply in_or_app; right; right; assumption].
Qed.
Lemma core2_len s : core_in month_shapes s \/ core_in day_shapes s -> length s = 2%nat.
Proof. intros [H|H]; [apply month_core in H|apply day_core in H]; destruct H as (a & b & -> & _); reflexivity. Qed.
Lemma fills_len s t : fills s t -> length t = length s.
Proof. induction 1; cbn; congruence. Qed.
Lemma year_len t : core_in year_shapes t -> length t = 4%nat \/ length t = 5%nat.
Proof. intro H. apply year_core in H. destruct H as (a & b & c & d & [->| ->] & _); auto. Qed.
Theorem den_covers s y1 m1 d1 y2 m2 d2 u a p sg t y m d : date_den s y1 m1 d1 y2 m2 d2 u a p sg -> fills s t -> level0_date t y m d ->
  exists_date y m d -> ~ month_0x s ->
  date_le y1 m1 d1 y (first_month m) (first_day d) /\ date_le y (last_month m) (last_day y (last_month m) d) y2 m2 d2.
Proof.
  intros [(yt & yc & yq & mt & mc & mq & dt & dc & dq & py & sy & sm & sd & Ht & Hp & Hy & Hm & Hd & _)] F H X N0.
  destruct (mask_plain _ _ _ _ _ _ _ _ _ _ _ _ _ _ F H Ht Hp) as (-> & -> & ->). destruct Hp as [_ Cy _ Cm _ Cd].
  pose proof (year_len _ Cy) as Ly.
  assert (N0m : forall r, s = yt ++ "-"%char :: mt ++ r -> mt <> $"0X") by (intros r E ->; apply N0; exists yt, r; split; [exact E|exact Ly]).
  destruct H as [tt y r m d Y4 MD]. unfold exists_date, real_date in X. destruct X as (Xm & Xd).
  destruct Ht as [yt|yt mt Nm|yt mt dt Nm Nd].
  - replace tt with (tt ++ []) in F by apply app_nil_r. destruct (year_align yt (tt ++ r) [] tt r y Cy) as (_ & <-); [rewrite app_nil_r in F; exact F|exact Y4|apply app_nil_r|].
    rewrite !app_nil_r in F. inversion MD; subst. pose proof (year_fill _ _ _ _ _ _ _ Hy F Y4) as R.
    inversion Hm; subst; [|discriminate..]. inversion Hd; subst; [|discriminate..].
    cbn [first_month last_month first_day last_day]. unfold date_le. split; [lia|]. destruct (Z.eq_dec y y2) as [->|]; lia.
  - apply fills_app in F. destruct F as (yt' & r' & E & Fy & Fr). fill Fr. destruct K as [->|(K & _)]; [|discriminate].
    destruct (year_align _ _ _ _ _ _ Cy Fy Y4 (eq_sym E)) as (-> & <-). clear E. pose proof (year_fill _ _ _ _ _ _ _ Hy Fy Y4) as R.
    destruct Cm as [Q|Cm]; [contradiction|]. pose proof (fills_len _ _ Fr) as L. rewrite (core2_len _ (or_introl Cm)) in L.
    inversion MD; subst; [|discriminate L]. specialize (N0m [] ltac:(rewrite app_nil_r; reflexivity)).
    pose proof (month_fill _ _ _ _ _ Hm Fr ltac:(assumption) N0m) as R'.
    inversion Hd; subst; [|discriminate..]. cbn [first_month last_month first_day last_day]. unfold date_le. split; [lia|].
    destruct (Z.eq_dec y y2) as [->|]; [|lia]. match goal with |- context [month_len y2 ?k] => destruct (Z.eq_dec k m2) as [->|] end; lia.
  - apply fills_app in F. destruct F as (yt' & r' & E & Fy & Fr). fill Fr. destruct K as [->|(K & _)]; [|discriminate].
    destruct (year_align _ _ _ _ _ _ Cy Fy Y4 (eq_sym E)) as (-> & <-). clear E. pose proof (year_fill _ _ _ _ _ _ _ Hy Fy Y4) as R.
    destruct Cm as [Q|Cm]; [contradiction|]. destruct Cd as [Q|Cd]; [contradiction|].
    apply fills_app in Fr. destruct Fr as (mt' & dt' & -> & Fm & Fd). fill Fd. destruct K as [->|(K & _)]; [|discriminate].
    pose proof (fills_len _ _ Fm) as Lm. rewrite (core2_len _ (or_introl Cm)) in Lm. pose proof (fills_len _ _ Fd) as Ld. rewrite (core2_len _ (or_intror Cd)) in Ld.
    inversion MD as [E1|k Hk E1|k n Hk Hn E1]; subst.
    + exfalso. apply (f_equal (@length _)) in E1. rewrite app_length in E1. cbn in E1. lia.
    + assert (mt' = two k /\ u0 = two n) as (-> & ->) by (destruct mt' as [|x [|z [|]]]; try discriminate Lm; cbn [app] in E1; injection E1 as <- <- E2; subst u0; split; reflexivity).
      specialize (N0m _ eq_refl). pose proof (month_fill _ _ _ _ _ Hm Fm Hk N0m) as R'. destruct (day_fill _ _ _ _ _ _ _ Hd Fd Hn) as (R1 & R2).
      cbn [first_month last_month first_day last_day] in *. unfold date_le. split; [lia|].
      destruct (Z.eq_dec y y2) as [->|]; [|lia]. destruct (Z.eq_dec k m2) as [->|]; lia.
Qed.

(** ** Strings *)
Lemma season_years y b c e dd sp : -9999 <= y <= 9999 -> c = y \/ c = y + 1 -> 1 <= b <= 12 -> 1 <= e <= 12 ->
  DateSpanFromEDTF (season_text y b c e dd) = OK sp -> rendered y /\ rendered c.
Proof.
  intros Hy Hc Hb He H. destruct (fmt_head y ltac:(lia)) as (sg & ds & S1 & S2 & S3 & S4).
  destruct (fmt_head c ltac:(lia)) as (sg' & ds' & T1 & T2 & T3 & T4).
  assert (Hspl : season_text y b c e dd = (sg ++ ds ++ "-"%char :: fmt_0d 2 b ++ $"-" ++ fmt_0d 2 1) ++ "/"%char :: (sg' ++ ds' ++ "-"%char :: fmt_0d 2 e ++ $"-" ++ fmt_0d 2 dd)).
  { unfold season_text. rewrite S3, T3. change ($"-") with ["-"%char]. change ($"/") with ["/"%char]. repeat (progress (rewrite <- ?app_assoc; cbn [app])). reflexivity. }
  rewrite Hspl in H. apply two_sides in H.
  - destruct H as (lo & hi & lo' & hi' & H1 & H2 & _). split.
    + exact (S4 (half_head _ _ _ _ _ _ H1 S1 S2 eq_refl)).
    + exact (T4 (half_head _ _ _ _ _ _ H2 T1 T2 eq_refl)).
  - rewrite fmt_two, fmt_two by lia. intro Hi. apply in_app_or in Hi. destruct Hi as [Hi|Hi]; [destruct S1 as [->| ->]; [destruct Hi|destruct Hi as [Hi|[]]; discriminate]|].
    apply in_app_or in Hi. destruct Hi as [Hi|[Hi|Hi]]; [exact (digits_no "/"%char ds S2 eq_refl Hi)|discriminate|].
    apply in_app_or in Hi. destruct Hi as [Hi|[Hi|Hi]]; [|discriminate|]; apply in_two in Hi; try lia; discriminate Hi.
Qed.
(** What a successful season with a code looks like. *)
Lemma season_parsed s e : ParseSeason s = OK e ->
  (exists t y n r a b c f, year4 t y /\ (1 <= n <= 12 \/ 21 <= n <= 24) /\ s = t ++ "-"%char :: two n ++ r /\ season_code n y = (a, b, c, f) /\ months e a b c f) \/
  In ","%char s.
Proof.
  intro H. destruct (season_inv _ _ H) as (a & b & c & e' & dd & sp & Hq). cbv zeta in Hq. destruct Hq as (Hl & Hc & Hdd & Hsp & _).
  assert (Hm : find_submatch Season s <> []) by (intro Q; rewrite Q in Hl; discriminate Hl).
  assert (M : match_string Season s = true) by (apply match_iff; exact Hm).
  destruct (in_dec ascii_dec ","%char s) as [Hi|Hn]; [right; exact Hi|left]. apply (season_iff s Hn) in M.
  destruct M as (t & y & n & r & Hy & Hn' & E). rewrite E in Hc. rewrite (season_submatch_code t y n r Hy Hn') in Hc. unfold sub in Hc. cbn [nth] in Hc.
  destruct Hc as [(Q & _)|(_ & y' & n' & A1 & A2 & Hc)]; [destruct (SeasonFacts.year4_ne _ _ Hy Q)|].
  rewrite (SeasonFacts.atoi_year4 _ _ Hy) in A1. injection A1 as <-. rewrite two_atoi in A2 by lia. injection A2 as <-.
  pose proof (code_cases _ _ _ _ _ _ Hc Hn') as (Ea & Hb & He & Hcy). subst a.
  destruct (season_years y b c e' dd sp (year4_range _ _ Hy) ltac:(lia) Hb He Hsp) as (Ry & Rc).
  destruct (season_code_parses t y n r y b c e' Hy Hn' Hc Ry Rc) as (d & Hd & _ & _ & Mo). rewrite <- E, H in Hd. injection Hd as <-.
  exists t, y, n, r, y, b, c, e'. auto 6.
Qed.
Lemma span_covers s sp t y m d e : dateSpanFromYMD s = OK sp -> fills s t -> level0_date t y m d -> exists_date y m d -> ~ month_0x s ->
  r_lower (e_start e) = r_lower (s_start sp) -> r_upper (e_end e) = r_upper (s_end sp) -> covers e y m d.
Proof.
  intros H F L X N El Eu. destruct (span_inv _ _ H) as (y1 & m1 & d1 & y2 & m2 & d2 & u & a & p & sg & D & R1 & R2 & Y1 & Y2 & ->).
  destruct (den_covers _ _ _ _ _ _ _ _ _ _ _ _ _ _ _ D F L X N) as (O1 & O2).
  exists (instant y1 m1 d1 0 0 0), (instant y2 m2 d2 23 59 59). unfold Lower, Upper. rewrite El, Eu.
  unfold span6. split; [destruct sg; reflexivity|]. split; [destruct sg; reflexivity|]. split.
  - apply instant_le; [exact R1|exact X|exact O1|unfold clock; lia..].
  - apply instant_le; [exact (last_real _ _ _ _ L X)|exact R2|exact O2|unfold clock; lia..].
Qed.
Theorem mask_covers s e : ParseString s = OK e -> ~ month_0x s -> forall y m d, stands_for s y m d -> covers e y m d.
Proof.
  intros H N0 y m d (t & F & L & X).
  assert (NB : forall c, is_digit c = false -> c <> "-"%char -> c <> "X"%char -> ~ In c s).
  { intros c H1 H2 H3 Hi. destruct (mask_byte _ _ _ _ _ _ F L Hi) as [Q|[Q|Q]]; congruence. }
  apply parse_parsed in H. destruct H as [e Hm H|lv f r sp Hin Hm H|e H|e H|e H|e H|e H|e H|H|H].
  - exfalso. unfold IsDateAndTime in Hm. apply DateAndTime_spec in Hm. destruct Hm as [t0 h mi sc z]. apply (NB "T"%char); [reflexivity|discriminate|discriminate|].
    apply in_or_app. right. left. reflexivity.
  - rewrite single_fwd in H by (apply NB; [reflexivity|discriminate|discriminate]).
    exact (span_covers _ _ _ _ _ _ (edtf_of_span sp s lv f) H F L X N0 eq_refl eq_refl).
  - exfalso. destruct (letter_inv _ _ H) as (sp & Hl & _). assert (M : match_string LetterPrefixedCalendarYear s = true) by (apply match_iff; intro Q; rewrite Q in Hl; discriminate).
    apply LetterYear_spec in M. destruct M as (u & v & -> & _ & ->). apply (NB "Y"%char); [reflexivity|discriminate|discriminate|left; reflexivity].
  - destruct (season_parsed _ _ H) as [(t' & y' & n & r & a & b & c & f & Hy & Hn & -> & Hc & (Hs & He & _))|Q].
    + apply fills_app in F. destruct F as (t1 & r1 & -> & F1 & F2). fill F2. destruct K as [->|(K & _)]; [|discriminate].
      apply fills_app in F2. destruct F2 as (t2 & r2 & -> & F2 & F3).
      assert (XN : forall k, 0 <= k <= 99 -> ~ In "X"%char (two k)) by (intros k Hk Hi; apply in_two in Hi; [discriminate|lia]).
      apply fills_same in F1; [|intro Hi; destruct (year4_bytes _ _ _ Hy Hi); discriminate]. apply fills_same in F2; [|apply XN; lia]. subst t1 t2.
      inversion L as [tt y1 r1 m1 d1 Y4 MD E]. subst y1 m1 d1. destruct (year_prefix _ _ _ _ _ _ Y4 Hy E) as (-> & ->).
      assert (y = y') by (pose proof (SeasonFacts.atoi_year4 _ _ Y4) as A1; rewrite (SeasonFacts.atoi_year4 _ _ Hy) in A1; injection A1; auto). subst y'.
      assert (K : exists k, m = Some k /\ k = n /\ 1 <= k <= 12).
      { inversion MD as [E1|k Hk E1|k j Hk Hj E1]; subst; exists k; split; auto; split; auto.
        - assert (Q : two k = two n) by (unfold two in *; cbn [app] in *; congruence). apply (f_equal (@Some _)) in Q. injection Q as Q. assert (A : atoi (two k) = atoi (two n)) by (unfold two; rewrite Q; unfold two in *; congruence).
          rewrite !two_atoi in A by lia. injection A. auto.
        - assert (A : atoi (two k) = atoi (two n)) by (f_equal; unfold two in *; cbn [app] in *; congruence). rewrite !two_atoi in A by lia. injection A. auto. }
      destruct K as (k & -> & -> & Hk). unfold season_code in Hc. replace (n =? 21) with false in Hc by lia. replace (n =? 22) with false in Hc by lia.
      replace (n =? 23) with false in Hc by lia. replace (n =? 24) with false in Hc by lia. injection Hc as <- <- <- <-.
      destruct Hs as ((Hs & _) & _). destruct He as (_ & (He & _)). pose proof (month_len_range y n).
      exists (instant y n 1 0 0 0), (instant y n (month_len y n) 23 59 59). unfold Lower, Upper. rewrite Hs, He. repeat split.
      * apply instant_le; [split; lia|exact X| |unfold clock; lia..]. destruct X as (_ & X). cbn [first_month first_day] in *. unfold date_le. lia.
      * apply instant_le; [exact (last_real _ _ _ _ L X)|split; lia| |unfold clock; lia..]. destruct X as (_ & X). cbn [first_month first_day last_month last_day] in *. unfold date_le. destruct d as [d|]; cbn [last_day first_day] in *; lia.
    + exfalso. revert Q. apply NB; [reflexivity|discriminate|discriminate].
  - exfalso. destruct (exponential_inv _ _ H) as (z & sp & Hl & _). assert (M : match_string ExponentialYear s = true) by (apply match_iff; intro Q; rewrite Q in Hl; discriminate).
    apply Exponential_spec in M. destruct M as (u & v & [->| ->] & _ & ->); [apply (NB "Y"%char)|apply (NB "y"%char)]; try reflexivity; try discriminate; left; reflexivity.
  - exfalso. destruct (significant_inv _ _ H) as (z & k & sp & Hq). cbv zeta in Hq. destruct Hq as (Hl & _). assert (M : match_string SignificantDigits s = true) by (apply match_iff; intro Q; rewrite Q in Hl; discriminate).
    apply Significant_spec in M. destruct M as (u & v & _ & (w & x & -> & _ & ->) & ->). apply (NB "S"%char); [reflexivity|discriminate|discriminate|].
    apply in_or_app. right. left. reflexivity.
  - exfalso. destruct (grouping_inv _ _ H) as (a & b & c & e' & nx & ey & sp & Hq). cbv zeta in Hq. destruct Hq as (Hl & Hg & _).
    assert (M : match_string SubYearGrouping s = true) by (apply match_iff; intro Q; rewrite Q in Hl; discriminate).
    apply Grouping_spec in M. destruct M as (u & v & Hu & (v1 & v2 & -> & (n & Hn & ->) & ->) & ->).
    assert (Hf : exists y, 0 <= y <= 9999 /\ u = four y) by (apply lg_d4; exact (proj2 (den_4 u) Hu)). destruct Hf as (z & Hz & ->).
    change (four z ++ $"-" ++ two n) with (code_text z n) in *. rewrite grouping_submatch in * by assumption. unfold sub in Hg. cbn [nth] in Hg.
    apply fills_same in F; [|intro Hi; unfold code_text in Hi; apply in_app_or in Hi; destruct Hi as [Hi|[Hi|Hi]]; [destruct (year4_bytes _ _ _ (year4_pos z Hz) Hi); discriminate|discriminate|apply in_two in Hi; [discriminate|lia]]].
    subst t. inversion L as [tt y1 r1 m1 d1 Y4 MD E]. subst y1 m1 d1. change (tt ++ r1 = four z ++ "-"%char :: two n) in E.
    destruct (year_prefix _ _ _ _ _ _ Y4 (year4_pos z Hz) E) as (-> & ->).
    inversion MD as [E1|k Hk E1|k j Hk Hj E1]; subst.
    assert (A : atoi (two k) = atoi (two n)) by (f_equal; unfold two in *; congruence). rewrite !two_atoi in A by lia. injection A as ->.
    assert (C : n = 10 \/ n = 11 \/ n = 12) by lia. destruct C as [->|[->| ->]]; discriminate Hg.
  - exfalso. assert (M : match_string SetRepresentations s = true).
    { apply match_iff. unfold ParseSetRepresentations in H. intro Q. rewrite Q in H. discriminate H. }
    apply IsSet_spec in M. destruct M as (o & body & M). assert (Hs : In o s) by (destruct M; left; reflexivity).
    assert (Ho : o = "["%char \/ o = "{"%char) by (destruct M; assumption). apply (NB o).
    + destruct Ho as [->| ->]; reflexivity.
    + destruct Ho as [->| ->]; discriminate.
    + destruct Ho as [->| ->]; discriminate.
    + exact Hs.
  - exfalso. subst s. apply (NB "."%char); [reflexivity|discriminate|discriminate|left; reflexivity].
  - exfalso. subst s. apply fills_nil in F. subst t. remember [] as t eqn:E. destruct L as [tt y r m d Y4 MD]. apply app_eq_nil in E. destruct E as (-> & _). exact (SeasonFacts.year4_ne _ _ Y4 eq_refl).
Qed.
(** ** Intervals of masks *)
Lemma half_covers a lo hi y m d : half a lo hi -> stands_for a y m d -> ~ month_0x a ->
  exists t t', d_timestamp lo = Some t /\ d_timestamp hi = Some t' /\ t <= first_instant y m d /\ last_instant y m d <= t'.
Proof.
  intros H (t & F & L & X) N. destruct H as [| |a y1 m1 d1 y2 m2 d2 u' a' p sg D R1 R2 _ _].
  - apply fills_nil in F. subst t. remember [] as t eqn:E. destruct L as [tt y r m d Y4 MD]. apply app_eq_nil in E. destruct E as (-> & _). destruct (SeasonFacts.year4_ne _ _ Y4 eq_refl).
  - exfalso. destruct (mask_byte _ _ _ _ _ "."%char F L (or_introl eq_refl)) as [Q|[Q|Q]]; discriminate.
  - destruct (den_covers _ _ _ _ _ _ _ _ _ _ _ _ _ _ _ D F L X N) as (O1 & O2).
    exists (instant y1 m1 d1 0 0 0), (instant y2 m2 d2 23 59 59). split; [reflexivity|]. split; [reflexivity|]. split.
    + apply instant_le; [exact R1|exact X|exact O1|unfold clock; lia..].
    + apply instant_le; [exact (last_real _ _ _ _ L X)|exact R2|exact O2|unfold clock; lia..].
Qed.
Lemma not_season s e : ParseString s = OK e -> IsLevel1 s = false -> e_feature e <> $"Seasons".
Proof.
  intros H H1. unfold ParseString in H. rewrite H1 in H.
  assert (S : forall (b : bool) x f lv, (if b then Err x else let* sp := DateSpanFromEDTF s in OK (edtf_of_span sp s lv f)) = OK e -> e_feature e = f).
  { intros b x f lv Q. destruct b; [discriminate|]. apply bind_OK in Q. destruct Q as (sp & _ & Q). injection Q as <-. reflexivity. }
  destruct (IsLevel0 s).
  { unfold L0_ParseString in H. destruct (IsDate s); [apply S in H; rewrite H; discriminate|].
    destruct (IsDateAndTime s) eqn:Et; [rewrite (InvProofs2.datetime_feature _ _ H); discriminate|].
    destruct (IsTimeInterval s); [apply S in H; rewrite H; discriminate|discriminate]. }
  destruct (IsLevel2 s).
  { unfold L2_ParseString in H.
    destruct (IsExponentialYear s); [destruct (exponential_inv _ _ H) as (? & ? & _ & _ & _ & ->); discriminate|].
    destruct (IsSignificantDigits s); [destruct (significant_inv _ _ H) as (? & ? & ? & Hq); cbv zeta in Hq; destruct Hq as (_ & _ & _ & _ & _ & _ & _ & ->); discriminate|].
    destruct (IsSubYearGrouping s); [destruct (grouping_inv _ _ H) as (? & ? & ? & ? & ? & ? & ? & Hq); cbv zeta in Hq; destruct Hq as (_ & _ & _ & _ & ->); discriminate|].
    destruct (IsSetRepresentation s); [rewrite (InvProofs2.set_feature _ _ H); discriminate|].
    destruct (IsGroupQualification s); [apply S in H; rewrite H; discriminate|]. destruct (IsIndividualQualification s); [apply S in H; rewrite H; discriminate|].
    destruct (IsUnspecifiedDigit s); [apply S in H; rewrite H; discriminate|]. destruct (IsInterval s); [apply S in H; rewrite H; discriminate|discriminate]. }
  destruct (seqb s OPEN); [injection H as <-; discriminate|]. destruct (seqb s UNKNOWN); [injection H as <-; discriminate|discriminate].
Qed.
Theorem mask_interval a b e : ParseString (a ++ "/"%char :: b) = OK e -> ~ month_0x a -> ~ month_0x b ->
  forall y m d y' m' d', stands_for a y m d -> stands_for b y' m' d' ->
  exists lo hi, Lower e = OK lo /\ Upper e = OK hi /\ lo <= first_instant y m d /\ last_instant y' m' d' <= hi.
Proof.
  intros H Na Nb y m d y' m' d' Sa Sb. pose proof Sa as (ta & Fa & La & _). pose proof Sb as (tb & Fb & Lb & _).
  assert (NA : forall c, is_digit c = false -> c <> "-"%char -> c <> "X"%char -> ~ In c a).
  { intros c H1 H2 H3 Hi. destruct (mask_byte _ _ _ _ _ _ Fa La Hi) as [Q|[Q|Q]]; congruence. }
  assert (NB : forall c, is_digit c = false -> c <> "-"%char -> c <> "X"%char -> c <> "/"%char -> ~ In c (a ++ "/"%char :: b)).
  { intros c H1 H2 H3 H4 Hi. apply in_app_or in Hi. destruct Hi as [Hi|[Hi|Hi]]; [exact (NA c H1 H2 H3 Hi)|congruence|].
    destruct (mask_byte _ _ _ _ _ _ Fb Lb Hi) as [Q|[Q|Q]]; congruence. }
  assert (SL : In "/"%char (a ++ "/"%char :: b)) by (apply in_or_app; right; left; reflexivity).
  remember (a ++ "/"%char :: b) as s eqn:Es.
  assert (L1 : IsLevel1 s = false).
  { destruct (IsLevel1 s) eqn:E1; [exfalso|reflexivity]. unfold IsLevel1 in E1.
    assert (NY : ~ In "Y"%char s) by (apply NB; [reflexivity|discriminate..]). assert (ND : ~ In "."%char s) by (apply NB; [reflexivity|discriminate..]).
    assert (NEa : a <> []) by (intros ->; apply fills_nil in Fa; subst ta; remember [] as t eqn:E; destruct La as [tt ? ? ? ? Y4 ?]; apply app_eq_nil in E; destruct E as (-> & _); exact (SeasonFacts.year4_ne _ _ Y4 eq_refl)).
    assert (NEb : b <> []) by (intros ->; apply fills_nil in Fb; subst tb; remember [] as t eqn:E; destruct Lb as [tt ? ? ? ? Y4 ?]; apply app_eq_nil in E; destruct E as (-> & _); exact (SeasonFacts.year4_ne _ _ Y4 eq_refl)).
    assert (Ns : ~ In "/"%char a) by (apply NA; [reflexivity|discriminate..]).
    apply Level1_spec in E1. destruct E1 as [Q|[Q|[Q|[Q|[Q|[Q|[Q|Q]]]]]]].
    - destruct Q as (u & v & -> & _ & Q). apply NY. rewrite Q. left. reflexivity.
    - destruct Q as (u & v & (z & Hz) & (d0 & v' & -> & (n & Hn & ->) & ->) & Q). rewrite Q in SL. apply in_app_or in SL.
      destruct SL as [SL|[SL|SL]]; [destruct (year4_bytes _ _ _ Hz SL) as [K|K]; discriminate K|discriminate|apply in_two in SL; [discriminate|lia]].
    - apply words_comma in Q. revert Q. apply NB; [reflexivity|discriminate..].
    - apply QualifiedDate_spec in Q. rewrite (byte_out QualifiedDate "/"%char s eq_refl eq_refl SL) in Q. discriminate.
    - apply UnspecifiedDigits_spec in Q. rewrite (byte_out UnspecifiedDigits "/"%char (map upx s) eq_refl eq_refl) in Q; [discriminate|].
      change "/"%char with (upx "/"%char). apply in_map. exact SL.
    - destruct Q as (u & v & Hu & (w & x & -> & _ & ->) & Q). change ($"/" ++ x) with ("/"%char :: x) in Q. destruct Hu as [->| ->].
      + rewrite Q in Es. apply split_once in Es; [|intros []|exact Ns]. destruct Es as (<- & _). exact (NEa eq_refl).
      + apply ND. rewrite Q. left. reflexivity.
    - destruct Q as (u & v & Hu & (w & x & -> & Hx & ->) & Q). change ($"/" ++ x) with ("/"%char :: x) in Q. destruct Hx as [->| ->].
      + rewrite Q in Es. apply split_once in Es; [|exact (no_slash _ Hu)|exact Ns]. destruct Es as (_ & <-). exact (NEb eq_refl).
      + apply ND. rewrite Q. apply in_or_app. right. right. left. reflexivity.
    - apply NegativeYear_spec in Q. rewrite (byte_out NegativeYear "/"%char s eq_refl eq_refl SL) in Q. discriminate. }
  pose proof (not_season s e H L1) as Hf. apply parse_parsed in H. destruct H as [e Hm H|lv f r sp Hin Hm H|e H|e H|e H|e H|e H|e H|H|H].
  - exfalso. unfold IsDateAndTime in Hm. apply DateAndTime_spec in Hm. assert (In "T"%char s) by (destruct Hm; apply in_or_app; right; left; reflexivity).
    apply (NB "T"%char); [reflexivity|discriminate..|assumption].
  - rewrite Es in H. apply two_sides in H; [|apply NA; [reflexivity|discriminate|discriminate]].
    destruct H as (lo & hi & lo' & hi' & H1 & H2 & ->).
    destruct (half_covers _ _ _ _ _ _ H1 Sa Na) as (t1 & t1' & E1 & _ & O1 & _). destruct (half_covers _ _ _ _ _ _ H2 Sb Nb) as (t2 & t2' & _ & E2 & _ & O2).
    exists t1, t2'. unfold Lower, Upper, edtf_of_span. cbn [e_start e_end s_start s_end r_lower r_upper]. rewrite E1, E2. auto.
  - exfalso. destruct (letter_inv _ _ H) as (sp & Hl & _). assert (M : match_string LetterPrefixedCalendarYear s = true) by (apply match_iff; intro Q; rewrite Q in Hl; discriminate).
    rewrite (byte_out LetterPrefixedCalendarYear "/"%char s eq_refl eq_refl SL) in M. discriminate.
  - exfalso. apply Hf. destruct (season_inv _ _ H) as (? & ? & ? & ? & ? & ? & Hq). cbv zeta in Hq. destruct Hq as (_ & _ & _ & _ & ->). reflexivity.
  - exfalso. destruct (exponential_inv _ _ H) as (z & sp & Hl & _). assert (M : match_string ExponentialYear s = true) by (apply match_iff; intro Q; rewrite Q in Hl; discriminate).
    rewrite (byte_out ExponentialYear "/"%char s eq_refl eq_refl SL) in M. discriminate.
  - exfalso. destruct (significant_inv _ _ H) as (z & k & sp & Hq). cbv zeta in Hq. destruct Hq as (Hl & _). assert (M : match_string SignificantDigits s = true) by (apply match_iff; intro Q; rewrite Q in Hl; discriminate).
    rewrite (byte_out SignificantDigits "/"%char s eq_refl eq_refl SL) in M. discriminate.
  - exfalso. destruct (grouping_inv _ _ H) as (? & ? & ? & ? & nx & ey & sp & Hq). cbv zeta in Hq. destruct Hq as (Hl & _).
    assert (M : match_string SubYearGrouping s = true) by (apply match_iff; intro Q; rewrite Q in Hl; discriminate).
    rewrite (byte_out SubYearGrouping "/"%char s eq_refl eq_refl SL) in M. discriminate.
  - exfalso. assert (M : match_string SetRepresentations s = true).
    { apply match_iff. unfold ParseSetRepresentations in H. intro Q. rewrite Q in H. discriminate H. }
    apply IsSet_spec in M. destruct M as (o & body & M). assert (Hs : In o s) by (destruct M; left; reflexivity).
    assert (Ho : o = "["%char \/ o = "{"%char) by (destruct M; assumption). apply (NB o); [destruct Ho as [->| ->]; (reflexivity || discriminate)..|exact Hs].
  - exfalso. rewrite H in SL. destruct SL as [Q|[Q|[]]]; discriminate.
  - exfalso. rewrite H in SL. destruct SL.
Qed.

(** ** Flags *)
Lemma never_unspecified s e : ParseString s = OK e -> forall b, In b (InvProofs.bounds e) -> d_unspecified b = 0%N.
Proof.
  intros H b Hb. destruct (InvProofs.parsed_bound _ _ _ H Hb) as [(_ & y & m & dd & hh & mi & ss & _ & _ & _ & ->)|(_ & i & G)]; [reflexivity|].
  destruct G; reflexivity.
Qed.
(** Year masks, with their precision. *)
Lemma year_mask_spans a b c : is_digit a = true -> d_or_x b -> d_or_x c -> exists e, ParseString [a; b; c; "X"%char] = OK e /\
  precise e (if Ascii.eqb c "X" then if Ascii.eqb b "X" then MILLENIUM else CENTURY else DECADE).
Proof.
  intros Ha Hb Hc. destruct (year_x_spans a b c Ha (proj1 (digits_x b) Hb) (proj1 (digits_x c) Hc)) as (e & H & _ & _ & _ & _ & P). exists e. split; [exact H|exact P].
Qed.
Lemma level0_year_precision s y m d : level0_date s y m d -> exists_date y m d -> exists e, ParseString s = OK e /\ precise e YEAR.
Proof. intros H X. destruct (level0_parses _ _ _ _ H X) as (e & He & Q). exists e. split; [exact He|]. tauto. Qed.
