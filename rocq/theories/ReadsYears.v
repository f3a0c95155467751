(** What letter years and groupings are read as. *)
From Coq Require Import Ascii String ZArith NArith Bool Lia ZifyBool List.
From Verif Require Import GoStr GoTime SpecWrap Regex Patterns RegexSym RegexRel RegexGen SpecCal SpecText SpecZone SpecGrammar SpecForms SpecSpan SpecReads StrFacts TextFacts Edtf Calendar Common Level0 Level1 Level2 Parser CalFacts ApiFacts SpanFacts YmdShapes YmdFacts InvFacts GrammarFacts SetGrammar LangFacts LangNorm LangForms LangForms2 DateFacts ParseFacts SplitFacts Level0Facts Level0Proofs FormFacts SeasonFacts Level1Proofs XProofs FormProofs SigProofs ExpProofs ExpWrap GroupingProofs ReadsFacts ReadsSeason.
Import ListNotations.
Open Scope Z_scope.
Ltac Zify.zify_post_hook ::= Z.div_mod_to_equations.

Lemma result_fun e lv f lo hi lo' hi' : result e lv f lo hi -> result e lv f lo' hi' -> lo = lo' /\ hi = hi'.
Proof. intros (_ & _ & L & U) (_ & _ & L' & U'). split; eapply shows_fun; eassumption. Qed.
Lemma dated_shows b y m d hh mi ss : dated b y m d hh mi ss -> shows b (At (instant y m d hh mi ss)).
Proof. intros (H1 & _ & _ & H2 & H3). repeat split; assumption. Qed.
Lemma year_result e lv f y y' m' d' : e_level e = lv -> e_feature e = f -> from_to (e_start e) y 1 1 y 1 1 -> from_to (e_end e) y' m' d' y' 12 31 ->
  forall lo hi, year_span y y' lo hi -> result e lv f lo hi.
Proof. intros H1 H2 (H3 & _) (_ & H4) lo hi H. destruct H. split; [exact H1|]. split; [exact H2|]. split; apply dated_shows; assumption. Qed.

(** ** Letter years *)
Lemma number_year4 sgn ds : minus_text sgn -> digits_text ds -> length ds = 4%nat -> exists y, year4 (sgn ++ ds) y.
Proof.
  intros Hs (_ & F) L. destruct ds as [|a [|b [|c [|d [|? ?]]]]]; try discriminate.
  apply Forall_cons_iff in F. destruct F as (Da & F). apply Forall_cons_iff in F. destruct F as (Db & F). apply Forall_cons_iff in F. destruct F as (Dc & F).
  apply Forall_cons_iff in F. destruct F as (Dd & _). destruct (StrFacts.four_of a b c d Da Db Dc Dd) as (y & Hy & E). rewrite E.
  destruct Hs as [->| ->]; eexists; [apply year4_pos|apply year4_neg]; exact Hy.
Qed.
Lemma number_half sgn ds lo hi : minus_text sgn -> digits_text ds -> half_reads (sgn ++ ds) lo hi -> exists y, year4 (sgn ++ ds) y /\ year_span y y lo hi.
Proof.
  intros Hs Hd H. pose proof H as H0. apply half_bridge in H. destruct H as (b & b' & H & _). pose proof (half_number _ _ _ _ _ H Hs Hd eq_refl) as L.
  destruct (number_year4 sgn ds Hs Hd L) as (y & Hy). exists y. split; [exact Hy|].
  assert (K : half_reads (sgn ++ ds) (from_day y 1 1) (to_day y 12 31)).
  { apply (date_half _ y None None); [exact (year_is _ _ Hy)|apply exists_none; discriminate]. }
  destruct (half_reads_fun _ _ _ _ _ H0 K) as (-> & ->). constructor.
Qed.
Theorem letter_bridge s lo hi : letter_year s ->
  (letter_reads s lo hi <-> exists e, ParseLetterPrefixedCalendarYear s = OK e /\ result e 1 LETTER_PREFIXED_CALENDAR_YEAR lo hi).
Proof.
  intro HL. split.
  - intros [t y lo' hi' Hy Hs]. destruct (letter_year_parses t y Hy) as (e & E & E1 & E2 & S & T & _). exists e. split.
    + change ($"Y" ++ t) with ("Y"%char :: t) in *. rewrite to_letter in E by exact (year4_text' _ _ Hy). exact E.
    + exact (year_result _ _ _ _ _ _ _ E1 E2 S T _ _ Hs).
  - intros (e & E & R). destruct HL as (u & t & Hu & Ht & ->). unfold is in Hu. subst u. change ($"Y" ++ t) with ("Y"%char :: t) in *.
    unfold ParseLetterPrefixedCalendarYear in E. rewrite letter_submatch in E by exact Ht. cbn [length Nat.eqb negb] in E. cbv zeta in E. unfold sub in E. cbn [nth] in E.
    destruct Ht as (sgn & ds & Hs & Hd & ->).
    destruct (Nat.ltb _ _); [discriminate|].
    assert (Q : span_reads (sgn ++ ds) lo hi) by (eapply span_result; eauto).
    assert (N : ~ In "/"%char (sgn ++ ds)) by (apply number_noslash; assumption).
    assert (H : half_reads (sgn ++ ds) lo hi).
    { remember (sgn ++ ds) as t eqn:Et. destruct Q as [t lo hi Q|a b lo x x' hi _ _]; [apply hr_date; exact Q|].
      exfalso. apply N. apply in_or_app. right. left. reflexivity. }
    destruct (number_half _ _ _ _ Hs Hd H) as (y & Hy & Hs'). exact (lt_intro _ y _ _ Hy Hs').
Qed.

(** ** Groupings *)
Lemma grouping_codes n : 25 <= n <= 41 -> exists b e j, grouping_of n b e j.
Proof.
  intro H. assert (C : n = 25 \/ n = 26 \/ n = 27 \/ n = 28 \/ n = 29 \/ n = 30 \/ n = 31 \/ n = 32 \/ n = 33 \/ n = 34 \/ n = 35 \/ n = 36 \/ n = 37 \/ n = 38 \/ n = 39 \/ n = 40 \/ n = 41) by lia.
  repeat (destruct C as [->|C]; [do 3 eexists; constructor|]). subst. do 3 eexists. constructor.
Qed.
Lemma itoa_number n : 0 <= n -> digits_text (itoa n).
Proof. exact (itoa_digits n). Qed.
Theorem grouping_bridge s lo hi : ~ level0_form s -> ~ level1_text s -> sub_year_grouping s ->
  (grouping_reads s lo hi <-> exists e, ParseSubYearGroupings s = OK e /\ result e 2 SUB_YEAR_GROUPINGS lo hi).
Proof.
  intros N0 N1 HG.
  assert (F : forall y n b e j, grouping_of n b e j -> 0 <= y <= 9999 -> j = 0 \/ 999 <= y <= 9998 ->
    exists d, ParseSubYearGroupings (code_text y n) = OK d /\ result d 2 SUB_YEAR_GROUPINGS (from_day y b 1) (to_day (y + j) e (month_len (y + j) e))).
  { intros y n b e j Hg Hy Hj. destruct (grouping_parses n b e j y Hg Hy Hj) as (d & E & E1 & E2 & (S & _) & (_ & T) & _). exists d. split.
    - destruct (code_range _ _ _ _ Hg) as (Hn & _). change ($"-" ++ two n) with ("-"%char :: two n) in E. fold (code_text y n) in E. rewrite to_grouping in E by assumption. exact E.
    - split; [exact E1|]. split; [exact E2|]. split; apply dated_shows; assumption. }
  split; [intros [y n b e j Hg Hy Hj]; exact (F y n b e j Hg Hy Hj)|].
  intros (d & E & R). destruct HG as (f & r & (Lf & Ff) & (c & t & Hc & (n & Hn & ->) & ->) & ->). unfold is in Hc. subst c.
  destruct f as [|a [|b [|c [|k [|? ?]]]]]; try discriminate.
  apply Forall_cons_iff in Ff. destruct Ff as (Da & Ff). apply Forall_cons_iff in Ff. destruct Ff as (Db & Ff). apply Forall_cons_iff in Ff. destruct Ff as (Dc & Ff).
  apply Forall_cons_iff in Ff. destruct Ff as (Dd & _). destruct (StrFacts.four_of a b c k Da Db Dc Dd) as (y & Hy & Ey). rewrite Ey in *. clear Ey a b c k Lf Da Db Dc Dd.
  change ($"-" ++ two n) with ("-"%char :: two n) in *. fold (code_text y n) in *.
  assert (Hn' : 25 <= n <= 41).
  { destruct (Z_lt_dec n 25) as [L|L]; [exfalso|lia]. destruct (Z_le_dec n 12) as [L'|L'].
    - apply N0. left. exists y, (Some n), None. pose proof (month_level0 y n ltac:(lia) ltac:(lia)) as M. unfold month_text in M. rewrite text_four in M by exact Hy. exact M.
    - apply N1. left. right. left. exists (four y), ("-"%char :: two n). split; [exists y; apply four_year4; exact Hy|]. split; [|reflexivity].
      exists ["-"%char], (two n). repeat split. exists n. split; [lia|reflexivity]. }
  destruct (grouping_codes n Hn') as (b & e & j & Hg). destruct (code_range _ _ _ _ Hg) as (_ & Hb & He & Hj01).
  assert (Hj : j = 0 \/ 999 <= y <= 9998).
  { destruct (Z.eq_dec j 0) as [->|Nj]; [auto|right]. assert (j = 1) by lia. subst j. clear Nj Hj01.
    unfold ParseSubYearGroupings in E. rewrite grouping_submatch in E by (assumption || lia). cbn [length Nat.eqb negb] in E. cbv zeta in E. unfold sub in E. cbn [nth] in E.
    destruct (table n b e 1 (y + 1) Hg) as (dd & Et & Hdd). rewrite Et in E. change (1 =? 0) with false in *. subst dd. cbn [negb bind is_empty] in E.
    rewrite atoi_year4 with (y := y) in E by (apply four_year4; exact Hy). cbn [bind] in E.
    assert (Q : span_reads ((four y ++ $"-" ++ two b ++ $"-" ++ $"01") ++ $"/" ++ itoa (y + 1) ++ $"-" ++ two e) lo hi) by (eapply span_result; eauto).
    change ($"/" ++ itoa (y + 1) ++ $"-" ++ two e) with ("/"%char :: itoa (y + 1) ++ "-"%char :: two e) in Q.
    replace (four y ++ $"-" ++ two b ++ $"-" ++ $"01") with (day_text y b 1) in Q by (unfold day_text; rewrite text_four by exact Hy; reflexivity).
    apply pair_reads in Q.
    - destruct Q as (x & x' & _ & Q). change (itoa (y + 1) ++ "-"%char :: two e) with ([] ++ itoa (y + 1) ++ "-"%char :: two e) in Q.
      pose proof (long_year _ _ _ _ _ (or_introl eq_refl) (itoa_number (y + 1) ltac:(lia)) (two_dash e ltac:(lia)) Q) as L.
      destruct (Z.eq_dec y 9999) as [->|Ny]; [vm_compute in L; discriminate|]. split; [|lia].
      pose proof (itoa_len (y + 1) ltac:(lia)) as K. unfold slen in K. rewrite L in K.
      destruct (y + 1 <? 10) eqn:E1; [lia|]. destruct (y + 1 <? 100) eqn:E2; [lia|]. destruct (y + 1 <? 1000) eqn:E3; lia.
    - apply day_noslash; lia.
    - intro Hi. apply in_app_or in Hi. destruct Hi as [Hi|[Hi|Hi]]; [|discriminate|apply in_two in Hi; [discriminate|lia]].
      revert Hi. apply digits_no; [apply itoa_number; lia|reflexivity]. }
  destruct (F y n b e j Hg Hy Hj) as (d0 & E0 & R0). rewrite E in E0. injection E0 as <-.
  destruct (result_fun _ _ _ _ _ _ _ R R0) as (-> & ->). exact (gr_intro y n b e j Hg Hy Hj).
Qed.

(** ** Exponential years *)
Lemma runs_result d lv f y y' : e_level d = lv -> e_feature d = f -> runs d y 1 1 y' 12 31 -> forall lo hi, year_span y y' lo hi -> result d lv f lo hi.
Proof. intros H1 H2 (H3 & H4 & _) lo hi H. destruct H. split; [exact H1|]. split; [exact H2|]. split; apply dated_shows; assumption. Qed.
Lemma wrap_year a t m e y : a = "Y"%char \/ a = "y"%char -> exp_text t m e -> wraps (m * 10 ^ e) y -> 1000 <= Z.abs y <= 9999 ->
  ParseString (a :: t) = let* sp := DateSpanFromEDTF (itoa y) in OK (edtf_of_span sp (a :: t) LEVEL2 EXPONENTIAL_YEAR).
Proof.
  intros Ha Ht W Hy. rewrite (exp_parse a t Ha) by (apply exp_text_form; eauto).
  rewrite (proj2 (notation_year t m e y Ht ltac:(lia))) by (split; [exact W|lia]). reflexivity.
Qed.
Theorem exponential_bridge s lo hi : exponential_year s ->
  (exponential_reads s lo hi <-> exists e, ParseExponentialYear s = OK e /\ result e 2 EXPONENTIAL_YEAR lo hi).
Proof.
  intros HX. rewrite <- (to_exponential s HX).
  assert (Yr : forall y, 1000 <= Z.abs y <= 9999 -> forall l h, span_reads (itoa y) l h <-> year_span y y l h).
  { intros y Hy l h. pose proof (itoa_year4 y Hy) as Y. assert (R : real_date y 1 1 /\ real_date y 12 31) by (unfold real_date; pose proof (month_len_range y 1); change (month_len y 12) with 31; lia).
    pose proof (sr_date _ _ _ (wd_intro _ _ _ _ _ _ _ (dt_y _ _ _ _ (mk_none _) (yr_number _ _ Y)) (proj1 R) (proj2 R))) as S.
    split; [|intro Q; inversion Q; subst; exact S]. intro H. destruct (span_reads_fun _ _ _ _ _ H S) as (-> & ->). constructor. }
  split.
  - intros [a t m e y lo' hi' Ha Ht W Hy Hs]. rewrite (wrap_year a t m e y Ha Ht W Hy). apply Yr in Hs; [|exact Hy]. apply span_result. exact Hs.
  - intros (d & E & R). destruct HX as (u & t & Hu & Ht & ->).
    assert (A : exists a, u = [a] /\ (a = "Y"%char \/ a = "y"%char)) by (destruct Hu as [->| ->]; eexists; split; try reflexivity; auto).
    destruct A as (a & -> & Ha). clear Hu. cbn [app] in *. pose proof Ht as Ht0. apply exp_text_form in Ht. destruct Ht as (m & e & Ht).
    pose proof E as E0. rewrite (exp_parse a t Ha Ht0) in E0. apply bind_OK in E0. destruct E0 as (y & Hy & E0).
    assert (B : 1000 <= Z.abs y).
    { destruct (Z_lt_dec (Z.abs y) 1000) as [L|L]; [|lia]. exfalso. destruct (itoa_short y L) as (err & E'). rewrite E' in E0. discriminate. }
    apply (notation_year t m e y Ht ltac:(lia)) in Hy. destruct Hy as (W & Hy). apply (ey_intro a t m e y lo hi Ha Ht W ltac:(lia)).
    apply Yr; [lia|]. apply (span_result (a :: t) (itoa y) 2 EXPONENTIAL_YEAR). eauto.
Qed.

(** ** Significant digits *)
Lemma sig_text_short y : 100 <= y <= 999 -> significant_text (- y) 4 = $"0000/9999".
Proof.
  intro H. unfold significant_text. rewrite itoa_neg by lia. pose proof (itoa_len y ltac:(lia)) as L. replace (y <? 10) with false in L by lia. replace (y <? 100) with false in L by lia.
  replace (y <? 1000) with true in L by lia. unfold slen in L. assert (L' : length (itoa y) = 3%nat) by lia. cbn [length]. rewrite L'. reflexivity.
Qed.
Lemma sig_years s y nd v l h : dec_digits nd v -> significant_years y v l h ->
  exists e, sig_rest s y nd = OK e /\ result e 2 SIGNIFICANT_DIGITS (from_day l 1 1) (to_day h 12 31).
Proof.
  intros Hn H. pose proof (dec_nonneg _ _ Hn) as Hv0. unfold sig_rest, MAX_YEARS.
  assert (Q : -9999 <= y <= 9999 /\ v <= 4) by (destruct H; lia). destruct Q as (By & Bv).
  replace (9999 <? y) with false by lia. rewrite (atoi_dec _ _ Hn). unfold max_int64. replace (v <=? _) with true by lia. cbn [or_invalid bind].
  rewrite (itoa_len_small v) by lia.
  assert (P : forall a b l h, year4 a l -> year4 b h -> exists e, (let* sp := DateSpanFromEDTF (a ++ "/"%char :: b) in OK (edtf_of_span sp s LEVEL2 SIGNIFICANT_DIGITS)) = OK e /\
    result e 2 SIGNIFICANT_DIGITS (from_day l 1 1) (to_day h 12 31)).
  { intros a b l0 h0 Ya Yb. rewrite (interval_fwd _ _ _ _ _ _ (year4_slash _ _ Ya) (year4_slash _ _ Yb) (sig_half _ _ Ya) (sig_half _ _ Yb)). cbn [bind].
    eexists. split; [reflexivity|]. split; [reflexivity|]. split; [reflexivity|]. split; [apply shows_start|apply shows_end]. }
  destruct H as [y v Hy Hv|y v Hy Hv|y Hy].
  - rewrite (itoa_four y) by exact Hy. change (slen (four y)) with 4. replace (4 <? 1) with false by reflexivity. replace ((4 <? v) || (v <? 0)) with false by lia.
    rewrite sig_text_pos by lia. destruct (prefix_zero y v ltac:(lia) ltac:(lia)) as (Hz & _). destruct (prefix_nine y v ltac:(lia) ltac:(lia)) as (H9 & _).
    exact (P _ _ _ _ (year4_pos _ Hz) (year4_pos _ H9)).
  - rewrite itoa_neg, (itoa_four y) by lia. change (slen ("-"%char :: four y)) with 5. replace (5 <? 1) with false by reflexivity. replace ((5 <? v) || (v <? 0)) with false by lia.
    rewrite sig_text_neg by lia. destruct (prefix_zero y v ltac:(lia) ltac:(lia)) as (Hz & _). destruct (prefix_nine y v ltac:(lia) ltac:(lia)) as (H9 & _).
    exact (P _ _ _ _ (year4_neg _ H9) (year4_neg _ Hz)).
  - rewrite sig_text_short by exact Hy. rewrite itoa_neg by lia. pose proof (itoa_len y ltac:(lia)) as L. replace (y <? 10) with false in L by lia. replace (y <? 100) with false in L by lia.
    replace (y <? 1000) with true in L by lia. unfold slen in *. cbn [length]. replace (Z.of_nat (S (length (itoa y)))) with 4 by lia. change (4 <? 1) with false. change ((4 <? 4) || (4 <? 0)) with false. cbv iota.
    apply (P ($"0000") ($"9999")); [exact (year4_pos 0 ltac:(lia))|exact (year4_pos 9999 ltac:(lia))].
Qed.
Lemma digits_dec t : digits_text t -> exists v, dec_digits t v.
Proof. intros (Hne & Hw). destruct (proj2 (dec_val_digits t 0) Hw) as (v & Hv). exists v. apply dec_digits_iff. auto. Qed.
Lemma sig_years_of y v : 1000 <= Z.abs y <= 9999 /\ 0 <= v <= 4 \/ -999 <= y <= -100 /\ v = 4 -> exists l h, significant_years y v l h.
Proof.
  intros [(Hy & Hv)|(Hy & ->)].
  - destruct (Z.leb_spec 0 y); [do 2 eexists; apply sy_pos; lia|]. replace y with (- Z.abs y) by lia. do 2 eexists. apply sy_neg; lia.
  - replace y with (- Z.abs y) by lia. do 2 eexists. apply sy_short. lia.
Qed.
Lemma before_year_range u y : before_year u y -> -9999 <= y <= 9999.
Proof. intros [t y0 Hy|neg ds m Hd Hl|c t m e y0 Hc Ht W Hy H]; [exact (before_range _ _ (sy_year _ _ Hy))|exact (before_range _ _ (sy_letter _ _ _ Hd Hl))|lia]. Qed.
Lemma before_year_parse u y nd v : before_year u y -> dec_digits nd v -> ParseString (u ++ "S"%char :: nd) = sig_rest (u ++ "S"%char :: nd) y nd.
Proof.
  intros Hu Hn. destruct Hu as [t y0 Hy|neg ds m Hd Hl|c t m e y0 Hc Ht W Hy H]; [exact (before_parse _ _ _ _ (sy_year _ _ Hy) Hn)|exact (before_parse _ _ _ _ (sy_letter _ _ _ Hd Hl) Hn)|].
  assert (B : cat minus_text (cat digits_text (cat letter_e digits_text)) t) by (apply exp_text_form; eauto).
  rewrite (sig_parse _ _ _ (sh_expo c t Hc B) (digits_text_dec _ _ Hn)). cbv zeta. cbn [is_empty negb].
  assert (E : is_empty t = false) by (destruct (expo_has_e t B) as [Q|Q]; destruct t; [destruct Q|reflexivity|destruct Q|reflexivity]).
  rewrite E. cbn [negb]. rewrite (proj2 (notation_year t m e y0 Ht Hy) (conj W H)). reflexivity.
Qed.
Theorem significant_bridge s lo hi : significant_digits s ->
  (significant_reads s lo hi <-> exists e, ParseSignificantDigits s = OK e /\ result e 2 SIGNIFICANT_DIGITS lo hi).
Proof.
  intros HX. rewrite <- (to_significant s HX). split.
  - intros [u y nd v l h lo' hi' Hu Hn Hy Hs]. change ($"S" ++ nd) with ("S"%char :: nd). rewrite (before_year_parse u y nd v Hu Hn).
    destruct (sig_years (u ++ "S"%char :: nd) y nd v l h Hn Hy) as (e & E & R). exists e. split; [exact E|]. destruct Hs. exact R.
  - intros (d & E & R). destruct (sig_forms s HX) as (u & l & nd & Hu & Hn & Es).
    destruct (digits_dec nd Hn) as (v & Hv). pose proof (dec_nonneg _ _ Hv) as Hv0.
    assert (B : exists y, before_year u y).
    { rewrite Es, (sig_parse u l nd Hu Hn) in E. cbv zeta in E. apply bind_OK in E. destruct E as (y & Hy & E). destruct Hu as [t y0 Ht|b Hb|c b Hc Hb].
      - exists y0. exact (by_year _ _ Ht).
      - cbn [is_empty negb] in Hy. destruct Hb as (sgn & ds & Hs & Hd & ->). destruct (digits_dec ds Hd) as (m & Hm).
        assert (Q : exists neg, sgn = sign neg) by (destruct Hs as [->| ->]; [exists false|exists true]; reflexivity). destruct Q as (neg & ->).
        destruct (negb (is_empty (sign neg ++ ds))); [|discriminate]. destruct (4 <? slen (sign neg ++ ds)) eqn:L; [discriminate|].
        exists (signed neg m). apply by_letter; [exact Hm|]. unfold slen in L. lia.
      - cbn [is_empty negb] in Hy. destruct (negb (is_empty b)); [|discriminate]. apply exp_text_form in Hb. destruct Hb as (m & e & Ht).
        assert (Z0 : y <> 0).
        { intros ->. pose proof (sig_rest_only _ 0 _ _ _ ltac:(lia) Hv E); lia. }
        apply (notation_year b m e y Ht Z0) in Hy. destruct Hy as (W & Hy). exists y. exact (by_exp c b m e y Hc Ht W Z0 Hy). }
    destruct B as (y & By). pose proof (before_year_range u y By) as Ry. rewrite Es, (before_year_parse u y nd v By Hv) in E.
    destruct (sig_years_of y v) as (l0 & h0 & Hy); [destruct (sig_rest_only _ _ _ _ _ Ry Hv E) as [Q|Q]; [left; lia|right; lia]|].
    destruct (sig_years (u ++ "S"%char :: nd) y nd v l0 h0 Hv Hy) as (e & E' & R'). rewrite E in E'. injection E' as <-.
    destruct (result_fun _ _ _ _ _ _ _ R R') as (-> & ->). rewrite Es. exact (sg_intro u y nd v l0 h0 _ _ By Hv Hy (ys_intro _ _)).
Qed.
