(** Sub-year groupings. *)
From Coq Require Import Ascii String ZArith NArith Bool Lia ZifyBool List.
From Verif Require Import GoStr GoTime Regex Patterns RegexSym RegexRel RegexGen SpecCal SpecText SpecGrammar SpecForms SpecSpan StrFacts TextFacts Edtf Calendar Common Level0 Level1 Level2 Parser CalFacts ApiFacts SpanFacts YmdShapes YmdFacts InvFacts GrammarFacts LangFacts LangNorm LangForms LangForms2 DateFacts ParseFacts SplitFacts Level0Facts FormFacts SeasonFacts Level1Proofs XProofs FormProofs.
Import ListNotations.
Open Scope Z_scope.
Ltac Zify.zify_post_hook ::= Z.div_mod_to_equations.

Lemma app_inv_len (a b u v : str) : length a = length b -> a ++ u = b ++ v -> a = b /\ u = v.
Proof.
  revert b. induction a as [|c a IH]; intros [|c' b] L E; try discriminate; [auto|]. injection E as -> E. injection L as L.
  destruct (IH _ L E) as (-> & ->). auto.
Qed.
Lemma code_range n b e j : grouping_of n b e j -> 25 <= n <= 41 /\ 1 <= b <= 12 /\ 1 <= e <= 12 /\ 0 <= j <= 1.
Proof. destruct 1; lia. Qed.
Definition code_text (y n : Z) : str := four y ++ "-"%char :: two n.
Lemma code_bytes y n c : 0 <= y <= 9999 -> 0 <= n <= 99 -> In c (code_text y n) -> is_digit c = true \/ c = "-"%char.
Proof.
  intros Hy Hn H. apply in_app_or in H. destruct H as [H|[<-|H]]; [exact (year4_bytes _ _ _ (four_year4 _ Hy) H)|auto|left; apply (in_two _ n); [exact H|lia]].
Qed.
Lemma code_not_level1 y n : 0 <= y <= 9999 -> 25 <= n <= 99 -> IsLevel1 (code_text y n) = false.
Proof.
  intros Hy Hn. apply not_true_iff_false. intro H. unfold IsLevel1 in H. apply Level1_spec in H.
  assert (B : forall c, is_digit c = false -> c <> "-"%char -> ~ In c (code_text y n)) by (intros c H1 H2 Hi; destruct (code_bytes y n c Hy ltac:(lia) Hi); congruence).
  destruct H as [H|[H|[H|[H|[H|[H|[H|H]]]]]]].
  - destruct H as (a & b & -> & _ & E). apply (B "Y"%char); [reflexivity|discriminate|]. rewrite E. left. reflexivity.
  - assert (HS : season_head (four y ++ "-"%char :: two n)) by (apply season_head_iff; exists (code_text y n), []; rewrite app_nil_r; repeat split; exact H).
    apply (season_tail _ _ _ (four_year4 _ Hy)) in HS. destruct HS as (k & q & Hk & E). injection E as E1 E2 _.
    assert (K : n = k) by (apply two_inj; [lia|lia|unfold two; congruence]). lia.
  - apply words_comma in H. exact (B ","%char eq_refl ltac:(discriminate) H).
  - destruct H as (a & w & _ & Hw & E).
    assert (W : exists q, w = [q] /\ is_digit q = false /\ q <> "-"%char) by (destruct Hw as [->|[->| ->]]; eexists; repeat split; discriminate).
    destruct W as (q & -> & W1 & W2). apply (B q W1 W2). rewrite E. apply in_or_app. right. left. reflexivity.
  - rewrite upx_id in H by (apply B; [reflexivity|discriminate]).
    assert (L : length (code_text y n) = 7%nat) by reflexivity.
    inversion H as [u Hu E|u v Hu Hv E|u v w Hu Hv Hw E].
    + destruct Hu as (Lu & _). subst. rewrite Lu in L. discriminate.
    + destruct Hu as (Lu & _). unfold code_text in E.
      assert (E' : u = four y /\ "-"%char :: v = "-"%char :: two n) by (apply app_inv_len; [exact Lu|exact E]). destruct E' as (_ & E').
      injection E' as E'. destruct Hv as (k & a & b & Hk & -> & Ha & _). injection E' as Ea _. subst a.
      destruct Ha as [Ha|Ha].
      * apply (f_equal code) in Ha. rewrite !code_digit_char in Ha by lia. lia.
      * apply (f_equal code) in Ha. rewrite code_digit_char in Ha by lia. change (code "X") with 88 in Ha. lia.
    + destruct Hu as (Lu & _). destruct Hv as (k & a & b & _ & -> & _). rewrite <- E, app_length in L. cbn [length app] in L. lia.
  - destruct H as (a & b & _ & (c & d & -> & _ & ->) & E). apply (B "/"%char); [reflexivity|discriminate|]. rewrite E. apply in_or_app. right. left. reflexivity.
  - destruct H as (a & b & _ & (c & d & -> & _ & ->) & E). apply (B "/"%char); [reflexivity|discriminate|]. rewrite E. apply in_or_app. right. left. reflexivity.
  - destruct H as (a & b & -> & _ & E). injection E as E _. apply digit_not_minus in E; [exact E|lia].
Qed.
Lemma code_grouping y n : 0 <= y <= 9999 -> 10 <= n <= 12 \/ 21 <= n <= 41 -> sub_year_grouping (code_text y n).
Proof.
  intros Hy Hn. exists (four y), ("-"%char :: two n). split; [|split; [|reflexivity]].
  - split; [reflexivity|]. unfold four. repeat (apply Forall_cons; [apply is_digit_char; lia|]). apply Forall_nil.
  - exists ["-"%char], (two n). split; [reflexivity|]. split; [|reflexivity]. exists n. split; [lia|reflexivity].
Qed.
Lemma to_grouping y n : 0 <= y <= 9999 -> 25 <= n <= 41 -> ParseString (code_text y n) = ParseSubYearGroupings (code_text y n).
Proof.
  intros Hy Hn. pose proof (code_grouping y n Hy ltac:(lia)) as G.
  assert (B : forall c, is_digit c = false -> c <> "-"%char -> ~ In c (code_text y n)) by (intros c H1 H2 Hi; destruct (code_bytes y n c Hy ltac:(lia) Hi); congruence).
  unfold ParseString, code_text. rewrite (season_not_level0 (four y) y n (four_year4 _ Hy) ltac:(lia)). fold (code_text y n). rewrite code_not_level1 by (assumption || lia).
  replace (IsLevel2 (code_text y n)) with true by (symmetry; apply level2_iff; exists (code_text y n), []; rewrite app_nil_r; split; [apply exact_form; unfold level2_exact; tauto|reflexivity]).
  unfold L2_ParseString, IsExponentialYear, IsSignificantDigits, IsSubYearGrouping.
  replace (match_string ExponentialYear (code_text y n)) with false.
  2:{ symmetry. apply not_true_iff_false. intro H. apply Exponential_spec in H. destruct H as (a & b & Ha & _ & E).
      destruct Ha as [->| ->]; [apply (B "Y"%char)|apply (B "y"%char)]; try reflexivity; try discriminate; rewrite E; left; reflexivity. }
  replace (match_string SignificantDigits (code_text y n)) with false.
  2:{ symmetry. apply not_true_iff_false. intro H. apply Significant_spec in H. destruct H as (a & b & _ & (c & d & -> & _ & ->) & E).
      apply (B "S"%char); [reflexivity|discriminate|]. rewrite E. apply in_or_app. right. left. reflexivity. }
  rewrite (proj2 (Grouping_spec _) G). reflexivity.
Qed.
Lemma Grouping_re_eq : exists a, anchored SubYearGrouping = Some (RSeq (RCap 1 (times 4 rd)) (RSeq (rc 45) (RCap 2 a))) /\ plain a = true /\ cap_keys a = [].
Proof. eexists. split; [reflexivity|split; reflexivity]. Qed.
Lemma grouping_submatch y n : 0 <= y <= 9999 -> 10 <= n <= 12 \/ 21 <= n <= 41 -> find_submatch SubYearGrouping (code_text y n) = [code_text y n; four y; two n].
Proof.
  intros Hy Hn. destruct Grouping_re_eq as (a & Er & Pa & Ek).
  assert (P : plain (RSeq (RCap 1 (times 4 rd)) (RSeq (rc 45) (RCap 2 a))) = true) by (cbn; rewrite Pa; reflexivity). apply (anchored_unique _ _ Er P).
  - apply (anchored_match SubYearGrouping _ Er P). apply Grouping_spec. apply code_grouping; assumption.
  - intros k (u1 & k1 & u2 & k2 & (k3 & H1 & ->) & (u3 & k4 & u4 & k5 & H3 & (k6 & H4 & ->) & -> & ->) & E & ->).
    apply gen_rc in H3; [|lia]. destruct H3 as (-> & ->).
    assert (L : length u1 = 4%nat).
    { assert (Q : four_digits u1) by (apply den_4; exists k3; exact H1). exact (proj1 Q). }
    destruct (app_inv_len u1 (four y) (([chr 45]) ++ u4) ("-"%char :: two n) L (eq_sym E)) as (-> & E2). injection E2 as ->.
    rewrite (gen_nocap _ _ _ H1 eq_refl), (gen_nocap _ _ _ H4 Ek). reflexivity.
Qed.
(** The range of the last month: its last day, or the whole month of February. *)
Lemma table n b e j y : grouping_of n b e j -> exists dd, grouping_bounds (two n) = Some (two b, $"01", two e, dd, negb (j =? 0)) /\
  dd = if j =? 0 then two (month_len y e) else [].
Proof. destruct 1; eexists; split; reflexivity. Qed.
Lemma first_days y b : 0 <= y <= 9999 -> 1 <= b <= 12 -> half (day_text y b 1) (day_start y b 1 0 0 YEAR) (day_end y b 1 0 0 YEAR).
Proof.
  intros Hy Hb. pose proof (month_len_range y b).
  assert (Y : -9999 <= y <= 9999) by lia. assert (D : 1 <= 1 <= 31) by lia.
  refine (level0_half _ _ _ _ (day_level0 y b 1 Y Hb D) _). split; cbn; lia.
Qed.
Lemma text_four y : 0 <= y <= 9999 -> year_text y = four y.
Proof. intro H. unfold year_text. replace (y <? 0) with false by lia. reflexivity. Qed.
Theorem grouping_parses n b e j y : grouping_of n b e j -> 0 <= y <= 9999 -> j = 0 \/ 999 <= y <= 9998 ->
  exists d, ParseString (four y ++ $"-" ++ two n) = OK d /\ e_level d = 2 /\ e_feature d = $"Sub-year groupings" /\
    from_to (e_start d) y b 1 y b 1 /\ grouping_end (e_end d) (y + j) e j /\ flagged d 0 0 /\ precise d YEAR.
Proof.
  intros Hg Hy Hj. destruct (code_range _ _ _ _ Hg) as (Hn & Hb & He & Hj01). change ($"-" ++ two n) with ("-"%char :: two n). fold (code_text y n).
  rewrite to_grouping by assumption. unfold ParseSubYearGroupings. rewrite grouping_submatch by (assumption || lia). cbn [length Nat.eqb negb]. cbv zeta. unfold sub. cbn [nth].
  destruct (table n b e j (y + j) Hg) as (dd & -> & Hdd). pose proof (month_len_range (y + j) e).
  assert (Y1 : -9999 <= y + j <= 9999) by lia. assert (Y0 : -9999 <= y <= 9999) by lia.
  assert (N1 : ~ In "/"%char (day_text y b 1)) by (apply day_noslash; lia).
  destruct (j =? 0) eqn:Ej; cbn [negb bind].
  - assert (j = 0) by lia. subst j. rewrite Z.add_0_r in *. subst dd. replace (is_empty (two (month_len y e))) with false by reflexivity.
    replace (four y ++ $"-" ++ two b ++ $"-" ++ $"01") with (day_text y b 1) by (unfold day_text; rewrite text_four by exact Hy; reflexivity).
    replace ((four y ++ $"-" ++ two e) ++ $"-" ++ two (month_len y e)) with (day_text y e (month_len y e)) by (unfold day_text; rewrite text_four by exact Hy; rewrite <- !app_assoc; reflexivity).
    change ($"/" ++ day_text y e (month_len y e)) with ("/"%char :: day_text y e (month_len y e)).
    assert (D2 : 1 <= month_len y e <= 31) by lia.
    assert (R2 : exists_date y (Some e) (Some (month_len y e))) by (split; cbn; lia).
    rewrite (interval_fwd _ _ _ _ _ _ N1 (day_noslash y e (month_len y e) Y0 He D2) (first_days y b Hy Hb) (level0_half _ _ _ _ (day_level0 y e (month_len y e) Y0 He D2) R2)).
    cbn [bind]. eexists. split; [reflexivity|]. split; [reflexivity|]. split; [reflexivity|].
    split; [split; apply dated_bound|]. split; [split; apply dated_bound|]. split; repeat constructor.
  - assert (j = 1) by lia. subst j. subst dd. rewrite atoi_year4 with (y := y) by (apply four_year4; exact Hy). cbn [bind is_empty]. rewrite itoa_four by lia.
    replace (four y ++ $"-" ++ two b ++ $"-" ++ $"01") with (day_text y b 1) by (unfold day_text; rewrite text_four by exact Hy; reflexivity).
    replace (four (y + 1) ++ $"-" ++ two e) with (month_text (y + 1) e) by (unfold month_text; rewrite text_four by lia; reflexivity).
    change ($"/" ++ month_text (y + 1) e) with ("/"%char :: month_text (y + 1) e).
    assert (R2 : exists_date (y + 1) (Some e) None) by (split; cbn; lia).
    assert (N2 : ~ In "/"%char (month_text (y + 1) e)) by (apply no_slash; eapply level0_is; apply month_level0; assumption).
    rewrite (interval_fwd _ _ _ _ _ _ N1 N2 (first_days y b Hy Hb) (level0_half _ _ _ _ (month_level0 (y + 1) e Y1 He) R2)).
    cbn [bind]. eexists. split; [reflexivity|]. split; [reflexivity|]. split; [reflexivity|].
    split; [split; apply dated_bound|]. split; [split; apply dated_bound|]. split; repeat constructor.
Qed.
