(** The parsers of the features and of the levels, called directly. *)
From Coq Require Import Ascii String ZArith NArith Bool Lia ZifyBool List.
From Verif Require Import GoStr GoTime Regex Patterns RegexSym RegexRel RegexGen SpecCal SpecText SpecZone SpecGrammar SpecForms SpecSpan SpecSet SpecWrap SpecReads SpecWhole SpecRefused SpecDirect.
From Verif Require Import StrFacts TextFacts Edtf Calendar Common Level0 Level1 Level2 Parser CalFacts ApiFacts SpanFacts YmdShapes YmdFacts InvFacts GrammarFacts LangFacts LangNorm LangForms LangForms2 DateFacts ParseFacts Level0Facts FormFacts FormProofs DateTimeFacts SeasonFacts.
From Verif Require Import SetGrammar SplitFacts Level0Proofs Level1Proofs ExpWrap GroupingProofs ExpProofs SigProofs SetProofs ReadsFacts ReadsSeason ReadsYears ReadsSet WholeFacts WholeProofs RefDate RefYears RefStamp RefExp RefSet RefProofs XProofs.
Import ListNotations.
Open Scope Z_scope.
Ltac Zify.zify_post_hook ::= Z.div_mod_to_equations.

(** ** One feature *)
Definition one_feature (P : str -> res edtfdate) (lv : Z) (f : str) (s : str) : Prop :=
  (forall e, P s = OK e <-> exists sp, direct_gives f s sp /\ e = mkEDTF (s_start sp) (s_end sp) s lv f) /\
  (~ borderline s -> (forall x, P s = Err x <-> direct_fails f s x) /\ (P s = Panic <-> direct_crash f s)).
Definition one_parser (P : str -> res edtfdate) (lv : Z) (f : str) (form : str -> Prop) : Prop :=
  forall s, (~ form s -> P s = Err (EInvalid f s)) /\ (form s -> one_feature P lv f s).
Lemma parser_answers P lv f form : one_parser P lv f form -> feature_parser P lv f form.
Proof.
  intros H s. destruct (H s) as (H1 & H2). split.
  - intro N. apply H1. intro F. apply (N f). apply fo_here. exact F.
  - intros f' F. inversion F as [? ? ? F'|? ? ? ? _ F']; subst; [exact (H2 F')|inversion F'].
Qed.
Lemma span_special f : In f span_features -> ~ special f.
Proof. intros H [->| ->]; cbn [In span_features] in H; repeat (destruct H as [H|H]; [discriminate H|]); exact H. Qed.
Lemma span_no_crash f s : In f span_features -> ~ direct_crash f s.
Proof. intros H ([->| ->] & _); cbn [In span_features] in H; repeat (destruct H as [H|H]; [discriminate H|]); exact H. Qed.
Lemma gives_other f s sp : ~ special f -> (direct_gives f s sp <-> whole_reads f s sp).
Proof. intro N. split; [|apply dg_other; exact N]. intro H. destruct H; try assumption; exfalso; apply N; unfold special; auto. Qed.
Lemma fails_other f s x : ~ special f -> (direct_fails f s x <-> refused_as f s x).
Proof. intro N. split; [|apply df_other; exact N]. intro H. destruct H; try assumption; exfalso; apply N; unfold special; auto. Qed.
Lemma via_OK t s lv f e : via t s lv f = OK e <-> exists sp, whole_span t sp /\ e = mkEDTF (s_start sp) (s_end sp) s lv f.
Proof.
  split.
  - unfold via. intro H. apply bind_OK in H. destruct H as (sp & Hs & H). exists sp. split; [apply whole_span_iff; exact Hs|]. unfold edtf_of_span in H. congruence.
  - intros (sp & H & ->). apply via_ok. exact H.
Qed.
Lemma via_no_panic t s lv f : via t s lv f <> Panic.
Proof. change (np (via t s lv f)). unfold via. np. Qed.
Lemma span_one P lv f s : In f span_features -> P s = via s s lv f -> one_feature P lv f s.
Proof.
  intros Hf E. unfold one_feature. rewrite E. split.
  - intro e. rewrite via_OK. split; intros (sp & H & ->); exists sp; (split; [|reflexivity]).
    + apply gives_other; [exact (span_special f Hf)|]. apply wr_span; assumption.
    + apply gives_other in H; [|exact (span_special f Hf)]. destruct H; try assumption; not_span.
  - intros _. split.
    + intro x. rewrite fails_other by exact (span_special f Hf). rewrite (refused_span f s x Hf). apply span_err.
    + split; [intro H; destruct (via_no_panic _ _ _ _ H)|intro H; destruct (span_no_crash f s Hf H)].
Qed.
Lemma span_single P lv f (m : regexp) form : In f span_features -> (forall s, match_string m s = true <-> form s) ->
  (forall s, P s = if negb (match_string m s) then Err (EInvalid f s) else via s s lv f) -> one_parser P lv f form.
Proof.
  intros Hf M E s. specialize (M s). specialize (E s). split; intro F.
  - destruct (match_string m s); [destruct F; apply M; reflexivity|exact E].
  - apply span_one; [exact Hf|]. apply M in F. rewrite F in E. exact E.
Qed.

(** ** The parsers that call for the span of the string itself *)
Ltac span_parser_by L := match goal with |- one_parser ?P ?lv ?f ?form => refine (span_single P lv f _ form _ L _); [cbn [In span_features]; tauto|intro s; reflexivity] end.
Lemma Date_parser : one_parser ParseDate 0 ($"Date") is_level0_date.
Proof. span_parser_by IsDate_spec. Qed.
Lemma TimeInterval_parser : one_parser ParseTimeInterval 0 ($"Time Interval") pair_of_dates.
Proof. span_parser_by TimeInterval_spec. Qed.
Lemma QualifiedDate_parser : one_parser ParseQualifiedDate 1 ($"Qualification of a date (complete)") qualified_date.
Proof. span_parser_by QualifiedDate_spec. Qed.
Lemma UnspecifiedDigits_parser : one_parser ParseUnspecifiedDigits 1 ($"Unspecified digit(s) from the right") unspecified_digits.
Proof. span_parser_by UnspecifiedDigits_spec. Qed.
Lemma NegativeYear_parser : one_parser ParseNegativeCalendarYear 1 ($"Negative calendar year") minus_year.
Proof. span_parser_by NegativeYear_spec. Qed.
Lemma IntervalStart_parser : one_parser ParseExtendedIntervalStart 1 ($"Extended Interval (Start)") extended_start.
Proof. span_parser_by IntervalStart_spec. Qed.
Lemma IntervalEnd_parser : one_parser ParseExtendedIntervalEnd 1 ($"Extended Interval (End)") extended_end.
Proof. span_parser_by IntervalEnd_spec. Qed.
Lemma Group_parser : one_parser ParseGroupQualification 2 ($"Qualification (Group)") group_qualified.
Proof. span_parser_by Group_spec. Qed.
Lemma Individual_parser : one_parser ParseIndividualQualification 2 ($"Qualification (Individual)") individually_qualified.
Proof. span_parser_by Individual_spec. Qed.
Lemma Unspecified_parser : one_parser ParseUnspecifiedDigit 2 ($"Unspecified Digit") unspecified_form.
Proof. span_parser_by Unspecified_spec. Qed.
Lemma Interval_parser : one_parser ParseInterval 2 ($"Interval") interval_form.
Proof. span_parser_by Interval_spec. Qed.

(** ** The parsers to which every string of their form is given *)
Lemma routed_one P lv f s : ~ special f -> 0 <= lv -> ParseString s = P s ->
  (forall e, P s = OK e -> e_feature e = f /\ e_level e = lv) ->
  (forall sp, whole_reads f s sp -> P s = OK (mkEDTF (s_start sp) (s_end sp) s lv f)) ->
  (~ borderline s -> forall x, P s = Err x <-> refused_as f s x) ->
  (~ borderline s -> (P s = Panic <-> direct_crash f s)) -> one_feature P lv f s.
Proof.
  intros Nf Hl E Hc Hg He Hp. split.
  - intro e. split.
    + intro H. destruct (Hc _ H) as (Ef & El). rewrite <- E in H. destruct (whole_strings s e H) as [(-> & ->)|[(-> & ->)|(lv' & f' & sp & _ & W & ->)]].
      * cbn [e_level] in El. lia.
      * cbn [e_level] in El. lia.
      * cbn [e_feature e_level] in Ef, El. subst f' lv'. exists sp. split; [|reflexivity]. apply gives_other; assumption.
    + intros (sp & H & ->). apply Hg. apply gives_other in H; assumption.
  - intro B. split; [|exact (Hp B)]. intro x. rewrite fails_other by exact Nf. exact (He B x).
Qed.
Lemma not_special f : f <> $"Seasons" -> f <> $"Sub-year groupings" -> ~ special f.
Proof. intros N1 N2 [H|H]; contradiction. Qed.
Lemma untested m s : match_string m s <> true -> length (find_submatch m s) = 0%nat.
Proof. unfold match_string, find_submatch. destruct (find_from _ true s) as [(u & k)|]; [intro H; destruct (H eq_refl)|reflexivity]. Qed.
Lemma submatch_some m s : match_string m s = true -> length (find_submatch m s) = S (re_ncap m).
Proof.
  unfold match_string, find_submatch. destruct (find_from _ true s) as [(u & k)|]; [|discriminate]. intros _. cbn [length]. rewrite map_length, seq_length. reflexivity.
Qed.
Ltac same_label H := repeat match type of H with
  | (if ?b then _ else _) = OK _ => destruct b; try discriminate H
  | bind _ _ = OK _ => let a := fresh in let Ha := fresh in apply bind_OK in H; destruct H as (a & Ha & H)
  | (let (_, _) := ?p in _) = OK _ => destruct p
  | (match ?l with _ => _ end) = OK _ => destruct l; try discriminate H
  end.

Lemma stamp_parser : one_parser ParseDateAndTime 0 ($"Date and Time") datetime_text.
Proof.
  intro s. split; intro F.
  - unfold ParseDateAndTime. rewrite (untested DateAndTime s) by (rewrite DateAndTime_spec; exact F). reflexivity.
  - pose proof (parse_datetime s F) as E. apply routed_one; [apply not_special; discriminate|lia|exact E|..].
    + intros e H. unfold ParseDateAndTime in H. cbv zeta in H. same_label H. injection H as <-. split; reflexivity.
    + intros sp H. rewrite <- E. inversion H; subst; [not_span|]. cbn [s_start s_end]. eapply stamp_whole; eassumption.
    + intros _ x. rewrite <- E, refused_stamp. apply stamp_errors. exact F.
    + intros _. split; [intro H; exfalso; revert H; change (np (ParseDateAndTime s)); unfold ParseDateAndTime; cbv zeta; np|].
      intros ([Q|Q] & _); discriminate Q.
Qed.
Lemma letter_parser : one_parser ParseLetterPrefixedCalendarYear 1 ($"Letter-prefixed calendar year") letter_year.
Proof.
  intro s. split; intro F.
  - unfold ParseLetterPrefixedCalendarYear. rewrite (untested LetterPrefixedCalendarYear s) by (rewrite LetterYear_spec; exact F). reflexivity.
  - assert (E : ParseString s = ParseLetterPrefixedCalendarYear s) by (destruct F as (u & t & Hu & Ht & ->); unfold is in Hu; subst u; exact (to_letter t Ht)).
    apply routed_one; [apply not_special; discriminate|lia|exact E|..].
    + intros e H. unfold ParseLetterPrefixedCalendarYear in H. cbv zeta in H. same_label H; injection H as <-; split; reflexivity.
    + intros sp H. rewrite <- E. inversion H; subst; [not_span|]. erewrite letter_via by eassumption. apply via_ok. assumption.
    + intros _ x. rewrite refused_letter. apply letter_errors. exact F.
    + intros _. split; [intro H; exfalso; revert H; change (np (ParseLetterPrefixedCalendarYear s)); unfold ParseLetterPrefixedCalendarYear; cbv zeta; np|].
      intros ([Q|Q] & _); discriminate Q.
Qed.
Lemma exponential_parser : one_parser ParseExponentialYear 2 ($"Exponential year") exponential_year.
Proof.
  intro s. split; intro F.
  - unfold ParseExponentialYear. destruct (match_string ExponentialYear s) eqn:M; [apply Exponential_spec in M; contradiction|reflexivity].
  - pose proof (to_exponential s F) as E. pose proof (exponential_complete s F) as C. rewrite E in C.
    apply routed_one; [apply not_special; discriminate|lia|exact E|..].
    + intros e H. unfold ParseExponentialYear in H. cbv zeta in H. same_label H; injection H as <-; split; reflexivity.
    + intros sp H. rewrite <- E. inversion H; subst; [not_span|]. erewrite exp_via by eassumption. apply via_ok. assumption.
    + intros B x. rewrite refused_exponential. split; [intro H; rewrite H in C; exact C|]. intro H. destruct (exponential_sound s x H) as [Q|(Q & _)]; [congruence|contradiction].
    + intro B. split; [intro H; rewrite H in C; destruct C; [|contradiction]; split; [auto|assumption]|]. intros (_ & H). rewrite <- E. apply crashes_panic. exact H.
Qed.
Lemma significant_parser : one_parser ParseSignificantDigits 2 ($"Significant digits") significant_digits.
Proof.
  intro s. split; intro F.
  - unfold ParseSignificantDigits. rewrite (untested SignificantDigits s) by (rewrite Significant_spec; exact F). reflexivity.
  - pose proof (to_significant s F) as E. pose proof (significant_complete s F) as C. rewrite E in C.
    apply routed_one; [apply not_special; discriminate|lia|exact E|..].
    + intros e H. unfold ParseSignificantDigits in H. cbv zeta in H. same_label H; injection H as <-; split; reflexivity.
    + intros sp H. rewrite <- E. inversion H; subst; [not_span|]. change ($"S" ++ nd) with ("S"%char :: nd) in *. erewrite before_year_parse, sig_via by eassumption. apply via_ok. assumption.
    + intros B x. rewrite refused_significant. split; [intro H; rewrite H in C; exact C|]. intro H. destruct (significant_sound s x H) as [Q|(Q & _)]; [congruence|contradiction].
    + intro B. split; [intro H; rewrite H in C; destruct C; [|contradiction]; split; [auto|assumption]|]. intros (_ & H). rewrite <- E. apply crashes_panic. exact H.
Qed.
Lemma set_parser : one_parser ParseSetRepresentations 2 ($"Set representation") is_set.
Proof.
  intro s. split; intro F.
  - unfold ParseSetRepresentations. rewrite (untested SetRepresentations s) by (rewrite set_test; exact F). reflexivity.
  - assert (E : ParseString s = ParseSetRepresentations s).
    { pose proof (proj2 (set_test s) F) as M. destruct F as (o & body & H). destruct H as [o body c Ho Hb Hc]. apply to_set; [exact Ho|exact M]. }
    apply routed_one; [apply not_special; discriminate|lia|exact E|..].
    + intros e H. unfold ParseSetRepresentations in H. cbv zeta in H. same_label H; injection H as <-; split; reflexivity.
    + intros sp H. inversion H; subst; [not_span|]. eapply set_whole_parse; try eassumption. reflexivity.
    + intros _ x. rewrite refused_set. apply set_errors. exact F.
    + intros _. split; [intro H; destruct (np_set s H)|]. intros ([Q|Q] & _); discriminate Q.
Qed.
(** ** Groupings *)
Lemma grouping_text s : sub_year_grouping s -> exists y n, s = code_text y n /\ 0 <= y <= 9999 /\ (10 <= n <= 12 \/ 21 <= n <= 41).
Proof.
  intros (f & r & (Lf & Ff) & (c & t & Hc & (n & Hn & ->) & ->) & ->). unfold is in Hc. subst c.
  destruct f as [|a [|b [|c [|k [|? ?]]]]]; try discriminate.
  apply Forall_cons_iff in Ff. destruct Ff as (Da & Ff). apply Forall_cons_iff in Ff. destruct Ff as (Db & Ff). apply Forall_cons_iff in Ff. destruct Ff as (Dc & Ff).
  apply Forall_cons_iff in Ff. destruct Ff as (Dd & _). destruct (StrFacts.four_of a b c k Da Db Dc Dd) as (y & Hy & Ey). rewrite Ey.
  exists y, n. split; [reflexivity|]. split; [exact Hy|lia].
Qed.
Lemma months_table n b e j y : grouping_months n b e j -> (21 <= n <= 41 /\ 1 <= b <= 12 /\ 1 <= e <= 12 /\ (j = 0 \/ j = 1 /\ e = 2)) /\
  grouping_bounds (two n) = Some (two b, $"01", two e, if j =? 0 then two (month_len y e) else [], negb (j =? 0)).
Proof.
  intros [n0 b0 e0 j0 H|n0 w b0 e0 j0 H].
  - destruct (table _ _ _ _ y H) as (dd & -> & ->). split; [destruct H; lia|reflexivity].
  - destruct H; (split; [lia|reflexivity]).
Qed.
Lemma months_exist n : 21 <= n <= 41 -> exists b e j, grouping_months n b e j.
Proof.
  intro H. destruct (Z_le_dec 25 n) as [L|L].
  - destruct (grouping_codes n ltac:(lia)) as (b & e & j & G). exists b, e, j. apply gm_grouping. exact G.
  - assert (C : n = 21 \/ n = 22 \/ n = 23 \/ n = 24) by lia. destruct C as [->|[->|[->| ->]]]; do 3 eexists; eapply gm_season; constructor.
Qed.
Lemma code_text_inj y n y' n' : 0 <= y <= 9999 -> 0 <= y' <= 9999 -> 0 <= n <= 99 -> 0 <= n' <= 99 -> code_text y n = code_text y' n' -> y = y' /\ n = n'.
Proof.
  intros Hy Hy' Hn Hn' E. assert (E1 : four y = four y') by exact (f_equal (firstn 4) E). assert (E2 : two n = two n') by exact (f_equal (skipn 5) E).
  split; [exact (four_inj _ _ Hy Hy' E1)|]. unfold two in E2. injection E2 as E2 E3. apply (f_equal digit_val) in E2, E3. rewrite !digit_val_char in E2, E3 by lia. lia.
Qed.
Lemma grouping_here y n b e : grouping_months n b e 0 -> 0 <= y <= 9999 ->
  ParseSubYearGroupings (code_text y n) = via (day_text y b 1 ++ $"/" ++ day_text y e (month_len y e)) (code_text y n) 2 SUB_YEAR_GROUPINGS.
Proof.
  intros Hg Hy. destruct (months_table n b e 0 y Hg) as ((Hn & Hb & He & _) & T).
  unfold ParseSubYearGroupings. rewrite grouping_submatch by (assumption || lia). cbn [length Nat.eqb negb]. cbv zeta. unfold sub. cbn [nth].
  rewrite T. change (0 =? 0) with true. cbn [negb bind]. replace (is_empty (two (month_len y e))) with false by reflexivity.
  replace (four y ++ $"-" ++ two b ++ $"-" ++ $"01") with (day_text y b 1) by (unfold day_text; rewrite text_four by exact Hy; reflexivity).
  replace ((four y ++ $"-" ++ two e) ++ $"-" ++ two (month_len y e)) with (day_text y e (month_len y e)) by (unfold day_text; rewrite text_four by exact Hy; rewrite <- !app_assoc; reflexivity).
  reflexivity.
Qed.
Lemma grouping_after y n b e : grouping_months n b e 1 -> 0 <= y <= 9999 ->
  ParseSubYearGroupings (code_text y n) = via (day_text y b 1 ++ $"/" ++ itoa (y + 1) ++ $"-" ++ two e) (code_text y n) 2 SUB_YEAR_GROUPINGS.
Proof.
  intros Hg Hy. destruct (months_table n b e 1 y Hg) as ((Hn & Hb & He & _) & T).
  unfold ParseSubYearGroupings. rewrite grouping_submatch by (assumption || lia). cbn [length Nat.eqb negb]. cbv zeta. unfold sub. cbn [nth].
  rewrite T. change (1 =? 0) with false. cbn [negb bind]. rewrite atoi_year4 with (y := y) by (apply four_year4; exact Hy). cbn [bind is_empty].
  replace (four y ++ $"-" ++ two b ++ $"-" ++ $"01") with (day_text y b 1) by (unfold day_text; rewrite text_four by exact Hy; reflexivity).
  reflexivity.
Qed.
Lemma grouping_late y b : 0 <= y <= 9999 -> 1 <= b <= 12 -> 0 <= y < 999 \/ y = 9999 ->
  span_refused (day_text y b 1 ++ $"/" ++ itoa (y + 1) ++ $"-" ++ two 2) (EInvalid ($"date") (itoa (y + 1) ++ $"-02")).
Proof.
  intros Hy Hb By. apply sx_pair.
  - apply day_noslash; lia.
  - intro Hi. apply in_app_or in Hi. destruct Hi as [Hi|[Hi|Hi]]; [|discriminate|apply in_two in Hi; [discriminate|lia]].
    revert Hi. apply digits_no; [apply itoa_number; lia|reflexivity].
  - right. split.
    + do 2 eexists. apply day_half; [lia|]. unfold real_date. pose proof (month_len_range y b). lia.
    + refine (number_half_refused [] (itoa (y + 1)) ("-"%char :: two 2) (or_introl eq_refl) (itoa_number (y + 1) ltac:(lia)) (or_intror _) _).
      * eexists. split; [reflexivity|apply two_dash; lia].
      * rewrite next_year by exact Hy. lia.
Qed.
Lemma months_fun n b e j b' e' j' : grouping_months n b e j -> grouping_months n b' e' j' -> b = b' /\ e = e' /\ j = j'.
Proof.
  intros H H'. destruct (months_table _ _ _ _ 0 H) as ((_ & B1 & B2 & B3) & T). destruct (months_table _ _ _ _ 0 H') as ((_ & B1' & B2' & B3') & T'). rewrite T in T'. clear T.
  assert (I : forall x z, 0 <= x <= 99 -> 0 <= z <= 99 -> two x = two z -> x = z).
  { intros x z Hx Hz E. unfold two in E. injection E as E1 E2. apply (f_equal digit_val) in E1, E2. rewrite !digit_val_char in E1, E2 by lia. lia. }
  pose proof (f_equal (fun o => match o with Some (a, _, _, _, _) => a | None => [] end) T' : two b = two b') as Q1.
  pose proof (f_equal (fun o => match o with Some (_, _, a, _, _) => a | None => [] end) T' : two e = two e') as Q2.
  pose proof (f_equal (fun o => match o with Some (_, _, _, _, a) => a | None => true end) T' : negb (j =? 0) = negb (j' =? 0)) as Q3. clear T'.
  apply I in Q1; [|lia..]. apply I in Q2; [|lia..]. repeat split; try assumption.
  destruct B3 as [->|(-> & _)], B3' as [->|(-> & _)]; try reflexivity; discriminate Q3.
Qed.
Lemma same_span y b c e t sp : whole_span t sp -> t = day_text y b 1 ++ $"/" ++ day_text c e (month_len c e) -> whole_span (day_text y b 1 ++ $"/" ++ day_text c e (month_len c e)) sp.
Proof. intros H <-. exact H. Qed.
Lemma next_text y e : 999 <= y <= 9998 -> itoa (y + 1) ++ $"-" ++ two e = month_text (y + 1) e.
Proof. intro H. unfold month_text. rewrite text_four, itoa_four by lia. reflexivity. Qed.
Lemma span_exclusive t sp x : whole_span t sp -> span_refused t x -> False.
Proof. intros H H'. apply whole_span_iff in H. apply span_errors in H'. congruence. Qed.
Lemma gives_grouping s sp : direct_gives ($"Sub-year groupings") s sp -> exists y n b e, s = code_text y n /\
  ((grouping_months n b e 0 /\ 0 <= y <= 9999 /\ whole_span (day_text y b 1 ++ $"/" ++ day_text y e (month_len y e)) sp) \/
   (grouping_months n b e 1 /\ 999 <= y <= 9998 /\ whole_span (day_text y b 1 ++ $"/" ++ month_text (y + 1) e) sp)).
Proof.
  intro H. remember ($"Sub-year groupings") as f eqn:Ef. destruct H; try discriminate Ef.
  - exfalso. match goal with N : ~ special _ |- _ => apply N; right; exact Ef end.
  - do 4 eexists. split; [reflexivity|]. left. eauto.
  - do 4 eexists. split; [reflexivity|]. right. eauto.
Qed.
Lemma fails_grouping s x : direct_fails ($"Sub-year groupings") s x -> exists y n, s = code_text y n /\
  ((0 <= y <= 9999 /\ 10 <= n <= 12 /\ x = EInvalid ($"Sub-year groupings") s) \/
   (exists b w, grouping_months n b 2 1 /\ (0 <= y < 999 \/ y = 9999) /\ canonical_text w (y + 1) /\ x = EInvalid ($"date") (w ++ $"-02"))).
Proof.
  intro H. remember ($"Sub-year groupings") as f eqn:Ef. destruct H; try discriminate Ef.
  - exfalso. match goal with N : ~ special _ |- _ => apply N; right; exact Ef end.
  - exists y, n. split; [assumption|]. left. auto.
  - do 2 eexists. split; [reflexivity|]. right. eauto 7.
Qed.
Lemma grouping_parser : one_parser ParseSubYearGroupings 2 ($"Sub-year groupings") sub_year_grouping.
Proof.
  intro s. split; intro F.
  - unfold ParseSubYearGroupings. rewrite (untested SubYearGrouping s) by (rewrite Grouping_spec; exact F). reflexivity.
  - assert (Pan : direct_crash ($"Sub-year groupings") s -> False) by (intros ([Q|Q] & _); discriminate Q).
    assert (Np : ParseSubYearGroupings s <> Panic) by exact (np_grouping s).
    destruct (grouping_text s F) as (y & n & Es & Hy & Hn). clear F.
    assert (G0 : forall sp, direct_gives ($"Sub-year groupings") s sp -> exists b e, (grouping_months n b e 0 /\ whole_span (day_text y b 1 ++ $"/" ++ day_text y e (month_len y e)) sp) \/
      (grouping_months n b e 1 /\ 999 <= y <= 9998 /\ whole_span (day_text y b 1 ++ $"/" ++ month_text (y + 1) e) sp)).
    { intros sp H. apply gives_grouping in H. destruct H as (y0 & n0 & b & e & Q & [(Hg & Hy0 & W)|(Hg & Hy0 & W)]);
        (destruct (months_table _ _ _ _ 0 Hg) as ((Hn0 & _) & _); rewrite Es in Q; destruct (code_text_inj y n y0 n0 Hy ltac:(lia) ltac:(lia) ltac:(lia) Q) as (-> & ->); eauto 7). }
    assert (F0 : forall x, direct_fails ($"Sub-year groupings") s x -> (10 <= n <= 12 /\ x = EInvalid ($"Sub-year groupings") s) \/
      (exists b, grouping_months n b 2 1 /\ (0 <= y < 999 \/ y = 9999) /\ x = EInvalid ($"date") (itoa (y + 1) ++ $"-02"))).
    { intros x H. apply fails_grouping in H. destruct H as (y0 & n0 & Q & [(Hy0 & Hn0 & ->)|(b & w & Hg & Hy0 & Hw & ->)]).
      - rewrite Es in Q. destruct (code_text_inj y n y0 n0 Hy Hy0 ltac:(lia) ltac:(lia) Q) as (-> & ->). auto.
      - destruct (months_table _ _ _ _ 0 Hg) as ((Hn0 & _) & _). rewrite Es in Q. destruct (code_text_inj y n y0 n0 Hy ltac:(lia) ltac:(lia) ltac:(lia) Q) as (-> & ->).
        apply canonical_itoa in Hw. subst w. eauto 6. }
    unfold one_feature. destruct Hn as [Hn|Hn].
    { assert (E : ParseSubYearGroupings s = Err (EInvalid ($"Sub-year groupings") s)).
      { unfold ParseSubYearGroupings. rewrite Es, grouping_submatch by (assumption || lia). cbn [length Nat.eqb negb]. cbv zeta. unfold sub. cbn [nth].
        assert (C : n = 10 \/ n = 11 \/ n = 12) by lia. destruct C as [->|[->| ->]]; reflexivity. }
      assert (Ng : forall b e j, ~ grouping_months n b e j) by (intros b e j H; destruct (months_table _ _ _ _ 0 H) as ((H' & _) & _); lia).
      rewrite E. split; [|intros _; split; [|split; [discriminate|contradiction]]].
      - intro e. split; [discriminate|]. intros (sp & H & _). destruct (G0 sp H) as (b & e' & [(Q & _)|(Q & _)]); destruct (Ng _ _ _ Q).
      - intro x. split; [intro Q; apply err_same in Q; subst x; exact (df_month y n s Hy Hn Es)|]. intro H. destruct (F0 x H) as [(_ & ->)|(b & Q & _)]; [reflexivity|destruct (Ng _ _ _ Q)]. }
    destruct (months_exist n Hn) as (b & e & j & Hg). destruct (months_table _ _ _ _ y Hg) as ((_ & Bb & Be & Bj) & _).
    destruct Bj as [->|(-> & ->)].
    + pose proof (grouping_here y n b e Hg Hy) as E. rewrite <- Es in E. rewrite E.
      assert (Dt : exists sp, whole_span (day_text y b 1 ++ $"/" ++ day_text y e (month_len y e)) sp) by (apply days_total; lia).
      split; [|intros _; split; [|split; [intro Q; destruct (via_no_panic _ _ _ _ Q)|contradiction]]].
      * intro d. rewrite via_OK. split; intros (sp & H & ->); exists sp; (split; [|reflexivity]).
        -- rewrite Es. exact (dg_grouping y n b e sp Hg Hy H).
        -- destruct (G0 sp H) as (b' & e' & [(Q & W)|(Q & _)]); destruct (months_fun _ _ _ _ _ _ _ Hg Q) as (<- & <- & Q'); [exact W|discriminate Q'].
      * intro x. split.
        -- intro Q. destruct Dt as (sp & W). rewrite (via_ok _ _ _ _ _ W) in Q. discriminate.
        -- intro H. destruct (F0 x H) as [(Q & _)|(b' & Q & _)]; [lia|]. destruct (months_fun _ _ _ _ _ _ _ Hg Q) as (_ & _ & Q'). discriminate Q'.
    + pose proof (grouping_after y n b 2 Hg Hy) as E. rewrite <- Es in E. rewrite E.
      split; [|intros _; split; [|split; [intro Q; destruct (via_no_panic _ _ _ _ Q)|contradiction]]].
      * intro d. rewrite via_OK. split; intros (sp & H & ->); exists sp; (split; [|reflexivity]).
        -- assert (C : 999 <= y <= 9998 \/ 0 <= y < 999 \/ y = 9999) by lia. destruct C as [C|C]; [|destruct (span_exclusive _ _ _ H (grouping_late y b Hy Bb C))].
           rewrite next_text in H by exact C. rewrite Es. exact (dg_grouping_next y n b 2 sp Hg C H).
        -- destruct (G0 sp H) as (b' & e' & [(Q & _)|(Q & C & W)]); destruct (months_fun _ _ _ _ _ _ _ Hg Q) as (<- & <- & Q'); [discriminate Q'|]. rewrite next_text by exact C. exact W.
      * intro x. unfold via. rewrite span_err. split.
        -- intro H. assert (C : 999 <= y <= 9998 \/ 0 <= y < 999 \/ y = 9999) by lia. destruct C as [C|C].
           { exfalso. rewrite next_text in H by exact C. pose proof (month_len_range y b).
             destruct (pair_total _ _ _ _ _ _ (day_half y b 1 ltac:(lia) ltac:(split; lia)) (month_half (y + 1) 2 ltac:(lia) Be)) as (sp & W). exact (span_exclusive _ _ _ W H). }
           pose proof (grouping_late y b Hy Bb C) as H'. apply span_errors in H, H'. rewrite H in H'. apply err_same in H'. subst x. rewrite Es.
           exact (df_grouping y n b (itoa (y + 1)) Hg C (itoa_canonical _)).
        -- intro H. destruct (F0 x H) as [(Q & _)|(b' & Q & C & ->)]; [lia|]. exact (grouping_late y b Hy Bb C).
Qed.

(** ** Seasons *)
(** The letters after the first of a season word. *)
Definition either_case (c d : ascii) : Prop := d = c \/ code d = code c - 32.
Lemma any_case_tail w v : any_case w v -> ~ In "s"%char w -> Forall2 either_case w v.
Proof.
  induction 1 as [|c w u v Hc H IH]; intro N; [constructor|]. cbn [In] in N.
  destruct Hc as [->|[(d & -> & Hd)|(-> & _)]]; [| |destruct N; left; reflexivity]; cbn [app]; (constructor; [unfold either_case; auto|apply IH; intro Q; apply N; right; exact Q]).
Qed.
Definition word_tails : list str := [$"pring"; $"ummer"; $"all"; $"inter"].
Lemma season_name_shape v : season_name v -> exists x w t, v = x ++ t /\ (x = [chr 197; chr 191] \/ exists c, x = [c] /\ code c <> 191) /\ Forall2 either_case w t /\ In w word_tails.
Proof.
  assert (K : forall c w v, any_case (c :: w) v -> In w word_tails -> 97 <= code c <= 122 ->
    exists x w t, v = x ++ t /\ (x = [chr 197; chr 191] \/ exists c, x = [c] /\ code c <> 191) /\ Forall2 either_case w t /\ In w word_tails).
  { intros c w v0 H Hw Bc. inversion H as [|c' w' u t Hc Ht]; subst. exists u, w, t. split; [reflexivity|].
    assert (Nw : ~ In "s"%char w) by (cbn [In word_tails] in Hw; destruct Hw as [<-|[<-|[<-|[<-|[]]]]]; cbn; intuition discriminate).
    split; [|split; [exact (any_case_tail _ _ Ht Nw)|exact Hw]].
    destruct Hc as [->|[(d & -> & Hd)|(-> & ->)]]; [right; exists c; split; [reflexivity|lia]|right; exists d; split; [reflexivity|lia]|left; reflexivity]. }
  intros [H|[H|[H|H]]]; (eapply K in H; [exact H|cbn [In word_tails]; tauto|vm_compute; split; discriminate]).
Qed.
Lemma app_tail {A} (a b t u : list A) : a ++ t = b ++ u -> length t = length u -> a = b /\ t = u.
Proof.
  revert b. induction a as [|x a IH]; intros [|y b] E L; cbn [app] in E.
  - auto.
  - exfalso. subst t. cbn [length] in L. rewrite app_length in L. lia.
  - exfalso. subst u. cbn [length] in L. rewrite app_length in L. lia.
  - injection E as -> E. destruct (IH _ E L) as (-> & ->). auto.
Qed.
Lemma name_suffix g v v1 : season_name v -> season_name v1 -> g ++ v = v1 -> g = [].
Proof.
  intros H H1 E. apply season_name_shape in H, H1. destruct H as (x & w & t & -> & Hx & Ft & Hw). destruct H1 as (x1 & w1 & t1 & -> & Hx1 & Ft1 & Hw1).
  rewrite app_assoc in E. pose proof (Forall2_length Ft) as L. pose proof (Forall2_length Ft1) as L1.
  destruct (Nat.eq_dec (length t) (length t1)) as [Q|Q].
  - destruct (app_tail _ _ _ _ E Q) as (E' & _).
    pose proof (f_equal (@length _) E') as Le. rewrite app_length in Le.
    destruct g as [|a [|b g]]; [reflexivity| |]; exfalso; destruct Hx as [->|(c & -> & Nc)], Hx1 as [->|(c1 & -> & Nc1)]; cbn [length] in Le; try lia.
    cbn [app] in E'. assert (Q' : c = chr 191) by congruence. subst c. apply Nc. reflexivity.
  - exfalso. assert (Lx : (1 <= length x)%nat /\ (length x1 <= 2)%nat).
    { split; [destruct Hx as [->|(c & -> & _)]; cbn; lia|destruct Hx1 as [->|(c & -> & _)]; cbn; lia]. }
    assert (Le : (length g + length x + length t = length x1 + length t1)%nat) by (apply (f_equal (@length _)) in E; rewrite !app_length in E; lia).
    assert (C : length t = 3%nat /\ length t1 = 5%nat /\ w = $"all").
    { cbn [In word_tails] in Hw, Hw1. destruct Hw as [<-|[<-|[<-|[<-|[]]]]], Hw1 as [<-|[<-|[<-|[<-|[]]]]]; cbn in L, L1; repeat split; lia. }
    destruct C as (C & C1 & ->). destruct t1 as [|d1 [|d2 t1]]; try discriminate C1.
    assert (E' : (g ++ x) ++ t = (x1 ++ [d1; d2]) ++ t1) by (rewrite E, <- app_assoc; reflexivity).
    destruct (app_tail _ _ _ _ E' ltac:(cbn in C1; lia)) as (_ & ->). destruct t1 as [|d3 t1]; [discriminate C|].
    inversion Ft as [|? ? ? ? Hd3 _]; subst. unfold either_case in Hd3. change (code "a") with 97 in Hd3.
    cbn [In word_tails] in Hw1. destruct Hw1 as [<-|[<-|[<-|[<-|[]]]]]; inversion Ft1 as [|? ? ? ? _ G1]; subst; inversion G1 as [|? ? ? ? _ G2]; subst; inversion G2 as [|? ? ? ? G _]; subst;
      unfold either_case in G; repeat match type of G with context [code (Ascii ?a ?b ?c ?d ?e ?f ?g ?h)] => let k := eval vm_compute in (code (Ascii a b c d e f g h)) in change (code (Ascii a b c d e f g h)) with k in G end;
      (destruct Hd3 as [->|Hd3]; [change (code "a") with 97 in G|]; (destruct G as [G|G]; [first [discriminate G|subst d3; vm_compute in Hd3; discriminate Hd3]|lia])).
Qed.
Lemma comma_free w gap : season_name w -> spaces gap -> ~ In ","%char (w ++ gap).
Proof.
  intros Hw Hs Hi. apply season_name_letters in Hw. destruct Hw as (Hw & _). unfold spaces in Hs. rewrite Forall_forall in Hw, Hs.
  apply in_app_or in Hi. destruct Hi as [Hi|Hi].
  - specialize (Hw _ Hi). destruct Hw as [H1|[H1|[H1|H1]]]; revert H1; change (code ",") with 44; lia.
  - specialize (Hs _ Hi). apply space_code in Hs. revert Hs. change (code ",") with 44. lia.
Qed.
Lemma after_comma gap n : spaces gap -> 0 <= n <= 9999 -> ~ In ","%char (gap ++ four n).
Proof.
  intros Hs Hn Hi. unfold spaces in Hs. rewrite Forall_forall in Hs. apply in_app_or in Hi. destruct Hi as [Hi|Hi].
  - specialize (Hs _ Hi). apply space_code in Hs. revert Hs. change (code ",") with 44. lia.
  - pose proof (four_digitsF n Hn) as F. rewrite Forall_forall in F. specialize (F _ Hi). revert F. change (code ",") with 44. lia.
Qed.
Lemma words_suffix g w sp sp' n w1 sp1 sp1' n1 : season_name w -> spaces sp -> spaces sp' -> 0 <= n <= 9999 ->
  season_name w1 -> spaces sp1 -> spaces sp1' -> 0 <= n1 <= 9999 -> g ++ words_text w sp sp' n = words_text w1 sp1 sp1' n1 -> g = [].
Proof.
  intros Hw Hs Hs' Hn Hw1 Hs1 Hs1' Hn1 E.
  assert (Ng : ~ In ","%char g).
  { apply (count_occ_not_In ascii_dec). unfold words_text in E. apply (f_equal (fun x => count_occ ascii_dec x ","%char)) in E.
    rewrite (app_assoc w1 sp1) in E. repeat (rewrite count_occ_app in E; cbn [count_occ] in E). destruct (ascii_dec "," ",") as [_|N]; [|congruence].
    pose proof (proj1 (count_occ_not_In ascii_dec _ _) (comma_free _ _ Hw1 Hs1)) as C1. rewrite count_occ_app in C1.
    pose proof (proj1 (count_occ_not_In ascii_dec _ _) (after_comma _ _ Hs1' Hn1)) as C2. rewrite count_occ_app in C2. lia. }
  assert (E1 : (g ++ w) ++ sp = w1 ++ sp1).
  { unfold words_text in E. rewrite (app_assoc w), (app_assoc w1), (app_assoc g) in E. rewrite <- app_assoc.
    refine (proj1 (split_once _ _ _ _ _ _ (comma_free _ _ Hw1 Hs1) E)). intro Hi. apply in_app_or in Hi. destruct Hi as [Hi|Hi]; [contradiction|exact (comma_free _ _ Hw Hs Hi)]. }
  (** A name does not end in a space. *)
  assert (E2 : g ++ w = w1).
  { assert (K : forall a b x y : str, spaces x -> spaces y -> a <> [] -> b <> [] -> ~ is_space (last a "0"%char) -> ~ is_space (last b "0"%char) -> a ++ x = b ++ y -> a = b).
    { clear. intros a b x y Hx Hy Na Nb La Lb. revert y Hy. induction x as [|c x IH] using rev_ind; intros y Hy E.
      - rewrite app_nil_r in E. destruct (exists_last Nb) as (b' & z & ->). destruct y as [|c y] using rev_ind; [rewrite app_nil_r in E; exact E|].
        exfalso. subst a. rewrite app_assoc, last_last in La. apply La. unfold spaces in Hy. apply Forall_app in Hy. destruct Hy as (_ & Hy). inversion Hy; assumption.
      - unfold spaces in *. apply Forall_app in Hx. destruct Hx as (Hx & Hc). destruct y as [|c' y _] using rev_ind.
        + exfalso. rewrite app_nil_r in E. subst b. rewrite app_assoc, last_last in Lb. apply Lb. inversion Hc; assumption.
        + apply Forall_app in Hy. destruct Hy as (Hy & _). rewrite !app_assoc in E. apply app_inj_tail in E. destruct E as (E & _). exact (IH Hx y Hy E). }
    pose proof (season_name_letters _ Hw) as (Lw & Nw). pose proof (season_name_letters _ Hw1) as (Lw1 & Nw1).
    assert (LS : forall v : str, v <> [] -> Forall letter v -> ~ is_space (last v "0"%char)).
    { intros v Nv Fv. destruct (exists_last Nv) as (v' & c & ->). rewrite last_last. apply Forall_app in Fv. destruct Fv as (_ & Fv). inversion Fv as [|? ? Hc _]; subst.
      intro S. apply space_code in S. destruct Hc as [H|[H|[H|H]]]; lia. }
    refine (K _ _ _ _ Hs Hs1 _ Nw1 _ (LS _ Nw1 Lw1) E1).
    - intro Q. apply app_eq_nil in Q. destruct Q as (_ & Q). contradiction.
    - destruct (exists_last Nw) as (w' & c & ->). rewrite app_assoc, last_last. rewrite <- (last_last w' c "0"%char). apply LS; assumption. }
  exact (name_suffix g w w1 Hw Hw1 E2).
Qed.
(** A season word at the end. *)
Lemma season_run_later s st : run (re_body Season) (mkm false s []) st -> exists k, gen season_B s k /\ m_rest st = [] /\ m_caps st = k.
Proof.
  rewrite Season_body'. intros [H|H].
  - exfalso. destruct H as (m & (Hb & _) & _). discriminate Hb.
  - apply (unend_run season_b season_B eq_refl) in H. destruct H as (H & He).
    apply (run_gen season_B eq_refl) in H. destruct H as (u & k & G & E & Ec & _). cbn in E, Ec. rewrite He, app_nil_r in E. subst u.
    rewrite app_nil_r in Ec. eauto.
Qed.
Lemma words_found w sp sp' n bot : season_name w -> spaces sp -> spaces sp' -> 0 <= n <= 9999 ->
  find_from (re_body Season) bot (words_text w sp sp' n) = Some (words_text w sp sp' n, [(4%nat, four n); (3%nat, w)]).
Proof.
  intros Hw Hs Hs' Hn. set (s := words_text w sp sp' n). assert (Hx : season_words s) by (apply words_intro; assumption).
  assert (G : lg season_B s) by (apply (lg_same season_B words_re eq_refl); apply den_words; exact Hx). destruct G as (k & G).
  assert (R : run (re_body Season) (mkm bot s []) (mkm (if nonempty s then false else bot) [] k)).
  { rewrite Season_body'. right. apply (unend_run season_b season_B eq_refl). split; [|reflexivity].
    apply (run_gen season_B eq_refl). exists s, k. cbn. rewrite !app_nil_r. auto. }
  assert (U : forall st, run (re_body Season) (mkm bot s []) st -> m_rest st = [] /\ m_caps st = [(4%nat, four n); (3%nat, w)]).
  { intros st H. assert (Q : exists k, gen season_B s k /\ m_rest st = [] /\ m_caps st = k).
    { destruct bot; [|exact (season_run_later s st H)]. apply season_run in H. destruct H as [(t' & y' & n' & r' & Hy' & Hn' & E & _)|H]; [|exact H].
      exfalso. apply words_first in Hx. destruct Hx as (c & q & E' & Hl). destruct (year_first _ _ Hy') as (c' & u & -> & Hc).
      rewrite E' in E. injection E as <- _. unfold letter in Hl. lia. }
    destruct Q as (k' & G' & Er & Ec). apply gen_words in G'. destruct G' as (w1 & sp1 & sp1' & n1 & H1 & H2 & H3 & H4 & E & ->).
    destruct (words_unique _ _ _ _ _ _ _ _ Hw Hs Hs' Hn H1 H2 H3 H4 E) as (<- & <-). auto. }
  apply in_mt in R. destruct s as [|c r] eqn:Es; [apply words_first in Hx; destruct Hx as (? & ? & Q & _); discriminate Q|].
  cbn [find_from]. destruct (mt (re_body Season) _) as [|st l] eqn:E; [destruct R|].
  destruct (U st) as (-> & ->); [apply in_mt; rewrite E; left; reflexivity|]. unfold taken. cbn [length]. rewrite Nat.sub_0_r. f_equal. f_equal. exact (firstn_all (c :: r)).
Qed.
Lemma words_found_later g w sp sp' n bot : season_name w -> spaces sp -> spaces sp' -> 0 <= n <= 9999 ->
  (bot = true -> ~ season_head (g ++ words_text w sp sp' n)) ->
  find_from (re_body Season) bot (g ++ words_text w sp sp' n) = Some (words_text w sp sp' n, [(4%nat, four n); (3%nat, w)]).
Proof.
  intros Hw Hs Hs' Hn. revert bot. induction g as [|c g IH]; intros bot Nh; [apply words_found; assumption|].
  cbn [app find_from]. destruct (mt (re_body Season) _) as [|st l] eqn:E; [apply IH; discriminate|]. exfalso.
  assert (R : run (re_body Season) (mkm bot (c :: g ++ words_text w sp sp' n) []) st) by (apply in_mt; rewrite E; left; reflexivity).
  assert (Q : exists k, gen season_B (c :: g ++ words_text w sp sp' n) k).
  { destruct bot; [|destruct (season_run_later _ _ R) as (k & G & _); eauto]. apply season_run in R.
    destruct R as [(t' & y' & n' & r' & Hy' & Hn' & Et & _)|(k & G & _)]; [|eauto]. destruct (Nh eq_refl). exists t', y', n', r'. auto. }
  destruct Q as (k & G). apply gen_words in G. destruct G as (w1 & sp1 & sp1' & n1 & H1 & H2 & H3 & H4 & Ew & _).
  pose proof (words_suffix (c :: g) w sp sp' n w1 sp1 sp1' n1 Hw Hs Hs' Hn H1 H2 H3 H4 Ew). discriminate.
Qed.
Lemma words_anywhere g n w v sp sp' y b e j : season_of n w b e j -> any_case w v -> spaces sp -> spaces sp' -> 0 <= y <= 9999 ->
  ~ season_head (g ++ words_text v sp sp' y) ->
  ParseSeason (g ++ words_text v sp sp' y) = season_rest (g ++ words_text v sp sp' y) y b (y + j) e.
Proof.
  intros Hn Hv Hs Hs' Hy Nh. assert (Hw : season_name v) by (unfold season_name; destruct Hn; auto).
  assert (Eu : to_upper v = map upper_byte w) by (apply to_upper_case; [exact Hv|destruct Hn; reflexivity]).
  assert (Ew : season_word v y = Some (y, b, y + j, e)).
  { unfold season_word. rewrite Eu. destruct Hn; rewrite ?Z.add_0_r; vm_compute (map upper_byte _); reflexivity. }
  assert (Ef : find_submatch Season (g ++ words_text v sp sp' y) = [words_text v sp sp' y; []; []; v; four y]).
  { unfold find_submatch. rewrite words_found_later by (assumption || auto). reflexivity. }
  unfold ParseSeason. rewrite Ef. change (negb (Nat.eqb (length _) 5)) with false. cbv iota zeta. unfold sub. cbn [nth].
  change (is_empty []) with true. cbv iota. rewrite (atoi_four y) by lia. cbn [bind]. rewrite Ew. reflexivity.
Qed.
Lemma words_split s : season_words s -> exists n w v sp sp' y b e j, season_of n w b e j /\ any_case w v /\ spaces sp /\ spaces sp' /\ 0 <= y <= 9999 /\ s = words_text v sp sp' y.
Proof.
  intros (v & r & Hv & (sp & r' & Hs & (c & r'' & Hc & (sp' & f & Hs' & Hf & ->) & ->) & ->) & ->).
  unfold is in Hc. subst c. destruct Hf as (Lf & Ff). destruct f as [|a [|b [|c [|d [|? ?]]]]]; try discriminate.
  apply Forall_cons_iff in Ff. destruct Ff as (Da & Ff). apply Forall_cons_iff in Ff. destruct Ff as (Db & Ff). apply Forall_cons_iff in Ff. destruct Ff as (Dc & Ff).
  apply Forall_cons_iff in Ff. destruct Ff as (Dd & _). destruct (StrFacts.four_of a b c d Da Db Dc Dd) as (y & Hy & Ey). rewrite Ey.
  destruct (season_name_of v Hv) as (n & w & b' & e & j & Hn & Hw). exists n, w, v, sp, sp', y, b', e, j. auto 10.
Qed.
Lemma season_rest_OK s y b e j d : -9999 <= y <= 9999 -> 1 <= b <= 12 -> 1 <= e <= 12 -> 0 <= j <= 1 ->
  (season_rest s y b (y + j) e = OK d <-> rendered y /\ rendered (y + j) /\
     exists sp, whole_span (day_text y b 1 ++ $"/" ++ day_text (y + j) e (month_len (y + j) e)) sp /\ d = mkEDTF (s_start sp) (s_end sp) s 1 ($"Seasons")).
Proof.
  intros Hy Hb He Hj. split.
  - intro H. assert (R : rendered y /\ rendered (y + j)).
    { unfold season_rest in H. apply bind_OK in H. destruct H as (dd & Hd & H). apply bind_OK in H. destruct H as (sp & Hs & _).
      assert (Q : exists lo hi, span_reads (season_text y b (y + j) e dd) lo hi).
      { destruct (span_shows _ _ Hs) as (lo & hi & L & U). exists lo, hi. apply span_bridge. eauto. }
      destruct Q as (lo & hi & Q). exact (months_span y b (y + j) e lo hi dd ltac:(lia) ltac:(lia) Q). }
    destruct R as (Ra & Rc). split; [exact Ra|]. split; [exact Rc|]. rewrite season_via in H by assumption. apply via_OK in H. exact H.
  - intros (Ra & Rc & H). rewrite season_via by assumption. apply via_OK. exact H.
Qed.
Lemma head_decided s : cat season_date anything s \/ ~ cat season_date anything s.
Proof.
  rewrite season_head_iff. destruct (mt (RSeq RBegin season_A) (mkm true s [])) as [|st l] eqn:E.
  - right. intros (t & y & n & r & Hy & Hn & ->).
    assert (R : run (RSeq RBegin season_A) (mkm true (t ++ "-"%char :: two n ++ r) []) (mkm false r [(2%nat, two n); (1%nat, t)])).
    { apply (run_pre season_A [] _ _ eq_refl). split; [reflexivity|].
      exists (t ++ "-"%char :: two n), [(2%nat, two n); (1%nat, t)]. cbn [m_rest m_caps m_bot]. split; [|split; [rewrite <- app_assoc; reflexivity|split; [reflexivity|]]].
      - rewrite season_A_eq. exists t, [(1%nat, t)], ("-"%char :: two n), [(2%nat, two n)]. split; [exists []; split; [apply gen_yr; eauto|reflexivity]|].
        split; [|auto]. exists ["-"%char], [], (two n), [(2%nat, two n)]. split; [apply gen_rc; [lia|auto]|]. split; [|auto].
        assert (G : lg snum_re (two n)) by (apply den_snum; exists n; auto). destruct G as (k & G). rewrite (gen_nocap _ _ _ G eq_refl) in G.
        exists []. auto.
      - destruct t; reflexivity. }
    apply in_mt in R. rewrite E in R. destruct R.
  - left. assert (R : run (RSeq RBegin season_A) (mkm true s []) st) by (apply in_mt; rewrite E; left; reflexivity).
    apply (run_pre season_A [] s st eq_refl) in R. destruct R as (_ & u & k & G & Es & _). apply gen_season_A in G. destruct G as (t & y & n & Hy & Hn & -> & _).
    exists t, y, n, (m_rest st). rewrite <- app_assoc in Es. auto.
Qed.
Lemma gives_season s sp : direct_gives ($"Seasons") s sp -> exists y b e j,
  -9999 <= y <= 9999 /\ 1 <= b <= 12 /\ 1 <= e <= 12 /\ (0 <= j <= 1) /\ ParseSeason s = season_rest s y b (y + j) e /\ rendered y /\ rendered (y + j) /\
  whole_span (day_text y b 1 ++ $"/" ++ day_text (y + j) e (month_len (y + j) e)) sp.
Proof.
  intro H. remember ($"Seasons") as f eqn:Ef. destruct H as [f s sp N|t y n r b e j sp Hy Hn Ra Rc W|n w v gap gap' y b e j g s sp Hn Hv Hs Hs' Hy Hj Es Nh W|y n b e sp|y n b e sp]; try discriminate Ef.
  - exfalso. apply N. left. exact Ef.
  - destruct (season_months_code n y b e j Hn) as (Bn & E & Bb & Be & Bj). pose proof (rendered_range _ Ra). exists y, b, e, j. repeat (split; [assumption || lia|]).
    split; [|auto]. exact (season_code_rest t y n r _ _ _ _ Hy Bn E).
  - assert (B : 1 <= b <= 12 /\ 1 <= e <= 12 /\ 0 <= j <= 1) by (destruct Hn; lia). exists y, b, e, j. repeat (split; [lia|]).
    split; [|unfold rendered; repeat split; try lia; exact W]. rewrite Es in *. rewrite season_head_iff in Nh. exact (words_anywhere g n w v gap gap' y b e j Hn Hv Hs Hs' ltac:(lia) Nh).
Qed.
Lemma fails_season s x : direct_fails ($"Seasons") s x -> ParseSeason s = Err x.
Proof.
  intro H. remember ($"Seasons") as f eqn:Ef. destruct H as [f s x N|t y n r b e j x Hy Hn Hx|n w v gap gap' y b e j g s x Hn Hv Hs Hs' Hy Es Nh Hx|y n s|y n b w]; try discriminate Ef.
  - exfalso. apply N. left. exact Ef.
  - destruct (season_months_code n y b e j Hn) as (Bn & E & Bb & Be & Bj). change ($"-" ++ two n ++ r) with ("-"%char :: two n ++ r).
    rewrite (season_code_rest t y n r _ _ _ _ Hy Bn E). apply months_errors; try assumption; [destruct Hy; lia|exact (season_months_end _ _ _ _ Hn)].
  - assert (B : 1 <= b <= 12 /\ 1 <= e <= 12 /\ (j = 0 \/ j = 1 /\ e = 2)) by (destruct Hn; lia). rewrite Es in *. rewrite season_head_iff in Nh.
    change (v ++ gap ++ $"," ++ gap' ++ four y) with (words_text v gap gap' y) in *.
    rewrite (words_anywhere g n w v gap gap' y b e j Hn Hv Hs Hs' Hy Nh). apply months_errors; try assumption; lia.
Qed.
Lemma season_parser : one_parser ParseSeason 1 ($"Seasons") season_like.
Proof.
  intro s. split; intro F.
  - unfold ParseSeason. rewrite (untested Season s) by (rewrite Season_spec; exact F). reflexivity.
  - assert (C : cat season_date anything s \/ ~ cat season_date anything s /\ cat anything season_words s).
    { destruct (head_decided s) as [Q|Q]; [auto|]. destruct F as [F|F]; [contradiction|auto]. }
    split.
    + intro d. split; [intro H|].
      * destruct C as [Hl|(Nh & u & x & _ & Hx & Es)].
        -- apply season_head_iff in Hl. destruct Hl as (t & y & n & r & Hy & Hn & ->).
           destruct (season_months_total n Hn) as (b & e & j & Hm). destruct (season_months_code n y b e j Hm) as (_ & Ec & Bb & Be & Bj).
           rewrite (season_code_rest t y n r _ _ _ _ Hy Hn Ec) in H. apply season_rest_OK in H; try assumption; [|destruct Hy; lia].
           destruct H as (Ra & Rc & sp & W & ->). exists sp. split; [|reflexivity]. exact (dg_season t y n r b e j sp Hy Hm Ra Rc W).
        -- destruct (words_split x Hx) as (n & w & v & gap & gap' & y & b & e & j & Hn & Hv & Hs & Hs' & Hy & ->).
           assert (B : 1 <= b <= 12 /\ 1 <= e <= 12 /\ 0 <= j <= 1) by (destruct Hn; lia). pose proof Nh as Nh'. rewrite season_head_iff, Es in Nh'.
           rewrite Es in H. rewrite (words_anywhere u n w v gap gap' y b e j Hn Hv Hs Hs' Hy Nh') in H. apply season_rest_OK in H; [|lia..].
           destruct H as (Ra & Rc & sp & W & ->). exists sp. split; [|rewrite Es; reflexivity].
           apply (dg_words n w v gap gap' y b e j u s sp Hn Hv Hs Hs'); [lia|unfold rendered in Rc; lia|exact Es|exact Nh|exact W].
      * intros (sp & H & ->). apply gives_season in H. destruct H as (y & b & e & j & Hy & Hb & He & Hj & E & Ra & Rc & W).
        rewrite E. apply season_rest_OK; [assumption..|]. eauto.
    + intros _. split; [|split; [intro H; destruct (np_season s H)|intros ([Q|Q] & _); discriminate Q]]. intro x. split; [|apply fails_season]. intro H.
      destruct C as [Hl|(Nh & u & z & _ & Hz & Es)].
      * apply season_head_iff in Hl. destruct Hl as (t & y & n & r & Hy & Hn & ->).
        destruct (season_months_total n Hn) as (b & e & j & Hm). destruct (season_months_code n y b e j Hm) as (_ & Ec & Bb & Be & Bj).
        rewrite (season_code_rest t y n r _ _ _ _ Hy Hn Ec) in H. assert (By : -9999 <= y <= 9999) by (destruct Hy; lia).
        apply months_errors in H; try assumption; [|exact (season_months_end _ _ _ _ Hm)]. exact (df_season t y n r b e j x Hy Hm H).
      * destruct (words_split z Hz) as (n & w & v & gap & gap' & y & b & e & j & Hn & Hv & Hs & Hs' & Hy & ->).
        assert (B : 1 <= b <= 12 /\ 1 <= e <= 12 /\ (j = 0 \/ j = 1 /\ e = 2)) by (destruct Hn; lia). pose proof Nh as Nh'. rewrite season_head_iff, Es in Nh'.
        rewrite Es in H. rewrite (words_anywhere u n w v gap gap' y b e j Hn Hv Hs Hs' Hy Nh') in H. apply months_errors in H; [|lia..].
        exact (df_words n w v gap gap' y b e j u s x Hn Hv Hs Hs' Hy Es Nh H).
Qed.

(** ** Several features *)
Definition trying (m : regexp) (Q P : str -> res edtfdate) (s : str) : res edtfdate := if match_string m s then Q s else P s.
Lemma none_left lv label : level_parser (fun s => Err (EInvalid label s)) lv [] label.
Proof. intro s. split; [reflexivity|]. intros f F. inversion F. Qed.
Lemma try_first m Q P lv f form l label : (forall s, match_string m s = true <-> form s) -> one_parser Q lv f form -> level_parser P lv l label ->
  level_parser (trying m Q P) lv ((f, form) :: l) label.
Proof.
  intros M HQ HP s. specialize (M s). destruct (HQ s) as (_ & H1). destruct (HP s) as (H2 & H3). unfold trying. destruct (match_string m s) eqn:E.
  - assert (F : form s) by (apply M; reflexivity). split.
    + intro N. destruct (N f). apply fo_here. exact F.
    + intros f' F'. inversion F' as [? ? ? _|? ? ? ? N _]; subst; [|contradiction]. specialize (H1 F). unfold one_feature in H1. exact H1.
  - assert (F : ~ form s) by (intro Q'; apply M in Q'; discriminate). split.
    + intro N. apply H2. intros f' F'. apply (N f'). apply fo_later; assumption.
    + intros f' F'. inversion F' as [? ? ? Q'|? ? ? ? _ Q']; subst; [contradiction|]. exact (H3 f' Q').
Qed.
Lemma level_same P Q lv l label : (forall s, P s = Q s) -> level_parser Q lv l label -> level_parser P lv l label.
Proof. intros E H s. rewrite E. exact (H s). Qed.
Lemma interval_parser : level_parser ParseExtendedInterval 1 [($"Extended Interval (Start)", extended_start); ($"Extended Interval (End)", extended_end)] ($"Extended Interval").
Proof.
  eapply level_same; [|apply (try_first IntervalStart); [exact IntervalStart_spec|exact IntervalStart_parser|apply (try_first IntervalEnd); [exact IntervalEnd_spec|exact IntervalEnd_parser|apply none_left]]].
  intro s. reflexivity.
Qed.
Lemma level0_parser : level_parser L0_ParseString 0 level0_features ($"Invalid Level 0 string").
Proof.
  eapply level_same; [|apply (try_first Date_re); [exact IsDate_spec|exact Date_parser|]; apply (try_first DateAndTime); [exact DateAndTime_spec|exact stamp_parser|];
    apply (try_first TimeInterval); [exact TimeInterval_spec|exact TimeInterval_parser|apply none_left]].
  intro s. reflexivity.
Qed.
Lemma level1_parser : level_parser L1_ParseString 1 level1_features ($"Extended Interval").
Proof.
  eapply level_same; [|apply (try_first LetterPrefixedCalendarYear); [exact LetterYear_spec|exact letter_parser|]; apply (try_first Season); [exact Season_spec|exact season_parser|];
    apply (try_first QualifiedDate); [exact QualifiedDate_spec|exact QualifiedDate_parser|]; apply (try_first UnspecifiedDigits); [exact UnspecifiedDigits_spec|exact UnspecifiedDigits_parser|];
    apply (try_first NegativeYear); [exact NegativeYear_spec|exact NegativeYear_parser|exact interval_parser]].
  intro s. unfold L1_ParseString, trying.
  replace (IsExtendedInterval s) with true by (unfold IsExtendedInterval; destruct (match_string IntervalEnd s), (match_string IntervalStart s); reflexivity). reflexivity.
Qed.
Lemma level2_parser : level_parser L2_ParseString 2 level2_features ($"Invalid or unsupported Level 2 string").
Proof.
  eapply level_same; [|apply (try_first ExponentialYear); [exact Exponential_spec|exact exponential_parser|]; apply (try_first SignificantDigits); [exact Significant_spec|exact significant_parser|];
    apply (try_first SubYearGrouping); [exact Grouping_spec|exact grouping_parser|]; apply (try_first SetRepresentations); [exact set_test|exact set_parser|];
    apply (try_first GroupQualification); [exact Group_spec|exact Group_parser|]; apply (try_first IndividualQualification); [exact Individual_spec|exact Individual_parser|];
    apply (try_first UnspecifiedDigit); [exact Unspecified_spec|exact Unspecified_parser|]; apply (try_first Interval); [exact Interval_spec|exact Interval_parser|apply none_left]].
  intro s. reflexivity.
Qed.
(** The names. *)
Lemma unnamed_by (M : str -> res str) label l s : (forall f, first_of s l f <-> M s = OK f) -> (forall x, M s = Err x -> x = EInvalid label s) -> M s <> Panic ->
  (forall f, M s = OK f <-> first_of s l f) /\ (no_feature s l -> M s = Err (EInvalid label s)).
Proof.
  intros H He Hp. split; [intro f; symmetry; apply H|]. intro N. destruct (M s) as [f|x|] eqn:E; [destruct (N f); apply H; reflexivity|rewrite (He x eq_refl); reflexivity|congruence].
Qed.
Ltac only_label := intros x H; repeat match type of H with (if ?b then _ else _) = _ => destruct b; try discriminate H end; apply err_same in H; exact (eq_sym H).
Ltac no_panic := repeat match goal with |- context [if ?b then _ else _] => destruct b end; discriminate.
Lemma names0 s : (forall f, L0_Matches s = OK f <-> first_of s level0_features f) /\ (no_feature s level0_features -> L0_Matches s = Err (EInvalid ($"Invalid Level 0 string") s)).
Proof. apply unnamed_by; [intro f; apply first0|unfold L0_Matches; only_label|unfold L0_Matches; no_panic]. Qed.
Lemma names1 s : (forall f, L1_Matches s = OK f <-> first_of s level1_features f) /\ (no_feature s level1_features -> L1_Matches s = Err (EInvalid ($"Invalid Level 1 string") s)).
Proof. apply unnamed_by; [intro f; apply first1|unfold L1_Matches; only_label|unfold L1_Matches; no_panic]. Qed.
Lemma names2 s : (forall f, L2_Matches s = OK f <-> first_of s level2_features f) /\ (no_feature s level2_features -> L2_Matches s = Err (EInvalid ($"Invalid or unsupported Level 2 string") s)).
Proof. apply unnamed_by; [intro f; apply first2|unfold L2_Matches; only_label|unfold L2_Matches; no_panic]. Qed.
(** The span alone. *)
Lemma span_parser s : (forall sp, DateSpanFromEDTF s = OK sp <-> whole_span s sp) /\ (forall x, DateSpanFromEDTF s = Err x <-> span_refused s x) /\ DateSpanFromEDTF s <> Panic.
Proof. split; [intro sp; symmetry; apply whole_span_iff|]. split; [apply span_errors|exact (np_DateSpan s)]. Qed.
Lemma borderline_only s : borderline s -> exponential_year s \/ significant_digits s.
Proof.
  assert (Y : forall a t, a = "Y"%char \/ a = "y"%char -> borderline_notation t -> exponential_year (a :: t)).
  { intros a t Ha (m & e & Ht & _). exists [a], t. split; [destruct Ha as [->| ->]; [left|right]; reflexivity|]. split; [apply exp_text_form; eauto|reflexivity]. }
  intros [a t Ha Ht|a t nd Ha Ht Hn]; [left; exact (Y a t Ha Ht)|]. right.
  exists (a :: t), ($"S" ++ nd). split; [right; right; exact (Y a t Ha Ht)|]. split; [exists ($"S"), nd; split; [reflexivity|split; [exact Hn|reflexivity]]|reflexivity].
Qed.
