(** The strings errors carry. *)
From Coq Require Import Ascii String ZArith NArith Bool Lia ZifyBool List.
From Verif Require Import GoStr GoTime GoBig Regex Patterns RegexSym RegexRel RegexGen SpecCal SpecText SpecGrammar SpecForms SpecSpan SpecErr StrFacts TextFacts Edtf Calendar Common Level0 Level1 Level2 Parser CalFacts ApiFacts SpanFacts YmdShapes YmdFacts InvFacts GrammarFacts LangFacts LangNorm LangForms LangForms2 DateFacts ParseFacts SplitFacts Level0Facts SetFacts SetGrammar FormFacts SeasonFacts Level1Proofs XProofs FormProofs SigProofs ExpProofs GroupingProofs OrderProofs SetProofs.
Import ListNotations.
Open Scope Z_scope.
Ltac Zify.zify_post_hook ::= Z.div_mod_to_equations.

(** Every string carried by an error of [x] satisfies [P]. *)
Definition cr {A} (P : str -> Prop) (x : res A) : Prop := forall e t, x = Err e -> named e = Some t -> P t.
Lemma cr_OK {A} P (a : A) : cr P (OK a). Proof. intros e t H. discriminate. Qed.
Lemma cr_Panic {A} P : cr P (@Panic A). Proof. intros e t H. discriminate. Qed.
Lemma cr_Err {A} (P : str -> Prop) e : (forall t, named e = Some t -> P t) -> cr P (@Err A e).
Proof. intros H e' t E. injection E as <-. apply H. Qed.
Lemma cr_none {A} (P : str -> Prop) e : named e = None -> cr P (@Err A e).
Proof. intro H. apply cr_Err. rewrite H. discriminate. Qed.
Lemma cr_some {A} (P : str -> Prop) e t : named e = Some t -> P t -> cr P (@Err A e).
Proof. intros H HP. apply cr_Err. rewrite H. intros u E. injection E as <-. exact HP. Qed.
Lemma cr_bind {A B} P (x : res A) (f : A -> res B) : cr P x -> (forall a, x = OK a -> cr P (f a)) -> cr P (bind x f).
Proof. intros Hx Hf. destruct x as [a|e|]; cbn [bind]; [apply Hf; reflexivity| |apply cr_Panic]. intros e' t E. injection E as <-. exact (Hx e t eq_refl). Qed.
Lemma cr_if {A} P (b : bool) (x y : res A) : (b = true -> cr P x) -> (b = false -> cr P y) -> cr P (if b then x else y).
Proof. destruct b; auto. Qed.
Lemma cr_imp {A} (P Q : str -> Prop) (x : res A) : (forall t, P t -> Q t) -> cr P x -> cr Q x.
Proof. intros H Hx e t E N. apply H. exact (Hx e t E N). Qed.
Create HintDb cr.
Global Hint Resolve cr_OK cr_Panic : cr.
Lemma cr_atoi P s : cr P (atoi s).
Proof. unfold atoi. destruct s as [|c s]; [apply cr_none; reflexivity|]. cbv zeta.
  repeat match goal with |- context [match ?x with _ => _ end] => destruct x end; first [apply cr_OK | apply cr_none; reflexivity]. Qed.
Lemma cr_parse_int P s : cr P (parse_int s).
Proof. unfold parse_int. destruct (atoi s); [apply cr_OK|apply cr_none; reflexivity|apply cr_Panic]. Qed.
Lemma cr_time_parse P l v : cr P (time_parse l v).
Proof. unfold time_parse. destruct (parse_toks _ _ _); [|apply cr_none; reflexivity]. apply cr_if; intros _; [apply cr_OK|apply cr_none; reflexivity]. Qed.
Global Hint Resolve cr_atoi cr_parse_int cr_time_parse : cr.
Ltac cr := repeat first
  [ assumption | apply cr_OK | apply cr_Panic | apply cr_atoi | apply cr_parse_int | apply cr_time_parse
  | apply cr_none; reflexivity
  | apply cr_if; intros ?
  | apply cr_bind; [|intros ? ?]
  | solve [auto with cr] ].
Lemma cr_TimeWithYMD P v h : cr P (TimeWithYMD v h).
Proof. unfold TimeWithYMD. cr. Qed.
Lemma cr_DaysInMonth P y m : cr P (DaysInMonth y m).
Proof. unfold DaysInMonth. cr. Qed.
Global Hint Resolve cr_TimeWithYMD cr_DaysInMonth : cr.
Lemma cr_DaysInMonthWithString P s : cr P (DaysInMonthWithString s).
Proof. unfold DaysInMonthWithString. destruct (split s _) as [|? [|? [|? [|]]]]; cr. Qed.
Global Hint Resolve cr_DaysInMonthWithString : cr.
(** The year is never too large to be a date. *)
Lemma cr_YMDFromStrings P a b c : (forall y, atoi a = OK y -> -9999 <= y <= 9999) -> cr P (YMDFromStrings a b c).
Proof.
  intro H. unfold YMDFromStrings. apply cr_if; intros _; [cr|]. apply cr_if; intros _; [cr|].
  apply cr_bind; [cr|]. intros y Hy. specialize (H y Hy). apply cr_bind; [cr|]. intros mm _. apply cr_bind; [cr|]. intros dd _.
  apply cr_if; intro Q; [exfalso|cr]. unfold MAX_YEARS, FlipYear in Q. destruct (y <? 0) eqn:E; [|lia].
  rewrite !wrap_small in Q; try rewrite !wrap_small; lia.
Qed.
Lemma year_range_atoi s t a b p : core_in year_shapes t -> year_range s t = OK (a, b, p) ->
  (forall y, atoi a = OK y -> -9999 <= y <= 9999) /\ (forall y, atoi b = OK y -> -9999 <= y <= 9999).
Proof.
  intros Hc H. destruct (year_range_cases _ _ _ Hc H) as [(_ & E)|(x & y & z & _ & Hx & Hy & Hz & E)].
  - injection E as -> -> _. split; intros y Q; exact (year_core_bound _ _ Hc Q).
  - injection E as -> -> _. pose proof (year_bounds x y z Hx Hy Hz).
    rewrite !atoi_itoa by (unfold min_int64, max_int64; lia). split; intros w Q; injection Q as <-; lia.
Qed.
Lemma cr_year_range s t : core_in year_shapes t -> cr (eq s) (year_range s t).
Proof.
  intro H. apply year_core in H. destruct H as (a & b & c & d & [->| ->] & _); unfold year_range, year_digit, byte_at; cbn [nth_error];
  repeat first [progress cr | eapply cr_some; [reflexivity|reflexivity] | match goal with |- cr _ (let '(_, _) := ?p in _) => destruct p end].
Qed.
Lemma cr_day_range s t p : cr (eq s) (day_range s t p).
Proof.
  unfold day_range. destruct t as [|c t]; [destruct (negb _) eqn:E; [cr|discriminate E]|]. unfold byte_at. cbn [nth_error].
  repeat first [progress cr | eapply cr_some; [reflexivity|reflexivity] | match goal with |- cr _ (let '(_, _) := ?p in _) => destruct p end].
Qed.
Lemma cr_span s : cr (eq s) (dateSpanFromYMD s).
Proof.
  unfold dateSpanFromYMD. destruct (find_submatch YMD_re s) eqn:E.
  - unfold StringRangeFromYMD. rewrite E. cbn [List.length Nat.eqb negb bind]. eapply cr_some; reflexivity.
  - destruct (ymd_inv s) as (yt & yc & yq & mt & mc & mq & dt & dc & dq & Ht & Hp); [congruence|].
    rewrite (string_range _ _ _ _ _ _ _ _ _ _ Ht Hp). destruct Hp as [_ Hy _ _ _ _].
    assert (G : forall sr, sr_tail s yc mc dc (qualifier_flags yq mq dq) = OK sr ->
      (forall y, atoi (sd_year (sr_start sr)) = OK y -> -9999 <= y <= 9999) /\ (forall y, atoi (sd_year (sr_end sr)) = OK y -> -9999 <= y <= 9999)).
    { intros sr H. unfold sr_tail in H. destruct (qualifier_flags yq mq dq). apply bind_OK in H. destruct H as (((ys & ye) & py) & Hr & H).
      destruct (month_range mc py) as ((ms & me) & pm). apply bind_OK in H. destruct H as (((ds & de) & pd) & _ & H).
      apply bind_OK in H. destruct H as (ed & _ & H). injection H as <-. cbn [sr_start sr_end sd_year]. exact (year_range_atoi _ _ _ _ _ Hy Hr). }
    apply cr_bind.
    + unfold sr_tail. destruct (qualifier_flags yq mq dq). apply cr_bind; [apply cr_year_range; exact Hy|]. intros ((ys & ye) & py) _.
      destruct (month_range mc py) as ((ms & me) & pm). apply cr_bind; [apply cr_day_range|]. intros ((ds & de) & pd) _. cr.
    + intros sr Hsr. destruct (G sr Hsr) as (G1 & G2). unfold YMDFromStringDate.
      apply cr_bind; [apply cr_YMDFromStrings; exact G1|]. intros d1 _. apply cr_bind; [apply cr_YMDFromStrings; exact G2|]. intros d2 _.
      apply cr_bind; [cr|]. intros (((sl & su) & el) & eu) _. cr.
Qed.
Lemma cr_half' s : cr (fun x => x = s /\ s <> $"..") (dateSpanFromEDTF s).
Proof.
  unfold dateSpanFromEDTF. apply cr_if; intros _; [cr|]. apply cr_if; intro H; [cr|]. apply (cr_imp (eq s)); [|apply cr_span].
  intros t <-. split; [reflexivity|]. intros ->. discriminate H.
Qed.
Lemma cr_half s : cr (eq s) (dateSpanFromEDTF s).
Proof. eapply cr_imp; [|apply cr_half']. intros t (-> & _). reflexivity. Qed.
Lemma cr_single t : ~ In "/"%char t -> cr (eq t) (DateSpanFromEDTF t).
Proof. intro H. rewrite single_fwd by exact H. apply cr_span. Qed.
Lemma cr_pair a b : ~ In "/"%char a -> ~ In "/"%char b -> cr (fun x => (x = a \/ x = b) /\ x <> $"..") (DateSpanFromEDTF (a ++ "/"%char :: b)).
Proof.
  intros Ha Hb. unfold DateSpanFromEDTF. change ($"/") with ["/"%char].
  change (a ++ "/"%char :: b) with (joined ["/"%char] [a; b]). rewrite split_of_joined by first [discriminate|repeat constructor; assumption].
  apply cr_bind; [eapply cr_imp; [|apply cr_half']; intros x (-> & N); auto|]. intros l _. apply cr_bind; [eapply cr_imp; [|apply cr_half']; intros x (-> & N); auto|]. cr.
Qed.
Lemma cr_self t : cr (fun x => occurs x t) (DateSpanFromEDTF t).
Proof.
  unfold DateSpanFromEDTF. assert (O : occurs t t) by (exists [], []; rewrite app_nil_r; reflexivity).
  destruct (split t ($"/")) as [|a [|b [|c l]]] eqn:E.
  - eapply cr_some; [reflexivity|exact O].
  - apply split_single in E; [|discriminate]. destruct E as (-> & _). apply (cr_imp (eq t)); [intros ? <-; exact O|apply cr_span].
  - apply split_pair in E; [|discriminate]. destruct E as (-> & _).
    apply cr_bind; [apply (cr_imp (eq a)); [|apply cr_half]; intros ? <-; exists [], ($"/" ++ b); reflexivity|]. intros l _.
    apply cr_bind; [apply (cr_imp (eq b)); [|apply cr_half]; intros ? <-; exists (a ++ $"/"), []; rewrite app_nil_r, <- app_assoc; reflexivity|]. cr.
  - eapply cr_some; [reflexivity|exact O].
Qed.

(** ** The features *)
Definition dr (s : str) {A} (x : res A) : Prop := cr (derived s) x.
Lemma occurs_self s : occurs s s.
Proof. exists [], []. rewrite app_nil_r. reflexivity. Qed.
Lemma occurs_trans x y z : occurs x y -> occurs y z -> occurs x z.
Proof. intros (a & b & ->) (c & d & ->). exists (c ++ a), (b ++ d). rewrite <- !app_assoc. reflexivity. Qed.
Lemma dr_own {A} s e : named e = Some s -> dr s (@Err A e).
Proof. intro H. eapply cr_some; [exact H|]. apply dv_part, occurs_self. Qed.
Ltac own := apply dr_own; reflexivity.
Lemma dr_self s : dr s (DateSpanFromEDTF s).
Proof. apply (cr_imp (fun x => occurs x s)); [intros t H; exact (dv_part s t H)|apply cr_self]. Qed.
Lemma dr_plain s (b : bool) f lv : dr s (if negb b then Err (Invalid f s) else let* sp := DateSpanFromEDTF s in OK (edtf_of_span sp s lv f)).
Proof. apply cr_if; intros _; [own|]. apply cr_bind; [apply dr_self|]. cr. Qed.
Lemma dr_letter s : dr s (ParseLetterPrefixedCalendarYear s).
Proof.
  unfold ParseLetterPrefixedCalendarYear. destruct (match_string LetterPrefixedCalendarYear s) eqn:M.
  - apply LetterYear_spec in M. destruct M as (u & t & -> & Ht & ->). change ($"Y" ++ t) with ("Y"%char :: t). rewrite (letter_submatch t Ht).
    cbn [length Nat.eqb negb]. cbv zeta. apply cr_if; intros _; [own|]. apply cr_bind; [|cr].
    apply (cr_imp (fun x => occurs x t)); [|apply cr_self]. intros x Hx. apply dv_part. apply (occurs_trans _ t); [exact Hx|]. exists ["Y"%char], []. rewrite app_nil_r. reflexivity.
  - destruct (find_submatch LetterPrefixedCalendarYear s) eqn:E; [own|]. exfalso. rewrite find_match in M; [discriminate|]. rewrite E. discriminate.
Qed.
Lemma dr_datetime s : dr s (ParseDateAndTime s).
Proof. unfold ParseDateAndTime. cbv zeta. apply cr_if; intros _; [own|]. cr. Qed.

(** *** Seasons *)
Lemma season_captured s : find_submatch Season s <> [] ->
  (exists t y n r, year4 t y /\ (1 <= n <= 12 \/ 21 <= n <= 24) /\ sub (find_submatch Season s) 1 = t /\ sub (find_submatch Season s) 2 = two n /\ s = t ++ "-"%char :: two n ++ r) \/
  (exists n r, 0 <= n <= 9999 /\ sub (find_submatch Season s) 1 = [] /\ sub (find_submatch Season s) 4 = four n /\ s = r ++ four n).
Proof.
  intro H. destruct (season_captures s H) as [Q|(n0 & Hn0 & E1 & E4)]; [left; exact Q|right].
  destruct (submatch_run _ _ H) as (p & q & st & E & R & Ef). rewrite Ef. rewrite Season_body' in R. destruct R as [R|R].
  - exfalso. apply (run_pre season_A p q st) in R; [|reflexivity]. destruct R as (_ & u & k & G & _ & Ec & _).
    apply gen_season_A in G. destruct G as (t & y & n & Hy & _ & -> & ->). rewrite Ef in E1. unfold outcome in E1. rewrite Ec in E1. exact (year4_ne _ _ Hy E1).
  - apply (unend_run season_b season_B eq_refl) in R. destruct R as (R & He).
    apply (run_gen season_B eq_refl) in R. destruct R as (u & k & G & Eq & Ec & _). cbn in Eq, Ec. rewrite app_nil_r in Ec.
    apply gen_words in G. destruct G as (w & sp & sp' & n & _ & _ & _ & Hn & Eu & ->). exists n.
    subst u. rewrite He, app_nil_r in Eq. subst q s. unfold words_text. exists (p ++ w ++ sp ++ ","%char :: sp').
    split; [exact Hn|]. unfold outcome. rewrite Ec. split; [reflexivity|]. split; [reflexivity|]. rewrite <- !app_assoc. cbn [app]. reflexivity.
Qed.

Lemma days_range y m dd : -9999 <= y <= 10000 -> 1 <= m <= 12 -> DaysInMonth y m = OK dd -> 1 <= dd <= 31.
Proof.
  intros Hy Hm H. destruct (Z.eqb_spec y 10000) as [->|Hn].
  - exfalso. assert (Q : match DaysInMonth 10000 m with Err _ => true | _ => false end = true).
    { apply (zrange_forall (fun m => match DaysInMonth 10000 m with Err _ => true | _ => false end) 1 12); [vm_compute; reflexivity|lia]. }
    rewrite H in Q. discriminate.
  - rewrite DaysInMonth_ok in H by lia. injection H as <-. pose proof (month_len_range y m). lia.
Qed.
Lemma dec_three n : 0 <= n <= 999 -> dec_digits (three n) n.
Proof.
  intro H. apply dec_digits_iff. split; [discriminate|]. unfold three. cbn [dec_val]. rewrite !is_digit_char, !digit_val_char by lia. f_equal. lia.
Qed.
Lemma dec_four n : 0 <= n <= 9999 -> dec_digits (four n) n.
Proof. intro H. apply dec_digits_iff. split; [discriminate|apply dec_val_four; exact H]. Qed.
Lemma fmt_integer y : -9999 <= y <= 10000 -> integer_text (fmt_0d 4 y) y.
Proof.
  intro H. assert (C : 0 <= y <= 9999 \/ y = 10000 \/ -9999 <= y <= -1000 \/ -999 <= y <= -1) by lia.
  destruct C as [C|[->|[C|C]]].
  - rewrite fmt_four by exact C. constructor. apply dec_four. exact C.
  - constructor. apply dec_digits_iff. split; [discriminate|reflexivity].
  - rewrite fmt_year by (right; lia). unfold year_text. replace (y <? 0) with true by lia. replace y with (- - y) at 2 by lia. apply it_minus. apply dec_four. lia.
  - replace y with (- - y) by lia. rewrite fmt_three by lia. apply it_minus. apply dec_three. lia.
Qed.
Lemma integer_noslash x z : integer_text x z -> ~ In "/"%char x.
Proof.
  assert (D : forall t v, dec_digits t v -> ~ In "/"%char t) by (intros t v H; apply digits_no; [exact (digits_text_dec _ _ H)|reflexivity]).
  intros [t v H|t v H|t v H] Hi; [exact (D _ _ H Hi)| |]; (destruct Hi as [Hi|Hi]; [discriminate|exact (D _ _ H Hi)]).
Qed.
Lemma md_noslash md : month_day md -> ~ In "/"%char md.
Proof.
  assert (T : forall n, 1 <= n <= 31 -> ~ In "/"%char (two n)) by (intros n Hn Hi; apply in_two in Hi; [discriminate Hi|lia]).
  intros [m Hm|m d Hm Hd] Hi; (destruct Hi as [Hi|Hi]; [discriminate|]); [exact (T m ltac:(lia) Hi)|].
  apply in_app_or in Hi. destruct Hi as [Hi|[Hi|Hi]]; [exact (T m ltac:(lia) Hi)|discriminate|exact (T d ltac:(lia) Hi)].
Qed.
(** A pair of dates, each in the year of [s] or the next. *)
Lemma dr_years s t y r x z md x' z' md' : year4 t y -> s = t ++ r \/ s = r ++ t -> z = y \/ z = y + 1 -> z' = y \/ z' = y + 1 ->
  integer_text x z -> integer_text x' z' -> month_day md -> month_day md' -> dr s (DateSpanFromEDTF ((x ++ md) ++ "/"%char :: x' ++ md')).
Proof.
  intros Hy Hs Hz Hz' Hx Hx' Hm Hm'. eapply cr_imp; [|apply cr_pair].
  - intros q ([->| ->] & _); [exact (dv_year s t y r z x md Hy Hs Hz Hx Hm)|exact (dv_year s t y r z' x' md' Hy Hs Hz' Hx' Hm')].
  - intro Hi. apply in_app_or in Hi. destruct Hi as [Hi|Hi]; [exact (integer_noslash _ _ Hx Hi)|exact (md_noslash _ Hm Hi)].
  - intro Hi. apply in_app_or in Hi. destruct Hi as [Hi|Hi]; [exact (integer_noslash _ _ Hx' Hi)|exact (md_noslash _ Hm' Hi)].
Qed.
Lemma dr_season s : dr s (ParseSeason s).
Proof.
  unfold ParseSeason. destruct (find_submatch Season s) as [|m0 m] eqn:E; [own|]. assert (Hm : find_submatch Season s <> []) by (rewrite E; discriminate).
  rewrite <- E. clear E m0 m. cbv zeta. apply cr_if; intros _; [own|].
  assert (G : forall t y r a b c f, year4 t y -> s = t ++ r \/ s = r ++ t -> a = y /\ 1 <= b <= 12 /\ 1 <= f <= 12 /\ (c = y /\ b <= f \/ c = y + 1) ->
    dr s (let* end_dd := DaysInMonth c f in let* sp := DateSpanFromEDTF (season_text a b c f end_dd) in OK (edtf_of_span sp s LEVEL1 SEASON))).
  { intros t y r a b c f Hy Hs (-> & Hb & Hf & Hc). pose proof (year4_range _ _ Hy). apply cr_bind; [cr|]. intros dd Hdd. apply days_range in Hdd; [|lia|exact Hf].
    apply cr_bind; [|cr].
    replace (season_text y b c f dd) with ((fmt_0d 4 y ++ "-"%char :: two b ++ "-"%char :: two 1) ++ "/"%char :: fmt_0d 4 c ++ "-"%char :: two f ++ "-"%char :: two dd).
    - apply (dr_years s t y r _ y _ _ c); auto; try (apply fmt_integer; lia); try (constructor; lia). lia.
    - unfold season_text. rewrite !fmt_two by lia. change ($"-") with ["-"%char]. change ($"/") with ["/"%char]. repeat (progress (rewrite <- ?app_assoc; cbn [app])). reflexivity. }
  destruct (season_captured s Hm) as [(t & y & n & r & Hy & Hn & E1 & E2 & Es)|(n & r & Hn & E1 & E4 & Es)].
  - rewrite E1, E2. destruct (is_empty t) eqn:Et; [exfalso; destruct t; [exact (year4_ne _ _ Hy eq_refl)|discriminate]|].
    rewrite (atoi_year4 _ _ Hy), two_atoi by lia. cbn [bind]. destruct (season_code n y) as (((a & b) & c) & f) eqn:Ec.
    apply (G t y ("-"%char :: two n ++ r) a b c f Hy (or_introl Es)). exact (code_cases _ _ _ _ _ _ Ec Hn).
  - rewrite E1, E4. cbn [is_empty]. rewrite (four_atoi n Hn). cbn [bind]. destruct (season_word _ n) as [(((a & b) & c) & f)|] eqn:Ec; [|own].
    cbn [bind]. apply (G (four n) n r a b c f (four_year4 _ Hn) (or_intror Es)). exact (word_cases _ _ _ _ _ _ Ec).
Qed.
Lemma dr_grouping s : dr s (ParseSubYearGroupings s).
Proof.
  unfold ParseSubYearGroupings. destruct (match_string SubYearGrouping s) eqn:M.
  - apply Grouping_spec in M. destruct M as (u & v & Hu & (w & g & -> & (n & Hn & ->) & ->) & ->). 
    assert (U : exists y, 0 <= y <= 9999 /\ u = four y).
    { apply lg_d4. exact (proj2 (den_4 u) Hu). }
    destruct U as (y & Hy & ->). change (four y ++ $"-" ++ two n) with (code_text y n). rewrite (grouping_submatch y n Hy) by lia.
    cbn [length Nat.eqb negb]. cbv zeta. unfold sub. cbn [nth].
    destruct (Z.leb_spec 21 n) as [L|L].
    + destruct (full_table n ltac:(lia)) as (b & e & j & dd & -> & Hb & He & Hj & Hdd). specialize (Hdd y).
      assert (Hs : code_text y n = four y ++ ("-"%char :: two n)) by reflexivity.
      assert (N : negb (j =? 0) = true -> j = 1) by lia.
      destruct (negb (j =? 0)) eqn:Ej.
      * rewrite four_atoi by exact Hy. cbn [bind]. replace (j =? 0) with false in Hdd by lia. subst dd. cbn [is_empty].
        replace ((four y ++ $"-" ++ two b ++ $"-" ++ $"01") ++ $"/" ++ itoa (y + 1) ++ $"-" ++ two e) with
          ((four y ++ "-"%char :: two b ++ "-"%char :: two 1) ++ "/"%char :: itoa (y + 1) ++ "-"%char :: two e) by reflexivity.
        apply cr_bind; [|cr]. apply (dr_years _ (four y) y ("-"%char :: two n) _ y _ _ (y + 1)); auto using four_year4.
        -- constructor. apply dec_four. exact Hy.
        -- destruct (itoa_canonical (y + 1)) as [(_ & D & _)|(Q & _)]; [constructor; exact D|lia].
        -- constructor; lia.
        -- constructor; lia.
      * cbn [bind]. replace (j =? 0) with true in Hdd by lia. subst dd. cbn [is_empty two]. fold (two (month_len y e)). pose proof (month_len_range y e).
        replace ((four y ++ $"-" ++ two b ++ $"-" ++ $"01") ++ $"/" ++ (four y ++ $"-" ++ two e) ++ $"-" ++ two (month_len y e)) with
          ((four y ++ "-"%char :: two b ++ "-"%char :: two 1) ++ "/"%char :: four y ++ "-"%char :: two e ++ "-"%char :: two (month_len y e)) by reflexivity.
        apply cr_bind; [|cr]. apply (dr_years _ (four y) y ("-"%char :: two n) _ y _ _ y); auto using four_year4.
        -- constructor. apply dec_four. exact Hy.
        -- constructor. apply dec_four. exact Hy.
        -- constructor; lia.
        -- constructor; lia.
    + assert (grouping_bounds (two n) = None) as ->; [|own].
      assert (n = 10 \/ n = 11 \/ n = 12) as [->|[->| ->]] by lia; reflexivity.
  - destruct (find_submatch SubYearGrouping s) eqn:E; [own|]. exfalso. rewrite find_match in M; [discriminate|]. rewrite E. discriminate.
Qed.

(** *** Exponential years *)
Lemma cr_notation b : cr (eq b) (ParseExponentialNotation b).
Proof.
  unfold ParseExponentialNotation. destruct (exp_split b) as [((neg & ds) & es)|]; [|cr]. destruct (bf_scan _ _) as [v|]; [|cr].
  assert (G : forall y, cr (eq b) (if (MAX_YEARS <? y) || (y <? 0 - MAX_YEARS) then Err (Unsupported ($"exponential notation") b) else OK y)).
  { intro y. apply cr_if; intros _; [eapply cr_some; reflexivity|cr]. }
  destruct v; [apply G| |apply G]. cr.
Qed.
Lemma notation_le b y : ParseExponentialNotation b = OK y -> -9999 <= y <= 9999.
Proof.
  unfold ParseExponentialNotation. destruct (exp_split b) as [((neg & ds) & es)|]; [|discriminate]. destruct (bf_scan _ _) as [v|]; [|discriminate]. unfold MAX_YEARS.
  assert (G : forall z, (if (9999 <? z) || (z <? 0 - 9999) then Err (Unsupported ($"exponential notation") b) else OK z) = OK y -> -9999 <= y <= 9999).
  { intro z. destruct ((9999 <? z) || (z <? 0 - 9999)) eqn:E; [discriminate|]. intro Q. injection Q as <-. lia. }
  destruct v; try discriminate; apply G.
Qed.
Lemma integer_itoa y : integer_text (itoa y) y.
Proof.
  destruct (itoa_canonical y) as [(_ & D & _)|(_ & t & E & D & _)]; [constructor; exact D|]. rewrite E. replace y with (- - y) by lia. apply it_minus. exact D.
Qed.
Lemma notation_exact t m e y : exp_text t m e -> ParseExponentialNotation t = OK y -> Z.abs (m * 10 ^ e) < 2 ^ 63 -> y = m * 10 ^ e.
Proof.
  intros [neg ds c es m0 e0 Hd Hc He] H L. rewrite signed_abs in L by exact (dec_nonneg _ _ Hd).
  rewrite (notation_value neg ds c es m0 e0 Hd Hc He L) in H. rewrite signed_value. unfold exp_value.
  destruct (m0 =? 0) eqn:E0; [assert (m0 = 0) by lia; subst; destruct (max_int64 <? e0); [discriminate|injection H as <-; lia]|].
  destruct (9999 <? m0 * 10 ^ e0); [discriminate|]. injection H as <-. reflexivity.
Qed.
Lemma dr_exponential s : dr s (ParseExponentialYear s).
Proof.
  unfold ParseExponentialYear. destruct (match_string ExponentialYear s) eqn:M; [|own]. cbn [negb].
  apply Exponential_spec in M. destruct M as (u & b & Hu & Hb & ->).
  assert (U : exists c, (c = "Y"%char \/ c = "y"%char) /\ u = [c]) by (destruct Hu as [->| ->]; [exists "Y"%char|exists "y"%char]; auto). destruct U as (c & Hc & ->).
  change ([c] ++ b) with (c :: b). rewrite (exp_submatch c b Hc Hb). cbn [length Nat.eqb negb]. unfold sub. cbn [nth].
  apply cr_bind.
  - eapply cr_imp; [|apply cr_notation]. intros t <-. apply dv_part. exists [c], []. rewrite app_nil_r. reflexivity.
  - intros y Hy. apply cr_bind; [|cr]. apply exp_text_form in Hb. destruct Hb as (m & e & Ht).
    eapply cr_imp; [|apply cr_single; apply (integer_noslash _ y); apply integer_itoa]. intros t <-.
    destruct (Z.ltb_spec (Z.abs (m * 10 ^ e)) (2 ^ 63)) as [L|L].
    + apply (dv_exponential _ c b m e); [reflexivity|exact Ht|]. rewrite <- (notation_exact b m e y Ht Hy L). apply itoa_canonical.
    + apply (dv_overflow _ c b [] m e _ y); [rewrite app_nil_r; reflexivity|exact Ht|right; exact L|apply integer_itoa].
Qed.

(** *** Significant digits *)
Lemma dec_app a b v w : dec_val 0 a = Some v -> digit_str b -> dec_val 0 b = Some w -> dec_val 0 (a ++ b) = Some (v * 10 ^ Z.of_nat (length b) + w).
Proof.
  intros Ha Db Hb. rewrite dec_val_app, Ha. clear Ha.
  assert (G : forall b acc acc' w, dec_val acc b = Some w -> dec_val (acc + acc') b = Some (acc' * 10 ^ Z.of_nat (length b) + w)).
  { clear. induction b as [|c b IH]; intros acc acc' w H; cbn [dec_val length] in *.
    - injection H as <-. f_equal. change (10 ^ Z.of_nat 0) with 1. lia.
    - destruct (is_digit c); [|discriminate]. replace ((acc + acc') * 10 + digit_val c) with (acc * 10 + digit_val c + acc' * 10) by lia.
      rewrite (IH _ _ _ H). f_equal. rewrite Nat2Z.inj_succ, Z.pow_succ_r by lia. lia. }
  rewrite <- (G b 0 v w Hb). reflexivity.
Qed.
Lemma rep_val (c : ascii) k n : (c = "0"%char /\ k = 0) \/ (c = "9"%char /\ k = 1) -> dec_val 0 (repeat_str [c] n) = Some (k * (10 ^ Z.of_nat n - 1)).
Proof.
  intro H. induction n as [|n IH]; [cbn; f_equal; lia|].
  assert (E : repeat_str [c] (S n) = [c] ++ repeat_str [c] n) by reflexivity. rewrite E.
  assert (D : is_digit c = true) by (destruct H as [(-> & _)|(-> & _)]; reflexivity).
  destruct (rep_digits c n D) as (F & L).
  rewrite (dec_app [c] _ (9 * k) _ ltac:(destruct H as [(-> & ->)|(-> & ->)]; reflexivity) F IH). f_equal. rewrite L.
  rewrite Nat2Z.inj_succ, Z.pow_succ_r by lia. lia.
Qed.
(** The first digits of a number, then [n] zeros or nines. *)
Lemma replaced ds v n c k : dec_digits ds v -> (n <= length ds)%nat -> (c = "0"%char /\ k = 0) \/ (c = "9"%char /\ k = 1) ->
  exists w, dec_digits (firstn (length ds - n) ds ++ repeat_str [c] n) w /\ w / 10 ^ Z.of_nat n = v / 10 ^ Z.of_nat n.
Proof.
  intros Hd Hn Hc. pose proof (digits_text_dec _ _ Hd) as (Ne & F). apply dec_digits_iff in Hd. destruct Hd as (_ & Hv).
  set (p := firstn (length ds - n) ds). set (q := skipn (length ds - n) ds). assert (E : ds = p ++ q) by (symmetry; apply firstn_skipn).
  assert (Lq : length q = n) by (unfold q; rewrite skipn_length; lia).
  assert (Fp : digit_str p /\ digit_str q) by (unfold digit_str in *; rewrite E in F; apply Forall_app in F; exact F). destruct Fp as (Fp & Fq).
  destruct (proj2 (dec_val_digits p 0) Fp) as (a & Ha). destruct (proj2 (dec_val_digits q 0) Fq) as (b & Hb).
  pose proof (dec_app p q a b Ha Fq Hb) as Q. rewrite <- E, Hv, Lq in Q. injection Q as Q.
  assert (D : is_digit c = true) by (destruct Hc as [(-> & _)|(-> & _)]; reflexivity). destruct (rep_digits c n D) as (Fr & Lr).
  pose proof (dec_app p _ a _ Ha Fr (rep_val c k n Hc)) as R. rewrite Lr in R.
  eexists. split; [apply dec_digits_iff; split; [|exact R]|].
  - intro Z. apply app_eq_nil in Z. destruct Z as (Z1 & Z2). rewrite Z2 in Lr. cbn in Lr. rewrite <- Lr in Lq. apply length_zero_iff_nil in Lq. apply Ne. rewrite E, Z1, Lq. reflexivity.
  - pose proof (Z.pow_pos_nonneg 10 (Z.of_nat n) ltac:(lia) ltac:(lia)) as P. pose proof (dec_val_bound q 0 b ltac:(lia) Hb) as B. rewrite Lq in B.
    pose proof (dec_val_nonneg q 0 b ltac:(lia) Hb). rewrite Q.
    rewrite !Z.div_add_l by lia. rewrite !Z.div_small; [lia|nia|]. destruct Hc as [(_ & ->)|(_ & ->)]; lia.
Qed.
Lemma sig_half_text y n c k : 0 <= n -> n <= slen (itoa y) -> (c = "0"%char /\ k = 0) \/ (c = "9"%char /\ k = 1) ->
  exists z, integer_text (firstn (length (itoa y) - Z.to_nat n) (itoa y) ++ repeat_str [c] (Z.to_nat n)) z /\ Z.abs z / 10 ^ n = Z.abs y / 10 ^ n.
Proof.
  intros Hn Hl Hc. unfold slen in Hl.
  destruct (itoa_canonical y) as [(H0 & D & _)|(H0 & t & E & D & _)].
  - destruct (replaced _ _ (Z.to_nat n) c k D ltac:(lia) Hc) as (w & Hw & Q). exists w. rewrite Z2Nat.id in Q by lia. split; [constructor; exact Hw|].
    pose proof (dec_nonneg _ _ Hw). rewrite !Z.abs_eq by lia. exact Q.
  - rewrite E in *. cbn [length] in *. destruct (Z.leb_spec n (Z.of_nat (length t))) as [L|L].
    + replace (S (length t) - Z.to_nat n)%nat with (S (length t - Z.to_nat n)) by lia. cbn [firstn app].
      destruct (replaced _ _ (Z.to_nat n) c k D ltac:(lia) Hc) as (w & Hw & Q). exists (- w). rewrite Z2Nat.id in Q by lia. split; [apply it_minus; exact Hw|].
      pose proof (dec_nonneg _ _ Hw). rewrite Z.abs_opp, (Z.abs_eq w), (Z.abs_neq y) by lia. exact Q.
    + assert (En : n = Z.of_nat (S (length t))) by lia. rewrite En, Nat2Z.id. replace (S (length t) - S (length t))%nat with 0%nat by lia. cbn [firstn app].
      assert (Dc : is_digit c = true) by (destruct Hc as [(-> & _)|(-> & _)]; reflexivity). destruct (rep_digits c (S (length t)) Dc) as (Fr & Lr).
      exists (k * (10 ^ Z.of_nat (S (length t)) - 1)). split; [constructor; apply dec_digits_iff; split; [discriminate|apply rep_val; exact Hc]|].
      pose proof (Z.pow_pos_nonneg 10 (Z.of_nat (S (length t))) ltac:(lia) ltac:(lia)) as P.
      apply dec_digits_iff in D. destruct D as (_ & D). apply dec_val_bound in D; [|lia].
      assert (PP : 10 ^ Z.of_nat (S (length t)) = 10 * 10 ^ Z.of_nat (length t)) by (rewrite Nat2Z.inj_succ, Z.pow_succ_r by lia; reflexivity).
      rewrite !Z.div_small; [reflexivity| |]; destruct Hc as [(_ & ->)|(_ & ->)]; lia.
Qed.
Lemma cr_or_invalid {A} (x : res A) f s : dr s (or_invalid x f s).
Proof. destruct x; cbn; [cr|own|cr]. Qed.
Lemma dr_rest s nd n y : dec_digits nd n ->
  (forall x z, integer_text x z -> Z.abs z / 10 ^ n = Z.abs y / 10 ^ n -> derived s x) -> dr s (sig_rest s y nd).
Proof.
  intros Hn H. unfold sig_rest. apply cr_if; intros _; [own|]. apply cr_bind; [apply cr_or_invalid|]. intros k Hk.
  apply or_invalid_OK in Hk. rewrite (atoi_dec _ _ Hn) in Hk. destruct (n <=? max_int64); [|discriminate]. injection Hk as <-.
  apply cr_if; intros _; [own|]. apply cr_if; intro Q; [cr|]. apply cr_bind; [|cr].
  destruct (sig_half_text y n "0"%char 0 ltac:(lia) ltac:(lia) ltac:(auto)) as (z & Hz & Qz).
  destruct (sig_half_text y n "9"%char 1 ltac:(lia) ltac:(lia) ltac:(auto)) as (z' & Hz' & Qz').
  unfold significant_text. cbv zeta. change ($"0") with ["0"%char]. change ($"9") with ["9"%char].
  set (a := _ ++ repeat_str ["0"%char] _) in *. set (b := _ ++ repeat_str ["9"%char] _) in *.
  change ($"/" ++ a) with ("/"%char :: a). change ($"/" ++ b) with ("/"%char :: b).
  destruct (has_prefix a _ && has_prefix b _); (eapply cr_imp; [|apply cr_pair; eapply integer_noslash; eassumption]); intros q ([->| ->] & _); eauto.
Qed.
Lemma dr_significant s : match_string SignificantDigits s = true -> dr s (ParseSignificantDigits s).
Proof.
  intro M. apply Significant_spec in M. rewrite <- (to_significant s M). destruct (sig_forms s M) as (u & l & nd & Hu & Hn & ->).
  assert (N : exists n, dec_digits nd n).
  { destruct Hn as (Ne & F). destruct (proj2 (dec_val_digits nd 0) F) as (n & Hv). exists n. apply dec_digits_iff. auto. }
  destruct N as (n & Hd).
  assert (B : forall y, before_s u y -> dr (u ++ "S"%char :: nd) (ParseString (u ++ "S"%char :: nd))).
  { intros y Hy. rewrite (before_parse u y nd n Hy Hd). apply (dr_rest _ nd n y Hd). intros x z Hx Hz.
    exact (dv_significant _ u y nd n x z eq_refl Hy Hd Hx Hz). }
  rewrite (sig_parse _ _ _ Hu Hn) in *. cbv zeta in *. destruct Hu as [t y Hy|b Hb|c b Hc Hb].
  - apply (B y). constructor. exact Hy.
  - replace (is_empty b) with false in * by (destruct Hb as (u & v & [->| ->] & (Nv & _) & ->); [destruct v; [contradiction|reflexivity]|reflexivity]).
    cbn [is_empty negb] in *. destruct (4 <? slen b) eqn:L; [cbn [bind]; own|].
    destruct Hb as (sg & ds & Hs & (Nd & Fd) & ->). destruct (proj2 (dec_val_digits ds 0) Fd) as (m & Hv).
    assert (S : exists neg, sg = sign neg) by (destruct Hs as [->| ->]; [exists false|exists true]; reflexivity). destruct S as (neg & ->).
    apply (B (signed neg m)). apply sy_letter; [apply dec_digits_iff; auto|]. unfold slen in L. lia.
  - replace (is_empty b) with false in * by (destruct Hb as (u & v & [->| ->] & (w & x & (Nw & _) & _ & ->) & ->); [destruct w; [contradiction|reflexivity]|reflexivity]).
    cbn [is_empty negb] in *. pose proof (proj2 (exp_text_form b) Hb) as (m & e & Ht).
    destruct (Z.eq_dec m 0) as [E0|N0]; [|destruct (Z.ltb_spec (Z.abs (m * 10 ^ e)) (2 ^ 63)) as [L|L]].
    3: { apply cr_bind; [eapply cr_imp; [|apply cr_notation]; intros t <-; apply dv_part; exists [c], ("S"%char :: nd); reflexivity|]. intros y _.
      apply (dr_rest _ nd n y Hd). intros x z Hx _. apply (dv_overflow _ c b ("S"%char :: nd) m e x z); auto. }
    { apply cr_bind; [eapply cr_imp; [|apply cr_notation]; intros t <-; apply dv_part; exists [c], ("S"%char :: nd); reflexivity|]. intros y _.
      apply (dr_rest _ nd n y Hd). intros x z Hx _. apply (dv_overflow _ c b ("S"%char :: nd) m e x z); auto. }
    apply cr_bind; [eapply cr_imp; [|apply cr_notation]; intros t <-; apply dv_part; exists [c], ("S"%char :: nd); reflexivity|]. intros y Hy.
    pose proof (notation_exact b m e y Ht Hy L) as Ey. pose proof (notation_le b y Hy).
    apply (dr_rest _ nd n y Hd). intros x z Hx Hz. rewrite Ey in Hz. apply (dv_significant _ (c :: b) (m * 10 ^ e) nd n x z); auto.
    apply sy_exp; auto. lia.
Qed.

(** *** Sets *)
Lemma joined_occurs sep p l : In p l -> occurs p (joined sep l).
Proof.
  induction l as [|x l IH]; [intros []|]. intros [->|H].
  - destruct l as [|y l]; [apply occurs_self|]. exists [], (sep ++ joined sep (y :: l)). reflexivity.
  - destruct l as [|y l]; [destruct H|]. apply (occurs_trans _ (joined sep (y :: l))); [exact (IH H)|].
    exists (x ++ sep), []. rewrite app_nil_r, <- app_assoc. reflexivity.
Qed.
Lemma split_occurs s sep p : sep <> [] -> In p (split s sep) -> occurs p s.
Proof. intros Hs H. rewrite <- (split_joined s sep Hs). apply joined_occurs. exact H. Qed.
Lemma members_occur s l : forall ps so eo, set_members s l = OK (ps, so, eo) -> forall q, In q ps -> exists p, In p l /\ occurs q p.
Proof.
  assert (D : $".." <> []) by discriminate.
  induction l as [|d l IH]; intros ps so eo H q Hq; cbn [set_members] in H; [injection H as <- _ _; destruct Hq|].
  apply bind_OK in H. destruct H as (((h & so1) & eo1) & H1 & H). apply bind_OK in H. destruct H as (((l2 & so2) & eo2) & H2 & H).
  injection H as <- _ _. apply in_app_or in Hq. destruct Hq as [Hq|Hq].
  - exists d. split; [left; reflexivity|]. assert (G : In q (split d ($"..")) \/ q = d).
    { destruct (split d ($"..")) as [|a [|b [|c r]]]; try discriminate.
      - injection H1 as <- _ _. destruct Hq as [<-|[]]. right. reflexivity.
      - left. destruct (is_empty a) eqn:Ea, (is_empty b) eqn:Eb; cbn in H1; injection H1 as <- _ _; cbn in Hq; cbn; tauto. }
    destruct G as [G| ->]; [exact (split_occurs _ _ _ D G)|apply occurs_self].
  - destruct (IH _ _ _ H2 q Hq) as (p & Hp & Ho). exists p. split; [right; exact Hp|exact Ho].
Qed.
Lemma dr_members s l : dr s (set_members s l).
Proof.
  induction l as [|d l IH]; cbn [set_members]; [cr|]. apply cr_bind.
  - destruct (split d ($"..")) as [|a [|b [|]]]; try own; repeat (apply cr_if; intros _); cr.
  - intros ((h & so) & eo) _. apply cr_bind; [exact IH|]. intros ((l' & so') & eo') _. cr.
Qed.
Lemma dr_set s : dr s (ParseSetRepresentations s).
Proof.
  unfold ParseSetRepresentations. cbv zeta. apply cr_if; intro E6; [own|]. apply negb_false_iff, Nat.eqb_eq in E6.
  destruct (set_submatch _ E6) as (o & body & Hset & E1 & E2). rewrite E1, E2.
  apply cr_bind; [apply cr_if; intros _; [cr|]; apply cr_if; intros _; [cr|own]|]. intros i _.
  apply cr_bind; [apply dr_members|]. intros ((ps & so) & eo) Hm. destruct (sort_strs ps) as [|hd tl] eqn:Es; [own|].
  apply cr_bind; [|cr].
  assert (L : last (hd :: tl) hd = last tl hd) by (destruct tl; reflexivity). rewrite L.
  destruct (sort_hd_last _ _ _ Es) as (I1 & I2).
  assert (Ob : occurs body s) by (inversion Hset as [o' b' c Ho Hb Hc]; subst; exists [o], [c]; reflexivity).
  assert (Oc : forall q, In q ps -> occurs q s /\ ~ In "/"%char q).
  { intros q Hq. destruct (members_occur _ _ _ _ _ Hm q Hq) as (p & Hp & Hqp).
    assert (Q : occurs q body) by (apply (occurs_trans _ p); [exact Hqp|]; apply (split_occurs body ($",")); [discriminate|exact Hp]).
    split; [exact (occurs_trans _ _ _ Q Ob)|]. intro Hi.
    assert (Hb : ~ In "/"%char body) by (inversion Hset; subst; apply body_no_slash; assumption).
    apply Hb. destruct Q as (a & b & ->). apply in_or_app. right. apply in_or_app. left. exact Hi. }
  destruct (Oc _ I1) as (O1 & N1). destruct (Oc _ I2) as (O2 & N2).
  assert (Nd : ~ In "/"%char ($"..")) by (intros [Q|[Q|[]]]; discriminate).
  assert (P : forall a b, ~ In "/"%char a -> ~ In "/"%char b -> occurs a s \/ a = $".." -> occurs b s \/ b = $".." -> dr s (DateSpanFromEDTF (a ++ $"/" ++ b))).
  { intros a b Na Nb Ha Hb. change ($"/" ++ b) with ("/"%char :: b). eapply cr_imp; [|exact (cr_pair a b Na Nb)].
    intros x ([->| ->] & Nx); apply dv_part; tauto. }
  destruct ((so || eo) && _).
  - apply P; auto.
  - destruct so; [apply (P ($"..") hd); auto|]. destruct eo; [apply (P hd ($"..")); auto|].
    destruct (negb (seqb hd _)); [apply P; auto|]. eapply cr_imp; [|apply cr_single; exact N1]. intros x <-. apply dv_part. exact O1.
Qed.

(** ** ParseString *)
Theorem named_derived s e x : ParseString s = Err e -> named e = Some x -> derived s x.
Proof.
  revert e x. change (dr s (ParseString s)). unfold ParseString.
  apply cr_if; intros _.
  { unfold L0_ParseString. apply cr_if; intros _; [apply dr_plain|]. apply cr_if; intros _; [apply dr_datetime|]. apply cr_if; intros _; [apply dr_plain|own]. }
  apply cr_if; intros _.
  { unfold L1_ParseString. apply cr_if; intros _; [apply dr_letter|]. apply cr_if; intros _; [apply dr_season|]. apply cr_if; intros _; [apply dr_plain|].
    apply cr_if; intros _; [apply dr_plain|]. apply cr_if; intros _; [apply dr_plain|]. apply cr_if; intros _; [|own].
    unfold ParseExtendedInterval. apply cr_if; intros _; [apply dr_plain|]. apply cr_if; intros _; [apply dr_plain|own]. }
  apply cr_if; intros _.
  { unfold L2_ParseString. apply cr_if; intros _; [apply dr_exponential|]. apply cr_if; intro Hs; [apply dr_significant; exact Hs|].
    apply cr_if; intros _; [apply dr_grouping|]. apply cr_if; intros _; [apply dr_set|].
    do 4 (apply cr_if; intros _; [apply dr_plain|]). own. }
  apply cr_if; intros _; [cr|]. apply cr_if; intros _; [cr|own].
Qed.

(** ** Years from an X *)
Lemma x_month_core t : x_month t -> core_in month_shapes t.
Proof.
  intros (n & a & b & Hn & -> & Ha & Hb). apply month_core. exists a, b. split; [reflexivity|].
  assert (Dg : forall k, 0 <= k <= 9 -> is_digit (digit_char k) = true /\ digit_val (digit_char k) = k) by (intros k Hk; split; [apply is_digit_char|apply digit_val_char]; exact Hk).
  assert (C : n / 10 = 0 /\ 1 <= n mod 10 <= 9 \/ n / 10 = 1 /\ 0 <= n mod 10 <= 2) by lia. destruct C as [(C1 & C2)|(C1 & C2)]; rewrite C1 in Ha; [left|right];
  (split; [destruct Ha as [->| ->]; auto|]); (destruct Hb as [->| ->]; [right|left; reflexivity]); destruct (Dg (n mod 10) ltac:(lia)) as (-> & ->); (split; [reflexivity|lia]).
Qed.
Lemma x_day_core t : x_day t -> core_in day_shapes t.
Proof.
  intros (n & a & b & (Hn & _) & -> & Ha & Hb). apply day_core. exists a, b. split; [reflexivity|].
  assert (Dg : forall k, 0 <= k <= 9 -> is_digit (digit_char k) = true /\ digit_val (digit_char k) = k) by (intros k Hk; split; [apply is_digit_char|apply digit_val_char]; exact Hk).
  destruct (Z.leb_spec n 29) as [L|L]; [left|right].
  - split; [destruct Ha as [->| ->]; [right; destruct (Dg (n / 10) ltac:(lia)) as (-> & ->); split; [reflexivity|lia]|left; reflexivity]|].
    destruct Hb as [->| ->]; [apply dx_digit; lia|reflexivity].
  - replace (n / 10) with 3 in Ha by lia. split; [destruct Ha as [->| ->]; auto|]. destruct Hb as [->| ->]; [right|left; reflexivity].
    destruct (Dg (n mod 10) ltac:(lia)) as (-> & ->). split; [reflexivity|lia].
Qed.
Theorem leading_x s b c r : unspecified_digits s -> s = "X"%char :: b :: c :: "X"%char :: r -> ParseString s = Err (NotImplemented ($"date") s).
Proof.
  intros Hu Es. assert (HX : In "X"%char s) by (rewrite Es; left; reflexivity).
  assert (HS : ~ season_head s).
  { intros (t & y & n & q & Hy & _ & E). rewrite Es in E. assert (Hi : In "X"%char t).
    { destruct Hy as [k Hk|k Hk]; [unfold four in E|]; cbn [app] in E; injection E as -> _; left; reflexivity. }
    destruct (year4_bytes _ _ _ Hy Hi) as [Q|Q]; discriminate Q. }
  rewrite to_unspecified by assumption.
  assert (G : exists yt mt dt, ymd_text s yt mt dt /\ core_in year_shapes yt /\ (mt = [] \/ core_in month_shapes mt) /\ (dt = [] \/ core_in day_shapes dt) /\ yt = ["X"%char; b; c; "X"%char]).
  { assert (F : forall t, four_x t -> core_in year_shapes t /\ forall u, t ++ u = s -> t = ["X"%char; b; c; "X"%char]).
    { intros t (Hl & Hf). destruct t as [|c1 [|c2 [|c3 [|c4 [|]]]]]; try discriminate Hl.
      rewrite !Forall_cons_iff in Hf. destruct Hf as (F1 & F2 & F3 & F4 & _).
      split; [apply year_core; exists c1, c2, c3, c4; split; [auto|]; repeat split; apply digits_x; assumption|].
      intros u Eu. rewrite Es in Eu. cbn [app] in Eu. injection Eu as -> -> -> -> _. reflexivity. }
    assert (Nm : forall P t, x_number P t -> t <> []) by (intros P t (n & p & q & _ & -> & _); discriminate).
    destruct Hu as [y Hy|y m Hy Hm|y m d Hy Hm Hd].
    - destruct (F _ Hy) as (F1 & F2). exists y, [], []. split; [constructor|]. split; [exact F1|]. split; [auto|]. split; [auto|]. apply (F2 []). apply app_nil_r.
    - destruct (F _ Hy) as (F1 & F2). exists y, m, []. split; [constructor; exact (Nm _ _ Hm)|]. split; [exact F1|]. split; [right; exact (x_month_core _ Hm)|]. split; [auto|]. exact (F2 _ eq_refl).
    - destruct (F _ Hy) as (F1 & F2). exists y, m, d. split; [constructor; [exact (Nm _ _ Hm)|exact (Nm _ _ Hd)]|]. split; [exact F1|].
      split; [right; exact (x_month_core _ Hm)|]. split; [right; exact (x_day_core _ Hd)|]. exact (F2 _ eq_refl). }
  destruct G as (yt & mt & dt & Ht & Hy & Hm & Hd & Ey).
  unfold dateSpanFromYMD. rewrite (string_range s yt yt None mt mt None dt dt None Ht) by (constructor; auto; constructor).
  unfold sr_tail. destruct (qualifier_flags None None None). rewrite Ey. reflexivity.
Qed.
