(** Level 1: open ends, qualified dates, seasons, unspecified digits and letter
    prefixed years. *)
From Coq Require Import Ascii String ZArith NArith Bool Lia ZifyBool List.
From Verif Require Import GoStr GoTime Regex Patterns RegexSym RegexRel RegexGen SpecCal SpecText SpecGrammar SpecForms SpecSpan StrFacts TextFacts Edtf Calendar Common Level0 Level1 Level2 Parser CalFacts ApiFacts SpanFacts YmdShapes YmdFacts InvFacts GrammarFacts LangFacts LangNorm LangForms LangForms2 DateFacts ParseFacts Level0Facts FormFacts SeasonFacts.
Import ListNotations.
Open Scope Z_scope.
Ltac Zify.zify_post_hook ::= Z.div_mod_to_equations.

Lemma letter_first s : letter_year s -> In "Y"%char s.
Proof. intros (u & v & Hu & _ & ->). unfold is in Hu. subst u. left. reflexivity. Qed.
Lemma letter_false s : ~ In "Y"%char s -> match_string LetterPrefixedCalendarYear s = false.
Proof. intro N. destruct (match_string LetterPrefixedCalendarYear s) eqn:E; [|reflexivity]. exfalso. apply N. apply letter_first. apply LetterYear_spec. exact E. Qed.
(** ** Season strings *)
Lemma to_season s : IsLevel0 s = false -> IsLevel1 s = true -> ~ In "Y"%char s -> match_string Season s = true -> ParseString s = ParseSeason s.
Proof.
  intros H0 H1 HY HS. unfold ParseString. rewrite H0, H1. unfold L1_ParseString, IsLetterPrefixedCalendarYear, IsSeason.
  rewrite (letter_false _ HY), HS. reflexivity.
Qed.
Lemma season_head_match s : season_head s -> match_string Season s = true.
Proof. intro H. apply Season_spec. left. apply season_head_iff. exact H. Qed.
Lemma in_two c n : In c (two n) -> 0 <= n <= 99 -> is_digit c = true.
Proof. intros [<-|[<-|[]]] H; apply is_digit_char; lia. Qed.
Lemma two_inj n k : 0 <= n <= 99 -> 0 <= k <= 99 -> two n = two k -> n = k.
Proof. intros Hn Hk E. assert (X : OK n = OK k) by (rewrite <- !atoi_two, E by lia; reflexivity). injection X as X. exact X. Qed.
Lemma season_not_level0 t y n : year4 t y -> 21 <= n <= 99 -> IsLevel0 (t ++ "-"%char :: two n) = false.
Proof.
  intros Hy Hn. unfold IsLevel0. destruct (match_string Level0_re _) eqn:E; [|reflexivity]. exfalso.
  assert (B : forall c, In c (t ++ "-"%char :: two n) -> is_digit c = true \/ c = "-"%char).
  { intros c Hc. apply in_app_or in Hc. destruct Hc as [Hc|[<-|Hc]]; [exact (year4_bytes _ _ _ Hy Hc)|auto|left; apply (in_two _ n); [exact Hc|lia]]. }
  apply Level0_spec in E. destruct E as [E|[E|E]].
  - apply IsDate_spec in E. destruct E as (y' & m & d & E). inversion E as [t' y0 r m0 d0 Hy' Hr Es]; subst.
    destruct (year_prefix _ _ _ _ _ _ Hy' Hy Es) as (-> & ->). change ("-"%char :: two n) with ("-"%char :: [digit_char (n / 10); digit_char (n mod 10)]) in Hr.
    inversion Hr as [|k Hk Q|k j Hk Hj Q]; subst.
    + assert (k = n) by (apply two_inj; [lia|lia|unfold two; congruence]). lia.
  - apply DateAndTime_spec in E. destruct E as [u h m sc z _ _ _ _ _]. destruct (B "T"%char) as [Q|Q]; [apply in_or_app; right; left; reflexivity|discriminate Q|discriminate Q].
  - apply TimeInterval_spec in E. destruct E as (a & b & _ & _ & E). destruct (B "/"%char) as [Q|Q]; [rewrite E; apply in_or_app; right; left; reflexivity|discriminate Q|discriminate Q].
Qed.
Lemma code_no_Y t y r : year4 t y -> (forall c, In c r -> c <> "Y"%char) -> ~ In "Y"%char (t ++ r).
Proof. intros Hy Hr H. apply in_app_or in H. destruct H as [H|H]; [destruct (year4_bytes _ _ _ Hy H) as [Q|Q]; discriminate Q|exact (Hr _ H eq_refl)]. Qed.
Lemma season_date_intro t y n : year4 t y -> 1 <= n <= 12 \/ 21 <= n <= 24 -> season_date (t ++ "-"%char :: two n).
Proof. intros Hy Hn. exists t, ("-"%char :: two n). split; [exists y; exact Hy|]. split; [|reflexivity]. exists ["-"%char], (two n). repeat split. exists n. auto. Qed.
Theorem season_code_string n w b e j y : season_of n w b e j -> rendered y -> rendered (y + j) ->
  exists d, ParseString (year_text y ++ $"-" ++ two n) = OK d /\ e_level d = 1 /\ e_feature d = $"Seasons" /\ months d y b (y + j) e.
Proof.
  intros Hn Ry Rj. assert (N : 21 <= n <= 24) by (destruct Hn; lia). pose proof (year4_text y (rendered_range _ Ry)) as Hy.
  change ($"-" ++ two n) with ("-"%char :: two n). rewrite to_season.
  - destruct (season_code_parses (year_text y) y n [] y b (y + j) e) as (d & H); auto.
    + destruct Hn; cbn; rewrite ?Z.add_0_r; reflexivity.
    + rewrite app_nil_r in H. eauto.
  - apply (season_not_level0 _ y n Hy). lia.
  - apply Level1_spec. right. left. apply (season_date_intro _ y); auto.
  - apply (code_no_Y _ y); [exact Hy|]. intros c [<-|Hc]; [discriminate|]. intros ->. apply in_two in Hc; [discriminate|lia].
  - apply season_head_match. exists (year_text y), y, n, []. rewrite app_nil_r. auto.
Qed.
Theorem season_words_string n w v sp sp' y b e j : season_of n w b e j -> any_case w v -> spaces sp -> spaces sp' -> 0 <= y <= 9999 -> y + j <= 9999 ->
  exists d, ParseString (v ++ sp ++ $"," ++ sp' ++ four y) = OK d /\ e_level d = 1 /\ e_feature d = $"Seasons" /\ months d y b (y + j) e.
Proof.
  intros Hn Hv Hs Hs' Hy Hj. change (v ++ sp ++ $"," ++ sp' ++ four y) with (words_text v sp sp' y).
  assert (Hw : season_name v) by (unfold season_name; destruct Hn; auto).
  assert (Hx : season_words (words_text v sp sp' y)) by (apply words_intro; assumption).
  pose proof (words_comma _ Hx) as C.
  assert (Y : match_string LetterPrefixedCalendarYear (words_text v sp sp' y) = false) by (no_byte ","%char; exact C).
  assert (P : ParseString (words_text v sp sp' y) = ParseSeason (words_text v sp sp' y)).
  { unfold ParseString, IsLevel1. rewrite (not_level0 _ ","%char eq_refl C). rewrite (proj2 (Level1_spec _)) by auto.
    unfold L1_ParseString, IsLetterPrefixedCalendarYear, IsSeason. rewrite Y. rewrite (proj2 (Season_spec _)); [reflexivity|].
    right. exists [], (words_text v sp sp' y). repeat split. exact Hx. }
  rewrite P. exact (season_words_parses n w v sp sp' y b e j Hn Hv Hs Hs' Hy Hj).
Qed.

(** ** Open and unknown ends *)
Lemma end_form a b : is_level0_date a -> b = [] \/ b = $".." -> extended_end (a ++ "/"%char :: b).
Proof.
  intros Ha Hb. exists a, ("/"%char :: b). split; [exact Ha|]. split; [|reflexivity]. exists ["/"%char], b. repeat split.
  destruct Hb as [->| ->]; [left|right]; reflexivity.
Qed.
Lemma end_half b : b = [] \/ b = $".." -> exists x, half b x x /\ ~ In "/"%char b /\ open_or_unknown b (mkRange b x x).
Proof.
  intros [->| ->].
  - exists unknown_bound. split; [constructor|]. split; [exact (@in_nil _ _)|]. right. split; [reflexivity|apply unknown_bound_range].
  - exists open_bound. split; [constructor|]. split; [exact dotdot_noslash|]. left. split; [reflexivity|apply open_bound_range].
Qed.
Theorem end_direct a b y m d : level0_date a y m d -> exists_date y m d -> b = [] \/ b = $".." ->
  exists e, ParseExtendedIntervalEnd (a ++ "/"%char :: b) = OK e /\ e_level e = 1 /\ e_feature e = $"Extended Interval (End)" /\
    whole (e_start e) a y m d /\ open_or_unknown b (e_end e).
Proof.
  intros Ha X Hb. pose proof (level0_is _ _ _ _ Ha) as Ia. unfold ParseExtendedIntervalEnd.
  rewrite (proj2 (IntervalEnd_spec _) (end_form _ _ Ia Hb)). cbn [negb].
  destruct (end_half _ Hb) as (x & Hx & Nx & Ox).
  rewrite (interval_fwd _ _ _ _ _ _ (no_slash _ Ia) Nx (level0_half _ _ _ _ Ha X) Hx). cbn [bind].
  eexists. split; [reflexivity|]. split; [reflexivity|]. split; [reflexivity|]. split; [|exact Ox]. split; [reflexivity|]. split; apply dated_bound.
Qed.
Lemma end_not_level0 a b : is_level0_date a -> b = [] \/ b = $".." -> IsLevel0 (a ++ "/"%char :: b) = false.
Proof.
  intros Ha Hb. unfold IsLevel0. destruct (match_string Level0_re _) eqn:E; [|reflexivity]. exfalso.
  assert (Hs : In "/"%char (a ++ "/"%char :: b)) by (apply in_or_app; right; left; reflexivity).
  apply Level0_spec in E. destruct (slash_not_date _ Hs) as (N1 & N2). destruct E as [E|[E|E]]; [congruence|congruence|].
  apply TimeInterval_spec in E. destruct E as (l & r & Hl & Hr & E). destruct (split_once _ _ _ _ _ (no_slash _ Ha) (no_slash _ Hl) E) as (_ & ->).
  apply IsDate_spec in Hr. destruct Hb as [->| ->]; vm_compute in Hr; discriminate.
Qed.
Lemma year_is t y : year4 t y -> level0_date t y None None.
Proof. intro H. rewrite <- (app_nil_r t). constructor; [exact H|constructor]. Qed.
Lemma end_bytes a b c : is_level0_date a -> b = [] \/ b = $".." -> In c (a ++ "/"%char :: b) -> is_digit c = true \/ c = "-"%char \/ c = "/"%char \/ c = "."%char.
Proof.
  intros Ha Hb Hc. apply in_app_or in Hc. destruct Hc as [Hc|[<-|Hc]]; [destruct (date_bytes _ _ Ha Hc); auto|auto|].
  destruct Hb as [->| ->]; [destruct Hc|]. destruct Hc as [<-|[<-|[]]]; auto.
Qed.
Theorem end_string t y b : year4 t y -> b = [] \/ b = $".." ->
  exists e, ParseString (t ++ "/"%char :: b) = OK e /\ e_level e = 1 /\ e_feature e = $"Extended Interval (End)" /\
    whole (e_start e) t y None None /\ open_or_unknown b (e_end e).
Proof.
  intros Hy Hb. pose proof (year_is _ _ Hy) as Ht. pose proof (level0_is _ _ _ _ Ht) as It.
  destruct (end_direct t b y None None Ht) as (e & H1 & H2); [apply exists_none; discriminate|exact Hb|].
  exists e. split; [|exact H2]. rewrite <- H1. set (s := t ++ "/"%char :: b).
  assert (Hs : In "/"%char s) by (apply in_or_app; right; left; reflexivity).
  pose proof (end_form _ _ It Hb) as HE. pose proof (end_not_level0 _ _ It Hb) as L0. pose proof (fun c => end_bytes t b c It Hb) as B. fold s in HE, L0, B.
  assert (LS : match_string Season s = false).
  { apply season_false; [intro H; destruct (B _ H) as [Q|[Q|[Q|Q]]]; discriminate Q|]. intro H. apply (season_tail _ _ _ Hy) in H.
    destruct H as (n & q & _ & E). discriminate E. }
  assert (LI : match_string IntervalStart s = false).
  { destruct (match_string IntervalStart s) eqn:E; [|reflexivity]. exfalso. apply IntervalStart_spec in E.
    destruct E as (u & v & Hu & (w & x & Hw & _ & ->) & E). unfold is in Hw. subst w. unfold s in E. cbn [app] in E.
    assert (Nu : ~ In "/"%char u) by (destruct Hu as [->| ->]; [exact (@in_nil _ _)|exact dotdot_noslash]).
    destruct (split_once _ _ _ _ _ (no_slash _ It) Nu E) as (E1 & _). apply IsDate_spec in It. rewrite E1 in It.
    destruct Hu as [->| ->]; vm_compute in It; discriminate. }
  unfold ParseString, IsLevel1. rewrite L0. rewrite (proj2 (Level1_spec s)) by auto 10.
  unfold L1_ParseString, IsLetterPrefixedCalendarYear, IsSeason, IsQualifiedDate, IsUnspecifiedDigits, IsNegativeCalendarYear.
  replace (match_string LetterPrefixedCalendarYear s) with false by (symmetry; no_byte "/"%char; exact Hs).
  rewrite LS.
  replace (match_string QualifiedDate s) with false by (symmetry; no_byte "/"%char; exact Hs).
  replace (match_string UnspecifiedDigits s) with false by (symmetry; no_byte "/"%char; exact Hs).
  replace (match_string NegativeYear s) with false by (symmetry; no_byte "/"%char; exact Hs).
  replace (IsExtendedInterval s) with true by (unfold IsExtendedInterval; destruct (match_string IntervalEnd s), (match_string IntervalStart s); reflexivity).
  unfold ParseExtendedInterval. rewrite LI, (proj2 (IntervalEnd_spec s) HE). reflexivity.
Qed.
(** With a month, the season expression takes the string and the end is lost. *)
Lemma month_head a y m d r : level0_date a y (Some m) d -> exists t q, year4 t y /\ 1 <= m <= 12 /\ a ++ r = t ++ "-"%char :: two m ++ q.
Proof.
  intro H. inversion H as [t y' s m' d' Hy Hr E1 E2 E3 E4]; subst. inversion Hr as [|k Hk|k j Hk Hj]; subst; exists t; eexists; (split; [exact Hy|split; [exact Hk|]]);
  rewrite <- !app_assoc; cbn [app]; rewrite <- ?app_assoc; reflexivity.
Qed.
Lemma month_season a y m d r : level0_date a y (Some m) d -> rendered y -> exists e, ParseSeason (a ++ r) = OK e /\ e_level e = 1 /\ e_feature e = $"Seasons" /\ months e y m y m.
Proof.
  intros Ha Ry. destruct (month_head a y m d r Ha) as (t & q & Hy & Hm & ->).
  apply (season_code_parses t y m q y m y m); auto. unfold season_code.
  replace (m =? 21) with false by lia. replace (m =? 22) with false by lia. replace (m =? 23) with false by lia. replace (m =? 24) with false by lia. reflexivity.
Qed.
Theorem end_lost a b y m d : level0_date a y (Some m) d -> rendered y -> b = [] \/ b = $".." ->
  exists e, ParseString (a ++ "/"%char :: b) = OK e /\ e_level e = 1 /\ e_feature e = $"Seasons" /\ months e y m y m.
Proof.
  intros Ha Ry Hb. pose proof (level0_is _ _ _ _ Ha) as Ia. rewrite to_season.
  - apply (month_season _ _ _ _ _ Ha Ry).
  - exact (end_not_level0 _ _ Ia Hb).
  - apply Level1_spec. pose proof (end_form _ _ Ia Hb). auto 10.
  - intro H. destruct (end_bytes _ _ _ Ia Hb H) as [Q|[Q|[Q|Q]]]; discriminate Q.
  - apply season_head_match. destruct (month_head a y m d ("/"%char :: b) Ha) as (t & q & Hy & Hm & E). exists t, y, m, q. auto.
Qed.

(** ** Qualified dates *)
Lemma mark_in q : a_mark q -> in_set qset q = true.
Proof. intros [->|[->| ->]]; reflexivity. Qed.
Lemma qualified_form a q : is_level0_date a -> a_mark q -> qualified_date (a ++ [q]).
Proof. intros Ha Hq. exists a, [q]. split; [exact Ha|]. split; [|reflexivity]. destruct Hq as [->|[->| ->]]; [left|right; left|right; right]; reflexivity. Qed.
Lemma qualified_den a q y m d : level0_date a y m d -> a_mark q ->
  date_den (a ++ [q]) y (first_month m) (first_day d) y (last_month m) (last_day y (last_month m) d)
    (if marks_uncertain q then components m d else 0) (if marks_approximate q then components m d else 0) YEAR (complete m d).
Proof.
  intros Ha Hq. pose proof (mark_in _ Hq) as Hi. destruct Ha as [t y0 r m0 d0 Hy Hr]. destruct Hr as [|m0 Hm|m0 d0 Hm Hd].
  - rewrite app_nil_r. apply (num_den (t ++ [q]) (t ++ [q]) t y0 (Some (mkQual [q] Group)) [] [] None None [] [] None None);
      [constructor|constructor; exact Hi|exact Hy|repeat split|repeat split|].
    destruct Hq as [->|[->| ->]]; reflexivity.
  - rewrite <- app_assoc. cbn [app].
    apply (num_den _ t t y0 None (two m0 ++ [q]) (two m0) (Some m0) (Some (mkQual [q] Group)) [] [] None None); [apply yt_ym; discriminate|constructor|exact Hy| | |].
    + split; [constructor; exact Hi|]. split; [exact Hm|reflexivity].
    + repeat split.
    + destruct Hq as [->|[->| ->]]; reflexivity.
  - rewrite <- app_assoc. cbn [app]. rewrite <- app_assoc. cbn [app].
    apply (num_den _ t t y0 None (two m0) (two m0) (Some m0) None (two d0 ++ [q]) (two d0) (Some d0) (Some (mkQual [q] Group))); [apply yt_ymd; discriminate|constructor|exact Hy| | |].
    + split; [constructor|]. split; [exact Hm|reflexivity].
    + split; [constructor; exact Hi|]. split; [exact Hd|reflexivity].
    + destruct Hq as [->|[->| ->]]; reflexivity.
Qed.
Lemma qualified_bytes a q c : is_level0_date a -> a_mark q -> In c (a ++ [q]) -> is_digit c = true \/ c = "-"%char \/ a_mark c.
Proof. intros Ha Hq Hc. apply in_app_or in Hc. destruct Hc as [Hc|[<-|[]]]; [destruct (date_bytes _ _ Ha Hc); auto|auto]. Qed.
Lemma qualified_noslash a q : is_level0_date a -> a_mark q -> ~ In "/"%char (a ++ [q]).
Proof. intros Ha Hq H. destruct (qualified_bytes _ _ _ Ha Hq H) as [Q|[Q|[Q|[Q|Q]]]]; discriminate Q. Qed.
Theorem qualified_direct a q y m d : level0_date a y m d -> exists_date y m d -> a_mark q ->
  exists e, ParseQualifiedDate (a ++ [q]) = OK e /\ e_level e = 1 /\ e_feature e = $"Qualification of a date (complete)" /\ qualified_as e q y m d.
Proof.
  intros Ha X Hq. pose proof (level0_is _ _ _ _ Ha) as Ia. unfold ParseQualifiedDate.
  rewrite (proj2 (QualifiedDate_spec _) (qualified_form _ _ Ia Hq)). cbn [negb]. rewrite single_fwd by (apply qualified_noslash; assumption).
  destruct (span_fwd _ _ _ _ _ _ _ _ _ _ _ (qualified_den _ _ _ _ _ Ha Hq) X (last_real _ _ _ _ Ha X)) as (-> & _). cbn [bind].
  eexists. split; [reflexivity|]. split; [reflexivity|]. split; [reflexivity|].
  match goal with |- context [edtf_of_span (span6 ?s ?u ?a ?p ?g ?y ?m ?d ?y' ?m' ?d') ?s' ?lv ?f] =>
    pose proof (span6_runs s lv f u a p g y m d y' m' d' (complete_same _ _ _ _ Ha)) as (R & F & _) end.
  split; assumption.
Qed.
Theorem qualified_string t q y : year4 t y -> a_mark q ->
  exists e, ParseString (t ++ [q]) = OK e /\ e_level e = 1 /\ e_feature e = $"Qualification of a date (complete)" /\ qualified_as e q y None None.
Proof.
  intros Hy Hq. pose proof (year_is _ _ Hy) as Ht. pose proof (level0_is _ _ _ _ Ht) as It.
  destruct (qualified_direct t q y None None Ht) as (e & H1 & H2); [apply exists_none; discriminate|exact Hq|].
  exists e. split; [|exact H2]. rewrite <- H1. set (s := t ++ [q]).
  assert (Hs : In q s) by (apply in_or_app; right; left; reflexivity).
  pose proof (qualified_form _ _ It Hq) as HE. pose proof (fun c => qualified_bytes t q c It Hq) as B. fold s in HE, B.
  assert (LS : match_string Season s = false).
  { apply season_false; [intro H; destruct (B _ H) as [Q|[Q|[Q|[Q|Q]]]]; discriminate Q|]. intro H. apply (season_tail _ _ _ Hy) in H.
    destruct H as (n & r & _ & E). injection E as -> E. destruct Hq as [Q|[Q|Q]]; discriminate Q. }
  unfold ParseString, IsLevel1. rewrite (not_level0 s q) by (exact Hs || (destruct Hq as [->|[->| ->]]; reflexivity)).
  rewrite (proj2 (Level1_spec s)) by auto 10.
  unfold L1_ParseString, IsLetterPrefixedCalendarYear, IsSeason, IsQualifiedDate.
  replace (match_string LetterPrefixedCalendarYear s) with false by (symmetry; apply (byte_out _ q); [reflexivity|destruct Hq as [->|[->| ->]]; reflexivity|exact Hs]).
  rewrite LS. rewrite (proj2 (QualifiedDate_spec s) HE). reflexivity.
Qed.
Theorem qualified_lost a q y m d : level0_date a y (Some m) d -> rendered y -> a_mark q ->
  exists e, ParseString (a ++ [q]) = OK e /\ e_level e = 1 /\ e_feature e = $"Seasons" /\ months e y m y m.
Proof.
  intros Ha Ry Hq. pose proof (level0_is _ _ _ _ Ha) as Ia. rewrite to_season.
  - apply (month_season _ _ _ _ _ Ha Ry).
  - apply (not_level0 _ q); [destruct Hq as [->|[->| ->]]; reflexivity|apply in_or_app; right; left; reflexivity].
  - apply Level1_spec. pose proof (qualified_form _ _ Ia Hq). auto 10.
  - intro H. destruct (qualified_bytes _ _ _ Ia Hq H) as [Q|[Q|[Q|[Q|Q]]]]; discriminate Q.
  - apply season_head_match. destruct (month_head a y m d [q] Ha) as (t & r & Hy & Hm & E). exists t, y, m, r. auto.
Qed.
