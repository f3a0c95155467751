(** The feature of a string, and the reading of dates and of pairs of dates. *)
From Coq Require Import Ascii String ZArith NArith Bool Lia ZifyBool List.
From Verif Require Import GoStr GoTime Regex Patterns RegexSym RegexRel RegexGen SpecCal SpecText SpecZone SpecGrammar SpecForms SpecSpan SpecReads StrFacts TextFacts Edtf Calendar Common Level0 Level1 Level2 Parser CalFacts ApiFacts SpanFacts YmdShapes YmdFacts InvFacts GrammarFacts SetGrammar LangFacts LangNorm LangForms LangForms2 DateFacts ParseFacts SplitFacts Level0Facts Level0Proofs FormFacts SeasonFacts Level1Proofs XProofs FormProofs.
Import ListNotations.
Open Scope Z_scope.
Ltac Zify.zify_post_hook ::= Z.div_mod_to_equations.

(** ** Features *)
Fixpoint first_test (l : list (str * bool)) : option str :=
  match l with [] => None | (f, b) :: l' => if b then Some f else first_test l' end.
Lemma first_of_test s l tests : Forall2 (fun (p : str * (str -> Prop)) (q : str * bool) => fst p = fst q /\ (snd q = true <-> snd p s)) l tests ->
  forall f, first_of s l f <-> first_test tests = Some f.
Proof.
  induction 1 as [|(g & P) (g' & b) l tests (E & Hb) _ IH]; intro f.
  - split; [intro H; inversion H|discriminate].
  - cbn [fst snd] in *. subst g'. cbn [first_test]. split.
    + intro H. inversion H as [f0 P0 l0 HP|g0 P0 l0 f0 HN HL]; subst.
      * rewrite (proj2 Hb HP). reflexivity.
      * destruct b; [contradiction HN; apply Hb; reflexivity|]. apply IH. exact HL.
    + destruct b.
      * intro H. injection H as <-. apply fo_here. apply Hb. reflexivity.
      * intro H. apply fo_later; [rewrite <- Hb; discriminate|apply IH; exact H].
Qed.
Lemma first0 s f : first_of s level0_features f <-> L0_Matches s = OK f.
Proof.
  rewrite (first_of_test s level0_features [(DATE, IsDate s); (DATE_AND_TIME, IsDateAndTime s); (TIME_INTERVAL, IsTimeInterval s)]).
  - unfold L0_Matches. cbn [first_test]. destruct (IsDate s), (IsDateAndTime s), (IsTimeInterval s); split; intro H; try discriminate H; injection H as <-; reflexivity.
  - repeat constructor; [apply IsDate_spec|apply IsDate_spec|apply DateAndTime_spec|apply DateAndTime_spec|apply TimeInterval_spec|apply TimeInterval_spec].
Qed.
Lemma first1 s f : first_of s level1_features f <-> L1_Matches s = OK f.
Proof.
  rewrite (first_of_test s level1_features [(LETTER_PREFIXED_CALENDAR_YEAR, IsLetterPrefixedCalendarYear s); (SEASON, IsSeason s);
    (QUALIFIED_DATE, IsQualifiedDate s); (UNSPECIFIED_DIGITS, IsUnspecifiedDigits s); (NEGATIVE_CALENDAR_YEAR, IsNegativeCalendarYear s);
    (EXTENDED_INTERVAL_START, match_string IntervalStart s); (EXTENDED_INTERVAL_END, match_string IntervalEnd s)]).
  - unfold L1_Matches. cbn [first_test].
    replace (IsExtendedInterval s) with true by (unfold IsExtendedInterval; destruct (match_string IntervalEnd s), (match_string IntervalStart s); reflexivity).
    cbn [andb]. repeat match goal with |- context [if ?b then _ else _] => destruct b end; split; intro H; try discriminate H; injection H as <-; reflexivity.
  - repeat (apply Forall2_cons; [split; [reflexivity|cbn [snd]]|]); try apply Forall2_nil;
      [apply LetterYear_spec|apply Season_spec|apply QualifiedDate_spec|apply UnspecifiedDigits_spec|apply NegativeYear_spec|apply IntervalStart_spec|apply IntervalEnd_spec].
Qed.
Lemma first2 s f : first_of s level2_features f <-> L2_Matches s = OK f.
Proof.
  rewrite (first_of_test s level2_features [(EXPONENTIAL_YEAR, IsExponentialYear s); (SIGNIFICANT_DIGITS, IsSignificantDigits s);
    (SUB_YEAR_GROUPINGS, IsSubYearGrouping s); (SET_REPRESENTATIONS, IsSetRepresentation s); (GROUP_QUALIFICATION, IsGroupQualification s);
    (INDIVIDUAL_QUALIFICATION, IsIndividualQualification s); (UNSPECIFIED_DIGIT, IsUnspecifiedDigit s); (INTERVAL, IsInterval s)]).
  - unfold L2_Matches. cbn [first_test].
    repeat match goal with |- context [if ?b then _ else _] => destruct b end; split; intro H; try discriminate H; injection H as <-; reflexivity.
  - repeat (apply Forall2_cons; [split; [reflexivity|cbn [snd]]|]); try apply Forall2_nil;
      [apply Exponential_spec|apply Significant_spec|apply Grouping_spec|apply set_test|apply Group_spec|apply Individual_spec|apply Unspecified_spec|apply Interval_spec].
Qed.
Lemma first0_form s f : first_of s level0_features f -> level0_form s.
Proof.
  intro H. unfold level0_features in H. inversion H as [? ? ? H1|? ? ? ? _ H1]; subst; [left; exact H1|].
  inversion H1 as [? ? ? H2|? ? ? ? _ H2]; subst; [right; left; exact H2|].
  inversion H2 as [? ? ? H3|? ? ? ? _ H3]; subst; [right; right; exact H3|]. inversion H3.
Qed.
Lemma first2_form s f : first_of s level2_features f -> level2_exact s.
Proof. intro H. apply l2_named. exists f. apply first2. exact H. Qed.
Theorem matches_takes s lv f : Matches s = OK (lv, f) <-> takes s lv f.
Proof.
  pose proof (level0_grammar s) as G0. pose proof (level1_iff s) as G1. pose proof (level2_iff s) as G2.
  fold (level0_form s) in G0. fold (level1_text s) in G1.
  unfold Matches. destruct (IsLevel0 s) eqn:E0; [|destruct (IsLevel1 s) eqn:E1; [|destruct (IsLevel2 s) eqn:E2]].
  - split.
    + intro H. destruct (L0_Matches s) as [g| |] eqn:E; cbn [bind] in H; try discriminate. injection H as <- <-. apply tk_0. apply first0. exact E.
    + intros [g H|g N _ _|g N _ _]; [|tauto|tauto]. apply first0 in H. rewrite H. reflexivity.
  - split.
    + intro H. destruct (L1_Matches s) as [g| |] eqn:E; cbn [bind] in H; try discriminate. injection H as <- <-.
      apply tk_1; [intuition discriminate|tauto|apply first1; exact E].
    + intros [g H|g N _ H|g _ N _]; [apply first0_form in H; intuition discriminate| |tauto]. apply first1 in H. rewrite H. reflexivity.
  - split.
    + intro H. destruct (L2_Matches s) as [g| |] eqn:E; cbn [bind] in H; try discriminate. injection H as <- <-.
      apply tk_2; [intuition discriminate|intuition discriminate|apply first2; exact E].
    + intros [g H|g _ N _|g _ _ H]; [apply first0_form in H; intuition discriminate|intuition discriminate|]. apply first2 in H. rewrite H. reflexivity.
  - split; [discriminate|]. intros [g H|g _ N _|g _ _ H]; [apply first0_form in H; intuition discriminate|intuition discriminate|].
    apply first2_form, exact_form in H. exfalso. assert (X : false = true) by (apply G2; exists s, []; rewrite app_nil_r; auto). discriminate.
Qed.

(** ** Dates *)
Lemma year4_of t y : core_in year_shapes t -> atoi t = OK y -> year4 t y.
Proof.
  intros Hc Ha. apply year_core in Hc. apply atoi_spec in Ha. destruct Ha as (Ha & _).
  assert (G : forall a b c d v, dec_digits [a; b; c; d] v -> exists n, 0 <= n <= 9999 /\ [a; b; c; d] = four n /\ v = n).
  { intros a b c d v Hd. pose proof Hd as Hd'. apply dec_digits_iff in Hd. destruct Hd as (_ & Hd). cbn [dec_val] in Hd.
    destruct (is_digit a) eqn:Ea; [|discriminate]. destruct (is_digit b) eqn:Eb; [|discriminate].
    destruct (is_digit c) eqn:Ec; [|discriminate]. destruct (is_digit d) eqn:Ed; [|discriminate].
    destruct (four_of a b c d Ea Eb Ec Ed) as (n & Hn & E). exists n. split; [exact Hn|]. split; [exact E|].
    rewrite E in Hd'. apply dec_digits_iff in Hd'. destruct Hd' as (_ & Hd'). rewrite dec_val_four in Hd' by exact Hn. injection Hd' as <-. reflexivity. }
  destruct Hc as (a & b & c & d & [->| ->] & Da & Db & Dc & Dd); inversion Ha as [t v Hv|t v Hv|t v Hv]; subst.
  - apply G in Hv. destruct Hv as (n & Hn & -> & ->). constructor. exact Hn.
  - discriminate Da.
  - discriminate Da.
  - exfalso. exact (dec_dashless _ _ Hv (or_introl eq_refl)).
  - apply G in Hv. destruct Hv as (n & Hn & -> & ->). constructor. exact Hn.
Qed.
Lemma dx_iff c : is_dx c = true <-> d_or_x c.
Proof. unfold is_dx, d_or_x. rewrite orb_true_iff, Ascii.eqb_eq. reflexivity. Qed.
Lemma year_bridge t y y' : year_reads t y y' <-> exists p sy, year_den t y y' p sy.
Proof.
  split.
  - intros [t0 y0 H|a b c Ha Hb Hc]; [do 2 eexists; apply year4_den; exact H|]. do 2 eexists. apply yd_x; [exact Ha|apply dx_iff; assumption..].
  - intros (p & sy & [t0 y0 Hc Ha|a b c Ha Hb Hc]); [constructor; apply year4_of; assumption|]. apply yr_mask; [exact Ha|apply dx_iff; assumption..].
Qed.
Lemma year_reads_core t y y' : year_reads t y y' -> core_in year_shapes t.
Proof.
  intros [t0 y0 H|a b c Ha Hb Hc]; [apply (year4_core _ _ H)|]. apply year_core. exists a, b, c, X. split; [left; reflexivity|].
  apply dx_iff in Hb. apply dx_iff in Hc. unfold is_dx at 1. rewrite Ha. auto.
Qed.
Lemma two_atoi_inv a b n : a <> "-"%char -> a <> "+"%char -> atoi [a; b] = OK n -> 0 <= n <= 99 /\ [a; b] = two n.
Proof.
  intros N1 N2 Ha. apply atoi_spec in Ha. destruct Ha as (Ha & _). inversion Ha as [t v Hv|t v Hv|t v Hv]; subst; [|congruence|congruence].
  apply dec_digits_iff in Hv. destruct Hv as (_ & Hv). cbn [dec_val] in Hv.
  destruct (is_digit a) eqn:Ea; [|discriminate]. destruct (is_digit b) eqn:Eb; [|discriminate]. injection Hv as Hv.
  pose proof (digit_val_range a Ea). pose proof (digit_val_range b Eb).
  destruct (two_of a b Ea Eb) as (k & Hk & E). rewrite E. assert (Q : n = k).
  { unfold two in E. injection E as E1 E2. subst a b. rewrite !digit_val_char in Hv by lia. lia. }
  subst k. split; [lia|reflexivity].
Qed.
Lemma month_bridge t m m' : month_reads t m m' <-> t <> [] /\ exists sm, month_den t m m' sm.
Proof.
  split.
  - intros [n Hn| |a Ha]; (split; [discriminate|eexists]); [apply two_month_den; exact Hn|apply md_xx|apply md_x; exact Ha].
  - intros (Hne & sm & H). destruct H as [|t0 n Hc Ha| |a Ha]; [contradiction Hne; reflexivity| |apply mr_any|apply mr_mask; exact Ha].
    pose proof (month_core_bound _ _ Hc Ha). apply month_core in Hc. destruct Hc as (a & b & -> & Hc).
    apply two_atoi_inv in Ha; [destruct Ha as (_ & ->); apply mr_number; exact H|..];
      intros ->; destruct Hc as [([E|E] & _)|([E|E] & _)]; discriminate.
Qed.
Lemma month_reads_core t m m' : month_reads t m m' -> core_in month_shapes t.
Proof.
  intros [n Hn| |a Ha]; [apply two_month; exact Hn| |]; apply month_core.
  - exists X, X. auto 10.
  - exists a, X. split; [reflexivity|]. destruct Ha as [->| ->]; auto 10.
Qed.
Lemma day_bridge n n' t d d' : day_reads n n' t d d' <-> t <> [] /\ exists sd, day_den n n' t d d' sd.
Proof.
  split.
  - intros [k Hk| | | | |]; (split; [discriminate|eexists]);
      [apply two_day_den; exact Hk|apply dd_zero|apply dd_xx|apply dd_1x|apply dd_2x|apply dd_3x].
  - intros (Hne & sd & H). destruct H as [|t0 k Hc Ha Hz| | | | |]; [contradiction Hne; reflexivity| |apply dr_zero|apply dr_any|apply dr_1x|apply dr_2x|apply dr_3x].
    pose proof (day_core_bound _ _ Hc Ha). apply day_core in Hc. destruct Hc as (a & b & -> & Hc).
    apply two_atoi_inv in Ha; [destruct Ha as (_ & ->); apply dr_number; lia|..];
      intros ->; destruct Hc as [([E|(E & _)] & _)|([E|E] & _)]; discriminate.
Qed.
Lemma day_reads_core n n' t d d' : day_reads n n' t d d' -> core_in day_shapes t.
Proof.
  intros [k Hk| | | | |]; [apply two_day; lia|apply (two_day 0); lia|..]; apply day_core.
  - exists X, X. auto 10.
  - exists "1"%char, X. split; [reflexivity|]. left. split; [right; split; [reflexivity|vm_compute; discriminate]|reflexivity].
  - exists "2"%char, X. split; [reflexivity|]. left. split; [right; split; [reflexivity|vm_compute; discriminate]|reflexivity].
  - exists "3"%char, X. auto 10.
Qed.
Lemma in_mark c : in_set qset c = true <-> a_mark c.
Proof.
  split; [|apply mark_in]. unfold in_set, qset, a_mark. cbn [existsb fst snd]. intro H.
  destruct (Z.eq_dec (code c) 63) as [E|E]; [left; apply code_inj; exact E|].
  destruct (Z.eq_dec (code c) 126) as [E1|E1]; [right; left; apply code_inj; exact E1|].
  right. right. apply code_inj. change (code "%") with 37. lia.
Qed.
Lemma marked_iff c t : marked c t <-> exists q, qualified t c q.
Proof.
  split.
  - intros [|q Hq|q Hq]; eexists; [apply q_none|apply q_pre; apply in_mark; exact Hq|apply q_suf; apply in_mark; exact Hq].
  - intros (q & [|k core Hk|k core Hk]); [apply mk_none|apply mk_before; apply in_mark; exact Hk|apply mk_after; apply in_mark; exact Hk].
Qed.
Lemma marked_nil c t : marked c t -> t = [] -> c = [].
Proof. intros [|q _|q _] E; [exact E|discriminate|]. apply app_eq_nil in E. destruct E. discriminate. Qed.
Lemma qualified_nil q c : qualified [] c q -> c = [] /\ q = None.
Proof. intro H. inversion H as [| |k core Hk E]; [auto|]. destruct core; discriminate. Qed.
Lemma qualified_ne t c q : qualified t c q -> t <> [] -> core_in all_cores c -> c <> [].
Proof. intros _ _ H E. apply core_nonempty in H. subst. destruct H. discriminate. Qed.

Lemma date_bridge s y m d y' m' d' : date_reads s y m d y' m' d' <-> exists u a p sg, date_den s y m d y' m' d' u a p sg.
Proof.
  split.
  - intros [yt yc y0 y0' Hm Hy|yt yc y0 y0' mt mc m0 m0' Hm Hy Hmm Hmr|yt yc y0 y0' mt mc m0 m0' dt dc d0 d0' Hm Hy Hmm Hmr Hmd Hdr].
    + pose proof (year_reads_core _ _ _ Hy) as Cy. apply marked_iff in Hm. destruct Hm as (q & Hq). apply year_bridge in Hy. destruct Hy as (p & sy & Hy).
      destruct (qualifier_flags q None None) as (u & a) eqn:E. do 4 eexists. constructor.
      exists yt, yc, q, [], [], None, [], [], None, p, sy, false, false.
      split; [constructor|]. split; [constructor; auto; constructor|]. split; [exact Hy|]. split; [constructor|].
      split; [apply (dd_none (month_len y0 1) (month_len y0' 12))|]. eauto.
    + pose proof (year_reads_core _ _ _ Hy) as Cy. apply marked_iff in Hm. destruct Hm as (q & Hq). apply year_bridge in Hy. destruct Hy as (p & sy & Hy).
      pose proof (month_reads_core _ _ _ Hmr) as Cm. pose proof (fun E => marked_nil _ _ Hmm E) as Nm. apply marked_iff in Hmm. destruct Hmm as (qm & Hqm).
      apply month_bridge in Hmr. destruct Hmr as (Nc & sm & Hmr).
      destruct (qualifier_flags q qm None) as (u & a) eqn:E. do 4 eexists. constructor.
      exists yt, yc, q, mt, mc, qm, [], [], None, p, sy, sm, false.
      split; [apply yt_ym; intro Z0; apply Nc, Nm; exact Z0|]. split; [constructor; auto; constructor|]. split; [exact Hy|]. split; [exact Hmr|].
      split; [apply (dd_none (month_len y0 m0) (month_len y0' m0'))|]. eauto.
    + pose proof (year_reads_core _ _ _ Hy) as Cy. apply marked_iff in Hm. destruct Hm as (q & Hq). apply year_bridge in Hy. destruct Hy as (p & sy & Hy).
      pose proof (month_reads_core _ _ _ Hmr) as Cm. pose proof (fun E => marked_nil _ _ Hmm E) as Nm. apply marked_iff in Hmm. destruct Hmm as (qm & Hqm).
      apply month_bridge in Hmr. destruct Hmr as (Nc & sm & Hmr).
      pose proof (day_reads_core _ _ _ _ _ Hdr) as Cd. pose proof (fun E => marked_nil _ _ Hmd E) as Nd. apply marked_iff in Hmd. destruct Hmd as (qd & Hqd).
      apply day_bridge in Hdr. destruct Hdr as (Ncd & sd & Hdr).
      destruct (qualifier_flags q qm qd) as (u & a) eqn:E. do 4 eexists. constructor.
      exists yt, yc, q, mt, mc, qm, dt, dc, qd, p, sy, sm, sd.
      split; [apply yt_ymd; [intro Z0; apply Nc, Nm; exact Z0|intro Z0; apply Ncd, Nd; exact Z0]|]. split; [constructor; auto|]. split; [exact Hy|]. split; [exact Hmr|].
      split; [exact Hdr|]. eauto.
  - intros (u & a & p & sg & [(yt & yc & yq & mt & mc & mq & dt & dc & dq & py & sy & sm & sd & Ht & Hp & Hy & Hm & Hd & _)]).
    destruct Hp as [Qy Cy Qm Cm Qd Cd].
    assert (My : marked yc yt) by (apply marked_iff; eauto). assert (Ry : year_reads yc y y') by (apply year_bridge; eauto).
    assert (Mm : marked mc mt) by (apply marked_iff; eauto). assert (Md : marked dc dt) by (apply marked_iff; eauto).
    destruct Ht as [yt|yt mt Nm|yt mt dt Nm Nd].
    + apply qualified_nil in Qm. destruct Qm as (-> & _). apply qualified_nil in Qd. destruct Qd as (-> & _).
      assert (F : m = 1 /\ m' = 12).
      { inversion Hm as [|t0 n Hc Ha| |]; subst; [auto|]. discriminate Ha. }
      destruct F as (-> & ->).
      assert (F : d = 1 /\ d' = 31).
      { inversion Hd as [|t0 n Hc Ha Hz| | | | |]; subst; [split; reflexivity|]. discriminate Ha. }
      destruct F as (-> & ->). exact (dt_y _ _ _ _ My Ry).
    + apply qualified_nil in Qd. destruct Qd as (-> & _). destruct Cm as [Cm|Cm]; [contradiction|].
      assert (Rm : month_reads mc m m').
      { apply month_bridge. split; [exact (qualified_ne _ _ _ Qm Nm (core_all_month _ Cm))|eauto]. }
      assert (F : d = 1 /\ d' = month_len y' m').
      { inversion Hd as [|t0 n Hc Ha Hz| | | | |]; subst; [split; reflexivity|]. discriminate Ha. }
      destruct F as (-> & ->). exact (dt_ym _ _ _ _ _ _ _ _ My Ry Mm Rm).
    + destruct Cm as [Cm|Cm]; [contradiction|]. destruct Cd as [Cd|Cd]; [contradiction|].
      assert (Rm : month_reads mc m m').
      { apply month_bridge. split; [exact (qualified_ne _ _ _ Qm Nm (core_all_month _ Cm))|eauto]. }
      assert (Rd : day_reads (month_len y m) (month_len y' m') dc d d').
      { apply day_bridge. split; [exact (qualified_ne _ _ _ Qd Nd (core_all_day _ Cd))|eauto]. }
      exact (dt_ymd _ _ _ _ _ _ _ _ _ _ _ _ My Ry Mm Rm Md Rd).
Qed.

(** ** Halves and pairs *)
Lemma shows_fun b x x' : shows b x -> shows b x' -> x = x'.
Proof.
  destruct x, x'; cbn; intros (H1 & H2 & H3) (K1 & K2 & K3); rewrite H1 in K1; rewrite H2 in K2; try discriminate; [|reflexivity..].
  injection K1 as ->. reflexivity.
Qed.
Lemma shows_start y m d u a p : shows (day_start y m d u a p) (from_day y m d).
Proof. repeat split. Qed.
Lemma shows_end y m d u a p : shows (day_end y m d u a p) (to_day y m d).
Proof. repeat split. Qed.
Lemma whole_bridge s lo hi : whole_date s lo hi <-> exists sp, dateSpanFromYMD s = OK sp /\ shows (r_lower (s_start sp)) lo /\ shows (r_upper (s_end sp)) hi.
Proof.
  split.
  - intros [y m d y' m' d' HD Hr Hr']. apply date_bridge in HD. destruct HD as (u & a & p & sg & HD).
    destruct (span_fwd _ _ _ _ _ _ _ _ _ _ _ HD Hr Hr') as (E & _). eexists. split; [exact E|]. split; [apply shows_start|apply shows_end].
  - intros (sp & E & L & H). destruct (span_inv _ _ E) as (y & m & d & y' & m' & d' & u & a & p & sg & HD & Hr & Hr' & _ & _ & ->).
    pose proof (shows_fun _ _ _ L (shows_start y m d u a p)) as ->. pose proof (shows_fun _ _ _ H (shows_end y' m' d' u a p)) as ->.
    constructor; [|exact Hr|exact Hr']. apply date_bridge. eauto.
Qed.
Lemma half_bridge t lo hi : half_reads t lo hi <-> exists b b', half t b b' /\ shows b lo /\ shows b' hi.
Proof.
  split.
  - intros [| |t0 lo0 hi0 [y m d y' m' d' HD Hr Hr']].
    + do 2 eexists. split; [constructor|]. repeat split.
    + do 2 eexists. split; [constructor|]. repeat split.
    + apply date_bridge in HD. destruct HD as (u & a & p & sg & HD). destruct (span_fwd _ _ _ _ _ _ _ _ _ _ _ HD Hr Hr') as (_ & B & B').
      do 2 eexists. split; [econstructor; eassumption|]. split; [apply shows_start|apply shows_end].
  - intros (b & b' & H & L & U). destruct H as [| |t0 y m d y' m' d' u a p sg HD Hr Hr' _ _].
    + rewrite (shows_fun _ _ Blank L), (shows_fun _ _ Blank U) by (repeat split). constructor.
    + rewrite (shows_fun _ _ Dots L), (shows_fun _ _ Dots U) by (repeat split). constructor.
    + rewrite (shows_fun _ _ _ L (shows_start y m d u a p)), (shows_fun _ _ _ U (shows_end y' m' d' u a p)). apply hr_date.
      constructor; [|exact Hr|exact Hr']. apply date_bridge. eauto.
Qed.
Lemma fits_no c sh : forallb (fun k => negb (in_set k c)) sh = true -> forall t, fits sh t -> ~ In c t.
Proof.
  intros H t Hf. induction Hf as [|k d sh t Hk Hf IH]; [intros []|]. cbn [forallb] in H. apply andb_true_iff in H. destruct H as (H1 & H2).
  intros [->|Hi]; [rewrite Hk in H1; discriminate|exact (IH H2 Hi)].
Qed.
Lemma core_no_slash c : core_in all_cores c -> ~ In "/"%char c.
Proof.
  intros (sh & Hin & Hf). apply (fits_no _ sh); [|exact Hf].
  assert (A : forallb (fun sh => forallb (fun k => negb (in_set k "/")) sh) all_cores = true) by reflexivity.
  rewrite forallb_forall in A. exact (A _ Hin).
Qed.
Lemma qualified_no_slash t c q : qualified t c q -> ~ In "/"%char c -> ~ In "/"%char t.
Proof.
  intros [|k core Hk|k core Hk] N; [exact N|intros [->|H]; [discriminate Hk|exact (N H)]|].
  intro H. apply in_app_or in H. destruct H as [H|[->|[]]]; [exact (N H)|discriminate Hk].
Qed.
Lemma part_no_slash t c q l : (forall x, core_in l x -> core_in all_cores x) -> qualified t c q -> t = [] \/ core_in l c -> ~ In "/"%char t.
Proof. intros G Q [->|H]; [intros []|]. exact (qualified_no_slash _ _ _ Q (core_no_slash _ (G _ H))). Qed.
Lemma ymd_no_slash s sp : dateSpanFromYMD s = OK sp -> ~ In "/"%char s.
Proof.
  intro E. destruct (dateSpanFromYMD_inv _ _ E) as (sr & y & m & d & y' & m' & d' & Hsr & _).
  destruct (string_range_inv _ _ Hsr) as (yt & yc & yq & mt & mc & mq & dt & dc & dq & Ht & Hp & _). destruct Hp as [Qy Cy Qm Cm Qd Cd].
  pose proof (part_no_slash _ _ _ _ core_all_year Qy (or_intror Cy)) as Ny. pose proof (part_no_slash _ _ _ _ core_all_month Qm Cm) as Nm.
  pose proof (part_no_slash _ _ _ _ core_all_day Qd Cd) as Nd.
  destruct Ht as [yt|yt mt _|yt mt dt _ _]; intro H; [exact (Ny H)| |].
  - apply in_app_or in H. destruct H as [H|[H|H]]; [exact (Ny H)|discriminate|exact (Nm H)].
  - apply in_app_or in H. destruct H as [H|[H|H]]; [exact (Ny H)|discriminate|].
    apply in_app_or in H. destruct H as [H|[H|H]]; [exact (Nm H)|discriminate|exact (Nd H)].
Qed.
Lemma half_no_slash t lo hi : half_reads t lo hi -> ~ In "/"%char t.
Proof.
  intros [| |t0 lo0 hi0 H]; [intros []|intros [E|[E|[]]]; discriminate|]. apply whole_bridge in H. destruct H as (sp & E & _).
  exact (ymd_no_slash _ _ E).
Qed.
Lemma span_bridge s lo hi : span_reads s lo hi <-> exists sp, DateSpanFromEDTF s = OK sp /\ shows (r_lower (s_start sp)) lo /\ shows (r_upper (s_end sp)) hi.
Proof.
  split.
  - intros [t lo0 hi0 H|a b lo0 x x' hi0 Ha Hb].
    + apply whole_bridge in H. destruct H as (sp & E & H). exists sp. split; [|exact H]. rewrite single_fwd; [exact E|exact (ymd_no_slash _ _ E)].
    + pose proof (half_no_slash _ _ _ Ha) as Na. pose proof (half_no_slash _ _ _ Hb) as Nb.
      apply half_bridge in Ha. destruct Ha as (b1 & b2 & Ha & L & _). apply half_bridge in Hb. destruct Hb as (b3 & b4 & Hb & _ & U).
      eexists. split; [exact (interval_fwd _ _ _ _ _ _ Na Nb Ha Hb)|]. auto.
  - intros (sp & E & L & U). destruct (DateSpan_inv _ _ E) as [(N & E')|(a & b & b1 & b2 & b3 & b4 & -> & Na & Nb & Ha & Hb & ->)].
    + apply sr_date. apply whole_bridge. eauto.
    + cbn [s_start s_end r_lower r_upper] in L, U.
      assert (G : forall t c c', half t c c' -> exists x x', shows c x /\ shows c' x').
      { intros t c c' [| |t0 y m d y' m' d' u q p sg _ _ _ _ _]; [exists Blank, Blank|exists Dots, Dots|exists (from_day y m d), (to_day y' m' d')]; repeat split. }
      destruct (G _ _ _ Ha) as (_ & x & _ & Hx). destruct (G _ _ _ Hb) as (x' & _ & Hx' & _).
      apply (sr_pair a b lo x x' hi); apply half_bridge; eauto.
Qed.

(** ** The parser of each feature *)
Inductive routed (s : str) : Z -> str -> Prop :=
| rt_span lv f : In f span_features -> ParseString s = (let* sp := DateSpanFromEDTF s in OK (edtf_of_span sp s lv f)) -> routed s lv f
| rt_stamp : IsDateAndTime s = true -> ParseString s = ParseDateAndTime s -> routed s 0 DATE_AND_TIME
| rt_letter : IsLetterPrefixedCalendarYear s = true -> ParseString s = ParseLetterPrefixedCalendarYear s -> routed s 1 LETTER_PREFIXED_CALENDAR_YEAR
| rt_season : IsSeason s = true -> ParseString s = ParseSeason s -> routed s 1 SEASON
| rt_exponential : IsExponentialYear s = true -> ParseString s = ParseExponentialYear s -> routed s 2 EXPONENTIAL_YEAR
| rt_significant : IsSignificantDigits s = true -> ParseString s = ParseSignificantDigits s -> routed s 2 SIGNIFICANT_DIGITS
| rt_grouping : IsSubYearGrouping s = true -> ParseString s = ParseSubYearGroupings s -> routed s 2 SUB_YEAR_GROUPINGS
| rt_set : IsSetRepresentation s = true -> ParseString s = ParseSetRepresentations s -> routed s 2 SET_REPRESENTATIONS.
Lemma named_routed s lv f : Matches s = OK (lv, f) -> routed s lv f.
Proof.
  intro H. unfold Matches in H.
  assert (P : ParseString s = if IsLevel0 s then L0_ParseString s else if IsLevel1 s then L1_ParseString s else if IsLevel2 s then L2_ParseString s else ParseString s).
  { unfold ParseString. destruct (IsLevel0 s), (IsLevel1 s), (IsLevel2 s); reflexivity. }
  destruct (IsLevel0 s); [|destruct (IsLevel1 s); [|destruct (IsLevel2 s); [|discriminate]]].
  - unfold L0_Matches in H. unfold L0_ParseString in P.
    destruct (IsDate s) eqn:E1; [injection H as <- <-; apply rt_span; [cbn; auto 20|rewrite P; unfold ParseDate; fold (IsDate s); rewrite E1; reflexivity]|].
    destruct (IsDateAndTime s) eqn:E2; [injection H as <- <-; apply rt_stamp; auto|].
    destruct (IsTimeInterval s) eqn:E3; [|discriminate].
    injection H as <- <-; apply rt_span; [cbn; auto 20|rewrite P; unfold ParseTimeInterval; fold (IsTimeInterval s); rewrite E3; reflexivity].
  - unfold L1_Matches in H. unfold L1_ParseString in P.
    assert (X : IsExtendedInterval s = true) by (unfold IsExtendedInterval; destruct (match_string IntervalEnd s), (match_string IntervalStart s); reflexivity).
    rewrite X in H, P. cbn [andb] in H.
    destruct (IsLetterPrefixedCalendarYear s) eqn:E1; [injection H as <- <-; apply rt_letter; auto|].
    destruct (IsSeason s) eqn:E2; [injection H as <- <-; apply rt_season; auto|].
    destruct (IsQualifiedDate s) eqn:E3; [injection H as <- <-; apply rt_span; [cbn; auto 20|rewrite P; unfold ParseQualifiedDate; fold (IsQualifiedDate s); rewrite E3; reflexivity]|].
    destruct (IsUnspecifiedDigits s) eqn:E4; [injection H as <- <-; apply rt_span; [cbn; auto 20|rewrite P; unfold ParseUnspecifiedDigits; fold (IsUnspecifiedDigits s); rewrite E4; reflexivity]|].
    destruct (IsNegativeCalendarYear s) eqn:E5; [injection H as <- <-; apply rt_span; [cbn; auto 20|rewrite P; unfold ParseNegativeCalendarYear; fold (IsNegativeCalendarYear s); rewrite E5; reflexivity]|].
    unfold ParseExtendedInterval in P.
    destruct (match_string IntervalStart s) eqn:E6; [injection H as <- <-; apply rt_span; [cbn; auto 20|rewrite P; unfold ParseExtendedIntervalStart; rewrite E6; reflexivity]|].
    destruct (match_string IntervalEnd s) eqn:E7; [|discriminate].
    injection H as <- <-; apply rt_span; [cbn; auto 20|rewrite P; unfold ParseExtendedIntervalEnd; rewrite E7; reflexivity].
  - unfold L2_Matches in H. unfold L2_ParseString in P.
    destruct (IsExponentialYear s) eqn:E1; [injection H as <- <-; apply rt_exponential; auto|].
    destruct (IsSignificantDigits s) eqn:E2; [injection H as <- <-; apply rt_significant; auto|].
    destruct (IsSubYearGrouping s) eqn:E3; [injection H as <- <-; apply rt_grouping; auto|].
    destruct (IsSetRepresentation s) eqn:E4; [injection H as <- <-; apply rt_set; auto|].
    destruct (IsGroupQualification s) eqn:E5; [injection H as <- <-; apply rt_span; [cbn; auto 20|rewrite P; unfold ParseGroupQualification; fold (IsGroupQualification s); rewrite E5; reflexivity]|].
    destruct (IsIndividualQualification s) eqn:E6; [injection H as <- <-; apply rt_span; [cbn; auto 20|rewrite P; unfold ParseIndividualQualification; fold (IsIndividualQualification s); rewrite E6; reflexivity]|].
    destruct (IsUnspecifiedDigit s) eqn:E7; [injection H as <- <-; apply rt_span; [cbn; auto 20|rewrite P; unfold ParseUnspecifiedDigit; fold (IsUnspecifiedDigit s); rewrite E7; reflexivity]|].
    destruct (IsInterval s) eqn:E8; [|discriminate].
    injection H as <- <-; apply rt_span; [cbn; auto 20|rewrite P; unfold ParseInterval; fold (IsInterval s); rewrite E8; reflexivity].
Qed.
Lemma span_result s t lv f lo hi : span_reads t lo hi <->
  exists e, (let* sp := DateSpanFromEDTF t in OK (edtf_of_span sp s lv f)) = OK e /\ result e lv f lo hi.
Proof.
  rewrite span_bridge. split.
  - intros (sp & -> & L & U). eexists. split; [reflexivity|]. repeat split; assumption.
  - intros (e & E & _ & _ & L & U). apply bind_OK in E. destruct E as (sp & E & Q). injection Q as <-. eauto.
Qed.
