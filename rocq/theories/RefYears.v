(** The errors of letter years, seasons and groupings. *)
From Coq Require Import Ascii String ZArith NArith Bool Lia ZifyBool List.
From Verif Require Import GoStr GoTime SpecWrap Regex Patterns RegexSym RegexRel RegexGen SpecCal SpecText SpecZone SpecGrammar SpecForms SpecSpan SpecReads SpecRefused StrFacts TextFacts Edtf Calendar Common Level0 Level1 Level2 Parser CalFacts ApiFacts SpanFacts YmdShapes YmdFacts InvFacts GrammarFacts SetGrammar LangFacts LangNorm LangForms LangForms2 DateFacts ParseFacts SplitFacts Level0Facts Level0Proofs FormFacts SeasonFacts Level1Proofs XProofs FormProofs SigProofs ExpProofs ExpWrap GroupingProofs ReadsFacts ReadsSeason ReadsYears RefDate.
Import ListNotations.
Open Scope Z_scope.
Ltac Zify.zify_post_hook ::= Z.div_mod_to_equations.

(** What refuses and what is total is exact. *)
Lemma exactly {A} (f : res A) (R : err -> Prop) : (forall x, R x -> f = Err x) -> (exists v, f = OK v) \/ (exists x, R x) -> forall x, f = Err x <-> R x.
Proof.
  intros S T x. split; [|apply S]. intro E. destruct T as [(v & E')|(x' & H)]; [congruence|]. pose proof (S _ H) as E'. rewrite E in E'. injection E' as <-. exact H.
Qed.
(** ** Numbers that are not years *)
Lemma parts_begin s y m d : date_parts s y m d -> exists yt r, s = yt ++ r /\ marked y yt /\ year_part y /\ (r = [] \/ exists r', r = "-"%char :: r').
Proof.
  intros [yt y0 Hm Hy|yt y0 mt m0 Hm Hy _ _|yt y0 mt m0 dt d0 Hm Hy _ _ _ _]; exists yt.
  - exists []. rewrite app_nil_r. auto.
  - eexists. split; [reflexivity|]. repeat split; try assumption. right. eexists. reflexivity.
  - eexists. split; [reflexivity|]. repeat split; try assumption. right. eexists. reflexivity.
Qed.
Lemma parts_number sgn ds r y m d : minus_text sgn -> digits_text ds -> (r = [] \/ exists r', r = "-"%char :: r' /\ Forall digit_dash r') ->
  date_parts (sgn ++ ds ++ r) y m d -> length ds = 4%nat.
Proof.
  intros Hs Hd Hr H. apply parts_begin in H. destruct H as (yt & q & Es & Hm & Hy & Hq).
  assert (Dn : ~ In "-"%char ds) by (apply digits_no; [exact Hd|reflexivity]).
  assert (Ne : ds <> []) by apply Hd.
  assert (F : forall c, In c yt -> digit_dash c).
  { intros c Hi. assert (I : In c (sgn ++ ds ++ r)) by (rewrite Es; apply in_or_app; auto). clear Hi.
    apply in_app_or in I. destruct I as [I|I]; [destruct Hs as [->| ->]; [destruct I|destruct I as [<-|[]]; right; reflexivity]|].
    apply in_app_or in I. destruct I as [I|I]; [left; destruct Hd as (_ & Hd); rewrite Forall_forall in Hd; apply Hd, I|].
    destruct Hr as [->|(r' & -> & Hr)]; [destruct I|]. destruct I as [<-|I]; [right; reflexivity|]. rewrite Forall_forall in Hr. exact (Hr _ I). }
  assert (Eq : yt = y).
  { assert (M : forall c, a_mark c -> digit_dash c -> False).
    { intros c [->|[->| ->]] [Q|Q]; discriminate. }
    destruct Hm as [|c Hc|c Hc]; [reflexivity|exfalso..]; apply (M c Hc), F; [left; reflexivity|apply in_or_app; right; left; reflexivity]. }
  subst yt. apply year_part_core, year_core in Hy. destruct Hy as (c1 & c2 & c3 & c4 & Hc & D1 & D2 & D3 & D4).
  assert (N4 : ~ In "-"%char [c1; c2; c3; c4]) by (intros [E|[E|[E|[E|[]]]]]; subst; discriminate).
  assert (A : exists sgn' ds', minus_text sgn' /\ ~ In "-"%char ds' /\ y = sgn' ++ ds' /\ length ds' = 4%nat).
  { destruct Hc as [->| ->]; [exists [], [c1; c2; c3; c4]|exists ($"-"), [c1; c2; c3; c4]]; (split; [first [left; reflexivity|right; reflexivity]|auto]). }
  destruct A as (sgn' & ds' & Hs' & Nd' & -> & L'). clear Hc. rewrite <- app_assoc in Es.
  assert (C : ds ++ r = ds' ++ q).
  { destruct Hs as [->| ->], Hs' as [->| ->].
    - exact Es.
    - destruct ds as [|c ds]; [congruence|]. cbn [app] in Es. injection Es as -> _. contradiction Dn. left. reflexivity.
    - destruct ds' as [|c ds']; [discriminate|]. cbn [app] in Es. injection Es as <- _. contradiction Nd'. left. reflexivity.
    - cbn [app] in Es. injection Es as Es. exact Es. }
  clear - C Hr Hq Dn Nd' L'. destruct Hr as [->|(r' & -> & _)]; destruct Hq as [->|(q' & ->)].
  - rewrite !app_nil_r in C. subst. exact L'.
  - exfalso. apply Dn. rewrite app_nil_r in C. rewrite C. apply in_or_app. right. left. reflexivity.
  - exfalso. apply Nd'. rewrite app_nil_r in C. rewrite <- C. apply in_or_app. right. left. reflexivity.
  - apply dash_unique in C; [subst; exact L'|assumption..].
Qed.
Lemma number_refused sgn ds r : minus_text sgn -> digits_text ds -> (r = [] \/ exists r', r = "-"%char :: r' /\ Forall digit_dash r') -> length ds <> 4%nat ->
  date_refused (sgn ++ ds ++ r) (EInvalid ($"date") (sgn ++ ds ++ r)).
Proof. intros Hs Hd Hr N. apply dx_form. intros y m d H. apply N. exact (parts_number _ _ _ _ _ _ Hs Hd Hr H). Qed.
Lemma number_half_refused sgn ds r : minus_text sgn -> digits_text ds -> (r = [] \/ exists r', r = "-"%char :: r' /\ Forall digit_dash r') -> length ds <> 4%nat ->
  half_refused (sgn ++ ds ++ r) (EInvalid ($"date") (sgn ++ ds ++ r)).
Proof.
  intros Hs Hd Hr N. apply hx_intro; [| |exact (number_refused _ _ _ Hs Hd Hr N)].
  - destruct Hs as [->| ->]; [|discriminate]. destruct ds; [destruct Hd as (Q & _); congruence|discriminate].
  - destruct Hs as [->| ->]; [|discriminate]. destruct Hd as (Q & F). destruct ds as [|c ds]; [congruence|]. intro E. cbn [app] in E. injection E as -> _.
    apply Forall_cons_iff in F. destruct F as (F & _). discriminate.
Qed.
Lemma number_span sgn ds : minus_text sgn -> digits_text ds -> length ds <> 4%nat -> DateSpanFromEDTF (sgn ++ ds) = Err (EInvalid ($"date") (sgn ++ ds)).
Proof.
  intros Hs Hd N. apply span_errors, sx_date; [apply number_noslash; assumption|].
  pose proof (number_refused sgn ds [] Hs Hd (or_introl eq_refl) N) as H. rewrite app_nil_r in H. exact H.
Qed.

(** ** Letter years *)
Lemma minus_long sgn ds : minus_text sgn -> digits_text ds ->
  Nat.ltb (if has_prefix (sgn ++ ds) ($"-") then 5%nat else 4%nat) (length (sgn ++ ds)) = Nat.ltb 4 (length ds).
Proof.
  intros [->| ->] (Ne & F).
  - destruct ds as [|c ds]; [congruence|]. apply Forall_cons_iff in F. destruct F as (F & _). cbn [app]. change ($"-") with ["-"%char]. cbn [has_prefix].
    destruct (Ascii.eqb "-" c) eqn:E; [apply Ascii.eqb_eq in E; subst; discriminate|]. reflexivity.
  - change ($"-") with ["-"%char]. cbn [app has_prefix]. rewrite has_prefix_nil. reflexivity.
Qed.
Theorem letter_errors s x : letter_year s -> (ParseLetterPrefixedCalendarYear s = Err x <-> letter_refused s x).
Proof.
  intro HL. apply exactly.
  - clear. assert (G : forall sg ds, minus_text sg -> digits_text ds -> ParseLetterPrefixedCalendarYear ($"Y" ++ sg ++ ds) =
      if Nat.ltb 4 (length ds) then Err (Unsupported LETTER_PREFIXED_CALENDAR_YEAR ($"Y" ++ sg ++ ds))
      else let* sp := DateSpanFromEDTF (sg ++ ds) in OK (edtf_of_span sp ($"Y" ++ sg ++ ds) LEVEL1 LETTER_PREFIXED_CALENDAR_YEAR)).
    { intros sg ds Hs Hd. unfold ParseLetterPrefixedCalendarYear. change ($"Y" ++ sg ++ ds) with ("Y"%char :: sg ++ ds). rewrite letter_submatch by (exists sg, ds; auto).
      cbn [length Nat.eqb negb]. cbv zeta. unfold sub. cbn [nth]. rewrite (minus_long _ _ Hs Hd). reflexivity. }
    intros x [sg ds Hs Hd L|sg ds Hs Hd L]; rewrite (G _ _ Hs Hd).
    + apply Nat.ltb_lt in L. rewrite L. reflexivity.
    + replace (Nat.ltb 4 (length ds)) with false by (symmetry; apply Nat.ltb_ge; lia). rewrite number_span by (assumption || lia). reflexivity.
  - destruct HL as (u & t & Hu & (sg & ds & Hs & Hd & ->) & ->). unfold is in Hu. subst u.
    destruct (Nat.eq_dec (length ds) 4) as [L|L].
    + left. destruct (number_year4 sg ds Hs Hd L) as (y & Hy). pose proof (lt_intro _ y _ _ Hy (ys_intro y y)) as R.
      apply letter_bridge in R; [|exists ($"Y"), (sg ++ ds); repeat split; exists sg, ds; auto]. destruct R as (e & E & _). eauto.
    + right. destruct (Nat.lt_ge_cases 4 (length ds)); eexists; [apply lx_long; try assumption|apply lx_short; try assumption; lia].
Qed.

(** ** Seasons *)
Lemma fmt_minus y : -999 <= y <= -1 -> fmt_0d 4 y = "-"%char :: three (- y).
Proof.
  intro H. replace y with (- (- y)) at 1 by lia. set (n := - y). assert (B : 1 <= n <= 999) by lia. clearbody n. clear y H.
  apply seqb_eq. apply (zrange_forall (fun n => seqb (fmt_0d 4 (- n)) ("-"%char :: three n)) 1 999); [vm_compute; reflexivity|lia].
Qed.
Lemma three_digits n : 0 <= n <= 999 -> digits_text (three n).
Proof. intro H. split; [discriminate|]. unfold three. repeat constructor; apply is_digit_char; lia. Qed.
Lemma halves_of a b c e dd : season_text a b c e dd =
  (fmt_0d 4 a ++ "-"%char :: fmt_0d 2 b ++ "-"%char :: fmt_0d 2 1) ++ "/"%char :: (fmt_0d 4 c ++ "-"%char :: fmt_0d 2 e ++ "-"%char :: fmt_0d 2 dd).
Proof. unfold season_text. change ($"-") with ["-"%char]. change ($"/") with ["/"%char]. rewrite <- !app_assoc. cbn [app]. rewrite <- !app_assoc. reflexivity. Qed.
Lemma half_dash x k : Forall digit_dash (fmt_0d 2 x ++ "-"%char :: fmt_0d 2 k).
Proof. apply Forall_app. split; [apply fmt_dash|]. constructor; [right; reflexivity|apply fmt_dash]. Qed.
Lemma half_slashless y x k : slashless (fmt_0d 4 y ++ "-"%char :: fmt_0d 2 x ++ "-"%char :: fmt_0d 2 k).
Proof.
  intro Hi. apply in_app_or in Hi. destruct Hi as [Hi|[Hi|Hi]]; [exact (fmt_noslash y Hi)|discriminate|]. exact (dash_noslash _ (half_dash x k) Hi).
Qed.
Lemma tail_dash b k : 0 <= b <= 99 -> 0 <= k <= 99 -> exists r, "-"%char :: two b ++ "-"%char :: two k = "-"%char :: r /\ Forall digit_dash r.
Proof.
  intros Hb Hk. eexists. split; [reflexivity|]. apply Forall_app. split; [apply two_dash; exact Hb|]. constructor; [right; reflexivity|apply two_dash; exact Hk].
Qed.
Lemma months_errors s y b e j x : -9999 <= y <= 9999 -> 1 <= b <= 12 -> 1 <= e <= 12 -> j = 0 \/ j = 1 /\ e = 2 ->
  (season_rest s y b (y + j) e = Err x <-> months_refused y b (y + j) x).
Proof.
  intros Hy Hb He Hj. apply exactly.
  - intros x' [H|H|H1 H2]; unfold season_rest.
    + rewrite H. assert (e = 2) by lia. subst e. reflexivity.
    + rewrite DaysInMonth_ok by lia. cbn [bind]. rewrite halves_of.
      assert (Q : halves_refused (fmt_0d 4 y ++ "-"%char :: fmt_0d 2 b ++ "-"%char :: fmt_0d 2 1) (fmt_0d 4 (y + j) ++ "-"%char :: fmt_0d 2 e ++ "-"%char :: fmt_0d 2 (month_len (y + j) e))
        (EInvalid ($"date") ($"-" ++ three (- y) ++ $"-" ++ two b ++ $"-01"))).
      { left. rewrite fmt_minus, !fmt_two by lia. change ($"-01") with ("-"%char :: two 1). 
        exact (number_half_refused ($"-") (three (- y)) ("-"%char :: two b ++ "-"%char :: two 1) (or_intror eq_refl) (three_digits (- y) ltac:(lia))
          (or_intror (tail_dash b 1 ltac:(lia) ltac:(lia))) ltac:(discriminate)). }
      apply halves_errors in Q; [|apply half_slashless..]. rewrite Q. reflexivity.
    + rewrite H1 in *. assert (j = 1) by lia. subst j. assert (e = 2) by lia. subst e. rewrite DaysInMonth_ok by lia. cbn [bind]. rewrite halves_of.
      assert (Q : halves_refused (fmt_0d 4 (-1000) ++ "-"%char :: fmt_0d 2 b ++ "-"%char :: fmt_0d 2 1) (fmt_0d 4 (-1000 + 1) ++ "-"%char :: fmt_0d 2 2 ++ "-"%char :: fmt_0d 2 (month_len (-1000 + 1) 2))
        (EInvalid ($"date") ($"-999-02-28"))).
      { right. split.
        - eexists. eexists. rewrite !fmt_two by lia. apply (day_half (-1000) b 1); [lia|]. unfold real_date. pose proof (month_len_range (-1000) b). lia.
        - exact (number_half_refused ($"-") ($"999") ($"-02-28") (or_intror eq_refl) (three_digits 999 ltac:(lia))
           (or_intror (tail_dash 2 28 ltac:(lia) ltac:(lia))) ltac:(discriminate)). }
      apply halves_errors in Q; [|apply half_slashless..]. rewrite Q. reflexivity.
  - destruct (Z.eq_dec (y + j) 10000) as [E|N]; [right; eexists; apply mx_next; exact E|].
    destruct (Z_le_dec (-999) y) as [L|L]; [destruct (Z_lt_dec y 0) as [L'|L']; [right; eexists; apply mx_first; lia|]|].
    + left. destruct (proj2 (season_rest_reads s y b (y + j) e (from_day y b 1) (to_day (y + j) e (month_len (y + j) e)) ltac:(lia) ltac:(lia) Hb He)) as (d & E & _); [unfold rendered; repeat split; lia|]. eauto.
    + destruct (Z.eq_dec (y + j) (-999)) as [E|N']; [right; eexists; apply mx_last; lia|]. left.
      destruct (proj2 (season_rest_reads s y b (y + j) e (from_day y b 1) (to_day (y + j) e (month_len (y + j) e)) ltac:(lia) ltac:(lia) Hb He)) as (d & E & _); [unfold rendered; repeat split; lia|]. eauto.
Qed.
Lemma season_months_end n b e j : season_months n b e j -> j = 0 \/ j = 1 /\ e = 2.
Proof. intros [k Hk|k w b' e' j' H]; [auto|]. destruct H; auto. Qed.
Theorem season_errors s x : level1_text s -> season_like s -> (ParseSeason s = Err x <-> season_refused s x).
Proof.
  intros H1 Hl. split.
  - intro E. destruct Hl as [Hl|(u & w & _ & Hx & Es)].
    + apply season_head_iff in Hl. destruct Hl as (t & y & n & r & Hy & Hn & ->).
      destruct (season_months_total n Hn) as (b & e & j & Hm). destruct (season_months_code n y b e j Hm) as (_ & Ec & Bb & Be & Bj).
      rewrite (season_code_rest t y n r _ _ _ _ Hy Hn Ec) in E. assert (By : -9999 <= y <= 9999) by (destruct Hy; lia).
      apply months_errors in E; try assumption; [|exact (season_months_end _ _ _ _ Hm)]. exact (nx_code t y n r b e j x Hy Hm E).
    + assert (W : season_words s) by (apply comma_words; [exact H1|rewrite Es; apply in_or_app; right; apply words_comma; exact Hx]).
      clear u w Hx Es. destruct W as (v & r & Hv & (sp & r' & Hs & (c & r'' & Hc & (sp' & f & Hs' & Hf & ->) & ->) & ->) & ->).
      unfold is in Hc. subst c. destruct Hf as (Lf & Ff). destruct f as [|a [|b [|c [|d [|? ?]]]]]; try discriminate.
      apply Forall_cons_iff in Ff. destruct Ff as (Da & Ff). apply Forall_cons_iff in Ff. destruct Ff as (Db & Ff). apply Forall_cons_iff in Ff. destruct Ff as (Dc & Ff).
      apply Forall_cons_iff in Ff. destruct Ff as (Dd & _). destruct (StrFacts.four_of a b c d Da Db Dc Dd) as (y & Hy & Ey). rewrite Ey in E |- *. clear Ey.
      destruct (season_name_of v Hv) as (n & w & b' & e & j & Hn & Hw). assert (B : 1 <= b' <= 12 /\ 1 <= e <= 12 /\ (j = 0 \/ j = 1 /\ e = 2)) by (destruct Hn; lia).
      change (v ++ sp ++ $"," ++ sp' ++ four y) with (words_text v sp sp' y) in *.
      rewrite (season_words_rest n w v sp sp' y b' e j Hn Hw Hs Hs') in E by lia. apply months_errors in E; [|lia..].
      apply (nx_words n w v sp sp' y b' e j); assumption.
  - intros [t y n r b e j x' Hy Hn Hx|n w v sp sp' y b e j x' Hn Hv Hs Hs' Hy Hx].
    + destruct (season_months_code n y b e j Hn) as (Bn & E & Bb & Be & Bj). change ($"-" ++ two n ++ r) with ("-"%char :: two n ++ r).
      rewrite (season_code_rest t y n r _ _ _ _ Hy Bn E). apply months_errors; try assumption; [destruct Hy; lia|exact (season_months_end _ _ _ _ Hn)].
    + change (v ++ sp ++ $"," ++ sp' ++ four y) with (words_text v sp sp' y).
      assert (B : 1 <= b <= 12 /\ 1 <= e <= 12 /\ (j = 0 \/ j = 1 /\ e = 2)) by (destruct Hn; lia).
      rewrite (season_words_rest n w v sp sp' y b e j Hn Hv Hs Hs') by lia. apply months_errors; try assumption; lia.
Qed.

(** ** Groupings *)
Lemma dec_nonempty s v : dec_digits s v -> s <> [].
Proof. intros [n Hn|u w n H Hn]; [discriminate|]. destruct u; discriminate. Qed.
Lemma dec_bounds s v : dec_digits s v -> 0 <= v < 10 ^ Z.of_nat (length s) /\
  forall c t, s = c :: t -> c <> "0"%char -> 10 ^ Z.of_nat (length t) <= v.
Proof.
  induction 1 as [n Hn|s v n H (IH & IH') Hn].
  - split; [cbn; lia|]. intros c t E N. injection E as <- <-. cbn. destruct (Z.eq_dec n 0) as [->|M]; [contradiction N; reflexivity|lia].
  - rewrite app_length. cbn [length]. rewrite Nat2Z.inj_add, Z.pow_add_r by lia. change (10 ^ Z.of_nat 1) with 10. split; [lia|].
    intros c t E N. destruct s as [|c' s]; [destruct (dec_nonempty _ _ H eq_refl)|].
    cbn [app] in E. injection E as <- <-. rewrite app_length. cbn [length]. rewrite Nat2Z.inj_add, Z.pow_add_r by lia. change (10 ^ Z.of_nat 1) with 10.
    specialize (IH' _ _ eq_refl N). lia.
Qed.
Lemma dec_same s v : dec_digits s v -> forall s', dec_digits s' v -> length s = length s' -> s = s'.
Proof.
  assert (P : forall t w, dec_digits t w -> (0 < length t)%nat) by (destruct 1; [cbn; lia|rewrite app_length; cbn; lia]).
  induction 1 as [n Hn|s v n H IH Hn]; intros s' H' L.
  - destruct H' as [n' Hn'|s' v' n' H' Hn']; [reflexivity|]. exfalso. pose proof (P _ _ H'). rewrite app_length in L. cbn in L. lia.
  - remember (10 * v + n) as w eqn:E. destruct H' as [n' Hn'|s' v' n' H' Hn'].
    + exfalso. pose proof (P _ _ H). rewrite app_length in L. cbn in L. lia.
    + assert (v' = v /\ n' = n) by lia. destruct H0 as (-> & ->). rewrite !app_length in L. cbn [length] in L. f_equal. apply IH; [exact H'|lia].
Qed.
Lemma dec_one s s' v c t c' t' : dec_digits s v -> dec_digits s' v -> s = c :: t -> s' = c' :: t' -> c <> "0"%char -> c' <> "0"%char -> s = s'.
Proof.
  intros H H' E E' N N'. apply (dec_same _ _ H _ H'). destruct (dec_bounds _ _ H) as (B & L). destruct (dec_bounds _ _ H') as (B' & L').
  specialize (L _ _ E N). specialize (L' _ _ E' N'). subst. cbn [length] in *. rewrite !Nat2Z.inj_succ in *.
  assert (Q : Z.of_nat (length t) < Z.succ (Z.of_nat (length t'))) by (apply (Z.pow_lt_mono_r_iff 10); lia).
  assert (Q' : Z.of_nat (length t') < Z.succ (Z.of_nat (length t))) by (apply (Z.pow_lt_mono_r_iff 10); lia). lia.
Qed.
Lemma canonical_fun w w' n : canonical_text w n -> canonical_text w' n -> w = w'.
Proof.
  intros [(B & H & (c & t & E & Z0))|(B & t & E & H & (c & u & E0 & Z0))] [(B' & H' & (c' & t' & E' & Z0'))|(B' & t' & E' & H' & (c' & u' & E0' & Z0'))]; try lia.
  - destruct (Z.eq_dec n 0) as [->|N].
    + assert (K : forall x a r, dec_digits x 0 -> x = a :: r -> a = "0"%char).
      { intros x a r D Ex. destruct (ascii_dec a "0") as [Q|Q]; [exact Q|]. destruct (dec_bounds _ _ D) as (_ & L). specialize (L _ _ Ex Q).
        pose proof (Z.pow_pos_nonneg 10 (Z.of_nat (length r)) ltac:(lia) ltac:(lia)). lia. }
      rewrite E, E', (K _ _ _ H E), (K _ _ _ H' E'), (Z0 (K _ _ _ H E)), (Z0' (K _ _ _ H' E')). reflexivity.
    + assert (K : forall x a r, dec_digits x n -> x = a :: r -> (a = "0"%char -> r = []) -> a <> "0"%char).
      { intros x a r D Ex Hr ->. rewrite (Hr eq_refl) in Ex. subst x. inversion D as [k Hk Q|? ? ? D' ? Q].
        - apply (f_equal (fun c => digit_val c)) in Q. rewrite digit_val_char in Q by lia. vm_compute in Q. lia.
        - destruct s as [|? [|? ?]]; [destruct (dec_nonempty _ _ D' eq_refl)|discriminate|discriminate]. }
      exact (dec_one _ _ _ _ _ _ _ H H' E E' (K _ _ _ H E Z0) (K _ _ _ H' E' Z0')).
  - rewrite E, E'. f_equal. exact (dec_one _ _ _ _ _ _ _ H H' E0 E0' Z0 Z0').
Qed.
Lemma canonical_itoa w n : canonical_text w n -> w = itoa n.
Proof. intro H. apply (canonical_fun _ _ _ H (itoa_canonical n)). Qed.

Lemma next_year y : 0 <= y <= 9999 -> length (itoa (y + 1)) = 4%nat <-> 999 <= y <= 9998.
Proof.
  intro Hy. destruct (Z.eq_dec y 9999) as [->|N]; [vm_compute; split; [discriminate|intros (_ & Q); contradiction Q; reflexivity]|].
  pose proof (itoa_len (y + 1) ltac:(lia)) as K. unfold slen in K.
  destruct (y + 1 <? 10) eqn:E1; [lia|]. destruct (y + 1 <? 100) eqn:E2; [lia|]. destruct (y + 1 <? 1000) eqn:E3; lia.
Qed.
Lemma grouping_code s : ~ level0_form s -> ~ level1_text s -> sub_year_grouping s -> exists y n, s = code_text y n /\ 0 <= y <= 9999 /\ 25 <= n <= 41.
Proof.
  intros N0 N1 (f & r & (Lf & Ff) & (c & t & Hc & (n & Hn & ->) & ->) & ->). unfold is in Hc. subst c.
  destruct f as [|a [|b [|c [|k [|? ?]]]]]; try discriminate.
  apply Forall_cons_iff in Ff. destruct Ff as (Da & Ff). apply Forall_cons_iff in Ff. destruct Ff as (Db & Ff). apply Forall_cons_iff in Ff. destruct Ff as (Dc & Ff).
  apply Forall_cons_iff in Ff. destruct Ff as (Dd & _). destruct (StrFacts.four_of a b c k Da Db Dc Dd) as (y & Hy & Ey). rewrite Ey in *. clear Ey a b c k Lf Da Db Dc Dd.
  exists y, n. change ($"-" ++ two n) with ("-"%char :: two n) in *. fold (code_text y n) in *. split; [reflexivity|]. split; [exact Hy|].
  destruct (Z_lt_dec n 25) as [L|L]; [exfalso|lia]. destruct (Z_le_dec n 12) as [L'|L'].
  - apply N0. left. exists y, (Some n), None. pose proof (month_level0 y n ltac:(lia) ltac:(lia)) as M. unfold month_text in M. rewrite text_four in M by exact Hy. exact M.
  - apply N1. left. right. left. exists (four y), ("-"%char :: two n). split; [exists y; apply four_year4; exact Hy|]. split; [|reflexivity].
    exists ["-"%char], (two n). repeat split. exists n. split; [lia|reflexivity].
Qed.
Theorem grouping_errors s x : ~ level0_form s -> ~ level1_text s -> sub_year_grouping s -> (ParseSubYearGroupings s = Err x <-> grouping_refused s x).
Proof.
  intros N0 N1 HG. apply exactly.
  - clear. intros x [y n b w Hg Hy Hw]. apply canonical_itoa in Hw. subst w. assert (By : 0 <= y <= 9999) by lia.
    change ($"-" ++ two n) with ("-"%char :: two n). fold (code_text y n). destruct (code_range _ _ _ _ Hg) as (Hn & Hb & _).
    unfold ParseSubYearGroupings. rewrite grouping_submatch by (assumption || lia). cbn [length Nat.eqb negb]. cbv zeta. unfold sub. cbn [nth].
    destruct (table n b 2 1 (y + 1) Hg) as (dd & Et & Hdd). rewrite Et. change (1 =? 0) with false in *. subst dd. cbn [negb bind is_empty].
    rewrite atoi_year4 with (y := y) by (apply four_year4; exact By). cbn [bind].
    change ($"/" ++ itoa (y + 1) ++ $"-" ++ two 2) with ("/"%char :: itoa (y + 1) ++ "-"%char :: two 2).
    replace (four y ++ $"-" ++ two b ++ $"-" ++ $"01") with (day_text y b 1) by (unfold day_text; rewrite text_four by exact By; reflexivity).
    assert (Q : halves_refused (day_text y b 1) (itoa (y + 1) ++ "-"%char :: two 2) (EInvalid ($"date") (itoa (y + 1) ++ $"-02"))).
    { right. split.
      - do 2 eexists. apply day_half; [lia|]. unfold real_date. pose proof (month_len_range y b). lia.
      - refine (number_half_refused [] (itoa (y + 1)) ("-"%char :: two 2) (or_introl eq_refl) (itoa_number (y + 1) ltac:(lia)) (or_intror _) _).
        + eexists. split; [reflexivity|apply two_dash; lia].
        + rewrite next_year by exact By. lia. }
    apply halves_errors in Q.
    + rewrite Q. reflexivity.
    + apply day_noslash; lia.
    + intro Hi. apply in_app_or in Hi. destruct Hi as [Hi|[Hi|Hi]]; [|discriminate|apply in_two in Hi; [discriminate|lia]].
      revert Hi. apply digits_no; [apply itoa_number; lia|reflexivity].
  - destruct (grouping_code s N0 N1 HG) as (y & n & -> & Hy & Hn). destruct (grouping_codes n Hn) as (b & e & j & Hg).
    assert (Hj : j = 0 \/ j = 1 /\ e = 2) by (destruct Hg; auto).
    assert (C : (j = 0 \/ 999 <= y <= 9998) \/ j = 1 /\ e = 2 /\ (0 <= y < 999 \/ y = 9999)) by lia. destruct C as [C|(-> & -> & C)].
    + left. pose proof (gr_intro y n b e j Hg Hy C) as R. apply grouping_bridge in R; [|assumption..]. destruct R as (d & E & _). eauto.
    + right. eexists. exact (rx_intro y n b (itoa (y + 1)) Hg C (itoa_canonical _)).
Qed.
