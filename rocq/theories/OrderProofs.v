(** The order of the outer bounds: C27, second clause. *)
From Coq Require Import Ascii String ZArith NArith Bool Lia ZifyBool List.
From Verif Require Import GoStr GoTime Regex Patterns RegexSym RegexRel RegexGen SpecCal SpecText SpecGrammar SpecForms SpecSpan StrFacts TextFacts Edtf Calendar Common Level0 Level1 Level2 Parser CalFacts ApiFacts SpanFacts YmdShapes YmdFacts InvFacts GrammarFacts LangFacts LangNorm LangForms LangForms2 DateFacts ParseFacts SplitFacts Level0Facts FormFacts SeasonFacts Level1Proofs XProofs FormProofs GroupingProofs SigProofs InvProofs2.
Import ListNotations.
Open Scope Z_scope.
Ltac Zify.zify_post_hook ::= Z.div_mod_to_equations.

Definition outer (d : edtfdate) : Prop := bound_le (r_lower (e_start d)) (r_upper (e_end d)).

(** A date text that starts with a number has four digits there. *)
Lemma year_head s y m d y' m' d' u a p sg sgn ds r : date_den s y m d y' m' d' u a p sg -> minus_text sgn -> digits_text ds ->
  s = sgn ++ ds ++ "-"%char :: r -> length ds = 4%nat.
Proof.
  intros [(yt & yc & yq & mt & mc & mq & dt & dc & dq & py & sy & sm & sd & Ht & Hp & _)] Hs Hd E.
  destruct Hp as [Hq Hy _ _ _ _]. apply year_core in Hy. destruct Hy as (c1 & c2 & c3 & c4 & Hc & D1 & D2 & D3 & D4).
  assert (NoD : ~ In "-"%char ds) by (apply digits_no; [exact Hd|reflexivity]).
  assert (DX : forall c, is_dx c = true -> c <> "-"%char) by (intros c H ->; discriminate).
  assert (Tl : exists w, s = yt ++ w /\ (w = [] \/ exists z, w = "-"%char :: z)).
  { inversion Ht; subst; [exists []; rewrite app_nil_r; auto|eexists; split; [reflexivity|eauto]..]. }
  destruct Tl as (w & Ew & Hw).
  assert (Main : forall core tl, (core = [c1; c2; c3; c4] \/ exists q, is_digit q = false /\ q <> "-"%char /\ core = [c1; c2; c3; c4; q]) ->
    (tl = [] \/ exists z, tl = "-"%char :: z) -> ds ++ "-"%char :: r = core ++ tl -> length ds = 4%nat).
  { intros core tl Hcore Htl Q.
    assert (Nc : ~ In "-"%char core).
    { intro Hi. destruct Hcore as [->|(q & _ & Q2 & ->)]; cbn in Hi; decompose [or] Hi; try contradiction;
        match goal with H : _ = "-"%char |- _ => subst; first [discriminate|contradiction] end. }
    destruct Htl as [->|(z & ->)].
    - exfalso. apply Nc. rewrite app_nil_r in Q. rewrite <- Q. apply in_or_app. right. left. reflexivity.
    - destruct (split_once _ _ _ _ _ NoD Nc Q) as (-> & _). destruct Hcore as [->|(q & Q1 & _ & ->)]; [reflexivity|].
      exfalso. apply (digits_no q _ Hd Q1). cbn. auto 10. }
  assert (Hd0 : exists c0 t0, ds = c0 :: t0 /\ is_digit c0 = true).
  { destruct Hd as (Hn & Hf). destruct ds as [|c0 t0]; [contradiction|]. inversion Hf; subst. eauto. }
  destruct Hd0 as (c0 & t0 & -> & Hc0). change ($"-") with ["-"%char] in Hs.
  inversion Hq as [cc E1 E2 E3|c cc Hqc E1 E2 E3|c cc Hqc E1 E2 E3]; subst.
  - destruct Hs as [->| ->], Hc as [->| ->]; cbn [app] in Ew.
    + apply (Main [c1; c2; c3; c4] w); auto.
    + exfalso. injection Ew as -> _. discriminate.
    + exfalso. injection Ew as E4 _. exact (DX _ D1 (eq_sym E4)).
    + injection Ew as Ew. apply (Main [c1; c2; c3; c4] w); auto. cbn [app]. rewrite Ew. f_equal. assumption.
  - exfalso. destruct (qset_not c Hqc) as (Q1 & _ & Q2).
    destruct Hs as [->| ->]; cbn [app] in Ew; injection Ew as Ew _; congruence.
  - destruct (qset_not c Hqc) as (Q1 & _ & Q2).
    destruct Hs as [->| ->], Hc as [->| ->]; cbn [app] in Ew.
    + apply (Main [c1; c2; c3; c4; c] w); eauto 10.
    + exfalso. injection Ew as -> _. discriminate.
    + exfalso. injection Ew as E4 _. exact (DX _ D1 (eq_sym E4)).
    + injection Ew as E4 Ew. apply (Main [c1; c2; c3; c4; c] w); eauto 10. cbn [app]. rewrite E4, Ew. reflexivity.
Qed.
Lemma half_head l lo hi sgn ds r : half l lo hi -> minus_text sgn -> digits_text ds -> l = sgn ++ ds ++ "-"%char :: r -> length ds = 4%nat.
Proof.
  intros [| |t y m d y' m' d' u a p sg HD _ _ _ _] Hs Hd E.
  - exfalso. destruct Hs as [->| ->]; [destruct ds; discriminate|discriminate].
  - exfalso. destruct Hs as [->| ->]; [|discriminate]. destruct Hd as (Hn & Hf). destruct ds as [|c ds]; [contradiction|]. cbn in E. injection E as <- _. inversion Hf; subst. discriminate.
  - eapply year_head; eassumption.
Qed.
Lemma half_func t lo hi lo' hi' : half t lo hi -> half t lo' hi' -> lo = lo' /\ hi = hi'.
Proof.
  intros H H'. destruct (half_fwd _ _ _ H) as (sp & E & <- & <- & _). destruct (half_fwd _ _ _ H') as (sp' & E' & <- & <- & _).
  rewrite E in E'. injection E' as ->. auto.
Qed.
Lemma two_sides a b sp : ~ In "/"%char a -> DateSpanFromEDTF (a ++ "/"%char :: b) = OK sp ->
  exists lo hi lo' hi', half a lo hi /\ half b lo' hi' /\ sp = mkSpan (mkRange a lo hi) (mkRange b lo' hi').
Proof.
  intros Ha H. destruct (DateSpan_inv _ _ H) as [(N & _)|(l & r & lo & hi & lo' & hi' & E & Nl & _ & Hl & Hr & ->)].
  - exfalso. apply N. apply in_or_app. right. left. reflexivity.
  - destruct (split_once _ _ _ _ _ Ha Nl E) as (-> & ->). eauto 10.
Qed.
Lemma level0_order a b y m d y' m' d' sp : level0_date a y m d -> exists_date y m d -> level0_date b y' m' d' -> exists_date y' m' d' ->
  date_le y (first_month m) (first_day d) y' (last_month m') (last_day y' (last_month m') d') ->
  DateSpanFromEDTF (a ++ "/"%char :: b) = OK sp -> bound_le (r_lower (s_start sp)) (r_upper (s_end sp)).
Proof.
  intros Ha Xa Hb Xb L H.
  assert (Na : ~ In "/"%char a) by (apply no_slash; eapply level0_is; exact Ha).
  destruct (two_sides _ _ _ Na H) as (lo & hi & lo' & hi' & H1 & H2 & ->). cbn [s_start s_end r_lower r_upper].
  destruct (half_func _ _ _ _ _ H1 (level0_half _ _ _ _ Ha Xa)) as (-> & _).
  destruct (half_func _ _ _ _ _ H2 (level0_half _ _ _ _ Hb Xb)) as (_ & ->).
  intros t t' E E'. injection E as <-. injection E' as <-. apply instant_le; [exact Xa|exact (last_real _ _ _ _ Hb Xb)|exact L|unfold clock; lia..].
Qed.
Lemma single_order s sp : dateSpanFromYMD s = OK sp -> bound_le (r_lower (s_start sp)) (r_upper (s_end sp)).
Proof.
  intro H. destruct (span_inv _ _ H) as (y & m & d & y' & m' & d' & u & a & p & sg & HD & Hr & Hr' & Hy & Hy' & E).
  exact (proj1 (proj2 (proj2 (proj2 (proj2 (proj2 (proj2 (span6_bounds _ _ _ _ _ _ _ _ _ _ _ HD Hr Hr' Hy Hy' sp E)))))))).
Qed.
Lemma noslash_order s sp : ~ In "/"%char s -> DateSpanFromEDTF s = OK sp -> bound_le (r_lower (s_start sp)) (r_upper (s_end sp)).
Proof. intros N H. rewrite single_fwd in H by exact N. exact (single_order _ _ H). Qed.

(** ** Seasons *)
Lemma four_text n : 0 <= n <= 9999 -> digits_text (four n).
Proof. intro H. split; [discriminate|]. unfold four. repeat (apply Forall_cons; [apply is_digit_char; lia|]). apply Forall_nil. Qed.
Lemma three_text n : 0 <= n <= 999 -> digits_text (three n).
Proof. intro H. split; [discriminate|]. unfold three. repeat (apply Forall_cons; [apply is_digit_char; lia|]). apply Forall_nil. Qed.
Lemma fmt_three n : 1 <= n <= 999 -> fmt_0d 4 (- n) = "-"%char :: three n.
Proof.
  intro H. apply seqb_eq. apply (zrange_forall (fun n => seqb (fmt_0d 4 (- n)) ("-"%char :: three n)) 1 999); [vm_compute; reflexivity|lia].
Qed.
Lemma fmt_head y : -9999 <= y <= 10000 -> exists sgn ds, minus_text sgn /\ digits_text ds /\ fmt_0d 4 y = sgn ++ ds /\ (length ds = 4%nat -> rendered y).
Proof.
  intro H. assert (C : 0 <= y <= 9999 \/ y = 10000 \/ -9999 <= y <= -1000 \/ -999 <= y <= -1) by lia.
  destruct C as [C|[->|[C|C]]].
  - exists [], (four y). split; [left; reflexivity|]. split; [apply four_text; exact C|]. split; [apply fmt_four; exact C|]. intros _. left. exact C.
  - exists [], ($"10000"). split; [left; reflexivity|]. split; [split; [discriminate|]; repeat constructor|]. split; [reflexivity|discriminate].
  - exists ($"-"), (four (- y)). split; [right; reflexivity|]. split; [apply four_text; lia|].
    split; [rewrite fmt_year by (right; lia); unfold year_text; replace (y <? 0) with true by lia; reflexivity|]. intros _. right. lia.
  - exists ($"-"), (three (- y)). split; [right; reflexivity|]. split; [apply three_text; lia|].
    split; [replace y with (- - y) at 1 by lia; apply fmt_three; lia|discriminate].
Qed.
Lemma code_cases n y a b c e : season_code n y = (a, b, c, e) -> 1 <= n <= 12 \/ 21 <= n <= 24 ->
  a = y /\ 1 <= b <= 12 /\ 1 <= e <= 12 /\ (c = y /\ b <= e \/ c = y + 1).
Proof.
  unfold season_code. destruct (n =? 21) eqn:E1; [intro Q; injection Q as <- <- <- <-; lia|]. destruct (n =? 22) eqn:E2; [intro Q; injection Q as <- <- <- <-; lia|].
  destruct (n =? 23) eqn:E3; [intro Q; injection Q as <- <- <- <-; lia|]. destruct (n =? 24) eqn:E4; intro Q; injection Q as <- <- <- <-; lia.
Qed.
Lemma word_cases w y a b c e : season_word w y = Some (a, b, c, e) -> a = y /\ 1 <= b <= 12 /\ 1 <= e <= 12 /\ (c = y /\ b <= e \/ c = y + 1).
Proof.
  unfold season_word. cbv zeta. repeat match goal with |- (if ?b then _ else _) = _ -> _ => destruct b end;
    intro Q; try discriminate Q; injection Q as <- <- <- <-; lia.
Qed.
Lemma two_atoi n : 0 <= n <= 99 -> atoi (two n) = OK n.
Proof.
  intro H. assert (Q : match atoi (two n) with OK v => v =? n | _ => false end = true).
  { apply (zrange_forall (fun n => match atoi (two n) with OK v => v =? n | _ => false end) 0 100); [vm_compute; reflexivity|lia]. }
  destruct (atoi (two n)); try discriminate. f_equal. lia.
Qed.
(** What the season expression captures. *)
Lemma season_captures s : find_submatch Season s <> [] -> 
  (exists t y n r, year4 t y /\ (1 <= n <= 12 \/ 21 <= n <= 24) /\ sub (find_submatch Season s) 1 = t /\ sub (find_submatch Season s) 2 = two n /\ s = t ++ "-"%char :: two n ++ r) \/
  (exists n, 0 <= n <= 9999 /\ sub (find_submatch Season s) 1 = [] /\ sub (find_submatch Season s) 4 = four n).
Proof.
  intro H. destruct (submatch_run _ _ H) as (p & q & st & E & R & Ef). rewrite Ef. rewrite Season_body' in R. destruct R as [R|R].
  - left. apply (run_pre season_A p q st) in R; [|reflexivity]. destruct R as (-> & u & k & G & Eq & Ec & _).
    apply gen_season_A in G. destruct G as (t & y & n & Hy & Hn & -> & ->). exists t, y, n, (m_rest st). cbn [app] in E. subst s q.
    split; [exact Hy|]. split; [exact Hn|]. unfold outcome. rewrite Ec. split; [reflexivity|]. split; [reflexivity|]. rewrite <- app_assoc. reflexivity.
  - right. apply (unend_run season_b season_B eq_refl) in R. destruct R as (R & He).
    apply (run_gen season_B eq_refl) in R. destruct R as (u & k & G & Eq & Ec & _). cbn in Eq, Ec. rewrite app_nil_r in Ec.
    apply gen_words in G. destruct G as (w & sp & sp' & n & _ & _ & _ & Hn & _ & ->). exists n. split; [exact Hn|]. unfold outcome. rewrite Ec. split; reflexivity.
Qed.
Lemma four_atoi n : 0 <= n <= 9999 -> atoi (four n) = OK n.
Proof. intro H. apply atoi_year4. constructor. exact H. Qed.
Lemma season_order s d : ParseSeason s = OK d -> outer d.
Proof.
  intro H. destruct (season_inv _ _ H) as (a & b & c & e & dd & sp & Hq). cbv zeta in Hq. destruct Hq as (Hl & Hc & Hdd & Hsp & ->).
  assert (Hm : find_submatch Season s <> []) by (intro Q; rewrite Q in Hl; discriminate Hl).
  assert (C : exists y, -9999 <= y <= 9999 /\ a = y /\ 1 <= b <= 12 /\ 1 <= e <= 12 /\ (c = y /\ b <= e \/ c = y + 1)).
  { destruct (season_captures s Hm) as [(t & y & n & r & Hy & Hn & E1 & E2 & _)|(n & Hn & E1 & E4)].
    - rewrite E1, E2 in Hc. destruct Hc as [(Q & _)|(_ & y' & n' & A1 & A2 & Hc)]; [destruct (year4_ne _ _ Hy Q)|].
      rewrite (atoi_year4 _ _ Hy) in A1. injection A1 as <-. rewrite two_atoi in A2 by lia. injection A2 as <-.
      exists y. split; [exact (year4_range _ _ Hy)|]. exact (code_cases _ _ _ _ _ _ Hc Hn).
    - rewrite E1, E4 in Hc. destruct Hc as [(_ & y & A1 & Hc)|(Q & _)]; [|contradiction].
      rewrite four_atoi in A1 by exact Hn. injection A1 as <-. exists n. split; [lia|]. exact (word_cases _ _ _ _ _ _ Hc). }
  destruct C as (y & Hy & -> & Hb & He & Hcy). unfold outer, edtf_of_span. cbn [e_start e_end].
  destruct (fmt_head y ltac:(lia)) as (sg & ds & S1 & S2 & S3 & S4).
  destruct (fmt_head c ltac:(lia)) as (sg' & ds' & T1 & T2 & T3 & T4).
  assert (Hspl : season_text y b c e dd = (sg ++ ds ++ "-"%char :: fmt_0d 2 b ++ $"-" ++ fmt_0d 2 1) ++ "/"%char :: (sg' ++ ds' ++ "-"%char :: fmt_0d 2 e ++ $"-" ++ fmt_0d 2 dd)).
  { unfold season_text. rewrite S3, T3. change ($"-") with ["-"%char]. change ($"/") with ["/"%char]. repeat (progress (rewrite <- ?app_assoc; cbn [app])). reflexivity. }
  assert (Hsp' := Hsp). rewrite Hspl in Hsp'. apply two_sides in Hsp'.
  - destruct Hsp' as (lo & hi & lo' & hi' & H1 & H2 & _).
    pose proof (S4 (half_head _ _ _ _ _ _ H1 S1 S2 eq_refl)) as Ry. pose proof (T4 (half_head _ _ _ _ _ _ H2 T1 T2 eq_refl)) as Rc.
    pose proof (rendered_range _ Rc). rewrite DaysInMonth_ok in Hdd by (lia). injection Hdd as <-.
    pose proof (month_len_range c e). rewrite season_text_eq in Hsp by (assumption || lia).
    pose proof (month_len_range y b).
    refine (level0_order _ _ _ _ _ _ _ _ _ (day_level0 y b 1 ltac:(lia) ltac:(lia) ltac:(lia)) _ (day_level0 c e (month_len c e) ltac:(lia) ltac:(lia) ltac:(lia)) _ _ Hsp).
    + split; cbn; lia.
    + split; cbn; lia.
    + cbn [first_month first_day last_month last_day]. unfold date_le. lia.
  - rewrite fmt_two, fmt_two by lia. intro Hi. apply in_app_or in Hi. destruct Hi as [Hi|Hi]; [destruct S1 as [->| ->]; [destruct Hi|destruct Hi as [Hi|[]]; discriminate]|].
    apply in_app_or in Hi. destruct Hi as [Hi|[Hi|Hi]]; [exact (digits_no "/"%char ds S2 eq_refl Hi)|discriminate|].
    apply in_app_or in Hi. destruct Hi as [Hi|[Hi|Hi]]; [|discriminate|]; apply in_two in Hi; try lia; discriminate Hi.
Qed.

(** ** Sub-year groupings *)
Lemma full_table n : 21 <= n <= 41 -> exists b e j dd, grouping_bounds (two n) = Some (two b, $"01", two e, dd, negb (j =? 0)) /\
  1 <= b <= 12 /\ 1 <= e <= 12 /\ (j = 0 /\ b <= e \/ j = 1) /\ forall y, dd = if j =? 0 then two (month_len y e) else [].
Proof.
  intro H. assert (Q : exists k b e j, grouping_of k b e j /\ grouping_bounds (two n) = grouping_bounds (two k) /\ (j = 0 /\ b <= e \/ j = 1)).
  { assert (C : n = 21 \/ n = 22 \/ n = 23 \/ n = 24 \/ n = 25 \/ n = 26 \/ n = 27 \/ n = 28 \/ n = 29 \/ n = 30 \/ n = 31 \/ n = 32 \/ n = 33 \/ n = 34 \/ n = 35 \/ n = 36 \/ n = 37 \/ n = 38 \/ n = 39 \/ n = 40 \/ n = 41) by lia.
    repeat (destruct C as [->|C]); try subst n; do 4 eexists; (split; [constructor|split; [reflexivity|lia]]). }
  destruct Q as (k & b & e & j & G & E & O). destruct (code_range _ _ _ _ G) as (_ & Hb & He & _).
  destruct (table k b e j 0 G) as (dd & Ed & _). exists b, e, j, dd. rewrite E. split; [exact Ed|]. split; [exact Hb|]. split; [exact He|]. split; [exact O|].
  intro y. destruct (table k b e j y G) as (dd' & Ed' & F). rewrite Ed in Ed'. injection Ed' as ->. exact F.
Qed.
Lemma itoa_next y : 0 <= y <= 9999 -> digits_text (itoa (y + 1)) /\ (length (itoa (y + 1)) = 4%nat -> 1000 <= y + 1 <= 9999).
Proof.
  intro H. unfold itoa. replace (y + 1 <? 0) with false by lia. destruct (digits_ok (y + 1) ltac:(lia)) as (F & N & _).
  split; [split; assumption|]. intro L. destruct (digits_len (y + 1) ltac:(lia)) as (A & B). rewrite L in A, B. specialize (B ltac:(lia)).
  change (10 ^ Z.of_nat 4) with 10000 in A. change (10 ^ (Z.of_nat 4 - 1)) with 1000 in B. lia.
Qed.
Lemma grouping_order s d : ParseSubYearGroupings s = OK d -> outer d.
Proof.
  intro H. destruct (grouping_inv _ _ H) as (a & b & c & e & nx & ey & sp & Hq). cbv zeta in Hq. destruct Hq as (Hl & Hg & Hey & Hsp & ->).
  assert (Hm : match_string SubYearGrouping s = true) by (apply match_iff; intro Q; rewrite Q in Hl; discriminate Hl).
  apply Grouping_spec in Hm. destruct Hm as (u & v & Hu & (v1 & v2 & -> & (n & Hn & ->) & ->) & ->).
  assert (Hf : exists y, 0 <= y <= 9999 /\ u = four y).
  { apply lg_d4. exact (proj2 (den_4 u) Hu). }
  destruct Hf as (y & Hy & ->). change (four y ++ $"-" ++ two n) with (code_text y n) in *. rewrite grouping_submatch in * by assumption.
  unfold sub in *. cbn [nth] in *. destruct Hn as [Hn|Hn].
  { exfalso. assert (C : n = 10 \/ n = 11 \/ n = 12) by lia. destruct C as [->|[->| ->]]; discriminate Hg. }
  destruct (full_table n Hn) as (B & E & j & dd & Et & HB & HE & Hj & Hdd). rewrite Et in Hg. injection Hg as <- <- <- <- <-.
  pose proof (month_len_range y B). pose proof (month_len_range y E). unfold outer, edtf_of_span. cbn [e_start e_end].
  replace (four y ++ $"-" ++ two B ++ $"-" ++ ["0"%char; "1"%char]) with (day_text y B 1) in Hsp by (unfold day_text; rewrite text_four by exact Hy; reflexivity).
  assert (XB : exists_date y (Some B) (Some 1)) by (split; cbn; lia).
  pose proof (day_level0 y B 1 ltac:(lia) ltac:(lia) ltac:(lia)) as LB.
  destruct Hj as [(-> & Hj)| ->]; cbn [Z.eqb negb] in *.
  - subst ey. rewrite (Hdd y) in Hsp. cbn [Z.eqb] in Hsp. replace (is_empty (two (month_len y E))) with false in Hsp by reflexivity.
    replace ((four y ++ $"-" ++ two E) ++ $"-" ++ two (month_len y E)) with (day_text y E (month_len y E)) in Hsp
      by (unfold day_text; rewrite text_four by exact Hy; rewrite <- !app_assoc; reflexivity).
    refine (level0_order _ _ _ _ _ _ _ _ _ LB XB (day_level0 y E (month_len y E) ltac:(lia) ltac:(lia) ltac:(lia)) _ _ Hsp).
    + split; cbn; lia.
    + cbn [first_month first_day last_month last_day]. unfold date_le. lia.
  - destruct Hey as (y0 & Hy0 & ->). rewrite four_atoi in Hy0 by exact Hy. injection Hy0 as <-. rewrite (Hdd y) in Hsp. cbn [Z.eqb is_empty] in Hsp.
    destruct (itoa_next y Hy) as (I1 & I2). assert (Hsp' := Hsp). apply two_sides in Hsp'; [|apply day_noslash; lia].
    destruct Hsp' as (lo & hi & lo' & hi' & _ & H2 & _).
    assert (L4 : length (itoa (y + 1)) = 4%nat) by exact (half_head _ _ _ [] _ _ H2 (or_introl eq_refl) I1 eq_refl).
    specialize (I2 L4). rewrite itoa_four in Hsp by lia.
    replace (four (y + 1) ++ $"-" ++ two E) with (month_text (y + 1) E) in Hsp by (unfold month_text; rewrite text_four by lia; reflexivity).
    pose proof (month_len_range (y + 1) E).
    refine (level0_order _ _ _ _ _ _ _ _ _ LB XB (month_level0 (y + 1) E ltac:(lia) ltac:(lia)) _ _ Hsp).
    + split; cbn; lia.
    + cbn [first_month first_day last_month last_day]. unfold date_le. lia.
Qed.

(** ** Significant digits *)
Lemma sig_wide y v sp : y < -9999 -> 0 <= v <= slen (itoa y) -> DateSpanFromEDTF (significant_text y v) = OK sp -> False.
Proof.
  intros Hy Hv H.
  destruct (sig_side_number "0"%char y v eq_refl Hv) as (s0 & d0 & M0 & D0 & E0 & L0).
  destruct (sig_side_number "9"%char y v eq_refl Hv) as (s9 & d9 & M9 & D9 & E9 & L9).
  assert (T : exists a b, significant_text y v = a ++ "/"%char :: b /\ exists s d, minus_text s /\ digits_text d /\ a = s ++ d /\
    slen d = if (y <? 0) && (v =? slen (itoa y)) then slen (itoa y) else slen (itoa (Z.abs y))).
  { unfold significant_text. cbv zeta. change ($"0") with ["0"%char]. change ($"9") with ["9"%char]. fold (sig_side "0"%char y v). fold (sig_side "9"%char y v).
    destruct (has_prefix _ _ && has_prefix _ _); [exists (sig_side "9"%char y v), (sig_side "0"%char y v)|exists (sig_side "0"%char y v), (sig_side "9"%char y v)];
      (split; [reflexivity|]); eauto 8. }
  destruct T as (a & b & Et & s & d & Ms & Dd & -> & Ld). rewrite Et in H.
  destruct (two_sides _ _ _ (number_noslash _ _ Ms Dd) H) as (lo & hi & lo' & hi' & H1 & _ & _).
  pose proof (half_number _ _ _ _ _ H1 Ms Dd eq_refl) as L4. unfold slen at 1 in Ld. rewrite L4 in Ld.
  assert (W : 5 <= slen (itoa (Z.abs y)) /\ slen (itoa y) = 1 + slen (itoa (Z.abs y))).
  { split.
    - destruct (Z.leb_spec 5 (slen (itoa (Z.abs y)))) as [Q|Q]; [exact Q|exfalso]. assert (Q' : slen (itoa (Z.abs y)) <= 4) by lia.
      apply itoa_fits in Q'; [|lia..]. change (10 ^ 4) with 10000 in Q'. lia.
    - replace y with (- Z.abs y) at 1 by lia. rewrite itoa_neg by lia. unfold slen. cbn [length]. rewrite Nat2Z.inj_succ. lia. }
  destruct ((y <? 0) && _); lia.
Qed.
Lemma significant_order s d : ParseSignificantDigits s = OK d -> outer d.
Proof.
  intro H. destruct (significant_inv _ _ H) as (y & n & sp & Hq). cbv zeta in Hq. destruct Hq as (_ & _ & Hy & _ & Hw & Hn & Hsp & ->).
  unfold MAX_YEARS in Hy. destruct (Z.ltb_spec y (-9999)) as [Q|Q]; [destruct (sig_wide _ _ _ Q Hn Hsp)|].
  destruct (sig_text_ok y n sp ltac:(lia) Hn Hsp) as [(Ha & Hn4)|(Hr & ->)].
  - assert (D : dec_digits [digit_char n] n).
    { apply dec_digits_iff. split; [discriminate|]. cbn [dec_val]. rewrite is_digit_char by lia. rewrite digit_val_char by lia. f_equal. }
    destruct (sig_rest_spans s y [digit_char n] n ltac:(lia) D Ha Hn4) as (e & lo & hi & E & _ & _ & F1 & F2 & _ & _ & I).
    unfold sig_rest in E. destruct (MAX_YEARS <? y); [discriminate|]. rewrite (atoi_dec _ _ D) in E. destruct (n <=? max_int64); [|discriminate]. cbn [or_invalid bind] in E.
    destruct (slen (itoa y) <? slen (itoa n)); [discriminate|]. destruct (_ || _); [discriminate|]. rewrite Hsp in E. injection E as <-.
    assert (Y : lo <= y <= hi) by (apply I; split; [nia|reflexivity]).
    unfold outer. intros t t' E E'. destruct F1 as ((F1 & _) & _). destruct F2 as (_ & (F2 & _)). rewrite F1 in E. rewrite F2 in E'. injection E as <-. injection E' as <-.
    apply instant_le; [split; cbn; lia|split; cbn; lia| |unfold clock; lia..]. unfold date_le. lia.
  - assert (C : significant_text y 4 = $"0000" ++ "/"%char :: $"9999").
    { unfold significant_text. cbv zeta. assert (L : length (itoa y) = 4%nat).
      { apply Nat2Z.inj. change (slen (itoa y) = 4). rewrite year_width_ok by lia. unfold year_width. replace (y <? 0) with true by lia. replace (Z.abs y <? 10) with false by lia. replace (Z.abs y <? 100) with false by lia. replace (Z.abs y <? 1000) with true by lia. reflexivity. }
      rewrite L. reflexivity. }
    rewrite C in Hsp. unfold outer, edtf_of_span. cbn [e_start e_end].
    refine (level0_order _ _ 0 None None 9999 None None _ _ _ _ _ _ Hsp).
    + exact (year_level0 0 ltac:(lia)).
    + split; cbn; lia.
    + exact (year_level0 9999 ltac:(lia)).
    + split; cbn; lia.
    + unfold date_le. lia.
Qed.

(** ** All features *)
Definition interval_feature (f : str) : Prop := f = $"Time Interval" \/ f = $"Interval" \/ f = $"Set representation".
Lemma self_order lv f re s sp : In (lv, f, re) self_features -> ~ interval_feature f -> match_string re s = true -> DateSpanFromEDTF s = OK sp ->
  outer (edtf_of_span sp s lv f).
Proof.
  intros Hin Hf Hm Hsp. unfold outer, edtf_of_span. cbn [e_start e_end].
  assert (N : forall r, re = r -> match anchored r with Some a => plain a | None => false end = true ->
    in_set (match anchored r with Some a => bytes a | None => [] end) "/"%char = false -> ~ In "/"%char s).
  { intros r -> H1 H2 Hi. rewrite (byte_out r "/"%char s H1 H2 Hi) in Hm. discriminate. }
  unfold self_features in Hin. cbn [In] in Hin.
  repeat destruct Hin as [Hin|Hin]; try (injection Hin as <- <- <-); try contradiction;
    first [ exfalso; apply Hf; unfold interval_feature; tauto
          | apply (noslash_order s); [apply (N _ eq_refl); reflexivity|exact Hsp]
          | idtac ].
  - apply IntervalStart_spec in Hm. destruct Hm as (l & q & Hl & (sl & r & -> & _ & ->) & ->). change ($"/" ++ r) with ("/"%char :: r) in Hsp.
    assert (Nl : ~ In "/"%char l) by (destruct Hl as [->| ->]; [intros []|exact dotdot_noslash]).
    destruct (two_sides _ _ _ Nl Hsp) as (lo & hi & lo' & hi' & H1 & _ & ->). cbn [s_start s_end r_lower r_upper].
    destruct Hl as [->| ->].
    + destruct (half_func _ _ _ _ _ H1 half_unknown) as (-> & _). intros t t' E. discriminate E.
    + destruct (half_func _ _ _ _ _ H1 half_open) as (-> & _). intros t t' E. discriminate E.
  - apply IntervalEnd_spec in Hm. destruct Hm as (l & q & Hl & (sl & r & -> & Hr & ->) & ->). change ($"/" ++ r) with ("/"%char :: r) in Hsp.
    destruct (two_sides _ _ _ (no_slash _ Hl) Hsp) as (lo & hi & lo' & hi' & _ & H1 & ->). cbn [s_start s_end r_lower r_upper].
    destruct Hr as [->| ->].
    + destruct (half_func _ _ _ _ _ H1 half_unknown) as (_ & ->). intros t t' _ E. discriminate E.
    + destruct (half_func _ _ _ _ _ H1 half_open) as (_ & ->). intros t t' _ E. discriminate E.
Qed.
Lemma letter_order s d : ParseLetterPrefixedCalendarYear s = OK d -> outer d.
Proof.
  intro H. destruct (letter_inv _ _ H) as (sp & Hl & Hsp & ->). apply noslash_order in Hsp; [exact Hsp|].
  intro Hi. assert (Hm : match_string LetterPrefixedCalendarYear s = true) by (apply match_iff; intro Q; rewrite Q in Hl; discriminate Hl).
  apply LetterYear_spec in Hm. destruct Hm as (a & b & -> & Hb & ->). change ($"Y" ++ b) with ("Y"%char :: b) in Hi. rewrite (letter_submatch _ Hb) in Hi.
  unfold sub in Hi. cbn [nth] in Hi. exact (letter_no "/"%char b Hb eq_refl ltac:(discriminate) Hi).
Qed.
Lemma exponential_order s d : ParseExponentialYear s = OK d -> outer d.
Proof.
  intro H. destruct (exponential_inv _ _ H) as (y & sp & _ & _ & Hsp & ->). apply noslash_order in Hsp; [exact Hsp|].
  unfold itoa. intro Hi. destruct (y <? 0) eqn:E.
  - destruct Hi as [Hi|Hi]; [discriminate|]. destruct (digits_ok (- y) ltac:(lia)) as (F & _). unfold digit_str in F. rewrite Forall_forall in F. specialize (F _ Hi). discriminate.
  - destruct (digits_ok y ltac:(lia)) as (F & _). unfold digit_str in F. rewrite Forall_forall in F. specialize (F _ Hi). discriminate.
Qed.
Theorem outer_order s d : ParseString s = OK d -> ~ interval_feature (e_feature d) -> forall t t', Lower d = OK t -> Upper d = OK t' -> t <= t'.
Proof.
  intros H Hf. assert (O : outer d).
  { destruct (parse_parsed _ _ H) as [d Hm H1|lv f r sp Hin Hm H1|d H1|d H1|d H1|d H1|d H1|d H1|H1|H1].
    - destruct (TimeFacts.datetime_inv _ _ H1) as (y & m & dd & hh & mi & ss & _ & _ & _ & E). cbv zeta in E. subst d.
      intros t t' E E'. injection E as <-. injection E' as <-. apply Z.le_refl.
    - exact (self_order _ _ _ _ _ Hin Hf Hm H1).
    - exact (letter_order _ _ H1).
    - exact (season_order _ _ H1).
    - exact (exponential_order _ _ H1).
    - exact (significant_order _ _ H1).
    - exact (grouping_order _ _ H1).
    - exfalso. apply Hf. right. right. exact (InvProofs2.set_feature _ _ H1).
    - intros t t' E. discriminate E.
    - intros t t' E. discriminate E. }
  intros t t' HL HU. unfold Lower, Upper in *. destruct (d_timestamp (r_lower (e_start d))) as [ts|] eqn:E; [|discriminate].
  destruct (d_timestamp (r_upper (e_end d))) as [ts'|] eqn:E'; [|discriminate]. injection HL as <-. injection HU as <-. exact (O _ _ E E').
Qed.
Lemma outer_order_features s d : ParseString s = OK d ->
  e_feature d <> $"Time Interval" -> e_feature d <> $"Interval" -> e_feature d <> $"Set representation" ->
  forall t t', Lower d = OK t -> Upper d = OK t' -> t <= t'.
Proof. intros H N1 N2 N3. apply (outer_order s d H). intros [Q|[Q|Q]]; contradiction. Qed.
