(** Unspecified digits: the span is no wider than what the mask stands for. *)
From Coq Require Import Ascii String ZArith NArith Bool Lia ZifyBool List.
From Verif Require Import GoStr GoTime Regex Patterns RegexSym RegexRel RegexGen SpecCal SpecText SpecGrammar SpecForms SpecSpan SpecMask SpecHull StrFacts TextFacts Edtf Calendar Common Level0 Level1 Level2 Parser CalFacts ApiFacts SpanFacts YmdShapes YmdFacts InvFacts GrammarFacts LangFacts LangNorm LangForms LangForms2 DateFacts ParseFacts SplitFacts Level0Facts FormFacts SeasonFacts Level1Proofs XProofs SetGrammar SetFacts GroupingProofs SigProofs OrderProofs MaskProofs PeriodProofs.
Import ListNotations.
Open Scope Z_scope.
Ltac Zify.zify_post_hook ::= Z.div_mod_to_equations.

(** ** Witnesses for each component *)
Lemma fills_refl s : fills s s.
Proof. induction s; constructor; assumption. Qed.
Lemma fills_join a a' b b' : fills a a' -> fills b b' -> fills (a ++ b) (a' ++ b').
Proof. intros H G. induction H; cbn [app]; [exact G|apply fi_same|apply fi_x]; assumption. Qed.
Lemma four_of a b c d : is_digit a = true -> is_digit b = true -> is_digit c = true -> is_digit d = true ->
  four (digit_val a * 1000 + digit_val b * 100 + digit_val c * 10 + digit_val d) = [a; b; c; d].
Proof.
  intros Ha Hb Hc Hd. pose proof (digit_val_range _ Ha). pose proof (digit_val_range _ Hb). pose proof (digit_val_range _ Hc). pose proof (digit_val_range _ Hd).
  rewrite <- (digit_char_val a), <- (digit_char_val b), <- (digit_char_val c), <- (digit_char_val d) at 2 by assumption.
  unfold four. repeat f_equal; lia.
Qed.
Lemma two_of a b : is_digit a = true -> is_digit b = true -> two (digit_val a * 10 + digit_val b) = [a; b].
Proof.
  intros Ha Hb. pose proof (digit_val_range _ Ha). pose proof (digit_val_range _ Hb).
  rewrite <- (digit_char_val a), <- (digit_char_val b) at 2 by assumption. unfold two. repeat f_equal; lia.
Qed.

Lemma lo_fill c : is_dx c = true -> exists d, is_digit d = true /\ digit_val d = xlo c /\ (d = c \/ c = "X"%char).
Proof.
  unfold is_dx, xlo. intro H. destruct (Ascii.eqb c X) eqn:E.
  - apply Ascii.eqb_eq in E. exists "0"%char. auto.
  - rewrite orb_false_r in H. exists c. auto.
Qed.
Lemma hi_fill c : is_dx c = true -> exists d, is_digit d = true /\ digit_val d = xhi c /\ (d = c \/ c = "X"%char).
Proof.
  unfold is_dx, xhi. intro H. destruct (Ascii.eqb c X) eqn:E.
  - apply Ascii.eqb_eq in E. exists "9"%char. auto.
  - rewrite orb_false_r in H. exists c. auto.
Qed.
Lemma fills_one c d s t : is_digit d = true -> (d = c \/ c = "X"%char) -> fills s t -> fills (c :: s) (d :: t).
Proof. intros Hd [->| ->] H; [apply fi_same|apply fi_x]; assumption. Qed.
Lemma year_ends yt t y1 y2 p sg y : year_den yt y1 y2 p sg -> fills yt t -> year4 t y ->
  (exists u, fills yt u /\ year4 u y1) /\ (exists u, fills yt u /\ year4 u y2).
Proof.
  intros D F Hy. destruct D as [yt y1 C A|a b c Ha Hb Hc].
  - apply fills_same in F; [|exact (atoi_noX _ _ A)]. subst t. rewrite (SeasonFacts.atoi_year4 _ _ Hy) in A. injection A as ->.
    split; exists yt; split; auto using fills_refl.
  - destruct (lo_fill _ Hb) as (b1 & B1 & B2 & B3). destruct (lo_fill _ Hc) as (c1 & C1 & C2 & C3).
    destruct (hi_fill _ Hb) as (b2 & B4 & B5 & B6). destruct (hi_fill _ Hc) as (c2 & C4 & C5 & C6).
    pose proof (digit_val_range _ Ha). pose proof (digit_val_range _ B1). pose proof (digit_val_range _ C1). pose proof (digit_val_range _ B4). pose proof (digit_val_range _ C4).
    split; [exists [a; b1; c1; "0"%char]|exists [a; b2; c2; "9"%char]]; (split; [repeat (apply fills_one; [assumption || reflexivity|auto|]); constructor|]).
    + unfold year_lo. rewrite <- B2, <- C2. replace (digit_val a * 1000 + digit_val b1 * 100 + digit_val c1 * 10) with (digit_val a * 1000 + digit_val b1 * 100 + digit_val c1 * 10 + digit_val "0") by (change (digit_val "0") with 0; lia).
      rewrite <- (four_of a b1 c1 "0") by (assumption || reflexivity). constructor. change (digit_val "0") with 0. lia.
    + unfold year_hi. rewrite <- B5, <- C5. change 9 with (digit_val "9").
      rewrite <- (four_of a b2 c2 "9") by (assumption || reflexivity). constructor. change (digit_val "9") with 9. lia.
Qed.
Lemma month_ends mt m1 m2 sg m : month_den mt m1 m2 sg -> fills mt (two m) -> 1 <= m <= 12 -> mt <> $"0X" ->
  fills mt (two m1) /\ fills mt (two m2) /\ 1 <= m1 <= 12 /\ 1 <= m2 <= 12.
Proof.
  intros D F Hm N. destruct D as [|mt m1 C A| |a Ha].
  - inversion F.
  - pose proof F as F0. apply fills_same in F; [|exact (atoi_noX _ _ A)]. subst mt. rewrite StrFacts.atoi_two in A by lia. injection A as ->. auto.
  - split; [|split; [|lia]]; repeat (apply fi_x; [reflexivity|]); constructor.
  - destruct Ha as [->| ->]; [destruct N; reflexivity|]. split; [|split; [|lia]]; apply fi_same, fi_x; try reflexivity; constructor.
Qed.
Lemma day_ends L L' dt d1 d2 sg d : day_den L L' dt d1 d2 sg -> fills dt (two d) -> 1 <= d <= 31 -> d1 <= L -> d2 <= L' -> 28 <= L <= 31 -> 28 <= L' <= 31 ->
  (30 <= L -> 30 <= L') -> fills dt (two d1) /\ fills dt (two d2) /\ 1 <= d1 <= 31 /\ 1 <= d2 <= 31.
Proof.
  intros D F Hd R R' HL HL' H3. destruct D as [|dt d1 C A Hz| | | | |].
  - inversion F.
  - pose proof F as F0. apply fills_same in F; [|exact (atoi_noX _ _ A)]. subst dt. rewrite StrFacts.atoi_two in A by lia. injection A as ->. auto.
  - apply fills_same in F; [|intros [Q|[Q|[]]]; discriminate]. exfalso. assert (A : atoi (two d) = OK d) by (apply StrFacts.atoi_two; lia). rewrite F in A. change (atoi ($"00")) with (@OK Z 0) in A. injection A as A. lia.
  - assert (G : forall k, 0 <= k <= 99 -> fills ($"XX") (two k)) by (intros k Hk; unfold two; repeat (apply fi_x; [apply is_digit_char; lia|]); constructor).
    split; [apply G; lia|]. split; [apply G; lia|lia].
  - split; [|split; [|lia]]; apply fi_same, fi_x; try reflexivity; constructor.
  - split; [|split; [|lia]]; apply fi_same, fi_x; try reflexivity; constructor.
  - assert (C : L' = 30 \/ L' = 31) by lia. destruct C as [->| ->]; (split; [|split; [|lia]]; apply fi_same, fi_x; try reflexivity; constructor).
Qed.
Lemma months_30 mc m1 m2 sg y1 y2 : month_den mc m1 m2 sg -> 30 <= month_len y1 m1 -> 30 <= month_len y2 m2.
Proof.
  intros D H. assert (C : m2 = 12 \/ m1 = m2) by (destruct D; auto). destruct C as [->| ->]; [unfold month_len; cbn; lia|].
  unfold month_len in *. destruct (m2 =? 2); [destruct (leap_yearb y1); lia|]. destruct (_ || _ || _ || _); lia.
Qed.

Theorem den_ends s y1 m1 d1 y2 m2 d2 u a p sg t y m d : date_den s y1 m1 d1 y2 m2 d2 u a p sg -> real_date y1 m1 d1 -> real_date y2 m2 d2 ->
  fills s t -> level0_date t y m d -> ~ month_0x s ->
  (exists m d, stands_for s y1 m d /\ m1 = first_month m /\ d1 = first_day d) /\
  (exists m d, stands_for s y2 m d /\ m2 = last_month m /\ d2 = last_day y2 m2 d).
Proof.
  intros [(yt & yc & yq & mt & mc & mq & dt & dc & dq & py & sy & sm & sd & Ht & Hp & Hy & Hm & Hd & _)] R1 R2 F H N0.
  destruct (mask_plain _ _ _ _ _ _ _ _ _ _ _ _ _ _ F H Ht Hp) as (-> & -> & ->). destruct Hp as [_ Cy _ Cm _ Cd].
  pose proof (year_len _ Cy) as Ly. pose proof (months_30 _ _ _ _ y1 y2 Hm) as M30.
  pose proof (month_len_range y1 m1) as ML1. pose proof (month_len_range y2 m2) as ML2. destruct R1 as (R1 & R1'). destruct R2 as (R2 & R2').
  assert (N0m : forall r, s = yt ++ "-"%char :: mt ++ r -> mt <> $"0X") by (intros r E ->; apply N0; exists yt, r; split; [exact E|exact Ly]).
  destruct H as [tt y r m d Y4 MD].
  destruct Ht as [yt|yt mt Nm|yt mt dt Nm Nd].
  - replace tt with (tt ++ []) in F by apply app_nil_r. destruct (year_align yt (tt ++ r) [] tt r y Cy) as (_ & <-); [rewrite app_nil_r in F; exact F|exact Y4|apply app_nil_r|].
    rewrite !app_nil_r in F. inversion MD; subst.
    inversion Hm; subst; [|discriminate..]. inversion Hd; subst; [|discriminate..].
    destruct (year_ends _ _ _ _ _ _ _ Hy F Y4) as ((t1 & F1 & Y1) & (t2 & F2 & Y2)).
    split; exists None, None; (split; [|split; reflexivity]); [exists t1|exists t2]; (split; [assumption|]); (split; [|split; cbn; lia]);
      [rewrite <- (app_nil_r t1)|rewrite <- (app_nil_r t2)]; constructor; try assumption; constructor.
  - apply fills_app in F. destruct F as (yt' & r' & E & Fy & Fr). fill Fr. destruct K as [->|(K & _)]; [|discriminate].
    destruct (year_align _ _ _ _ _ _ Cy Fy Y4 (eq_sym E)) as (-> & <-). clear E.
    destruct Cm as [Q|Cm]; [contradiction|]. pose proof (fills_len _ _ Fr) as L. rewrite (core2_len _ (or_introl Cm)) in L.
    inversion MD; subst; [|discriminate L]. specialize (N0m [] ltac:(rewrite app_nil_r; reflexivity)).
    destruct (year_ends _ _ _ _ _ _ _ Hy Fy Y4) as ((t1 & F1 & Y1) & (t2 & F2 & Y2)).
    destruct (month_ends _ _ _ _ _ Hm Fr ltac:(assumption) N0m) as (G1 & G2 & B1 & B2).
    inversion Hd; subst; [|discriminate..]. split; [exists (Some m1), None|exists (Some m2), None]; (split; [|split; reflexivity]).
    + exists (t1 ++ "-"%char :: two m1). split; [apply fills_join; [exact F1|apply fi_same; exact G1]|].
      split; [constructor; [exact Y1|constructor; exact B1]|split; cbn [first_month first_day]; lia].
    + exists (t2 ++ "-"%char :: two m2). split; [apply fills_join; [exact F2|apply fi_same; exact G2]|].
      split; [constructor; [exact Y2|constructor; exact B2]|split; cbn [first_month first_day]; lia].
  - apply fills_app in F. destruct F as (yt' & r' & E & Fy & Fr). fill Fr. destruct K as [->|(K & _)]; [|discriminate].
    destruct (year_align _ _ _ _ _ _ Cy Fy Y4 (eq_sym E)) as (-> & <-). clear E.
    destruct Cm as [Q|Cm]; [contradiction|]. destruct Cd as [Q|Cd]; [contradiction|].
    apply fills_app in Fr. destruct Fr as (mt' & dt' & -> & Fm & Fd). fill Fd. destruct K as [->|(K & _)]; [|discriminate].
    pose proof (fills_len _ _ Fm) as Lm. rewrite (core2_len _ (or_introl Cm)) in Lm. pose proof (fills_len _ _ Fd) as Ld. rewrite (core2_len _ (or_intror Cd)) in Ld.
    inversion MD as [E1|k Hk E1|k n Hk Hn E1]; subst.
    + exfalso. apply (f_equal (@length _)) in E1. rewrite app_length in E1. cbn in E1. lia.
    + assert (mt' = two k /\ u0 = two n) as (-> & ->) by (destruct mt' as [|x [|z [|]]]; try discriminate Lm; cbn [app] in E1; injection E1 as <- <- E2; subst u0; split; reflexivity).
      specialize (N0m _ eq_refl).
      destruct (year_ends _ _ _ _ _ _ _ Hy Fy Y4) as ((t1 & F1 & Y1) & (t2 & F2 & Y2)).
      destruct (month_ends _ _ _ _ _ Hm Fm Hk N0m) as (G1 & G2 & B1 & B2).
      destruct (day_ends _ _ _ _ _ _ _ Hd Fd Hn ltac:(lia) ltac:(lia) ltac:(lia) ltac:(lia) M30) as (D1 & D2 & B3 & B4).
      split; [exists (Some m1), (Some d1)|exists (Some m2), (Some d2)]; (split; [|split; reflexivity]).
      * exists (t1 ++ "-"%char :: two m1 ++ "-"%char :: two d1). split; [apply fills_join; [exact F1|apply fi_same, fills_join; [exact G1|apply fi_same; exact D1]]|].
        split; [constructor; [exact Y1|constructor; [exact B1|exact B3]]|split; cbn [first_month first_day]; lia].
      * exists (t2 ++ "-"%char :: two m2 ++ "-"%char :: two d2). split; [apply fills_join; [exact F2|apply fi_same, fills_join; [exact G2|apply fi_same; exact D2]]|].
        split; [constructor; [exact Y2|constructor; [exact B2|exact B4]]|split; cbn [first_month first_day]; lia].
Qed.

(** ** Strings *)
Lemma fills_to s d t : fills s (d :: t) -> exists c u, s = c :: u /\ fills u t /\ (c = d \/ c = "X"%char /\ is_digit d = true).
Proof. intro H. inversion H; subst; eauto 8. Qed.
Lemma fills_to_nil s : fills s [] -> s = [].
Proof. intro H. inversion H. reflexivity. Qed.
Lemma span_ends s sp t y m d e : dateSpanFromYMD s = OK sp -> fills s t -> level0_date t y m d -> ~ month_0x s ->
  r_lower (e_start e) = r_lower (s_start sp) -> r_upper (e_end e) = r_upper (s_end sp) -> ends_reached s e.
Proof.
  intros H F L N El Eu. destruct (span_inv _ _ H) as (y1 & m1 & d1 & y2 & m2 & d2 & u & a & p & sg & D & R1 & R2 & Y1 & Y2 & ->).
  destruct (den_ends _ _ _ _ _ _ _ _ _ _ _ _ _ _ _ D R1 R2 F L N) as ((ma & da & Sa & -> & ->) & (mb & db & Sb & -> & Ed)).
  split; [exists y1, ma, da|exists y2, mb, db]; (split; [assumption|]); unfold Lower, Upper; [rewrite El|rewrite Eu]; unfold span6, first_instant, last_instant.
  - destruct sg; reflexivity.
  - rewrite <- Ed. destruct sg; reflexivity.
Qed.
Lemma level0_hull s y m d e : level0_date s y m d -> ParseString s = OK e -> (exists y m d, stands_for s y m d) -> ends_reached s e.
Proof.
  intros L H (y' & m' & d' & t & F & L' & X').
  assert (Ns : ~ In "X"%char s) by (intro Hi; destruct (level0_byte _ _ _ _ _ L Hi); discriminate).
  pose proof F as F0. apply fills_same in F; [|exact Ns]. subst t.
  destruct (level0_span _ _ _ _ L' X') as (e' & He & Hl & Hu). rewrite H in He. injection He as <-.
  split; exists y', m', d'; (split; [exists s; auto|assumption]).
Qed.
Theorem mask_hull s e : ParseString s = OK e -> ~ month_0x s -> ~ day_half_x s -> (exists y m d, stands_for s y m d) -> ends_reached s e.
Proof.
  intros H N0 NH SF. pose proof H as P. destruct (IsDate s) eqn:E0.
  { apply IsDate_spec in E0. destruct E0 as (y & m & d & L). exact (level0_hull _ _ _ _ _ L H SF). }
  assert (ND : forall y m d, ~ level0_date s y m d) by (intros y m d Q; assert (IsDate s = true) by (apply IsDate_spec; exists y, m, d; exact Q); congruence).
  destruct SF as (y & m & d & t & F & L & X).
  assert (NB : forall c, is_digit c = false -> c <> "-"%char -> c <> "X"%char -> ~ In c s).
  { intros c H1 H2 H3 Hi. destruct (mask_byte _ _ _ _ _ _ F L Hi) as [Q|[Q|Q]]; congruence. }
  apply parse_parsed in H. destruct H as [e Hm H|lv f r sp Hin Hm H|e H|e H|e H|e H|e H|e H|H|H].
  - exfalso. unfold IsDateAndTime in Hm. apply DateAndTime_spec in Hm. destruct Hm as [t0 h mi sc z]. apply (NB "T"%char); [reflexivity|discriminate|discriminate|].
    apply in_or_app. right. left. reflexivity.
  - rewrite single_fwd in H by (apply NB; [reflexivity|discriminate|discriminate]).
    exact (span_ends _ _ _ _ _ _ (edtf_of_span sp s lv f) H F L N0 eq_refl eq_refl).
  - exfalso. destruct (letter_inv _ _ H) as (sp & Hl & _). assert (M : match_string LetterPrefixedCalendarYear s = true) by (apply match_iff; intro Q; rewrite Q in Hl; discriminate).
    apply LetterYear_spec in M. destruct M as (u & v & -> & _ & ->). apply (NB "Y"%char); [reflexivity|discriminate|discriminate|left; reflexivity].
  - destruct (season_parsed _ _ H) as [(t' & y' & n & r & a & b & c & f & Hy & Hn & -> & Hc & (Hs & He & _))|Q].
    + apply fills_app in F. destruct F as (t1 & r1 & -> & F1 & F2). fill F2. destruct K as [->|(K & _)]; [|discriminate].
      apply fills_app in F2. destruct F2 as (t2 & r2 & -> & F2 & F3).
      assert (XN : forall k, 0 <= k <= 99 -> ~ In "X"%char (two k)) by (intros k Hk Hi; apply in_two in Hi; [discriminate|lia]).
      apply fills_same in F1; [|intro Hi; destruct (year4_bytes _ _ _ Hy Hi); discriminate]. apply fills_same in F2; [|apply XN; lia]. subst t1 t2.
      inversion L as [tt y1 r1 m1 d1 Y4 MD E]. subst y1 m1 d1. destruct (year_prefix _ _ _ _ _ _ Y4 Hy E) as (-> & ->).
      assert (y = y') by (pose proof (SeasonFacts.atoi_year4 _ _ Y4) as A1; rewrite (SeasonFacts.atoi_year4 _ _ Hy) in A1; injection A1; auto). subst y'.
      change (mmdd ("-"%char :: two n ++ r2) m d) in MD. clear L E. remember ("-"%char :: two n ++ r2) as w eqn:Ew. destruct MD as [|k Hk|k j Hk Hj]; [discriminate Ew| |].
      { exfalso. assert (r2 = [] /\ two k = two n) as (-> & Q) by (unfold two in *; cbn [app] in *; split; congruence).
        inversion F3; subst. rewrite app_nil_r in *. apply (ND y (Some k) None). rewrite <- Q. constructor; [exact Hy|constructor; exact Hk]. }
      assert (two k = two n /\ r2 = "-"%char :: two j) as (Ek & ->) by (unfold two in *; cbn [app] in *; split; congruence).
      assert (n = k) by (assert (A : atoi (two k) = atoi (two n)) by congruence; rewrite !two_atoi in A by lia; injection A; auto). subst n.
      apply fills_to in F3. destruct F3 as (c1 & r1 & -> & F3 & [->|(_ & Q)]); [|discriminate Q].
      apply fills_to in F3. destruct F3 as (c2 & r2 & -> & F3 & K2). apply fills_to in F3. destruct F3 as (c3 & r3 & -> & F3 & K3).
      apply fills_to_nil in F3. subst r3.
      assert (G2 : is_digit (digit_char (j / 10)) = true) by (apply is_digit_char; lia). assert (G3 : is_digit (digit_char (j mod 10)) = true) by (apply is_digit_char; lia).
      destruct K2 as [->|(-> & _)]; destruct K3 as [->|(-> & _)].
      { exfalso. apply (ND y (Some k) (Some j)). constructor; [exact Hy|]. exact (mmdd_md k j Hk Hj). }
      { exfalso. apply NH. exists t', y, k, (digit_char (j / 10)), "X"%char. auto 6. }
      { exfalso. apply NH. exists t', y, k, "X"%char, (digit_char (j mod 10)). auto 6. }
      unfold season_code in Hc. replace (k =? 21) with false in Hc by lia. replace (k =? 22) with false in Hc by lia.
      replace (k =? 23) with false in Hc by lia. replace (k =? 24) with false in Hc by lia. injection Hc as <- <- <- <-.
      destruct Hs as ((Hs & _) & _). destruct He as (_ & (He & _)). pose proof (month_len_range y k).
      assert (W : forall i, 1 <= i <= month_len y k -> stands_for (t' ++ "-"%char :: two k ++ ["-"%char; "X"%char; "X"%char]) y (Some k) (Some i)).
      { intros i Hi. exists (t' ++ "-"%char :: two k ++ "-"%char :: two i). split.
        - apply fills_join; [apply fills_refl|]. apply fi_same, fills_join; [apply fills_refl|]. apply fi_same. unfold two.
          apply fi_x; [apply is_digit_char; lia|]. apply fi_x; [apply is_digit_char; lia|constructor].
        - split; [constructor; [exact Hy|constructor; lia]|split; cbn; lia]. }
      split; [exists y, (Some k), (Some 1)|exists y, (Some k), (Some (month_len y k))]; (split; [apply W; lia|]); unfold Lower, Upper; [rewrite Hs|rewrite He]; reflexivity.
    + exfalso. revert Q. apply NB; [reflexivity|discriminate|discriminate].
  - exfalso. destruct (exponential_inv _ _ H) as (z & sp & Hl & _). assert (M : match_string ExponentialYear s = true) by (apply match_iff; intro Q; rewrite Q in Hl; discriminate).
    apply Exponential_spec in M. destruct M as (u & v & [->| ->] & _ & ->); [apply (NB "Y"%char)|apply (NB "y"%char)]; try reflexivity; try discriminate; left; reflexivity.
  - exfalso. destruct (significant_inv _ _ H) as (z & k & sp & Hq). cbv zeta in Hq. destruct Hq as (Hl & _). assert (M : match_string SignificantDigits s = true) by (apply match_iff; intro Q; rewrite Q in Hl; discriminate).
    apply Significant_spec in M. destruct M as (u & v & _ & (w & x & -> & _ & ->) & ->). apply (NB "S"%char); [reflexivity|discriminate|discriminate|].
    apply in_or_app. right. left. reflexivity.
  - exfalso. destruct (grouping_inv _ _ H) as (a & b & c & e' & nx & ey & sp & Hq). cbv zeta in Hq. destruct Hq as (Hl & Hg & _).
    assert (M : match_string SubYearGrouping s = true) by (apply match_iff; intro Q; rewrite Q in Hl; discriminate).
    apply Grouping_spec in M. destruct M as (u & v & Hu & (v1 & v2 & -> & (n & Hn & ->) & ->) & ->).
    assert (Hf : exists y, 0 <= y <= 9999 /\ u = four y) by (apply lg_d4; exact (proj2 (den_4 u) Hu)). destruct Hf as (z & Hz & ->).
    change (four z ++ $"-" ++ two n) with (code_text z n) in *. rewrite grouping_submatch in * by assumption. unfold sub in Hg. cbn [nth] in Hg.
    apply fills_same in F; [|intro Hi; unfold code_text in Hi; apply in_app_or in Hi; destruct Hi as [Hi|[Hi|Hi]]; [destruct (year4_bytes _ _ _ (year4_pos z Hz) Hi); discriminate|discriminate|apply in_two in Hi; [discriminate|lia]]].
    subst t. exact (ND _ _ _ L).
  - exfalso. assert (M : match_string SetRepresentations s = true).
    { apply match_iff. unfold ParseSetRepresentations in H. intro Q. rewrite Q in H. discriminate H. }
    apply IsSet_spec in M. destruct M as (o & body & M). assert (Hs : In o s) by (destruct M; left; reflexivity).
    assert (Ho : o = "["%char \/ o = "{"%char) by (destruct M; assumption). apply (NB o); [destruct Ho as [->| ->]; (reflexivity || discriminate)..|exact Hs].
  - exfalso. subst s. apply (NB "."%char); [reflexivity|discriminate|discriminate|left; reflexivity].
  - exfalso. subst s. apply fills_nil in F. subst t. remember [] as t eqn:E. destruct L as [tt y r m d Y4 MD]. apply app_eq_nil in E. destruct E as (-> & _). exact (SeasonFacts.year4_ne _ _ Y4 eq_refl).
Qed.
(** A day with one X in a given month: ParseString gives the whole month. *)
Lemma half_x_day a b : is_digit a = true /\ digit_val a <= 3 /\ b = "X"%char \/ a = "X"%char /\ is_digit b = true -> x_day [a; b].
Proof.
  intros [(Ha & Hv & ->)|(-> & Hb)].
  - pose proof (digit_val_range _ Ha). assert (C : digit_val a = 0 \/ digit_val a = 1 \/ digit_val a = 2 \/ digit_val a = 3) by lia.
    exists (digit_val a * 10 + 1), a, "X"%char. split; [lia|]. split; [reflexivity|]. split; [left|right; reflexivity].
    replace ((digit_val a * 10 + 1) / 10) with (digit_val a) by lia. symmetry. apply digit_char_val. exact Ha.
  - pose proof (digit_val_range _ Hb). destruct (Z.eq_dec (digit_val b) 0) as [E|E].
    + exists 30, "X"%char, b. split; [lia|]. split; [reflexivity|]. split; [right; reflexivity|left]. change (30 mod 10) with 0. rewrite <- E. symmetry. apply digit_char_val. exact Hb.
    + exists (digit_val b), "X"%char, b. split; [lia|]. split; [reflexivity|]. split; [right; reflexivity|left]. replace (digit_val b mod 10) with (digit_val b) by lia. symmetry. apply digit_char_val. exact Hb.
Qed.
Theorem half_x_month y m a b : 0 <= y <= 9999 -> 1 <= m <= 12 -> is_digit a = true /\ digit_val a <= 3 /\ b = "X"%char \/ a = "X"%char /\ is_digit b = true ->
  exists e, ParseString (four y ++ $"-" ++ two m ++ $"-" ++ [a; b]) = OK e /\ e_level e = 1 /\ e_feature e = $"Seasons" /\ months e y m y m.
Proof.
  intros Hy Hm Hab. pose proof (half_x_day _ _ Hab) as HD.
  change ($"-" ++ two m ++ $"-" ++ [a; b]) with ("-"%char :: two m ++ ["-"%char; a; b]). set (s := four y ++ "-"%char :: two m ++ ["-"%char; a; b]).
  assert (G : forall c, c = a \/ c = b -> is_digit c = true \/ c = "X"%char) by (intros c [->| ->]; destruct Hab as [(?&?&->)|(->&?)]; auto).
  assert (X1 : In "X"%char s).
  { apply in_or_app; right; right; apply in_or_app; right; right. destruct Hab as [(_ & _ & ->)|(-> & _)]; cbn; auto. }
  assert (NI : forall c, is_digit c = false -> c <> "-"%char -> c <> "X"%char -> ~ In c s).
  { intros c Hc H1 H2 Hi. unfold s in Hi. apply in_app_or in Hi. destruct Hi as [Hi|[<-|Hi]]; [|congruence|].
    - destruct (year4_bytes _ _ _ (four_year4 _ Hy) Hi); congruence.
    - apply in_app_or in Hi. destruct Hi as [Hi|[<-|[<-|[<-|[]]]]]; [rewrite (in_two _ _ Hi) in Hc by lia; discriminate|congruence|destruct (G a); auto; congruence|destruct (G b); auto; congruence]. }
  destruct (season_code_parses (four y) y m ["-"%char; a; b] y m y m (four_year4 _ Hy)) as (e & He & Hl & Hf & Hm').
  - lia.
  - unfold season_code. replace (m =? 21) with false by lia. replace (m =? 22) with false by lia. replace (m =? 23) with false by lia. replace (m =? 24) with false by lia. reflexivity.
  - left. exact Hy.
  - left. exact Hy.
  - exists e. rewrite to_season.
    + auto.
    + exact (not_level0 s "X"%char eq_refl X1).
    + apply Level1_spec. do 4 right. left. rewrite upx_id by (apply NI; [reflexivity|discriminate|discriminate]).
      refine (yf_ymd _ _ _ (four y) (two m) [a; b] (four_is_x _ Hy) _ HD).
      exists m, (digit_char (m / 10)), (digit_char (m mod 10)). split; [exact Hm|]. split; [reflexivity|]. split; left; reflexivity.
    + apply NI; [reflexivity|discriminate|discriminate].
    + apply season_head_match. exists (four y), y, m, ["-"%char; a; b]. split; [apply four_year4; exact Hy|]. split; [lia|reflexivity].
Qed.
(** A level 0 date is read in one way only. *)
Lemma mmdd_unique r m d m' d' : mmdd r m d -> mmdd r m' d' -> m = m' /\ d = d'.
Proof.
  intros H H'. inversion H as [E1|n Hn E1|n k Hn Hk E1]; inversion H' as [E2|n' Hn' E2|n' k' Hn' Hk' E2]; subst; try discriminate; auto.
  - injection E2 as E2 E3. assert (two n = two n') by (unfold two; congruence). rewrite (two_inj n n') by (lia || assumption). auto.
  - injection E2 as E2 E3 E4 E5. assert (two n = two n') by (unfold two; congruence). assert (two k = two k') by (unfold two; congruence).
    rewrite (two_inj n n'), (two_inj k k') by (lia || assumption). auto.
Qed.
Lemma level0_unique s y m d y' m' d' : level0_date s y m d -> level0_date s y' m' d' -> y = y' /\ m = m' /\ d = d'.
Proof.
  intros H H'. inversion H as [t z r ? ? Hy Hr E]; inversion H' as [t' z' r' ? ? Hy' Hr' E']; subst.
  destruct (year_prefix _ _ _ _ _ _ Hy' Hy E') as (-> & ->).
  assert (A : OK y = OK y') by (rewrite <- (SeasonFacts.atoi_year4 _ _ Hy); apply SeasonFacts.atoi_year4; exact Hy'). injection A as ->.
  destruct (mmdd_unique _ _ _ _ _ Hr Hr') as (-> & ->). auto.
Qed.
Lemma april_teens y m d : stands_for ($"1985-04-1X") y m d -> 481161600 < first_instant y m d /\ last_instant y m d < 483753599.
Proof.
  intros (t & F & L & _). change ($"1985-04-1X") with (($"1985-04-1") ++ ["X"%char]) in F. apply fills_app in F. destruct F as (a & b & -> & F & G).
  apply fills_same in F; [|vm_compute; intuition discriminate]. subst a. fill G. apply fills_nil in G. subst.
  assert (D : is_digit d0 = true).
  { destruct (level0_byte _ _ _ _ d0 L) as [D| ->]; [apply in_or_app; right; left; reflexivity|exact D|].
    exfalso. destruct K as [K|(_ & K)]; [discriminate K|discriminate K]. }
  pose proof (digit_val_range _ D) as R. clear K.
  assert (E : ($"1985-04-1") ++ [d0] = four 1985 ++ "-"%char :: two 4 ++ "-"%char :: two (10 + digit_val d0)).
  { assert (T : two (10 + digit_val d0) = ["1"%char; d0]); [|rewrite T; reflexivity]. unfold two.
    replace ((10 + digit_val d0) / 10) with 1 by lia. replace ((10 + digit_val d0) mod 10) with (digit_val d0) by lia. rewrite digit_char_val by exact D. reflexivity. }
  rewrite E in L.
  assert (L' : level0_date (four 1985 ++ "-"%char :: two 4 ++ "-"%char :: two (10 + digit_val d0)) 1985 (Some 4) (Some (10 + digit_val d0))).
  { constructor; [apply four_year4; lia|]. constructor; lia. }
  destruct (level0_unique _ _ _ _ _ _ _ L L') as (-> & -> & ->).
  clear - R. remember (digit_val d0) as v eqn:Ev. clear Ev.
  assert (C : v = 0 \/ v = 1 \/ v = 2 \/ v = 3 \/ v = 4 \/ v = 5 \/ v = 6 \/ v = 7 \/ v = 8 \/ v = 9) by lia.
  destruct C as [->|[->|[->|[->|[->|[->|[->|[->|[->| ->]]]]]]]]]; split; vm_compute; reflexivity.
Qed.
