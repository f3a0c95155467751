(** Dates written with numbers only: their spans; determinacy; no panics. *)
From Coq Require Import Ascii String ZArith NArith Bool Lia ZifyBool List.
From Verif Require Import GoStr GoTime Regex Patterns RegexSym RegexRel SpecCal SpecText SpecGrammar StrFacts TextFacts Edtf Calendar Common CalFacts ApiFacts SpanFacts YmdShapes YmdFacts InvFacts GrammarFacts.
Import ListNotations.
Open Scope Z_scope.
Ltac Zify.zify_post_hook ::= Z.div_mod_to_equations.

(** ** Panics *)
Definition np {A} (x : res A) : Prop := x <> Panic.
Lemma np_OK {A} (a : A) : np (OK a). Proof. discriminate. Qed.
Lemma np_Err {A} e : @np A (Err e). Proof. discriminate. Qed.
Lemma np_bind {A B} (x : res A) (f : A -> res B) : np x -> (forall a, x = OK a -> np (f a)) -> np (bind x f).
Proof. intros Hx Hf. destruct x; cbn [bind]; [apply Hf; reflexivity|apply np_Err|contradiction (Hx eq_refl)]. Qed.
Lemma np_atoi s : np (atoi s). Proof. exact (atoi_not_panic s). Qed.
Lemma np_parse_int s : np (parse_int s).
Proof. unfold parse_int. pose proof (atoi_not_panic s). destruct (atoi s); [discriminate..|congruence]. Qed.
Lemma np_if {A} (b : bool) (x y : res A) : np x -> np y -> np (if b then x else y).
Proof. destruct b; auto. Qed.
Global Hint Resolve np_OK np_Err np_atoi np_parse_int np_if : np.
Ltac np := repeat first [solve [auto with np] | match goal with |- np (if _ then _ else _) => apply np_if | |- np (bind _ _) => apply np_bind; [|intros] | |- np (match ?x with (_, _) => _ end) => destruct x end].
Lemma np_time_parse l v : np (time_parse l v).
Proof. unfold time_parse. destruct (parse_toks _ _ _); np. Qed.
Global Hint Resolve np_time_parse : np.
Lemma np_TimeWithYMD v h : np (TimeWithYMD v h).
Proof. unfold TimeWithYMD. np. Qed.
Lemma np_DaysInMonth y m : np (DaysInMonth y m).
Proof. unfold DaysInMonth. np. Qed.
Global Hint Resolve np_TimeWithYMD np_DaysInMonth : np.
Lemma np_YMDFromStrings a b c : np (YMDFromStrings a b c).
Proof. unfold YMDFromStrings. np. Qed.
Lemma np_DaysInMonthWithString s : np (DaysInMonthWithString s).
Proof. unfold DaysInMonthWithString. destruct (split s _) as [|? [|? [|? [|]]]]; np. Qed.
Global Hint Resolve np_YMDFromStrings np_DaysInMonthWithString : np.
Lemma np_year_range s t : core_in year_shapes t -> np (year_range s t).
Proof.
  intro H. apply year_core in H. destruct H as (a & b & c & d & [->| ->] & _); unfold year_range, year_digit, byte_at; cbn [nth_error]; np.
Qed.
Lemma np_day_range s t p : np (day_range s t p).
Proof.
  unfold day_range. destruct t as [|c t]; [destruct (negb _) eqn:E; [np|discriminate E]|]. unfold byte_at. cbn [nth_error]. np.
Qed.
Global Hint Resolve np_year_range np_day_range : np.
Lemma np_StringRange s : np (StringRangeFromYMD s).
Proof.
  destruct (find_submatch YMD_re s) eqn:E.
  - unfold StringRangeFromYMD. rewrite E. cbn [List.length Nat.eqb negb]. np.
  - destruct (ymd_inv s) as (yt & yc & yq & mt & mc & mq & dt & dc & dq & Ht & Hp); [congruence|].
    rewrite (string_range _ _ _ _ _ _ _ _ _ _ Ht Hp). destruct Hp as [_ Hy _ _ _ _]. unfold sr_tail.
    destruct (qualifier_flags yq mq dq). apply np_bind; [auto with np|]. intros ((ys & ye) & py) _.
    destruct (month_range mc py) as ((ms & me) & pm). apply np_bind; [auto with np|]. intros ((ds & de) & pd) _. np.
Qed.
Global Hint Resolve np_StringRange : np.
Lemma np_span s : np (dateSpanFromYMD s).
Proof. unfold dateSpanFromYMD, YMDFromStringDate. np. Qed.
Global Hint Resolve np_span : np.
Lemma np_dateSpan s : np (dateSpanFromEDTF s).
Proof. unfold dateSpanFromEDTF. np. Qed.
Global Hint Resolve np_dateSpan : np.
Lemma np_DateSpan s : np (DateSpanFromEDTF s).
Proof. unfold DateSpanFromEDTF. destruct (split s _) as [|? [|? [|]]]; np. Qed.
Global Hint Resolve np_DateSpan : np.

(** ** Determinacy *)
Lemma ymd_text_len s yt mt dt : ymd_text s yt mt dt -> (mt = [] -> dt = []).
Proof. intros [| |]; congruence. Qed.
Lemma year_den_fun t y1 y1' p1 s1 y2 y2' p2 s2 : year_den t y1 y1' p1 s1 -> year_den t y2 y2' p2 s2 ->
  y1 = y2 /\ y1' = y2' /\ p1 = p2 /\ s1 = s2.
Proof.
  assert (G : forall a b c z, atoi [a; b; c; X] = OK z -> False).
  { intros a b c z H. apply atoi_no_x in H. change [a; b; c; X] with ([a; b; c] ++ [X]) in H. rewrite suffix_X_snoc in H. discriminate. }
  intros H1 H2. inversion H1; subst; inversion H2; subst; try (exfalso; eapply G; eassumption); repeat split; congruence.
Qed.
Lemma month_den_fun t m1 m1' s1 m2 m2' s2 : month_den t m1 m1' s1 -> month_den t m2 m2' s2 -> m1 = m2 /\ m1' = m2' /\ s1 = s2.
Proof.
  assert (E : forall z, atoi [] = OK z -> False) by (intros z H; discriminate H).
  assert (G : forall a z, atoi [a; X] = OK z -> False).
  { intros a z H. apply atoi_no_x in H. change [a; X] with ([a] ++ [X]) in H. rewrite suffix_X_snoc in H. discriminate. }
  intros H1 H2. inversion H1; subst; inversion H2; subst; try (exfalso; first [eapply G; eassumption|eapply E; eassumption]);
    try (repeat split; congruence); match goal with H : _ \/ _ |- _ => exfalso; destruct H; discriminate end.
Qed.
Lemma day_den_fun L L' t d1 d1' s1 d2 d2' s2 : day_den L L' t d1 d1' s1 -> day_den L L' t d2 d2' s2 -> d1 = d2 /\ d1' = d2' /\ s1 = s2.
Proof.
  assert (E : forall z, atoi [] = OK z -> False) by (intros z H; discriminate H).
  assert (F : forall z, atoi ($"00") = OK z -> z <> 0 -> False) by (intros z H Hz; apply Hz; change (atoi ($"00")) with (@OK Z 0) in H; injection H as <-; reflexivity).
  assert (G : forall a z, atoi [a; X] = OK z -> False).
  { intros a z H. apply atoi_no_x in H. change [a; X] with ([a] ++ [X]) in H. rewrite suffix_X_snoc in H. discriminate. }
  intros H1 H2. inversion H1; subst; inversion H2; subst; try (exfalso; first [eapply G; eassumption|eapply E; eassumption|eapply F; eassumption]);
    repeat split; congruence.
Qed.
Lemma parts_core_opt t c v l : qualified t c v -> (t = [] \/ core_in l c) -> (forall x, core_in l x -> core_in all_cores x) -> component t = OK (c, v).
Proof. intros Hq Hc Hl. exact (component_opt t c v l Hl Hq Hc). Qed.
Theorem date_den_fun s y m d y' m' d' u a p g y2 m2 d2 y2' m2' d2' u2 a2 p2 g2 :
  date_den s y m d y' m' d' u a p g -> date_den s y2 m2 d2 y2' m2' d2' u2 a2 p2 g2 ->
  y = y2 /\ m = m2 /\ d = d2 /\ y' = y2' /\ m' = m2' /\ d' = d2' /\ u = u2 /\ a = a2 /\ p = p2 /\ g = g2.
Proof.
  intros [(yt & yc & yq & mt & mc & mq & dt & dc & dq & py & sy & sm & sd & Ht & Hp & Hy & Hm & Hd & Hq & -> & ->)]
         [(yt2 & yc2 & yq2 & mt2 & mc2 & mq2 & dt2 & dc2 & dq2 & py2 & sy2 & sm2 & sd2 & Ht2 & Hp2 & Hy2 & Hm2 & Hd2 & Hq2 & -> & ->)].
  pose proof (ymd_sub _ _ _ _ _ _ _ _ _ _ Ht Hp) as S1. pose proof (ymd_sub _ _ _ _ _ _ _ _ _ _ Ht2 Hp2) as S2.
  rewrite S1 in S2. injection S2 as <- <- <-. destruct Hp as [A1 A2 A3 A4 A5 A6], Hp2 as [B1 B2 B3 B4 B5 B6].
  pose proof (parts_core_opt _ _ _ _ A1 (or_intror A2) core_all_year) as C1. pose proof (parts_core_opt _ _ _ _ B1 (or_intror B2) core_all_year) as D1.
  pose proof (parts_core_opt _ _ _ _ A3 A4 core_all_month) as C2. pose proof (parts_core_opt _ _ _ _ B3 B4 core_all_month) as D2.
  pose proof (parts_core_opt _ _ _ _ A5 A6 core_all_day) as C3. pose proof (parts_core_opt _ _ _ _ B5 B6 core_all_day) as D3.
  rewrite C1 in D1. injection D1 as <- <-. rewrite C2 in D2. injection D2 as <- <-. rewrite C3 in D3. injection D3 as <- <-.
  destruct (year_den_fun _ _ _ _ _ _ _ _ _ Hy Hy2) as (<- & <- & <- & <-).
  destruct (month_den_fun _ _ _ _ _ _ _ Hm Hm2) as (<- & <- & <-).
  destruct (day_den_fun _ _ _ _ _ _ _ _ _ Hd Hd2) as (<- & <- & <-).
  rewrite Hq in Hq2. injection Hq2 as <- <-. repeat split.
Qed.
(** A text with a known reading parses exactly when its days exist. *)
Theorem span_iff s y m d y' m' d' u a p g : date_den s y m d y' m' d' u a p g -> forall sp,
  dateSpanFromYMD s = OK sp <-> real_date y m d /\ real_date y' m' d' /\ sp = span6 s u a p g y m d y' m' d'.
Proof.
  intros HD sp. split.
  - intro H. destruct (span_inv _ _ H) as (y2 & m2 & d2 & y2' & m2' & d2' & u2 & a2 & p2 & g2 & HD2 & Hr & Hr' & _ & _ & E).
    destruct (date_den_fun _ _ _ _ _ _ _ _ _ _ _ _ _ _ _ _ _ _ _ _ _ HD HD2) as (-> & -> & -> & -> & -> & -> & -> & -> & -> & ->). auto.
  - intros (Hr & Hr' & ->). exact (proj1 (span_fwd _ _ _ _ _ _ _ _ _ _ _ HD Hr Hr')).
Qed.
Lemma span_err s y m d y' m' d' u a p g : date_den s y m d y' m' d' u a p g -> ~ (real_date y m d /\ real_date y' m' d') ->
  exists e, dateSpanFromYMD s = Err e.
Proof.
  intros HD Hn. pose proof (np_span s) as N. destruct (dateSpanFromYMD s) as [sp|e|] eqn:E; [|eauto|contradiction (N eq_refl)].
  exfalso. apply Hn. apply (span_iff _ _ _ _ _ _ _ _ _ _ _ HD) in E. tauto.
Qed.

(** ** Number parts *)
Lemma year4_core t y : year4 t y -> core_in year_shapes t /\ atoi t = OK y /\ -9999 <= y <= 9999.
Proof.
  assert (D : forall n, 0 <= n <= 9 -> is_dx (digit_char n) = true) by (intros n Hn; unfold is_dx; rewrite is_digit_char by exact Hn; reflexivity).
  intros [n Hn|n Hn].
  - split; [|split; [apply atoi_four; exact Hn|lia]]. apply year_core. unfold four. do 4 eexists. split; [left; reflexivity|].
    repeat split; apply D; lia.
  - split; [|split; [|lia]].
    + apply year_core. unfold four. do 4 eexists. split; [right; reflexivity|]. repeat split; apply D; lia.
    + destruct (Z.eq_dec n 0) as [->|N]; [reflexivity|]. pose proof (atoi_year (- n) ltac:(lia)) as E.
      unfold year_text in E. replace (- n <? 0) with true in E by lia. rewrite Z.opp_involutive in E. exact E.
Qed.
Lemma year4_den t y : year4 t y -> year_den t y y YEAR true.
Proof. intro H. apply year4_core in H. constructor; tauto. Qed.
Lemma two_month m : 1 <= m <= 12 -> core_in month_shapes (two m).
Proof.
  intro H. apply month_core. exists (digit_char (m / 10)), (digit_char (m mod 10)). split; [reflexivity|].
  rewrite is_digit_char, digit_val_char by lia. destruct (Z_lt_ge_dec m 10) as [L|L].
  - left. replace (m / 10) with 0 by lia. split; [left; reflexivity|right; split; [reflexivity|lia]].
  - right. replace (m / 10) with 1 by lia. split; [left; reflexivity|right; split; [reflexivity|lia]].
Qed.
Lemma two_day d : 0 <= d <= 31 -> core_in day_shapes (two d).
Proof.
  intro H. apply day_core. exists (digit_char (d / 10)), (digit_char (d mod 10)). split; [reflexivity|].
  unfold is_dx. rewrite !is_digit_char, !digit_val_char by lia. destruct (Z_lt_ge_dec d 30) as [L|L].
  - left. split; [right; split; [reflexivity|lia]|reflexivity].
  - right. replace (d / 10) with 3 by lia. split; [left; reflexivity|right; split; [reflexivity|lia]].
Qed.
Lemma two_month_den m : 1 <= m <= 12 -> month_den (two m) m m true.
Proof. intro H. constructor; [apply two_month; exact H|apply atoi_two; lia]. Qed.
Lemma two_day_den L L' d : 1 <= d <= 31 -> day_den L L' (two d) d d true.
Proof. intro H. constructor; [apply two_day; lia|apply atoi_two; lia|lia]. Qed.

(** A month or day that may be missing, with its qualifier. *)
Definition opt_part (t : str) (o : option Z) (hi : Z) (q : option qualifier) (c : str) : Prop :=
  match o with
  | None => t = [] /\ q = None /\ c = []
  | Some n => qualified t (two n) q /\ 1 <= n <= hi /\ c = two n
  end.
Lemma num_den s yt yc y yq mt mc om mq dt dc od dq u a :
  ymd_text s yt mt dt -> qualified yt yc yq -> year4 yc y -> opt_part mt om 12 mq mc -> opt_part dt od 31 dq dc ->
  qualifier_flags yq mq dq = (u, a) ->
  date_den s y (first_month om) (first_day od) y (last_month om) (last_day y (last_month om) od) u a YEAR
    (match om, od with Some _, Some _ => true | _, _ => false end).
Proof.
  intros Ht Hyq Hy Hm Hd Hq. pose proof (year4_core _ _ Hy) as (Hc & _).
  assert (P : forall n, no_x (two n)).
  { intro n. unfold no_x, two. change [digit_char (n / 10); digit_char (n mod 10)] with ([digit_char (n / 10)] ++ [digit_char (n mod 10)]).
    rewrite suffix_X_snoc. apply Ascii.eqb_neq. intro E. apply (f_equal code) in E. change (code X) with 88 in E.
    rewrite code_digit_char in E by lia. lia. }
  assert (PX : forall n, seqb (two n) ($"XX") = false).
  { intro n. apply seqb_neq. intro E. specialize (P n). rewrite E in P. discriminate. }
  assert (Hpr : YEAR = date_prec mc dc YEAR).
  { unfold date_prec, month_prec. destruct om as [m|]; cbn in Hm; [destruct Hm as (_ & _ & ->)|destruct Hm as (_ & _ & ->)];
    (destruct od as [d|]; cbn in Hd; [destruct Hd as (_ & _ & ->)|destruct Hd as (_ & _ & ->)]); rewrite ?PX; cbn [andb]; try rewrite (P m); reflexivity. }
  assert (Hpo : parts_ok yt yc yq mt mc mq dt dc dq).
  { constructor; auto.
    - destruct om; cbn in Hm; [destruct Hm as (Q & _ & ->); exact Q|destruct Hm as (-> & -> & ->); constructor].
    - destruct om; cbn in Hm; [destruct Hm as (_ & R & ->); right; apply two_month; exact R|tauto].
    - destruct od; cbn in Hd; [destruct Hd as (Q & _ & ->); exact Q|destruct Hd as (-> & -> & ->); constructor].
    - destruct od; cbn in Hd; [destruct Hd as (_ & R & ->); right; apply two_day; lia|tauto]. }
  assert (Hmd : month_den mc (first_month om) (last_month om) (match om with Some _ => true | None => false end)).
  { destruct om; cbn in *; [destruct Hm as (_ & R & ->); apply two_month_den; exact R|destruct Hm as (_ & _ & ->); constructor]. }
  assert (Hdd : day_den (month_len y (first_month om)) (month_len y (last_month om)) dc (first_day od) (last_day y (last_month om) od) (match od with Some _ => true | None => false end)).
  { destruct od; cbn in *; [destruct Hd as (_ & R & ->); apply two_day_den; exact R|destruct Hd as (_ & _ & ->); constructor]. }
  constructor. exists yt, yc, yq, mt, mc, mq, dt, dc, dq, YEAR, true. do 2 eexists.
  split; [exact Ht|]. split; [exact Hpo|]. split; [apply year4_den; exact Hy|]. split; [exact Hmd|]. split; [exact Hdd|].
  split; [exact Hq|]. split; [exact Hpr|]. destruct om, od; reflexivity.
Qed.
Definition complete (m d : option Z) : bool := match m, d with Some _, Some _ => true | _, _ => false end.
Lemma two_ne n : two n <> []. Proof. discriminate. Qed.
Theorem level0_den s y m d : level0_date s y m d ->
  date_den s y (first_month m) (first_day d) y (last_month m) (last_day y (last_month m) d) 0 0 YEAR (complete m d).
Proof.
  intros [t y0 r m0 d0 Hy Hr]. destruct Hr as [|m0 Hm|m0 d0 Hm Hd].
  - rewrite app_nil_r. apply (num_den t t t y0 None [] [] None None [] [] None None); [constructor|constructor|exact Hy|repeat split|repeat split|reflexivity].
  - apply (num_den _ t t y0 None (two m0) (two m0) (Some m0) None [] [] None None); [apply yt_ym; apply two_ne|constructor|exact Hy| | |reflexivity].
    + split; [constructor|]. split; [exact Hm|reflexivity].
    + repeat split.
  - apply (num_den _ t t y0 None (two m0) (two m0) (Some m0) None (two d0) (two d0) (Some d0) None); [apply yt_ymd; apply two_ne|constructor|exact Hy| | |reflexivity].
    + split; [constructor|]. split; [exact Hm|reflexivity].
    + split; [constructor|]. split; [exact Hd|reflexivity].
Qed.
