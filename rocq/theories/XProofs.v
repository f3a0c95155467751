(** Unspecified digits from the right, and letter prefixed years. *)
From Coq Require Import Ascii String ZArith NArith Bool Lia ZifyBool List.
From Verif Require Import GoStr GoTime Regex Patterns RegexSym RegexRel RegexGen SpecCal SpecText SpecGrammar SpecForms SpecSpan StrFacts TextFacts Edtf Calendar Common Level0 Level1 Level2 Parser CalFacts ApiFacts SpanFacts YmdShapes YmdFacts InvFacts GrammarFacts LangFacts LangNorm LangForms LangForms2 DateFacts ParseFacts SplitFacts Level0Facts FormFacts SeasonFacts Level1Proofs.
Import ListNotations.
Open Scope Z_scope.
Ltac Zify.zify_post_hook ::= Z.div_mod_to_equations.

(** ** Dates without qualifiers *)
Lemma plain_den s yt mt dt y y' py sy m m' sm d d' sd : ymd_text s yt mt dt -> core_in year_shapes yt ->
  mt = [] \/ core_in month_shapes mt -> dt = [] \/ core_in day_shapes dt ->
  year_den yt y y' py sy -> month_den mt m m' sm -> day_den (month_len y m) (month_len y' m') dt d d' sd ->
  date_den s y m d y' m' d' 0 0 (date_prec mt dt py) (sy && sm && sd).
Proof.
  intros Ht Hy Hm Hd Dy Dm Dd. constructor. exists yt, yt, None, mt, mt, None, dt, dt, None, py, sy, sm, sd.
  split; [exact Ht|]. split; [constructor; auto; constructor|]. auto 10.
Qed.
Lemma digits_x c : d_or_x c <-> is_dx c = true.
Proof.
  unfold d_or_x, is_dx. rewrite orb_true_iff. split; (intros [H|H]; [auto|right]).
  - subst. reflexivity.
  - apply Ascii.eqb_eq in H. exact H.
Qed.
Lemma upx_id s : ~ In "x"%char s -> map upx s = s.
Proof.
  intro N. induction s as [|c s IH]; [reflexivity|]. cbn [map]. rewrite IH by (intro H; apply N; right; exact H). f_equal.
  unfold upx. destruct (Ascii.eqb c "x") eqn:E; [|reflexivity]. apply Ascii.eqb_eq in E. exfalso. apply N. left. exact E.
Qed.
Lemma to_unspecified s : unspecified_digits s -> In "X"%char s -> ~ season_head s ->
  ParseString s = let* sp := dateSpanFromYMD s in OK (edtf_of_span sp s 1 ($"Unspecified digit(s) from the right")).
Proof.
  intros Hu HX HS. assert (M : match_string UnspecifiedDigits s = true) by (apply UnspecifiedDigits_spec; exact Hu).
  assert (Nx : forall c, In c s -> in_set [(48, 57); (88, 88); (45, 45)] c = true).
  { pose proof M as Q. apply match_bytes in Q; [|reflexivity]. unfold all_in in Q. rewrite Forall_forall in Q. intros c Hc. specialize (Q c Hc).
    match type of Q with in_set ?b _ = _ => let v := eval vm_compute in b in change (in_set v c = true) in Q end.
    unfold in_set in *. cbn [existsb fst snd] in *. lia. }
  assert (N : forall c, in_set [(48, 57); (88, 88); (45, 45)] c = false -> ~ In c s) by (intros c Hc Hi; rewrite (Nx _ Hi) in Hc; discriminate).
  unfold ParseString, IsLevel1. rewrite (not_level0 s "X"%char eq_refl HX).
  rewrite (proj2 (Level1_spec s)) by (do 4 right; left; rewrite upx_id; [exact Hu|apply N; reflexivity]).
  unfold L1_ParseString, IsLetterPrefixedCalendarYear, IsSeason, IsQualifiedDate, IsUnspecifiedDigits.
  replace (match_string LetterPrefixedCalendarYear s) with false by (symmetry; no_byte "X"%char; exact HX).
  rewrite season_false by (exact HS || (apply N; reflexivity)).
  replace (match_string QualifiedDate s) with false by (symmetry; no_byte "X"%char; exact HX).
  rewrite M. unfold ParseUnspecifiedDigits. rewrite M. cbn [negb]. rewrite single_fwd by (apply N; reflexivity). reflexivity.
Qed.
Lemma runs_den s lv f y m d y' m' d' u a p : date_den s y m d y' m' d' u a p false -> real_date y m d -> real_date y' m' d' ->
  exists sp, dateSpanFromYMD s = OK sp /\ let e := edtf_of_span sp s lv f in runs e y m d y' m' d' /\ flagged e u a /\ precise e p.
Proof.
  intros D R R'. destruct (span_fwd _ _ _ _ _ _ _ _ _ _ _ D R R') as (E & _). eexists. split; [exact E|]. apply span6_runs. discriminate.
Qed.
Definition spans (s : str) (lv : Z) (f : str) (y m d y' m' d' : Z) (p : N) : Prop :=
  exists e, ParseString s = OK e /\ e_level e = lv /\ e_feature e = f /\ runs e y m d y' m' d' /\ flagged e 0 0 /\ precise e p.
Lemma x_spans s y m d y' m' d' p : unspecified_digits s -> In "X"%char s -> ~ season_head s ->
  date_den s y m d y' m' d' 0 0 p false -> real_date y m d -> real_date y' m' d' ->
  spans s 1 ($"Unspecified digit(s) from the right") y m d y' m' d' p.
Proof.
  intros Hu HX HS D R R'. unfold spans. rewrite to_unspecified by assumption.
  destruct (runs_den s 1 ($"Unspecified digit(s) from the right") _ _ _ _ _ _ _ _ _ D R R') as (sp & -> & H). cbn [bind].
  eexists. split; [reflexivity|]. auto.
Qed.

(** ** Decades, centuries and millennia *)
Lemma head_len s : season_head s -> (7 <= length s)%nat.
Proof.
  intros (t & y & n & r & Hy & _ & ->). rewrite app_length. cbn [length two app]. destruct Hy; unfold four; cbn [length]; lia.
Qed.
Lemma year_x_spans a b c : is_digit a = true -> is_dx b = true -> is_dx c = true -> 
  spans [a; b; c; X] 1 ($"Unspecified digit(s) from the right") (year_lo a b c) 1 1 (year_hi a b c) 12 31 (xprec b c).
Proof.
  intros Ha Hb Hc. assert (A : is_dx a = true) by (unfold is_dx; rewrite Ha; reflexivity).
  apply x_spans.
  - apply yf_y. split; [reflexivity|]. repeat (apply Forall_cons; [apply digits_x; auto|]). apply Forall_nil.
  - do 3 right. left. reflexivity.
  - intro H. apply head_len in H. cbn in H. lia.
  - assert (K : core_in year_shapes [a; b; c; X]) by (apply year_core; exists a, b, c, X; auto 10).
    exact (plain_den [a; b; c; X] [a; b; c; X] [] [] _ _ _ _ _ _ _ _ _ _ (yt_y _) K (or_introl eq_refl) (or_introl eq_refl) (yd_x a b c Ha Hb Hc) md_none (dd_none _ _)).
  - split; [lia|]. pose proof (month_len_range (year_lo a b c) 1). lia.
  - split; [lia|]. cbn. lia.
Qed.
Lemma dx_digit n : 0 <= n <= 9 -> is_dx (digit_char n) = true.
Proof. intro H. unfold is_dx. rewrite is_digit_char by exact H. reflexivity. Qed.
Lemma xlo_digit n : 0 <= n <= 9 -> xlo (digit_char n) = n.
Proof. intro H. unfold xlo. rewrite digit_not_X by (apply is_digit_char; exact H). apply digit_val_char. exact H. Qed.
Lemma xhi_digit n : 0 <= n <= 9 -> xhi (digit_char n) = n.
Proof. intro H. unfold xhi. rewrite digit_not_X by (apply is_digit_char; exact H). apply digit_val_char. exact H. Qed.
Lemma notX n : 0 <= n <= 9 -> Ascii.eqb (digit_char n) X = false.
Proof. intro H. apply digit_not_X. apply is_digit_char. exact H. Qed.
Theorem decade_spans k : 0 <= k <= 999 -> spans (three k ++ $"X") 1 ($"Unspecified digit(s) from the right") (10 * k) 1 1 (10 * k + 9) 12 31 DECADE.
Proof.
  intro H. pose proof (year_x_spans (digit_char (k / 100)) (digit_char (k / 10 mod 10)) (digit_char (k mod 10))) as G.
  unfold year_lo, year_hi, xprec in G. rewrite !xlo_digit, !xhi_digit, !digit_val_char, !notX in G by lia.
  replace (10 * k) with (k / 100 * 1000 + k / 10 mod 10 * 100 + k mod 10 * 10) by lia. apply G; [apply is_digit_char|apply dx_digit|apply dx_digit]; lia.
Qed.
Theorem century_spans k : 0 <= k <= 99 -> spans (two k ++ $"XX") 1 ($"Unspecified digit(s) from the right") (100 * k) 1 1 (100 * k + 99) 12 31 CENTURY.
Proof.
  intro H. pose proof (year_x_spans (digit_char (k / 10)) (digit_char (k mod 10)) X) as G.
  unfold year_lo, year_hi, xprec in G. change (xlo X) with 0 in G. change (xhi X) with 9 in G. change (Ascii.eqb X X) with true in G. cbv iota in G.
  rewrite !xlo_digit, !xhi_digit, !digit_val_char, !notX in G by lia.
  replace (100 * k) with (k / 10 * 1000 + k mod 10 * 100 + 0 * 10) by lia.
  replace (k / 10 * 1000 + k mod 10 * 100 + 0 * 10 + 99) with (k / 10 * 1000 + k mod 10 * 100 + 9 * 10 + 9) by lia.
  apply G; [apply is_digit_char|apply dx_digit|reflexivity]; lia.
Qed.
Theorem millennium_spans k : 0 <= k <= 9 -> spans (digit_char k :: $"XXX") 1 ($"Unspecified digit(s) from the right") (1000 * k) 1 1 (1000 * k + 999) 12 31 MILLENIUM.
Proof.
  intro H. pose proof (year_x_spans (digit_char k) X X) as G.
  unfold year_lo, year_hi, xprec in G. change (xlo X) with 0 in G. change (xhi X) with 9 in G. change (Ascii.eqb X X) with true in G. cbv iota in G.
  rewrite !digit_val_char in G by lia.
  replace (1000 * k) with (k * 1000 + 0 * 100 + 0 * 10) by lia.
  replace (k * 1000 + 0 * 100 + 0 * 10 + 999) with (k * 1000 + 9 * 100 + 9 * 10 + 9) by lia.
  apply G; [apply is_digit_char; lia|reflexivity|reflexivity].
Qed.

(** ** Unspecified months and days *)
Lemma four_is_x y : 0 <= y <= 9999 -> four_x (four y).
Proof. intro H. split; [reflexivity|]. unfold four. repeat (apply Forall_cons; [apply digits_x, dx_digit; lia|]). apply Forall_nil. Qed.
Lemma four_year4 y : 0 <= y <= 9999 -> year4 (four y) y.
Proof. intro H. constructor. exact H. Qed.
Lemma four_core y : 0 <= y <= 9999 -> core_in year_shapes (four y).
Proof. intro H. apply (year4_core (four y) y). apply four_year4. exact H. Qed.
Lemma xx_month : core_in month_shapes ($"XX").
Proof. apply month_core. exists X, X. split; [reflexivity|]. left. auto. Qed.
Lemma xx_day : core_in day_shapes ($"XX").
Proof. apply day_core. exists X, X. split; [reflexivity|]. left. split; [auto|reflexivity]. Qed.
Lemma xx_not_two n : 0 <= n <= 99 -> forall r q, $"XX" ++ r = two n ++ q -> False.
Proof. intros H r q E. injection E as E _. apply (f_equal code) in E. rewrite code_digit_char in E by lia. change (code "X") with 88 in E. lia. Qed.
Lemma year_xx_head y r : 0 <= y <= 9999 -> ~ season_head (four y ++ "-"%char :: $"XX" ++ r).
Proof.
  intros Hy H. apply (season_tail _ y) in H; [|apply four_year4; exact Hy]. destruct H as (n & q & Hn & E).
  injection E as E _ _. apply (f_equal code) in E. rewrite code_digit_char in E by lia. change (code "X") with 88 in E. lia.
Qed.
Lemma x_month_xx : x_month ($"XX").
Proof. exists 1, X, X. repeat split; try lia; right; reflexivity. Qed.
Lemma x_day_xx : x_day ($"XX").
Proof. exists 1, X, X. repeat split; try lia; right; reflexivity. Qed.
Theorem year_xx_spans y : 0 <= y <= 9999 -> spans (four y ++ $"-XX") 1 ($"Unspecified digit(s) from the right") y 1 1 y 12 31 YEAR.
Proof.
  intro Hy. apply x_spans.
  - exact (yf_ym _ _ _ (four y) ($"XX") (four_is_x _ Hy) x_month_xx).
  - apply in_or_app. right. right. left. reflexivity.
  - apply (year_xx_head y []). exact Hy.
  - assert (D : day_den (month_len y 1) (month_len y 12) [] 1 31 false) by exact (dd_none (month_len y 1) (month_len y 12)).
    exact (plain_den (four y ++ $"-XX") (four y) ($"XX") [] _ _ _ _ _ _ _ _ _ _ (yt_ym (four y) ($"XX") ltac:(discriminate)) (four_core _ Hy) (or_intror xx_month) (or_introl eq_refl)
      (year4_den _ _ (four_year4 _ Hy)) md_xx D).
  - split; cbn; lia.
  - split; cbn; lia.
Qed.
Theorem year_xx_xx_spans y : 0 <= y <= 9999 -> spans (four y ++ $"-XX-XX") 1 ($"Unspecified digit(s) from the right") y 1 1 y 12 31 YEAR.
Proof.
  intro Hy. apply x_spans.
  - exact (yf_ymd _ _ _ (four y) ($"XX") ($"XX") (four_is_x _ Hy) x_month_xx x_day_xx).
  - apply in_or_app. right. right. left. reflexivity.
  - apply (year_xx_head y ($"-XX")). exact Hy.
  - assert (D : day_den (month_len y 1) (month_len y 12) ($"XX") 1 31 false) by exact (dd_xx (month_len y 1) (month_len y 12)).
    exact (plain_den (four y ++ $"-XX-XX") (four y) ($"XX") ($"XX") _ _ _ _ _ _ _ _ _ _ (yt_ymd (four y) ($"XX") ($"XX") ltac:(discriminate) ltac:(discriminate)) (four_core _ Hy) (or_intror xx_month) (or_intror xx_day)
      (year4_den _ _ (four_year4 _ Hy)) md_xx D).
  - split; cbn; lia.
  - split; cbn; lia.
Qed.
Lemma month_xx_form y m : 0 <= y <= 9999 -> 1 <= m <= 12 -> unspecified_digits (four y ++ "-"%char :: two m ++ $"-XX").
Proof.
  intros Hy Hm. refine (yf_ymd _ _ _ (four y) (two m) ($"XX") (four_is_x _ Hy) _ x_day_xx).
  exists m, (digit_char (m / 10)), (digit_char (m mod 10)). split; [exact Hm|]. split; [reflexivity|]. split; left; reflexivity.
Qed.
(** ParseString gives a season here, with the right months. *)
Theorem month_xx_string y m : 0 <= y <= 9999 -> 1 <= m <= 12 ->
  exists e, ParseString (four y ++ $"-" ++ two m ++ $"-XX") = OK e /\ e_level e = 1 /\ runs e y m 1 y m (month_len y m).
Proof.
  intros Hy Hm. change ($"-" ++ two m ++ $"-XX") with ("-"%char :: two m ++ $"-XX"). set (s := four y ++ "-"%char :: two m ++ $"-XX").
  assert (X1 : In "X"%char s) by (apply in_or_app; right; right; apply in_or_app; right; right; left; reflexivity).
  assert (NI : forall c, is_digit c = false -> c <> "-"%char -> c <> "X"%char -> ~ In c s).
  { intros c Hc H1 H2 Hi. unfold s in Hi. apply in_app_or in Hi. destruct Hi as [Hi|[<-|Hi]]; [|congruence|].
    - destruct (year4_bytes _ _ _ (four_year4 _ Hy) Hi); congruence.
    - apply in_app_or in Hi. destruct Hi as [Hi|[<-|[<-|[<-|[]]]]]; [rewrite (in_two _ _ Hi) in Hc by lia; discriminate|congruence..]. }
  destruct (season_code_parses (four y) y m ($"-XX") y m y m (four_year4 _ Hy)) as (e & He & Hl & _ & Hm').
  - lia.
  - unfold season_code. replace (m =? 21) with false by lia. replace (m =? 22) with false by lia. replace (m =? 23) with false by lia. replace (m =? 24) with false by lia. reflexivity.
  - left. exact Hy.
  - left. exact Hy.
  - exists e. rewrite to_season.
    + split; [exact He|]. split; [exact Hl|]. destruct Hm' as (H1 & H2 & _). split; [exact (proj1 H1)|]. split; [exact (proj2 H2)|]. left. auto.
    + exact (not_level0 s "X"%char eq_refl X1).
    + apply Level1_spec. do 4 right. left. rewrite upx_id by (apply NI; [reflexivity|discriminate|discriminate]). apply month_xx_form; assumption.
    + apply NI; [reflexivity|discriminate|discriminate].
    + apply season_head_match. exists (four y), y, m, ($"-XX"). split; [apply four_year4; exact Hy|]. split; [lia|reflexivity].
Qed.
Theorem month_xx_direct y m : 0 <= y <= 9999 -> 1 <= m <= 12 ->
  exists e, ParseUnspecifiedDigits (four y ++ $"-" ++ two m ++ $"-XX") = OK e /\ e_level e = 1 /\ runs e y m 1 y m (month_len y m) /\ precise e MONTH.
Proof.
  intros Hy Hm. pose proof (month_len_range y m). change ($"-" ++ two m ++ $"-XX") with ("-"%char :: two m ++ $"-XX").
  unfold ParseUnspecifiedDigits. rewrite (proj2 (UnspecifiedDigits_spec _) (month_xx_form _ _ Hy Hm)). cbn [negb].
  assert (NS : ~ In "/"%char (four y ++ "-"%char :: two m ++ $"-XX")).
  { intro Hi. apply in_app_or in Hi. destruct Hi as [Hi|[Hi|Hi]]; [destruct (year4_bytes _ _ _ (four_year4 _ Hy) Hi) as [Q|Q]; discriminate Q|discriminate|].
    apply in_app_or in Hi. destruct Hi as [Hi|[Hi|[Hi|[Hi|[]]]]]; [apply in_two in Hi; [discriminate|lia]|discriminate..]. }
  rewrite single_fwd by exact NS.
  assert (D : date_den (four y ++ "-"%char :: two m ++ $"-XX") y m 1 y m (month_len y m) 0 0 MONTH false).
  { assert (PX : seqb (two m) ($"XX") = false).
    { apply seqb_neq. intro E. apply (xx_not_two m ltac:(lia) [] []). rewrite !app_nil_r. symmetry. exact E. }
    assert (Q : date_prec (two m) ($"XX") YEAR = MONTH) by (unfold date_prec; rewrite PX; reflexivity).
    rewrite <- Q.
    exact (plain_den _ (four y) (two m) ($"XX") _ _ _ _ _ _ _ _ _ _ (yt_ymd (four y) (two m) ($"XX") (two_ne m) ltac:(discriminate)) (four_core _ Hy) (or_intror (two_month m Hm)) (or_intror xx_day)
      (year4_den _ _ (four_year4 _ Hy)) (two_month_den m Hm) (dd_xx (month_len y m) (month_len y m))). }
  destruct (runs_den _ 1 UNSPECIFIED_DIGITS _ _ _ _ _ _ _ _ _ D) as (sp & -> & H1 & _ & H3); [split; lia|split; lia|]. cbn [bind].
  eexists. split; [reflexivity|]. auto.
Qed.

(** ** Letter prefixed years *)
Lemma letter_bytes t : digits_text t -> forall c, In c t -> is_digit c = true.
Proof. intros (_ & H) c Hc. rewrite Forall_forall in H. auto. Qed.
Lemma Letter_re_eq : anchored LetterPrefixedCalendarYear = Some (RSeq (rc 89) (RCap 1 (RSeq (ROpt (rc 45)) (RSeq rd (RStar rd))))).
Proof. reflexivity. Qed.
Lemma letter_submatch t : cat minus_text digits_text t -> find_submatch LetterPrefixedCalendarYear ("Y"%char :: t) = ["Y"%char :: t; t].
Proof.
  intro Ht. apply (anchored_unique _ _ Letter_re_eq eq_refl).
  - apply (anchored_match LetterPrefixedCalendarYear _ Letter_re_eq eq_refl). apply LetterYear_spec. exists ["Y"%char], t. repeat split. exact Ht.
  - intros k (u1 & k1 & u2 & k2 & H1 & (k3 & H2 & ->) & E & ->). apply gen_rc in H1; [|lia]. destruct H1 as (-> & ->).
    injection E as <-. rewrite (gen_nocap _ _ _ H2 eq_refl). reflexivity.
Qed.
Lemma to_letter t : cat minus_text digits_text t -> ParseString ("Y"%char :: t) = ParseLetterPrefixedCalendarYear ("Y"%char :: t).
Proof.
  intro Ht. assert (HL : letter_year ("Y"%char :: t)) by (exists ["Y"%char], t; repeat split; exact Ht).
  unfold ParseString, IsLevel1. rewrite (not_level0 _ "Y"%char eq_refl) by (left; reflexivity). rewrite (proj2 (Level1_spec _)) by auto.
  unfold L1_ParseString, IsLetterPrefixedCalendarYear. rewrite (proj2 (LetterYear_spec _) HL). reflexivity.
Qed.
Lemma year4_text' t y : year4 t y -> cat minus_text digits_text t.
Proof.
  assert (D : forall n, 0 <= n <= 9999 -> digits_text (four n)) by (intros n Hn; split; [discriminate|]; unfold four; repeat constructor; apply is_digit_char; lia).
  intros [n Hn|n Hn].
  - exists [], (four n). split; [left; reflexivity|]. auto.
  - exists ["-"%char], (four n). split; [right; reflexivity|]. auto.
Qed.
Theorem letter_year_parses t y : year4 t y -> exists e, ParseString ($"Y" ++ t) = OK e /\ e_level e = 1 /\ e_feature e = $"Letter-prefixed calendar year" /\
  from_to (e_start e) y 1 1 y 1 1 /\ from_to (e_end e) y 12 31 y 12 31 /\ flagged e 0 0 /\ precise e YEAR /\
  exists e0, ParseString t = OK e0 /\ e_start e0 = e_start e /\ e_end e0 = e_end e.
Proof.
  intro Hy. pose proof (year_is _ _ Hy) as Ht. pose proof (level0_is _ _ _ _ Ht) as It. pose proof (year4_text' _ _ Hy) as Hf. change ($"Y" ++ t) with ("Y"%char :: t).
  rewrite to_letter by exact Hf. unfold ParseLetterPrefixedCalendarYear. rewrite letter_submatch by exact Hf. cbn [length Nat.eqb negb]. cbv zeta. unfold sub. cbn [nth].
  assert (L : Nat.ltb (if has_prefix t ($"-") then 5 else 4) (length t) = false).
  { destruct Hy as [n Hn|n Hn]; [|reflexivity]. replace (has_prefix (four n) ($"-")) with false; [reflexivity|]. symmetry.
    apply not_true_iff_false. intro E. apply has_prefix_spec in E. destruct E as (r & E). injection E as E _. symmetry in E.
    symmetry in E. apply digit_not_minus in E; [destruct E|lia]. }
  rewrite L. rewrite single_fwd by (apply no_slash; exact It).
  assert (X0 : exists_date y None None) by (apply exists_none; discriminate).
  assert (D : dateSpanFromYMD t = OK (span6 t 0 0 YEAR false y 1 1 y 12 31)).
  { exact (proj1 (span_fwd _ _ _ _ _ _ _ _ _ _ _ (level0_den _ _ _ _ Ht) X0 (last_real _ _ _ _ Ht X0))). }
  rewrite D. cbn [bind]. eexists. split; [reflexivity|]. split; [reflexivity|]. split; [reflexivity|].
  split; [split; apply dated_bound|]. split; [split; apply dated_bound|]. split; [repeat constructor|]. split; [repeat constructor|].
  rewrite parse_date by exact It. rewrite D. cbn [bind]. eexists. split; [reflexivity|]. split; reflexivity.
Qed.
Theorem letter_year_unsupported t : digits_text t -> (4 < length t)%nat ->
  ParseString ($"Y" ++ t) = Err (Unsupported ($"Letter-prefixed calendar year") ($"Y" ++ t)) /\
  ParseString ($"Y-" ++ t) = Err (Unsupported ($"Letter-prefixed calendar year") ($"Y-" ++ t)).
Proof.
  intros Ht Hl. split.
  - change ($"Y" ++ t) with ("Y"%char :: t). assert (C : cat minus_text digits_text t) by (exists [], t; split; [left; reflexivity|auto]).
    rewrite to_letter by exact C. unfold ParseLetterPrefixedCalendarYear. rewrite letter_submatch by exact C. cbn [length Nat.eqb negb]. cbv zeta. unfold sub. cbn [nth].
    replace (has_prefix t ($"-")) with false.
    + replace (Nat.ltb 4 (length t)) with true; [reflexivity|]. symmetry. apply Nat.ltb_lt. exact Hl.
    + symmetry. apply not_true_iff_false. intro E. apply has_prefix_spec in E. destruct E as (r & ->). pose proof (letter_bytes _ Ht "-"%char (or_introl eq_refl)) as Q. discriminate Q.
  - change ($"Y-" ++ t) with ("Y"%char :: "-"%char :: t). assert (C : cat minus_text digits_text ("-"%char :: t)) by (exists ["-"%char], t; split; [right; reflexivity|auto]).
    rewrite to_letter by exact C. unfold ParseLetterPrefixedCalendarYear. rewrite letter_submatch by exact C. cbn [length Nat.eqb negb]. cbv zeta. unfold sub. cbn [nth].
    change (has_prefix ("-"%char :: t) ($"-")) with (has_prefix t []). replace (has_prefix t []) with true by (destruct t; reflexivity).
    replace (Nat.ltb 5 (length ("-"%char :: t))) with true; [reflexivity|]. symmetry. apply Nat.ltb_lt. cbn [length]. lia.
Qed.
