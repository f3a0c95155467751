(** The errors of exponential years and significant digits. *)
From Coq Require Import Ascii String ZArith NArith Bool Lia ZifyBool List.
From Verif Require Import GoStr GoTime GoBig SpecWrap Regex Patterns RegexSym RegexRel RegexGen SpecCal SpecText SpecZone SpecGrammar SpecForms SpecSpan SpecReads SpecRefused StrFacts TextFacts Edtf Calendar Common Level0 Level1 Level2 Parser CalFacts ApiFacts SpanFacts YmdShapes YmdFacts InvFacts GrammarFacts SetGrammar LangFacts LangNorm LangForms LangForms2 DateFacts ParseFacts SplitFacts Level0Facts Level0Proofs FormFacts SeasonFacts Level1Proofs XProofs FormProofs SigProofs ExpProofs ExpWrap ExpLimit ExpPanic GroupingProofs ReadsFacts ReadsSeason ReadsYears RefDate RefYears.
Import ListNotations.
Open Scope Z_scope.

(** ** Notations *)
Lemma wraps_far n : 2 ^ 128 <= Z.abs n -> wraps n 0.
Proof.
  intro H. destruct (round_kept (Z.abs n) 0 ltac:(lia) ltac:(lia)) as (m' & e' & _ & _ & _ & _ & K). rewrite Z.pow_0_r, Z.mul_1_r in K.
  eexists. split; [exact K|]. split; [lia|]. pose proof (kept_high _ _ H K) as (q & ->). exists (Z.sgn n * q). lia.
Qed.
Lemma notation_cases X Y t m e : X = max_exp -> Y = X - 64 -> 65 <= X <= 2 ^ 31 -> exp_text t m e ->
  (2 ^ 63 - 1 < e \/ m <> 0 /\ X < Z.log2 (Z.abs m) + 1 + e -> ParseExponentialNotation t = Err (EBig t)) /\
  (~ (2 ^ 63 - 1 < e \/ m <> 0 /\ X < Z.log2 (Z.abs m) + 1 + e) ->
   (2 ^ X <= Z.abs m * 10 ^ e -> ParseExponentialNotation t = Panic) /\
   (~ 2 ^ X <= Z.abs m * 10 ^ e ->
     (exists y, wraps (m * 10 ^ e) y /\ ParseExponentialNotation t = if 9999 <? Z.abs y then Err (Unsupported ($"exponential notation") t) else OK y) \/
     (2 ^ 64 - 1) * 2 ^ Y < Z.abs m * 10 ^ e /\ ParseExponentialNotation t = Panic)).
Proof.
  intros HX -> RX [neg ds c es m0 e0 Hd Hc He]. unfold ParseExponentialNotation.
  rewrite (exp_split_text neg ds c es (digits_text_dec _ _ Hd) Hc (digits_text_dec _ _ He)), (nat_val_dec _ _ Hd), (nat_val_dec _ _ He).
  pose proof (dec_nonneg _ _ Hd) as Hm. pose proof (dec_nonneg _ _ He) as He0. clear Hd Hc He. set (t0 := sign neg ++ ds ++ c :: es). clearbody t0. clear ds es c.
  assert (S0 : signed neg m0 <> 0 <-> m0 <> 0) by (unfold signed; destruct neg; lia).
  assert (Sg : Z.abs (signed neg m0 * 10 ^ e0) = m0 * 10 ^ e0).
  { rewrite Z.abs_mul. rewrite (Z.abs_eq (10 ^ e0)) by (apply Z.pow_nonneg; lia). f_equal. unfold signed. destruct neg; lia. }
  replace (Z.abs (signed neg m0)) with m0 by (unfold signed; destruct neg; lia). rewrite S0. clear S0.
  destruct (Z_lt_dec (2 ^ 63 - 1) e0) as [Big|Fit].
  { split; [|tauto]. intros _. unfold bf_scan. replace (max_int64 <? e0) with true by (unfold max_int64; lia). reflexivity. }
  destruct (Z.eq_dec m0 0) as [->|N].
  { split; [tauto|]. intros _. rewrite Z.mul_0_l. split; [intro H; exfalso; pose proof (Z.pow_pos_nonneg 2 X ltac:(lia) ltac:(lia)); lia|]. intros _. left. exists 0.
    replace (signed neg 0) with 0 by (destruct neg; reflexivity). split; [apply wraps_small; reflexivity|].
    unfold bf_scan. replace (max_int64 <? e0) with false by (unfold max_int64; lia). reflexivity. }
  rewrite <- bitlen_log by exact N. destruct (Z_lt_dec X (bitlen m0 + e0)) as [D|D].
  { split; [|tauto]. intros _. unfold bf_scan. replace (max_int64 <? e0) with false by (unfold max_int64; lia). replace (m0 =? 0) with false by lia.
    rewrite <- HX. replace (X <? bitlen m0 + e0) with true by lia. reflexivity. }
  split; [tauto|]. intros _. destruct (scan_limit X m0 e0 HX RX ltac:(lia) He0 ltac:(lia)) as (G1 & G2). split.
  { intro H. rewrite (G2 H). reflexivity. }
  intros _. destruct (bf_scan m0 e0) as [[| |m' e']|] eqn:E.
  - exfalso. unfold bf_scan in E. destruct (max_int64 <? e0); [discriminate|]. replace (m0 =? 0) with false in E by lia. destruct (max_exp <? _); [discriminate|].
    destruct (if e0 =? 0 then _ else _) as [(? & ?)|]; discriminate.
  - right. split; [|reflexivity]. destruct (Z_lt_le_dec ((2 ^ 64 - 1) * 2 ^ (X - 64)) (m0 * 10 ^ e0)) as [L|L]; [exact L|]. destruct (G1 L) as (? & ? & Q). discriminate.
  - left. exists (int64_of neg m' e'). assert (Sn : Z.sgn (signed neg m0 * 10 ^ e0) = if neg then -1 else 1).
    { pose proof (Z.pow_pos_nonneg 10 e0 ltac:(lia) He0). rewrite Z.sgn_mul, (Z.sgn_pos (10 ^ e0)) by assumption. unfold signed. destruct neg; lia. }
    split.
    + destruct (Z.ltb_spec (m0 * 10 ^ e0) (2 ^ 128)) as [Q|Q].
      * destruct (scan_kept m0 e0 ltac:(lia) He0 Q) as (m2 & e2 & E2 & _ & Hs & K). rewrite E in E2. injection E2 as <- <-.
        destruct (int64_of_spec neg m' e' Hs) as (B & Dv). exists (m' * 2 ^ e'). rewrite Sg, Sn. auto.
      * pose proof (scan_high m0 e0 m' e' ltac:(lia) He0 Q E) as Hs. unfold int64_of. replace (e' <? 64) with false by lia.
        change (wrap64 0) with 0. change (wrap64 (- 0)) with 0. replace (if neg then 0 else 0) with 0 by (destruct neg; reflexivity).
        apply wraps_far. rewrite Sg. exact Q.
    + unfold MAX_YEARS. set (y := int64_of neg m' e'). replace ((9999 <? y) || (y <? 0 - 9999)) with (9999 <? Z.abs y) by lia. reflexivity.
  - exfalso. unfold bf_scan in E. replace (max_int64 <? e0) with false in E by (unfold max_int64; lia). replace (m0 =? 0) with false in E by lia.
    rewrite <- HX in E. replace (X <? bitlen m0 + e0) with false in E by lia. destruct (if e0 =? 0 then _ else _) as [(? & ?)|]; discriminate.
Qed.
Lemma notation_all t m e : exp_text t m e ->
  (oversized m e -> ParseExponentialNotation t = Err (EBig t)) /\
  (~ oversized m e -> (beyond (Z.abs m * 10 ^ e) -> ParseExponentialNotation t = Panic) /\
    (~ beyond (Z.abs m * 10 ^ e) ->
      (exists y, wraps (m * 10 ^ e) y /\ ParseExponentialNotation t = if 9999 <? Z.abs y then Err (Unsupported ($"exponential notation") t) else OK y) \/
      (2 ^ 64 - 1) * 2 ^ 2147483583 < Z.abs m * 10 ^ e /\ ParseExponentialNotation t = Panic)).
Proof. exact (notation_cases 2147483647 2147483583 t m e eq_refl eq_refl X_range). Qed.
Lemma oversized_dec m e : oversized m e \/ ~ oversized m e.
Proof. unfold oversized. destruct (Z_lt_dec (2 ^ 63 - 1) e); [auto|]. destruct (Z.eq_dec m 0); [right; tauto|]. destruct (Z_lt_dec 2147483647 (Z.log2 (Z.abs m) + 1 + e)); [auto|right; tauto]. Qed.
Lemma beyond_dec n : beyond n \/ ~ beyond n.
Proof. unfold beyond. generalize (2 ^ 2147483647). intro z. destruct (Z_le_dec z n); auto. Qed.
Lemma gives_parse t y : notation_gives t y ->
  ParseExponentialNotation t = (if 9999 <? Z.abs y then Err (Unsupported ($"exponential notation") t) else OK y) \/
  borderline_notation t /\ ParseExponentialNotation t = Panic.
Proof.
  intros [t' m e y' Ht No Nb W]. destruct (notation_all _ _ _ Ht) as (_ & G). destruct (G No) as (_ & G'). destruct (G' Nb) as [(y2 & W2 & E)|(L & E)].
  - left. rewrite (wraps_fun _ _ _ W W2). exact E.
  - right. split; [exists m, e; auto|exact E].
Qed.
Lemma notation_sound t x : notation_refused t x -> ParseExponentialNotation t = Err x \/ borderline_notation t /\ ParseExponentialNotation t = Panic.
Proof.
  intros [t' m e Ht O|t' y G L].
  - left. exact (proj1 (notation_all _ _ _ Ht) O).
  - destruct (gives_parse _ _ G) as [E|E]; [left|auto]. replace (9999 <? Z.abs y) with true in E by lia. exact E.
Qed.
Lemma notation_complete t m e : exp_text t m e ->
  match ParseExponentialNotation t with
  | OK y => notation_gives t y /\ Z.abs y <= 9999
  | Err x => notation_refused t x
  | Panic => notation_crashes t \/ borderline_notation t
  end.
Proof.
  intro Ht. destruct (notation_all _ _ _ Ht) as (G1 & G2). destruct (oversized_dec m e) as [O|O].
  - rewrite (G1 O). exact (nt_size _ _ _ Ht O).
  - destruct (G2 O) as (G3 & G4). destruct (beyond_dec (Z.abs m * 10 ^ e)) as [B|B].
    + rewrite (G3 B). left. exists m, e. auto.
    + destruct (G4 B) as [(y & W & E)|(L & E)]; rewrite E.
      * pose proof (ng_intro t m e y Ht O B W) as G. clear - G. destruct (9999 <? Z.abs y) eqn:Q; [apply (nt_far t y G); lia|split; [exact G|lia]].
      * right. exists m, e. auto.
Qed.
Lemma notation_crash t : notation_crashes t -> ParseExponentialNotation t = Panic.
Proof. intros (m & e & Ht & O & B). exact (proj1 (proj2 (notation_all _ _ _ Ht) O) B). Qed.
Lemma gives_text t y : notation_gives t y -> exists m e, exp_text t m e.
Proof. intros [t' m e y' Ht _ _ _]. eauto. Qed.
Lemma refused_text t x : notation_refused t x -> exists m e, exp_text t m e.
Proof. intros [t' m e Ht _|t' y G _]; [eauto|exact (gives_text _ _ G)]. Qed.

(** ** Exponential years *)
Lemma itoa_number_abs y : exists sgn, minus_text sgn /\ itoa y = sgn ++ itoa (Z.abs y).
Proof.
  destruct (Z.ltb_spec y 0); [exists ($"-"); split; [right; reflexivity|]; replace y with (- Z.abs y) at 1 by lia; apply itoa_neg; lia|exists []; split; [left; reflexivity|rewrite Z.abs_eq by lia; reflexivity]].
Qed.
Lemma itoa_refused y : Z.abs y < 1000 -> DateSpanFromEDTF (itoa y) = Err (EInvalid ($"date") (itoa y)).
Proof.
  intro H. destruct (itoa_number_abs y) as (sgn & Ms & Es). rewrite Es. apply number_span; [exact Ms|apply itoa_digits; lia|].
  pose proof (itoa_len (Z.abs y) ltac:(lia)) as LL. unfold slen in LL. destruct (Z.abs y <? 10), (Z.abs y <? 100), (Z.abs y <? 1000) eqn:Q; lia.
Qed.
Lemma itoa_span y : 1000 <= Z.abs y <= 9999 -> exists sp, DateSpanFromEDTF (itoa y) = OK sp.
Proof.
  intro H. pose proof (date_half _ y None None (year_is _ _ (itoa_year4 y H)) ltac:(apply exists_none; discriminate)) as K.
  assert (N : slashless (itoa y)) by (destruct (itoa_number_abs y) as (sgn & Ms & Es); rewrite Es; apply number_noslash; [exact Ms|apply itoa_digits; lia]).
  assert (F : half_fine (itoa y)) by (do 2 eexists; exact K). apply half_fine_iff in F. destruct F as (r & F).
  destruct (DateSpanFromEDTF (itoa y)) as [sp|x|] eqn:E; [eauto| |exfalso; exact (np_DateSpan _ E)]. exfalso.
  apply span_errors in E. remember (itoa y) as w eqn:Ew. destruct E as [w x _ D|a b x _ _ _|a b c].
  - assert (Q : half_refused w x); [|apply half_errors in Q; congruence]. apply hx_intro; [| |exact D]; rewrite Ew; intro Q; pose proof (itoa_year4 y H) as Y; rewrite Q in Y; inversion Y.
  - apply N. apply in_or_app. right. left. reflexivity.
  - apply N. apply in_or_app. right. left. reflexivity.
Qed.
Lemma exp_form s : exponential_year s -> exists a t m e, s = a :: t /\ (a = "Y"%char \/ a = "y"%char) /\ exp_text t m e.
Proof.
  intros (u & t & Hu & Ht & ->). apply exp_text_form in Ht. destruct Ht as (m & e & Ht).
  destruct Hu as [->| ->]; [exists "Y"%char|exists "y"%char]; exists t, m, e; auto.
Qed.
Lemma exp_whole a t m e : a = "Y"%char \/ a = "y"%char -> exp_text t m e -> ParseString (a :: t) =
  let* y := ParseExponentialNotation t in let* sp := DateSpanFromEDTF (itoa y) in OK (edtf_of_span sp (a :: t) LEVEL2 EXPONENTIAL_YEAR).
Proof. intros Ha Ht. apply exp_parse; [exact Ha|apply exp_text_form; eauto]. Qed.
Theorem exponential_complete s : exponential_year s ->
  match ParseString s with OK _ => True | Err x => exponential_refused s x | Panic => crashes s \/ borderline s end.
Proof.
  intro H. apply exp_form in H. destruct H as (a & t & m & e & -> & Ha & Ht). rewrite (exp_whole a t m e Ha Ht). pose proof (notation_complete t m e Ht) as C.
  destruct (ParseExponentialNotation t) as [y|x|] eqn:E; cbn [bind].
  - destruct C as (G & L). destruct (Z_lt_dec (Z.abs y) 1000) as [S|S].
    + rewrite (itoa_refused y S). cbn [bind]. exact (ex_short a t y _ Ha G S (itoa_canonical y)).
    + destruct (itoa_span y ltac:(lia)) as (sp & ->). exact I.
  - exact (ex_notation a t x Ha C).
  - destruct C as [C|C]; [left; exact (cr_exponential a t Ha C)|right; exact (bl_exponential a t Ha C)].
Qed.
Theorem exponential_sound s x : exponential_refused s x -> ParseString s = Err x \/ borderline s /\ ParseString s = Panic.
Proof.
  intros [a t x' Ha H|a t y w Ha H L Hw].
  - destruct (refused_text _ _ H) as (m & e & Ht). rewrite (exp_whole a t m e Ha Ht). destruct (notation_sound _ _ H) as [->|(B & ->)]; [auto|right].
    split; [exact (bl_exponential a t Ha B)|reflexivity].
  - destruct (gives_text _ _ H) as (m & e & Ht). rewrite (exp_whole a t m e Ha Ht). apply canonical_itoa in Hw. subst w. destruct (gives_parse _ _ H) as [->|(B & ->)].
    + left. replace (9999 <? Z.abs y) with false by lia. cbn [bind]. rewrite (itoa_refused y L). reflexivity.
    + right. split; [exact (bl_exponential a t Ha B)|reflexivity].
Qed.

(** ** Significant digits *)
Lemma repeat_is (c : ascii) n : repeat_str [c] n = repeat c n.
Proof. induction n as [|n IH]; [reflexivity|]. cbn [repeat_str repeat app]. rewrite IH. reflexivity. Qed.
Lemma first_part {A} (p q : list A) v : length q = v -> firstn (length (p ++ q) - v) (p ++ q) = p.
Proof. intros <-. rewrite app_length, Nat.add_sub, firstn_app, Nat.sub_diag, firstn_all. cbn [firstn]. apply app_nil_r. Qed.
Lemma earlier_first y v x : 0 <= v -> earlier_text (itoa y) v x -> exists b, significant_text y v = x ++ "/"%char :: b.
Proof.
  intros Hv H. unfold significant_text. change ($"0") with ["0"%char]. change ($"9") with ["9"%char]. cbv zeta. rewrite !repeat_is. change ($"-") with ["-"%char].
  destruct H as [p q E L|p q E L N].
  - rewrite E. change ("-"%char :: p ++ q) with (("-"%char :: p) ++ q). rewrite first_part by lia. cbn [app has_prefix]. rewrite !has_prefix_nil. cbn [Ascii.eqb Bool.eqb andb].
    replace (Z.to_nat v) with (length q) by lia. eexists. reflexivity.
  - rewrite E. rewrite first_part by lia. assert (Z0 : has_prefix (p ++ repeat "0"%char (Z.to_nat v)) ["-"%char] = false).
    { destruct p as [|c p]; [destruct (Z.to_nat v); reflexivity|]. cbn [app has_prefix]. destruct (Ascii.eqb "-" c) eqn:Q; [|reflexivity]. apply Ascii.eqb_eq in Q. subst c. destruct (N p eq_refl). }
    rewrite Z0. cbn [andb]. replace (Z.to_nat v) with (length q) by lia. eexists. reflexivity.
Qed.
Lemma earlier_total w v : 0 <= v <= slen w -> exists x, earlier_text w v x.
Proof.
  intro H. unfold slen in H. set (k := (length w - Z.to_nat v)%nat). pose proof (firstn_skipn k w) as E. pose proof (skipn_length k w) as L.
  destruct (firstn k w) as [|c p] eqn:F.
  - eexists. apply (et_plain w v [] (skipn k w)); [symmetry; exact E|unfold k in *; lia|discriminate].
  - destruct (ascii_dec c "-") as [->|N].
    + eexists. apply (et_minus w v p (skipn k w)); [symmetry; exact E|unfold k in *; lia].
    + eexists. apply (et_plain w v (c :: p) (skipn k w)); [symmetry; exact E|unfold k in *; lia|intros r Q; injection Q as -> _; contradiction].
Qed.
Lemma years_only y v l h : significant_years y v l h -> 1000 <= Z.abs y <= 9999 /\ 0 <= v <= 4 \/ -999 <= y <= -100 /\ v = 4.
Proof. intros [k w Hk Hw|k w Hk Hw|k Hk]; lia. Qed.
Lemma sig_first y v x b : -9999 <= y <= 9999 -> 0 <= v <= year_width y -> (forall l h, ~ significant_years y v l h) -> significant_text y v = x ++ "/"%char :: b ->
  earlier_text (itoa y) v x -> DateSpanFromEDTF (significant_text y v) = Err (EInvalid ($"date") x).
Proof.
  intros Hy Hv N Et Hx. rewrite <- (year_width_ok y Hy) in Hv.
  destruct (sig_side_number "0"%char y v eq_refl Hv) as (s0 & d0 & M0 & D0 & E0 & L0).
  destruct (sig_side_number "9"%char y v eq_refl Hv) as (s9 & d9 & M9 & D9 & E9 & L9).
  assert (T : exists a b, significant_text y v = a ++ "/"%char :: b /\ (exists s d, minus_text s /\ digits_text d /\ a = s ++ d /\
    slen d = if (y <? 0) && (v =? slen (itoa y)) then slen (itoa y) else slen (itoa (Z.abs y))) /\ slashless b).
  { unfold significant_text. cbv zeta. change ($"0") with ["0"%char]. change ($"9") with ["9"%char]. fold (sig_side "0"%char y v). fold (sig_side "9"%char y v).
    destruct (has_prefix _ _ && has_prefix _ _); [exists (sig_side "9"%char y v), (sig_side "0"%char y v)|exists (sig_side "0"%char y v), (sig_side "9"%char y v)];
      (split; [reflexivity|]); (split; [eauto 8|]); [rewrite E0|rewrite E9]; apply number_noslash; assumption. }
  destruct T as (a & b' & Et' & (s & d & Ms & Ds & Ea & La) & Nb).
  assert (Ns : ~ In "/"%char a) by (rewrite Ea; apply number_noslash; assumption).
  assert (Nx : ~ In "/"%char x).
  { assert (I : forall p q, itoa y = p ++ q -> In "/"%char p -> False).
    { intros p q E Hi. destruct (itoa_number_abs y) as (sg & Msg & Esg). pose proof (number_noslash sg (itoa (Z.abs y)) Msg (itoa_digits (Z.abs y) ltac:(lia))) as Q.
      rewrite <- Esg, E in Q. apply Q, in_or_app. auto. }
    destruct Hx as [p q E L|p q E L _]; intro Q.
    - destruct Q as [Q|Q]; [discriminate|]. apply in_app_or in Q. destruct Q as [Q|Q]; [|apply repeat_spec in Q; discriminate].
      exact (I ("-"%char :: p) q E (or_intror Q)).
    - apply in_app_or in Q. destruct Q as [Q|Q]; [exact (I p q E Q)|apply repeat_spec in Q; discriminate]. }
  rewrite Et' in Et. destruct (split_once _ _ _ _ _ Ns Nx Et) as (Eax & Eb). subst b. rewrite Et'. subst x. clear Et Nx Hx.
  apply halves_errors; [exact Ns|exact Nb|]. left. rewrite Ea. replace (s ++ d) with (s ++ d ++ []) by (rewrite app_nil_r; reflexivity).
  apply number_half_refused; [exact Ms|exact Ds|left; reflexivity|].
  intro L4. assert (L4' : slen d = 4) by (unfold slen; lia). rewrite La in L4'. clear L4.
  assert (C : ~ (1000 <= Z.abs y <= 9999 /\ 0 <= v <= 4 \/ -999 <= y <= -100 /\ v = 4)) by (intro Q; destruct (sig_years_of y v Q) as (l & h & Q'); exact (N l h Q')).
  pose proof (itoa_len (Z.abs y) ltac:(lia)) as LL.
  assert (Lneg : y < 0 -> slen (itoa y) = slen (itoa (Z.abs y)) + 1).
  { intro Hn. replace y with (- Z.abs y) at 1 by lia. rewrite itoa_neg by lia. unfold slen. cbn [length]. lia. }
  assert (Lpos : ~ y < 0 -> slen (itoa y) = slen (itoa (Z.abs y))) by (intro Q; rewrite Z.abs_eq by lia; reflexivity).
  destruct (y <? 0) eqn:Es; cbn [andb] in L4'; [destruct (v =? slen (itoa y)) eqn:Ev|];
    destruct (Z.abs y <? 10) eqn:Q1; try lia; destruct (Z.abs y <? 100) eqn:Q2; try lia; destruct (Z.abs y <? 1000) eqn:Q3; lia.
Qed.
Inductive rest_refused (s : str) (y v : Z) : err -> Prop :=
| rr_many : 10 ^ year_width y <= v -> rest_refused s y v (EInvalid ($"Significant digits") s)
| rr_short w x : v <= year_width y -> (forall l h, ~ significant_years y v l h) -> canonical_text w y -> earlier_text w v x -> rest_refused s y v (EInvalid ($"date") x).
Lemma width_pow y : 10 <= 10 ^ year_width y <= 100000.
Proof.
  pose proof (year_width_range y). assert (C : year_width y = 1 \/ year_width y = 2 \/ year_width y = 3 \/ year_width y = 4 \/ year_width y = 5) by lia.
  destruct C as [->|[->|[->|[->| ->]]]]; lia.
Qed.
Lemma rest_sound s y nd v x : -9999 <= y <= 9999 -> dec_digits nd v -> rest_refused s y v x -> sig_rest s y nd = Err x.
Proof.
  intros Hy Hn H. pose proof (dec_nonneg _ _ Hn) as Hv. unfold sig_rest, MAX_YEARS. replace (9999 <? y) with false by lia. rewrite (atoi_dec _ _ Hn).
  pose proof (width_pow y) as P. destruct H as [L|w x' L N Hw Hx].
  - unfold max_int64. destruct (v <=? _) eqn:E; cbn [or_invalid bind]; [|reflexivity].
    pose proof (itoa_fits v (year_width y) Hv ltac:(pose proof (year_width_range y); lia)) as F. rewrite (year_width_ok y Hy).
    replace (year_width y <? slen (itoa v)) with true by lia. reflexivity.
  - pose proof (year_width_range y) as R. unfold max_int64. replace (v <=? _) with true by lia. cbn [or_invalid bind]. rewrite (itoa_len_small v), (year_width_ok y Hy) by lia.
    replace (year_width y <? 1) with false by lia. replace ((year_width y <? v) || (v <? 0)) with false by lia.
    apply canonical_itoa in Hw. subst w. destruct (earlier_first y v x' Hv Hx) as (b & Et). rewrite (sig_first y v x' b Hy ltac:(lia) N Et Hx). reflexivity.
Qed.
Lemma rest_complete s y nd v : -9999 <= y <= 9999 -> dec_digits nd v ->
  match sig_rest s y nd with OK _ => True | Err x => rest_refused s y v x | Panic => year_width y < v < 10 ^ year_width y end.
Proof.
  intros Hy Hn. pose proof (dec_nonneg _ _ Hn) as Hv. destruct (sig_rest s y nd) as [d|x|] eqn:E; [exact I| |apply (sig_rest_panics s y nd v Hy Hn); exact E].
  destruct (Z_le_dec (10 ^ year_width y) v) as [L|L].
  - pose proof (rest_sound s y nd v _ Hy Hn (rr_many s y v L)) as Q. rewrite E in Q. injection Q as ->. exact (rr_many s y v L).
  - destruct (Z_lt_dec (year_width y) v) as [L'|L']; [exfalso; assert (sig_rest s y nd = Panic) by (apply (sig_rest_panics s y nd v Hy Hn); lia); congruence|].
    assert (D : (exists l h, significant_years y v l h) \/ forall l h, ~ significant_years y v l h).
    { assert (C : (1000 <= Z.abs y <= 9999 /\ 0 <= v <= 4 \/ -999 <= y <= -100 /\ v = 4) \/ ~ (1000 <= Z.abs y <= 9999 /\ 0 <= v <= 4 \/ -999 <= y <= -100 /\ v = 4)) by lia.
      destruct C as [C|C]; [left; exact (sig_years_of y v C)|right; intros l h Q; apply C; exact (years_only _ _ _ _ Q)]. }
    destruct D as [(l & h & D)|D]; [destruct (sig_years s y nd v l h Hn D) as (d & E' & _); congruence|].
    destruct (earlier_total (itoa y) v) as (x' & Hx); [rewrite (year_width_ok y Hy); lia|].
    pose proof (rr_short s y v _ _ ltac:(lia) D (itoa_canonical y) Hx) as R. pose proof (rest_sound s y nd v _ Hy Hn R) as Q. rewrite E in Q. injection Q as ->. exact R.
Qed.
Lemma year_before_range u y : year_before u y -> -9999 <= y <= 9999.
Proof. intros [t y0 Hy|neg ds m Hd Hl|c t y0 Hc G H]; [exact (before_range _ _ (sy_year _ _ Hy))|exact (before_range _ _ (sy_letter _ _ _ Hd Hl))|lia]. Qed.
Lemma year_before_parse u y nd v : year_before u y -> dec_digits nd v ->
  ParseString (u ++ "S"%char :: nd) = sig_rest (u ++ "S"%char :: nd) y nd \/ borderline (u ++ "S"%char :: nd) /\ ParseString (u ++ "S"%char :: nd) = Panic.
Proof.
  intros Hu Hn. destruct Hu as [t y0 Hy|neg ds m Hd Hl|c t y0 Hc G H]; [left; exact (before_parse _ _ _ _ (sy_year _ _ Hy) Hn)|left; exact (before_parse _ _ _ _ (sy_letter _ _ _ Hd Hl) Hn)|].
  destruct (gives_text _ _ G) as (m & e & Ht). cbn [app]. rewrite (sig_exp c t m e nd v Hc Ht Hn). destruct (gives_parse _ _ G) as [->|(B & ->)].
  - left. replace (9999 <? Z.abs y0) with false by lia. reflexivity.
  - right. split; [exact (bl_significant c t nd Hc B (digits_text_dec _ _ Hn))|reflexivity].
Qed.
Theorem significant_sound s x : significant_refused s x -> ParseString s = Err x \/ borderline s /\ ParseString s = Panic.
Proof.
  intros [sg ds nd s' Hs Hd L Hn ->|c t nd x' Hc H Hn|u y nd v s' Hu Hn L ->|u y nd v w x' Hu Hn L N Hw Hx].
  - left. destruct (digits_dec nd Hn) as (v & Hv). destruct (digits_dec ds Hd) as (m & Hm).
    assert (Q : exists neg, sg = sign neg) by (destruct Hs as [->| ->]; [exists false|exists true]; reflexivity). destruct Q as (neg & ->).
    rewrite <- app_assoc. exact (sig_letter_long neg ds m nd v Hm L Hv).
  - destruct (digits_dec nd Hn) as (v & Hv). destruct (refused_text _ _ H) as (m & e & Ht). change ($"S" ++ nd) with ("S"%char :: nd). rewrite (sig_exp c t m e nd v Hc Ht Hv).
    destruct (notation_sound _ _ H) as [->|(B & ->)]; [auto|right]. split; [exact (bl_significant c t nd Hc B Hn)|reflexivity].
  - change ($"S" ++ nd) with ("S"%char :: nd). destruct (year_before_parse u y nd v Hu Hn) as [->|B]; [left|right; exact B].
    apply (rest_sound _ y nd v); [exact (year_before_range u y Hu)|exact Hn|apply rr_many; exact L].
  - change ($"S" ++ nd) with ("S"%char :: nd). destruct (year_before_parse u y nd v Hu Hn) as [->|B]; [left|right; exact B].
    apply (rest_sound _ y nd v); [exact (year_before_range u y Hu)|exact Hn|apply (rr_short _ y v w); assumption].
Qed.
Lemma rest_total u y nd v : year_before u y -> dec_digits nd v ->
  match sig_rest (u ++ "S"%char :: nd) y nd with
  | OK _ => True
  | Err x => significant_refused (u ++ "S"%char :: nd) x
  | Panic => crashes (u ++ "S"%char :: nd) \/ borderline (u ++ "S"%char :: nd)
  end.
Proof.
  intros Hu Hn. pose proof (rest_complete (u ++ "S"%char :: nd) y nd v (year_before_range u y Hu) Hn) as C. destruct (sig_rest _ y nd) as [d|x|]; [exact I| |].
  - destruct C as [L|w x L N Hw Hx]; [exact (gx_many u y nd v _ Hu Hn L eq_refl)|exact (gx_short u y nd v w x Hu Hn L N Hw Hx)].
  - left. exact (cr_digits u y nd v Hu Hn C).
Qed.
Theorem significant_complete s : significant_digits s ->
  match ParseString s with OK _ => True | Err x => significant_refused s x | Panic => crashes s \/ borderline s end.
Proof.
  intro H. destruct (sig_forms s H) as (u & l & nd & Hu & Hn & ->). destruct (digits_dec nd Hn) as (v & Hv). destruct Hu as [t y Hy|b Hb|c b Hc Hb].
  - rewrite (before_parse _ _ _ _ (sy_year _ _ Hy) Hv). exact (rest_total t y nd v (yb_year _ _ Hy) Hv).
  - destruct Hb as (sgn & ds & Hs & Hd & ->). destruct (digits_dec ds Hd) as (m & Hm).
    assert (Q : exists neg, sgn = sign neg) by (destruct Hs as [->| ->]; [exists false|exists true]; reflexivity). destruct Q as (neg & ->).
    destruct (Nat.lt_ge_cases 4 (length (sign neg ++ ds))) as [L|L].
    + cbn [app]. rewrite <- app_assoc. rewrite (sig_letter_long neg ds m nd v Hm L Hv).
      apply (gx_long (sign neg) ds nd); [exact Hs|exact Hd|exact L|exact Hn|rewrite <- app_assoc; reflexivity].
    + rewrite (before_parse _ _ _ _ (sy_letter _ _ _ Hm L) Hv). exact (rest_total _ _ nd v (yb_letter _ _ _ Hm L) Hv).
  - apply exp_text_form in Hb. destruct Hb as (m & e & Ht). cbn [app]. rewrite (sig_exp c b m e nd v Hc Ht Hv). pose proof (notation_complete b m e Ht) as C.
    destruct (ParseExponentialNotation b) as [y|x|]; cbn [bind].
    + destruct C as (G & L). exact (rest_total (c :: b) y nd v (yb_exp c b y Hc G L) Hv).
    + exact (gx_notation c b nd x Hc C Hn).
    + destruct C as [C|C]; [left; exact (cr_notation c b nd Hc C Hn)|right; exact (bl_significant c b nd Hc C Hn)].
Qed.
Theorem crashes_panic s : crashes s -> ParseString s = Panic.
Proof.
  intros [a t Ha H|a t nd Ha H Hn|u y nd v Hu Hn L].
  - pose proof H as (m & e & Ht & _). rewrite (exp_whole a t m e Ha Ht), (notation_crash t H). reflexivity.
  - pose proof H as (m & e & Ht & _). destruct (digits_dec nd Hn) as (v & Hv). change ($"S" ++ nd) with ("S"%char :: nd). rewrite (sig_exp a t m e nd v Ha Ht Hv), (notation_crash t H). reflexivity.
  - change ($"S" ++ nd) with ("S"%char :: nd). destruct (year_before_parse u y nd v Hu Hn) as [->|(_ & B)]; [|exact B].
    apply (sig_rest_panics _ y nd v (year_before_range u y Hu) Hn). exact L.
Qed.
