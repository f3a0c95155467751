(** Exponential years. *)
From Coq Require Import Ascii String ZArith NArith Bool Lia ZifyBool List.
From Verif Require Import GoStr GoTime GoBig Regex Patterns RegexSym RegexRel RegexGen SpecCal SpecText SpecGrammar SpecForms SpecSpan StrFacts TextFacts Edtf Calendar Common Level0 Level1 Level2 Parser CalFacts ApiFacts SpanFacts YmdShapes YmdFacts InvFacts GrammarFacts LangFacts LangNorm LangForms LangForms2 DateFacts ParseFacts SplitFacts Level0Facts FormFacts SeasonFacts Level1Proofs XProofs FormProofs SigProofs.
Import ListNotations.
Open Scope Z_scope.
Ltac Zify.zify_post_hook ::= Z.div_mod_to_equations.

(** ** The text *)
Lemma sign_minus neg : minus_text (sign neg).
Proof. destruct neg; [right|left]; reflexivity. Qed.
Lemma span_digits_app ds r : forall acc, Forall (fun c => is_digit c = true) ds -> (forall c t, r = c :: t -> is_digit c = false) ->
  span_digits (ds ++ r) acc = (rev acc ++ ds, r).
Proof.
  induction ds as [|c ds IH]; intros acc H Hr; cbn [app span_digits].
  - rewrite app_nil_r. destruct r as [|c t]; [reflexivity|]. cbn [span_digits]. rewrite (Hr c t eq_refl). reflexivity.
  - inversion H; subst. cbn [span_digits]. rewrite H2. rewrite IH by assumption. cbn [rev]. rewrite <- app_assoc. reflexivity.
Qed.
Lemma exp_split_text neg ds c es : digits_text ds -> c = "E"%char \/ c = "e"%char -> digits_text es ->
  exp_split (sign neg ++ ds ++ c :: es) = Some (neg, ds, es).
Proof.
  intros (Nd & Hd) Hc (Ne & He). destruct ds as [|d0 ds]; [contradiction|]. destruct es as [|e0 es]; [contradiction|].
  assert (D0 : Ascii.eqb d0 "-" = false) by (inversion Hd; subst; apply Ascii.eqb_neq; intros ->; discriminate).
  assert (G : forall t, (let '(ds, u) := span_digits ((d0 :: ds) ++ c :: e0 :: es) [] in
    match ds, u with
    | _ :: _, c :: w => if Ascii.eqb c "E" || Ascii.eqb c "e" then let '(es, r) := span_digits w [] in
        match es, r with _ :: _, [] => Some (t, ds, es) | _, _ => None end else None
    | _, _ => None end) = Some (t : bool, d0 :: ds, e0 :: es)).
  { intro t. rewrite span_digits_app; [|exact Hd|intros x t0 Q; injection Q as <- _; destruct Hc as [->| ->]; reflexivity]. cbn [rev app].
  replace (Ascii.eqb c "E" || Ascii.eqb c "e") with true by (destruct Hc as [->| ->]; reflexivity).
  assert (Q : span_digits (e0 :: es) [] = (e0 :: es, [])).
  { rewrite <- (app_nil_r (e0 :: es)) at 1. rewrite span_digits_app; [reflexivity|exact He|discriminate]. }
  rewrite Q. reflexivity. }
  unfold exp_split. destruct neg; cbn [sign app]; [exact (G true)|rewrite D0; exact (G false)].
Qed.
Lemma nat_val_dec ds m : dec_digits ds m -> nat_val ds = m.
Proof. intro H. apply dec_digits_iff in H. unfold nat_val. destruct H as (_ & ->). reflexivity. Qed.
(** The value of a notation whose magnitude fits in 63 bits is exact. *)
Lemma bitlen_le m k : 0 <= m -> 0 <= k -> (bitlen m <= k <-> m < 2 ^ k).
Proof.
  intros Hm Hk. unfold bitlen. destruct (m =? 0) eqn:E; [assert (m = 0) by lia; subst; split; intro; [apply Z.pow_pos_nonneg; lia|lia]|].
  pose proof (Z.log2_lt_pow2 m k ltac:(lia)). lia.
Qed.
Lemma bf_make_small m e : 0 <= m < 2 ^ 64 -> bitlen m + e <= max_exp -> bf_make 64 m e = Some (m, e).
Proof.
  intros Hm He. unfold bf_make, bf_round. pose proof (proj2 (bitlen_le m 64 ltac:(lia) ltac:(lia)) ltac:(lia)). replace (bitlen m - 64 <=? 0) with true by lia.
  replace (max_exp <? bitlen m + e) with false by lia. reflexivity.
Qed.
Lemma wrap_small v : - 2 ^ 63 <= v < 2 ^ 63 -> wrap64 v = v.
Proof. unfold wrap64, two63, two64. change (2 ^ 63) with 9223372036854775808. intro H. rewrite Z.mod_small; lia. Qed.
Lemma scan_small m e : 0 < m -> 0 <= e -> m * 10 ^ e < 2 ^ 63 -> exists m' e', bf_scan m e = Some (BFin m' e') /\
  forall neg, int64_of neg m' e' = (if neg : bool then -1 else 1) * (m * 10 ^ e).
Proof.
  intros Hm He H.
  assert (E18 : e <= 18).
  { destruct (Z.leb_spec e 18) as [Q|Q]; [exact Q|exfalso]. pose proof (Z.pow_le_mono_r 10 19 e ltac:(lia) ltac:(lia)). change (10 ^ 19) with 10000000000000000000 in *.
    change (2 ^ 63) with 9223372036854775808 in H. nia. }
  assert (P10 : 10 ^ e = 2 ^ e * 5 ^ e) by (rewrite <- Z.pow_mul_l; reflexivity).
  pose proof (Z.pow_pos_nonneg 2 e ltac:(lia) He) as P2. pose proof (Z.pow_pos_nonneg 5 e ltac:(lia) He) as P5.
  set (M := m * 5 ^ e). assert (HM : 0 < M) by (unfold M; nia). assert (HMM : M * 2 ^ e = m * 10 ^ e) by (unfold M; rewrite P10; ring).
  assert (M63 : M < 2 ^ 63) by nia. assert (m63 : m < 2 ^ 63) by (unfold M in *; nia).
  assert (B1 : bitlen m <= 63) by (apply bitlen_le; lia). assert (B2 : bitlen M <= 63) by (apply bitlen_le; lia).
  assert (R : (if e =? 0 then bf_make 64 m 0 else bf_mul 64 (Some (m, e)) (bf_pow5 e)) = Some (M, e)).
  { destruct (e =? 0) eqn:E0.
    - assert (e = 0) by lia. subst e. unfold M. change (5 ^ 0) with 1. rewrite Z.mul_1_r. apply bf_make_small; [split; [lia|]; apply (Z.lt_le_trans _ (2 ^ 63)); [lia|apply Z.pow_le_mono_r; lia]|unfold max_exp; lia].
    - unfold bf_pow5. replace (e <=? 27) with true by lia. cbn [bf_mul]. rewrite Z.add_0_r. apply bf_make_small; [split; [lia|]; apply (Z.lt_le_trans _ (2 ^ 63)); [exact M63|apply Z.pow_le_mono_r; lia]|fold M; unfold max_exp; lia]. }
  exists M, e. split.
  - unfold bf_scan. rewrite R. unfold max_int64, max_exp. replace (9223372036854775807 <? e) with false by lia. replace (m =? 0) with false by lia.
    replace (2147483647 <? bitlen m + e) with false by lia. reflexivity.
  - intro neg. unfold int64_of. replace (e <? 64) with true by lia. rewrite HMM. rewrite (wrap_small (m * 10 ^ e)) by nia.
    destruct neg; [rewrite wrap_small by nia; lia|lia].
Qed.
Definition exp_value (neg : bool) (m e : Z) : Z := (if neg then -1 else 1) * (m * 10 ^ e).
Theorem notation_value neg ds c es m e : dec_digits ds m -> c = "E"%char \/ c = "e"%char -> dec_digits es e -> m * 10 ^ e < 2 ^ 63 ->
  ParseExponentialNotation (sign neg ++ ds ++ c :: es) =
    if m =? 0 then if max_int64 <? e then Err (EBig (sign neg ++ ds ++ c :: es)) else OK 0
    else if 9999 <? m * 10 ^ e then Err (Unsupported ($"exponential notation") (sign neg ++ ds ++ c :: es))
    else OK (exp_value neg m e).
Proof.
  intros Hd Hc He H. unfold ParseExponentialNotation.
  rewrite (exp_split_text neg ds c es (digits_text_dec _ _ Hd) Hc (digits_text_dec _ _ He)), (nat_val_dec _ _ Hd), (nat_val_dec _ _ He).
  pose proof (dec_nonneg _ _ Hd). pose proof (dec_nonneg _ _ He). destruct (m =? 0) eqn:E0.
  - assert (m = 0) by lia. subst m. unfold bf_scan. destruct (max_int64 <? e); reflexivity.
  - destruct (scan_small m e ltac:(lia) ltac:(lia) H) as (m' & e' & -> & Hv). rewrite Hv. unfold MAX_YEARS.
    pose proof (Z.pow_pos_nonneg 10 e ltac:(lia) ltac:(lia)). unfold exp_value.
    destruct (9999 <? m * 10 ^ e) eqn:E1; [|replace (_ || _) with false; [reflexivity|symmetry; destruct neg; lia]].
    replace (_ || _) with true; [reflexivity|symmetry; destruct neg; lia].
Qed.

(** ** ParseString *)
Lemma exp_has_E s : exponential_year s -> exists c, (c = "E"%char \/ c = "e"%char) /\ In c s.
Proof.
  intros (u & v & Hu & Hv & ->). destruct (expo_has_e v Hv) as [Q|Q]; [exists "E"%char|exists "e"%char]; (split; [auto|]); apply in_or_app; right; exact Q.
Qed.
Lemma to_exponential s : exponential_year s -> ParseString s = ParseExponentialYear s.
Proof.
  intro H. destruct (exp_has_E s H) as (c & Hc & Hi). pose proof (proj2 (Exponential_spec _) H) as M.
  assert (Nc : ~ In ","%char s) by (apply (comma_out ExponentialYear); [reflexivity|reflexivity|exact M]).
  unfold ParseString. assert (Hc' : c = "S"%char \/ c = "E"%char \/ c = "e"%char) by tauto.
  rewrite (S_not_level0 s c Hc' Hi), (S_not_level1 s c Hc' Hi Nc).
  rewrite exact_level2 by (unfold level2_exact; auto). unfold L2_ParseString, IsExponentialYear. rewrite M. reflexivity.
Qed.
Definition exp_anch : re := RSeq (RSet [(89, 89); (121, 121)]) (RCap 1 expo_cap).
Lemma exp_anch_eq : anchored ExponentialYear = Some exp_anch.
Proof. reflexivity. Qed.
Lemma exp_submatch c b : c = "Y"%char \/ c = "y"%char -> cat minus_text (cat digits_text (cat letter_e digits_text)) b ->
  find_submatch ExponentialYear (c :: b) = [c :: b; b].
Proof.
  intros Hc Hb. apply (anchored_unique _ _ exp_anch_eq eq_refl).
  - apply (anchored_match ExponentialYear _ exp_anch_eq eq_refl). apply Exponential_spec. exists [c], b. split; [destruct Hc as [->| ->]; [left|right]; reflexivity|]. split; [exact Hb|reflexivity].
  - intros k (u1 & k1 & u2 & k2 & H1 & (k3 & H2 & ->) & E & ->). rewrite (gen_nocap _ _ _ H1 eq_refl), (gen_nocap _ _ _ H2 eq_refl).
    assert (L : u1 = $"Y" \/ u1 = $"y") by (apply (den_pair 89 121 ($"Y") ($"y")); [lia|lia|reflexivity|reflexivity|exists k1; exact H1]).
    assert (u2 = b) as ->; [|reflexivity]. destruct L as [->| ->]; cbn in E; congruence.
Qed.
Lemma exp_parse c b : c = "Y"%char \/ c = "y"%char -> cat minus_text (cat digits_text (cat letter_e digits_text)) b ->
  ParseString (c :: b) = let* y := ParseExponentialNotation b in let* sp := DateSpanFromEDTF (itoa y) in OK (edtf_of_span sp (c :: b) LEVEL2 EXPONENTIAL_YEAR).
Proof.
  intros Hc Hb. assert (X : exponential_year (c :: b)).
  { exists [c], b. split; [destruct Hc as [->| ->]; [left|right]; reflexivity|]. split; [exact Hb|reflexivity]. }
  rewrite to_exponential by exact X. unfold ParseExponentialYear. rewrite (proj2 (Exponential_spec _) X). cbn [negb].
  rewrite (exp_submatch c b Hc Hb). reflexivity.
Qed.
Lemma exp_den neg ds c es : digits_text ds -> c = "E"%char \/ c = "e"%char -> digits_text es ->
  cat minus_text (cat digits_text (cat letter_e digits_text)) (sign neg ++ ds ++ c :: es).
Proof.
  intros Hd Hc He. exists (sign neg), (ds ++ c :: es). split; [apply sign_minus|]. split; [|reflexivity].
  exists ds, (c :: es). split; [exact Hd|]. split; [|reflexivity]. exists [c], es. split; [destruct Hc as [->| ->]; [left|right]; reflexivity|]. split; [exact He|reflexivity].
Qed.
Lemma itoa_year4 y : 1000 <= Z.abs y <= 9999 -> year4 (itoa y) y.
Proof.
  intro H. destruct (Z.leb_spec 0 y).
  - rewrite itoa_four by lia. constructor. lia.
  - replace y with (- Z.abs y) by lia. rewrite itoa_neg, itoa_four by lia. apply year4_neg. lia.
Qed.
Lemma itoa_short y : Z.abs y < 1000 -> exists err, DateSpanFromEDTF (itoa y) = Err err.
Proof.
  intro H. pose proof (np_DateSpan (itoa y)) as N. destruct (DateSpanFromEDTF (itoa y)) as [sp|e|] eqn:E; [exfalso|eauto|contradiction (N eq_refl)].
  assert (Q : exists sgn, minus_text sgn /\ itoa y = sgn ++ itoa (Z.abs y)).
  { destruct (Z.ltb_spec y 0); [exists ($"-"); split; [right; reflexivity|]; replace y with (- Z.abs y) at 1 by lia; apply itoa_neg; lia|exists []; split; [left; reflexivity|rewrite Z.abs_eq by lia; reflexivity]]. }
  destruct Q as (sgn & Ms & Es). pose proof (itoa_digits (Z.abs y) ltac:(lia)) as D.
  assert (Ns : ~ In "/"%char (itoa y)) by (rewrite Es; apply number_noslash; assumption).
  rewrite single_fwd in E by exact Ns.
  destruct (span_inv _ _ E) as (y1 & m & d & y' & m' & d' & u & a & p & sg & HD & _).
  pose proof (year_only _ _ _ _ _ _ _ _ _ _ _ _ _ HD Ms D Es) as L. pose proof (itoa_len (Z.abs y) ltac:(lia)) as LL. unfold slen in LL. rewrite L in LL.
  destruct (Z.abs y <? 10), (Z.abs y <? 100), (Z.abs y <? 1000) eqn:Q3; lia.
Qed.

Lemma span6_year t s lv f y : let e := edtf_of_span (span6 t 0%N 0%N YEAR false y 1 1 y 12 31) s lv f in runs e y 1 1 y 12 31 /\ flagged e 0 0 /\ precise e YEAR.
Proof.
  cbv zeta. split; [|split; repeat constructor].
  unfold runs, from_to, span6, edtf_of_span, day_start, day_end. cbn [s_start s_end e_start e_end r_lower r_upper].
  split; [apply dated_bound|]. split; [apply dated_bound|]. left. split; split; apply dated_bound.
Qed.
Theorem exp_denotes a neg ds c es m e : a = "Y"%char \/ a = "y"%char -> dec_digits ds m -> c = "E"%char \/ c = "e"%char -> dec_digits es e ->
  1000 <= m * 10 ^ e <= 9999 -> exists d, ParseString (a :: sign neg ++ ds ++ c :: es) = OK d /\ e_level d = 2 /\ e_feature d = EXPONENTIAL_YEAR /\
    runs d (exp_value neg m e) 1 1 (exp_value neg m e) 12 31 /\ flagged d 0 0 /\ precise d YEAR.
Proof.
  intros Ha Hd Hc He H. rewrite (exp_parse a _ Ha (exp_den neg ds c es (digits_text_dec _ _ Hd) Hc (digits_text_dec _ _ He))).
  rewrite (notation_value neg ds c es m e Hd Hc He) by (change (2 ^ 63) with 9223372036854775808; lia).
  replace (m =? 0) with false by lia. replace (9999 <? m * 10 ^ e) with false by lia. cbn [bind].
  set (y := exp_value neg m e). assert (Hy : 1000 <= Z.abs y <= 9999) by (unfold y, exp_value; destruct neg; lia).
  pose proof (itoa_year4 y Hy) as Y. assert (L : level0_date (itoa y ++ []) y None None) by (constructor; [exact Y|constructor]). rewrite app_nil_r in L.
  assert (X : exists_date y None None) by (split; cbn; lia).
  rewrite single_fwd by exact (year4_slash _ _ Y).
  destruct (span_fwd _ _ _ _ _ _ _ _ _ _ _ (level0_den _ _ _ _ L) X (last_real _ _ _ _ L X)) as (-> & _). cbn [bind].
  eexists. split; [reflexivity|]. split; [reflexivity|]. split; [reflexivity|].
  exact (span6_year (itoa y) _ _ _ y).
Qed.
Theorem exp_unsupported a neg ds c es m e : a = "Y"%char \/ a = "y"%char -> dec_digits ds m -> c = "E"%char \/ c = "e"%char -> dec_digits es e ->
  9999 < m * 10 ^ e < 2 ^ 63 -> ParseString (a :: sign neg ++ ds ++ c :: es) = Err (Unsupported ($"exponential notation") (sign neg ++ ds ++ c :: es)).
Proof.
  intros Ha Hd Hc He H. rewrite (exp_parse a _ Ha (exp_den neg ds c es (digits_text_dec _ _ Hd) Hc (digits_text_dec _ _ He))).
  rewrite (notation_value neg ds c es m e Hd Hc He) by lia. pose proof (dec_nonneg _ _ Hd). pose proof (dec_nonneg _ _ He).
  replace (m =? 0) with false by lia. replace (9999 <? m * 10 ^ e) with true by lia. reflexivity.
Qed.
Theorem exp_small a neg ds c es m e : a = "Y"%char \/ a = "y"%char -> dec_digits ds m -> c = "E"%char \/ c = "e"%char -> dec_digits es e ->
  m * 10 ^ e < 1000 -> exists err, ParseString (a :: sign neg ++ ds ++ c :: es) = Err err.
Proof.
  intros Ha Hd Hc He H. rewrite (exp_parse a _ Ha (exp_den neg ds c es (digits_text_dec _ _ Hd) Hc (digits_text_dec _ _ He))).
  rewrite (notation_value neg ds c es m e Hd Hc He) by (change (2 ^ 63) with 9223372036854775808; lia). pose proof (dec_nonneg _ _ Hd). pose proof (dec_nonneg _ _ He).
  destruct (m =? 0) eqn:E0.
  - destruct (max_int64 <? e); [eexists; reflexivity|]. cbn [bind]. destruct (itoa_short 0 ltac:(lia)) as (err & ->). eexists; reflexivity.
  - replace (9999 <? m * 10 ^ e) with false by lia. cbn [bind]. pose proof (Z.pow_pos_nonneg 10 e ltac:(lia) ltac:(lia)).
    destruct (itoa_short (exp_value neg m e)) as (err & ->); [unfold exp_value; destruct neg; lia|]. eexists; reflexivity.
Qed.

(** ** Larger exponents *)
Lemma bitlen_nonneg m : 0 <= bitlen m.
Proof. unfold bitlen. pose proof (Z.log2_nonneg m). destruct (m =? 0); lia. Qed.
Lemma bitlen_mul a b : 0 < a -> 0 < b -> bitlen (a * b) <= bitlen a + bitlen b.
Proof.
  intros Ha Hb. unfold bitlen. replace (a =? 0) with false by lia. replace (b =? 0) with false by lia. replace (a * b =? 0) with false by nia.
  pose proof (Z.log2_mul_above a b ltac:(lia) ltac:(lia)). lia.
Qed.
(** Rounding keeps the mantissa positive and adds at most one to the exponent of the value. *)
Lemma bf_round_bound p m e : 0 < p -> 0 < m -> 0 < fst (bf_round p m e) /\ e <= snd (bf_round p m e) /\
  bitlen (fst (bf_round p m e)) + snd (bf_round p m e) <= bitlen m + e + 1.
Proof.
  intros Hp Hm. unfold bf_round. destruct (bitlen m - p <=? 0) eqn:E; cbn [fst snd]; [lia|].
  set (sh := bitlen m - p) in *. assert (P : 0 < 2 ^ sh) by (apply Z.pow_pos_nonneg; lia).
  assert (B : m < 2 ^ bitlen m) by (apply bitlen_le; [lia|apply bitlen_nonneg|lia]).
  assert (Bl : 2 ^ (bitlen m - 1) <= m).
  { unfold bitlen. replace (m =? 0) with false by lia. replace (Z.log2 m + 1 - 1) with (Z.log2 m) by lia. apply Z.log2_spec. lia. }
  assert (Q : m / 2 ^ sh < 2 ^ p).
  { apply Z.div_lt_upper_bound; [exact P|]. rewrite <- Z.pow_add_r by lia. replace (sh + p) with (bitlen m) by (unfold sh; lia). exact B. }
  assert (Q1 : 0 < m / 2 ^ sh).
  { apply Z.div_str_pos. split; [exact P|]. apply (Z.le_trans _ (2 ^ (bitlen m - 1))); [apply Z.pow_le_mono_r; unfold sh; lia|exact Bl]. }
  set (q := m / 2 ^ sh) in *.
  assert (W : forall q', q' = q \/ q' = q + 1 -> 0 < q' /\ e <= e + sh /\ bitlen q' + (e + sh) <= bitlen m + e + 1).
  { intros q' Hq. split; [lia|]. split; [lia|]. assert (L : bitlen q' <= p + 1).
    { apply bitlen_le; [lia|lia|]. rewrite Z.pow_add_r by lia. change (2 ^ 1) with 2. lia. }
    unfold sh. lia. }
  apply W. destruct (_ || _); auto.
Qed.
Definition sized (x : bfloat) (B : Z) : Prop := match x with Some (m, e) => 0 < m /\ 0 <= e /\ bitlen m + e <= B | None => False end.
Definition fin_ok (x : bfloat) : Prop := match x with Some (m, e) => 0 < m /\ 0 <= e | None => True end.
Lemma bf_mul_ok p x y : 0 < p -> fin_ok x -> fin_ok y -> fin_ok (bf_mul p x y).
Proof.
  intros Hp Hx Hy. destruct x as [(m1 & e1)|], y as [(m2 & e2)|]; try exact I. cbn [fin_ok bf_mul] in *. unfold bf_make.
  pose proof (bf_round_bound p (m1 * m2) (e1 + e2) Hp ltac:(nia)) as Q. destruct (bf_round p (m1 * m2) (e1 + e2)) as (m' & e'). cbn [fst snd] in Q.
  destruct (max_exp <? bitlen m' + e'); [exact I|]. cbn [fin_ok]. lia.
Qed.
Lemma bf_mul_sized p x y B C : 0 < p -> sized x B -> sized y C -> B + C + 1 <= max_exp -> sized (bf_mul p x y) (B + C + 1).
Proof.
  intros Hp Hx Hy H. destruct x as [(m1 & e1)|], y as [(m2 & e2)|]; try contradiction. cbn [sized bf_mul] in *. unfold bf_make.
  pose proof (bf_round_bound p (m1 * m2) (e1 + e2) Hp ltac:(nia)) as Q. pose proof (bitlen_mul m1 m2 ltac:(lia) ltac:(lia)).
  destruct (bf_round p (m1 * m2) (e1 + e2)) as (m' & e'). cbn [fst snd] in Q.
  replace (max_exp <? bitlen m' + e') with false by lia. cbn [sized]. lia.
Qed.
Lemma pow5_loop_ok fuel : forall z f n, fin_ok z -> fin_ok f -> fin_ok (pow5_loop fuel z f n).
Proof.
  induction fuel as [|k IH]; intros z f n Hz Hf; cbn [pow5_loop]; [exact Hz|]. destruct (n <=? 0); [exact Hz|].
  apply IH; [destruct (Z.odd n); [apply bf_mul_ok; auto; lia|exact Hz]|apply bf_mul_ok; auto; lia].
Qed.
Lemma pow5_ok n : 0 <= n -> fin_ok (bf_pow5 n).
Proof.
  intro H. unfold bf_pow5. destruct (n <=? 27); [cbn; pose proof (Z.pow_pos_nonneg 5 n); lia|]. apply pow5_loop_ok; (split; [reflexivity|discriminate]).
Qed.
(** [f] has at most F bits above the point and the loop multiplies at most n times that. *)
Lemma pow5_loop_sized fuel : forall z f n B F, 0 <= n -> n < 2 ^ Z.of_nat fuel -> 0 < F -> sized z B -> (1 <= n -> sized f F) -> B + (F + 1) * n <= max_exp ->
  sized (pow5_loop fuel z f n) (B + (F + 1) * n).
Proof.
  induction fuel as [|k IH]; intros z f n B F Hn Hk HF Hz Hf HB; cbn [pow5_loop].
  - change (2 ^ Z.of_nat 0) with 1 in Hk. assert (n = 0) by lia. subst. replace (B + (F + 1) * 0) with B by lia. exact Hz.
  - destruct (n <=? 0) eqn:E; [assert (n = 0) by lia; subst; replace (B + (F + 1) * 0) with B by lia; exact Hz|].
    assert (Hk2 : n / 2 < 2 ^ Z.of_nat k) by (rewrite Nat2Z.inj_succ, Z.pow_succ_r in Hk by lia; lia).
    assert (Hbm : Z.odd n = true -> n = 2 * (n / 2) + 1) by (intro Q; apply Z.odd_spec in Q; destruct Q as (q & ->); lia).
    assert (Hbe : Z.odd n = false -> n = 2 * (n / 2)) by (intro Q; rewrite <- Z.negb_even in Q; apply negb_false_iff, Z.even_spec in Q; destruct Q as (q & ->); lia).
    specialize (Hf ltac:(lia)).
    assert (Sq : 1 <= n / 2 -> B + (F + 1) * n <= max_exp -> 0 <= B -> sized (bf_mul 192 f f) (F + F + 1)).
    { intros Q1 Q2 Q3. apply bf_mul_sized; [lia|exact Hf|exact Hf|nia]. }
    assert (B0 : 0 <= B) by (destruct z as [(m1 & e1)|]; [cbn in Hz; pose proof (bitlen_nonneg m1); lia|contradiction]).
    destruct (Z.odd n) eqn:Eo.
    + specialize (Hbm eq_refl). replace (B + (F + 1) * n) with (B + F + 1 + (F + F + 1 + 1) * (n / 2)) by nia.
      apply IH; [lia|exact Hk2|lia|apply bf_mul_sized; [lia|exact Hz|exact Hf|nia]|intro; apply Sq; auto|nia].
    + specialize (Hbe eq_refl). replace (B + (F + 1) * n) with (B + (F + F + 1 + 1) * (n / 2)) by nia.
      apply IH; [lia|exact Hk2|lia|exact Hz|intro; apply Sq; auto|nia].
Qed.
Lemma pow5_sized n : 1 <= n -> 64 + 4 * n <= max_exp -> sized (bf_pow5 n) (63 + 4 * n).
Proof.
  intros H HB. unfold bf_pow5, max_exp in *. destruct (n <=? 27) eqn:E.
  - cbn [sized]. pose proof (Z.pow_pos_nonneg 5 n ltac:(lia) ltac:(lia)). split; [lia|]. split; [lia|].
    assert (bitlen (5 ^ n) <= 63); [|lia]. apply bitlen_le; [lia|lia|]. pose proof (Z.pow_le_mono_r 5 n 27 ltac:(lia) ltac:(lia)). change (5 ^ 27) with 7450580596923828125 in *.
    change (2 ^ 63) with 9223372036854775808. lia.
  - assert (Q : sized (pow5_loop 64 (Some (5 ^ 27, 0)) (Some (5, 0)) (n - 27)) (63 + (3 + 1) * (n - 27))).
    { apply pow5_loop_sized; [lia| |lia|vm_compute; repeat split; discriminate|intros _; vm_compute; repeat split; discriminate|unfold max_exp; lia].
      change (2 ^ Z.of_nat 64) with 18446744073709551616. lia. }
    destruct (pow5_loop 64 _ _ _) as [(m & e)|]; [cbn [sized] in *; lia|contradiction].
Qed.
Lemma scan_no_inf m e : 0 <= m -> 0 <= e -> bitlen m + 5 * e + 64 <= max_exp -> bf_scan m e <> Some BInf.
Proof.
  intros Hm He H. pose proof (bitlen_nonneg m). unfold bf_scan. destruct (max_int64 <? e); [discriminate|]. destruct (m =? 0) eqn:E0; [discriminate|].
  destruct (max_exp <? bitlen m + e); [discriminate|].
  assert (Q : sized (if e =? 0 then bf_make 64 m 0 else bf_mul 64 (Some (m, e)) (bf_pow5 e)) (bitlen m + 5 * e + 64)).
  { destruct (e =? 0) eqn:Ee.
    - unfold bf_make. pose proof (bf_round_bound 64 m 0 ltac:(lia) ltac:(lia)) as Q. destruct (bf_round 64 m 0) as (m' & e'). cbn [fst snd] in Q.
      replace (max_exp <? bitlen m' + e') with false by lia. cbn [sized]. lia.
    - replace (bitlen m + 5 * e + 64) with ((bitlen m + e) + (63 + 4 * e) + 1) by lia. apply bf_mul_sized; [lia|cbn [sized]; lia|apply pow5_sized; lia|lia]. }
  destruct (if e =? 0 then _ else _) as [(m' & e')|]; [discriminate|contradiction].
Qed.
Lemma scan_exponent m e m' e' : 0 < m -> 0 <= e -> bf_scan m e = Some (BFin m' e') -> 0 < m' /\ e <= e'.
Proof.
  intros Hm He. unfold bf_scan. destruct (max_int64 <? e); [discriminate|]. destruct (m =? 0) eqn:E0; [lia|].
  destruct (max_exp <? bitlen m + e); [discriminate|]. destruct (e =? 0) eqn:Ee.
  - unfold bf_make. pose proof (bf_round_bound 64 m 0 ltac:(lia) ltac:(lia)) as Q. destruct (bf_round 64 m 0) as (m1 & e1). cbn [fst snd] in Q.
    destruct (max_exp <? _); [discriminate|]. intro H. injection H as <- <-. lia.
  - pose proof (pow5_ok e He) as P. destruct (bf_pow5 e) as [(m2 & e2)|]; [|discriminate]. cbn [bf_mul fin_ok] in *. unfold bf_make.
    pose proof (bf_round_bound 64 (m * m2) (e + e2) ltac:(lia) ltac:(nia)) as Q. destruct (bf_round 64 (m * m2) (e + e2)) as (m1 & e1). cbn [fst snd] in Q.
    destruct (max_exp <? _); [discriminate|]. intro H. injection H as <- <-. lia.
Qed.
(** From exponent 64 on the value is a multiple of 2^64 and the year comes out as 0. *)
Lemma notation_large neg ds c es m e y : dec_digits ds m -> c = "E"%char \/ c = "e"%char -> dec_digits es e -> 64 <= e ->
  ParseExponentialNotation (sign neg ++ ds ++ c :: es) = OK y -> y = 0.
Proof.
  intros Hd Hc He H. unfold ParseExponentialNotation.
  rewrite (exp_split_text neg ds c es (digits_text_dec _ _ Hd) Hc (digits_text_dec _ _ He)), (nat_val_dec _ _ Hd), (nat_val_dec _ _ He).
  pose proof (dec_nonneg _ _ Hd). destruct (bf_scan m e) as [[| |m' e']|] eqn:E; try discriminate; [intro Q; injection Q as <-; reflexivity|].
  assert (Hm : 0 < m).
  { destruct (Z.eq_dec m 0) as [->|]; [|lia]. unfold bf_scan in E. destruct (max_int64 <? e); discriminate E. }
  assert (He0 : 0 <= e) by lia. destruct (scan_exponent m e m' e' Hm He0 E) as (_ & Q). unfold int64_of. replace (e' <? 64) with false by lia.
  change (wrap64 0) with 0. change (wrap64 (- 0)) with 0. replace (if neg then 0 else 0) with 0 by (destruct neg; reflexivity). cbn. intro R. injection R as <-. reflexivity.
Qed.
Theorem exp_large a neg ds c es m e d : a = "Y"%char \/ a = "y"%char -> dec_digits ds m -> c = "E"%char \/ c = "e"%char -> dec_digits es e ->
  64 <= e -> ParseString (a :: sign neg ++ ds ++ c :: es) <> OK d.
Proof.
  intros Ha Hd Hc He H Q. rewrite (exp_parse a _ Ha (exp_den neg ds c es (digits_text_dec _ _ Hd) Hc (digits_text_dec _ _ He))) in Q.
  apply bind_OK in Q. destruct Q as (y & Hy & Q). apply (notation_large neg ds c es m e y Hd Hc He H) in Hy. subst y.
  destruct (itoa_short 0 ltac:(lia)) as (err & E). rewrite E in Q. discriminate.
Qed.
Theorem exp_no_panic neg ds c es m e : dec_digits ds m -> c = "E"%char \/ c = "e"%char -> dec_digits es e ->
  Z.log2 m + 5 * e + 65 <= 2147483647 -> ParseExponentialNotation (sign neg ++ ds ++ c :: es) <> Panic.
Proof.
  intros Hd Hc He H. unfold ParseExponentialNotation.
  rewrite (exp_split_text neg ds c es (digits_text_dec _ _ Hd) Hc (digits_text_dec _ _ He)), (nat_val_dec _ _ Hd), (nat_val_dec _ _ He).
  pose proof (dec_nonneg _ _ Hd). pose proof (dec_nonneg _ _ He).
  assert (N : bf_scan m e <> Some BInf).
  { apply scan_no_inf; [lia|lia|]. unfold bitlen, max_exp. pose proof (Z.log2_nonneg m). destruct (m =? 0); lia. }
  destruct (bf_scan m e) as [[| |m' e']|]; try discriminate; [contradiction (N eq_refl)|]; destruct (_ || _); discriminate.
Qed.

(** ** In terms of the written text *)
Lemma signed_value neg m e : signed neg m * 10 ^ e = exp_value neg m e.
Proof. unfold signed, exp_value. destruct neg; lia. Qed.
Lemma signed_abs neg m e : 0 <= m -> Z.abs (signed neg m * 10 ^ e) = m * 10 ^ e.
Proof. intro H. rewrite signed_value. unfold exp_value. pose proof (Z.pow_nonneg 10 e ltac:(lia)). destruct neg; lia. Qed.
Theorem exp_year a t m e : a = "Y"%char \/ a = "y"%char -> exp_text t m e ->
  1000 <= Z.abs (m * 10 ^ e) <= 9999 -> exists d, ParseString (a :: t) = OK d /\ e_level d = 2 /\ e_feature d = EXPONENTIAL_YEAR /\
    runs d (m * 10 ^ e) 1 1 (m * 10 ^ e) 12 31 /\ flagged d 0 0 /\ precise d YEAR.
Proof.
  intros Ha [neg ds c es m0 e0 Hd Hc He] H. rewrite signed_abs in H by exact (dec_nonneg _ _ Hd). rewrite signed_value. apply exp_denotes; assumption.
Qed.
Theorem exp_beyond a t m e : a = "Y"%char \/ a = "y"%char -> exp_text t m e ->
  9999 < Z.abs (m * 10 ^ e) < 2 ^ 63 -> ParseString (a :: t) = Err (Unsupported ($"exponential notation") t).
Proof.
  intros Ha [neg ds c es m0 e0 Hd Hc He] H. rewrite signed_abs in H by exact (dec_nonneg _ _ Hd). apply (exp_unsupported a neg ds c es m0 e0); assumption.
Qed.
Theorem exp_below a t m e : a = "Y"%char \/ a = "y"%char -> exp_text t m e ->
  Z.abs (m * 10 ^ e) < 1000 -> exists err, ParseString (a :: t) = Err err.
Proof.
  intros Ha [neg ds c es m0 e0 Hd Hc He] H. rewrite signed_abs in H by exact (dec_nonneg _ _ Hd). apply (exp_small a neg ds c es m0 e0); assumption.
Qed.
Theorem exp_never a t m e d : a = "Y"%char \/ a = "y"%char -> exp_text t m e -> 64 <= e -> ParseString (a :: t) <> OK d.
Proof. intros Ha [neg ds c es m0 e0 Hd Hc He] H. apply (exp_large a neg ds c es m0 e0); assumption. Qed.
Lemma exp_text_form t : (exists m e, exp_text t m e) <-> cat minus_text (cat digits_text (cat letter_e digits_text)) t.
Proof.
  split.
  - intros (m & e & H). destruct H as [neg ds c es m e Hd Hc He]. apply exp_den; [exact (digits_text_dec _ _ Hd)|exact Hc|exact (digits_text_dec _ _ He)].
  - intros (u & v & Hu & (ds & x & Hd & (p & es & Hp & He & ->) & ->) & ->).
    assert (DD : forall w, digits_text w -> exists v, dec_digits w v).
    { intros w (Hne & Hw). destruct (proj2 (dec_val_digits w 0) Hw) as (v & Hv). exists v. apply dec_digits_iff. auto. }
    destruct (DD _ Hd) as (m & Hm). destruct (DD _ He) as (e & He').
    assert (C : exists c, p = [c] /\ (c = "E"%char \/ c = "e"%char)) by (destruct Hp as [->| ->]; eexists; split; try reflexivity; auto).
    destruct C as (c & -> & Hc). destruct Hu as [->| ->]; [exists (signed false m), e; exact (exp_of false ds c es m e Hm Hc He')|exists (signed true m), e; exact (exp_of true ds c es m e Hm Hc He')].
Qed.
Lemma notation_np t m e : exp_text t m e -> Z.log2 (Z.abs m) + 5 * e + 65 <= 2147483647 -> np (ParseExponentialNotation t).
Proof.
  intros [neg ds c es m0 e0 Hd Hc He] H. apply (exp_no_panic neg ds c es m0 e0); try assumption.
  pose proof (dec_nonneg _ _ Hd). replace (Z.abs (signed neg m0)) with m0 in H by (unfold signed; destruct neg; lia). exact H.
Qed.
Theorem exp_np a t m e : a = "Y"%char \/ a = "y"%char -> exp_text t m e -> Z.log2 (Z.abs m) + 5 * e + 65 <= 2147483647 -> ParseString (a :: t) <> Panic.
Proof.
  intros Ha Ht H. rewrite (exp_parse a t Ha) by (apply exp_text_form; eauto). fold (@np edtfdate (let* y := ParseExponentialNotation t in let* sp := DateSpanFromEDTF (itoa y) in OK (edtf_of_span sp (a :: t) LEVEL2 EXPONENTIAL_YEAR))).
  apply np_bind; [exact (notation_np t m e Ht H)|]. intros y _. np.
Qed.

(** ** Significant digits of any year *)
Lemma before_range u y : before_s u y -> -9999 <= y <= 9999.
Proof.
  intros [t y0 Hy|neg ds m Hd Hl|c t m e Hc Ht Hm H]; [exact (year4_range _ _ Hy)| |lia].
  pose proof (dec_nonneg _ _ Hd). apply dec_digits_iff in Hd. destruct Hd as (_ & Hd). apply dec_val_bound in Hd; [|lia].
  rewrite app_length in Hl. assert (L : Z.of_nat (length ds) <= 4) by lia.
  pose proof (Z.pow_le_mono_r 10 (Z.of_nat (length ds)) 4 ltac:(lia) L). change (10 ^ 4) with 10000 in *. unfold signed. destruct neg; lia.
Qed.
Lemma before_parse u y nd v : before_s u y -> dec_digits nd v -> ParseString (u ++ "S"%char :: nd) = sig_rest (u ++ "S"%char :: nd) y nd.
Proof.
  intros Hu Hn. pose proof (digits_text_dec _ _ Hn) as Dn. pose proof (before_range u y Hu) as R. destruct Hu as [t y0 Hy|neg ds m Hd Hl|c t m e Hc Ht Hm H].
  - exact (sig_year _ _ _ _ Hy Hn).
  - pose proof (digits_text_dec _ _ Hd) as Dd.
    assert (B : cat minus_text digits_text (sign neg ++ ds)) by (exists (sign neg), ds; split; [apply sign_minus|split; [exact Dd|reflexivity]]).
    rewrite (sig_parse _ _ _ (sh_letter _ B) Dn). cbv zeta. cbn [is_empty negb].
    assert (E : is_empty (sign neg ++ ds) = false) by (destruct neg; [reflexivity|]; destruct Dd as (Ne & _); destruct ds; [contradiction|reflexivity]).
    rewrite E. cbn [negb]. replace (4 <? slen (sign neg ++ ds)) with false by (unfold slen; lia).
    assert (A : atoi (sign neg ++ ds) = OK (signed neg m)).
    { apply atoi_spec. split; [|unfold min_int64, max_int64; lia]. destruct neg; cbn [sign signed app]; constructor; exact Hd. }
    rewrite A. reflexivity.
  - assert (B : cat minus_text (cat digits_text (cat letter_e digits_text)) t) by (apply exp_text_form; eauto).
    rewrite (sig_parse _ _ _ (sh_expo c t Hc B) Dn). cbv zeta. cbn [is_empty negb].
    assert (E : is_empty t = false) by (destruct (expo_has_e t B) as [Q|Q]; destruct t; [destruct Q|reflexivity|destruct Q|reflexivity]).
    rewrite E. cbn [negb]. destruct Ht as [neg ds c0 es m0 e0 Hd Hc0 He]. pose proof (dec_nonneg _ _ Hd). rewrite signed_abs in H by assumption.
    rewrite (notation_value neg ds c0 es m0 e0 Hd Hc0 He) by (change (2 ^ 63) with 9223372036854775808; lia).
    replace (m0 =? 0) with false by (unfold signed in Hm; destruct neg; lia). replace (9999 <? m0 * 10 ^ e0) with false by lia. cbn [bind]. rewrite signed_value. reflexivity.
Qed.
Theorem before_spans u y nd v : before_s u y -> dec_digits nd v -> 1000 <= Z.abs y -> v <= 4 ->
  exists e lo hi, ParseString (u ++ "S"%char :: nd) = OK e /\ e_level e = 2 /\ e_feature e = SIGNIFICANT_DIGITS /\
    from_to (e_start e) lo 1 1 lo 12 31 /\ from_to (e_end e) hi 1 1 hi 12 31 /\ flagged e 0 0 /\ precise e YEAR /\
    forall z, lo <= z <= hi <-> 0 <= y * z /\ Z.abs z / 10 ^ v = Z.abs y / 10 ^ v.
Proof. intros Hu Hn Ha Hv. rewrite (before_parse _ _ _ _ Hu Hn). apply sig_rest_spans; [exact (before_range _ _ Hu)|assumption..]. Qed.
Theorem before_only u y nd v e : before_s u y -> dec_digits nd v -> ParseString (u ++ "S"%char :: nd) = OK e ->
  1000 <= Z.abs y /\ v <= 4 \/ -999 <= y <= -100 /\ v = 4.
Proof. intros Hu Hn. rewrite (before_parse _ _ _ _ Hu Hn). apply sig_rest_only; [exact (before_range _ _ Hu)|exact Hn]. Qed.
Theorem before_panics u y nd v : before_s u y -> dec_digits nd v ->
  (ParseString (u ++ "S"%char :: nd) = Panic <-> year_width y < v < 10 ^ year_width y).
Proof. intros Hu Hn. rewrite (before_parse _ _ _ _ Hu Hn). apply sig_rest_panics; [exact (before_range _ _ Hu)|exact Hn]. Qed.

(** ** Nothing else panics *)
Lemma np_or_invalid {A} (x : res A) f s : np x -> np (or_invalid x f s).
Proof. destruct x; cbn; auto. discriminate. Qed.
Lemma np_members s l : np (set_members s l).
Proof.
  induction l as [|d l IH]; cbn [set_members]; [np|]. apply np_bind.
  - destruct (split d ($"..")) as [|a [|b [|]]]; np.
  - intros ((h & so) & eo) _. apply np_bind; [exact IH|]. intros ((l' & so') & eo') _. np.
Qed.
Lemma np_set s : np (ParseSetRepresentations s).
Proof.
  unfold ParseSetRepresentations. cbv zeta. apply np_if; [np|]. apply np_bind; [np|]. intros i _. apply np_bind; [apply np_members|].
  intros ((p & so) & eo) _. destruct (sort_strs p); [np|]. apply np_bind; [np|]. intros. np.
Qed.
Lemma np_grouping s : np (ParseSubYearGroupings s).
Proof.
  unfold ParseSubYearGroupings. cbv zeta. apply np_if; [np|]. destruct (grouping_bounds _) as [((((a & b) & c) & e) & nx)|]; [|np].
  apply np_bind; [np|]. intros. np.
Qed.
Lemma np_season s : np (ParseSeason s).
Proof.
  unfold ParseSeason. cbv zeta. apply np_if; [np|]. apply np_bind.
  - apply np_if; [apply np_bind; [np|]; intros y _; destruct (season_word _ y); np|np].
  - intros (((a & b) & c) & e) _. np.
Qed.
Lemma np_level0 s : np (L0_ParseString s).
Proof. unfold L0_ParseString, ParseDate, ParseDateAndTime, ParseTimeInterval. cbv zeta. np. Qed.
Lemma np_level1 s : np (L1_ParseString s).
Proof.
  unfold L1_ParseString, ParseLetterPrefixedCalendarYear, ParseQualifiedDate, ParseUnspecifiedDigits, ParseNegativeCalendarYear, ParseExtendedInterval, ParseExtendedIntervalStart, ParseExtendedIntervalEnd.
  cbv zeta. repeat (apply np_if; [first [apply np_season|np]|]); np.
Qed.
Theorem only_two_panic s : ~ exponential_year s -> ~ significant_digits s -> ParseString s <> Panic.
Proof.
  intros H1 H2. change (np (ParseString s)). unfold ParseString. apply np_if; [apply np_level0|]. apply np_if; [apply np_level1|]. apply np_if; [|np].
  unfold L2_ParseString. unfold IsExponentialYear, IsSignificantDigits.
  replace (match_string ExponentialYear s) with false by (symmetry; apply not_true_iff_false; rewrite Exponential_spec; exact H1).
  replace (match_string SignificantDigits s) with false by (symmetry; apply not_true_iff_false; rewrite Significant_spec; exact H2).
  apply np_if; [apply np_grouping|]. apply np_if; [apply np_set|]. unfold ParseGroupQualification, ParseIndividualQualification, ParseUnspecifiedDigit, ParseInterval. np.
Qed.
