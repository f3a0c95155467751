(** Which exponential years panic. *)
From Coq Require Import Ascii String ZArith NArith Bool Lia ZifyBool List.
From Verif Require Import GoStr GoTime GoBig Regex Patterns SpecCal SpecText SpecGrammar SpecForms SpecSpan StrFacts TextFacts Edtf Calendar Common Level2 Parser ApiFacts DateFacts ParseFacts LangForms2 FormProofs SigProofs ExpProofs ExpLimit.
Import ListNotations.
Open Scope Z_scope.

Lemma bitlen_log m : m <> 0 -> bitlen m = Z.log2 m + 1.
Proof. intro H. unfold bitlen. replace (m =? 0) with false by lia. reflexivity. Qed.
(** With [X] for 2147483647 and [Y] for X - 64, so that no power is computed. *)
Lemma notation_limit X Y t m e : X = max_exp -> Y = X - 64 -> 65 <= X <= 2 ^ 31 -> exp_text t m e ->
  (Z.abs m * 10 ^ e <= (2 ^ 64 - 1) * 2 ^ Y -> ParseExponentialNotation t <> Panic) /\
  (2 ^ X <= Z.abs m * 10 ^ e -> Z.log2 (Z.abs m) + 1 + e <= X -> ParseExponentialNotation t = Panic) /\
  (m <> 0 -> X < Z.log2 (Z.abs m) + 1 + e -> exists err, ParseExponentialNotation t = Err err).
Proof.
  intros HX -> RX [neg ds c es m0 e0 Hd Hc He]. unfold ParseExponentialNotation.
  rewrite (exp_split_text neg ds c es (digits_text_dec _ _ Hd) Hc (digits_text_dec _ _ He)), (nat_val_dec _ _ Hd), (nat_val_dec _ _ He).
  pose proof (dec_nonneg _ _ Hd) as Hm. pose proof (dec_nonneg _ _ He) as He0. clear Hd He Hc.
  replace (Z.abs (signed neg m0)) with m0 by (unfold signed; destruct neg; lia).
  assert (S0 : signed neg m0 <> 0 <-> m0 <> 0) by (unfold signed; destruct neg; lia).
  destruct (Z.eq_dec m0 0) as [->|N].
  { rewrite Z.mul_0_l. split; [|split].
    - intros _. unfold bf_scan. destruct (max_int64 <? e0); [discriminate|]. cbn. discriminate.
    - intro H. exfalso. pose proof (Z.pow_pos_nonneg 2 X ltac:(lia) ltac:(lia)). lia.
    - intro H. apply S0 in H. contradiction. }
  rewrite <- bitlen_log by exact N.
  assert (D : bitlen m0 + e0 <= X \/ X < bitlen m0 + e0) by lia. destruct D as [D|D].
  - destruct (scan_limit X m0 e0 HX RX ltac:(lia) He0 D) as (G1 & G2). split; [|split].
    + intro H. destruct (G1 H) as (m' & e' & ->). destruct (_ || _); discriminate.
    + intros H _. rewrite (G2 H). reflexivity.
    + intros _ H. lia.
  - assert (E : bf_scan m0 e0 = None).
    { unfold bf_scan. destruct (max_int64 <? e0); [reflexivity|]. replace (m0 =? 0) with false by lia. rewrite <- HX. replace (X <? bitlen m0 + e0) with true by lia. reflexivity. }
    rewrite E. split; [discriminate|]. split; [intros _ H; lia|]. intros _ _. eauto.
Qed.
Lemma exp_limit_X X Y a t m e : X = max_exp -> Y = X - 64 -> 65 <= X <= 2 ^ 31 -> a = "Y"%char \/ a = "y"%char -> exp_text t m e ->
  (Z.abs m * 10 ^ e <= (2 ^ 64 - 1) * 2 ^ Y -> ParseString (a :: t) <> Panic) /\
  (2 ^ X <= Z.abs m * 10 ^ e -> Z.log2 (Z.abs m) + 1 + e <= X -> ParseString (a :: t) = Panic) /\
  (m <> 0 -> X < Z.log2 (Z.abs m) + 1 + e -> exists err, ParseString (a :: t) = Err err).
Proof.
  intros HX HY RX Ha Ht. destruct (notation_limit X Y t m e HX HY RX Ht) as (G1 & G2 & G3). rewrite (exp_parse a t Ha) by (apply exp_text_form; eauto).
  split; [|split].
  - intro H. specialize (G1 H). apply np_bind; [exact G1|]. intros y _. np.
  - intros H H'. rewrite (G2 H H'). reflexivity.
  - intros H H'. destruct (G3 H H') as (err & ->). cbn [bind]. eauto.
Qed.
Lemma X_range : 65 <= 2147483647 <= 2 ^ 31.
Proof. split; vm_compute; discriminate. Qed.
Theorem exp_limit a t m e : a = "Y"%char \/ a = "y"%char -> exp_text t m e ->
  (Z.abs m * 10 ^ e <= (2 ^ 64 - 1) * 2 ^ 2147483583 -> ParseString (a :: t) <> Panic) /\
  (2 ^ 2147483647 <= Z.abs m * 10 ^ e -> Z.log2 (Z.abs m) + 1 + e <= 2147483647 -> ParseString (a :: t) = Panic) /\
  (m <> 0 -> 2147483647 < Z.log2 (Z.abs m) + 1 + e -> exists err, ParseString (a :: t) = Err err).
Proof. exact (exp_limit_X 2147483647 2147483583 a t m e eq_refl eq_refl X_range). Qed.

(** ** The limit in decimal: 10^646456992 < 2^2147483647 < 10^646456993 *)
Lemma pow5_between n p q : 0 <= n <= 2 ^ 32 -> bf_pow5 n = Some (p, q) ->
  p * 2 ^ q * (2 ^ 128 - n) <= 5 ^ n * 2 ^ 128 /\ 5 ^ n * (2 ^ 128 - n) <= p * 2 ^ q * 2 ^ 128.
Proof.
  intros Hn E. assert (V : value_of (2 ^ max_exp) n (5 ^ n) (bf_pow5 n)) by (apply pow5_value; [exact limit|exact Hn]).
  rewrite E in V. destruct V as (Hp & Hq & N). pose proof (Z.pow_nonneg 2 q ltac:(lia)). pose proof (Z.pow_nonneg 5 n ltac:(lia)).
  apply near_linear; try assumption; try reflexivity; [|nia]. change (2 ^ 32) with 4294967296 in Hn. change (2 ^ 128) with 340282366920938463463374607431768211456. lia.
Qed.
Lemma ten_below n p q d Y : 0 <= n <= 2 ^ 32 -> bf_pow5 n = Some (p, q) -> 0 <= q -> 0 <= d -> Y = n + q + d ->
  p * 2 ^ 128 <= (2 ^ 64 - 1) * (2 ^ 128 - n) * 2 ^ d -> 10 ^ n <= (2 ^ 64 - 1) * 2 ^ Y.
Proof.
  intros Hn E Hq Hd -> H. destruct (pow5_between n p q Hn E) as (_ & L). clear E.
  replace (10 ^ n) with (2 ^ n * 5 ^ n) by (rewrite <- Z.pow_mul_l; reflexivity). rewrite !Z.pow_add_r by lia.
  pose proof (Z.pow_pos_nonneg 2 n ltac:(lia) ltac:(lia)) as P1. pose proof (Z.pow_pos_nonneg 2 q ltac:(lia) ltac:(lia)) as P2.
  change (2 ^ 32) with 4294967296 in Hn. change (2 ^ 128) with 340282366920938463463374607431768211456 in *. change (2 ^ 64) with 18446744073709551616 in *.
  set (K := 340282366920938463463374607431768211456 - n) in *. assert (HK : 0 < K) by lia. clearbody K.
  set (A := 2 ^ n) in *. set (Q := 2 ^ q) in *. set (F := 5 ^ n) in *. set (D := 2 ^ d) in *. clearbody A Q F D.
  apply (Z.mul_le_mono_pos_r _ _ K HK). transitivity (A * (p * Q * 340282366920938463463374607431768211456)).
  - replace (A * F * K) with (A * (F * K)) by ring. apply Z.mul_le_mono_nonneg_l; lia.
  - replace (A * (p * Q * 340282366920938463463374607431768211456)) with ((A * Q) * (p * 340282366920938463463374607431768211456)) by ring.
    replace ((18446744073709551616 - 1) * (A * Q * D) * K) with ((A * Q) * ((18446744073709551616 - 1) * K * D)) by ring.
    apply Z.mul_le_mono_nonneg_l; [nia|exact H].
Qed.
Lemma ten_above n p q d X : 0 <= n <= 2 ^ 32 -> bf_pow5 n = Some (p, q) -> 0 <= q -> 0 <= d -> X = n + q + d ->
  2 ^ d * 2 ^ 128 <= p * (2 ^ 128 - n) -> 2 ^ X <= 10 ^ n.
Proof.
  intros Hn E Hq Hd -> H. destruct (pow5_between n p q Hn E) as (L & _). clear E.
  replace (10 ^ n) with (2 ^ n * 5 ^ n) by (rewrite <- Z.pow_mul_l; reflexivity). rewrite !Z.pow_add_r by lia.
  pose proof (Z.pow_pos_nonneg 2 n ltac:(lia) ltac:(lia)) as P1. pose proof (Z.pow_pos_nonneg 2 q ltac:(lia) ltac:(lia)) as P2.
  change (2 ^ 128) with 340282366920938463463374607431768211456 in *.
  set (A := 2 ^ n) in *. set (Q := 2 ^ q) in *. set (F := 5 ^ n) in *. set (D := 2 ^ d) in *. clearbody A Q F D.
  apply (Z.mul_le_mono_pos_r _ _ 340282366920938463463374607431768211456 ltac:(lia)).
  transitivity (A * (p * Q * (340282366920938463463374607431768211456 - n))).
  - replace (A * Q * D * 340282366920938463463374607431768211456) with ((A * Q) * (D * 340282366920938463463374607431768211456)) by ring.
    replace (A * (p * Q * (340282366920938463463374607431768211456 - n))) with ((A * Q) * (p * (340282366920938463463374607431768211456 - n))) by ring.
    apply Z.mul_le_mono_nonneg_l; [nia|exact H].
  - replace (A * F * 340282366920938463463374607431768211456) with (A * (F * 340282366920938463463374607431768211456)) by ring. apply Z.mul_le_mono_nonneg_l; lia.
Qed.
Lemma ten_low Y : Y = 2147483583 -> 10 ^ 646456992 <= (2 ^ 64 - 1) * 2 ^ Y.
Proof.
  intros ->. apply (ten_below 646456992 309064346766191649070787617452147970327 1501026524 67); try (vm_compute; reflexivity); vm_compute; try split; discriminate.
Qed.
Lemma ten_high X : X = 2147483647 -> 2 ^ X <= 10 ^ 646456993.
Proof.
  intros ->. apply (ten_above 646456993 193165216728869780669242260907592481453 1501026527 127); try (vm_compute; reflexivity); vm_compute; try split; discriminate.
Qed.
(** A mantissa of at most k digits. *)
Lemma exp_decimal_XYL X Y L a t m e k : X = 2147483647 -> Y = 2147483583 -> L = 646456992 -> a = "Y"%char \/ a = "y"%char -> exp_text t m e ->
  (Z.abs m < 10 ^ k -> 0 <= k -> e + k <= L -> ParseString (a :: t) <> Panic) /\
  (m <> 0 -> L < e -> Z.log2 (Z.abs m) + 1 + e <= X -> ParseString (a :: t) = Panic).
Proof.
  intros HX HY HL Ha Ht. assert (He : 0 <= e) by (destruct Ht; eapply dec_nonneg; eassumption).
  assert (RX : 65 <= X <= 2 ^ 31) by (rewrite HX; exact X_range).
  assert (TL : 10 ^ L <= (2 ^ 64 - 1) * 2 ^ Y) by (rewrite HL; apply ten_low; exact HY).
  assert (TH : 2 ^ X <= 10 ^ (L + 1)) by (rewrite HL; apply ten_high; exact HX).
  destruct (exp_limit_X X Y a t m e HX ltac:(lia) RX Ha Ht) as (G1 & G2 & _).
  pose proof (Z.pow_pos_nonneg 10 e ltac:(lia) He) as P. split.
  - intros Hm Hk H. apply G1. transitivity (10 ^ k * 10 ^ e); [nia|]. rewrite <- Z.pow_add_r by lia. transitivity (10 ^ L); [|exact TL].
    apply Z.pow_le_mono_r; lia.
  - intros Hm Hl H. apply G2; [|exact H]. transitivity (10 ^ (L + 1)); [exact TH|]. transitivity (10 ^ e); [apply Z.pow_le_mono_r; lia|nia].
Qed.
Theorem exp_decimal a t m e k : a = "Y"%char \/ a = "y"%char -> exp_text t m e ->
  (Z.abs m < 10 ^ k -> 0 <= k -> e + k <= 646456992 -> ParseString (a :: t) <> Panic) /\
  (m <> 0 -> 646456992 < e -> Z.log2 (Z.abs m) + 1 + e <= 2147483647 -> ParseString (a :: t) = Panic).
Proof. exact (exp_decimal_XYL 2147483647 2147483583 646456992 a t m e k eq_refl eq_refl eq_refl). Qed.

(** ** Significant digits of exponential years *)
Lemma sig_exp c t m e nd v : c = "Y"%char \/ c = "y"%char -> exp_text t m e -> dec_digits nd v ->
  ParseString (c :: t ++ "S"%char :: nd) = let* y := ParseExponentialNotation t in sig_rest (c :: t ++ "S"%char :: nd) y nd.
Proof.
  intros Hc Ht Hn. assert (B : cat minus_text (cat digits_text (cat letter_e digits_text)) t) by (apply exp_text_form; eauto).
  change (c :: t ++ "S"%char :: nd) with ((c :: t) ++ "S"%char :: nd). rewrite (sig_parse _ _ _ (sh_expo c t Hc B) (digits_text_dec _ _ Hn)). cbv zeta. cbn [is_empty negb].
  assert (E : is_empty t = false) by (destruct (expo_has_e t B) as [Q|Q]; destruct t; [destruct Q|reflexivity|destruct Q|reflexivity]).
  rewrite E. reflexivity.
Qed.
Lemma sig_exp_X X Y c t m e nd v : X = max_exp -> Y = X - 64 -> 65 <= X <= 2 ^ 31 -> c = "Y"%char \/ c = "y"%char -> exp_text t m e -> dec_digits nd v ->
  (m = 0 \/ 64 <= e -> Z.log2 (Z.abs m) + 1 + e <= X -> Z.abs m * 10 ^ e <= (2 ^ 64 - 1) * 2 ^ Y ->
     (ParseString (c :: t ++ "S"%char :: nd) = Panic <-> 2 <= v <= 9)) /\
  (2 ^ X <= Z.abs m * 10 ^ e -> Z.log2 (Z.abs m) + 1 + e <= X -> ParseString (c :: t ++ "S"%char :: nd) = Panic) /\
  (m <> 0 -> X < Z.log2 (Z.abs m) + 1 + e -> exists err, ParseString (c :: t ++ "S"%char :: nd) = Err err) /\
  (9999 < Z.abs (m * 10 ^ e) < 2 ^ 63 -> exists err, ParseString (c :: t ++ "S"%char :: nd) = Err err).
Proof.
  intros HX HY RX Hc Ht Hn. destruct (notation_limit X Y t m e HX HY RX Ht) as (G1 & G2 & G3). rewrite (sig_exp c t m e nd v Hc Ht Hn).
  split; [|split; [|split]].
  - intros D Hb H. specialize (G1 H). pose proof (Z.log2_nonneg (Z.abs m)) as HL.
    assert (E0 : ParseExponentialNotation t = OK 0).
    { destruct Ht as [neg ds c0 es m0 e0 Hd Hc0 He]. pose proof (dec_nonneg _ _ Hd) as Hm0. pose proof (dec_nonneg _ _ He) as He0.
      replace (Z.abs (signed neg m0)) with m0 in * by (unfold signed; destruct neg; lia).
      assert (D' : m0 = 0 \/ 0 < m0 /\ 64 <= e0) by (unfold signed in D; destruct neg; lia).
      destruct (ParseExponentialNotation (sign neg ++ ds ++ c0 :: es)) as [y|err|] eqn:E; [| |contradiction].
      - destruct D' as [-> |(_ & D')]; [|rewrite (notation_large neg ds c0 es m0 e0 y Hd Hc0 He D' E); reflexivity].
        unfold ParseExponentialNotation in E. rewrite (exp_split_text neg ds c0 es (digits_text_dec _ _ Hd) Hc0 (digits_text_dec _ _ He)), (nat_val_dec _ _ Hd), (nat_val_dec _ _ He) in E.
        unfold bf_scan in E. destruct (max_int64 <? e0); [discriminate E|]. cbn in E. injection E as <-. reflexivity.
      - exfalso. unfold ParseExponentialNotation in E. rewrite (exp_split_text neg ds c0 es (digits_text_dec _ _ Hd) Hc0 (digits_text_dec _ _ He)), (nat_val_dec _ _ Hd), (nat_val_dec _ _ He) in E.
        destruct D' as [-> |(Hp & D')].
        + unfold bf_scan in E. replace (max_int64 <? e0) with false in E by (unfold max_int64; lia). cbn in E. discriminate E.
        + rewrite <- bitlen_log in Hb by lia. destruct (scan_limit X m0 e0 HX RX Hp He0 Hb) as (S & _). rewrite <- HY in S. destruct (S H) as (m' & e' & S'). rewrite S' in E.
          destruct (scan_exponent m0 e0 m' e' Hp He0 S') as (_ & Q). unfold int64_of in E. replace (e' <? 64) with false in E by lia.
          change (wrap64 0) with 0 in E. change (wrap64 (- 0)) with 0 in E. replace (if neg then 0 else 0) with 0 in E by (destruct neg; reflexivity). cbn in E. discriminate E. }
    rewrite E0. cbn [bind]. rewrite (sig_rest_panics _ 0 nd v ltac:(lia) Hn). change (year_width 0) with 1. change (10 ^ 1) with 10. lia.
  - intros H H'. rewrite (G2 H H'). reflexivity.
  - intros H H'. destruct (G3 H H') as (err & ->). cbn [bind]. eauto.
  - intro H. destruct Ht as [neg ds c0 es m0 e0 Hd Hc0 He]. pose proof (dec_nonneg _ _ Hd). rewrite signed_abs in H by assumption.
    rewrite (notation_value neg ds c0 es m0 e0 Hd Hc0 He) by lia. replace (m0 =? 0) with false by (destruct (Z.eq_dec m0 0) as [-> |]; lia).
    replace (9999 <? m0 * 10 ^ e0) with true by lia. cbn [bind]. eauto.
Qed.
Theorem sig_exp_panics c t m e nd v : c = "Y"%char \/ c = "y"%char -> exp_text t m e -> dec_digits nd v ->
  (m = 0 \/ 64 <= e -> Z.log2 (Z.abs m) + 1 + e <= 2147483647 -> Z.abs m * 10 ^ e <= (2 ^ 64 - 1) * 2 ^ 2147483583 ->
     (ParseString (c :: t ++ "S"%char :: nd) = Panic <-> 2 <= v <= 9)) /\
  (2 ^ 2147483647 <= Z.abs m * 10 ^ e -> Z.log2 (Z.abs m) + 1 + e <= 2147483647 -> ParseString (c :: t ++ "S"%char :: nd) = Panic) /\
  (m <> 0 -> 2147483647 < Z.log2 (Z.abs m) + 1 + e -> exists err, ParseString (c :: t ++ "S"%char :: nd) = Err err) /\
  (9999 < Z.abs (m * 10 ^ e) < 2 ^ 63 -> exists err, ParseString (c :: t ++ "S"%char :: nd) = Err err).
Proof. exact (sig_exp_X 2147483647 2147483583 c t m e nd v eq_refl eq_refl X_range). Qed.

Theorem sig_letter_long (neg : bool) ds m nd v : dec_digits ds m -> (4 < length (sign neg ++ ds))%nat -> dec_digits nd v ->
  ParseString ("Y"%char :: sign neg ++ ds ++ "S"%char :: nd) = Err (Unsupported SIGNIFICANT_DIGITS ("Y"%char :: sign neg ++ ds ++ "S"%char :: nd)).
Proof.
  intros Hd Hl Hn. pose proof (digits_text_dec _ _ Hd) as Dd.
  assert (B : cat minus_text digits_text (sign neg ++ ds)) by (exists (sign neg), ds; split; [apply sign_minus|split; [exact Dd|reflexivity]]).
  replace ("Y"%char :: sign neg ++ ds ++ "S"%char :: nd) with (("Y"%char :: sign neg ++ ds) ++ "S"%char :: nd) by (cbn [app]; rewrite <- app_assoc; reflexivity).
  rewrite (sig_parse _ _ _ (sh_letter _ B) (digits_text_dec _ _ Hn)). cbv zeta. cbn [is_empty negb].
  assert (E : is_empty (sign neg ++ ds) = false) by (destruct neg; [reflexivity|]; destruct Dd as (Ne & _); destruct ds; [contradiction|reflexivity]).
  rewrite E. cbn [negb]. replace (4 <? slen (sign neg ++ ds)) with true by (unfold slen; lia). reflexivity.
Qed.
