(** ParseExponentialNotation for any text. *)
From Coq Require Import Ascii String ZArith NArith Bool Lia ZifyBool List.
From Verif Require Import GoStr GoBig SpecText SpecForms SpecNotation StrFacts TextFacts Edtf Common ErrText CalFacts ApiFacts GrammarFacts SigProofs ExpProofs ExpWrap BigText BigTextFacts BigTextValue.
Import ListNotations.
Open Scope Z_scope.

Lemma notation_value_cut t neg m f b x n : number_text t neg m f b x -> in_scale m f x -> 0 <= n < 2 ^ 63 -> whole_part m f b x n ->
  ParseNotation t = if 9999 <? n then Err (EUnsupported ($"exponential notation") t) else OK (signed neg n).
Proof.
  intros H S Hn W. destruct (number_range _ _ _ _ _ _ H) as (Hm & Hf & Hb). destruct (value_cut m f b x n Hm Hf Hb S Hn W) as (v & E & C).
  rewrite (notation_answer _ _ _ _ _ _ _ H (proj1 S) E). unfold answer. destruct v as [| |m' e']; cbn [cut_to] in C; [subst n; destruct neg; reflexivity|contradiction|].
  cbv zeta. rewrite C. unfold MAX_YEARS, Unsupported. destruct (9999 <? n) eqn:L; destruct neg; cbn [signed]; try replace (_ || _) with true by lia; try replace (_ || _) with false by lia; reflexivity.
Qed.

(** ** Moving the point *)
Lemma value_moved m f x f' x' : x - f = x' - f' -> float_value m f 10 x = float_value m f' 10 x'.
Proof.
  intro E. unfold float_value. change (10 =? 10) with true. cbv iota zeta. replace (bitlen m - f + x) with (bitlen m - f' + x') by lia. rewrite E. reflexivity.
Qed.
Lemma answer_moved t u neg v : (forall y, answer t neg v = OK y <-> answer u neg v = OK y) /\ (answer t neg v = Panic <-> answer u neg v = Panic).
Proof. unfold answer. destruct v; cbv zeta; try (destruct (_ || _)); split; try intro y; split; intro H; try discriminate H; exact H. Qed.
Lemma notation_moved t u neg m f x f' x' : number_text t neg m f 10 x -> number_text u neg m f' 10 x' ->
  - 2 ^ 63 <= x < 2 ^ 63 -> - 2 ^ 63 <= x' < 2 ^ 63 -> x - f = x' - f' ->
  (forall y, ParseNotation t = OK y <-> ParseNotation u = OK y) /\ (ParseNotation t = Panic <-> ParseNotation u = Panic).
Proof.
  intros Ht Hu Fx Fx' E. destruct (float_value m f 10 x) as [v|] eqn:V.
  - pose proof V as V'. rewrite (value_moved m f x f' x' E) in V'. rewrite (notation_answer _ _ _ _ _ _ _ Ht Fx V), (notation_answer _ _ _ _ _ _ _ Hu Fx' V'). apply answer_moved.
  - pose proof V as V'. rewrite (value_moved m f x f' x' E) in V'.
    assert (R : forall w fw xw, number_text w neg m fw 10 xw -> float_value m fw 10 xw = None -> ParseNotation w = Err (EBig w)).
    { intros w fw xw Hw N. unfold ParseNotation. rewrite parse_infb, (number_no_inf _ _ _ _ _ _ Hw). destruct (proj2 (number_scanned _ _ _ _ _ _ Hw) (or_intror N)) as (k & ->). reflexivity. }
    rewrite (R t f x Ht V), (R u f' x' Hu V'). split; [intro y|]; split; discriminate.
Qed.

(** ** The texts of the parser *)
Lemma exp_number t m e : exp_text t m e -> exists neg m', number_text t neg m' 0 10 e /\ m = signed neg m' /\ 0 <= e.
Proof.
  intro H. destruct H as [neg ds c es m e Hd Hc He]. exists neg, m. split; [|split; [reflexivity|exact (SigProofs.dec_nonneg _ _ He)]].
  apply (nt_number (sign neg) neg ds m 0 (c :: es) 10 e).
  - destruct neg; constructor.
  - constructor. exact Hd.
  - apply (ex_decimal c [] false es e); [tauto|constructor|exact He].
Qed.
Lemma scan_same m e : 0 <= m -> 0 <= e <= max_int64 -> float_value m 0 10 e = bf_scan m e.
Proof.
  intros Hm He. unfold float_value, bf_scan. replace (max_int64 <? e) with false by lia. destruct (m =? 0) eqn:M0; [reflexivity|].
  change (10 =? 10) with true. cbv iota zeta. pose proof (bitlen_bounds m ltac:(lia)) as (B & _ & _). rewrite !Z.sub_0_r.
  replace (bitlen m + e <? min_exp) with false by (unfold min_exp; lia). cbn [orb]. destruct (max_exp <? bitlen m + e); [reflexivity|].
  destruct (e =? 0) eqn:E0; [replace e with 0 by lia; unfold finite; destruct (bf_make 64 m 0) as [(m1 & e1)|]; reflexivity|].
  replace (e <? 0) with false by lia. unfold finite. destruct (bf_mul 64 (Some (m, e)) (bf_pow5 e)) as [(m1 & e1)|]; reflexivity.
Qed.
Lemma call_sites t m e : exp_text t m e -> ParseNotation t = ParseExponentialNotation t.
Proof.
  intro H. destruct H as [neg ds c es m e Hd Hc He]. pose proof (SigProofs.dec_nonneg _ _ Hd) as M0. pose proof (SigProofs.dec_nonneg _ _ He) as E0.
  assert (N : number_text (sign neg ++ ds ++ c :: es) neg m 0 10 e).
  { apply (nt_number (sign neg) neg ds m 0 (c :: es) 10 e); [destruct neg; constructor|constructor; exact Hd|]. apply (ex_decimal c [] false es e); [tauto|constructor|exact He]. }
  unfold ParseExponentialNotation. rewrite (exp_split_text neg ds c es (digits_text_dec _ _ Hd) Hc (digits_text_dec _ _ He)), (nat_val_dec _ _ Hd), (nat_val_dec _ _ He).
  destruct (Z.leb_spec e max_int64) as [L|L].
  - assert (F : fits e) by (unfold fits, max_int64 in *; change (2 ^ 63) with 9223372036854775808; lia). pose proof (scan_same m e M0 ltac:(lia)) as S. destruct (bf_scan m e) as [v|] eqn:B.
    + rewrite (notation_answer _ _ _ _ _ _ _ N F S). unfold answer. destruct v as [| |m' e']; try reflexivity.
      assert (P : 0 <= e').
      { destruct (Z.eq_dec m 0) as [->|NZ]; [unfold bf_scan in B; destruct (max_int64 <? e); discriminate|]. destruct (ExpProofs.scan_exponent m e m' e' ltac:(lia) E0 B). lia. }
      unfold int64_part. replace (e' <? 0) with false by lia. reflexivity.
    + unfold ParseNotation. rewrite parse_infb, (number_no_inf _ _ _ _ _ _ N). destruct (proj2 (number_scanned _ _ _ _ _ _ N) (or_intror S)) as (k & ->). reflexivity.
  - assert (F : ~ fits e) by (unfold fits, max_int64 in *; change (2 ^ 63) with 9223372036854775808; lia). unfold bf_scan. replace (max_int64 <? e) with true by lia.
    unfold ParseNotation. rewrite parse_infb, (number_no_inf _ _ _ _ _ _ N). destruct (proj2 (number_scanned _ _ _ _ _ _ N) (or_introl F)) as (k & ->). reflexivity.
Qed.
Lemma call_messages t m e : exp_text t m e -> ParseNotation t = Err (EBig t) -> notation_fault t = Some (big_text t).
Proof.
  intros H. destruct H as [neg ds c es m e Hd Hc He]. pose proof (SigProofs.dec_nonneg _ _ Hd) as M0. pose proof (SigProofs.dec_nonneg _ _ He) as E0.
  assert (N : number_text (sign neg ++ ds ++ c :: es) neg m 0 10 e).
  { apply (nt_number (sign neg) neg ds m 0 (c :: es) 10 e); [destruct neg; constructor|constructor; exact Hd|]. apply (ex_decimal c [] false es e); [tauto|constructor|exact He]. }
  assert (B : big_text (sign neg ++ ds ++ c :: es) = if max_int64 <? e then num_text ($"ParseInt") es else $"exponent overflow").
  { unfold big_text. rewrite (exp_split_text neg ds c es (digits_text_dec _ _ Hd) Hc (digits_text_dec _ _ He)), (nat_val_dec _ _ He). reflexivity. }
  rewrite B. clear B. intro Er. unfold notation_fault. rewrite parse_infb, (number_no_inf _ _ _ _ _ _ N).
  assert (S : float_scan (sign neg ++ ds ++ c :: es) = if max_int64 <? e then inl (num_text ($"ParseInt") es) else match float_value m 0 10 e with Some v => inr (neg, v, []) | None => inl ($"exponent overflow") end).
  { pose proof (dec_all _ _ Hd) as Fd. pose proof (dec_all _ _ He) as Fe. destruct ds as [|d0 ds]; [destruct (dec_some _ _ Hd eq_refl)|]. destruct es as [|e0 es]; [destruct (dec_some _ _ He eq_refl)|].
    assert (A1 : scan_sign (sign neg ++ (d0 :: ds) ++ c :: e0 :: es) = Some (neg, (d0 :: ds) ++ c :: e0 :: es)).
    { cbn [app]. apply sign_scanned; [destruct neg; constructor|]. inversion Fd; subst. apply digit_no_sign. assumption. }
    assert (A2 : scan_mantissa ((d0 :: ds) ++ c :: e0 :: es) = (d0 :: ds, 0, c :: e0 :: es)).
    { unfold scan_mantissa. rewrite span_exact; [|exact Fd|intros y u Q; injection Q as <- _; destruct Hc as [->| ->]; reflexivity]. destruct Hc as [->| ->]; reflexivity. }
    assert (A3 : scan_exponent (c :: e0 :: es) = if max_int64 <? e then inl (num_text ($"ParseInt") (e0 :: es)) else inr (10, e, [])).
    { unfold scan_exponent. replace (exponent_base c) with (Some 10) by (destruct Hc as [->| ->]; reflexivity).
      assert (Q : scan_sign (e0 :: es) = Some (false, e0 :: es)) by (apply (sign_scanned [] false); [constructor|]; inversion Fe; subst; apply digit_no_sign; assumption).
      rewrite Q. rewrite <- (app_nil_r (e0 :: es)) at 1. rewrite span_exact; [|exact Fe|discriminate]. cbv zeta. rewrite (nat_val_dec _ _ He).
      replace (e <? min_int64) with false by (unfold min_int64; lia). cbn [orb app]. reflexivity. }
    unfold float_scan. rewrite A1, A2, A3, (nat_val_dec _ _ Hd). destruct (max_int64 <? e); reflexivity. }
  rewrite S. destruct (max_int64 <? e) eqn:L; [reflexivity|]. destruct (float_value m 0 10 e) as [v|] eqn:V; [exfalso|reflexivity].
  assert (F : fits e) by (unfold fits, max_int64 in *; change (2 ^ 63) with 9223372036854775808; lia). rewrite (notation_answer _ _ _ _ _ _ _ N F V) in Er. exact (answer_no_big _ _ _ Er).
Qed.
