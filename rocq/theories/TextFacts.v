(** strconv against the text specification. *)
From Coq Require Import Ascii String ZArith NArith Bool Lia ZifyBool List.
From Verif Require Import GoStr SpecCal SpecText StrFacts.
Import ListNotations.
Open Scope Z_scope.
Ltac Zify.zify_post_hook ::= Z.div_mod_to_equations.

Lemma dec_digits_val s v : dec_digits s v -> dec_val 0 s = Some v /\ s <> [].
Proof.
  induction 1 as [n Hn|s v n H [IH Hs] Hn].
  - cbn [dec_val]. rewrite is_digit_char, digit_val_char by exact Hn. split; [reflexivity|discriminate].
  - split.
    + rewrite dec_val_app, IH. cbn [dec_val]. rewrite is_digit_char, digit_val_char by exact Hn. f_equal. lia.
    + destruct s; discriminate.
Qed.
Lemma dec_val_dec_digits s v : s <> [] -> dec_val 0 s = Some v -> dec_digits s v.
Proof.
  revert v. induction s as [|c s IH] using rev_ind; intros v Hne H; [congruence|].
  rewrite dec_val_app in H. destruct (dec_val 0 s) as [w|] eqn:E; [|discriminate].
  cbn [dec_val] in H. destruct (is_digit c) eqn:Hc; [|discriminate]. injection H as <-.
  pose proof (digit_val_range c Hc) as Hr. rewrite <- (digit_char_val c Hc).
  rewrite (digit_val_char (digit_val c)) by exact Hr.
  destruct s as [|d s].
  - cbn in E. injection E as <-. cbn [app]. apply dd_one. exact Hr.
  - replace (w * 10 + digit_val c) with (10 * w + digit_val c) by lia. apply dd_snoc; [|exact Hr].
    apply IH; [discriminate|first [exact E|reflexivity]].
Qed.
Lemma dec_digits_iff s v : dec_digits s v <-> s <> [] /\ dec_val 0 s = Some v.
Proof.
  split; [intro H; apply dec_digits_val in H; tauto|intros (H1 & H2); apply dec_val_dec_digits; assumption].
Qed.
Lemma dec_digits_head s v : dec_digits s v -> exists c t, s = c :: t /\ Ascii.eqb c "-" = false /\ Ascii.eqb c "+" = false.
Proof.
  intro H. apply dec_digits_iff in H. destruct H as (Hne & Hv).
  destruct s as [|c t]; [congruence|]. exists c, t. split; [reflexivity|].
  eapply digit_str_head; [|reflexivity]. apply (dec_val_digits _ 0). eauto.
Qed.

(** strconv.Atoi / ParseInt(_, 10, 64) accepts exactly the integers in range. *)
Lemma atoi_spec s z : atoi s = OK z <-> integer_text s z /\ min_int64 <= z <= max_int64.
Proof.
  assert (Hdec : forall t w, match t with [] => Err (ENum s) | _ :: _ => match dec_val 0 t with None => Err (ENum s)
           | Some v => if (min_int64 <=? w v) && (w v <=? max_int64) then OK (w v) else Err (ENum s) end end = OK z <->
           exists v, dec_digits t v /\ z = w v /\ min_int64 <= z <= max_int64).
  { intros t w. split.
    - destruct t as [|c t]; [discriminate|]. destruct (dec_val 0 (c :: t)) as [v|] eqn:E; [|discriminate].
      destruct (_ && _) eqn:B; [|discriminate]. intro H. injection H as <-. exists v.
      rewrite dec_digits_iff, E. repeat split; try discriminate; lia.
    - intros (v & Hd & -> & Hr). apply dec_digits_iff in Hd. destruct Hd as (Hne & Hv).
      destruct t as [|c t]; [congruence|]. rewrite Hv. destruct (_ && _) eqn:B; [reflexivity|lia]. }
  unfold atoi. destruct s as [|c t].
  - split; [discriminate|]. intros (H & _). inversion H as [s v Hd| |]; subst. apply dec_digits_iff in Hd. tauto.
  - destruct (Ascii.eqb c "-") eqn:Em.
    { apply Ascii.eqb_eq in Em. subst c. rewrite (Hdec t (fun v => - v)). split.
      - intros (v & Hd & -> & Hr). split; [constructor; exact Hd|exact Hr].
      - intros (H & Hr). inversion H as [s v Hd E1|s v Hd E1|s v Hd E1]; subst; eauto.
        exfalso. apply dec_digits_head in Hd. destruct Hd as (c & u & E & H1 & H2). injection E as <- <-. discriminate. }
    destruct (Ascii.eqb c "+") eqn:Ep.
    { apply Ascii.eqb_eq in Ep. subst c. rewrite (Hdec t (fun v => v)). split.
      - intros (v & Hd & -> & Hr). split; [constructor; exact Hd|exact Hr].
      - intros (H & Hr). inversion H as [s v Hd E1|s v Hd E1|s v Hd E1]; subst; eauto.
        exfalso. apply dec_digits_head in Hd. destruct Hd as (c & u & E & H1 & H2). injection E as <- <-. discriminate. }
    rewrite (Hdec (c :: t) (fun v => v)). split.
    + intros (v & Hd & -> & Hr). split; [constructor; exact Hd|exact Hr].
    + intros (H & Hr). inversion H as [s v Hd E1|s v Hd E1|s v Hd E1]; subst; eauto; discriminate.
Qed.
Lemma atoi_not_panic s : atoi s <> Panic.
Proof.
  unfold atoi. destruct (match s with [] => _ | _ => _ end) as (neg & t). destruct t; [discriminate|].
  destruct (dec_val 0 _); [|discriminate]. destruct (_ && _); discriminate.
Qed.
Lemma atoi_err s : (forall z, ~ (integer_text s z /\ min_int64 <= z <= max_int64)) -> exists e, atoi s = Err e.
Proof.
  intro H. destruct (atoi s) as [z|e|] eqn:E; [|eauto|exfalso; exact (atoi_not_panic s E)].
  exfalso. apply (H z). apply atoi_spec. exact E.
Qed.
Lemma integer_text_inj s a b : integer_text s a -> integer_text s b -> a = b.
Proof.
  assert (F : forall t x y, dec_digits t x -> dec_digits t y -> x = y).
  { intros t x y Hx Hy. apply dec_digits_iff in Hx, Hy. destruct Hx, Hy. congruence. }
  intros Ha Hb. inversion Ha as [s1 v1 H1 E1|s1 v1 H1 E1|s1 v1 H1 E1]; subst;
    inversion Hb as [s2 v2 H2 E2|s2 v2 H2 E2|s2 v2 H2 E2]; subst; eauto;
    try (apply dec_digits_head in H1; destruct H1 as (c & u & E & Hc1 & Hc2); injection E as <- <-; discriminate);
    try (apply dec_digits_head in H2; destruct H2 as (c & u & E & Hc1 & Hc2); injection E as <- <-; discriminate).
  f_equal; eauto.
Qed.

(** strconv.Itoa prints the canonical text. *)
Lemma dec_val_lead0 t v : dec_val 0 ("0"%char :: t) = Some v -> dec_val 0 t = Some v.
Proof. cbn [dec_val]. change (is_digit "0") with true. cbn iota. change (0 * 10 + digit_val "0") with 0. auto. Qed.
Lemma digits_aux_len f : forall n, 0 <= n < 2 ^ Z.of_nat f ->
  n < 10 ^ Z.of_nat (length (digits_aux f n [])) /\ (1 <= n -> 10 ^ (Z.of_nat (length (digits_aux f n [])) - 1) <= n).
Proof.
  induction f as [|f IH]; intros n Hn.
  - cbn in *. lia.
  - cbn [digits_aux]. destruct (n <? 10) eqn:E.
    + cbn [length]. change (Z.of_nat 1) with 1. lia.
    + rewrite digits_aux_acc, app_length. cbn [length].
      assert (Hd : 0 <= n / 10 < 2 ^ Z.of_nat f).
      { split; [lia|]. rewrite Nat2Z.inj_succ, Z.pow_succ_r in Hn by lia. lia. }
      destruct (IH (n / 10) Hd) as (H1 & H2).
      set (L := length (digits_aux f (n / 10) [])) in *.
      replace (Z.of_nat (L + 1)) with (Z.of_nat L + 1) by lia.
      rewrite Z.pow_add_r by lia. change (10 ^ 1) with 10. split; [lia|]. intros _.
      specialize (H2 ltac:(lia)). replace (Z.of_nat L + 1 - 1) with (Z.of_nat L - 1 + 1) by lia.
      assert (1 <= Z.of_nat L).
      { destruct L; [cbn in H1; lia|lia]. }
      rewrite Z.pow_add_r by lia. change (10 ^ 1) with 10. lia.
Qed.
Lemma digits_len n : 0 <= n -> n < 10 ^ Z.of_nat (length (digits n)) /\ (1 <= n -> 10 ^ (Z.of_nat (length (digits n)) - 1) <= n).
Proof.
  intro H. unfold digits. apply digits_aux_len. split; [exact H|].
  destruct (Z.eq_dec n 0) as [->|Hn]; [reflexivity|].
  pose proof (Z.log2_spec n ltac:(lia)). pose proof (Z.log2_nonneg n).
  replace (Z.of_nat (S (Z.to_nat (Z.log2 n)))) with (Z.succ (Z.log2 n)) by lia. lia.
Qed.
Lemma dec_val_bound s : forall acc v, 0 <= acc -> dec_val acc s = Some v -> v < (acc + 1) * 10 ^ Z.of_nat (length s).
Proof.
  induction s as [|c s IH]; intros acc v Ha H; cbn [dec_val length] in *.
  - injection H as <-. change (10 ^ Z.of_nat 0) with 1. lia.
  - destruct (is_digit c) eqn:Hc; [|discriminate]. pose proof (digit_val_range c Hc).
    apply IH in H; [|lia]. rewrite Nat2Z.inj_succ, Z.pow_succ_r by lia.
    pose proof (Z.pow_pos_nonneg 10 (Z.of_nat (length s)) ltac:(lia) ltac:(lia)). nia.
Qed.
Lemma digits_nolead n c t : 0 <= n -> digits n = c :: t -> c = "0"%char -> t = [].
Proof.
  intros Hn E ->. destruct t as [|d t]; [reflexivity|exfalso].
  destruct (digits_ok n Hn) as (_ & _ & Hv). rewrite E in Hv. apply dec_val_lead0 in Hv.
  apply dec_val_bound in Hv; [|lia]. destruct (digits_len n Hn) as (_ & Hl). rewrite E in Hl.
  cbn [length] in Hl, Hv. rewrite !Nat2Z.inj_succ in *.
  destruct (Z.eq_dec n 0) as [->|Hz].
  - revert E. cbv. discriminate.
  - specialize (Hl ltac:(lia)). replace (Z.succ (Z.succ (Z.of_nat (length t))) - 1) with (Z.succ (Z.of_nat (length t))) in Hl by lia. lia.
Qed.
Lemma itoa_canonical z : canonical_text (itoa z) z.
Proof.
  unfold canonical_text, itoa. destruct (z <? 0) eqn:E.
  - right. split; [lia|]. eexists. split; [reflexivity|].
    destruct (digits_ok (- z) ltac:(lia)) as (_ & Hne & Hv). split; [apply dec_digits_iff; auto|].
    destruct (digits (- z)) as [|c t] eqn:Ed; [congruence|]. exists c, t. split; [reflexivity|].
    intros ->. assert (t = []) by (eapply digits_nolead; [|exact Ed|reflexivity]; lia). subst t.
    revert Hv. cbn. intro Hv. injection Hv as Hv. lia.
  - left. split; [lia|]. destruct (digits_ok z ltac:(lia)) as (_ & Hne & Hv). split; [apply dec_digits_iff; auto|].
    destruct (digits z) as [|c t] eqn:Ed; [congruence|]. exists c, t. split; [reflexivity|].
    intro Hc. eapply digits_nolead; [|exact Ed|exact Hc]. lia.
Qed.
