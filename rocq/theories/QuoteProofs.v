(** Lemmas on texts in quotes (C79). *)
From Coq Require Import Ascii String ZArith NArith Bool Lia ZifyBool List.
From Verif Require Import GoStr SpecText SpecJsonText SpecUnmarshal SpecQuote StrFacts TextFacts JsonText JsonDoc JsonReadProofs DocProofs Quote.
Import ListNotations.
Open Scope Z_scope.
Ltac Zify.zify_post_hook ::= Z.div_mod_to_equations.

(** ** Digits *)
Lemma low_digit_hex z : 0 <= z < 16 -> small_hex (low_digit z) z.
Proof.
  intro H. unfold low_digit. destruct (z <? 10) eqn:E.
  - replace z with (code (chr (48 + z)) - 48) at 2 by (rewrite code_chr by lia; lia). apply sh_digit. rewrite code_chr by lia. lia.
  - replace z with (code (chr (87 + z)) - 87) at 2 by (rewrite code_chr by lia; lia). apply sh_letter. rewrite code_chr by lia. lia.
Qed.
Lemma hex_low c d : small_hex c d -> 0 <= d < 16 /\ c = low_digit d.
Proof.
  intros [H|H]; (split; [lia|]); unfold low_digit.
  - replace (code c - 48 <? 10) with true by lia. replace (48 + (code c - 48)) with (code c) by lia. symmetry. apply chr_code.
  - replace (code c - 87 <? 10) with false by lia. replace (87 + (code c - 87)) with (code c) by lia. symmetry. apply chr_code.
Qed.
Lemma low_digits_length k : forall z, length (low_digits k z) = k.
Proof. induction k as [|k IH]; intro z; [reflexivity|]. cbn [low_digits]. rewrite app_length, IH. cbn. lia. Qed.
Lemma low_digits_hex k : forall z, 0 <= z < 16 ^ Z.of_nat k -> hex_text (low_digits k z) z.
Proof.
  induction k as [|k IH]; intros z H.
  - cbn in H. replace z with 0 by lia. constructor.
  - cbn [low_digits]. rewrite Nat2Z.inj_succ, Z.pow_succ_r in H by lia. replace z with (z / 16 * 16 + z mod 16) at 3 by lia. constructor; [apply IH; lia|apply low_digit_hex; lia].
Qed.
Lemma hex_low_digits t z : hex_text t z -> 0 <= z /\ t = low_digits (length t) z.
Proof.
  intro H. induction H as [|t z c d _ (Z0 & IH) D]; [split; [lia|reflexivity]|]. apply hex_low in D. destruct D as (D & ->). split; [lia|].
  rewrite app_length. cbn [length]. replace (length t + 1)%nat with (S (length t)) by lia. cbn [low_digits]. replace ((z * 16 + d) / 16) with z by lia. replace ((z * 16 + d) mod 16) with d by lia. rewrite <- IH. reflexivity.
Qed.
Lemma hex_unique k t z : hex_text t z -> length t = k -> t = low_digits k z.
Proof. intros H <-. apply hex_low_digits. exact H. Qed.
Lemma hex_value t z : hex_text t z -> forall z', hex_text t z' -> z = z'.
Proof.
  intro H. induction H as [|t z c d _ IH D]; intros z' H'.
  - remember (@nil ascii) as w eqn:W. destruct H' as [|t' y c' d' _ _]; [reflexivity|]. destruct t'; discriminate W.
  - remember (t ++ [c]) as w eqn:E. destruct H' as [|t' y c' d' H2 D2]; [destruct t; discriminate E|]. apply app_inj_tail in E. destruct E as (-> & ->). rewrite (IH _ H2). f_equal.
    destruct D, D2; lia.
Qed.

(** ** One character *)
Lemma lettered_dec z : (exists c, lettered z c) \/ forall c, ~ lettered z c.
Proof.
  destruct (in_dec Z.eq_dec z [7; 8; 12; 10; 13; 9; 11]) as [I|I]; [left; cbn in I; decompose [or] I; try contradiction; subst; eexists; constructor|right].
  intros c H. apply I. destruct H; cbn; tauto.
Qed.
Lemma utf8_range z x : utf8 z x -> 0 <= z /\ (z < 128 -> x = [chr z]).
Proof. intros [r H|a b Ha Hb|a b c Ha Hb Hc H|a b c d Ha Hb Hc Hd H]; (split; [lia|]); intro; try lia. reflexivity. Qed.
Lemma escaped_rune_ok print z x : utf8 z x -> z <= 1114111 -> quoted_char print z x (escaped_rune print z x).
Proof.
  intros U M. destruct (utf8_range _ _ U) as (Z0 & X). unfold escaped_rune.
  destruct ((z =? 34) || (z =? 92)) eqn:E0; [rewrite <- X by lia; apply qc_mark; lia|].
  destruct (print z) eqn:P; [apply qc_shown; [lia|lia|exact P]|].
  destruct (z =? 7) eqn:E7; [apply qc_letter; [exact P|replace z with 7 by lia; constructor]|].
  destruct (z =? 8) eqn:E8; [apply qc_letter; [exact P|replace z with 8 by lia; constructor]|].
  destruct (z =? 12) eqn:E12; [apply qc_letter; [exact P|replace z with 12 by lia; constructor]|].
  destruct (z =? 10) eqn:E10; [apply qc_letter; [exact P|replace z with 10 by lia; constructor]|].
  destruct (z =? 13) eqn:E13; [apply qc_letter; [exact P|replace z with 13 by lia; constructor]|].
  destruct (z =? 9) eqn:E9; [apply qc_letter; [exact P|replace z with 9 by lia; constructor]|].
  destruct (z =? 11) eqn:E11; [apply qc_letter; [exact P|replace z with 11 by lia; constructor]|].
  destruct ((z <? 32) || (z =? 127)) eqn:E1; [|destruct (z <? 65536) eqn:E2].
  - apply qc_control; [exact P|lia|intros c L; destruct L; discriminate|apply low_digits_length|apply low_digits_hex; cbn; lia].
  - apply qc_short; [exact P|lia|lia|lia|lia|apply low_digits_length|apply low_digits_hex; cbn; lia].
  - apply qc_long; [exact P|lia|apply low_digits_length|apply low_digits_hex; cbn; lia].
Qed.
Lemma escaped_rune_only print z x t : utf8 z x -> quoted_char print z x t -> escaped_rune print z x = t.
Proof.
  intros U Q. destruct (utf8_range _ _ U) as (Z0 & X). unfold escaped_rune. destruct Q as [[->| ->]|A B P|c P L|h P C L N H|h P A B C D N H|h P C N H].
  - rewrite X by lia. reflexivity.
  - rewrite X by lia. reflexivity.
  - replace ((z =? 34) || (z =? 92)) with false by lia. rewrite P. reflexivity.
  - destruct L; rewrite P; reflexivity.
  - replace ((z =? 34) || (z =? 92)) with false by lia. rewrite P.
    assert (K : forall k c, lettered k c -> (z =? k) = false) by (intros k c K; apply Z.eqb_neq; intros ->; exact (L c K)).
    rewrite (K 7 "a"%char), (K 8 "b"%char), (K 12 "f"%char), (K 10 "n"%char), (K 13 "r"%char), (K 9 "t"%char), (K 11 "v"%char) by constructor.
    replace ((z <? 32) || (z =? 127)) with true by lia. rewrite (hex_unique 2 h z H N). reflexivity.
  - replace ((z =? 34) || (z =? 92)) with false by lia. rewrite P.
    replace (z =? 7) with false by lia. replace (z =? 8) with false by lia. replace (z =? 12) with false by lia. replace (z =? 10) with false by lia. replace (z =? 13) with false by lia. replace (z =? 9) with false by lia. replace (z =? 11) with false by lia.
    replace ((z <? 32) || (z =? 127)) with false by lia. replace (z <? 65536) with true by lia. rewrite (hex_unique 4 h z H N). reflexivity.
  - replace ((z =? 34) || (z =? 92)) with false by lia. rewrite P.
    replace (z =? 7) with false by lia. replace (z =? 8) with false by lia. replace (z =? 12) with false by lia. replace (z =? 10) with false by lia. replace (z =? 13) with false by lia. replace (z =? 9) with false by lia. replace (z =? 11) with false by lia.
    replace ((z <? 32) || (z =? 127)) with false by lia. replace (z <? 65536) with false by lia. rewrite (hex_unique 8 h z H N). reflexivity.
Qed.

(** ** Texts *)
Definition rune_value (x : str) : Z :=
  match x with
  | [a; b] => (code a - 192) * 64 + (code b - 128)
  | [a; b; c] => ((code a - 224) * 64 + (code b - 128)) * 64 + (code c - 128)
  | [a; b; c; d] => (((code a - 240) * 64 + (code b - 128)) * 64 + (code c - 128)) * 64 + (code d - 128)
  | a :: _ => code a
  | [] => 0
  end.
Lemma value_utf8 z x : utf8 z x -> rune_value x = z.
Proof. intros [r H|a b Ha Hb|a b c Ha Hb Hc H|a b c d Ha Hb Hc Hd H]; cbn [rune_value]; rewrite !code_chr by lia; lia. Qed.
Lemma loop_step print s : quoted_loop print s = match rune_at s with
  | Some (x, r) => escaped_rune print (rune_value x) x ++ quoted_loop print r
  | None => match s with [] => [] | a :: t => wrong_byte a ++ quoted_loop print t end
  end.
Proof.
  destruct s as [|a t]; [reflexivity|]. cbn [quoted_loop rune_at]. destruct (code a <? 128); [reflexivity|]. destruct t as [|b t2]; [reflexivity|].
  destruct (two_bytes a b); [reflexivity|]. destruct t2 as [|c t3]; [reflexivity|]. destruct (three_bytes a b c); [reflexivity|]. destruct t3 as [|d t4]; [reflexivity|].
  destruct (four_bytes a b c d); reflexivity.
Qed.
Lemma loop_ok print n : forall s, (length s <= n)%nat -> quoted_text print s (quoted_loop print s).
Proof.
  induction n as [|n IH]; intros s L.
  - destruct s; [constructor|cbn [length] in L; lia].
  - rewrite loop_step. destruct (rune_at s) as [[x r]|] eqn:E.
    + apply rune_char in E. destruct E as (C & ->). pose proof (char_nonempty x C) as N. destruct C as (z & U & S & M). rewrite (value_utf8 _ _ U). apply (qt_char print z x r); try assumption; [apply escaped_rune_ok; assumption|].
      apply IH. destruct x; [congruence|]. rewrite app_length in L. cbn [length] in L. lia.
    + destruct s as [|c t]; [constructor|]. cbn [length] in L. unfold wrong_byte. rewrite <- app_assoc. pose proof (code_range c). apply qt_byte; [|apply low_digits_length|apply low_digits_hex; cbn; lia|apply IH; lia].
      intros x u C Eq. rewrite Eq, (char_rune x u C) in E. discriminate.
Qed.
Lemma loop_only print s t : quoted_text print s t -> quoted_loop print s = t.
Proof.
  intro H. induction H as [|z x s t u U S M Q _ IH|c s h u N L H _ IH]; [reflexivity| |].
  - rewrite loop_step, (char_rune x s) by (exists z; auto). rewrite (value_utf8 _ _ U), (escaped_rune_only _ _ _ _ U Q), IH. reflexivity.
  - rewrite loop_step. destruct (rune_at (c :: s)) as [[x r]|] eqn:E; [apply rune_char in E; destruct E as (C & E); destruct (N x r C E)|].
    rewrite IH. unfold wrong_byte. rewrite (hex_unique 2 h _ H L), <- app_assoc. reflexivity.
Qed.
Lemma loop_iff print s t : quoted_loop print s = t <-> quoted_text print s t.
Proof. split; [|apply loop_only]. intros <-. apply (loop_ok print (length s)). lia. Qed.

(** ** Texts can be told *)
Inductive item : str -> str -> Prop :=
| it_raw x : character x -> (forall u, x <> "\"%char :: u) -> item x x
| it_mark c : code c = 34 \/ code c = 92 -> item [c] ["\"%char; c]
| it_letter c e : lettered (code c) e -> item [c] ["\"%char; e]
| it_byte c h : length h = 2%nat -> hex_text h (code c) -> item [c] ("\"%char :: "x"%char :: h)
| it_short x z h : utf8 z x -> length h = 4%nat -> hex_text h z -> item x ("\"%char :: "u"%char :: h)
| it_long x z h : utf8 z x -> length h = 8%nat -> hex_text h z -> item x ("\"%char :: "U"%char :: h).
Lemma char_item print z x t : utf8 z x -> ~ 55296 <= z <= 57343 -> z <= 1114111 -> quoted_char print z x t -> item x t.
Proof.
  intros U S M Q. destruct (utf8_range _ _ U) as (Z0 & X). destruct Q as [A|A B P|c P L|h P C L N H|h P A B C D N H|h P C N H].
  - rewrite X by lia. apply it_mark. rewrite code_chr by lia. exact A.
  - apply it_raw; [exists z; auto|]. intros u E. clear X. destruct U as [r R|a b Ha Hb|a b c Ha Hb Hc H|a b c d Ha Hb Hc Hd H];
      apply (f_equal (fun s => code (hd "0"%char s))) in E; cbn [hd] in E; change (code "\") with 92 in E.
    + rewrite (code_chr r) in E by lia. lia.
    + rewrite (code_chr (192 + a)) in E by lia. lia.
    + rewrite (code_chr (224 + a)) in E by lia. lia.
    + rewrite (code_chr (240 + a)) in E by lia. lia.
  - assert (R : 0 <= z < 32) by (destruct L; lia). rewrite X by lia. apply it_letter. rewrite code_chr by lia. exact L.
  - rewrite X by lia. apply it_byte; [exact N|]. rewrite code_chr by lia. exact H.
  - exact (it_short x z h U N H).
  - exact (it_long x z h U N H).
Qed.
Lemma app_same {A} (a b c d : list A) : length a = length b -> a ++ c = b ++ d -> a = b /\ c = d.
Proof.
  revert b. induction a as [|x a IH]; intros [|y b] L E; try discriminate L; [auto|]. cbn [app length] in *. injection L as L. injection E as -> E. destruct (IH b L E) as (-> & ->). auto.
Qed.
Lemma letter_once a b e : lettered a e -> lettered b e -> a = b.
Proof. intros A B. destruct A; inversion B; reflexivity. Qed.
Lemma item_once x t : item x t -> forall x' t' u u', item x' t' -> t ++ u = t' ++ u' -> x = x' /\ u = u'.
Proof.
  intros H x' t' u u' H' E.
  destruct H as [x C N|c A|c e L|c h K H|x z h U K H|x z h U K H]; destruct H' as [x' C' N'|c' A'|c' e' L'|c' h' K' H'|x' z' h' U' K' H'|x' z' h' U' K' H']; cbn [app] in E;
    try (exfalso; pose proof (char_nonempty _ C) as Z; destruct x as [|c0 x0]; [congruence|]; cbn [app] in E; injection E as -> _; exact (N x0 eq_refl));
    try (exfalso; pose proof (char_nonempty _ C') as Z; destruct x' as [|c0 x0]; [congruence|]; cbn [app] in E; injection E as <- _; exact (N' x0 eq_refl));
    try discriminate E.
  - pose proof (char_rune x u C) as R. rewrite E, (char_rune x' u' C') in R. injection R as <- <-. auto.
  - injection E as <- <-. auto.
  - exfalso. injection E as -> <-. destruct A as [A|A]; inversion L' as [P Q|P Q|P Q|P Q|P Q|P Q|P Q]; subst e'; discriminate A.
  - exfalso. injection E as -> _. destruct A as [A|A]; discriminate A.
  - exfalso. injection E as -> _. destruct A as [A|A]; discriminate A.
  - exfalso. injection E as -> _. destruct A as [A|A]; discriminate A.
  - exfalso. injection E as <- <-. destruct A' as [A'|A']; inversion L as [P Q|P Q|P Q|P Q|P Q|P Q|P Q]; subst e; discriminate A'.
  - injection E as <- <-. rewrite (code_inj c c'); [auto|]. exact (letter_once _ _ _ L L').
  - exfalso. injection E as -> _. inversion L.
  - exfalso. injection E as -> _. inversion L.
  - exfalso. injection E as -> _. inversion L.
  - exfalso. injection E as <- _. destruct A' as [A'|A']; discriminate A'.
  - exfalso. injection E as <- _. inversion L'.
  - injection E as E. apply app_same in E; [|congruence]. destruct E as (<- & <-). rewrite (code_inj c c' (hex_value _ _ H _ H')). auto.
  - exfalso. injection E as <- _. destruct A' as [A'|A']; discriminate A'.
  - exfalso. injection E as <- _. inversion L'.
  - injection E as E. apply app_same in E; [|congruence]. destruct E as (<- & <-). rewrite (utf8_encode _ _ U), (utf8_encode _ _ U'), (hex_value _ _ H _ H'). auto.
  - exfalso. injection E as <- _. destruct A' as [A'|A']; discriminate A'.
  - exfalso. injection E as <- _. inversion L'.
  - injection E as E. apply app_same in E; [|congruence]. destruct E as (<- & <-). rewrite (utf8_encode _ _ U), (utf8_encode _ _ U'), (hex_value _ _ H _ H'). auto.
Qed.
Lemma item_some x t : item x t -> t <> [].
Proof. intros [x' C _|c A|c e L|c h K H|x' z h U K H|x' z h U K H]; try discriminate. exact (char_nonempty _ C). Qed.
Lemma text_items print s t : quoted_text print s t -> s = [] /\ t = [] \/ exists x y s' t', item x y /\ s = x ++ s' /\ t = y ++ t' /\ quoted_text print s' t'.
Proof.
  intros [|z x s' y t' U S M Q R|c s' h u N L H R]; [auto| |]; right.
  - exists x, y, s', t'. split; [exact (char_item print z x y U S M Q)|auto].
  - exists [c], ("\"%char :: "x"%char :: h), s', u. split; [apply it_byte; assumption|auto].
Qed.
Lemma text_told print n : forall s s' t, (length t <= n)%nat -> quoted_text print s t -> quoted_text print s' t -> s = s'.
Proof.
  induction n as [|n IH]; intros s s' t L Q Q'; destruct (text_items _ _ _ Q) as [(-> & ->)|(x & y & r & u & I & -> & -> & R)].
  - destruct (text_items _ _ _ Q') as [(-> & _)|(x' & y' & r' & u' & I' & _ & E & _)]; [reflexivity|]. destruct y'; [destruct (item_some _ _ I' eq_refl)|discriminate E].
  - destruct y; [destruct (item_some _ _ I eq_refl)|cbn in L; lia].
  - destruct (text_items _ _ _ Q') as [(-> & _)|(x' & y' & r' & u' & I' & _ & E & _)]; [reflexivity|]. destruct y'; [destruct (item_some _ _ I' eq_refl)|discriminate E].
  - destruct (text_items _ _ _ Q') as [(_ & E)|(x' & y' & r' & u' & I' & -> & E & R')]; [destruct y; [destruct (item_some _ _ I eq_refl)|discriminate E]|].
    destruct (item_once _ _ I _ _ _ _ I' E) as (-> & <-). f_equal. apply (IH r r' u); [|exact R|exact R']. destruct y; [destruct (item_some _ _ I eq_refl)|]. cbn [app length] in L. rewrite app_length in L. lia.
Qed.
Lemma quote_told print s s' : go_quote print s = go_quote print s' -> s = s'.
Proof.
  unfold go_quote. intro E. cbn [app] in E. injection E as E. apply app_inj_tail in E. destruct E as (E & _).
  apply (text_told print (length (quoted_loop print s)) s s' (quoted_loop print s) (le_n _)); [apply loop_iff; reflexivity|apply loop_iff; symmetry; exact E].
Qed.
(** Texts of ASCII without escapes. *)
Lemma loop_plain print s : (forall z, 32 <= z <= 126 -> print z = true) -> (forall c, In c s -> 32 <= code c <= 126 /\ c <> """"%char /\ c <> "\"%char) -> quoted_loop print s = s.
Proof.
  intro P. induction s as [|c s IH]; intro H; [reflexivity|]. destruct (H c (or_introl eq_refl)) as (R & A & B). cbn [quoted_loop]. replace (code c <? 128) with true by lia.
  rewrite IH by (intros d I; apply H; right; exact I). unfold escaped_rune.
  assert (A' : code c <> 34) by (intro E; apply A; apply code_inj; exact E). assert (B' : code c <> 92) by (intro E; apply B; apply code_inj; exact E).
  replace ((code c =? 34) || (code c =? 92)) with false by lia. rewrite P by lia. reflexivity.
Qed.
