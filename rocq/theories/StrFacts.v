(** Facts about strings, decimal texts and bounded ranges of integers. *)
From Coq Require Import Ascii String ZArith NArith Bool Lia ZifyBool List.
From Verif Require Import GoStr SpecCal.
Import ListNotations.
Open Scope Z_scope.
Ltac Zify.zify_post_hook ::= Z.div_mod_to_equations.

(** ** Finite ranges *)
Fixpoint zrange (lo : Z) (n : nat) : list Z :=
  match n with O => [] | S k => lo :: zrange (lo + 1) k end.
Lemma zrange_in n : forall lo z, lo <= z < lo + Z.of_nat n -> In z (zrange lo n).
Proof.
  induction n as [|n IH]; intros lo z H; [lia|]. cbn [zrange].
  destruct (Z.eq_dec lo z) as [->|Hn]; [left; reflexivity|right; apply IH; lia].
Qed.
Lemma zrange_forall (P : Z -> bool) lo (n : N) : forallb P (zrange lo (N.to_nat n)) = true ->
  forall z, lo <= z < lo + Z.of_N n -> P z = true.
Proof.
  intros H z Hz. rewrite forallb_forall in H. apply H, zrange_in. lia.
Qed.

(** ** Equality *)
Lemma seqb_eq a : forall b, seqb a b = true <-> a = b.
Proof.
  induction a as [|x a IH]; intros [|y b]; cbn [seqb]; try (split; congruence).
  rewrite andb_true_iff, Ascii.eqb_eq, IH. split; [intros (-> & ->); reflexivity|intro H; injection H; auto].
Qed.
Lemma seqb_refl a : seqb a a = true.
Proof. apply seqb_eq. reflexivity. Qed.
Lemma seqb_neq a b : seqb a b = false <-> a <> b.
Proof.
  split; intro H.
  - intros ->. rewrite seqb_refl in H. discriminate.
  - destruct (seqb a b) eqn:E; [apply seqb_eq in E; contradiction|reflexivity].
Qed.
Lemma seqb_sym a b : seqb a b = seqb b a.
Proof.
  destruct (seqb a b) eqn:E.
  - apply seqb_eq in E. subst. symmetry. apply seqb_refl.
  - apply seqb_neq in E. symmetry. apply seqb_neq. congruence.
Qed.

(** ** Characters *)
Lemma code_range c : 0 <= code c < 256.
Proof. unfold code. pose proof (N_ascii_bounded c). lia. Qed.
Lemma code_chr z : 0 <= z < 256 -> code (chr z) = z.
Proof. intro H. unfold code, chr. rewrite N_ascii_embedding; lia. Qed.
Lemma chr_code c : chr (code c) = c.
Proof. unfold code, chr. rewrite N2Z.id. apply ascii_N_embedding. Qed.
Lemma code_inj a b : code a = code b -> a = b.
Proof. intro H. rewrite <- (chr_code a), <- (chr_code b), H. reflexivity. Qed.
Lemma eqb_code a b : Ascii.eqb a b = (code a =? code b).
Proof.
  destruct (Ascii.eqb a b) eqn:E.
  - apply Ascii.eqb_eq in E. subst. symmetry. apply Z.eqb_refl.
  - apply Ascii.eqb_neq in E. symmetry. apply Z.eqb_neq. intro H. apply E, code_inj, H.
Qed.

Lemma digit_char_chr n : 0 <= n <= 9 -> digit_char n = chr (48 + n).
Proof. intro H. unfold digit_char, chr. f_equal. lia. Qed.
Lemma code_digit_char n : 0 <= n <= 9 -> code (digit_char n) = 48 + n.
Proof. intro H. rewrite digit_char_chr by exact H. apply code_chr. lia. Qed.
Lemma is_digit_char n : 0 <= n <= 9 -> is_digit (digit_char n) = true.
Proof. intro H. unfold is_digit. rewrite code_digit_char by exact H. lia. Qed.
Lemma digit_val_char n : 0 <= n <= 9 -> digit_val (digit_char n) = n.
Proof. intro H. unfold digit_val. rewrite code_digit_char by exact H. lia. Qed.
Lemma digit_char_val c : is_digit c = true -> digit_char (digit_val c) = c.
Proof.
  intro H. unfold is_digit, digit_val in *. rewrite digit_char_chr by lia.
  rewrite <- (chr_code c) at 2. f_equal. lia.
Qed.
Lemma digit_val_range c : is_digit c = true -> 0 <= digit_val c <= 9.
Proof. unfold is_digit, digit_val. lia. Qed.

(** ** Decimal numbers *)
Lemma dec_val_two n : 0 <= n <= 99 -> dec_val 0 (two n) = Some n.
Proof.
  intro H. unfold two. cbn [dec_val].
  rewrite !is_digit_char, !digit_val_char by lia. f_equal. lia.
Qed.
Lemma dec_val_four n : 0 <= n <= 9999 -> dec_val 0 (four n) = Some n.
Proof.
  intro H. unfold four. cbn [dec_val].
  rewrite !is_digit_char, !digit_val_char by lia. f_equal. lia.
Qed.

Lemma fmt_four n : 0 <= n <= 9999 -> fmt_0d 4 n = four n.
Proof.
  intro H. apply seqb_eq.
  apply (zrange_forall (fun n => seqb (fmt_0d 4 n) (four n)) 0 10000); [vm_compute; reflexivity|lia].
Qed.
Lemma fmt_two n : 0 <= n <= 99 -> fmt_0d 2 n = two n.
Proof.
  intro H. apply seqb_eq.
  apply (zrange_forall (fun n => seqb (fmt_0d 2 n) (two n)) 0 100); [vm_compute; reflexivity|lia].
Qed.
Lemma itoa_four n : 1000 <= n <= 9999 -> itoa n = four n.
Proof.
  intro H. apply seqb_eq.
  apply (zrange_forall (fun n => seqb (itoa n) (four n)) 1000 9000); [vm_compute; reflexivity|lia].
Qed.
Lemma itoa_two n : 10 <= n <= 99 -> itoa n = two n.
Proof.
  intro H. apply seqb_eq.
  apply (zrange_forall (fun n => seqb (itoa n) (two n)) 10 90); [vm_compute; reflexivity|lia].
Qed.
Lemma append_four n : 0 <= n <= 9999 -> append_int 4 n = four n.
Proof. intro H. rewrite <- fmt_four by exact H. unfold append_int, fmt_0d. destruct (n <? 0) eqn:E; [lia|reflexivity]. Qed.
Lemma append_two n : 0 <= n <= 99 -> append_int 2 n = two n.
Proof. intro H. rewrite <- fmt_two by exact H. unfold append_int, fmt_0d. destruct (n <? 0) eqn:E; [lia|reflexivity]. Qed.
Lemma append_year n : -9999 <= n <= 9999 -> append_int 4 n = year_text n.
Proof.
  intro H. unfold year_text. destruct (n <? 0) eqn:E.
  - rewrite <- append_four by lia. unfold append_int. rewrite E. destruct (- n <? 0) eqn:E2; [lia|reflexivity].
  - apply append_four; lia.
Qed.

(** [digits] in general *)
Lemma digits_aux_acc f : forall n acc, digits_aux f n acc = digits_aux f n [] ++ acc.
Proof.
  induction f as [|f IH]; intros n acc; [reflexivity|]. cbn [digits_aux].
  destruct (n <? 10); [reflexivity|]. rewrite IH, (IH _ [_]). rewrite <- app_assoc. reflexivity.
Qed.
Definition digit_str (s : str) : Prop := Forall (fun c => is_digit c = true) s.
Lemma dec_val_app a : forall acc b, dec_val acc (a ++ b) =
  match dec_val acc a with Some v => dec_val v b | None => None end.
Proof.
  induction a as [|c a IH]; intros acc b; [reflexivity|]. cbn [app dec_val].
  destruct (is_digit c); [apply IH|reflexivity].
Qed.
Lemma chr_digit n : 0 <= n <= 9 -> is_digit (chr (48 + n)) = true /\ digit_val (chr (48 + n)) = n.
Proof.
  intro H. rewrite <- digit_char_chr by exact H. split; [apply is_digit_char|apply digit_val_char]; exact H.
Qed.

Lemma digits_aux_ok f : forall n, 0 <= n < 2 ^ Z.of_nat f ->
  digit_str (digits_aux f n []) /\ (f <> O -> digits_aux f n [] <> []) /\ dec_val 0 (digits_aux f n []) = Some n.
Proof.
  induction f as [|f IH]; intros n Hn.
  - cbn in *. repeat split; [constructor|congruence|f_equal; lia].
  - cbn [digits_aux].
    destruct (chr_digit (n mod 10)) as (Hd & Hv); [lia|].
    destruct (n <? 10) eqn:E.
    + repeat split; [constructor; [exact Hd|constructor]|discriminate|].
      cbn [dec_val]. rewrite Hd, Hv. f_equal. lia.
    + rewrite digits_aux_acc.
      destruct (IH (n / 10)) as (H1 & H2 & H3).
      { rewrite Nat2Z.inj_succ, Z.pow_succ_r in Hn by lia. lia. }
      repeat split.
      * apply Forall_app. split; [exact H1|constructor; [exact Hd|constructor]].
      * intros _ C. apply app_eq_nil in C. destruct C as (_ & C). discriminate.
      * rewrite dec_val_app, H3. cbn [dec_val]. rewrite Hd, Hv. f_equal. lia.
Qed.
Lemma digits_ok n : 0 <= n -> digit_str (digits n) /\ digits n <> [] /\ dec_val 0 (digits n) = Some n.
Proof.
  intro H. unfold digits.
  destruct (digits_aux_ok (S (Z.to_nat (Z.log2 n))) n) as (H1 & H2 & H3).
  - rewrite Nat2Z.inj_succ, Z2Nat.id by apply Z.log2_nonneg.
    destruct (Z.eq_dec n 0) as [->|Hn]; [cbn; lia|]. pose proof (Z.log2_spec n). lia.
  - repeat split; auto.
Qed.

Lemma digit_str_head s c t : digit_str s -> s = c :: t -> Ascii.eqb c "-" = false /\ Ascii.eqb c "+" = false.
Proof.
  intros H ->. inversion H as [|? ? Hc _]; subst. unfold is_digit in Hc. rewrite !eqb_code.
  change (code "-") with 45. change (code "+") with 43. lia.
Qed.

Lemma dec_val_digits s : forall acc, (exists v, dec_val acc s = Some v) <-> digit_str s.
Proof.
  induction s as [|c s IH]; intro acc; cbn [dec_val].
  - split; [constructor|eauto].
  - destruct (is_digit c) eqn:E.
    + rewrite IH. split; [intro; constructor; auto|intro H; inversion H; auto].
    + split; [intros (v & Hv); discriminate|intro H; inversion H; congruence].
Qed.

Lemma dec_val_nonneg s : forall acc v, 0 <= acc -> dec_val acc s = Some v -> 0 <= v.
Proof.
  induction s as [|c s IH]; intros acc v Ha H; cbn [dec_val] in H.
  - injection H as <-. exact Ha.
  - destruct (is_digit c) eqn:E; [|discriminate].
    apply (IH (acc * 10 + digit_val c) v); [unfold is_digit, digit_val in *; lia|exact H].
Qed.

Lemma atoi_digits s : digit_str s -> s <> [] ->
  atoi s = match dec_val 0 s with
           | Some v => if v <=? max_int64 then OK v else Err (ENum s)
           | None => Err (ENum s)
           end.
Proof.
  intros Hs Hn. destruct s as [|c t]; [contradiction|].
  destruct (digit_str_head _ _ _ Hs eq_refl) as (H1 & H2).
  unfold atoi. rewrite H1, H2.
  destruct (dec_val 0 (c :: t)) as [v|] eqn:E; [|reflexivity].
  pose proof (dec_val_nonneg _ _ _ (Z.le_refl 0) E) as Hv. unfold min_int64, max_int64.
  destruct (_ <=? v) eqn:E1; [|lia]. reflexivity.
Qed.
Lemma atoi_neg_digits s : digit_str s -> s <> [] ->
  atoi ("-"%char :: s) = match dec_val 0 s with
           | Some v => if min_int64 <=? - v then OK (- v) else Err (ENum ("-"%char :: s))
           | None => Err (ENum ("-"%char :: s))
           end.
Proof.
  intros Hs Hn. unfold atoi. change (Ascii.eqb "-" "-") with true. cbv iota beta zeta.
  destruct s as [|c t]; [contradiction|].
  destruct (dec_val 0 (c :: t)) as [v|] eqn:E; [|reflexivity].
  pose proof (dec_val_nonneg _ _ _ (Z.le_refl 0) E) as Hv. unfold min_int64, max_int64.
  destruct (-9223372036854775808 <=? - v) eqn:E1; [|reflexivity]. destruct (_ <=? 9223372036854775807) eqn:E2; [reflexivity|lia].
Qed.

Lemma parse_int_ok s z : parse_int s = OK z <-> atoi s = OK z.
Proof. unfold parse_int. destruct (atoi s); split; congruence. Qed.

Lemma digit_str_two n : 0 <= n <= 99 -> digit_str (two n).
Proof. intro H. apply (dec_val_digits _ 0). exists n. apply dec_val_two; exact H. Qed.
Lemma digit_str_four n : 0 <= n <= 9999 -> digit_str (four n).
Proof. intro H. apply (dec_val_digits _ 0). exists n. apply dec_val_four; exact H. Qed.

Lemma atoi_two n : 0 <= n <= 99 -> atoi (two n) = OK n.
Proof.
  intro H. rewrite atoi_digits; [|apply digit_str_two; exact H|discriminate].
  rewrite dec_val_two by exact H. unfold max_int64. destruct (n <=? _) eqn:E; [reflexivity|lia].
Qed.
Lemma atoi_four n : 0 <= n <= 9999 -> atoi (four n) = OK n.
Proof.
  intro H. rewrite atoi_digits; [|apply digit_str_four; exact H|discriminate].
  rewrite dec_val_four by exact H. unfold max_int64. destruct (n <=? _) eqn:E; [reflexivity|lia].
Qed.
Lemma atoi_year y : -9999 <= y <= 9999 -> atoi (year_text y) = OK y.
Proof.
  intro H. unfold year_text. destruct (y <? 0) eqn:E; [|apply atoi_four; lia].
  rewrite atoi_neg_digits; [|apply digit_str_four; lia|discriminate].
  rewrite dec_val_four by lia. unfold min_int64. destruct (_ <=? - - y) eqn:E2; [f_equal; lia|lia].
Qed.

(** Itoa and Atoi are inverse on 64 bit integers. *)
Lemma atoi_itoa n : min_int64 <= n <= max_int64 -> atoi (itoa n) = OK n.
Proof.
  unfold min_int64, max_int64. intro H. unfold itoa. destruct (n <? 0) eqn:E.
  - destruct (digits_ok (- n)) as (H1 & H2 & H3); [lia|].
    rewrite atoi_neg_digits, H3 by assumption. unfold min_int64.
    destruct (_ <=? - - n) eqn:E2; [f_equal; lia|lia].
  - destruct (digits_ok n) as (H1 & H2 & H3); [lia|].
    rewrite atoi_digits, H3 by assumption. unfold max_int64.
    destruct (n <=? _) eqn:E2; [reflexivity|lia].
Qed.

Lemma year_text_inj a b : -9999 <= a <= 9999 -> -9999 <= b <= 9999 -> year_text a = year_text b -> a = b.
Proof.
  intros Ha Hb H. pose proof (atoi_year a Ha) as H1. pose proof (atoi_year b Hb) as H2. congruence.
Qed.

(** Texts of four, two digits: every digit string of that length is one. *)
Lemma four_of a b c d : is_digit a = true -> is_digit b = true -> is_digit c = true -> is_digit d = true ->
  exists n, 0 <= n <= 9999 /\ [a; b; c; d] = four n.
Proof.
  intros Ha Hb Hc Hd. exists (digit_val a * 1000 + digit_val b * 100 + digit_val c * 10 + digit_val d).
  pose proof (digit_val_range a Ha). pose proof (digit_val_range b Hb).
  pose proof (digit_val_range c Hc). pose proof (digit_val_range d Hd).
  split; [lia|]. unfold four.
  rewrite <- (digit_char_val a), <- (digit_char_val b), <- (digit_char_val c), <- (digit_char_val d) at 1 by assumption.
  repeat (f_equal; try lia).
Qed.
Lemma two_of a b : is_digit a = true -> is_digit b = true ->
  exists n, 0 <= n <= 99 /\ [a; b] = two n.
Proof.
  intros Ha Hb. exists (digit_val a * 10 + digit_val b).
  pose proof (digit_val_range a Ha). pose proof (digit_val_range b Hb).
  split; [lia|]. unfold two.
  rewrite <- (digit_char_val a), <- (digit_char_val b) at 1 by assumption.
  repeat (f_equal; try lia).
Qed.

(** ** strings.Split for a one-byte separator *)
Lemma has_prefix_nil s : has_prefix s [] = true.
Proof. destruct s; reflexivity. Qed.
Lemma split1_nosep c s : forall cur, ~ In c s -> split_aux [c] s cur 0 = [rev cur ++ s].
Proof.
  induction s as [|d s IH]; intros cur H; cbn [split_aux].
  - rewrite app_nil_r. reflexivity.
  - cbn [has_prefix]. destruct (Ascii.eqb c d) eqn:E.
    + apply Ascii.eqb_eq in E. exfalso. apply H. left. auto.
    + cbn [andb]. rewrite IH by (intro Hin; apply H; right; exact Hin).
      cbn [rev]. rewrite <- app_assoc. reflexivity.
Qed.
Lemma split1_sep c a b : forall cur, ~ In c a ->
  split_aux [c] (a ++ c :: b) cur 0 = (rev cur ++ a) :: split_aux [c] b [] 0.
Proof.
  induction a as [|d a IH]; intros cur H; cbn [app split_aux has_prefix].
  - rewrite Ascii.eqb_refl, has_prefix_nil. cbn [andb length pred]. rewrite app_nil_r. reflexivity.
  - destruct (Ascii.eqb c d) eqn:E.
    + apply Ascii.eqb_eq in E. exfalso. apply H. left. auto.
    + cbn [andb]. rewrite IH by (intro Hin; apply H; right; exact Hin).
      cbn [rev]. rewrite <- app_assoc. reflexivity.
Qed.
Lemma split_none c s : ~ In c s -> split s [c] = [s].
Proof. intro H. unfold split. rewrite split1_nosep by exact H. reflexivity. Qed.
Lemma split_one c a b : ~ In c a -> split (a ++ c :: b) [c] = a :: split b [c].
Proof. intro H. unfold split. rewrite split1_sep by exact H. reflexivity. Qed.

(** Every string is its pieces joined by the separator, and no piece contains it. *)
Lemma in_split_first (c : ascii) (s : str) : In c s -> exists a b, s = a ++ c :: b /\ ~ In c a.
Proof.
  induction s as [|d s IH]; intro H; [destruct H|].
  destruct (Ascii.eqb c d) eqn:E.
  - apply Ascii.eqb_eq in E. subst d. exists [], s. split; [reflexivity|intros []].
  - apply Ascii.eqb_neq in E. destruct H as [H|H]; [congruence|].
    destruct (IH H) as (a & b & -> & Ha). exists (d :: a), b. split; [reflexivity|].
    intros [C|C]; [congruence|contradiction].
Qed.
Lemma split_nonempty c s : split s [c] <> [].
Proof.
  destruct (in_dec ascii_dec c s) as [Hin|Hn].
  - destruct (in_split_first c s Hin) as (a & b & -> & Ha). rewrite split_one by exact Ha. discriminate.
  - rewrite split_none by exact Hn. discriminate.
Qed.
Lemma split_inv1 c s x : split s [c] = [x] -> x = s /\ ~ In c s.
Proof.
  intro H. destruct (in_dec ascii_dec c s) as [Hin|Hn].
  - destruct (in_split_first c s Hin) as (a & b & -> & Ha). rewrite split_one in H by exact Ha.
    injection H as _ H. exfalso. exact (split_nonempty c b H).
  - rewrite split_none in H by exact Hn. injection H as <-. auto.
Qed.
Lemma split_inv_cons c s x y l : split s [c] = x :: y :: l ->
  exists b, s = x ++ c :: b /\ ~ In c x /\ split b [c] = y :: l.
Proof.
  intro H. destruct (in_dec ascii_dec c s) as [Hin|Hn].
  - destruct (in_split_first c s Hin) as (a & b & -> & Ha). rewrite split_one in H by exact Ha.
    injection H as -> H. exists b. auto.
  - rewrite split_none in H by exact Hn. discriminate.
Qed.
Lemma split_inv2 c s x y : split s [c] = [x; y] -> s = x ++ c :: y /\ ~ In c x /\ ~ In c y.
Proof.
  intro H. apply split_inv_cons in H. destruct H as (b & -> & Hx & H).
  apply split_inv1 in H. destruct H as (-> & Hy). auto.
Qed.
Lemma split_two c a b : ~ In c a -> ~ In c b -> split (a ++ c :: b) [c] = [a; b].
Proof. intros Ha Hb. rewrite split_one, split_none by assumption. reflexivity. Qed.

Lemma two_nodash n c : 0 <= n <= 99 -> is_digit c = false -> ~ In c (two n).
Proof.
  intros H Hc Hin. pose proof (digit_str_two n H) as Hd. unfold digit_str in Hd. rewrite Forall_forall in Hd.
  specialize (Hd c Hin). congruence.
Qed.
Lemma four_nodash n c : 0 <= n <= 9999 -> is_digit c = false -> ~ In c (four n).
Proof.
  intros H Hc Hin. pose proof (digit_str_four n H) as Hd. unfold digit_str in Hd. rewrite Forall_forall in Hd.
  specialize (Hd c Hin). congruence.
Qed.

Lemma wrap64_id z : min_int64 <= z <= max_int64 -> wrap64 z = z.
Proof. unfold wrap64, min_int64, max_int64, two63, two64. lia. Qed.
