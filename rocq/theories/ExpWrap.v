(** Exponential notations of any size. *)
From Coq Require Import Ascii String ZArith NArith Bool Lia ZifyBool List.
From Verif Require Import GoStr GoBig SpecText SpecForms SpecWrap StrFacts TextFacts Edtf Common CalFacts ApiFacts GrammarFacts SigProofs ExpProofs.
Import ListNotations.
Open Scope Z_scope.

Lemma pow_split a b : 0 <= a -> 0 <= b -> 2 ^ (a + b) = 2 ^ a * 2 ^ b.
Proof. intros. apply Z.pow_add_r; assumption. Qed.
Lemma pow_pos k : 0 <= k -> 0 < 2 ^ k.
Proof. intro. apply Z.pow_pos_nonneg; lia. Qed.
Lemma bitlen_bounds m : 0 < m -> 0 < bitlen m /\ 2 ^ (bitlen m - 1) <= m < 2 ^ bitlen m.
Proof.
  intro H. unfold bitlen. replace (m =? 0) with false by lia. pose proof (Z.log2_nonneg m). split; [lia|].
  replace (Z.log2 m + 1 - 1) with (Z.log2 m) by lia. apply Z.log2_spec. exact H.
Qed.
Lemma bitlen_mono a b : 0 <= a -> a <= b -> bitlen a <= bitlen b.
Proof.
  intros Ha Hb. apply bitlen_le; [exact Ha|apply bitlen_nonneg|]. destruct (Z.eq_dec b 0) as [->|N]; [assert (a = 0) by lia; subst; reflexivity|].
  pose proof (bitlen_bounds b ltac:(lia)). lia.
Qed.

(** ** The powers of five *)
Definition exact5 (e : Z) : bool := match bf_pow5 e with Some (m, k) => (m =? 5 ^ e) && (k =? 0) | None => false end.
Definition long5 (e : Z) : bool := match bf_pow5 e with Some (m, k) => (0 <? m) && (0 <=? k) && (130 <=? bitlen m + k + e) && (bitlen m + k <=? 200) | None => false end.
Lemma pow5_exact e : 0 <= e <= 38 -> bf_pow5 e = Some (5 ^ e, 0).
Proof.
  intro H. assert (Q : exact5 e = true) by (apply (zrange_forall exact5 0 39); [vm_compute; reflexivity|lia]).
  unfold exact5 in Q. destruct (bf_pow5 e) as [(m & k)|]; [|discriminate]. apply andb_true_iff in Q. destruct Q as (Q1 & Q2).
  apply Z.eqb_eq in Q1, Q2. subst. reflexivity.
Qed.
Lemma pow5_long e : 39 <= e <= 63 -> exists m k, bf_pow5 e = Some (m, k) /\ 0 < m /\ 0 <= k /\ 130 <= bitlen m + k + e /\ bitlen m + k <= 200.
Proof.
  intro H. assert (Q : long5 e = true) by (apply (zrange_forall long5 39 25); [vm_compute; reflexivity|lia]).
  unfold long5 in Q. destruct (bf_pow5 e) as [(m & k)|]; [|discriminate]. exists m, k. split; [reflexivity|]. lia.
Qed.

(** ** Rounding *)
Lemma round_kept M e : 0 < M -> 0 <= e -> exists m' e', bf_round 64 M e = (m', e') /\ 0 < m' /\ 0 <= e' /\ bitlen m' + e' <= bitlen M + e + 1 /\ kept64 (M * 2 ^ e) (m' * 2 ^ e').
Proof.
  intros HM He. pose proof (bf_round_bound 64 M e ltac:(lia) HM) as B. destruct (bitlen_bounds M HM) as (L0 & L1 & L2). pose proof (pow_pos e He) as P2.
  assert (V1 : 2 ^ (bitlen M - 1 + e) <= M * 2 ^ e) by (rewrite pow_split by lia; nia).
  assert (V2 : M * 2 ^ e < 2 ^ (bitlen M + e)) by (rewrite pow_split by lia; nia).
  unfold bf_round in *. destruct (bitlen M - 64 <=? 0) eqn:E.
  - exists M, e. split; [reflexivity|]. split; [exact HM|]. split; [exact He|]. split; [lia|].
    destruct (Z.leb_spec (bitlen M + e) 64) as [Q|Q].
    + apply k64_exact. apply (Z.lt_le_trans _ _ _ V2). apply Z.pow_le_mono_r; lia.
    + set (k := bitlen M + e - 64). assert (X : M * 2 ^ e = M * 2 ^ (e - k) * 2 ^ k) by (rewrite <- Z.mul_assoc, <- pow_split by (unfold k; lia); f_equal; f_equal; lia).
      rewrite X. apply k64_round; [unfold k; lia| | |].
      * rewrite <- X. unfold k. replace (63 + (bitlen M + e - 64)) with (bitlen M - 1 + e) by lia. replace (64 + (bitlen M + e - 64)) with (bitlen M + e) by lia. lia.
      * rewrite Z.sub_diag. pose proof (pow_pos k ltac:(unfold k; lia)). cbn. lia.
      * rewrite Z.sub_diag. pose proof (pow_pos k ltac:(unfold k; lia)). cbn. lia.
  - set (sh := bitlen M - 64) in *. assert (S0 : 0 < sh) by lia. pose proof (pow_pos sh ltac:(lia)) as Ps. pose proof (pow_pos (sh - 1) ltac:(lia)) as Ph.
    assert (Hh : 2 ^ sh = 2 * 2 ^ (sh - 1)) by (replace sh with (1 + (sh - 1)) at 1 by lia; rewrite pow_split by lia; reflexivity).
    pose proof (Z.div_mod M (2 ^ sh) ltac:(lia)) as DM. pose proof (Z.mod_pos_bound M (2 ^ sh) Ps) as MB.
    set (q := M / 2 ^ sh) in *. set (r := M mod 2 ^ sh) in *. set (h := 2 ^ (sh - 1)) in *.
    set (q' := if (h <? r) || ((r =? h) && Z.odd q) then q + 1 else q) in *.
    cbn [fst snd] in B. exists q', (e + sh). split; [reflexivity|]. split; [lia|]. split; [lia|]. split; [lia|].
    assert (Near : 2 * Z.abs (M - q' * 2 ^ sh) <= 2 ^ sh /\ (2 * Z.abs (M - q' * 2 ^ sh) = 2 ^ sh -> Z.even q' = true)).
    { unfold q'. destruct ((h <? r) || ((r =? h) && Z.odd q)) eqn:C.
      - replace (M - (q + 1) * 2 ^ sh) with (r - 2 ^ sh) by lia. split; [lia|]. intro T. assert (r = h) by lia.
        rewrite Z.even_add. apply orb_true_iff in C. destruct C as [C|C]; [lia|]. apply andb_true_iff in C. destruct C as (_ & C). rewrite <- Z.negb_odd, C. reflexivity.
      - replace (M - q * 2 ^ sh) with r by lia. apply orb_false_iff in C. destruct C as (C1 & C2). split; [lia|]. intro T. assert (Er : r = h) by lia.
        rewrite Er, Z.eqb_refl in C2. cbn [andb] in C2. rewrite <- Z.negb_odd, C2. reflexivity. }
    assert (X : M * 2 ^ e - q' * 2 ^ (e + sh) = (M - q' * 2 ^ sh) * 2 ^ e) by (rewrite pow_split by lia; ring).
    assert (Y : 2 * Z.abs (M * 2 ^ e - q' * 2 ^ (e + sh)) = 2 * Z.abs (M - q' * 2 ^ sh) * 2 ^ e) by (rewrite X, Z.abs_mul, (Z.abs_eq (2 ^ e)) by lia; ring).
    destruct Near as (N1 & N2). apply k64_round; [lia| | |].
    + replace (63 + (e + sh)) with (bitlen M - 1 + e) by (unfold sh; lia). replace (64 + (e + sh)) with (bitlen M + e) by (unfold sh; lia). lia.
    + rewrite Y, (pow_split e sh) by lia. nia.
    + rewrite Y, (pow_split e sh) by lia. intro T. apply N2. nia.
Qed.
Lemma ten_two_five e : 0 <= e -> 10 ^ e = 5 ^ e * 2 ^ e.
Proof. intro. rewrite <- Z.pow_mul_l. reflexivity. Qed.
Lemma scan_kept m e : 0 < m -> 0 <= e -> m * 10 ^ e < 2 ^ 128 ->
  exists m' e', bf_scan m e = Some (BFin m' e') /\ 0 < m' /\ 0 <= e' /\ kept64 (m * 10 ^ e) (m' * 2 ^ e').
Proof.
  intros Hm He H. pose proof (Z.pow_pos_nonneg 10 e ltac:(lia) He) as P10. pose proof (Z.pow_pos_nonneg 5 e ltac:(lia) He) as P5. pose proof (pow_pos e He) as P2.
  assert (E38 : e <= 38).
  { destruct (Z.leb_spec e 38) as [Q|Q]; [exact Q|exfalso]. pose proof (Z.pow_le_mono_r 10 39 e ltac:(lia) ltac:(lia)) as R.
    assert (2 ^ 128 < 10 ^ 39) by reflexivity. nia. }
  pose proof (ten_two_five e He) as TT. set (M := m * 5 ^ e). assert (HM : 0 < M) by (unfold M; nia). assert (HV : m * 10 ^ e = M * 2 ^ e) by (unfold M; rewrite TT; ring).
  assert (BM : bitlen M <= 128) by (apply bitlen_le; [lia|lia|]; nia). assert (Bm : bitlen m <= 128) by (apply bitlen_le; [lia|lia|]; nia).
  destruct (round_kept M e HM He) as (m' & e' & R & Hm' & He' & B & K). exists m', e'. split; [|split; [exact Hm'|split; [exact He'|rewrite HV; exact K]]].
  assert (Mk : bf_make 64 M e = Some (m', e')) by (unfold bf_make; rewrite R; unfold max_exp; replace (2147483647 <? bitlen m' + e') with false by lia; reflexivity).
  unfold bf_scan. unfold max_int64, max_exp. replace (9223372036854775807 <? e) with false by lia. replace (m =? 0) with false by lia. replace (2147483647 <? bitlen m + e) with false by lia.
  assert (G : (if e =? 0 then bf_make 64 m 0 else bf_mul 64 (Some (m, e)) (bf_pow5 e)) = Some (m', e')).
  { destruct (e =? 0) eqn:E0.
    - assert (e = 0) by lia. subst e. unfold M in Mk. change (5 ^ 0) with 1 in Mk. rewrite Z.mul_1_r in Mk. exact Mk.
    - rewrite pow5_exact by lia. cbn [bf_mul]. rewrite Z.add_0_r. exact Mk. }
  rewrite G. reflexivity.
Qed.
(** From 2^128 on nothing is left. *)
Lemma round_exponent M k m' e' : 0 < M -> 0 <= k -> bf_round 64 M k = (m', e') -> 128 < bitlen M + k -> 64 <= e'.
Proof.
  intros HM Hk. unfold bf_round. destruct (bitlen M - 64 <=? 0) eqn:E; intro H; injection H as <- <-; lia.
Qed.
Lemma scan_high m e m' e' : 0 < m -> 0 <= e -> 2 ^ 128 <= m * 10 ^ e -> bf_scan m e = Some (BFin m' e') -> 64 <= e'.
Proof.
  intros Hm He H Hs. destruct (Z.leb_spec 64 e) as [Q|Q]; [destruct (scan_exponent m e m' e' Hm He Hs); lia|].
  assert (G : exists M k, 0 < M /\ 0 <= k /\ 128 < bitlen M + k /\ (if e =? 0 then bf_make 64 m 0 else bf_mul 64 (Some (m, e)) (bf_pow5 e)) = bf_make 64 M k).
  { destruct (Z.leb_spec e 38) as [E38|E38].
    - exists (m * 5 ^ e), e. pose proof (Z.pow_pos_nonneg 5 e ltac:(lia) He) as P5. pose proof (pow_pos e He) as P2. pose proof (ten_two_five e He) as TT.
      split; [nia|]. split; [exact He|]. split.
      + destruct (bitlen_bounds (m * 5 ^ e) ltac:(nia)) as (B0 & _ & B). destruct (Z.ltb_spec 128 (bitlen (m * 5 ^ e) + e)) as [X|X]; [exact X|exfalso].
        assert (m * 10 ^ e < 2 ^ (bitlen (m * 5 ^ e) + e)) by (rewrite pow_split, TT by lia; nia).
        pose proof (Z.pow_le_mono_r 2 (bitlen (m * 5 ^ e) + e) 128 ltac:(lia) X). lia.
      + destruct (e =? 0) eqn:E0; [assert (e = 0) by lia; subst e; change (5 ^ 0) with 1; rewrite Z.mul_1_r; reflexivity|].
        rewrite pow5_exact by lia. cbn [bf_mul]. rewrite Z.add_0_r. reflexivity.
    - destruct (pow5_long e ltac:(lia)) as (m2 & k2 & -> & H2 & K2 & B2 & _). exists (m * m2), (e + k2). split; [nia|]. split; [lia|]. split.
      + pose proof (bitlen_mono m2 (m * m2) ltac:(lia) ltac:(nia)). lia.
      + replace (e =? 0) with false by lia. reflexivity. }
  destruct G as (M & k & HM & Hk & HB & G). unfold bf_scan in Hs. destruct (max_int64 <? e); [discriminate|]. destruct (m =? 0); [discriminate|].
  destruct (max_exp <? bitlen m + e); [discriminate|]. rewrite G in Hs. unfold bf_make in Hs. destruct (bf_round 64 M k) as (m1 & e1) eqn:R.
  destruct (max_exp <? bitlen m1 + e1); [discriminate|]. injection Hs as <- <-. exact (round_exponent M k m1 e1 HM Hk R HB).
Qed.

(** ** Cutting down *)
Lemma wrap64_spec v : - 2 ^ 63 <= wrap64 v < 2 ^ 63 /\ (2 ^ 64 | v - wrap64 v).
Proof.
  unfold wrap64, two63, two64. change (2 ^ 63) with 9223372036854775808. change (2 ^ 64) with 18446744073709551616.
  pose proof (Z.mod_pos_bound (v + 9223372036854775808) 18446744073709551616 ltac:(lia)). pose proof (Z.div_mod (v + 9223372036854775808) 18446744073709551616 ltac:(lia)) as D.
  split; [lia|]. exists ((v + 9223372036854775808) / 18446744073709551616). lia.
Qed.
Lemma wrap_unique a y y' : - 2 ^ 63 <= y < 2 ^ 63 -> - 2 ^ 63 <= y' < 2 ^ 63 -> (2 ^ 64 | a - y) -> (2 ^ 64 | a - y') -> y = y'.
Proof. change (2 ^ 63) with 9223372036854775808. change (2 ^ 64) with 18446744073709551616. intros H H' (q & Q) (q' & Q'). lia. Qed.
Lemma int64_of_spec neg m e : 0 <= e -> - 2 ^ 63 <= int64_of neg m e < 2 ^ 63 /\ (2 ^ 64 | (if neg : bool then -1 else 1) * (m * 2 ^ e) - int64_of neg m e).
Proof.
  intro He. unfold int64_of. set (v := if e <? 64 then m * 2 ^ e else 0).
  assert (D : (2 ^ 64 | m * 2 ^ e - v)).
  { unfold v. destruct (e <? 64) eqn:E; [exists 0; lia|]. exists (m * 2 ^ (e - 64)). rewrite <- Z.mul_assoc, <- pow_split by lia. replace (e - 64 + 64) with e by lia. lia. }
  destruct (wrap64_spec v) as (B & W). destruct neg.
  - destruct (wrap64_spec (- wrap64 v)) as (B' & W'). split; [exact B'|]. destruct D as (a & Da), W as (b & Wb), W' as (c & Wc). exists (c - a - b). lia.
  - split; [exact B|]. destruct D as (a & Da), W as (b & Wb). exists (a + b). lia.
Qed.
Lemma kept_fun v w w' : kept64 v w -> kept64 v w' -> w = w'.
Proof.
  assert (P64 : forall k, 0 < k -> 2 ^ 64 <= 2 ^ (63 + k)) by (intros; apply Z.pow_le_mono_r; lia).
  intros [H|k q Hk Hv Hn Ht] [H'|k' q' Hk' Hv' Hn' Ht']; [reflexivity|specialize (P64 _ Hk'); lia|specialize (P64 _ Hk); lia|].
  assert (k = k') as <-.
  { destruct (Z.lt_trichotomy k k') as [L|[L|L]]; [exfalso|exact L|exfalso].
    - pose proof (Z.pow_le_mono_r 2 (64 + k) (63 + k') ltac:(lia) ltac:(lia)). lia.
    - pose proof (Z.pow_le_mono_r 2 (64 + k') (63 + k) ltac:(lia) ltac:(lia)). lia. }
  pose proof (pow_pos k ltac:(lia)) as P. assert (D : Z.abs (q - q') <= 1) by nia.
  destruct (Z.eq_dec q q') as [->|N]; [reflexivity|exfalso].
  assert (C : q' = q + 1 \/ q' = q - 1) by lia.
  assert (E1 : 2 * Z.abs (v - q * 2 ^ k) = 2 ^ k) by (destruct C; subst q'; nia). assert (E2 : 2 * Z.abs (v - q' * 2 ^ k) = 2 ^ k) by (destruct C; subst q'; nia).
  specialize (Ht E1). specialize (Ht' E2). apply Z.even_spec in Ht, Ht'. destruct Ht as (a & ->), Ht' as (b & ->). lia.
Qed.
Lemma kept_high v w : 2 ^ 128 <= v -> kept64 v w -> (2 ^ 64 | w).
Proof.
  intros H [H'|k q Hk Hv _ _]; [assert (2 ^ 64 < 2 ^ 128) by reflexivity; lia|].
  assert (64 < k). { destruct (Z.leb_spec k 64) as [L|L]; [exfalso|exact L]. pose proof (Z.pow_le_mono_r 2 (64 + k) 128 ltac:(lia) ltac:(lia)). lia. }
  exists (q * 2 ^ (k - 64)). rewrite <- Z.mul_assoc, <- pow_split by lia. replace (k - 64 + 64) with k by lia. reflexivity.
Qed.
Lemma wraps_fun n y y' : wraps n y -> wraps n y' -> y = y'.
Proof.
  intros (w & K & B & D) (w' & K' & B' & D'). rewrite (kept_fun _ _ _ K' K) in D'. exact (wrap_unique _ _ _ B B' D D').
Qed.
Lemma wraps_high n y : 2 ^ 128 <= Z.abs n -> wraps n y -> y = 0.
Proof.
  intros H (w & K & B & D). apply (kept_high _ _ H) in K. apply (wrap_unique 0 y 0 B); [split; [|reflexivity]; intro Q; discriminate Q| |exists 0; lia].
  destruct K as (a & ->), D as (b & D). exists (b - Z.sgn n * a). lia.
Qed.
Lemma wraps_zero y : wraps 0 y -> y = 0.
Proof.
  intros (w & _ & B & D). apply (wrap_unique 0 y 0 B); [split; [|reflexivity]; intro Q; discriminate Q| |exists 0; lia]. exact D.
Qed.
Lemma wraps_small n : Z.abs n < 2 ^ 63 -> wraps n n.
Proof.
  intro H. exists (Z.abs n). split; [apply k64_exact; apply (Z.lt_trans _ _ _ H); reflexivity|]. split; [lia|]. exists 0. rewrite Z.mul_comm, Z.abs_sgn. lia.
Qed.

(** ** Notations *)
Theorem notation_year t m e y : exp_text t m e -> y <> 0 -> (ParseExponentialNotation t = OK y <-> wraps (m * 10 ^ e) y /\ Z.abs y <= 9999).
Proof.
  intros [neg ds c es m0 e0 Hd Hc He] Hy. unfold ParseExponentialNotation.
  rewrite (exp_split_text neg ds c es (digits_text_dec _ _ Hd) Hc (digits_text_dec _ _ He)), (nat_val_dec _ _ Hd), (nat_val_dec _ _ He).
  pose proof (dec_nonneg _ _ Hd) as Hm0. pose proof (dec_nonneg _ _ He) as He0. pose proof (Z.pow_pos_nonneg 10 e0 ltac:(lia) He0) as P10.
  destruct (Z.eq_dec m0 0) as [->|Nm].
  { replace (signed neg 0) with 0 by (destruct neg; reflexivity). change (0 * 10 ^ e0) with 0. split.
    - unfold bf_scan. destruct (max_int64 <? e0); [discriminate|]. intro H. injection H as <-. contradiction.
    - intros (W & _). apply wraps_zero in W. contradiction. }
  assert (Sg : Z.abs (signed neg m0 * 10 ^ e0) = m0 * 10 ^ e0 /\ Z.sgn (signed neg m0 * 10 ^ e0) = if neg then -1 else 1).
  { unfold signed. destruct neg; split; nia. }
  destruct Sg as (Sa & Ss).
  destruct (Z.ltb_spec (m0 * 10 ^ e0) (2 ^ 128)) as [Q|Q].
  - destruct (scan_kept m0 e0 ltac:(lia) He0 Q) as (m' & e' & -> & Hm' & He' & K). destruct (int64_of_spec neg m' e' He') as (B & D).
    assert (W : wraps (signed neg m0 * 10 ^ e0) (int64_of neg m' e')) by (exists (m' * 2 ^ e'); rewrite Sa, Ss; auto).
    unfold MAX_YEARS. destruct (_ || _) eqn:E.
    + split; [discriminate|]. intros (W' & A). rewrite (wraps_fun _ _ _ W' W) in A. lia.
    + split; [intro H; injection H as <-; split; [exact W|lia]|]. intros (W' & _). rewrite (wraps_fun _ _ _ W' W). reflexivity.
  - split; [|intros (W & _); apply wraps_high in W; [contradiction|rewrite Sa; exact Q]].
    destruct (bf_scan m0 e0) as [[| |m' e']|] eqn:E; try discriminate; [intro H; injection H as <-; contradiction|].
    pose proof (scan_high m0 e0 m' e' ltac:(lia) He0 Q E) as He'. unfold int64_of. replace (e' <? 64) with false by lia.
    change (wrap64 0) with 0. change (wrap64 (- 0)) with 0. replace (if neg then 0 else 0) with 0 by (destruct neg; reflexivity). cbn. intro H. injection H as <-. contradiction.
Qed.
