(** How large an exponential year may be before big.Float overflows: error bounds for
    the powers of five. *)
From Coq Require Import Ascii String ZArith NArith Bool Lia ZifyBool List.
From Verif Require Import GoStr GoBig.
Import ListNotations.
Open Scope Z_scope.

Lemma bitlen_ge m k : 0 <= m -> 0 <= k -> (k < bitlen m <-> 2 ^ k <= m).
Proof.
  intros Hm Hk. unfold bitlen. destruct (m =? 0) eqn:E; [assert (m = 0) by lia; subst; pose proof (Z.pow_pos_nonneg 2 k ltac:(lia) Hk); lia|].
  pose proof (Z.log2_le_pow2 m k ltac:(lia)). lia.
Qed.
Lemma bitlen_shift m e : 0 < m -> 0 <= e -> bitlen (m * 2 ^ e) = bitlen m + e.
Proof.
  intros Hm He. unfold bitlen. pose proof (Z.pow_pos_nonneg 2 e ltac:(lia) He). replace (m =? 0) with false by lia.
  replace (m * 2 ^ e =? 0) with false by nia. rewrite Z.log2_mul_pow2 by lia. lia.
Qed.

(** ** Relative error of k roundings to 128 bits or more *)
Section Near.
Variable B : Z.
Hypothesis HB : 1 < B.
Definition near (k V T : Z) : Prop := T * (B - 1) ^ k <= V * B ^ k /\ V * B ^ k <= T * (B + 1) ^ k.
Lemma near_0 V : near 0 V V.
Proof. unfold near. rewrite !Z.pow_0_r. lia. Qed.
Lemma near_mul a b V T W U : 0 <= a -> 0 <= b -> 0 <= V -> 0 <= T -> 0 <= W -> 0 <= U ->
  near a V T -> near b W U -> near (a + b) (V * W) (T * U).
Proof.
  intros Ha Hb HV HT HW HU (L & R) (L' & R'). unfold near. rewrite !Z.pow_add_r by assumption.
  assert (P : forall x k, 0 <= x -> 0 <= k -> 0 <= x ^ k) by (intros; apply Z.pow_nonneg; assumption).
  pose proof (P (B - 1) a ltac:(lia) Ha). pose proof (P (B - 1) b ltac:(lia) Hb). pose proof (P B a ltac:(lia) Ha). pose proof (P B b ltac:(lia) Hb).
  split.
  - replace (T * U * ((B - 1) ^ a * (B - 1) ^ b)) with ((T * (B - 1) ^ a) * (U * (B - 1) ^ b)) by ring.
    replace (V * W * (B ^ a * B ^ b)) with ((V * B ^ a) * (W * B ^ b)) by ring.
    apply Z.mul_le_mono_nonneg; try assumption; apply Z.mul_nonneg_nonneg; assumption.
  - replace (T * U * ((B + 1) ^ a * (B + 1) ^ b)) with ((T * (B + 1) ^ a) * (U * (B + 1) ^ b)) by ring.
    replace (V * W * (B ^ a * B ^ b)) with ((V * B ^ a) * (W * B ^ b)) by ring.
    apply Z.mul_le_mono_nonneg; try assumption; apply Z.mul_nonneg_nonneg; assumption.
Qed.
Lemma near_trans a b U V T : 0 <= a -> 0 <= b -> 0 <= T -> near a U V -> near b V T -> near (a + b) U T.
Proof.
  intros Ha Hb HT (L & R) (L' & R'). unfold near. rewrite !Z.pow_add_r by assumption.
  assert (P : forall x k, 0 <= x -> 0 <= k -> 0 <= x ^ k) by (intros; apply Z.pow_nonneg; assumption).
  pose proof (P (B - 1) a ltac:(lia) Ha). pose proof (P B b ltac:(lia) Hb). pose proof (P (B + 1) a ltac:(lia) Ha).
  split.
  - transitivity ((V * B ^ b) * (B - 1) ^ a); [replace (T * ((B - 1) ^ a * (B - 1) ^ b)) with ((T * (B - 1) ^ b) * (B - 1) ^ a) by ring; apply Z.mul_le_mono_nonneg_r; assumption|].
    replace (V * B ^ b * (B - 1) ^ a) with ((V * (B - 1) ^ a) * B ^ b) by ring. replace (U * (B ^ a * B ^ b)) with ((U * B ^ a) * B ^ b) by ring.
    apply Z.mul_le_mono_nonneg_r; assumption.
  - transitivity ((V * (B + 1) ^ a) * B ^ b); [replace (U * (B ^ a * B ^ b)) with ((U * B ^ a) * B ^ b) by ring; apply Z.mul_le_mono_nonneg_r; assumption|].
    replace (V * (B + 1) ^ a * B ^ b) with ((V * B ^ b) * (B + 1) ^ a) by ring. replace (T * ((B + 1) ^ a * (B + 1) ^ b)) with ((T * (B + 1) ^ b) * (B + 1) ^ a) by ring.
    apply Z.mul_le_mono_nonneg_r; assumption.
Qed.
Lemma near_more a b V T : 0 <= a <= b -> 0 <= T -> 0 <= V -> near a V T -> near b V T.
Proof.
  intros Hab HT HV H. replace b with ((b - a) + a) by lia. apply near_trans with V; try lia; [|exact H].
  unfold near. pose proof (Z.pow_le_mono_l (B - 1) B (b - a) ltac:(lia)). pose proof (Z.pow_le_mono_l B (B + 1) (b - a) ltac:(lia)).
  split; apply Z.mul_le_mono_nonneg_l; assumption.
Qed.
Lemma bern_low k : 0 <= k -> B ^ k * (B - k) <= (B - 1) ^ k * B.
Proof.
  intro Hk. pattern k. apply natlike_ind; [rewrite !Z.pow_0_r; lia| |exact Hk]. intros x Hx IH. rewrite !Z.pow_succ_r by exact Hx.
  pose proof (Z.pow_nonneg B x ltac:(lia)). 
  transitivity ((B - 1) * (B ^ x * (B - x))); [|transitivity ((B - 1) * ((B - 1) ^ x * B)); [apply Z.mul_le_mono_nonneg_l; [lia|exact IH]|lia]].
  replace (B * B ^ x * (B - Z.succ x)) with (B ^ x * (B * (B - Z.succ x))) by ring. replace ((B - 1) * (B ^ x * (B - x))) with (B ^ x * ((B - 1) * (B - x))) by ring.
  apply Z.mul_le_mono_nonneg_l; [assumption|lia].
Qed.
Lemma bern_high k : 0 <= k -> (B + 1) ^ k * (B - k) <= B ^ k * B.
Proof.
  intro Hk. pattern k. apply natlike_ind; [rewrite !Z.pow_0_r; lia| |exact Hk]. intros x Hx IH. rewrite !Z.pow_succ_r by exact Hx.
  pose proof (Z.pow_nonneg (B + 1) x ltac:(lia)).
  transitivity (B * ((B + 1) ^ x * (B - x))); [|transitivity (B * (B ^ x * B)); [apply Z.mul_le_mono_nonneg_l; [lia|exact IH]|lia]].
  replace ((B + 1) * (B + 1) ^ x * (B - Z.succ x)) with ((B + 1) ^ x * ((B + 1) * (B - Z.succ x))) by ring.
  replace (B * ((B + 1) ^ x * (B - x))) with ((B + 1) ^ x * (B * (B - x))) by ring.
  apply Z.mul_le_mono_nonneg_l; [assumption|lia].
Qed.
Lemma near_linear k V T : 0 <= k <= B -> 0 <= T -> 0 <= V -> near k V T -> V * (B - k) <= T * B /\ T * (B - k) <= V * B.
Proof.
  intros Hk HT HV (L & R). pose proof (Z.pow_pos_nonneg B k ltac:(lia) ltac:(lia)) as P.
  pose proof (bern_low k ltac:(lia)) as BL. pose proof (bern_high k ltac:(lia)) as BH. split; apply (Z.mul_le_mono_pos_r _ _ (B ^ k) P).
  - transitivity ((V * B ^ k) * (B - k)); [lia|]. transitivity ((T * (B + 1) ^ k) * (B - k)); [apply Z.mul_le_mono_nonneg_r; lia|].
    replace (T * (B + 1) ^ k * (B - k)) with (T * ((B + 1) ^ k * (B - k))) by ring. replace (T * B * B ^ k) with (T * (B ^ k * B)) by ring.
    apply Z.mul_le_mono_nonneg_l; assumption.
  - replace (T * (B - k) * B ^ k) with (T * (B ^ k * (B - k))) by ring. transitivity (T * ((B - 1) ^ k * B)); [apply Z.mul_le_mono_nonneg_l; assumption|].
    replace (T * ((B - 1) ^ k * B)) with ((T * (B - 1) ^ k) * B) by ring. replace (V * B * B ^ k) with ((V * B ^ k) * B) by ring.
    apply Z.mul_le_mono_nonneg_r; lia.
Qed.
End Near.

(** ** Rounding *)
Lemma round_facts p m e m' e' : 0 < p -> 0 < m -> 0 <= e -> bf_round p m e = (m', e') ->
  0 < m' /\ e <= e' /\ near (2 ^ p) 1 (m' * 2 ^ e') (m * 2 ^ e).
Proof.
  intros Hp Hm He. unfold bf_round. cbv zeta. pose proof (Z.pow_pos_nonneg 2 e ltac:(lia) He) as PE.
  assert (PB : 1 < 2 ^ p) by (apply (Z.pow_gt_1 2 p); lia).
  destruct (bitlen m - p <=? 0) eqn:E.
  - intro H. injection H as <- <-. split; [exact Hm|]. split; [lia|]. apply near_more with 0; first [apply near_0|nia].
  - intro H. set (sh := bitlen m - p) in *. assert (Hs : 0 < sh) by lia.
    assert (Hb : 2 ^ (sh - 1) * 2 ^ p <= m).
    { rewrite <- Z.pow_add_r by lia. apply bitlen_ge; lia. }
    assert (D : 2 ^ sh = 2 * 2 ^ (sh - 1)) by (rewrite <- Z.pow_succ_r by lia; f_equal; lia).
    pose proof (Z.pow_pos_nonneg 2 (sh - 1) ltac:(lia) ltac:(lia)) as PH. set (h := 2 ^ (sh - 1)) in *.
    pose proof (Z.div_mod m (2 ^ sh) ltac:(lia)) as DM. pose proof (Z.mod_pos_bound m (2 ^ sh) ltac:(lia)) as MB.
    set (q := m / 2 ^ sh) in *. set (r := m mod 2 ^ sh) in *.
    assert (Q : exists c, m' = q + c /\ (c = 0 /\ r <= h \/ c = 1 /\ h <= r)).
    { injection H as <- _. destruct (h <? r) eqn:E1; cbn [orb]; [exists 1; split; [reflexivity|lia]|].
      destruct (r =? h) eqn:E2; cbn [andb]; [|exists 0; split; [lia|lia]]. destruct (Z.odd q); [exists 1|exists 0]; split; lia. }
    injection H as _ <-. destruct Q as (c & -> & C).
    assert (Qp : 0 < q).
    { apply Z.div_str_pos. split; [lia|]. rewrite D. nia. }
    split; [lia|]. split; [lia|]. rewrite Z.pow_add_r by lia. unfold near. rewrite !Z.pow_1_r.
    replace ((q + c) * (2 ^ e * 2 ^ sh)) with (((q + c) * 2 ^ sh) * 2 ^ e) by ring.
    assert (X : (q + c) * 2 ^ sh = m + (c * 2 ^ sh - r)) by lia. rewrite X.
    assert (Y : (- h) <= c * 2 ^ sh - r <= h) by (rewrite D in *; lia). set (dl := c * 2 ^ sh - r) in *. clearbody dl.
    replace (m * 2 ^ e * (2 ^ p - 1)) with ((m * (2 ^ p - 1)) * 2 ^ e) by ring. replace ((m + dl) * 2 ^ e * 2 ^ p) with (((m + dl) * 2 ^ p) * 2 ^ e) by ring.
    replace (m * 2 ^ e * (2 ^ p + 1)) with ((m * (2 ^ p + 1)) * 2 ^ e) by ring. split; apply Z.mul_le_mono_nonneg_r; nia.
Qed.
(** Rounding to more bits is at least as good. *)
Lemma near_finer B B' V T : 1 < B <= B' -> 0 <= T -> 0 <= V -> near B' 1 V T -> near B 1 V T.
Proof.
  intros HB HT HV (L & R). unfold near in *. rewrite !Z.pow_1_r in *. split; nia.
Qed.

(** ** Powers of five.  [X] is the overflow limit 2^MaxExp. *)
Section Pow5.
Variable X : Z.
Hypothesis HX : forall m e, 0 < m -> 0 <= e -> (max_exp < bitlen m + e <-> X <= m * 2 ^ e).
Let B := 2 ^ 128.
Lemma B_big : 1 < B. Proof. reflexivity. Qed.
(** A computed value for [T]: within k roundings, or overflow and then T is at least
    half the limit. *)
Definition value_of (k T : Z) (v : bfloat) : Prop :=
  match v with
  | Some (m, e) => 0 < m /\ 0 <= e /\ near B k (m * 2 ^ e) T
  | None => X <= 2 * T
  end.
Lemma make_value p m e k T : 128 <= p -> 0 < m -> 0 <= e -> 0 <= k <= 2 ^ 40 -> 0 < T -> near B k (m * 2 ^ e) T ->
  value_of (k + 1) T (bf_make p m e).
Proof.
  intros Hp Hm He Hk HT HN. unfold bf_make. destruct (bf_round p m e) as (m' & e') eqn:E.
  destruct (round_facts p m e m' e' ltac:(lia) Hm He E) as (Hm' & He' & N).
  pose proof (Z.pow_pos_nonneg 2 e ltac:(lia) He). pose proof (Z.pow_pos_nonneg 2 e' ltac:(lia) ltac:(lia)).
  assert (N1 : near B 1 (m' * 2 ^ e') (m * 2 ^ e)).
  { apply near_finer with (2 ^ p); [|nia|nia|exact N]. split; [exact B_big|]. apply Z.pow_le_mono_r; lia. }
  assert (N2 : near B (k + 1) (m' * 2 ^ e') T).
  { rewrite Z.add_comm. apply near_trans with (m * 2 ^ e); first [assumption|exact B_big|lia]. }
  destruct (max_exp <? bitlen m' + e') eqn:O; cbn [value_of].
  - assert (X <= m' * 2 ^ e') by (apply HX; lia).
    assert (K : 0 <= k + 1 <= B) by (unfold B; change (2 ^ 40) with 1099511627776 in Hk; change (2 ^ 128) with 340282366920938463463374607431768211456; lia).
    destruct (near_linear B B_big (k + 1) (m' * 2 ^ e') T K ltac:(lia) ltac:(nia) N2) as (L & _).
    change B with 340282366920938463463374607431768211456 in L. change (2 ^ 40) with 1099511627776 in Hk. nia.
  - split; [exact Hm'|]. split; [lia|exact N2].
Qed.
Lemma mul_value p a b T U v w : 128 <= p -> 0 <= a -> 0 <= b -> a + b <= 2 ^ 40 -> 0 < T -> 0 < U ->
  value_of a T v -> value_of b U w -> value_of (a + b + 1) (T * U) (bf_mul p v w).
Proof.
  intros Hp Ha Hb Hab HT HU. destruct v as [(m & e)|]; destruct w as [(m' & e')|]; cbn [bf_mul value_of].
  - intros (Hm & He & N) (Hm' & He' & N'). apply make_value; try lia; try nia.
    rewrite Z.pow_add_r by lia. replace (m * m' * (2 ^ e * 2 ^ e')) with ((m * 2 ^ e) * (m' * 2 ^ e')) by ring.
    pose proof (Z.pow_nonneg 2 e ltac:(lia)). pose proof (Z.pow_nonneg 2 e' ltac:(lia)).
    apply near_mul; first [assumption|exact B_big|nia].
  - intros _ H. nia.
  - intros H _. nia.
  - intros H _. nia.
Qed.
Lemma loop_value fuel : forall z f n a b, 0 <= n < 2 ^ Z.of_nat fuel -> 0 <= a -> 1 <= b -> a + b * n <= 2 ^ 36 ->
  value_of a (5 ^ a) z -> value_of (b - 1) (5 ^ b) f -> value_of (a + b * n) (5 ^ (a + b * n)) (pow5_loop fuel z f n).
Proof.
  induction fuel as [|fuel IH]; intros z f n a b Hn Ha Hb Hab Hz Hf; cbn [pow5_loop].
  - cbn in Hn. assert (n = 0) by lia. subst n. rewrite Z.mul_0_r, Z.add_0_r. exact Hz.
  - destruct (n <=? 0) eqn:E0; [assert (n = 0) by lia; subst n; rewrite Z.mul_0_r, Z.add_0_r; exact Hz|].
    assert (Hn2 : n = 2 * (n / 2) + (if Z.odd n then 1 else 0)).
    { rewrite (Z.div_mod n 2) at 1 by lia. rewrite Zmod_odd. reflexivity. }
    assert (R : 0 <= n / 2 < 2 ^ Z.of_nat fuel).
    { rewrite Nat2Z.inj_succ, Z.pow_succ_r in Hn by lia. destruct (Z.odd n); lia. }
    assert (Hbn : b <= b * n) by nia.
    assert (F : value_of (2 * b - 1) (5 ^ (2 * b)) (bf_mul 192 f f)).
    { replace (2 * b - 1) with ((b - 1) + (b - 1) + 1) by lia. replace (2 * b) with (b + b) by lia. rewrite Z.pow_add_r by lia.
      pose proof (Z.pow_pos_nonneg 5 b ltac:(lia) ltac:(lia)). apply mul_value; try assumption; lia. }
    destruct (Z.odd n).
    + replace (a + b * n) with ((a + b) + (2 * b) * (n / 2)) by (rewrite Hn2 at 2; ring). apply IH; try lia; try exact F.
      replace (a + b) with (a + (b - 1) + 1) at 1 by lia. rewrite Z.pow_add_r by lia.
      pose proof (Z.pow_pos_nonneg 5 a ltac:(lia) Ha). pose proof (Z.pow_pos_nonneg 5 b ltac:(lia) ltac:(lia)).
      apply mul_value; try assumption; lia.
    + replace (a + b * n) with (a + (2 * b) * (n / 2)) by (rewrite Hn2 at 2; ring). apply IH; try lia; try assumption.
Qed.
Lemma pow5_value n : 0 <= n <= 2 ^ 32 -> value_of n (5 ^ n) (bf_pow5 n).
Proof.
  intro Hn. unfold bf_pow5. destruct (n <=? 27) eqn:E.
  - cbn [value_of]. pose proof (Z.pow_pos_nonneg 5 n ltac:(lia) ltac:(lia)). split; [lia|]. split; [lia|]. rewrite Z.pow_0_r, Z.mul_1_r.
    apply near_more with 0; first [apply near_0|exact B_big|lia].
  - replace n with (27 + 1 * (n - 27)) at 1 2 by lia. apply loop_value; try lia.
    + cbn [value_of]. split; [reflexivity|]. split; [lia|]. rewrite Z.pow_0_r, Z.mul_1_r. apply near_more with 0; first [apply near_0|exact B_big|lia].
    + cbn [value_of]. split; [reflexivity|]. split; [lia|]. apply near_0.
Qed.

End Pow5.

(** The last rounding, to 64 bits: overflow from half a unit below the limit. *)
Lemma limit m e : 0 < m -> 0 <= e -> (max_exp < bitlen m + e <-> 2 ^ max_exp <= m * 2 ^ e).
Proof.
  intros Hm He. rewrite <- bitlen_shift by assumption. apply bitlen_ge; [|discriminate].
  pose proof (Z.pow_nonneg 2 e ltac:(lia)). nia.
Qed.
Lemma pow_le_iff a b : 0 <= a -> 0 <= b -> (2 ^ a <= 2 ^ b <-> a <= b).
Proof. intros. symmetry. apply Z.pow_le_mono_r_iff; lia. Qed.
Lemma round64 X m e : X = max_exp -> 65 <= X -> 0 < m -> 0 <= e -> (bf_make 64 m e = None <-> (2 ^ 65 - 1) * 2 ^ (X - 65) <= m * 2 ^ e).
Proof.
  intros HX X65 Hm He. unfold bf_make, bf_round. cbv zeta. pose proof (Z.pow_pos_nonneg 2 e ltac:(lia) He) as PE.
  set (bl := bitlen m). assert (Hbl : 0 < bl) by (apply bitlen_ge; lia).
  assert (U : m * 2 ^ e < 2 ^ (bl + e)).
  { assert (~ bl + e < bitlen (m * 2 ^ e)) as Q by (rewrite bitlen_shift by assumption; fold bl; lia). rewrite bitlen_ge in Q by nia. lia. }
  assert (Um : m + 1 <= 2 ^ bl).
  { assert (~ bl < bitlen m) as Q by (fold bl; lia). rewrite bitlen_ge in Q by lia. lia. }
  assert (Lm : 2 ^ (bl - 1) <= m) by (apply bitlen_ge; fold bl; lia).
  set (P := 2 ^ (X - 65)). assert (HP : 0 < P) by (apply Z.pow_pos_nonneg; lia).
  assert (PX : forall j, 0 <= j -> 2 ^ (X - 65 + j) = 2 ^ j * P) by (intros j Hj; rewrite Z.pow_add_r by lia; unfold P; ring).
  assert (Mlow : (2 ^ 65 - 1) * P <= m * 2 ^ e -> X <= bl + e).
  { intro H. assert (2 ^ (X - 65 + 64) < 2 ^ (bl + e)) as Q by (rewrite PX by lia; lia).
    apply Z.pow_lt_mono_r_iff in Q; lia. }
  destruct (bl - 64 <=? 0) eqn:E.
  - fold bl. rewrite <- HX. destruct (X <? bl + e) eqn:F.
    + split; [|reflexivity]. intros _. assert (2 ^ X <= m * 2 ^ e) as Q by (rewrite HX; apply limit; fold bl; lia).
      replace X with (X - 65 + 65) in Q by lia. rewrite PX in Q by lia. lia.
    + split; [discriminate|]. intro H. exfalso. specialize (Mlow H). assert (EE : bl + e = X) by lia.
      assert (W : m * 2 ^ e + 2 ^ e <= 2 ^ X) by (rewrite <- EE, Z.pow_add_r by lia; nia).
      assert (2 ^ (X - 65 + 1) <= 2 ^ e) as Q by (apply Z.pow_le_mono_r; lia). rewrite PX in Q by lia.
      replace X with (X - 65 + 65) in W by lia. rewrite PX in W by lia. lia.
  - set (sh := bl - 64) in *. assert (Hs : 0 < sh) by lia.
    assert (D : 2 ^ sh = 2 * 2 ^ (sh - 1)) by (rewrite <- Z.pow_succ_r by lia; f_equal; lia).
    pose proof (Z.pow_pos_nonneg 2 (sh - 1) ltac:(lia) ltac:(lia)) as PH. set (h := 2 ^ (sh - 1)) in *.
    pose proof (Z.div_mod m (2 ^ sh) ltac:(lia)) as DM. pose proof (Z.mod_pos_bound m (2 ^ sh) ltac:(lia)) as MB.
    assert (Bm : 2 ^ bl = 2 ^ 65 * h).
    { unfold h. rewrite <- Z.pow_add_r by lia. f_equal. lia. }
    assert (Bm1 : 2 ^ (bl - 1) = 2 ^ 64 * h).
    { unfold h. rewrite <- Z.pow_add_r by lia. f_equal. lia. }
    set (q := m / 2 ^ sh) in *. set (r := m mod 2 ^ sh) in *.
    set (q' := if (h <? r) || (r =? h) && Z.odd q then q + 1 else q).
    assert (Q : q' = q /\ r <= h /\ (r = h -> Z.odd q = false) \/ q' = q + 1 /\ h <= r).
    { unfold q'. destruct (h <? r) eqn:E1; cbn [orb]; [right; lia|].
      destruct (r =? h) eqn:E2; cbn [andb]; [|left; lia]. destruct (Z.odd q); [right; lia|left; repeat split; lia]. }
    clearbody q' q r h.
    assert (Hq : 2 ^ 63 <= q < 2 ^ 64) by (rewrite D in *; nia).
    assert (Hq' : 0 < q') by lia.
    assert (S : 2 ^ (e + sh) = 2 * h * 2 ^ e) by (rewrite Z.pow_add_r, D by lia; ring).
    assert (T : (if max_exp <? bitlen q' + (e + sh) then None else Some (q', e + sh)) = None <-> 2 ^ X <= q' * 2 ^ (e + sh)).
    { rewrite HX, <- limit by lia. destruct (max_exp <? bitlen q' + (e + sh)) eqn:F; split; try discriminate; try reflexivity; lia. }
    rewrite T. clear T. rewrite S.
    assert (C : X < bl + e \/ X = bl + e \/ bl + e < X) by lia. destruct C as [C|[C|C]].
    + assert (2 ^ (X - 65 + 65) <= 2 ^ (bl - 1 + e)) as Y by (apply Z.pow_le_mono_r; lia). rewrite PX in Y by lia. rewrite Z.pow_add_r, Bm1 in Y by lia.
      replace (2 ^ X) with (2 ^ 65 * P) by (rewrite <- PX by lia; f_equal; lia). split; intros _; nia.
    + assert (HE : P = h * 2 ^ e).
      { assert (2 ^ (X - 65 + 65) = 2 ^ (bl + e)) as Y by (f_equal; lia). rewrite PX in Y by lia. rewrite Z.pow_add_r, Bm in Y by lia. nia. }
      replace (2 ^ X) with (2 ^ 65 * P) by (rewrite <- PX by lia; f_equal; lia). rewrite HE.
      replace (q' * (2 * h * 2 ^ e)) with ((2 * q' * h) * 2 ^ e) by ring. replace (2 ^ 65 * (h * 2 ^ e)) with ((2 ^ 65 * h) * 2 ^ e) by ring.
      replace ((2 ^ 65 - 1) * (h * 2 ^ e)) with (((2 ^ 65 - 1) * h) * 2 ^ e) by ring.
      rewrite <- !Z.mul_le_mono_pos_r by exact PE. change (2 ^ 65) with (2 * 18446744073709551616) in *. change (2 ^ 64) with 18446744073709551616 in *.
      split; intro H.
      * assert (18446744073709551616 <= q') by nia. nia.
      * assert (2 * 18446744073709551616 - 1 <= 2 * q + 1) by nia. assert (q = 18446744073709551615) by lia. subst q.
        assert (h <= r) by nia. destruct Q as [(Q1 & Q2 & Q3)|(Q1 & Q2)]; [|nia]. exfalso. assert (r = h) by lia. specialize (Q3 H2). discriminate Q3.
    + assert (~ (2 ^ 65 - 1) * P <= m * 2 ^ e) as N by (intro H; specialize (Mlow H); lia). split; [|tauto]. intro H. exfalso. 
      assert (2 ^ (bl + e) <= 2 ^ (X - 65 + 64)) as Y by (apply Z.pow_le_mono_r; lia). rewrite PX in Y by lia. rewrite Z.pow_add_r, Bm in Y by lia.
      replace (2 ^ X) with (2 ^ 65 * P) in H by (rewrite <- PX by lia; f_equal; lia).
      change (2 ^ 65) with (2 * 18446744073709551616) in *. change (2 ^ 64) with 18446744073709551616 in *.
      assert (q' <= 18446744073709551616) by lia. nia.
Qed.

(** ** Which notations overflow *)
Lemma scan_limit X m e : X = max_exp -> 65 <= X <= 2 ^ 31 -> 0 < m -> 0 <= e -> bitlen m + e <= X ->
  (m * 10 ^ e <= (2 ^ 64 - 1) * 2 ^ (X - 64) -> exists m' e', bf_scan m e = Some (BFin m' e')) /\
  (2 ^ X <= m * 10 ^ e -> bf_scan m e = Some BInf).
Proof.
  intros HX RX Hm He Hb. assert (Hbm : 0 < bitlen m) by (apply bitlen_ge; lia).
  set (P := 2 ^ (X - 65)). assert (HP : 0 < P) by (apply Z.pow_pos_nonneg; lia).
  assert (PX : forall j, 0 <= j -> 2 ^ (X - 65 + j) = 2 ^ j * P) by (intros j Hj; rewrite Z.pow_add_r by lia; unfold P; ring).
  assert (P64 : 2 ^ (X - 64) = 2 * P) by (change (2 * P) with (2 ^ 1 * P); rewrite <- (PX 1) by lia; f_equal; lia).
  assert (P0 : 2 ^ X = 2 ^ 65 * P) by (rewrite <- PX by lia; f_equal; lia).
  assert (LX : forall m e, 0 < m -> 0 <= e -> (max_exp < bitlen m + e <-> 2 ^ X <= m * 2 ^ e)) by (intros; rewrite HX; apply limit; assumption).
  assert (R : forall a b, 0 < a -> 0 <= b -> (bf_make 64 a b = None <-> (2 ^ 65 - 1) * P <= a * 2 ^ b)) by (intros; apply round64; try assumption; lia).
  assert (M64 : X <= max_int64) by (unfold max_int64; lia).
  pose proof (Z.pow_pos_nonneg 10 e ltac:(lia) He) as PT. set (T := m * 10 ^ e). assert (HT : 0 < T) by (unfold T; nia).
  unfold bf_scan. replace (max_int64 <? e) with false by lia. replace (m =? 0) with false by lia.
  replace (max_exp <? bitlen m + e) with false by (rewrite <- HX; lia).
  clear M64. change (2 ^ 31) with 2147483648 in RX. change (2 ^ 65) with 36893488147419103232 in *. change (2 ^ 64) with 18446744073709551616 in *.
  rewrite P64, P0. clear P64 P0.
  assert (G : exists r, (if e =? 0 then bf_make 64 m 0 else bf_mul 64 (Some (m, e)) (bf_pow5 e)) = r /\
    (T <= (18446744073709551616 - 1) * (2 * P) -> r <> None) /\ (36893488147419103232 * P <= T -> r = None)).
  { eexists. split; [reflexivity|]. destruct (e =? 0) eqn:E.
    - assert (e = 0) by lia. subst e. unfold T. rewrite Z.pow_0_r, Z.mul_1_r.
      specialize (R m 0 Hm ltac:(lia)). rewrite Z.pow_0_r, Z.mul_1_r in R. rewrite R. split; lia.
    - assert (V : value_of (2 ^ X) e (5 ^ e) (bf_pow5 e)) by (apply pow5_value; [exact LX|change (2 ^ 32) with 4294967296; lia]).
      assert (TE : T = m * (2 ^ e * 5 ^ e)) by (unfold T; rewrite <- Z.pow_mul_l; reflexivity).
      pose proof (Z.pow_pos_nonneg 2 e ltac:(lia) He) as P2. pose proof (Z.pow_pos_nonneg 5 e ltac:(lia) He) as P5.
      destruct (bf_pow5 e) as [(p & q)|]; cbn [value_of] in V.
      + destruct V as (Hp & Hq & N). cbn [bf_mul]. assert (Hmp : 0 < m * p) by nia. rewrite (R (m * p) (e + q)) by lia. clear R.
        set (B := 2 ^ 128) in *. change (2 ^ 128) with 340282366920938463463374607431768211456 in B.
        pose proof (Z.pow_nonneg 2 q ltac:(lia)) as Pq.
        destruct (near_linear B ltac:(reflexivity) e (p * 2 ^ q) (5 ^ e) ltac:(unfold B; lia) ltac:(lia) ltac:(nia) N) as (L1 & L2).
        assert (W : m * p * 2 ^ (e + q) = (m * 2 ^ e) * (p * 2 ^ q)) by (rewrite Z.pow_add_r by lia; ring). rewrite W.
        set (V := p * 2 ^ q) in *. set (F := 5 ^ e) in *. assert (HC : 0 < m * 2 ^ e) by nia.
        replace (m * (2 ^ e * F)) with ((m * 2 ^ e) * F) in TE by ring. set (C := m * 2 ^ e) in *.
        assert (L1' : (C * V) * (B - e) <= T * B) by (rewrite TE; nia). assert (L2' : T * (B - e) <= (C * V) * B) by (rewrite TE; nia).
        clear - L1' L2' HP RX Hb Hbm He. set (Y := C * V) in *. clearbody Y T P. unfold B in *. clear B. split; intros; nia.
      + cbn [bf_mul]. split; [|reflexivity]. intro H. exfalso. replace X with (X - 65 + 65) in V by lia. rewrite PX in V by lia.
        change (2 ^ 65) with 36893488147419103232 in V. clear R LX PX. 
        assert (2 <= 2 ^ e) by (change 2 with (2 ^ 1) at 1; apply Z.pow_le_mono_r; lia).
        assert (2 * 5 ^ e <= 2 ^ e * 5 ^ e) by nia. set (U := 2 ^ e * 5 ^ e) in *. assert (U <= m * U) by nia. lia. }
  destruct G as (r & -> & G1 & G2). split.
  - intro H. specialize (G1 H). destruct r as [(m' & e')|]; [eauto|contradiction].
  - intro H. rewrite (G2 H). reflexivity.
Qed.
