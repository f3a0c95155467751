(** The values that big.ParseFloat gives, cut down to whole numbers. *)
From Coq Require Import Ascii String ZArith NArith Bool Lia ZifyBool List.
From Verif Require Import GoStr GoBig SpecText SpecForms SpecNotation SpecWrap StrFacts TextFacts Edtf Common CalFacts ApiFacts GrammarFacts SigProofs ExpProofs ExpWrap ExpLimit ExpPanic BigText BigTextFacts.
Import ListNotations.
Open Scope Z_scope.

(** ** Rounding and cutting off the fraction *)
Lemma kept_upper M w : 0 <= M -> kept64 M w -> w * 2 ^ 64 <= M * (2 ^ 64 + 1).
Proof.
  intros HM H. change (2 ^ 64) with (2 * 2 ^ 63). destruct H as [L|k q Hk B N _]; [lia|].
  rewrite (pow_split 63 k) in B by lia. set (P := 2 ^ k) in *. set (w := q * P) in *. change (2 ^ 63) with 9223372036854775808 in *. lia.
Qed.
Lemma kept_lower M w n E : kept64 M w -> 0 <= E -> 0 <= n < 2 ^ 63 -> n * 2 ^ E <= M -> n * 2 ^ E <= w.
Proof.
  intros H HE Hn L. destruct H as [S|k q Hk B N _]; [exact L|]. rewrite (pow_split 63 k), (pow_split 64 k) in B by lia. pose proof (pow_pos k ltac:(lia)) as Pk.
  assert (Q : 2 ^ 63 <= q).
  { change (2 ^ 64) with (2 * 2 ^ 63) in B. change (2 ^ 63) with 9223372036854775808 in *. set (P := 2 ^ k) in *. assert (2 * (9223372036854775808 * P) - 2 * (q * P) <= P) by lia.
    destruct (Z.leb_spec 9223372036854775808 q) as [X|X]; [exact X|exfalso]. nia. }
  destruct (Z.leb_spec k E) as [X|X].
  - assert (D : 2 ^ E = 2 ^ (E - k) * 2 ^ k) by (rewrite <- pow_split by lia; f_equal; lia). rewrite D, Z.mul_assoc in *. set (a := n * 2 ^ (E - k)) in *. set (P := 2 ^ k) in *.
    destruct (Z.leb_spec a q) as [Y|Y]; [nia|exfalso]. assert (q * P + P <= a * P) by nia. lia.
  - pose proof (Z.pow_le_mono_r 2 E k ltac:(lia) ltac:(lia)). pose proof (pow_pos E HE). change (2 ^ 63) with 9223372036854775808 in *. nia.
Qed.
Lemma kept_trunc M w n E : 0 <= M -> kept64 M w -> 0 <= E -> 0 <= n < 2 ^ 63 -> n * 2 ^ E <= M -> M * (2 ^ 64 + 1) < (n + 1) * 2 ^ E * 2 ^ 64 -> w / 2 ^ E = n.
Proof.
  intros HM K HE Hn L U. pose proof (kept_lower M w n E K HE Hn L) as L'. pose proof (kept_upper M w HM K) as U'. pose proof (pow_pos E HE) as P.
  symmetry. apply Z.div_unique_pos with (r := w - n * 2 ^ E); [|ring]. set (A := (n + 1) * 2 ^ E) in *. assert (w < A); [|unfold A in *; lia].
  change (2 ^ 64) with (2 * 2 ^ 63) in U', U. change (2 ^ 63) with 9223372036854775808 in *. lia.
Qed.
Lemma round_shift M e : bf_round 64 M e = (fst (bf_round 64 M 0), e + snd (bf_round 64 M 0)).
Proof. unfold bf_round. destruct (_ <=? 0); cbn [fst snd]; [rewrite Z.add_0_r; reflexivity|reflexivity]. Qed.
Lemma part_value neg m e E n : 0 < m -> 0 <= e -> 0 <= E -> m * 2 ^ e / 2 ^ E = n -> n < 2 ^ 63 -> int64_part neg m (e - E) = signed neg n.
Proof.
  intros Hm He HE Q Hn. pose proof (pow_pos e He) as Pe. pose proof (pow_pos E HE) as PE. assert (N0 : 0 <= n) by (subst n; apply Z.div_pos; [nia|exact PE]).
  assert (R : forall v, v = n -> (if neg then wrap64 (- wrap64 v) else wrap64 v) = signed neg n).
  { intros v ->. change (2 ^ 63) with 9223372036854775808 in Hn. rewrite (wrap_small n) by (change (2 ^ 63) with 9223372036854775808; lia).
    destruct neg; cbn [signed]; [apply wrap_small; change (2 ^ 63) with 9223372036854775808; lia|reflexivity]. }
  unfold int64_part. destruct (e - E <? 0) eqn:S.
  - assert (X : m / 2 ^ (- (e - E)) = n).
    { rewrite <- Q. replace (2 ^ E) with (2 ^ (E - e) * 2 ^ e) by (rewrite <- pow_split by lia; f_equal; lia). rewrite Z.div_mul_cancel_r; [f_equal; f_equal; lia| |lia]. pose proof (pow_pos (E - e) ltac:(lia)). lia. }
    assert (Y : (if bitlen m + (e - E) <=? 0 then 0 else m / 2 ^ (- (e - E))) = n).
    { destruct (bitlen m + (e - E) <=? 0) eqn:B; [|exact X]. rewrite <- X. symmetry. apply Z.div_small. split; [lia|]. destruct (bitlen_bounds m Hm) as (_ & _ & U).
      apply (Z.lt_le_trans _ _ _ U). apply Z.pow_le_mono_r; lia. }
    cbv zeta. destruct neg; rewrite Y; [exact (R n eq_refl)|exact (R n eq_refl)].
  - assert (X : m * 2 ^ (e - E) = n).
    { rewrite <- Q. replace (2 ^ e) with (2 ^ (e - E) * 2 ^ E) by (rewrite <- pow_split by lia; f_equal; lia). rewrite Z.mul_assoc, Z.div_mul by lia. reflexivity. }
    assert (L : e - E < 64).
    { destruct (Z.ltb_spec (e - E) 64) as [Y|Y]; [exact Y|exfalso]. pose proof (Z.pow_le_mono_r 2 64 (e - E) ltac:(lia) Y). change (2 ^ 64) with (2 * 2 ^ 63) in *. nia. }
    unfold int64_of. replace (e - E <? 64) with true by lia. rewrite X. cbv zeta. exact (R n eq_refl).
Qed.
(** A finite value [v] whose whole part is [n]. *)
Definition cut_to (v : bnum) (n : Z) : Prop :=
  match v with BFin m e => forall neg, int64_part neg m e = signed neg n | BZero => n = 0 | BInf => False end.
Lemma make_cut M E n : 0 < M -> 0 <= E -> 0 <= n < 2 ^ 63 -> n * 2 ^ E <= M -> M * (2 ^ 64 + 1) < (n + 1) * 2 ^ E * 2 ^ 64 -> cut_to (finite (bf_make 64 M (- E))) n.
Proof.
  intros HM HE Hn L U. destruct (round_kept M 0 HM ltac:(lia)) as (m' & e' & R & Hm' & He' & B & K). rewrite Z.pow_0_r, Z.mul_1_r in K.
  pose proof (kept_trunc M _ n E ltac:(lia) K HE Hn L U) as Q. pose proof (pow_pos E HE) as PE.
  assert (BM : bitlen M <= 64 + E).
  { apply bitlen_le; [lia|lia|]. rewrite pow_split by lia. change (2 ^ 64) with (2 * 2 ^ 63) in *. change (2 ^ 63) with 9223372036854775808 in *. set (P := 2 ^ E) in *.
    assert ((n + 1) * P <= 9223372036854775808 * P) by (apply Z.mul_le_mono_nonneg_r; lia). lia. }
  unfold bf_make. rewrite round_shift, R. cbn [fst snd]. replace (max_exp <? bitlen m' + (- E + e')) with false by (unfold max_exp; lia). cbn [finite cut_to]. intro neg.
  replace (- E + e') with (e' - E) by lia. apply part_value; [exact Hm'|exact He'|exact HE|exact Q|lia].
Qed.

(** ** Dividing *)
Section Quotient.
Variables (m k p q n : Z).
Hypothesis (Hm : 0 < m) (Hp : 0 < p) (Hq : 0 <= q) (Hn : 0 <= n < 2 ^ 63).
Let s := Z.max 0 (64 + 2 + bitlen p - bitlen m).
Let d := m * 2 ^ s / p.
Let M := 2 * d + (if m * 2 ^ s mod p =? 0 then 0 else 1).
Let kp := Z.max k 0.
Let kn := Z.max (- k) 0.
Lemma quotient_big : 2 ^ 65 <= d.
Proof.
  destruct (bitlen_bounds m Hm) as (B0 & B1 & _). destruct (bitlen_bounds p Hp) as (C0 & _ & C2). unfold d. apply Z.div_le_lower_bound; [exact Hp|].
  assert (S : 0 <= s) by (unfold s; lia). pose proof (pow_pos s S) as Ps. apply Z.le_trans with (2 ^ (bitlen p) * 2 ^ 65); [nia|]. rewrite <- pow_split by lia.
  apply Z.le_trans with (2 ^ (bitlen m - 1 + s)); [apply Z.pow_le_mono_r; unfold s; lia|]. rewrite pow_split by lia. nia.
Qed.
Lemma quotient_ge c : 2 * c <= M <-> c * p <= m * 2 ^ s.
Proof.
  unfold M. pose proof (Z.div_mod (m * 2 ^ s) p ltac:(lia)) as E. pose proof (Z.mod_pos_bound (m * 2 ^ s) p Hp) as R. fold d in E.
  split.
  - intro H. assert (c <= d) by (destruct (_ =? 0); lia). nia.
  - intro H. assert (c <= d) by (destruct (Z.leb_spec c d) as [X|X]; [exact X|exfalso; nia]). destruct (_ =? 0); lia.
Qed.
Lemma quotient_le : M * p <= 2 * (m * 2 ^ s) + p.
Proof. unfold M. pose proof (Z.div_mod (m * 2 ^ s) p ltac:(lia)) as E. pose proof (Z.mod_pos_bound (m * 2 ^ s) p Hp) as R. fold d in E. destruct (_ =? 0); nia. Qed.
Lemma quotient_cut :
  n * (p * 2 ^ q) * 2 ^ kn <= m * 2 ^ kp ->
  m * 2 ^ kp * (2 ^ 63 + 1) < (n + 1) * (p * 2 ^ q) * 2 ^ kn * 2 ^ 63 ->
  cut_to (bf_quo 64 m k p q) n.
Proof.
  intros L U. set (E := q + s + 1 - k). assert (S : 0 <= s) by (unfold s; lia). pose proof quotient_big as QB. pose proof (pow_pos s S) as Ps. pose proof (pow_pos q Hq) as Pq.
  pose proof (pow_pos kp ltac:(unfold kp; lia)) as Pkp. pose proof (pow_pos kn ltac:(unfold kn; lia)) as Pkn.
  assert (HE : 0 <= q + s - k).
  { destruct (Z.leb_spec 0 (q + s - k)) as [X|X]; [exact X|exfalso]. pose proof (quotient_ge (2 ^ 65)) as (_ & _).
    assert (D : 2 ^ 65 * p <= m * 2 ^ s) by (apply quotient_ge; unfold M; destruct (_ =? 0); lia).
    assert (kn = 0) by (unfold kn; lia). assert (Ek : 2 ^ kp = 2 ^ s * 2 ^ q * 2 ^ (k - s - q)) by (rewrite <- !pow_split by lia; f_equal; unfold kp; lia).
    pose proof (pow_pos (k - s - q) ltac:(lia)) as Pd. rewrite H in U. rewrite Z.pow_0_r, Z.mul_1_r in U.
    assert (G : 2 ^ 65 * p * 2 ^ q <= m * 2 ^ kp).
    { rewrite Ek. replace (m * (2 ^ s * 2 ^ q * 2 ^ (k - s - q))) with (m * 2 ^ s * 2 ^ q * 2 ^ (k - s - q)) by ring. apply Z.le_trans with (m * 2 ^ s * 2 ^ q * 1); [nia|]. apply Z.mul_le_mono_nonneg_l; nia. }
    change (2 ^ 65) with (4 * 2 ^ 63) in G. set (V := m * 2 ^ kp) in *. set (T := p * 2 ^ q) in *. assert (0 < T) by (unfold T; nia). replace (4 * 2 ^ 63 * p * 2 ^ q) with (4 * 2 ^ 63 * T) in G by (unfold T; ring).
    assert ((n + 1) * T <= 2 ^ 63 * T) by (apply Z.mul_le_mono_nonneg_r; lia). change (2 ^ 63) with 9223372036854775808 in *. lia. }
  assert (MB : 2 ^ 66 <= M) by (unfold M; change (2 ^ 66) with (2 * 2 ^ 65); destruct (_ =? 0); lia).
  assert (PE : 2 ^ E = 2 * 2 ^ (q + s - k)) by (unfold E; replace (q + s + 1 - k) with (1 + (q + s - k)) by lia; apply pow_split; lia).
  pose proof (pow_pos (q + s - k) HE) as Pe.
  assert (EK : 2 ^ (q + s - k) * 2 ^ kp = 2 ^ q * 2 ^ s * 2 ^ kn) by (rewrite <- !pow_split by (unfold kn, kp; lia); f_equal; unfold kn, kp; lia).
  assert (LM : n * 2 ^ E <= M).
  { rewrite PE. replace (n * (2 * 2 ^ (q + s - k))) with (2 * (n * 2 ^ (q + s - k))) by ring. apply quotient_ge.
    apply Z.mul_le_mono_pos_r with (2 ^ kp); [exact Pkp|]. replace (n * 2 ^ (q + s - k) * p * 2 ^ kp) with (n * p * (2 ^ (q + s - k) * 2 ^ kp)) by ring. rewrite EK.
    replace (n * p * (2 ^ q * 2 ^ s * 2 ^ kn)) with (n * (p * 2 ^ q) * 2 ^ kn * 2 ^ s) by ring. replace (m * 2 ^ s * 2 ^ kp) with (m * 2 ^ kp * 2 ^ s) by ring. apply Z.mul_le_mono_nonneg_r; lia. }
  assert (UM : M * (2 ^ 64 + 1) < (n + 1) * 2 ^ E * 2 ^ 64).
  { pose proof quotient_le as QL. set (A := m * 2 ^ s) in *. set (T := (n + 1) * 2 ^ (q + s - k)).
    assert (UA : A * (2 ^ 63 + 1) < T * p * 2 ^ 63).
    { apply Z.mul_lt_mono_pos_r with (2 ^ kp); [exact Pkp|]. replace (A * (2 ^ 63 + 1) * 2 ^ kp) with (m * 2 ^ kp * (2 ^ 63 + 1) * 2 ^ s) by (unfold A; ring).
      replace (T * p * 2 ^ 63 * 2 ^ kp) with ((n + 1) * p * (2 ^ (q + s - k) * 2 ^ kp) * 2 ^ 63) by (unfold T; ring). rewrite EK.
      replace ((n + 1) * p * (2 ^ q * 2 ^ s * 2 ^ kn) * 2 ^ 63) with ((n + 1) * (p * 2 ^ q) * 2 ^ kn * 2 ^ 63 * 2 ^ s) by ring. apply Z.mul_lt_mono_pos_r; assumption. }
    replace ((n + 1) * 2 ^ E * 2 ^ 64) with (2 * T * 2 ^ 64) by (rewrite PE; unfold T; ring).
    assert (G1 : 2 ^ 66 * p <= M * p) by (apply Z.mul_le_mono_nonneg_r; lia). set (Mp := M * p) in *.
    apply Z.mul_lt_mono_pos_r with p; [exact Hp|]. replace (M * (2 ^ 64 + 1) * p) with (Mp * (2 ^ 64 + 1)) by (unfold Mp; ring).
    replace (2 * T * 2 ^ 64 * p) with (4 * (T * p * 2 ^ 63)) by (change (2 ^ 64) with (2 * 2 ^ 63); ring). set (Z0 := T * p * 2 ^ 63) in *.
    change (2 ^ 66) with (8 * 2 ^ 63) in G1. change (2 ^ 64) with (2 * 2 ^ 63). change (2 ^ 63) with 9223372036854775808 in *. lia. }
  unfold bf_quo. fold s. fold d. fold M. cbv zeta. replace (k - q - s - 1) with (- E) by (unfold E; lia).
  assert (M0 : 0 < M) by lia. destruct (bitlen M + - E <? min_exp) eqn:O.
  - cbn [cut_to]. destruct (bitlen_bounds M M0) as (_ & _ & MU). destruct (Z.eq_dec n 0) as [Z0|NZ]; [exact Z0|exfalso].
    assert (2 ^ bitlen M <= 2 ^ E) by (apply Z.pow_le_mono_r; unfold min_exp in O; lia). nia.
  - apply (make_cut M E n M0 ltac:(lia) Hn LM UM).
Qed.
End Quotient.

(** ** Powers of five *)
Lemma pow5_exact55 e : 0 <= e <= 55 -> bf_pow5 e = Some (5 ^ e, 0).
Proof.
  intro H. assert (Q : exact5 e = true) by (apply (zrange_forall exact5 0 56); [vm_compute; reflexivity|lia]).
  unfold exact5 in Q. destruct (bf_pow5 e) as [(m & k)|]; [|discriminate]. apply andb_true_iff in Q. destruct Q as (Q1 & Q2).
  apply Z.eqb_eq in Q1, Q2. subst. reflexivity.
Qed.
Lemma pow5_form P : 0 <= P <= 2 ^ 32 ->
  match bf_pow5 P with
  | Some (p, q) => 0 < p /\ 0 <= q /\ p * 2 ^ q * (2 ^ 128 - P) <= 5 ^ P * 2 ^ 128 /\ 5 ^ P * (2 ^ 128 - P) <= p * 2 ^ q * 2 ^ 128
  | None => 2 ^ max_exp <= 2 * 5 ^ P
  end.
Proof.
  intro H. assert (V : value_of (2 ^ max_exp) P (5 ^ P) (bf_pow5 P)) by (apply pow5_value; [exact limit|exact H]).
  destruct (bf_pow5 P) as [(p & q)|] eqn:E; cbn [value_of] in V; [|exact V]. destruct V as (V1 & V2 & _). split; [exact V1|]. split; [exact V2|]. apply pow5_between; assumption.
Qed.
Lemma pow5_below K j P : 0 <= j -> 0 <= P <= 3 * j -> 1 + 7 * j < K -> 2 * 5 ^ P < 2 ^ K.
Proof.
  intros Hj H HK. assert (A : 5 ^ P <= 2 ^ (7 * j)).
  { apply Z.le_trans with (5 ^ (3 * j)); [apply Z.pow_le_mono_r; lia|]. rewrite Z.pow_mul_r, (Z.pow_mul_r 2 7) by lia. apply Z.pow_le_mono_l. split; [lia|]. change (5 ^ 3) with 125. change (2 ^ 7) with 128. lia. }
  assert (B : 2 * 2 ^ (7 * j) = 2 ^ (1 + 7 * j)) by (rewrite pow_split by lia; reflexivity).
  assert (C : 2 ^ (1 + 7 * j) < 2 ^ K) by (apply Z.pow_lt_mono_r; lia). lia.
Qed.
Lemma pow5_finite P : 0 <= P <= 2 ^ 29 -> 2 * 5 ^ P < 2 ^ max_exp.
Proof.
  intro H. apply (pow5_below max_exp 178956971 P); [lia| |reflexivity]. change (2 ^ 29) with 536870912 in H. lia.
Qed.

(** ** Every value *)
Lemma ratio_le N D A B u w : 0 < D -> 0 < B -> N * B = A * D -> u * D <= N * w -> u * B <= A * w.
Proof.
  intros HD HB E H. apply Z.mul_le_mono_pos_r with D; [exact HD|]. replace (A * w * D) with (A * D * w) by ring. rewrite <- E. replace (u * B * D) with (u * D * B) by ring.
  replace (N * B * w) with (N * w * B) by ring. apply Z.mul_le_mono_nonneg_r; [lia|exact H].
Qed.
Lemma ratio_lt N D A B u w : 0 < D -> 0 < B -> N * B = A * D -> N * w < u * D -> A * w < u * B.
Proof.
  intros HD HB E H. apply Z.mul_lt_mono_pos_r with D; [exact HD|]. replace (A * w * D) with (A * D * w) by ring. rewrite <- E. replace (u * B * D) with (u * D * B) by ring.
  replace (N * B * w) with (N * w * B) by ring. apply Z.mul_lt_mono_pos_r; [exact HB|exact H].
Qed.
Lemma divided_cut m k P p q n : 0 < m -> 0 < P <= 2 ^ 32 -> 0 <= n < 2 ^ 63 -> bf_pow5 P = Some (p, q) ->
  let A := m * 2 ^ Z.max k 0 in let B := 5 ^ P * 2 ^ Z.max (- k) 0 in
  n * B <= A -> A * (2 ^ 62 + 1) < (n + 1) * B * 2 ^ 62 -> (P <= 55 \/ n * B * (2 ^ 62 + 1) <= A * 2 ^ 62) ->
  cut_to (bf_quo 64 m k p q) n.
Proof.
  intros Hm HP Hn E A B L U S. pose proof (pow5_form P ltac:(lia)) as F. rewrite E in F. destruct F as (Hp & Hq & F1 & F2).
  pose proof (pow_pos q Hq) as Pq. pose proof (pow_pos (Z.max (- k) 0) ltac:(lia)) as Pn. pose proof (Z.pow_pos_nonneg 5 P ltac:(lia) ltac:(lia)) as P5.
  set (T := p * 2 ^ q) in *. set (G := 2 ^ Z.max (- k) 0) in *.
  assert (T0 : 0 < T) by (unfold T; nia). change (2 ^ 32) with 4294967296 in HP. change (2 ^ 128) with 340282366920938463463374607431768211456 in *.
  set (n1 := n + 1) in *. assert (N1 : 0 < n1) by (unfold n1; lia).
  apply quotient_cut; [exact Hm|exact Hp|exact Hq|exact Hn| |]; fold T; fold G; fold A.
  - destruct S as [S|S].
    + rewrite pow5_exact55 in E by lia. injection E as E1 E2. replace T with (5 ^ P) by (unfold T; rewrite <- E1, <- E2; ring). unfold B in L. rewrite <- Z.mul_assoc. exact L.
    + assert (X : T * 2 ^ 62 <= 5 ^ P * (2 ^ 62 + 1)) by (change (2 ^ 62) with 4611686018427387904; nia).
      apply Z.mul_le_mono_pos_r with (2 ^ 62); [reflexivity|]. apply Z.le_trans with (n * B * (2 ^ 62 + 1)); [|exact S]. unfold B.
      replace (n * T * G * 2 ^ 62) with (n * G * (T * 2 ^ 62)) by ring. replace (n * (5 ^ P * G) * (2 ^ 62 + 1)) with (n * G * (5 ^ P * (2 ^ 62 + 1))) by ring.
      apply Z.mul_le_mono_nonneg_l; [nia|exact X].
  - fold n1. assert (X : 5 ^ P * 2 ^ 62 * (2 ^ 63 + 1) <= T * 2 ^ 63 * (2 ^ 62 + 1)) by (change (2 ^ 62) with 4611686018427387904; change (2 ^ 63) with 9223372036854775808; nia).
    apply Z.mul_lt_mono_pos_r with (2 ^ 62 + 1); [reflexivity|]. replace (A * (2 ^ 63 + 1) * (2 ^ 62 + 1)) with (A * (2 ^ 62 + 1) * (2 ^ 63 + 1)) by ring.
    apply Z.lt_le_trans with (n1 * B * 2 ^ 62 * (2 ^ 63 + 1)); [apply Z.mul_lt_mono_pos_r; [reflexivity|exact U]|]. unfold B.
    replace (n1 * (5 ^ P * G) * 2 ^ 62 * (2 ^ 63 + 1)) with (n1 * G * (5 ^ P * 2 ^ 62 * (2 ^ 63 + 1))) by ring.
    replace (n1 * T * G * 2 ^ 63 * (2 ^ 62 + 1)) with (n1 * G * (T * 2 ^ 63 * (2 ^ 62 + 1))) by ring. apply Z.mul_le_mono_nonneg_l; [nia|exact X].
Qed.
Lemma exact_cut m k n : 0 < m -> 0 <= k -> m * 2 ^ k = n -> n < 2 ^ 63 -> cut_to (finite (bf_make 64 m k)) n.
Proof.
  intros Hm Hk E H. pose proof (pow_pos k Hk) as P. assert (M63 : m < 2 ^ 63) by nia.
  assert (K : k < 63) by (destruct (Z.ltb_spec k 63) as [X|X]; [exact X|exfalso; pose proof (Z.pow_le_mono_r 2 63 k ltac:(lia) X); nia]).
  assert (B : bitlen m <= 63) by (apply bitlen_le; lia). rewrite bf_make_small; [|split; [lia|]; apply Z.lt_trans with (2 ^ 63); [exact M63|reflexivity]|unfold max_exp; lia].
  cbn [finite cut_to]. intro neg. replace k with (k - 0) by lia. apply part_value; [exact Hm|exact Hk|lia| |exact H]. rewrite Z.pow_0_r, Z.div_1_r. exact E.
Qed.
Lemma kept_small v w : v < 2 ^ 64 -> kept64 v w -> w = v.
Proof.
  intros H K. destruct K as [_|k q Hk B _ _]; [reflexivity|exfalso]. pose proof (Z.pow_le_mono_r 2 64 (63 + k) ltac:(lia) ltac:(lia)). lia.
Qed.
Lemma value_cut m f b x n : 0 <= m -> 0 <= f -> b = 10 \/ b = 2 -> in_scale m f x -> 0 <= n < 2 ^ 63 -> whole_part m f b x n ->
  exists v, float_value m f b x = Some v /\ cut_to v n.
Proof.
  intros Hm Hf Hb (_ & SC) Hn (L & U & S & Q). unfold float_value. destruct (m =? 0) eqn:M0.
  - exists BZero. split; [reflexivity|]. cbn [cut_to]. assert (m = 0) by lia. subst m. unfold num in L. rewrite Z.mul_0_l in L. unfold den in L.
    pose proof (Z.pow_pos_nonneg 10 f ltac:(lia) Hf). pose proof (Z.pow_pos_nonneg b (Z.max (- x) 0) ltac:(lia) ltac:(lia)). nia.
  - assert (Pm : 0 < m) by lia. destruct SC as [SC|SC]; [lia|].
    replace ((bitlen m - f + x <? min_exp) || (max_exp <? bitlen m - f + x)) with false by (unfold bitlen, min_exp, max_exp; rewrite M0; lia).
    set (g := if b =? 10 then x - f else - f). assert (Pl : places f b x = - g) by (unfold places, g; destruct (b =? 10); lia). rewrite Pl in S, Q.
    assert (D0 : 0 < den f b x) by (unfold den; pose proof (Z.pow_pos_nonneg 10 f ltac:(lia) Hf); pose proof (Z.pow_pos_nonneg b (Z.max (- x) 0) ltac:(lia) ltac:(lia)); nia).
    pose proof (pow_pos (Z.max (x - f) 0) ltac:(lia)) as Pk1. pose proof (pow_pos (Z.max (- (x - f)) 0) ltac:(lia)) as Pk2.
    assert (E2 : forall a c, 0 <= a -> 0 <= c -> c - a = x - f -> 2 ^ c * 2 ^ Z.max (- (x - f)) 0 = 2 ^ Z.max (x - f) 0 * 2 ^ a).
    { intros a c Ha Hc Hac. rewrite <- !pow_split by lia. f_equal. lia. }
    assert (Ratio : g <= 0 -> num m b x * (5 ^ (- g) * 2 ^ Z.max (- (x - f)) 0) = m * 2 ^ Z.max (x - f) 0 * den f b x).
    { intro G. unfold num, den. destruct Hb as [->| ->].
      - change (10 =? 10) with true in g. rewrite !ten_two_five by lia.
        assert (X5 : 5 ^ Z.max x 0 * 5 ^ (- g) = 5 ^ f * 5 ^ Z.max (- x) 0) by (rewrite <- !Z.pow_add_r by lia; f_equal; unfold g; lia).
        pose proof (E2 (f + Z.max (- x) 0) (Z.max x 0) ltac:(lia) ltac:(lia) ltac:(lia)) as X2. rewrite pow_split in X2 by lia.
        replace (m * (5 ^ Z.max x 0 * 2 ^ Z.max x 0) * (5 ^ (- g) * 2 ^ Z.max (- (x - f)) 0)) with (m * (5 ^ Z.max x 0 * 5 ^ (- g)) * (2 ^ Z.max x 0 * 2 ^ Z.max (- (x - f)) 0)) by ring.
        rewrite X5, X2. ring.
      - change (2 =? 10) with false in g. rewrite ten_two_five by lia. replace (- g) with f by (unfold g; lia).
        pose proof (E2 (f + Z.max (- x) 0) (Z.max x 0) ltac:(lia) ltac:(lia) ltac:(lia)) as X2. rewrite pow_split in X2 by lia.
        replace (m * 2 ^ Z.max x 0 * (5 ^ f * 2 ^ Z.max (- (x - f)) 0)) with (m * 5 ^ f * (2 ^ Z.max x 0 * 2 ^ Z.max (- (x - f)) 0)) by ring. rewrite X2. ring. }
    destruct (g =? 0) eqn:G0.
    + assert (G : g = 0) by lia. eexists. split; [reflexivity|]. specialize (Ratio ltac:(lia)). rewrite G in Ratio. change (5 ^ (- 0)) with 1 in Ratio. rewrite Z.mul_1_l in Ratio.
      pose proof (ratio_le _ _ _ _ n 1 D0 Pk2 Ratio ltac:(lia)) as L'. pose proof (ratio_lt _ _ _ _ ((n + 1) * 2 ^ 62) (2 ^ 62 + 1) D0 Pk2 Ratio ltac:(lia)) as U'. rewrite Z.mul_1_r in L'.
      destruct (Z.leb_spec 0 (x - f)) as [K|K].
      * apply exact_cut; [exact Pm|exact K| |lia]. replace (Z.max (x - f) 0) with (x - f) in * by lia. replace (Z.max (- (x - f)) 0) with 0 in * by lia. change (2 ^ 0) with 1 in *.
        set (V := m * 2 ^ (x - f)) in *. change (2 ^ 62) with 4611686018427387904 in *. lia.
      * replace (x - f) with (- (f - x)) by lia. apply make_cut; [exact Pm|lia|exact Hn| |]; replace (Z.max (x - f) 0) with 0 in * by lia; replace (Z.max (- (x - f)) 0) with (f - x) in * by lia; change (2 ^ 0) with 1 in *; rewrite Z.mul_1_r in *.
        -- exact L'.
        -- set (V := 2 ^ (f - x)) in *. replace ((n + 1) * 2 ^ 62 * V) with ((n + 1) * V * 2 ^ 62) in U' by ring. set (W := (n + 1) * V) in *. change (2 ^ 64) with 18446744073709551616. change (2 ^ 62) with 4611686018427387904 in *. lia.
    + destruct (g <? 0) eqn:G1.
      * specialize (Ratio ltac:(lia)). pose proof (Z.pow_pos_nonneg 5 (- g) ltac:(lia) ltac:(lia)) as P5. assert (B0 : 0 < 5 ^ (- g) * 2 ^ Z.max (- (x - f)) 0) by nia.
        pose proof (ratio_le _ _ _ _ n 1 D0 B0 Ratio ltac:(lia)) as L'. pose proof (ratio_lt _ _ _ _ ((n + 1) * 2 ^ 62) (2 ^ 62 + 1) D0 B0 Ratio ltac:(lia)) as U'. rewrite Z.mul_1_r in L'.
        pose proof (pow5_form (- g) ltac:(change (2 ^ 29) with 536870912 in Q; change (2 ^ 32) with 4294967296 in *; lia)) as F.
        destruct (bf_pow5 (- g)) as [(p & q)|] eqn:E5.
        -- eexists. split; [reflexivity|]. apply (divided_cut m (x - f) (- g) p q n Pm); [change (2 ^ 29) with 536870912 in Q; change (2 ^ 32) with 4294967296 in *; lia|exact Hn|exact E5|exact L'| |].
           ++ replace ((n + 1) * (5 ^ (- g) * 2 ^ Z.max (- (x - f)) 0) * 2 ^ 62) with ((n + 1) * 2 ^ 62 * (5 ^ (- g) * 2 ^ Z.max (- (x - f)) 0)) by ring. exact U'.
           ++ destruct S as [S|S]; [left; exact S|right]. pose proof (ratio_le _ _ _ _ (n * (2 ^ 62 + 1)) (2 ^ 62) D0 B0 Ratio ltac:(lia)) as S'.
              replace (n * (5 ^ (- g) * 2 ^ Z.max (- (x - f)) 0) * (2 ^ 62 + 1)) with (n * (2 ^ 62 + 1) * (5 ^ (- g) * 2 ^ Z.max (- (x - f)) 0)) by ring. exact S'.
        -- exists BZero. split; [reflexivity|]. cbn [cut_to]. destruct Q as [Q|(Q & _)]; [exfalso|exact Q]. assert (R : 0 <= - g <= 2 ^ 29) by (clear F; lia). pose proof (pow5_finite (- g) R) as X. exact (Z.lt_irrefl _ (Z.le_lt_trans _ _ _ F X)).
      * assert (Hb10 : b = 10) by (destruct Hb as [Hb|Hb]; [exact Hb|exfalso; subst b; assert (g = - f) by reflexivity; lia]). subst b. assert (Gx : g = x - f) by reflexivity.
        assert (V : m * 10 ^ g = n).
        { assert (EN : num m 10 x = m * 10 ^ g * den f 10 x).
          { unfold num, den. replace (Z.max x 0) with x by lia. replace (Z.max (- x) 0) with 0 by lia. rewrite Z.pow_0_r, Z.mul_1_r. rewrite <- Z.mul_assoc, <- Z.pow_add_r by lia. f_equal. f_equal. lia. }
          rewrite EN in L, U. set (W := m * 10 ^ g) in *. set (D := den f 10 x) in *. assert (n <= W) by nia. assert (W < n + 1); [|lia].
          destruct (Z.ltb_spec W (n + 1)) as [X|X]; [exact X|exfalso]. assert (Y : (n + 1) * D <= W * D) by nia. change (2 ^ 62) with 4611686018427387904 in U. assert (0 < (n + 1) * D) by nia. set (a := W * D) in *. set (c := (n + 1) * D) in *. lia. }
        destruct (scan_kept m g Pm ltac:(lia) ltac:(rewrite V; apply Z.lt_trans with (2 ^ 63); [lia|reflexivity])) as (m' & e' & Sc & Hm' & He' & K).
        assert (W : m' * 2 ^ e' = n) by (rewrite <- V; apply kept_small; [rewrite V; apply Z.lt_trans with (2 ^ 63); [lia|reflexivity]|exact K]).
        unfold bf_scan in Sc. destruct (max_int64 <? g); [discriminate|]. rewrite M0 in Sc. destruct (max_exp <? bitlen m + g); [discriminate|]. rewrite G0 in Sc.
        rewrite <- Gx. destruct (bf_mul 64 (Some (m, g)) (bf_pow5 g)) as [(m1 & e1)|] eqn:Mu; [|discriminate]. injection Sc as -> ->.
        eexists. split; [reflexivity|]. cbn [finite cut_to]. intro neg. replace e' with (e' - 0) by lia. apply part_value; [exact Hm'|exact He'|lia| |lia]. rewrite Z.pow_0_r, Z.div_1_r. exact W.
Qed.
