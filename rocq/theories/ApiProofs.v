(** Proofs of the properties of PropApi.v. *)
From Coq Require Import Ascii String ZArith NArith Bool Lia ZifyBool List.
From Verif Require Import GoStr GoTime SpecCal StrFacts Edtf Calendar Common Level0 Level1 Level2 Parser Json Cmd CalFacts ApiFacts.
Import ListNotations.
Open Scope Z_scope.

Lemma Lower_OK d t : Lower d = OK t <-> lower_ts d = Some t.
Proof. unfold Lower, lower_ts, ts_time. destruct (d_timestamp _); (split; intro H; [first [discriminate|injection H as <-; reflexivity]..]). Qed.
Lemma Upper_OK d t : Upper d = OK t <-> upper_ts d = Some t.
Proof. unfold Upper, upper_ts, ts_time. destruct (d_timestamp _); (split; intro H; [first [discriminate|injection H as <-; reflexivity]..]). Qed.
Lemma Lower_Err d : (exists e, Lower d = Err e) <-> lower_ts d = None.
Proof. unfold Lower, lower_ts. destruct (d_timestamp _); split; intro H; try destruct H as (e & H); try discriminate; eauto. Qed.
Lemma Upper_Err d : (exists e, Upper d = Err e) <-> upper_ts d = None.
Proof. unfold Upper, upper_ts. destruct (d_timestamp _); split; intro H; try destruct H as (e & H); try discriminate; eauto. Qed.

Lemma lower_upper d :
  (forall t, Lower d = OK t <-> d_timestamp (r_lower (e_start d)) = Some t) /\
  (forall t, Upper d = OK t <-> d_timestamp (r_upper (e_end d)) = Some t) /\
  (d_timestamp (r_lower (e_start d)) = None -> exists e, Lower d = Err e /\ IsNotImplemented e = true) /\
  (d_timestamp (r_upper (e_end d)) = None -> exists e, Upper d = Err e /\ IsNotImplemented e = true).
Proof.
  split; [apply Lower_OK|]. split; [apply Upper_OK|]. unfold Lower, Upper.
  split; intro H; rewrite H; eexists; split; reflexivity.
Qed.
Lemma not_set_refuted : exists s d e, ParseString s = OK d /\ Lower d = Err e /\ IsNotSet e = false.
Proof.
  exists ($"../1985"). eexists. eexists. split; [vm_compute; reflexivity|]. split; vm_compute; reflexivity.
Qed.

Lemma after_spec d u :
  (IsOpen (e_edtf d) = true -> After d u = OK false) /\
  (IsOpen (e_edtf d) = false ->
    (forall b, After d u = OK b <-> exists lo up, Lower d = OK lo /\ Upper u = OK up /\ (b = true <-> up <= lo)) /\
    ((exists e, After d u = Err e) <-> (exists e, Lower d = Err e) \/ (exists e, Upper u = Err e))).
Proof.
  rewrite After_cases. split; intros ->; [reflexivity|]. split.
  - intro b. split.
    + destruct (upper_ts u) as [t|] eqn:Eu; [|discriminate]. destruct (lower_ts d) as [l|] eqn:El; [|discriminate].
      intro H. injection H as <-. exists l, t. rewrite Lower_OK, Upper_OK. repeat split; try assumption; lia.
    + intros (lo & up & H1 & H2 & H3). rewrite Lower_OK in H1. rewrite Upper_OK in H2. rewrite H1, H2.
      f_equal. destruct b, (up <=? lo) eqn:E; try reflexivity; [|destruct H3 as (_ & H3); exfalso; discriminate (H3 ltac:(lia))].
      destruct H3 as (H3 & _). specialize (H3 eq_refl). lia.
  - rewrite Lower_Err, Upper_Err.
    destruct (upper_ts u), (lower_ts d); split; try tauto; try (intros (e & H); discriminate); try (intros [H|H]; discriminate); eauto.
Qed.
Lemma before_spec d u :
  (IsOpen (e_edtf d) = true -> Before d u = OK false) /\
  (IsOpen (e_edtf d) = false ->
    (forall b, Before d u = OK b <-> exists up lo, Upper d = OK up /\ Lower u = OK lo /\ (b = true <-> up <= lo)) /\
    ((exists e, Before d u = Err e) <-> (exists e, Upper d = Err e) \/ (exists e, Lower u = Err e))).
Proof.
  rewrite Before_cases. split; intros ->; [reflexivity|]. split.
  - intro b. split.
    + destruct (lower_ts u) as [t|] eqn:Eu; [|discriminate]. destruct (upper_ts d) as [l|] eqn:El; [|discriminate].
      intro H. injection H as <-. exists l, t. rewrite Lower_OK, Upper_OK. repeat split; try assumption; lia.
    + intros (up & lo & H1 & H2 & H3). rewrite Lower_OK in H2. rewrite Upper_OK in H1. rewrite H1, H2.
      f_equal. destruct b, (up <=? lo) eqn:E; try reflexivity; [|destruct H3 as (_ & H3); exfalso; discriminate (H3 ltac:(lia))].
      destruct H3 as (H3 & _). specialize (H3 eq_refl). lia.
  - rewrite Lower_Err, Upper_Err.
    destruct (lower_ts u), (upper_ts d); split; try tauto; try (intros (e & H); discriminate); try (intros [H|H]; discriminate); eauto.
Qed.

Lemma converse d u : IsOpen (e_edtf d) = false -> IsOpen (e_edtf u) = false ->
  (forall b, Before d u = OK b <-> After u d = OK b) /\
  ((exists e, Before d u = Err e) <-> (exists e, After u d = Err e)).
Proof.
  intros Hd Hu. rewrite Before_cases, After_cases, Hd, Hu.
  destruct (lower_ts u), (upper_ts d); (split; [intro b; split; congruence|split; intros (e & H); try discriminate; eauto]).
Qed.
Lemma open_parsed x d : ParseString x = OK d -> x <> $".." -> IsOpen (e_edtf d) = false.
Proof.
  intros H Hx. rewrite (proj1 (parse_class _ _ H)). unfold IsOpen.
  replace (seqb x OPEN) with false by (symmetry; apply seqb_neq; exact Hx).
  destruct (seqb x OPEN_2012) eqn:E; [|reflexivity]. apply seqb_eq in E. subst x. vm_compute in H. discriminate.
Qed.
Lemma converse_strings x y : x <> $".." -> y <> $".." -> forall b, IsBefore x y = OK b <-> IsAfter y x = OK b.
Proof.
  intros Hx Hy b. rewrite IsBefore_cases, IsAfter_cases.
  destruct (ParseString x) as [a|?|] eqn:Ex, (ParseString y) as [c|?|] eqn:Ey; try (split; discriminate).
  apply converse; eapply open_parsed; eassumption.
Qed.

Lemma after_trans a b c lo up : Lower b = OK lo -> Upper b = OK up -> lo <= up -> IsOpen (e_edtf b) = false ->
  After a b = OK true -> After b c = OK true -> After a c = OK true.
Proof.
  rewrite Lower_OK, Upper_OK, !After_cases. intros -> -> Hle ->.
  destruct (IsOpen (e_edtf a)); [discriminate|].
  destruct (lower_ts a) as [la|]; [|discriminate]. destruct (upper_ts c) as [uc|]; [|discriminate].
  intros H1 H2. injection H1 as H1. injection H2 as H2. f_equal. lia.
Qed.
Lemma after_irrefl d lo up : Lower d = OK lo -> Upper d = OK up -> lo < up -> After d d = OK false.
Proof.
  rewrite Lower_OK, Upper_OK, After_cases. intros -> -> H. destruct (IsOpen _); [reflexivity|]. f_equal. lia.
Qed.
Lemma after_irrefl_refuted : exists s d, ParseString s = OK d /\ After d d = OK true.
Proof. exists ($"1985-04-12T23:20:30Z"). eexists. split; vm_compute; reflexivity. Qed.

Lemma between_closed d i c D I C lod upd loi upc : d <> $".." -> c <> $".." ->
  ParseString d = OK D -> ParseString i = OK I -> ParseString c = OK C ->
  Lower D = OK lod -> Upper D = OK upd -> Lower I = OK loi -> Upper C = OK upc ->
  exists b, IsBetween d i c = OK b /\ (b = true <-> loi < upd /\ lod < upc).
Proof.
  intros Hd Hc HD HI HC. rewrite !Lower_OK, !Upper_OK. intros Hlo Hup Hli Huc.
  unfold IsBetween. rewrite IsBefore_cases, HD, HI, Before_cases, (open_parsed _ _ HD Hd), Hli, Hup.
  cbn [wrap_err bind]. replace (seqb c OPEN) with false by (symmetry; apply seqb_neq; exact Hc). cbn [negb].
  destruct (upd <=? loi) eqn:E1; [exists false; split; [reflexivity|split; [discriminate|lia]]|].
  rewrite IsAfter_cases, HD, HC, After_cases, (open_parsed _ _ HD Hd), Huc, Hlo. cbn [wrap_err bind].
  destruct (upc <=? lod) eqn:E2; eexists; (split; [reflexivity|lia]).
Qed.
Lemma between_open d i D I upd loi : d <> $".." ->
  ParseString d = OK D -> ParseString i = OK I -> Upper D = OK upd -> Lower I = OK loi ->
  exists b, IsBetween d i ($"..") = OK b /\ (b = true <-> loi < upd).
Proof.
  intros Hd HD HI. rewrite !Lower_OK, !Upper_OK. intros Hup Hli.
  unfold IsBetween. rewrite IsBefore_cases, HD, HI, Before_cases, (open_parsed _ _ HD Hd), Hli, Hup.
  cbn [wrap_err bind]. change (seqb ($"..") OPEN) with true. cbn [negb].
  destruct (upd <=? loi) eqn:E1; eexists; (split; [reflexivity|lia]).
Qed.
Lemma between_parses d i c b : IsBetween d i c = OK b ->
  (exists D, ParseString d = OK D) /\ (exists I, ParseString i = OK I) /\
  (c = $".." \/ (exists C, ParseString c = OK C) \/ IsBefore d i = OK true).
Proof.
  unfold IsBetween. intro H. apply bind_OK in H. destruct H as (x & Hx & H). apply wrap_OK in Hx.
  assert (Hp : (exists D, ParseString d = OK D) /\ (exists I, ParseString i = OK I)).
  { rewrite IsBefore_cases in Hx. destruct (ParseString d), (ParseString i); try discriminate; eauto. }
  destruct Hp as (H1 & H2). split; [exact H1|]. split; [exact H2|].
  destruct x; [auto|]. destruct (seqb c OPEN) eqn:E; [left; apply seqb_eq; exact E|]. cbn [negb] in H.
  apply bind_OK in H. destruct H as (y & Hy & H). apply wrap_OK in Hy. rewrite IsAfter_cases in Hy.
  destruct (ParseString d), (ParseString c); try discriminate; eauto.
Qed.
Lemma between_refuted : exists d i c b, (forall C, ParseString c <> OK C) /\ c <> $".." /\ IsBetween d i c = OK b.
Proof.
  exists ($"1980"), ($"1990"), ($"garbage"), false. split; [intro C; vm_compute; discriminate|].
  split; [discriminate|vm_compute; reflexivity].
Qed.
Lemma between_widen d i c : IsBetween d i c = OK true -> IsBetween d i ($"..") = OK true.
Proof.
  unfold IsBetween. intro H. apply bind_OK in H. destruct H as (x & -> & H). cbn [bind].
  destruct x; [discriminate|]. reflexivity.
Qed.

Lemma unix_valid s : unix_isValid s = true <-> ~ In s [$".."; $"open"; $""; $"uuuu"].
Proof.
  unfold unix_isValid, IsOpen, IsUnknown, IsUnspecified. cbn [In].
  change OPEN with ($".."). change OPEN_2012 with ($"open"). change UNKNOWN with ($""). change UNKNOWN_2012 with ($"uuuu").
  change UNSPECIFIED with ($""). change UNSPECIFIED_2012 with ($"uuuu").
  pose proof (seqb_eq s ($"..")). pose proof (seqb_eq s ($"open")). pose proof (seqb_eq s ($"")). pose proof (seqb_eq s ($"uuuu")).
  destruct (seqb s ($"..")), (seqb s ($"open")), (seqb s ($"")), (seqb s ($"uuuu")); cbn [orb];
    (split; [intros Hx; try discriminate; intros [C|[C|[C|[C|[]]]]]; symmetry in C; intuition congruence|]);
    intro Hn; try reflexivity; exfalso; apply Hn; intuition.
Qed.
Lemma derived s r : DeriveRanges s = OK (Some r) <->
  exists d sl su el eu, ParseString s = OK d /\
    d_timestamp (r_lower (e_start d)) = Some sl /\ d_timestamp (r_upper (e_start d)) = Some su /\
    d_timestamp (r_lower (e_end d)) = Some el /\ d_timestamp (r_upper (e_end d)) = Some eu /\
    us_start (ur_outer r) = sl /\ us_end (ur_outer r) = eu /\ us_start (ur_inner r) = su /\ us_end (ur_inner r) = el.
Proof.
  unfold DeriveRanges. split.
  - destruct (unix_isValid s); [|discriminate]. cbn [negb]. intro H. apply bind_OK in H. destruct H as (d & Hd & H).
    apply wrap_OK in Hd. exists d.
    destruct (d_timestamp (r_lower (e_start d))) as [sl|]; [|discriminate].
    destruct (d_timestamp (r_upper (e_start d))) as [su|]; [|discriminate].
    destruct (d_timestamp (r_lower (e_end d))) as [el|]; [|discriminate].
    destruct (d_timestamp (r_upper (e_end d))) as [eu|]; [|discriminate].
    injection H as <-. exists sl, su, el, eu. repeat split; auto.
  - intros (d & sl & su & el & eu & Hd & H1 & H2 & H3 & H4 & H5 & H6 & H7 & H8).
    assert (Hv : unix_isValid s = true).
    { apply unix_valid. intros [<-|[<-|[<-|[<-|[]]]]]; vm_compute in Hd; try discriminate; injection Hd as <-; discriminate. }
    rewrite Hv. cbn [negb]. rewrite Hd. cbn [wrap_err bind]. rewrite H1, H2, H3, H4.
    destruct r as [[a b] [c e]]. cbn in *. subst. reflexivity.
Qed.
Lemma not_derived s :
  (In s [$".."; $"open"; $""; $"uuuu"] -> DeriveRanges s = OK None) /\
  (~ In s [$".."; $"open"; $""; $"uuuu"] ->
     (forall e, ParseString s = Err e -> exists e', DeriveRanges s = Err e') /\
     (forall d, ParseString s = OK d -> exists o, DeriveRanges s = OK o)).
Proof.
  unfold DeriveRanges. split.
  - intro H. destruct (unix_isValid s) eqn:E; [apply unix_valid in E; contradiction|reflexivity].
  - intro H. apply unix_valid in H. rewrite H. cbn [negb]. split.
    + intros e ->. cbn. eauto.
    + intros d ->. cbn [wrap_err bind].
      destruct (d_timestamp _); [|eauto]. destruct (d_timestamp _); [|eauto].
      destruct (d_timestamp _); [|eauto]. destruct (d_timestamp _); eauto.
Qed.

Lemma flip_year y : min_int64 < y <= max_int64 -> FlipYear y = - y /\ FlipYear (FlipYear y) = y.
Proof.
  unfold min_int64, max_int64. intro H. rewrite FlipYear_neg by (unfold two63; lia).
  split; [reflexivity|]. rewrite FlipYear_neg by (unfold two63; lia). lia.
Qed.
Lemma time_to_bce y m d hh mi ss : real_date y m d -> 0 <= hh <= 23 -> 0 <= mi <= 59 -> 0 <= ss <= 59 ->
  TimeToBCE (instant y m d hh mi ss) = instant (- y) m d hh mi ss.
Proof. intros. apply TimeToBCE_instant; [assumption|unfold clock; lia]. Qed.
Lemma every_instant t : exists y m d hh mi ss, real_date y m d /\
  0 <= hh <= 23 /\ 0 <= mi <= 59 /\ 0 <= ss <= 59 /\ t = instant y m d hh mi ss.
Proof.
  destruct (instant_exists t) as (y & m & d & hh & mi & ss & Hr & (Hh & Hm & Hs) & Ht).
  exists y, m, d, hh, mi, ss. auto.
Qed.

Lemma IsOpen_spec s : IsOpen s = true <-> s = $".." \/ s = $"open".
Proof. unfold IsOpen. rewrite orb_true_iff, !seqb_eq. reflexivity. Qed.
Lemma IsUnspecified_spec s : IsUnspecified s = true <-> s = $"" \/ s = $"uuuu".
Proof. unfold IsUnspecified. rewrite orb_true_iff, !seqb_eq. reflexivity. Qed.

Lemma deprecated_spec s :
  (IsDeprecated s = true <-> exists r, ReplaceDeprecated s = OK r) /\
  (forall r, ReplaceDeprecated s = OK r ->
     IsDeprecated r = false /\ IsOpen r = IsOpen s /\ IsUnspecified r = IsUnspecified s /\
     (IsOpen s = true \/ IsUnspecified s = true)).
Proof.
  unfold IsDeprecated, ReplaceDeprecated, deprecated. cbn [existsb find fst snd orb].
  destruct (seqb s OPEN_2012) eqn:E1.
  - apply seqb_eq in E1. subst s. split.
    + split; [eauto|reflexivity].
    + intros r H. injection H as <-. vm_compute. auto.
  - destruct (seqb s UNSPECIFIED_2012) eqn:E2.
    + apply seqb_eq in E2. subst s. split.
      * split; [eauto|reflexivity].
      * intros r H. injection H as <-. vm_compute. auto.
    + split; [split; [discriminate|intros (r & H); discriminate]|intros r H; discriminate].
Qed.

Lemma spellings s :
  (IsOpen s = true <-> s = $".." \/ s = $"open") /\
  (IsUnspecified s = true <-> s = $"" \/ s = $"uuuu") /\
  (IsUnknown s = true <-> s = $"" \/ s = $"uuuu") /\
  IsUnknown s = IsUnspecified s /\
  (IsOpen s && IsUnspecified s = false) /\
  (IsOpen s || IsUnspecified s = true -> IsDeprecated s = false -> IsValid s = true).
Proof.
  split; [apply IsOpen_spec|]. split; [apply IsUnspecified_spec|]. split; [apply IsUnspecified_spec|].
  split; [reflexivity|]. split.
  - destruct (IsOpen s) eqn:E1, (IsUnspecified s) eqn:E2; try reflexivity.
    apply IsOpen_spec in E1. apply IsUnspecified_spec in E2. destruct E1, E2; subst; discriminate.
  - rewrite orb_true_iff, IsOpen_spec, IsUnspecified_spec. intros [[->| ->]|[->| ->]]; vm_compute; congruence.
Qed.
Lemma spellings_refuted : IsOpen ($"open") = true /\ IsValid ($"open") = false /\
  IsUnspecified ($"uuuu") = true /\ IsValid ($"uuuu") = false.
Proof. vm_compute. repeat split. Qed.

(** ** Flags *)
Lemma HasFlag_bit f x : HasFlag f x = true <-> exists i, N.testbit f i = true /\ N.testbit x i = true.
Proof.
  unfold HasFlag. rewrite negb_true_iff, N.eqb_neq. split.
  - intro H. exists (N.log2 (N.land f x)). pose proof (N.bit_log2 _ H) as Hb. rewrite N.land_spec in Hb.
    apply andb_true_iff in Hb. exact Hb.
  - intros (i & Hf & Hx) H0. assert (Hb : N.testbit (N.land f x) i = true) by (rewrite N.land_spec, Hf, Hx; reflexivity).
    rewrite H0, N.bits_0 in Hb. discriminate.
Qed.
Lemma disjoint_bit x y : N.land x y = 0%N -> forall i, N.testbit y i = true -> N.testbit x i = false.
Proof.
  intros H i Hy. assert (Hb : N.testbit (N.land x y) i = false) by (rewrite H; apply N.bits_0).
  rewrite N.land_spec, Hy, andb_true_r in Hb. exact Hb.
Qed.
Lemma HasFlag_ext f g y : (forall i, N.testbit y i = true -> N.testbit f i = N.testbit g i) -> HasFlag f y = HasFlag g y.
Proof.
  intro H. destruct (HasFlag g y) eqn:E.
  - apply HasFlag_bit in E. destruct E as (i & Hg & Hy). apply HasFlag_bit. exists i. rewrite H by exact Hy. auto.
  - destruct (HasFlag f y) eqn:E'; [|reflexivity]. apply HasFlag_bit in E'. destruct E' as (i & Hf & Hy).
    rewrite H in Hf by exact Hy. rewrite <- E. symmetry. apply HasFlag_bit. eauto.
Qed.
Lemma add_flag f x y :
  (x <> 0%N -> HasFlag (AddFlag f x) x = true) /\
  (forall i, N.testbit (AddFlag f x) i = N.testbit f i || N.testbit x i) /\
  (N.land x y = 0%N -> HasFlag (AddFlag f x) y = HasFlag f y).
Proof.
  unfold AddFlag. split; [|split].
  - intro H. apply HasFlag_bit. exists (N.log2 x). rewrite N.lor_spec, (N.bit_log2 x H). split; [apply orb_true_r|reflexivity].
  - intro i. apply N.lor_spec.
  - intro H. apply HasFlag_ext. intros i Hi. rewrite N.lor_spec, (disjoint_bit x y H i Hi), orb_false_r. reflexivity.
Qed.
Lemma small_bits f i : (f < 2 ^ 32)%N -> (32 <= i)%N -> N.testbit f i = false.
Proof.
  intros Hf Hi. destruct (N.eq_dec f 0) as [->|Hn]; [apply N.bits_0|].
  apply N.bits_above_log2. apply N.log2_lt_pow2; [lia|].
  apply N.lt_le_trans with (2 ^ 32)%N; [exact Hf|]. apply N.pow_le_mono_r; lia.
Qed.
Lemma ones_bit i : N.testbit 4294967295 i = (i <? 32)%N.
Proof.
  change 4294967295%N with (N.ones 32). destruct (i <? 32)%N eqn:E.
  - apply N.ones_spec_low. lia.
  - apply N.ones_spec_high. lia.
Qed.
Lemma clear_bits f x i : (f < 2 ^ 32)%N -> N.testbit (ClearFlag f x) i = N.testbit f i && negb (N.testbit x i).
Proof.
  intro Hf. unfold ClearFlag. rewrite N.land_spec, N.lxor_spec, ones_bit.
  destruct (i <? 32)%N eqn:E; [rewrite xorb_true_r; reflexivity|].
  rewrite (small_bits f i Hf) by lia. reflexivity.
Qed.
Lemma clear_flag f x y : (f < 2 ^ 32)%N -> (x < 2 ^ 32)%N ->
  HasFlag (ClearFlag f x) x = false /\
  (forall i, N.testbit (ClearFlag f x) i = N.testbit f i && negb (N.testbit x i)) /\
  (N.land x y = 0%N -> HasFlag (ClearFlag f x) y = HasFlag f y).
Proof.
  intros Hf Hx. split; [|split].
  - destruct (HasFlag _ x) eqn:E; [|reflexivity]. apply HasFlag_bit in E. destruct E as (i & H1 & H2).
    rewrite clear_bits, H2, andb_false_r in H1 by exact Hf. discriminate.
  - intro i. apply clear_bits; exact Hf.
  - intro H. apply HasFlag_ext. intros i Hi. rewrite clear_bits, (disjoint_bit x y H i Hi), andb_true_r by exact Hf. reflexivity.
Qed.
Lemma toggle_flag f x y : ToggleFlag (ToggleFlag f x) x = f /\
  (forall i, N.testbit (ToggleFlag f x) i = xorb (N.testbit f i) (N.testbit x i)) /\
  (N.land x y = 0%N -> HasFlag (ToggleFlag f x) y = HasFlag f y).
Proof.
  unfold ToggleFlag. split; [|split].
  - rewrite N.lxor_assoc, N.lxor_nilpotent, N.lxor_0_r. reflexivity.
  - intro i. apply N.lxor_spec.
  - intro H. apply HasFlag_ext. intros i Hi. rewrite N.lxor_spec, (disjoint_bit x y H i Hi), xorb_false_r. reflexivity.
Qed.
Lemma named_flags i j a b :
  nth_error [ALL; ANY; DAY; WEEK; MONTH; YEAR; DECADE; CENTURY; MILLENIUM] i = Some a ->
  nth_error [ALL; ANY; DAY; WEEK; MONTH; YEAR; DECADE; CENTURY; MILLENIUM] j = Some b ->
  (exists k, a = (2 ^ k)%N /\ (k < 32)%N) /\ (i <> j -> N.land a b = 0%N).
Proof.
  intros Ha Hb. split.
  - clear Hb. do 9 (destruct i as [|i]; [injection Ha as <-; match goal with |- exists k, ?a = _ /\ _ => exists (N.log2 a) end; split; vm_compute; reflexivity|]).
    destruct i; discriminate.
  - intro Hij.
    do 9 (destruct i as [|i]; [injection Ha as <-; do 9 (destruct j as [|j]; [injection Hb as <-; try congruence; reflexivity|]); destruct j; discriminate|]).
    destruct i; discriminate.
Qed.
Lemma flag_tests f : IsAnnual f = HasFlag f YEAR /\ IsMonthly f = HasFlag f MONTH /\ IsDaily f = HasFlag f DAY /\
  (forall x, HasFlag f x = true <-> exists i, N.testbit f i = true /\ N.testbit x i = true).
Proof. repeat split; apply HasFlag_bit. Qed.

Lemma error_predicates l s :
  (map (fun p => p (NotImplemented l s)) [IsNotSet; IsNotImplemented; IsInvalid; IsUnsupported; IsUnrecognized] = [false; true; false; false; false]) /\
  (map (fun p => p (Invalid l s)) [IsNotSet; IsNotImplemented; IsInvalid; IsUnsupported; IsUnrecognized] = [false; false; true; false; false]) /\
  (map (fun p => p (Unsupported l s)) [IsNotSet; IsNotImplemented; IsInvalid; IsUnsupported; IsUnrecognized] = [false; false; false; true; false]) /\
  (map (fun p => p (Unrecognized l s)) [IsNotSet; IsNotImplemented; IsInvalid; IsUnsupported; IsUnrecognized] = [false; false; false; false; true]).
Proof. repeat split. Qed.
Lemma not_set_predicate : IsNotSet NotSet = false /\ IsNotImplemented NotSet = true.
Proof. split; reflexivity. Qed.

Lemma cmd_all args ds : Forall2 (fun a d => ParseString a = OK d) args ds ->
  cmd_parse args = ($"[" ++ join_with ($",") (map (fun d => print (enc_edtf d)) ds) ++ $"]", Done).
Proof. intro H. unfold cmd_parse. rewrite (parse_loop_all args ds 0 H). reflexivity. Qed.
Lemma cmd_stop good ds bad rest : Forall2 (fun a d => ParseString a = OK d) good ds ->
  (forall d, ParseString bad <> OK d) ->
  exists e, cmd_parse (good ++ bad :: rest) = ($"[" ++ join_with ($",") (map (fun d => print (enc_edtf d)) ds), e) /\ e <> Done.
Proof.
  intros H Hb. unfold cmd_parse. rewrite (parse_loop_stop good ds 0 bad rest H Hb). cbn [Nat.ltb Nat.leb].
  eexists. split; [reflexivity|]. destruct (ParseString bad); discriminate.
Qed.
