(** Lemmas for C72: the comparisons and Unix ranges of every string. *)
From Coq Require Import Ascii String ZArith NArith Bool Lia ZifyBool List.
From Verif Require Import GoStr SpecCal SpecText SpecZone SpecGrammar SpecForms SpecSpan SpecSet SpecWrap SpecReads SpecWhole SpecRefused SpecMessage SpecCompare ErrText
  StrFacts TextFacts Edtf Common Level0 Level1 Level2 Parser ApiFacts ApiProofs ReadsFacts ReadsProofs WholeProofs RefStamp RefExp RefProofs MessageProofs.
Import ListNotations.
Open Scope Z_scope.

(** ** Bounds of the parsed date *)
Definition edge_time (x : edge) : res Z := match x with At t => OK t | _ => Err (ENotImplemented [] []) end.
Lemma shown_time b x : shows b x -> d_timestamp b = match x with At t => Some t | _ => None end.
Proof. destruct x; intros (H & _); exact H. Qed.
Definition parses_to (s : str) (e : edtfdate) (lo hi : edge) : Prop :=
  ParseString s = OK e /\ Lower e = edge_time lo /\ Upper e = edge_time hi /\ e_edtf e = s /\ IsOpen (e_edtf e) = seqb s ($"..").
Lemma open_flag s e : ParseString s = OK e -> IsOpen (e_edtf e) = seqb s ($"..").
Proof.
  intro P. destruct (seqb s ($"..")) eqn:E.
  - apply seqb_eq in E. subst s. vm_compute in P. injection P as <-. reflexivity.
  - apply (open_parsed s); [exact P|]. intros ->. vm_compute in E. discriminate.
Qed.
Lemma times_of s e lo hi : ParseString s = OK e -> shows (r_lower (e_start e)) lo -> shows (r_upper (e_end e)) hi -> parses_to s e lo hi.
Proof.
  intros P L H. split; [exact P|]. split; [|split; [|split; [exact (proj1 (parse_class s e P))|exact (open_flag s e P)]]].
  - unfold Lower. rewrite (shown_time _ _ L). destruct lo; reflexivity.
  - unfold Upper. rewrite (shown_time _ _ H). destruct hi; reflexivity.
Qed.
Lemma reading_parses s lo hi : reading s lo hi -> exists e, parses_to s e lo hi.
Proof.
  intros [| |s' lv f lo' hi' T R].
  - eexists. apply times_of; [vm_compute; reflexivity|repeat split|repeat split].
  - eexists. apply times_of; [vm_compute; reflexivity|repeat split|repeat split].
  - destruct (proj1 (meaning s' lv f T lo' hi') R) as (e & P & _ & _ & L & H). exists e. exact (times_of _ _ _ _ P L H).
Qed.
Lemma parses_reading s e : ParseString s = OK e -> exists lo hi, reading s lo hi /\ parses_to s e lo hi.
Proof.
  intro P. destruct (read_strings s e P) as [(-> & _ & _ & L & H)|[(-> & _ & _ & L & H)|(lv & f & lo & hi & T & R & _ & _ & L & H)]].
  - exists Dots, Dots. split; [constructor|exact (times_of _ _ _ _ P L H)].
  - exists Blank, Blank. split; [constructor|exact (times_of _ _ _ _ P L H)].
  - exists lo, hi. split; [exact (rd_feature s lv f lo hi T R)|exact (times_of _ _ _ _ P L H)].
Qed.
Lemma outcome s : ~ borderline s -> (exists lo hi e, reading s lo hi /\ parses_to s e lo hi) \/
  (exists x, refused s x /\ ParseString s = Err x) \/ crashes s /\ ParseString s = Panic.
Proof.
  intro B. destruct (ParseString s) as [e|x|] eqn:P.
  - left. destruct (parses_reading s e P) as (lo & hi & H). exists lo, hi, e. exact H.
  - right. left. exists x. split; [exact (refused_complete s x P)|reflexivity].
  - right. right. split; [|reflexivity]. destruct (panic_complete s P); [assumption|contradiction].
Qed.
Lemma is_refused s x : ~ borderline s -> refused s x -> ParseString s = Err x.
Proof. intros B H. apply (refused_exactly s B). exact H. Qed.

(** ** Comparisons *)
Lemma not_dots s : s <> $".." -> seqb s ($"..") = false.
Proof. intro H. destruct (seqb s ($"..")) eqn:E; [apply seqb_eq in E; contradiction|reflexivity]. Qed.
Lemma unreadable_after s t r : ~ borderline s -> ~ borderline t -> unreadable s t r -> IsAfter s t = r /\ IsBefore s t = r.
Proof.
  intros Bs Bt H. unfold IsAfter, IsBefore. destruct H as [s t x w H W|s t H|s t lo hi x w H H2 W|s t lo hi H H2].
  - rewrite (is_refused s x Bs H). apply (refused_spoken s x H) in W. subst w. split; reflexivity.
  - rewrite (crashes_panic s H). split; reflexivity.
  - destruct (reading_parses _ _ _ H) as (e & P & _). rewrite P, (is_refused t x Bt H2). apply (refused_spoken t x H2) in W. subst w. split; reflexivity.
  - destruct (reading_parses _ _ _ H) as (e & P & _). rewrite P, (crashes_panic t H2). split; reflexivity.
Qed.
Lemma unset_time x : unset x -> edge_time x = Err (ENotImplemented [] []).
Proof. intros [->| ->]; reflexivity. Qed.
Lemma edge_cases x : (exists t, x = At t) \/ unset x.
Proof. unfold unset. destruct x; eauto. Qed.
Ltac parsed H := let e := fresh "e" in let P := fresh "P" in let L := fresh "L" in let U := fresh "U" in let X := fresh "X" in let O := fresh "O" in
  destruct (reading_parses _ _ _ H) as (e & P & L & U & X & O).
Lemma timed_not_dots s x hi : reading s (At x) hi -> s <> $"..".
Proof. intros R ->. parsed R. vm_compute in P. injection P as <-. vm_compute in L. discriminate. Qed.
Lemma timed_not_dots' s x lo : reading s lo (At x) -> s <> $"..".
Proof. intros R ->. parsed R. vm_compute in P. injection P as <-. vm_compute in U. discriminate. Qed.
Lemma after_read s t r : after_says s t r -> unreadable s t r \/ IsAfter s t = r.
Proof.
  intro H. destruct H as [s t r H|t lo hi H|s t lo hi lo' hi' N H H2 U'|s t lo hi lo' y N H H2 U'|s t x hi lo' y H H2 Q|s t x hi lo' y H H2 Q].
  - left. exact H.
  - right. parsed H. unfold IsAfter. rewrite P. reflexivity.
  - right. parsed H. parsed H2. unfold IsAfter, After. rewrite P, P0. cbn [text_err bind]. rewrite O, (not_dots s N), U0, (unset_time _ U'). cbn [wrap_err bind]. unfold unset_error. rewrite ?X, ?X0. reflexivity.
  - right. parsed H. parsed H2. unfold IsAfter, After. rewrite P, P0. cbn [text_err bind]. rewrite O, (not_dots s N), U0, L, (unset_time _ U'). cbn [wrap_err bind]. unfold unset_error. rewrite ?X, ?X0. reflexivity.
  - right. pose proof (timed_not_dots _ _ _ H) as N. parsed H. parsed H2. unfold IsAfter, After. rewrite P, P0. cbn [text_err bind].
    rewrite O, (not_dots s N), U0, L. cbn. replace (x <? y) with false by lia. reflexivity.
  - right. pose proof (timed_not_dots _ _ _ H) as N. parsed H. parsed H2. unfold IsAfter, After. rewrite P, P0. cbn [text_err bind].
    rewrite O, (not_dots s N), U0, L. cbn. replace (x <? y) with true by lia. reflexivity.
Qed.
Lemma before_read s t r : before_says s t r -> unreadable s t r \/ IsBefore s t = r.
Proof.
  intro H. destruct H as [s t r H|t lo hi H|s t lo hi lo' hi' N H H2 U'|s t lo hi x hi' N H H2 U'|s t lo y x hi' H H2 Q|s t lo y x hi' H H2 Q].
  - left. exact H.
  - right. parsed H. unfold IsBefore. rewrite P. reflexivity.
  - right. parsed H. parsed H2. unfold IsBefore, Before. rewrite P, P0. cbn [text_err bind]. rewrite O, (not_dots s N), L0, (unset_time _ U'). cbn [wrap_err bind]. unfold unset_error. rewrite ?X, ?X0. reflexivity.
  - right. parsed H. parsed H2. unfold IsBefore, Before. rewrite P, P0. cbn [text_err bind]. rewrite O, (not_dots s N), L0, U, (unset_time _ U'). cbn [wrap_err bind]. unfold unset_error. rewrite ?X, ?X0. reflexivity.
  - right. pose proof (timed_not_dots' _ _ _ H) as N. parsed H. parsed H2. unfold IsBefore, Before. rewrite P, P0. cbn [text_err bind].
    rewrite O, (not_dots s N), L0, U. cbn. replace (x <? y) with false by lia. reflexivity.
  - right. pose proof (timed_not_dots' _ _ _ H) as N. parsed H. parsed H2. unfold IsBefore, Before. rewrite P, P0. cbn [text_err bind].
    rewrite O, (not_dots s N), L0, U. cbn. replace (x <? y) with true by lia. reflexivity.
Qed.
Lemma after_sound s t r : ~ borderline s -> ~ borderline t -> after_says s t r -> IsAfter s t = r.
Proof. intros Bs Bt H. destruct (after_read s t r H) as [U|E]; [exact (proj1 (unreadable_after s t r Bs Bt U))|exact E]. Qed.
Lemma before_sound s t r : ~ borderline s -> ~ borderline t -> before_says s t r -> IsBefore s t = r.
Proof. intros Bs Bt H. destruct (before_read s t r H) as [U|E]; [exact (proj2 (unreadable_after s t r Bs Bt U))|exact E]. Qed.
Lemma unreadable_value s t b : ~ unreadable s t (OK b).
Proof. intro H. inversion H. Qed.
Lemma dots_dec (s : str) : s = $".." \/ s <> $"..".
Proof. destruct (seqb s ($"..")) eqn:E; [left; apply seqb_eq, E|right; intros ->; vm_compute in E; discriminate]. Qed.
Lemma after_both s t lo hi lo' hi' : reading s lo hi -> reading t lo' hi' -> exists r, after_says s t r /\ IsAfter s t = r.
Proof.
  intros R R'. assert (N' : forall r, ~ unreadable s t r).
  { intros r U. parsed R. parsed R'. destruct U as [s t x w H W|s t H|s t ? ? x w _ H W|s t ? ? _ H].
    - destruct (refused_sound _ _ H) as [E|(_ & E)]; congruence.
    - apply crashes_panic in H. congruence.
    - destruct (refused_sound _ _ H) as [E|(_ & E)]; congruence.
    - apply crashes_panic in H. congruence. }
  assert (T : exists r, after_says s t r).
  { destruct (dots_dec s) as [->|N]; [eexists; exact (as_dots t lo' hi' R')|].
    destruct (edge_cases hi') as [(y & ->)|U']; [|eexists; exact (as_no_end s t lo hi lo' hi' N R R' U')].
    destruct (edge_cases lo) as [(x & ->)|U]; [|eexists; exact (as_no_begin s t lo hi lo' y N R R' U)].
    destruct (Z_le_gt_dec y x) as [Q|Q]; eexists; [exact (as_yes s t x hi lo' y R R' Q)|exact (as_no s t x hi lo' y R R' ltac:(lia))]. }
  destruct T as (r & H). exists r. split; [exact H|]. destruct (after_read s t r H) as [U|E]; [destruct (N' r U)|exact E].
Qed.
Lemma before_both s t lo hi lo' hi' : reading s lo hi -> reading t lo' hi' -> exists r, before_says s t r /\ IsBefore s t = r.
Proof.
  intros R R'. assert (N' : forall r, ~ unreadable s t r).
  { intros r U. parsed R. parsed R'. destruct U as [s t x w H W|s t H|s t ? ? x w _ H W|s t ? ? _ H].
    - destruct (refused_sound _ _ H) as [E|(_ & E)]; congruence.
    - apply crashes_panic in H. congruence.
    - destruct (refused_sound _ _ H) as [E|(_ & E)]; congruence.
    - apply crashes_panic in H. congruence. }
  assert (T : exists r, before_says s t r).
  { destruct (dots_dec s) as [->|N]; [eexists; exact (bs_dots t lo' hi' R')|].
    destruct (edge_cases lo') as [(x & ->)|U']; [|eexists; exact (bs_no_begin s t lo hi lo' hi' N R R' U')].
    destruct (edge_cases hi) as [(y & ->)|U]; [|eexists; exact (bs_no_end s t lo hi x hi' N R R' U)].
    destruct (Z_le_gt_dec y x) as [Q|Q]; eexists; [exact (bs_yes s t lo y x hi' R R' Q)|exact (bs_no s t lo y x hi' R R' ltac:(lia))]. }
  destruct T as (r & H). exists r. split; [exact H|]. destruct (before_read s t r H) as [U|E]; [destruct (N' r U)|exact E].
Qed.
Lemma after_total s t : ~ borderline s -> ~ borderline t -> exists r, after_says s t r.
Proof.
  intros Bs Bt. destruct (outcome s Bs) as [(lo & hi & e & R & _)|[(x & R & _)|(R & _)]];
    [|eexists; apply as_unreadable; exact (ur_first s t x _ R (proj2 (refused_spoken s x R _) eq_refl))|eexists; apply as_unreadable; exact (ur_first_crash s t R)].
  destruct (outcome t Bt) as [(lo' & hi' & e' & R' & _)|[(x & R' & _)|(R' & _)]];
    [|eexists; apply as_unreadable; exact (ur_second s t lo hi x _ R R' (proj2 (refused_spoken t x R' _) eq_refl))|eexists; apply as_unreadable; exact (ur_second_crash s t lo hi R R')].
  destruct (after_both s t _ _ _ _ R R') as (r & H & _). exists r. exact H.
Qed.
Lemma before_total s t : ~ borderline s -> ~ borderline t -> exists r, before_says s t r.
Proof.
  intros Bs Bt. destruct (outcome s Bs) as [(lo & hi & e & R & _)|[(x & R & _)|(R & _)]];
    [|eexists; apply bs_unreadable; exact (ur_first s t x _ R (proj2 (refused_spoken s x R _) eq_refl))|eexists; apply bs_unreadable; exact (ur_first_crash s t R)].
  destruct (outcome t Bt) as [(lo' & hi' & e' & R' & _)|[(x & R' & _)|(R' & _)]];
    [|eexists; apply bs_unreadable; exact (ur_second s t lo hi x _ R R' (proj2 (refused_spoken t x R' _) eq_refl))|eexists; apply bs_unreadable; exact (ur_second_crash s t lo hi R R')].
  destruct (before_both s t _ _ _ _ R R') as (r & H & _). exists r. exact H.
Qed.
Lemma parsed_both {A} s t (f : edtfdate -> edtfdate -> res A) b :
  bind (text_err s (ParseString s)) (fun a => bind (text_err t (ParseString t)) (f a)) = OK b ->
  exists lo hi lo' hi', reading s lo hi /\ reading t lo' hi'.
Proof.
  destruct (ParseString s) as [e|x|] eqn:P; [|discriminate|discriminate]. destruct (ParseString t) as [e'|x|] eqn:P'; [|discriminate|discriminate]. intros _.
  destruct (parses_reading s e P) as (lo & hi & R & _). destruct (parses_reading t e' P') as (lo' & hi' & R' & _). eauto 8.
Qed.
Lemma after_values s t b : IsAfter s t = OK b <-> after_says s t (OK b).
Proof.
  split.
  - intro E. destruct (parsed_both s t After b E) as (lo & hi & lo' & hi' & R & R'). destruct (after_both s t _ _ _ _ R R') as (r & H & E'). rewrite E' in E. subst r. exact H.
  - intro H. destruct (after_read s t _ H) as [U|E]; [destruct (unreadable_value s t b U)|exact E].
Qed.
Lemma before_values s t b : IsBefore s t = OK b <-> before_says s t (OK b).
Proof.
  split.
  - intro E. destruct (parsed_both s t Before b E) as (lo & hi & lo' & hi' & R & R'). destruct (before_both s t _ _ _ _ R R') as (r & H & E'). rewrite E' in E. subst r. exact H.
  - intro H. destruct (before_read s t _ H) as [U|E]; [destruct (unreadable_value s t b U)|exact E].
Qed.
Lemma between_values d i c b : IsBetween d i c = OK b <-> between_says d i c (OK b).
Proof.
  split.
  - unfold IsBetween. destruct (IsBefore d i) as [[|]|x|] eqn:E; cbn [wrap_err bind]; try discriminate.
    + intro H. injection H as <-. apply bw_before. apply before_values. exact E.
    + apply before_values in E. destruct (dots_dec c) as [->|N].
      * change (negb (seqb ($"..") OPEN)) with false. intro H. injection H as <-. exact (bw_open d i _ E eq_refl).
      * change OPEN with ($".."). rewrite (not_dots c N). cbn [negb]. destruct (IsAfter d c) as [[|]|x|] eqn:E2; cbn [wrap_err bind]; try discriminate; intro H; injection H as <-.
        -- apply (bw_after d i c E N). apply after_values. exact E2.
        -- apply (bw_yes d i c E N). apply after_values. exact E2.
  - intro H. unfold IsBetween. remember (OK b) as r eqn:Er. destruct H as [x H|H|H|H ->|x H N H2|H N H2|H N H2|H N H2]; try discriminate Er;
      apply before_values in H; rewrite H; cbn [wrap_err bind]; try reflexivity; change OPEN with ($".."); rewrite (not_dots c N); cbn [negb];
      apply after_values in H2; rewrite H2; reflexivity.
Qed.
Lemma after_exactly s t : ~ borderline s -> ~ borderline t -> forall r, IsAfter s t = r <-> after_says s t r.
Proof.
  intros Bs Bt r. split; [|exact (after_sound s t r Bs Bt)]. intros <-. destruct (after_total s t Bs Bt) as (r & H).
  rewrite (after_sound s t r Bs Bt H). exact H.
Qed.
Lemma before_exactly s t : ~ borderline s -> ~ borderline t -> forall r, IsBefore s t = r <-> before_says s t r.
Proof.
  intros Bs Bt r. split; [|exact (before_sound s t r Bs Bt)]. intros <-. destruct (before_total s t Bs Bt) as (r & H).
  rewrite (before_sound s t r Bs Bt H). exact H.
Qed.
Lemma between_exactly d i c : ~ borderline d -> ~ borderline i -> ~ borderline c -> forall r, IsBetween d i c = r <-> between_says d i c r.
Proof.
  intros Bd Bi Bc.
  assert (S : forall r, between_says d i c r -> IsBetween d i c = r).
  { intros r H. unfold IsBetween. destruct H as [x H|H|H|H ->|x H N H2|H N H2|H N H2|H N H2];
      rewrite (before_sound d i _ Bd Bi H); try reflexivity; cbn [wrap_err bind]; change OPEN with ($".."); rewrite (not_dots c N); cbn [negb];
      rewrite (after_sound d c _ Bd Bc H2); reflexivity. }
  intro r. split; [|apply S]. intros <-.
  assert (T : exists r, between_says d i c r).
  { destruct (before_total d i Bd Bi) as ([[|]|x|] & H).
    - eexists. exact (bw_before d i c H).
    - destruct (dots_dec c) as [E|N]; [eexists; exact (bw_open d i c H E)|].
      destruct (after_total d c Bd Bc) as ([[|]|x|] & H2); eexists; [exact (bw_after d i c H N H2)|exact (bw_yes d i c H N H2)|exact (bw_failed' d i c x H N H2)|exact (bw_crash' d i c H N H2)].
    - eexists. exact (bw_failed d i c x H).
    - eexists. exact (bw_crash d i c H). }
  destruct T as (r & H). rewrite (S r H). exact H.
Qed.

(** ** Unix ranges *)
Lemma unix_special s : special_text s -> unix_isValid s = false.
Proof. intro H. destruct (unix_isValid s) eqn:E; [apply unix_valid in E; contradiction|reflexivity]. Qed.
Lemma span_parses s sp : span_of s sp -> ~ special_text s /\ exists lv f, ParseString s = OK (mkEDTF (s_start sp) (s_end sp) s lv f).
Proof.
  intros (lv & f & T & R). assert (P : ParseString s = OK (mkEDTF (s_start sp) (s_end sp) s lv f)) by (apply (whole_meaning s lv f T); eauto).
  split; [|eauto]. assert (L : 0 <= lv) by (destruct T; lia). intro H. cbn in H.
  destruct H as [<-|[<-|[<-|[<-|[]]]]]; vm_compute in P; try discriminate P.
  - apply (f_equal (fun r => match r with OK e => e_level e | _ => 0 end)) in P. cbn in P. subst lv. lia.
  - apply (f_equal (fun r => match r with OK e => e_level e | _ => 0 end)) in P. cbn in P. subst lv. lia.
Qed.
Lemma crash_plain s : crashes s -> ~ special_text s.
Proof. intros H S. apply crashes_panic in H. destruct S as [<-|[<-|[<-|[<-|[]]]]]; vm_compute in H; discriminate. Qed.
Lemma ranges_sound s r : ranges_say s r -> DeriveRanges s = r \/ borderline s /\ exists x, r = Err x.
Proof.
  assert (V : ~ special_text s -> unix_isValid s = true) by (intro H; apply unix_valid; exact H).
  intros H. unfold DeriveRanges. destruct H as [H|x N H|H|sp a b c d H (H1 & H2 & H3 & H4)|sp H N].
  - rewrite (unix_special s H). auto.
  - destruct (refused_sound s x H) as [E|(B & _)]; [left; rewrite (V N), E; reflexivity|right; eauto].
  - rewrite (V (crash_plain s H)), (crashes_panic s H). auto.
  - destruct (span_parses s sp H) as (N & lv & f & P). rewrite (V N), P. cbn [negb wrap_err bind e_start e_end]. rewrite H1, H2, H3, H4. auto.
  - left. destruct (span_parses s sp H) as (N' & lv & f & P). rewrite (V N'), P. cbn [negb wrap_err bind e_start e_end]. unfold bounds_at in N.
    destruct (d_timestamp (r_lower (s_start sp))) as [a|]; [|reflexivity]. destruct (d_timestamp (r_upper (s_start sp))) as [b|]; [|reflexivity].
    destruct (d_timestamp (r_lower (s_end sp))) as [c|]; [|reflexivity]. destruct (d_timestamp (r_upper (s_end sp))) as [d|]; [|reflexivity].
    destruct (N a b c d). repeat split.
Qed.
Lemma ranges_total s : (exists r, ranges_say s r /\ DeriveRanges s = r) \/ borderline s /\ DeriveRanges s = Panic.
Proof.
  assert (V : ~ special_text s -> unix_isValid s = true) by (intro H; apply unix_valid; exact H).
  destruct (in_dec (list_eq_dec ascii_dec) s [$".."; $"open"; $""; $"uuuu"]) as [D|D].
  { left. eexists. split; [exact (rs_special s D)|]. unfold DeriveRanges. rewrite (unix_special s D). reflexivity. }
  destruct (ParseString s) as [e|x|] eqn:P.
  - left. destruct (whole_strings s e P) as [(-> & _)|[(-> & _)|(lv & f & sp & Tk & R & _)]]; [destruct D; cbn; tauto|destruct D; cbn; tauto|].
    assert (Q : span_of s sp) by (exists lv, f; split; assumption).
    assert (T : exists o, ranges_say s (OK o)).
    { destruct (d_timestamp (r_lower (s_start sp))) as [a|] eqn:E1; [destruct (d_timestamp (r_upper (s_start sp))) as [b|] eqn:E2;
        [destruct (d_timestamp (r_lower (s_end sp))) as [c|] eqn:E3; [destruct (d_timestamp (r_upper (s_end sp))) as [d|] eqn:E4|]|]|];
        [eexists; exact (rs_all s sp a b c d Q (conj E1 (conj E2 (conj E3 E4))))|..];
        (eexists; apply (rs_some s sp Q); intros a' b' c' d' (H1 & H2 & H3 & H4); congruence). }
    destruct T as (o & T). exists (OK o). split; [exact T|]. destruct (ranges_sound s _ T) as [E|(_ & y & E)]; [exact E|discriminate].
  - left. eexists. split; [exact (rs_refused s x D (refused_complete s x P))|]. unfold DeriveRanges. rewrite (V D), P. reflexivity.
  - assert (E : DeriveRanges s = Panic) by (unfold DeriveRanges; rewrite (V D), P; reflexivity).
    destruct (panic_complete s P) as [H|H]; [left; eexists; split; [exact (rs_crash s H)|exact E]|right; split; assumption].
Qed.
Lemma ranges_exactly s : ~ borderline s -> forall r, DeriveRanges s = r <-> ranges_say s r.
Proof.
  intros B r. split.
  - intros <-. destruct (ranges_total s) as [(r & H & E)|(H & _)]; [rewrite E; exact H|contradiction].
  - intro H. destruct (ranges_sound s r H) as [E|(H' & _)]; [exact E|contradiction].
Qed.
Lemma ranges_values s o : DeriveRanges s = OK o <-> ranges_say s (OK o).
Proof.
  split.
  - intro E. destruct (ranges_total s) as [(r & H & E')|(_ & E')]; rewrite E in E'; [rewrite E'; exact H|discriminate].
  - intro H. destruct (ranges_sound s _ H) as [E|(_ & x & E)]; [exact E|discriminate].
Qed.

(** ** The texts of their errors *)
Lemma wrap_spoken m e : spoken e -> spoken (EWrap m e).
Proof.
  intros H w. split.
  - intro E. remember (EWrap m e) as x eqn:Ex. destruct E as [| | | | | | | | | | |m' e' t E]; try discriminate Ex. injection Ex as -> ->. apply H in E. subst t. reflexivity.
  - intros ->. cbn [error_text]. apply em_wrap. apply H. reflexivity.
Qed.
Lemma wrapped_spoken {A} m (x : res A) e : (forall e', x = Err e' -> spoken e') -> wrap_err m x = Err e -> spoken e.
Proof. intros H E. destruct x as [a|e'|]; cbn [wrap_err] in E; try discriminate. apply err_same in E. subst e. apply wrap_spoken. apply H. reflexivity. Qed.
Lemma bind_spoken {A B} (x : res A) (f : A -> res B) e : (forall e', x = Err e' -> spoken e') -> (forall a e', f a = Err e' -> spoken e') -> bind x f = Err e -> spoken e.
Proof. intros H G E. destruct x as [a|e'|]; cbn [bind] in E; [exact (G a e E)| |discriminate]. apply err_same in E. subst e. apply H. reflexivity. Qed.
Lemma texted_spoken {A} s (x : res A) e : text_err s x = Err e -> spoken e.
Proof. intro E. destruct x as [a|e'|]; cbn [text_err] in E; try discriminate. apply err_same in E. subst e. apply label_spoken. exact I. Qed.
Lemma lower_spoken d e : Lower d = Err e -> spoken e.
Proof. unfold Lower. destruct (d_timestamp _); intro E; [discriminate|]. apply err_same in E. subst e. apply label_spoken. exact I. Qed.
Lemma upper_spoken d e : Upper d = Err e -> spoken e.
Proof. unfold Upper. destruct (d_timestamp _); intro E; [discriminate|]. apply err_same in E. subst e. apply label_spoken. exact I. Qed.
Lemma after_spoken s t e : IsAfter s t = Err e -> spoken e.
Proof.
  apply bind_spoken; [intros e'; apply texted_spoken|]. intros a e'. apply bind_spoken; [intros e2; apply texted_spoken|]. intros b e2. unfold After. destruct (IsOpen _); [discriminate|].
  apply bind_spoken; [intros e3; apply wrapped_spoken; apply upper_spoken|]. intros u e3. apply bind_spoken; [intros e4; apply wrapped_spoken; apply lower_spoken|].
  intros l e4. destruct (_ <? _); discriminate.
Qed.
Lemma before_spoken s t e : IsBefore s t = Err e -> spoken e.
Proof.
  apply bind_spoken; [intros e'; apply texted_spoken|]. intros a e'. apply bind_spoken; [intros e2; apply texted_spoken|]. intros b e2. unfold Before. destruct (IsOpen _); [discriminate|].
  apply bind_spoken; [intros e3; apply wrapped_spoken; apply lower_spoken|]. intros u e3. apply bind_spoken; [intros e4; apply wrapped_spoken; apply upper_spoken|].
  intros l e4. destruct (_ <? _); discriminate.
Qed.
Lemma between_spoken d i c e : IsBetween d i c = Err e -> spoken e.
Proof.
  unfold IsBetween. apply bind_spoken; [intros e'; apply wrapped_spoken; apply before_spoken|]. intros [|] e'; [discriminate|]. destruct (negb _); [|discriminate].
  apply bind_spoken; [intros e2; apply wrapped_spoken; apply after_spoken|]. intros [|] e2; discriminate.
Qed.
Lemma ranges_spoken s e : DeriveRanges s = Err e -> spoken e.
Proof.
  unfold DeriveRanges. destruct (negb _); [discriminate|]. apply bind_spoken; [intros e'; apply wrapped_spoken; intros e2 H; exact (text_exactly s e2 H)|].
  intros d e'. destruct (d_timestamp _); [|discriminate]. destruct (d_timestamp _); [|discriminate]. destruct (d_timestamp _); [|discriminate]. destruct (d_timestamp _); discriminate.
Qed.
(** The texts. *)
Lemma spoken_wording e : spoken e -> forall w, error_text e = w <-> err_says e w.
Proof. intros H w. rewrite (H w). split; intros ->; reflexivity. Qed.
Theorem parse_wording s e : ParseString s = Err e -> forall w, error_text e = w <-> err_says e w.
Proof. intro H. apply spoken_wording. exact (text_exactly s e H). Qed.
Theorem string_wording s : ~ borderline s -> forall w,
  (exists e, ParseString s = Err e /\ error_text e = w) <-> (exists e, refused s e /\ err_says e w).
Proof.
  intros N w. split; intros (e & H & W); exists e; (split; [apply (refused_exactly s N); exact H|]).
  - apply (parse_wording s e H). exact W.
  - apply (spoken_wording e (refused_spoken s e H)). exact W.
Qed.
Theorem compare_wording s t e : IsAfter s t = Err e \/ IsBefore s t = Err e -> forall w, error_text e = w <-> err_says e w.
Proof. intros [H|H]; apply spoken_wording; [exact (after_spoken s t e H)|exact (before_spoken s t e H)]. Qed.
Theorem between_wording d i c e : IsBetween d i c = Err e -> forall w, error_text e = w <-> err_says e w.
Proof. intro H. apply spoken_wording. exact (between_spoken d i c e H). Qed.
Theorem ranges_wording s e : DeriveRanges s = Err e -> forall w, error_text e = w <-> err_says e w.
Proof. intro H. apply spoken_wording. exact (ranges_spoken s e H). Qed.
