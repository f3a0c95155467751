(** Sets run from their earliest to their latest member. *)
From Coq Require Import Permutation Sorted.
From Coq Require Import Ascii String ZArith NArith Bool Lia ZifyBool List.
From Verif Require Import GoStr GoTime Regex Patterns RegexSym RegexRel RegexGen SpecCal SpecText SpecGrammar SpecForms SpecSpan SpecMask SpecSet StrFacts TextFacts SplitFacts Edtf Calendar Common Level0 Level1 Level2 Parser CalFacts ApiFacts SpanFacts YmdShapes YmdFacts InvFacts GrammarFacts SetFacts SetGrammar LangFacts LangNorm LangForms LangForms2 DateFacts ParseFacts Level0Facts FormFacts SeasonFacts Level1Proofs XProofs FormProofs SigProofs OrderProofs MaskProofs.
Import ListNotations.
Open Scope Z_scope.
Ltac Zify.zify_post_hook ::= Z.div_mod_to_equations.

(** ** Sorting *)
Definition sle (a b : str) : Prop := str_leb a b = true.
Lemma sle_refl a : sle a a.
Proof. unfold sle. induction a as [|x a IH]; [reflexivity|]. cbn [str_leb]. rewrite Z.ltb_irrefl, Z.eqb_refl. exact IH. Qed.
Lemma sle_total a : forall b, str_leb a b = false -> sle b a.
Proof.
  unfold sle. induction a as [|x a IH]; intros [|y b] H; cbn [str_leb] in *; try discriminate; [reflexivity|].
  destruct (code x <? code y) eqn:E1; [discriminate|]. destruct (code x =? code y) eqn:E2.
  - replace (code y <? code x) with false by lia. replace (code y =? code x) with true by lia. auto.
  - replace (code y <? code x) with true by lia. reflexivity.
Qed.
Lemma sle_trans a : forall b c, sle a b -> sle b c -> sle a c.
Proof.
  unfold sle. induction a as [|x a IH]; intros [|y b] [|z c] H1 H2; cbn [str_leb] in *; try discriminate; try reflexivity.
  destruct (code x <? code y) eqn:E1; destruct (code y <? code z) eqn:E2.
  - replace (code x <? code z) with true by lia. reflexivity.
  - destruct (code y =? code z) eqn:E3; [|discriminate]. replace (code x <? code z) with true by lia. reflexivity.
  - destruct (code x =? code y) eqn:E3; [|discriminate]. replace (code x <? code z) with true by lia. reflexivity.
  - destruct (code x =? code y) eqn:E3; [|discriminate]. destruct (code y =? code z) eqn:E4; [|discriminate].
    replace (code x <? code z) with false by lia. replace (code x =? code z) with true by lia. eauto.
Qed.
Lemma insert_sorted x l : StronglySorted sle l -> StronglySorted sle (insert_str x l).
Proof.
  intro H. induction H as [|y l H IH F]; cbn [insert_str]; [constructor; constructor|].
  destruct (str_leb x y) eqn:E.
  - constructor; [constructor; assumption|]. constructor; [exact E|]. eapply Forall_impl; [|exact F]. intros z Hz. exact (sle_trans _ _ _ E Hz).
  - constructor; [exact IH|]. rewrite Forall_forall. intros z Hz. apply (Permutation_in _ (insert_perm x l)) in Hz.
    destruct Hz as [<-|Hz]; [apply sle_total; exact E|]. rewrite Forall_forall in F. auto.
Qed.
Lemma sort_sorted l : StronglySorted sle (sort_strs l).
Proof. induction l as [|x l IH]; cbn [sort_strs]; [constructor|]. apply insert_sorted. exact IH. Qed.
Lemma last_cons {A} (l : list A) : forall y x, last (y :: l) x = last l y.
Proof. induction l as [|z l IH]; intros y x; [reflexivity|]. change (last (y :: z :: l) x) with (last (z :: l) x). rewrite !IH. reflexivity. Qed.
Lemma sorted_last l : forall x, StronglySorted sle (x :: l) -> forall z, In z (x :: l) -> sle z (last l x).
Proof.
  induction l as [|y l IH]; intros x H z Hz.
  - destruct Hz as [<-|[]]. apply sle_refl.
  - inversion H as [|? ? H1 F]; subst. replace (last (y :: l) x) with (last l y).
    + destruct Hz as [<-|Hz]; [|apply IH; assumption]. apply (sle_trans _ y); [inversion F; assumption|]. apply IH; [exact H1|left; reflexivity].
    + symmetry. apply last_cons.
Qed.
Lemma sort_ends ps hd tl : sort_strs ps = hd :: tl -> forall t, In t ps -> sle hd t /\ sle t (last tl hd).
Proof.
  intros H t Ht. pose proof (sort_sorted ps) as S. rewrite H in S. apply (Permutation_in _ (Permutation_sym (sort_perm ps))) in Ht. rewrite H in Ht.
  split; [|exact (sorted_last _ _ S _ Ht)]. inversion S as [|? ? _ F]; subst. destruct Ht as [<-|Ht]; [apply sle_refl|]. rewrite Forall_forall in F. auto.
Qed.
(** The order is antisymmetric. *)
Lemma sle_antisym a : forall b, sle a b -> sle b a -> a = b.
Proof.
  unfold sle. induction a as [|x a IH]; intros [|y b] H1 H2; cbn [str_leb] in *; try discriminate; [reflexivity|].
  destruct (code x <? code y) eqn:E1; [replace (code y <? code x) with false in H2 by lia; replace (code y =? code x) with false in H2 by lia; discriminate|].
  destruct (code x =? code y) eqn:E2; [|discriminate]. replace (code y <? code x) with false in H2 by lia. replace (code y =? code x) with true in H2 by lia.
  f_equal; [apply code_inj; lia|auto].
Qed.

(** ** Dates in the order of their text *)
Lemma sle_app a : forall b r r', length a = length b -> sle (a ++ r) (b ++ r') -> a = b /\ sle r r' \/ sle a b /\ a <> b.
Proof.
  unfold sle. induction a as [|x a IH]; intros [|y b] r r' L H; try discriminate; [left; auto|]. cbn [app str_leb] in *.
  destruct (code x <? code y) eqn:E1; [right; split; [reflexivity|]; intro Q; injection Q as -> _; lia|].
  destruct (code x =? code y) eqn:E2; [|discriminate]. assert (x = y) as -> by (apply code_inj; lia).
  destruct (IH b r r') as [(-> & Q)|(Q & N)]; [injection L as L; exact L|exact H|left; auto|right]. split; [exact Q|]. intro E. injection E as ->. contradiction.
Qed.
Lemma code_dig n : 0 <= n <= 9 -> code (digit_char n) = 48 + n.
Proof. intro H. rewrite code_digit_char by exact H. lia. Qed.
Lemma four_sle n k : 0 <= n <= 9999 -> 0 <= k <= 9999 -> sle (four n) (four k) -> n <= k.
Proof.
  intros Hn Hk H. unfold sle, four in H. cbn [str_leb] in H. rewrite !code_dig in H by lia.
  repeat match type of H with (if ?b then _ else _) = true => destruct b eqn:? ; try discriminate end; lia.
Qed.
Lemma two_sle n k : 0 <= n <= 99 -> 0 <= k <= 99 -> sle (two n) (two k) -> n <= k.
Proof.
  intros Hn Hk H. unfold sle, two in H. cbn [str_leb] in H. rewrite !code_dig in H by lia.
  repeat match type of H with (if ?b then _ else _) = true => destruct b eqn:? ; try discriminate end; lia.
Qed.
Lemma four_inj n k : 0 <= n <= 9999 -> 0 <= k <= 9999 -> four n = four k -> n = k.
Proof. intros Hn Hk E. assert (n <= k /\ k <= n); [|lia]. split; apply four_sle; auto; rewrite E; apply sle_refl. Qed.
Lemma two_injective n k : 0 <= n <= 99 -> 0 <= k <= 99 -> two n = two k -> n = k.
Proof. intros Hn Hk E. assert (n <= k /\ k <= n); [|lia]. split; apply two_sle; auto; rewrite E; apply sle_refl. Qed.
Lemma four_lt n k r r' : 0 <= n <= 9999 -> 0 <= k <= 9999 -> sle (four n ++ r) (four k ++ r') -> n < k \/ n = k /\ sle r r'.
Proof.
  intros Hn Hk H. apply sle_app in H; [|reflexivity]. destruct H as [(E & H)|(H & N)].
  - right. split; [apply four_inj; assumption|exact H].
  - left. apply four_sle in H; try assumption. assert (n <> k) by (intros ->; contradiction). lia.
Qed.
Lemma two_lt n k r r' : 0 <= n <= 99 -> 0 <= k <= 99 -> sle (two n ++ r) (two k ++ r') -> n < k \/ n = k /\ sle r r'.
Proof.
  intros Hn Hk H. apply sle_app in H; [|reflexivity]. destruct H as [(E & H)|(H & N)].
  - right. split; [apply two_injective; assumption|exact H].
  - left. apply two_sle in H; try assumption. assert (n <> k) by (intros ->; contradiction). lia.
Qed.
Lemma sle_tail c r r' : sle (c :: r) (c :: r') -> sle r r'.
Proof. unfold sle. cbn [str_leb]. rewrite Z.ltb_irrefl, Z.eqb_refl. auto. Qed.
Lemma sle_nil c r : ~ sle (c :: r) [].
Proof. discriminate. Qed.
Lemma plain_level0 t y m d : plain_date t y m d -> level0_date t y m d.
Proof. intros [n r m0 d0 Hn Hr]. constructor; [constructor; exact Hn|exact Hr]. Qed.
Lemma plain_lower t y m d t' y' m' d' : plain_date t y m d -> plain_date t' y' m' d' -> sle t t' ->
  date_le y (first_month m) (first_day d) y' (first_month m') (first_day d').
Proof.
  intros [n r m0 d0 Hn Hr] [k r' m1 d1 Hk Hr'] H. apply four_lt in H; try assumption. unfold date_le.
  destruct H as [H|(-> & H)]; [lia|]. right. split; [reflexivity|].
  destruct Hr as [|a Ha|a b Ha Hb]; destruct Hr' as [|a' Ha'|a' b' Ha' Hb']; cbn [first_month first_day]; try lia; try (destruct (sle_nil _ _ H)).
  - apply sle_tail in H. apply two_sle in H; lia.
  - apply sle_tail in H. rewrite <- (app_nil_r (two a)) in H. apply two_lt in H; lia.
  - apply sle_tail in H. rewrite <- (app_nil_r (two a')) in H. apply two_lt in H; [|lia..]. destruct H as [H|(_ & H)]; [lia|destruct (sle_nil _ _ H)].
  - apply sle_tail in H. apply two_lt in H; [|lia..]. destruct H as [H|(-> & H)]; [lia|]. apply sle_tail in H. apply two_sle in H; lia.
Qed.
Lemma plain_upper t y m d t' y' m' d' : plain_date t y m d -> plain_date t' y' m' d' -> sle t t' -> (forall u, t' = t ++ u -> u = []) ->
  date_le y (last_month m) (last_day y (last_month m) d) y' (last_month m') (last_day y' (last_month m') d').
Proof.
  intros [n r m0 d0 Hn Hr] [k r' m1 d1 Hk Hr'] H P. apply four_lt in H; try assumption. unfold date_le.
  destruct H as [H|(-> & H)]; [lia|]. right. split; [reflexivity|].
  assert (P' : forall u, r' = r ++ u -> u = []) by (intros u ->; apply (P u); rewrite app_assoc; reflexivity). clear P. rename P' into P.
  destruct Hr as [|a Ha|a b Ha Hb]; destruct Hr' as [|a' Ha'|a' b' Ha' Hb']; cbn [last_month last_day]; try lia; try (destruct (sle_nil _ _ H)).
  - specialize (P _ eq_refl). discriminate P.
  - specialize (P _ eq_refl). discriminate P.
  - apply sle_tail in H. rewrite <- (app_nil_r (two a)), <- (app_nil_r (two a')) in H. apply two_lt in H; [|lia..]. destruct H as [H|(-> & _)]; [lia|lia].
  - apply sle_tail in H. rewrite <- (app_nil_r (two a)) in H. apply two_lt in H; [|lia..]. destruct H as [H|(-> & _)]; [lia|].
    specialize (P _ eq_refl). discriminate P.
  - apply sle_tail in H. rewrite <- (app_nil_r (two a')) in H. apply two_lt in H; [|lia..]. destruct H as [H|(_ & H)]; [lia|destruct (sle_nil _ _ H)].
  - apply sle_tail in H. apply two_lt in H; [|lia..]. destruct H as [H|(-> & H)]; [lia|]. apply sle_tail in H. apply two_sle in H; lia.
Qed.
Lemma plain_first t y m d t' y' m' d' : plain_date t y m d -> plain_date t' y' m' d' -> exists_date y m d -> exists_date y' m' d' -> sle t t' ->
  first_instant y m d <= first_instant y' m' d'.
Proof.
  intros H H' X X' L. apply instant_le; [exact X|exact X'|exact (plain_lower _ _ _ _ _ _ _ _ H H' L)|unfold clock; lia..].
Qed.
Lemma plain_last t y m d t' y' m' d' : plain_date t y m d -> plain_date t' y' m' d' -> exists_date y m d -> exists_date y' m' d' -> sle t t' ->
  (forall u, t' = t ++ u -> u = []) -> last_instant y m d <= last_instant y' m' d'.
Proof.
  intros H H' X X' L P. apply instant_le; [exact (last_real _ _ _ _ (plain_level0 _ _ _ _ H) X)|exact (last_real _ _ _ _ (plain_level0 _ _ _ _ H') X')|exact (plain_upper _ _ _ _ _ _ _ _ H H' L P)|unfold clock; lia..].
Qed.

(** ** Strings that begin with a bracket *)
Definition bracket (o : ascii) : Prop := o = "["%char \/ o = "{"%char.
Ltac no_bracket Ho := destruct Ho as [-> | ->]; [no_byte "["%char|no_byte "{"%char]; left; reflexivity.
Lemma bracket_letter o c r u v : bracket o -> code c >= 97 -> code c <= 122 -> same_letter c u -> o :: r = u ++ v -> False.
Proof.
  intros Ho H1 H2 [->|[(d & -> & Hd)|(-> & ->)]] E; injection E as E _; subst o; destruct Ho as [Ho|Ho].
  - rewrite Ho in *. change (code "[") with 91 in *. lia.
  - rewrite Ho in *. change (code "{") with 123 in *. lia.
  - rewrite Ho in *. change (code "[") with 91 in *. assert (code c = 123) by lia. lia.
  - rewrite Ho in *. change (code "{") with 123 in *. lia.
  - discriminate.
  - discriminate.
Qed.
Lemma bracket_word o c w t r v : bracket o -> code c >= 97 -> code c <= 122 -> any_case (c :: w) t -> o :: r = t ++ v -> False.
Proof.
  intros Ho H1 H2 H E. inversion H as [|? ? u v0 Hu Hv]; subst. rewrite <- app_assoc in E. exact (bracket_letter _ _ _ _ _ Ho H1 H2 Hu E).
Qed.
Lemma bracket_not_level1 o r : bracket o -> IsLevel1 (o :: r) = false.
Proof.
  intro Ho. apply not_true_iff_false. intro H. unfold IsLevel1 in H. apply Level1_spec in H.
  assert (N : forall R, match_string R (o :: r) = true -> match_string R (o :: r) = false -> False) by (intros R H1 H2; congruence).
  destruct H as [H|[H|[H|[H|[H|[H|[H|H]]]]]]].
  - apply LetterYear_spec in H. apply (N _ H). no_bracket Ho.
  - destruct H as (t & q & (y & Hy) & _ & E). destruct t as [|c t]; [inversion Hy|]. injection E as -> _.
    assert (Q : In c (c :: t)) by (left; reflexivity). destruct (year4_bytes _ _ _ Hy Q) as [Q1|Q1]; destruct Ho as [-> | ->]; discriminate Q1.
  - destruct H as (t & q & [H|[H|[H|H]]] & _ & E).
    + apply (bracket_word o "s" ($"pring") t r q Ho); [vm_compute; discriminate|vm_compute; discriminate|exact H|exact E].
    + apply (bracket_word o "s" ($"ummer") t r q Ho); [vm_compute; discriminate|vm_compute; discriminate|exact H|exact E].
    + apply (bracket_word o "f" ($"all") t r q Ho); [vm_compute; discriminate|vm_compute; discriminate|exact H|exact E].
    + apply (bracket_word o "w" ($"inter") t r q Ho); [vm_compute; discriminate|vm_compute; discriminate|exact H|exact E].
  - apply QualifiedDate_spec in H. apply (N _ H). no_bracket Ho.
  - apply UnspecifiedDigits_spec in H. revert H. apply not_true_iff_false.
    assert (E : map upx (o :: r) = o :: map upx r) by (destruct Ho as [-> | ->]; reflexivity). rewrite E. no_bracket Ho.
  - apply IntervalStart_spec in H. apply (N _ H). no_bracket Ho.
  - apply IntervalEnd_spec in H. apply (N _ H). no_bracket Ho.
  - apply NegativeYear_spec in H. apply (N _ H). no_bracket Ho.
Qed.
Lemma to_set o r : bracket o -> match_string SetRepresentations (o :: r) = true -> ParseString (o :: r) = ParseSetRepresentations (o :: r).
Proof.
  intros Ho M. unfold ParseString. rewrite (bracket_not_level1 o r Ho).
  replace (IsLevel0 (o :: r)) with false by (symmetry; destruct Ho as [-> | ->]; [apply (not_level0 _ "["%char)|apply (not_level0 _ "{"%char)]; try reflexivity; left; reflexivity).
  rewrite exact_level2 by (apply set_test in M; unfold level2_exact; auto). unfold L2_ParseString, IsExponentialYear, IsSignificantDigits, IsSubYearGrouping, IsSetRepresentation.
  replace (match_string ExponentialYear (o :: r)) with false by (symmetry; no_bracket Ho).
  replace (match_string SignificantDigits (o :: r)) with false by (symmetry; no_bracket Ho).
  replace (match_string SubYearGrouping (o :: r)) with false by (symmetry; no_bracket Ho).
  rewrite M. reflexivity.
Qed.
Lemma bracket_parsed o r e : bracket o -> ParseString (o :: r) = OK e -> ParseSetRepresentations (o :: r) = OK e.
Proof.
  intros Ho H. destruct (match_string SetRepresentations (o :: r)) eqn:M; [rewrite <- to_set; assumption|]. exfalso.
  revert H. unfold ParseString. rewrite (bracket_not_level1 o r Ho).
  replace (IsLevel0 (o :: r)) with false by (symmetry; destruct Ho as [-> | ->]; [apply (not_level0 _ "["%char)|apply (not_level0 _ "{"%char)]; try reflexivity; left; reflexivity).
  unfold L2_ParseString, IsExponentialYear, IsSignificantDigits, IsSubYearGrouping, IsSetRepresentation, IsGroupQualification, IsIndividualQualification, IsUnspecifiedDigit, IsInterval.
  replace (match_string ExponentialYear (o :: r)) with false by (symmetry; no_bracket Ho).
  replace (match_string SignificantDigits (o :: r)) with false by (symmetry; no_bracket Ho).
  replace (match_string SubYearGrouping (o :: r)) with false by (symmetry; no_bracket Ho).
  rewrite M.
  replace (match_string GroupQualification (o :: r)) with false by (symmetry; no_bracket Ho).
  replace (match_string IndividualQualification (o :: r)) with false by (symmetry; no_bracket Ho).
  replace (match_string UnspecifiedDigit (o :: r)) with false by (symmetry; no_bracket Ho).
  replace (match_string Interval (o :: r)) with false by (symmetry; no_bracket Ho).
  replace (seqb (o :: r) OPEN) with false by (symmetry; apply seqb_neq; intro Q; injection Q as Q _; destruct Ho as [-> | ->]; discriminate).
  replace (seqb (o :: r) UNKNOWN) with false by reflexivity.
  destruct (IsLevel2 (o :: r)); discriminate.
Qed.

(** ** The members that the library finds *)
Lemma plain_bytes t c : is_plain t -> In c t -> is_digit c = true \/ c = "-"%char.
Proof. intros (y & m & d & H) Hc. apply plain_level0 in H. exact (level0_byte _ _ _ _ _ H Hc). Qed.
Lemma plain_no t c : is_plain t -> is_digit c = false -> c <> "-"%char -> ~ In c t.
Proof. intros H H1 H2 Hi. destruct (plain_bytes _ _ H Hi); congruence. Qed.
Lemma plain_ne t : is_plain t -> t <> [].
Proof. intros (y & m & d & [n r m0 d0 _ _]). discriminate. Qed.
Lemma no_dots t : ~ In "."%char t -> ~ occurs ($"..") t.
Proof. intros H (a & b & ->). apply H. apply in_or_app. right. left. reflexivity. Qed.
Lemma split_dots a b : ~ In "."%char a -> split (a ++ $".." ++ b) ($"..") = a :: split b ($"..").
Proof.
  intro Ha. assert (G : forall cur, split_aux ($"..") (a ++ $".." ++ b) cur 0 = (rev cur ++ a) :: split_aux ($"..") b [] 0).
  { induction a as [|c a IH]; intro cur.
    - rewrite app_nil_r. change ([] ++ $".." ++ b) with ($".." ++ b). rewrite split_step; [reflexivity|discriminate|]. apply has_prefix_spec. exists b. reflexivity.
    - change ((c :: a) ++ $".." ++ b) with (c :: a ++ $".." ++ b). cbn [split_aux].
      assert (P : has_prefix (c :: a ++ $".." ++ b) ($"..") = false).
      { change (has_prefix (c :: a ++ $".." ++ b) ($"..")) with (Ascii.eqb "." c && has_prefix (a ++ $".." ++ b) ($".")). destruct (Ascii.eqb "." c) eqn:E; [|reflexivity]. apply Ascii.eqb_eq in E. exfalso. apply Ha. left. symmetry. exact E. }
      rewrite P. rewrite IH by (intro Q; apply Ha; right; exact Q). cbn [rev]. rewrite <- app_assoc. reflexivity. }
  exact (G []).
Qed.
Lemma element_members x ds so eo : element is_plain x ds so eo ->
  match split x ($"..") with
  | [_] => OK ([x], false, false)
  | [a; b] => if negb (is_empty a) && negb (is_empty b) then OK ([a; b], false, false)
              else if is_empty a then OK ([b], true, false) else OK ([a], false, true)
  | _ => Err (Invalid SET_REPRESENTATIONS x)
  end = OK (ds, so, eo).
Proof.
  assert (N : forall t, is_plain t -> ~ In "."%char t) by (intros t Ht; apply plain_no; [exact Ht|reflexivity|discriminate]).
  assert (S1 : forall t, is_plain t -> split t ($"..") = [t]) by (intros t Ht; apply split_not; [discriminate|apply no_dots; auto]).
  assert (E0 : forall t, is_plain t -> is_empty t = false) by (intros t Ht; apply is_empty_false; apply plain_ne; exact Ht).
  intros [t Ht|a b Ha Hb|b Hb|a Ha].
  - rewrite (S1 t Ht). reflexivity.
  - rewrite split_dots by auto. rewrite (S1 b Hb). rewrite (E0 a Ha), (E0 b Hb). reflexivity.
  - change ($".." ++ b) with ([] ++ $".." ++ b). rewrite split_dots by (intros []). rewrite (S1 b Hb). reflexivity.
  - replace (a ++ $"..") with (a ++ $".." ++ []) by reflexivity. rewrite split_dots by auto.
    replace (split [] ($"..")) with [@nil ascii] by reflexivity. rewrite (E0 a Ha). reflexivity.
Qed.
Lemma elements_members s l ds so eo : elements is_plain l ds so eo -> set_members s l = OK (ds, so, eo).
Proof.
  intro H. induction H as [|x l ds ds' so so' eo eo' Hx Hl IH]; [reflexivity|]. cbn [set_members].
  pose proof (element_members _ _ _ _ Hx) as E. rewrite IH.
  destruct (split x ($"..")) as [|a [|b [|]]]; try discriminate E.
  - injection E as <- <- <-. reflexivity.
  - destruct (negb (is_empty a) && negb (is_empty b)); [injection E as <- <- <-; reflexivity|].
    destruct (is_empty a); injection E as <- <- <-; reflexivity.
Qed.
Lemma element_no_comma x ds so eo : element is_plain x ds so eo -> ~ In ","%char x.
Proof.
  assert (N : forall t, is_plain t -> ~ In ","%char t) by (intros t Ht; apply plain_no; [exact Ht|reflexivity|discriminate]).
  assert (D : ~ In ","%char ($"..")) by (intros [Q|[Q|[]]]; discriminate).
  intros [t Ht|a b Ha Hb|b Hb|a Ha] H.
  - exact (N _ Ht H).
  - apply in_app_or in H. destruct H as [H|H]; [exact (N _ Ha H)|]. apply in_app_or in H. destruct H as [H|H]; [exact (D H)|exact (N _ Hb H)].
  - apply in_app_or in H. destruct H as [H|H]; [exact (D H)|exact (N _ Hb H)].
  - apply in_app_or in H. destruct H as [H|H]; [exact (N _ Ha H)|exact (D H)].
Qed.
Lemma elements_no_comma l ds so eo : elements is_plain l ds so eo -> Forall (fun p => ~ In ","%char p) l.
Proof. intro H. induction H; constructor; [eapply element_no_comma; eassumption|assumption]. Qed.
Lemma elements_plain l ds so eo : elements is_plain l ds so eo -> forall t, In t ds -> is_plain t.
Proof.
  intro H. induction H as [|x l ds ds' so so' eo eo' Hx Hl IH]; intros t Ht; [destruct Ht|].
  apply in_app_or in Ht. destruct Ht as [Ht|Ht]; [|auto]. destruct Hx; cbn [In] in Ht; intuition congruence.
Qed.
Lemma set_of_found s l ds so eo e : set_of is_plain s l ds so eo -> ParseString s = OK e -> exists i hd tl sp,
  sort_strs ds = hd :: tl /\ DateSpanFromEDTF (set_text so eo hd tl) = OK sp /\
  e = edtf_of_span (set_span i so eo (two_or_more tl) sp) s LEVEL2 SET_REPRESENTATIONS.
Proof.
  intros [o l0 ds0 so0 eo0 c Ho Hc Hl He] H. apply bracket_parsed in H; [|exact Ho].
  destruct (set_members_ok _ _ H) as (o' & body & i & ps & so' & eo' & hd & tl & sp & Hset & _ & Hm & Hs & _ & _ & _ & _ & Hsp & E).
  assert (body = joined ($",") l0) as ->.
  { remember (o :: joined ($",") l0 ++ [c]) as s0 eqn:E1. destruct Hset as [o1 b1 c1 _ _ _]. injection E1 as _ E1. apply app_inj_tail in E1. apply E1. }
  change ($",") with [","%char] in Hm. rewrite split_of_joined in Hm by (try assumption; eapply elements_no_comma; exact He).
  rewrite (elements_members _ _ _ _ _ He) in Hm. injection Hm as <- <- <-. exists i, hd, tl, sp. auto.
Qed.

(** ** The span *)
Definition lo_of (y : Z) (m d : option Z) : date := day_start y (first_month m) (first_day d) 0 0 YEAR.
Definition hi_of (y : Z) (m d : option Z) : date := day_end y (last_month m) (last_day y (last_month m) d) 0 0 YEAR.
Lemma plain_half t y m d lo hi : plain_date t y m d -> half t lo hi -> exists_date y m d /\ lo = lo_of y m d /\ hi = hi_of y m d.
Proof.
  intros H Hh. apply plain_level0 in H. pose proof (half_level0 _ _ _ _ _ _ H Hh) as X. split; [exact X|].
  exact (half_func _ _ _ _ _ Hh (level0_half _ _ _ _ H X)).
Qed.
Lemma plain_slash t y m d : plain_date t y m d -> ~ In "/"%char t.
Proof. intro H. apply no_slash. eapply level0_is. apply plain_level0. exact H. Qed.
Lemma whole_of t y m d : whole (mkRange t (lo_of y m d) (hi_of y m d)) t y m d.
Proof. split; [reflexivity|]. split; apply dated_bound. Qed.
Lemma dated_incl b i y m d hh mi ss : dated b y m d hh mi ss -> dated (set_inclusivity b i) y m d hh mi ss.
Proof. intro H. exact H. Qed.
Lemma whole_incl i r t y m d : whole r t y m d -> whole (incl_range i r) t y m d.
Proof. intros (H1 & H2 & H3). split; [exact H1|]. split; apply dated_incl; assumption. Qed.
Lemma runs_incl i sp s lv f lv' f' s' y m d y' m' d' : runs (edtf_of_span sp s lv f) y m d y' m' d' ->
  runs (edtf_of_span (mkSpan (incl_range i (s_start sp)) (incl_range i (s_end sp))) s' lv' f') y m d y' m' d'.
Proof. intro H. exact H. Qed.
Lemma exists_dec y m d : exists_date y m d \/ ~ exists_date y m d.
Proof. unfold exists_date, real_date. lia. Qed.
Lemma set_runs s l ds so eo e : set_of is_plain s l ds so eo -> ParseString s = OK e -> exists t y m d t' y' m' d',
  In t ds /\ In t' ds /\ (forall u, In u ds -> sle t u /\ sle u t') /\
  plain_date t y m d /\ exists_date y m d /\
  plain_date t' y' m' d' /\ exists_date y' m' d' /\
  (so = false -> Lower e = OK (first_instant y m d)) /\ (eo = false -> Upper e = OK (last_instant y' m' d')) /\
  (so = true -> d_open (r_lower (e_start e)) = true /\ d_timestamp (r_lower (e_start e)) = None /\ (eo = false -> open_range (e_start e))) /\
  (so = false -> eo = true -> open_range (e_end e)) /\
  (so = false -> eo = false -> whole (e_start e) t y m d /\ whole (e_end e) t' y' m' d' \/
     t = t' /\ runs e y (first_month m) (first_day d) y (last_month m) (last_day y (last_month m) d)).
Proof.
  intros Hs H. destruct (set_of_found _ _ _ _ _ _ Hs H) as (i & hd & tl & sp & E & Hsp & ->).
  destruct (sort_hd_last _ _ _ E) as (I1 & I2). pose proof (sort_ends _ _ _ E) as B.
  assert (P : forall t, In t ds -> is_plain t) by (destruct Hs as [o l0 ds0 so0 eo0 c _ _ _ He]; exact (elements_plain _ _ _ _ He)).
  assert (G : exists y m d y' m' d', plain_date hd y m d /\ plain_date (last tl hd) y' m' d' /\ (hd = last tl hd -> (y, m, d) = (y', m', d'))).
  { destruct (P _ I1) as (y & m & d & Hd). destruct (P _ I2) as (y' & m' & d' & Hd'). destruct (seqb hd (last tl hd)) eqn:Q.
    - apply seqb_eq in Q. exists y, m, d, y, m, d. rewrite <- Q. auto.
    - apply seqb_neq in Q. exists y, m, d, y', m', d'. split; [exact Hd|]. split; [exact Hd'|]. intro R. contradiction. }
  destruct G as (y & m & d & y' & m' & d' & Hd & Hd' & Same).
  pose proof (plain_slash _ _ _ _ Hd) as N1. pose proof (plain_slash _ _ _ _ Hd') as N2.
  assert (Op : forall r, r = OpenDateRange \/ r = mkRange ($"..") open_bound open_bound -> open_range r).
  { intros r [->| ->] b [->| ->]; repeat split. }
  assert (Pair : forall q, DateSpanFromEDTF (hd ++ $"/" ++ last tl hd) = OK q ->
    exists_date y m d /\ exists_date y' m' d' /\ q = mkSpan (mkRange hd (lo_of y m d) (hi_of y m d)) (mkRange (last tl hd) (lo_of y' m' d') (hi_of y' m' d'))).
  { intros q Hq. change ($"/" ++ last tl hd) with ("/"%char :: last tl hd) in Hq. destruct (two_sides _ _ _ N1 Hq) as (lo & hi & lo' & hi' & H1 & H2 & ->).
    destruct (plain_half _ _ _ _ _ _ Hd H1) as (X & -> & ->). destruct (plain_half _ _ _ _ _ _ Hd' H2) as (X' & -> & ->). auto. }
  assert (Up : forall q, DateSpanFromEDTF ($"../" ++ hd) = OK q -> exists_date y m d /\ q = mkSpan (mkRange ($"..") open_bound open_bound) (mkRange hd (lo_of y m d) (hi_of y m d))).
  { intros q Hq. change ($"../" ++ hd) with ($".." ++ "/"%char :: hd) in Hq. apply two_sides in Hq; [|intros [Q|[Q|[]]]; discriminate].
    destruct Hq as (lo & hi & lo' & hi' & H1 & H2 & ->).
    destruct (half_func _ _ _ _ _ H1 half_open) as (-> & ->). destruct (plain_half _ _ _ _ _ _ Hd H2) as (X & -> & ->). auto. }
  assert (Fr : forall q, DateSpanFromEDTF (hd ++ $"/..") = OK q -> exists_date y m d /\ q = mkSpan (mkRange hd (lo_of y m d) (hi_of y m d)) (mkRange ($"..") open_bound open_bound)).
  { intros q Hq. change (hd ++ $"/..") with (hd ++ "/"%char :: $"..") in Hq. apply two_sides in Hq; [|exact N1].
    destruct Hq as (lo & hi & lo' & hi' & H1 & H2 & ->).
    destruct (half_func _ _ _ _ _ H2 half_open) as (-> & ->). destruct (plain_half _ _ _ _ _ _ Hd H1) as (X & -> & ->). auto. }
  exists hd, y, m, d, (last tl hd), y', m', d'. split; [exact I1|]. split; [exact I2|]. split; [exact B|]. split; [exact Hd|].
  assert (One : hd = last tl hd -> forall q, DateSpanFromEDTF hd = OK q -> exists_date y m d /\
    runs (edtf_of_span q hd 0 ($"Date")) y (first_month m) (first_day d) y (last_month m) (last_day y (last_month m) d)).
  { intros _ q Hq. rewrite single_fwd in Hq by exact N1. pose proof (plain_level0 _ _ _ _ Hd) as L0.
    pose proof (parse_date hd (level0_is _ _ _ _ L0)) as Pd. rewrite Hq in Pd. cbn [bind] in Pd.
    assert (X : exists_date y m d).
    { destruct (exists_dec y m d) as [X|X]; [exact X|]. destruct (level0_rejects _ _ _ _ L0 X) as (err & Q). rewrite Pd in Q. discriminate. }
    split; [exact X|]. destruct (level0_parses _ _ _ _ L0 X) as (e & He & _ & _ & R & _). rewrite Pd in He. injection He as <-. exact R. }
  assert (Single : hd = last tl hd -> so = false -> eo = false -> DateSpanFromEDTF hd = OK sp -> exists_date y m d /\ exists_date y' m' d' /\
    let e := edtf_of_span (set_span i so eo (two_or_more tl) sp) s LEVEL2 SET_REPRESENTATIONS in
    Lower e = OK (first_instant y m d) /\ Upper e = OK (last_instant y' m' d') /\
    runs e y (first_month m) (first_day d) y (last_month m) (last_day y (last_month m) d)).
  { intros Q -> -> Hq. specialize (Same Q). injection Same as <- <- <-. destruct (One Q _ Hq) as (X & R). split; [exact X|]. split; [exact X|].
    cbv zeta. assert (R' : runs (edtf_of_span (set_span i false false (two_or_more tl) sp) s LEVEL2 SET_REPRESENTATIONS) y (first_month m) (first_day d) y (last_month m) (last_day y (last_month m) d)) by exact R.
    split; [|split; [|exact R']]; destruct R' as ((T1 & _) & (T2 & _) & _); [unfold Lower; rewrite T1|unfold Upper; rewrite T2]; reflexivity. }
  unfold set_text in Hsp. destruct ((so || eo) && two_or_more tl) eqn:So.
  - apply andb_true_iff in So. destruct So as (So & Mu). rewrite Mu. destruct (Pair _ Hsp) as (X & X' & ->). split; [exact X|]. split; [exact Hd'|]. split; [exact X'|].
    destruct so, eo; try discriminate So; cbn [set_span].
    * split; [discriminate|]. split; [discriminate|]. split; [intros _; split; [reflexivity|split; [reflexivity|discriminate]]|]. split; discriminate.
    * split; [discriminate|]. split; [reflexivity|]. split; [intros _; split; [reflexivity|split; [reflexivity|intros _; apply Op; left; reflexivity]]|]. split; discriminate.
    * split; [reflexivity|]. split; [discriminate|]. split; [discriminate|]. split; [intros _ _; apply Op; left; reflexivity|discriminate].
  - destruct so; [|destruct eo].
    + cbn [orb andb] in So. rewrite So. assert (Q : hd = last tl hd) by (destruct tl; [reflexivity|discriminate So]).
      specialize (Same Q). injection Same as <- <- <-. destruct (Up _ Hsp) as (X & ->). split; [exact X|]. split; [exact Hd'|]. split; [exact X|].
      split; [discriminate|]. split; [intros ->; reflexivity|]. split; [|split; discriminate]. intros _.
      destruct eo; (split; [reflexivity|]; split; [reflexivity|]); [discriminate|intros _; apply Op; right; reflexivity].
    + cbn [orb andb] in So. rewrite So. assert (Q : hd = last tl hd) by (destruct tl; [reflexivity|discriminate So]).
      specialize (Same Q). injection Same as <- <- <-. destruct (Fr _ Hsp) as (X & ->). split; [exact X|]. split; [exact Hd'|]. split; [exact X|].
      split; [reflexivity|]. split; [discriminate|]. split; [discriminate|]. split; [intros _ _; apply Op; right; reflexivity|discriminate].
    + destruct (seqb hd (last tl hd)) eqn:Sq.
      * apply seqb_eq in Sq. destruct (Single Sq eq_refl eq_refl Hsp) as (X & X' & T1 & T2 & R). split; [exact X|]. split; [exact Hd'|]. split; [exact X'|].
        split; [intros _; exact T1|]. split; [intros _; exact T2|]. split; [discriminate|]. split; [discriminate|]. intros _ _. right. split; [exact Sq|exact R].
      * destruct (Pair _ Hsp) as (X & X' & ->). split; [exact X|]. split; [exact Hd'|]. split; [exact X'|].
        split; [reflexivity|]. split; [reflexivity|]. split; [discriminate|]. split; [discriminate|]. intros _ _. left.
        split; cbn [edtf_of_span set_span e_start e_end s_start s_end]; apply whole_incl; apply whole_of.
Qed.
Theorem set_members_span s l ds so eo e : set_of is_plain s l ds so eo -> ParseString s = OK e ->
  (so = false -> exists t y m d, earliest ds t y m d /\ Lower e = OK (first_instant y m d)) /\
  (eo = false -> no_prefix ds -> exists t y m d, latest ds t y m d /\ Upper e = OK (last_instant y m d)) /\
  (so = true -> eo = false -> open_range (e_start e)) /\
  (so = false -> eo = true -> open_range (e_end e)) /\
  (so = false -> eo = false -> no_prefix ds -> exists t y m d t' y' m' d', earliest ds t y m d /\ latest ds t' y' m' d' /\
     (whole (e_start e) t y m d /\ whole (e_end e) t' y' m' d' \/
      (forall u, In u ds -> u = t) /\ runs e y (first_month m) (first_day d) y (last_month m) (last_day y (last_month m) d))).
Proof.
  intros Hs H. destruct (set_runs _ _ _ _ _ _ Hs H) as (t & y & m & d & t' & y' & m' & d' & I1 & I2 & B & Hd & X & Hd' & X' & Lo & Up & O1 & O2 & W).
  assert (E1 : earliest ds t y m d).
  { split; [exact I1|]. split; [exact Hd|]. split; [exact X|]. intros u a b c Iu Hu Xu. exact (plain_first _ _ _ _ _ _ _ _ Hd Hu X Xu (proj1 (B _ Iu))). }
  assert (E2 : no_prefix ds -> latest ds t' y' m' d').
  { intro NP. split; [exact I2|]. split; [exact Hd'|]. split; [exact X'|]. intros u a b c Iu Hu Xu.
    apply (plain_last _ _ _ _ _ _ _ _ Hu Hd' Xu X' (proj2 (B _ Iu))). intros v Ev. apply (NP u v Iu). rewrite <- Ev. exact I2. }
  split; [intro So; exists t, y, m, d; split; [exact E1|exact (Lo So)]|].
  split; [intros Eo NP; exists t', y', m', d'; split; [exact (E2 NP)|exact (Up Eo)]|].
  split; [intros So Eo; exact (proj2 (proj2 (O1 So)) Eo)|]. split; [exact O2|].
  intros So Eo NP. exists t, y, m, d, t', y', m', d'. split; [exact E1|]. split; [exact (E2 NP)|].
  destruct (W So Eo) as [W1|(Q & R)]; [left; exact W1|right]. split; [|exact R]. intros u Iu. destruct (B _ Iu) as (B1 & B2). rewrite <- Q in B2.
  exact (sle_antisym _ _ B2 B1).
Qed.
Theorem set_covers s l ds e : set_of is_plain s l ds false false -> ParseString s = OK e -> no_prefix ds ->
  forall t y m d, In t ds -> plain_date t y m d -> exists_date y m d -> covers e y m d.
Proof.
  intros Hs H NP t y m d It Ht Xt. destruct (set_members_span _ _ _ _ _ _ Hs H) as (A1 & A2 & _).
  destruct (A1 eq_refl) as (t1 & y1 & m1 & d1 & (_ & _ & _ & E1) & L). destruct (A2 eq_refl NP) as (t2 & y2 & m2 & d2 & (_ & _ & _ & E2) & U).
  exists (first_instant y1 m1 d1), (last_instant y2 m2 d2). split; [exact L|]. split; [exact U|]. split; [eapply E1; eassumption|eapply E2; eassumption].
Qed.

(** ** Sets of existing dates parse *)
Lemma plain_is t : is_plain t -> is_level0_date t.
Proof. intros (y & m & d & H). exists y, m, d. apply plain_level0. exact H. Qed.
Lemma items_tail l ds so eo : elements is_plain l ds so eo -> l <> [] -> (forall x, In x l -> forall b, x <> $".." ++ b) ->
  (forall x, In x (removelast l) -> forall a, x <> a ++ $"..") -> exists r b, joined ($",") l = r ++ b /\ set_items r /\ maybe_dots b.
Proof.
  assert (C : set_sep ($",")) by (right; left; reflexivity). assert (D : set_sep ($"..")) by (right; right; reflexivity). assert (N : set_sep []) by (left; reflexivity).
  intro H. induction H as [|x l ds ds' so so' eo eo' Hx Hl IH]; intros Hne Hu Hf; [congruence|]. destruct l as [|z l].
  - cbn [joined]. destruct Hx as [t Ht|a b Ha Hb|b Hb|a Ha].
    + exists (t ++ []), []. rewrite !app_nil_r. split; [reflexivity|]. split; [|left; reflexivity]. rewrite <- (app_nil_r t). constructor; [apply plain_is; exact Ht|exact N].
    + exists (a ++ $".." ++ b ++ []), []. rewrite !app_nil_r. split; [reflexivity|]. split; [|left; reflexivity]. apply si_more; [apply plain_is; exact Ha|exact D|].
      rewrite <- (app_nil_r b). constructor; [apply plain_is; exact Hb|exact N].
    + exfalso. exact (Hu _ (or_introl eq_refl) b eq_refl).
    + exists (a ++ []), ($".."). rewrite app_nil_r. split; [reflexivity|]. split; [|right; reflexivity]. rewrite <- (app_nil_r a). constructor; [apply plain_is; exact Ha|exact N].
  - rewrite joined_cons by discriminate. destruct IH as (r & b0 & E & Hr & Hb0).
    + discriminate.
    + intros w Hw. apply Hu. right. exact Hw.
    + intros w Hw. apply Hf. change (removelast (x :: z :: l)) with (x :: removelast (z :: l)). right. exact Hw.
    + rewrite E. assert (Hx0 : forall a, x <> a ++ $"..") by (apply Hf; left; reflexivity).
      destruct Hx as [t Ht|a b Ha Hb|b Hb|a Ha].
      * exists (t ++ $"," ++ r), b0. rewrite <- !app_assoc. split; [reflexivity|]. split; [|exact Hb0]. apply si_more; [apply plain_is; exact Ht|exact C|exact Hr].
      * exists (a ++ $".." ++ b ++ $"," ++ r), b0. rewrite <- !app_assoc. split; [reflexivity|]. split; [|exact Hb0].
        apply si_more; [apply plain_is; exact Ha|exact D|]. apply si_more; [apply plain_is; exact Hb|exact C|exact Hr].
      * exfalso. exact (Hu _ (or_introl eq_refl) b eq_refl).
      * exfalso. exact (Hx0 _ eq_refl).
Qed.
Lemma plain_not_dots t : is_plain t -> forall b, t <> $".." ++ b.
Proof. intros H b ->. apply (plain_no _ "."%char H); [reflexivity|discriminate|left; reflexivity]. Qed.
Lemma plain_not_dots' t : is_plain t -> forall a, t <> a ++ $"..".
Proof. intros H a ->. apply (plain_no _ "."%char H); [reflexivity|discriminate|]. apply in_or_app. right. left. reflexivity. Qed.
Lemma head_not_dots a r : is_plain a -> forall b, a ++ r <> $".." ++ b.
Proof.
  intros H b E. pose proof (plain_ne _ H). destruct a as [|c a]; [congruence|]. injection E as E _. apply (plain_no _ "."%char H); [reflexivity|discriminate|left; exact E].
Qed.
Lemma element_start x ds so eo : element is_plain x ds so eo -> (forall b, x <> $".." ++ b) \/ exists b, x = $".." ++ b /\ is_plain b.
Proof.
  intros [t Ht|a b Ha Hb|b Hb|a Ha]; [left; apply plain_not_dots; exact Ht|left; apply head_not_dots; exact Ha|right; eauto|left; apply head_not_dots; exact Ha].
Qed.
Lemma set_of_body l ds so eo : elements is_plain l ds so eo -> l <> [] -> well_placed l -> set_body (joined ($",") l).
Proof.
  intros H Hne (W1 & W2). destruct H as [|x l ds ds' so so' eo eo' Hx Hl]; [congruence|]. cbn [tl] in W1.
  assert (K : (forall b, x <> $".." ++ b) -> exists r b, joined ($",") (x :: l) = r ++ b /\ set_items r /\ maybe_dots b).
  { intro Q. eapply items_tail; [econstructor; eassumption|discriminate| |exact W2]. intros w [<-|Hw]; [exact Q|exact (W1 _ Hw)]. }
  destruct (element_start x ds so eo Hx) as [Q|(b & -> & Hb)].
  - destruct (K Q) as (r & b & -> & Hr & Hb). apply (set_body_intro [] r b); [left; reflexivity|exact Hr|exact Hb].
  - destruct (items_tail (b :: l) ([b] ++ ds') (false || so') (false || eo')) as (r & c & E & Hr & Hc).
    + econstructor; [apply el_date; exact Hb|exact Hl].
    + discriminate.
    + intros w [<-|Hw]; [apply plain_not_dots; exact Hb|exact (W1 _ Hw)].
    + destruct l as [|z l]; [intros w []|]. change (removelast (b :: z :: l)) with (b :: removelast (z :: l)).
      intros w [<-|Hw]; [apply plain_not_dots'; exact Hb|]. apply W2. right. exact Hw.
    + assert (J : joined ($",") (($".." ++ b) :: l) = $".." ++ joined ($",") (b :: l)) by (destruct l; [reflexivity|rewrite !joined_cons by discriminate; rewrite <- app_assoc; reflexivity]).
      change (set_body (joined ($",") (($".." ++ b) :: l))). rewrite J, E. constructor; [right; reflexivity|exact Hr|exact Hc].
Qed.
Lemma elements_nonempty l ds so eo : elements is_plain l ds so eo -> l <> [] -> ds <> [].
Proof. intros [|x l0 ds0 ds' so0 so' eo0 eo' Hx Hl] H; [congruence|]. destruct Hx; discriminate. Qed.
Theorem set_parses s l ds so eo : set_of is_plain s l ds so eo -> well_placed l ->
  (forall t y m d, In t ds -> plain_date t y m d -> exists_date y m d) -> exists e, ParseString s = OK e.
Proof.
  intros [o l0 ds0 so0 eo0 c Ho Hc Hl He] W X.
  pose proof (set_of_body _ _ _ _ He Hl W) as Hb.
  assert (M : match_string SetRepresentations (o :: joined ($",") l0 ++ [c]) = true) by (apply IsSet_spec; exists o, (joined ($",") l0); constructor; assumption).
  rewrite (to_set _ _ Ho M). apply match_iff in M. apply submatch_length in M. change (S (re_ncap SetRepresentations)) with 6%nat in M.
  destruct (set_submatch _ M) as (o' & body & Hset & E1 & E2).
  assert (o' = o /\ body = joined ($",") l0) as (-> & ->).
  { clear E1 E2 M Hb. remember (o :: joined ($",") l0 ++ [c]) as s0 eqn:E1. destruct Hset as [o1 b1 c1 _ _ _]. injection E1 as -> E1. apply app_inj_tail in E1. split; [reflexivity|apply E1]. }
  unfold ParseSetRepresentations. rewrite M, E1, E2. cbn [Nat.eqb negb].
  assert (I : exists i : N, (if seqb [o] ($"[") then OK ANY else if seqb [o] ($"{") then OK ALL else Err (Invalid SET_REPRESENTATIONS (o :: joined ($",") l0 ++ [c]))) = OK i).
  { destruct Ho as [-> | ->]; eexists; reflexivity. }
  destruct I as (i & ->). cbn [bind]. change ($",") with [","%char]. rewrite split_of_joined by (try assumption; eapply elements_no_comma; exact He).
  rewrite (elements_members _ _ _ _ _ He). cbn [bind].
  destruct (sort_strs ds0) as [|hd tl] eqn:Es.
  { exfalso. apply (elements_nonempty _ _ _ _ He Hl). apply Permutation_nil. rewrite <- Es. apply sort_perm. }
  destruct (sort_hd_last _ _ _ Es) as (I1 & I2). replace (last (hd :: tl) hd) with (last tl hd) by (destruct tl; reflexivity).
  destruct (elements_plain _ _ _ _ He _ I1) as (y & m & d & Hd). destruct (elements_plain _ _ _ _ He _ I2) as (y' & m' & d' & Hd').
  pose proof (X _ _ _ _ I1 Hd) as X1. pose proof (X _ _ _ _ I2 Hd') as X2.
  pose proof (level0_half _ _ _ _ (plain_level0 _ _ _ _ Hd) X1) as H1. pose proof (level0_half _ _ _ _ (plain_level0 _ _ _ _ Hd') X2) as H2.
  pose proof (plain_slash _ _ _ _ Hd) as N1. pose proof (plain_slash _ _ _ _ Hd') as N2.
  assert (Nd : ~ In "/"%char ($"..")) by (intros [Q|[Q|[]]]; discriminate).
  pose proof (interval_fwd _ _ _ _ _ _ N1 N2 H1 H2) as F1. pose proof (interval_fwd _ _ _ _ _ _ Nd N1 half_open H1) as F2. pose proof (interval_fwd _ _ _ _ _ _ N1 Nd H1 half_open) as F3.
  assert (F4 : exists sp, DateSpanFromEDTF hd = OK sp).
  { rewrite single_fwd by exact N1. destruct (level0_parses _ _ _ _ (plain_level0 _ _ _ _ Hd) X1) as (e & He0 & _).
    rewrite parse_date in He0 by (eapply level0_is; apply plain_level0; exact Hd). apply bind_OK in He0. destruct He0 as (sp & Q & _). exists sp. exact Q. }
  destruct F4 as (sp4 & F4).
  match goal with |- context [DateSpanFromEDTF ?t] => assert (F : exists sp, DateSpanFromEDTF t = OK sp) end.
  { match goal with |- context [if ?b then _ else _] => destruct b end; [eexists; exact F1|].
    destruct so0; [eexists; exact F2|]. destruct eo0; [eexists; exact F3|].
    match goal with |- context [if ?b then _ else _] => destruct b end; [eexists; exact F1|eexists; exact F4]. }
  destruct F as (sp & ->). cbn [bind]. eexists. reflexivity.
Qed.
