(** Lemmas for C79: the numbers that the server takes for a port. *)
From Coq Require Import Ascii String ZArith NArith Bool Lia ZifyBool List.
From Verif Require Import GoStr SpecText SpecForms SpecNotation SpecFlags StrFacts Server SpecServer.
Import ListNotations.
Open Scope Z_scope.

(** ** Digits *)
Lemma lower_code c : (97 <=? lower c) && (lower c <=? 122) = ((97 <=? code c) && (code c <=? 122)) || ((65 <=? code c) && (code c <=? 90)).
Proof. destruct c as [[] [] [] [] [] [] [] []]; vm_compute; reflexivity. Qed.
Lemma lower_value c : (97 <=? lower c) && (lower c <=? 122) = true -> lower c = if code c <=? 90 then code c + 32 else code c.
Proof. destruct c as [[] [] [] [] [] [] [] []]; vm_compute; (reflexivity || discriminate). Qed.
Lemma digit_range c : is_digit c = true <-> 48 <= code c <= 57.
Proof. unfold is_digit. lia. Qed.
Lemma int_digit_spec c d : int_digit c = Some d <-> digit_of c d.
Proof.
  unfold int_digit. split.
  - destruct (is_digit c) eqn:E; [intro H; injection H as <-; apply dg_digit, digit_range, E|].
    destruct ((97 <=? lower c) && (lower c <=? 122)) eqn:L; [|discriminate]. intro H. injection H as <-.
    pose proof (lower_value c L) as V. rewrite lower_code in L. destruct (code c <=? 90) eqn:B; rewrite V.
    + replace (code c + 32 - 97 + 10) with (code c - 55) by lia. apply dg_large. lia.
    + replace (code c - 97 + 10) with (code c - 87) by lia. apply dg_small. lia.
  - intros [R|R|R].
    + apply digit_range in R. rewrite R. reflexivity.
    + replace (is_digit c) with false by (symmetry; unfold is_digit; lia). assert (L : (97 <=? lower c) && (lower c <=? 122) = true) by (rewrite lower_code; lia). rewrite L. f_equal.
      rewrite (lower_value c L). destruct (code c <=? 90) eqn:B; lia.
    + replace (is_digit c) with false by (symmetry; unfold is_digit; lia). assert (L : (97 <=? lower c) && (lower c <=? 122) = true) by (rewrite lower_code; lia). rewrite L. f_equal.
      rewrite (lower_value c L). destruct (code c <=? 90) eqn:B; lia.
Qed.
Lemma digit_under c d : digit_of c d -> Ascii.eqb c "_" = false.
Proof. intro H. apply Ascii.eqb_neq. intros ->. assert (code "_" = 95) by reflexivity. inversion H as [R|R|R]; lia. Qed.
Lemma digit_sign c d : digit_of c d -> c <> "+"%char /\ c <> "-"%char.
Proof. intro H. assert (code "+" = 43) by reflexivity. assert (code "-" = 45) by reflexivity. split; intros ->; inversion H as [R|R|R]; lia. Qed.
Lemma digit_nonneg c d : digit_of c d -> 0 <= d.
Proof. intros [R|R|R]; lia. Qed.

(** ** The loop *)
Inductive run (b : Z) : Z -> str -> Z -> Prop :=
| run_none n : run b n [] n
| run_digit n c d s v : digit_of c d -> d < b -> run b (n * b + d) s v -> run b n (c :: s) v
| run_under n s v : run b n s v -> run b n ("_"%char :: s) v.
Lemma run_le b n s v : 1 <= b -> 0 <= n -> run b n s v -> n <= v.
Proof.
  intros B N H. induction H as [n|n c d s v D L H IH|n s v H IH]; [lia| |exact (IH N)]. pose proof (digit_nonneg c d D). assert (n <= n * b + d) by nia. specialize (IH ltac:(nia)). lia.
Qed.
Lemma run_app b n s t u v : run b n s u -> run b u t v -> run b n (s ++ t) v.
Proof. intros H. induction H as [n|n c d s w D L H IH|n s w H IH]; intro K; [exact K|exact (run_digit b n c d _ v D L (IH K))|exact (run_under b n _ v (IH K))]. Qed.
Lemma run_split b s t n v : run b n (s ++ t) v -> exists u, run b n s u /\ run b u t v.
Proof.
  revert n. induction s as [|c s IH]; intros n H; [exists n; split; [constructor|exact H]|]. cbn [app] in H. inversion H as [|? ? d ? ? D L K|? ? ? K]; subst.
  - destruct (IH _ K) as (u & A & B). exists u. split; [exact (run_digit b n c d s u D L A)|exact B].
  - destruct (IH _ K) as (u & A & B). exists u. split; [exact (run_under b n s u A)|exact B].
Qed.
Lemma run_loose b s v : loose b s v <-> run b 0 s v.
Proof.
  split.
  - intro H. induction H as [|s v c d H IH D L|s v H IH]; [constructor| |].
    + apply (run_app b 0 s [c] v _ IH). exact (run_digit b v c d [] _ D L (run_none b _)).
    + apply (run_app b 0 s _ v _ IH). exact (run_under b v [] v (run_none b v)).
  - revert v. induction s as [|c s IH] using rev_ind; intros v H; [inversion H; constructor|]. apply run_split in H. destruct H as (u & A & B).
    inversion B as [|? ? d ? ? D L K|? ? ? K]; subst; inversion K; subst; [exact (lo_digit b s u c d (IH u A) D L)|exact (lo_under b s v (IH v A))].
Qed.
Definition under_in (s : str) : bool := existsb (fun c => Ascii.eqb c "_") s.
Lemma cutoff_spec b n d : 1 <= b -> 0 <= d -> ((two64 - 1) / b + 1 <=? n) || (two64 <=? n * b + d) = (two64 <=? n * b + d).
Proof.
  intros B D. destruct (two64 <=? n * b + d) eqn:E; [rewrite orb_true_r; reflexivity|]. rewrite orb_false_r. apply Z.leb_gt in E. apply Z.leb_gt.
  assert (n <= (two64 - 1) / b) by (apply Z.div_le_lower_bound; [lia|]; nia). lia.
Qed.
Lemma loop_digit b n un c d s : 1 <= b -> digit_of c d ->
  uint_loop b n un (c :: s) = if b <=? d then inl Syntax else if two64 <=? n * b + d then inl Range else uint_loop b (n * b + d) un s.
Proof.
  intros B D. cbn [uint_loop]. rewrite (digit_under c d D). apply int_digit_spec in D as E. rewrite E. destruct (b <=? d); [reflexivity|].
  pose proof (cutoff_spec b n d B (digit_nonneg c d D)) as C. destruct ((two64 - 1) / b + 1 <=? n); cbn [orb] in C; [rewrite <- C; reflexivity|reflexivity].
Qed.
Lemma loop_ok b s : 1 <= b -> forall n un v un', 0 <= n < two64 ->
  (uint_loop b n un s = inr (v, un') <-> run b n s v /\ v < two64 /\ un' = un || under_in s).
Proof.
  intro B. induction s as [|c s IH]; intros n un v un' N.
  - cbn [uint_loop under_in existsb]. rewrite orb_false_r. split.
    + intro H. injection H as <- <-. repeat split; [constructor|lia].
    + intros (R & _ & ->). inversion R. reflexivity.
  - destruct (Ascii.eqb c "_") eqn:E.
    + cbn [uint_loop]. rewrite E. unfold under_in. cbn [existsb]. rewrite E, orb_true_r. rewrite (IH n true v un' N). apply Ascii.eqb_eq in E. subst c. cbn [orb]. split.
      * intros (R & V & U). repeat split; [exact (run_under b n s v R)|exact V|exact U].
      * intros (R & V & U). inversion R as [|? ? d ? ? D L K|? ? ? K]; subst; [exfalso; pose proof (digit_under _ _ D) as Q; discriminate Q|auto].
    + unfold under_in. cbn [existsb]. rewrite E. cbn [orb]. destruct (int_digit c) as [d|] eqn:D.
      * apply int_digit_spec in D. rewrite (loop_digit b n un c d s B D). pose proof (digit_nonneg c d D) as D0. destruct (b <=? d) eqn:Ld.
        { split; [discriminate|]. intros (R & _ & _). inversion R as [|? ? d' ? ? D' L K|? ? ? K]; subst; [|discriminate E]. apply int_digit_spec in D, D'. rewrite D in D'. injection D' as <-. lia. }
        assert (X : run b n (c :: s) v <-> run b (n * b + d) s v).
        { split; intro R; [|exact (run_digit b n c d s v D ltac:(lia) R)]. inversion R as [|? ? d' ? ? D' L K|? ? ? K]; subst; [|discriminate E]. apply int_digit_spec in D, D'. rewrite D in D'. injection D' as <-. exact K. }
        rewrite X. destruct (two64 <=? n * b + d) eqn:T.
        { split; [discriminate|]. intros (R & V & _). pose proof (run_le b (n * b + d) s v B ltac:(nia) R). lia. }
        apply (IH (n * b + d) un v un'). nia.
      * cbn [uint_loop]. rewrite E, D. split; [discriminate|]. intros (R & _ & _). inversion R as [|? ? d' ? ? D' L K|? ? ? K]; subst; [|discriminate E]. apply int_digit_spec in D'. rewrite D in D'. discriminate D'.
Qed.
Lemma loop_range b s : 1 <= b -> forall n un, 0 <= n < two64 ->
  (uint_loop b n un s = inl Range <-> exists p q v, s = p ++ q /\ run b n p v /\ two64 <= v).
Proof.
  intro B. induction s as [|c s IH]; intros n un N.
  - cbn [uint_loop]. split; [discriminate|]. intros (p & q & v & E & R & V). symmetry in E. apply app_eq_nil in E. destruct E as [-> ->]. inversion R. lia.
  - destruct (Ascii.eqb c "_") eqn:E.
    + cbn [uint_loop]. rewrite E. rewrite (IH n true N). apply Ascii.eqb_eq in E. subst c. split.
      * intros (p & q & v & -> & R & V). exists ("_"%char :: p), q, v. split; [reflexivity|]. split; [exact (run_under b n p v R)|exact V].
      * intros (p & q & v & Q & R & V). destruct p as [|x p]; [inversion R; lia|]. injection Q as <- ->. exists p, q, v. split; [reflexivity|]. split; [|exact V].
        inversion R as [|? ? d ? ? D L K|? ? ? K]; subst; [exfalso; pose proof (digit_under _ _ D) as Q; discriminate Q|exact K].
    + destruct (int_digit c) as [d|] eqn:D.
      * apply int_digit_spec in D. rewrite (loop_digit b n un c d s B D). pose proof (digit_nonneg c d D) as D0.
        assert (X : forall p v, run b n (c :: p) v <-> d < b /\ run b (n * b + d) p v).
        { intros p v. split; [|intros (L & R); exact (run_digit b n c d p v D L R)]. intro R. inversion R as [|? ? d' ? ? D' L K|? ? ? K]; subst; [|discriminate E]. apply int_digit_spec in D, D'. rewrite D in D'. injection D' as <-. auto. }
        destruct (b <=? d) eqn:Ld.
        { split; [discriminate|]. intros (p & q & v & Q & R & V). destruct p as [|x p]; [inversion R; lia|]. injection Q as <- ->. apply X in R. destruct R. lia. }
        destruct (two64 <=? n * b + d) eqn:T.
        { split; [|reflexivity]. intros _. exists [c], s, (n * b + d). split; [reflexivity|]. split; [|lia]. apply X. split; [lia|constructor]. }
        rewrite (IH (n * b + d) un) by nia. split.
        { intros (p & q & v & -> & R & V). exists (c :: p), q, v. split; [reflexivity|]. split; [|exact V]. apply X. split; [lia|exact R]. }
        { intros (p & q & v & Q & R & V). destruct p as [|x p]; [inversion R; subst; lia|]. injection Q as <- ->. apply X in R. exists p, q, v. tauto. }
      * cbn [uint_loop]. rewrite E, D. split; [discriminate|]. intros (p & q & v & Q & R & V). destruct p as [|x p]; [inversion R; lia|]. injection Q as <- ->.
        inversion R as [|? ? d' ? ? D' L K|? ? ? K]; subst; [|discriminate E]. apply int_digit_spec in D'. rewrite D in D'. discriminate D'.
Qed.

(** ** Underscores *)
(** Underscores stand between digits; the flag tells if there is a digit before. *)
Fixpoint tidy (after : bool) (s : str) : bool :=
  match s with
  | [] => after
  | c :: t => if Ascii.eqb c "_" then after && tidy false t else tidy true t
  end.
Lemma tidy_app a s t : tidy a s = true -> tidy a (s ++ t) = tidy true t.
Proof.
  revert a. induction s as [|c s IH]; intros a H; [cbn in H; subst a; reflexivity|]. cbn [app tidy] in *. destruct (Ascii.eqb c "_"); [|exact (IH true H)].
  apply andb_true_iff in H. destruct H as (-> & H). cbn [andb]. exact (IH false H).
Qed.
Lemma tidy_no_under a s : s <> [] -> under_in s = false -> tidy a s = true.
Proof.
  revert a. induction s as [|c s IH]; intros a N U; [contradiction|]. unfold under_in in U. cbn [existsb] in U. apply orb_false_iff in U. destruct U as (E & U). cbn [tidy]. rewrite E.
  destruct s as [|x s]; [reflexivity|]. apply IH; [discriminate|exact U].
Qed.
Lemma tidy_no_under_true s : under_in s = false -> tidy true s = true.
Proof. destruct s as [|c s]; [reflexivity|]. apply tidy_no_under. discriminate. Qed.
Lemma numeral_more b s : forall p n v, numeral b p n -> run b n s v -> tidy true s = true -> numeral b (p ++ s) v.
Proof.
  remember (length s) as k eqn:K. assert (Hk : (length s <= k)%nat) by lia. clear K. revert s Hk. induction k as [|k IH]; intros s Hk p n v P R T.
  - destruct s; [|cbn in Hk; lia]. inversion R; subst. rewrite app_nil_r. exact P.
  - destruct s as [|c s]; [inversion R; subst; rewrite app_nil_r; exact P|]. cbn [length] in Hk. inversion R as [|? ? d ? ? D L K|? ? ? K]; subst.
    + cbn [tidy] in T. rewrite (digit_under c d D) in T. replace (p ++ c :: s) with ((p ++ [c]) ++ s) by (rewrite <- app_assoc; reflexivity). apply (IH s ltac:(lia) _ (n * b + d)); [exact (nu_next b p n c d P D L)|exact K|exact T].
    + cbn in T. destruct s as [|c s]; [discriminate T|]. cbn [tidy] in T. destruct (Ascii.eqb c "_") eqn:E; [discriminate T|]. cbn [length] in Hk.
      inversion K as [|? ? d ? ? D L K'|? ? ? K']; subst; [|discriminate E]. replace (p ++ "_"%char :: c :: s) with ((p ++ ["_"%char; c]) ++ s) by (rewrite <- app_assoc; reflexivity).
      apply (IH s ltac:(lia) _ (n * b + d)); [exact (nu_under b p n c d P D L)|exact K'|exact T].
Qed.
Lemma numeral_run b s v : numeral b s v <-> run b 0 s v /\ tidy false s = true.
Proof.
  split.
  - intro H. induction H as [c d D L|s v c d H (R & T) D L|s v c d H (R & T) D L].
    + split; [|cbn [tidy]; rewrite (digit_under c d D); reflexivity]. apply (run_digit b 0 c d [] d D L). replace (0 * b + d) with d by lia. constructor.
    + split; [apply (run_app b 0 s [c] v _ R); exact (run_digit b v c d [] _ D L (run_none b _))|]. rewrite (tidy_app false s _ T). cbn [tidy]. rewrite (digit_under c d D). reflexivity.
    + split; [apply (run_app b 0 s _ v _ R); apply run_under; exact (run_digit b v c d [] _ D L (run_none b _))|]. rewrite (tidy_app false s _ T). cbn [tidy]. rewrite (digit_under c d D). reflexivity.
  - intros (R & T). destruct s as [|c s]; [discriminate T|]. cbn [tidy] in T. destruct (Ascii.eqb c "_") eqn:E; [discriminate T|]. inversion R as [|? ? d ? ? D L K|? ? ? K]; subst; [|discriminate E].
    replace (0 * b + d) with d in K by lia. exact (numeral_more b s [c] d v (nu_one b c d D L) K T).
Qed.
(** The function of Go, where all digits are digits of the base. *)
Lemma hex_digit (hex : bool) c d b : digit_of c d -> d < b -> b <= (if hex then 16 else 10) -> is_digit c || (hex && (97 <=? lower c) && (lower c <=? 102)) = true.
Proof.
  intros D L B. destruct (is_digit c) eqn:E; [reflexivity|]. cbn [orb].
  assert (Q : code c - 87 = d /\ 97 <= code c <= 122 \/ code c - 55 = d /\ 65 <= code c <= 90).
  { destruct D as [R|R|R]; [apply digit_range in R; rewrite R in E; discriminate E|left; lia|right; lia]. }
  destruct hex; [|lia]. assert (W : (97 <=? lower c) && (lower c <=? 122) = true) by (rewrite lower_code; lia). pose proof (lower_value c W) as V. destruct (code c <=? 90) eqn:C; lia.
Qed.
Lemma under_tidy (hex : bool) b s : b <= (if hex then 16 else 10) -> forall n v, run b n s v ->
  under_loop hex SDigit s = tidy true s /\ under_loop hex SUnder s = tidy false s /\ (s <> [] -> under_loop hex SBegin s = tidy false s).
Proof.
  intro B. induction s as [|c s IH]; intros n v R; [repeat split; intros []; reflexivity|].
  inversion R as [|? ? d ? ? D L K|? ? ? K]; subst.
  - cbn [under_loop tidy]. rewrite (hex_digit hex c d b D L B), (digit_under c d D). destruct (IH _ _ K) as (H & _). rewrite H. repeat split; reflexivity.
  - destruct (IH _ _ K) as (_ & H & _). cbn [under_loop tidy]. change (is_digit "_") with false. change (Ascii.eqb "_" "_") with true. replace ((97 <=? lower "_") && (lower "_" <=? 102)) with false by reflexivity.
    rewrite <- andb_assoc. replace (hex && ((97 <=? lower "_") && (lower "_" <=? 102))) with false by (destruct hex; reflexivity). cbn [orb andb]. rewrite H. repeat split; reflexivity.
Qed.

(** ** ParseUint *)
Lemma letter_lower p b : base_letter p b <-> (lower p = 98 /\ b = 2) \/ (lower p = 111 /\ b = 8) \/ (lower p = 120 /\ b = 16).
Proof.
  split.
  - intros [c [->| ->]|c [->| ->]|c [->| ->]]; vm_compute; tauto.
  - assert (X : (lower p = 98 -> p = "b"%char \/ p = "B"%char) /\ (lower p = 111 -> p = "o"%char \/ p = "O"%char) /\ (lower p = 120 -> p = "x"%char \/ p = "X"%char)).
    { destruct p as [[] [] [] [] [] [] [] []]; vm_compute; (repeat split; intro H; first [discriminate H|left; reflexivity|right; reflexivity]). }
    destruct X as (X1 & X2 & X3). intros [(H & ->)|[(H & ->)|(H & ->)]]; [apply bl_binary|apply bl_octal|apply bl_hex]; auto.
Qed.
Lemma letter_code p b : base_letter p b -> 58 <= code p /\ code p <> 95.
Proof. intros [c [->| ->]|c [->| ->]|c [->| ->]]; vm_compute; split; discriminate. Qed.
Lemma based_spec s b t : s <> [] -> (int_base s = (b, t) <-> based s b t).
Proof.
  intro N. destruct s as [|c s]; [contradiction|]. unfold int_base. destruct (Ascii.eqb c "0") eqn:E.
  - apply Ascii.eqb_eq in E. subst c. destruct s as [|x [|y u]].
    + split; [intro H; injection H as <- <-; apply ba_octal; discriminate|]. intros H. inversion H; subst; [contradiction|reflexivity].
    + split; [intro H; injection H as <- <-; apply ba_octal; discriminate|]. intros H. inversion H; subst; [contradiction|reflexivity].
    + split.
      * destruct (lower x =? 98) eqn:E1; [intro H; injection H as <- <-; apply ba_letter, letter_lower; lia|]. destruct (lower x =? 111) eqn:E2; [intro H; injection H as <- <-; apply ba_letter, letter_lower; lia|].
        destruct (lower x =? 120) eqn:E3; [intro H; injection H as <- <-; apply ba_letter, letter_lower; lia|]. intro H. injection H as <- <-. apply ba_octal. intros p b0 c u0 L Q. injection Q as -> _ _. apply letter_lower in L. lia.
      * intros H. inversion H as [|p b0 c t0 L|t0 L]; subst; [contradiction| |].
        { apply letter_lower in L. destruct L as [(L & ->)|[(L & ->)|(L & ->)]]; rewrite L; reflexivity. }
        { destruct (lower x =? 98) eqn:E1; [destruct (L x 2 y u); [apply letter_lower; lia|reflexivity]|]. destruct (lower x =? 111) eqn:E2; [destruct (L x 8 y u); [apply letter_lower; lia|reflexivity]|].
          destruct (lower x =? 120) eqn:E3; [destruct (L x 16 y u); [apply letter_lower; lia|reflexivity]|]. reflexivity. }
  - split; [intro H; injection H as <- <-; apply ba_decimal; apply Ascii.eqb_neq; exact E|]. intros H. inversion H; subst; [reflexivity|discriminate E..].
Qed.
Lemma based_base s b t : based s b t -> b = 10 \/ b = 2 \/ b = 8 \/ b = 16.
Proof. intros [c u N|p b' c u L|u N]; [auto| |auto]. apply letter_lower in L. lia. Qed.
Lemma based_exists s : s <> [] -> exists b t, based s b t.
Proof. intro N. destruct (int_base s) as [b t] eqn:E. exists b, t. apply (based_spec s b t N). exact E. Qed.
(** A number is what the loop takes, with tidy underscores. *)
Lemma literal_run s b t v : based s b t -> (literal s v <-> run b 0 t v /\ (if Ascii.eqb (hd "0"%char s) "0" then tidy true t = true /\ (b = 8 \/ t <> []) else tidy false t = true)).
Proof.
  intro I. destruct I as [c u N|p b c u L|u N].
  - cbn [hd]. replace (Ascii.eqb c "0") with false by (symmetry; apply Ascii.eqb_neq; exact N). rewrite <- numeral_run. split; [|exact (li_decimal c u v N)]. intros H. inversion H; subst; [assumption|contradiction..].
  - cbn [hd]. change (Ascii.eqb "0" "0") with true. cbv iota. split.
    + intro H. remember ("0"%char :: p :: c :: u) as z eqn:Ez. destruct H as [c' t' v Q M|t' v M|p' b' w t v L' W M]; [injection Ez as -> _; contradiction| |].
      { exfalso. injection Ez as ->. apply numeral_run in M. destruct M as (M & _). inversion M as [|? ? d ? ? D Ld K|]; subst. inversion K as [|? ? d' ? ? D' Ld' K'|]; subst.
        - apply letter_code in L. inversion D' as [R|R|R]; lia.
        - apply letter_code in L. change (code "_") with 95 in L. lia. }
      injection Ez as -> Ez. assert (b' = b) as -> by (apply letter_lower in L, L'; lia). apply numeral_run in M. destruct M as (M & T). destruct W as [->| ->].
      * cbn [app] in *. subst t. split; [exact M|]. split; [|right; discriminate]. cbn [tidy] in *. destruct (Ascii.eqb c "_"); [discriminate T|exact T].
      * cbn [app] in *. injection Ez as <- ->. split; [exact (run_under b 0 u v M)|]. split; [exact T|right; discriminate].
    + intros (R & T & _). destruct (Ascii.eqb c "_") eqn:E.
      * apply Ascii.eqb_eq in E. subst c. apply (li_letter p b ($"_") u v L); [right; reflexivity|]. apply numeral_run. cbn in T. split; [|exact T].
        inversion R as [|? ? d ? ? D|]; subst; [pose proof (digit_under _ _ D) as Q; discriminate Q|assumption].
      * apply (li_letter p b [] (c :: u) v L); [left; reflexivity|]. apply numeral_run. split; [exact R|]. cbn [tidy] in *. rewrite E in *. exact T.
  - cbn [hd]. change (Ascii.eqb "0" "0") with true. cbv iota. assert (Z0 : digit_of "0" 0) by (apply (dg_digit "0"); vm_compute; split; discriminate).
    assert (X : numeral 8 ("0"%char :: u) v <-> run 8 0 u v /\ tidy true u = true).
    { rewrite numeral_run. cbn [tidy]. change (Ascii.eqb "0" "_") with false. cbv iota. split; intros (R & T); (split; [|exact T]).
      - inversion R as [|? ? d ? ? D L K|]; subst. apply int_digit_spec in D. injection D as <-. exact K.
      - apply (run_digit 8 0 "0" 0 u v Z0); [lia|exact R]. }
    split.
    + intros H. inversion H as [? ? ? Q|? ? M|p' b' w t ? L' W M]; subst; [contradiction|apply X in M; tauto|]. exfalso. destruct (w ++ t) as [|c r] eqn:E.
      * apply app_eq_nil in E. destruct E as (_ & ->). apply numeral_run in M. destruct M as (_ & T). discriminate T.
      * exact (N p' b' c r L' eq_refl).
    + intros (R & T & _). apply li_octal. apply X. auto.
Qed.
Lemma run_bytes b n s v c t : run b n s v -> s = c :: t -> c = "_"%char \/ exists d, digit_of c d /\ d < b.
Proof. intros R E. subst s. inversion R; subst; eauto. Qed.
Lemma under_ok_spec s b t v : based s b t -> run b 0 t v -> under_in t = true -> under_ok s = if Ascii.eqb (hd "0"%char s) "0" then tidy true t else tidy false t.
Proof.
  intros I R U. destruct I as [c u N|p b c u L|u N].
  - cbn [hd]. replace (Ascii.eqb c "0") with false by (symmetry; apply Ascii.eqb_neq; exact N). assert (S1 : Ascii.eqb c "-" || Ascii.eqb c "+" = false).
    { destruct (run_bytes 10 0 _ v c u R eq_refl) as [->|(d & D & _)]; [reflexivity|]. destruct (digit_sign c d D) as (A & B). apply orb_false_iff. split; apply Ascii.eqb_neq; assumption. }
    unfold under_ok. rewrite S1. replace (Ascii.eqb c "0") with false by (symmetry; apply Ascii.eqb_neq; exact N). cbn [andb].
    destruct (under_tidy false 10 (c :: u) ltac:(cbn; lia) 0 v R) as (_ & _ & H). destruct u; apply H; discriminate.
  - cbn [hd]. change (Ascii.eqb "0" "0") with true. cbv iota. unfold under_ok. change (Ascii.eqb "0" "-" || Ascii.eqb "0" "+") with false. cbv iota. change (Ascii.eqb "0" "0") with true. cbn [andb].
    apply letter_lower in L. replace ((lower p =? 98) || (lower p =? 111) || (lower p =? 120)) with true by lia.
    apply (under_tidy (lower p =? 120) b (c :: u)) with (n := 0) (v := v); [|exact R]. destruct (lower p =? 120) eqn:E; lia.
  - cbn [hd]. change (Ascii.eqb "0" "0") with true. cbv iota. unfold under_ok. change (Ascii.eqb "0" "-" || Ascii.eqb "0" "+") with false. cbv iota.
    destruct u as [|x u]; [discriminate U|]. change (Ascii.eqb "0" "0") with true. cbn [andb].
    destruct (under_tidy false 8 (x :: u) ltac:(cbn; lia) 0 v R) as (H & _ & _).
    assert (X : (lower x =? 98) || (lower x =? 111) || (lower x =? 120) = false).
    { destruct (run_bytes 8 0 _ v x u R eq_refl) as [->|(d & D & Ld)]; [reflexivity|]. assert (Q : code x <= 57) by (destruct D; lia).
      destruct ((lower x =? 98) || (lower x =? 111) || (lower x =? 120)) eqn:F; [|reflexivity]. assert (exists b, base_letter x b) as (b & Lb).
      { apply orb_true_iff in F. destruct F as [F|F]; [apply orb_true_iff in F; destruct F as [F|F]|]; apply Z.eqb_eq in F; eexists; apply letter_lower; eauto. }
      apply letter_code in Lb. lia. }
    rewrite X. change (under_loop false SBegin ("0"%char :: x :: u)) with (under_loop false SDigit (x :: u)). exact H.
Qed.
Lemma tidy_under_false t : under_in t = false -> tidy true t = true /\ (t <> [] -> tidy false t = true).
Proof. intro U. split; [exact (tidy_no_under_true t U)|intro N; exact (tidy_no_under false t N U)]. Qed.
Lemma uint_ok s n : parse_uint s = inr n <-> literal s n /\ n < two64.
Proof.
  destruct s as [|c s]; [split; [discriminate|intros (H & _); inversion H]|]. destruct (based_exists (c :: s) ltac:(discriminate)) as (b & t & I).
  unfold parse_uint. rewrite (proj2 (based_spec (c :: s) b t ltac:(discriminate)) I). rewrite (literal_run _ b t n I). pose proof (based_base _ _ _ I) as B.
  assert (NE : b = 8 \/ t <> []) by (destruct I; [right; discriminate|right; discriminate|left; reflexivity]).
  assert (NE' : Ascii.eqb c "0" = false -> t <> []) by (intro E; inversion I; subst; [discriminate|discriminate E..]). cbn [hd].
  pose proof (loop_ok b t ltac:(lia) 0 false) as W. cbn [orb] in W. destruct (uint_loop b 0 false t) as [f|[v un]] eqn:E.
  - split; [discriminate|]. intros ((R & _) & V). assert (Q : inl f = inr (n, under_in t)) by (apply W; [unfold two64; lia|auto]). discriminate Q.
  - destruct (W v un ltac:(unfold two64; lia)) as (W1 & _). destruct (W1 eq_refl) as (R & V & ->). destruct (under_in t) eqn:U.
    + pose proof (under_ok_spec (c :: s) b t v I R U) as OKs. cbn [hd] in OKs. rewrite OKs. destruct (Ascii.eqb c "0").
      * destruct (tidy true t) eqn:T; cbn [negb andb].
        { split; [intro H; injection H as <-; repeat split; auto|]. intros ((R' & _) & V'). destruct (W n true ltac:(unfold two64; lia)) as (_ & W2). specialize (W2 ltac:(auto)). congruence. }
        { split; [discriminate|]. intros ((_ & T' & _) & _). discriminate T'. }
      * destruct (tidy false t) eqn:T; cbn [negb andb].
        { split; [intro H; injection H as <-; repeat split; auto|]. intros ((R' & _) & V'). destruct (W n true ltac:(unfold two64; lia)) as (_ & W2). specialize (W2 ltac:(auto)). congruence. }
        { split; [discriminate|]. intros ((_ & T') & _). discriminate T'. }
    + cbn [andb]. destruct (tidy_under_false t U) as (T1 & T2). split.
      * intro H. injection H as <-. destruct (Ascii.eqb c "0"); auto.
      * intros ((R' & _) & V'). destruct (W n false ltac:(unfold two64; lia)) as (_ & W2). specialize (W2 ltac:(auto)). congruence.
Qed.
Lemma uint_range s : parse_uint s = inl Range <-> exists b p q v, based s b (p ++ q) /\ loose b p v /\ two64 <= v.
Proof.
  destruct s as [|c s]; [split; [discriminate|]; intros (b & p & q & v & H & _); inversion H|]. destruct (based_exists (c :: s) ltac:(discriminate)) as (b & t & I).
  unfold parse_uint. apply based_spec in I as I'; [|discriminate]. rewrite I'. pose proof (based_base _ _ _ I) as B. pose proof (loop_range b t ltac:(lia) 0 false ltac:(unfold two64; lia)) as W.
  transitivity (uint_loop b 0 false t = inl Range).
  - destruct (uint_loop b 0 false t) as [f|[v un]]; [destruct f; split; intro H; (discriminate H || reflexivity)|]. destruct (un && negb (under_ok (c :: s))); split; discriminate.
  - rewrite W. split.
    + intros (p & q & v & -> & R & V). exists b, p, q, v. split; [exact I|]. split; [apply run_loose; exact R|exact V].
    + intros (b' & p & q & v & J & R & V). apply based_spec in J; [|discriminate]. rewrite I' in J. injection J as <- ->. exists p, q, v. split; [reflexivity|]. split; [apply run_loose; exact R|exact V].
Qed.

(** ** ParseInt *)
Lemma literal_first u v : literal u v -> exists c t, u = c :: t /\ c <> "+"%char /\ c <> "-"%char.
Proof.
  intros [c t w N H|t w H|p b w t x L W H]; [|exists "0"%char; eexists; split; [reflexivity|split; discriminate]..]. exists c, t. split; [reflexivity|]. apply numeral_run in H. destruct H as (R & T).
  destruct (run_bytes 10 0 _ w c t R eq_refl) as [->|(d & D & _)]; [discriminate T|exact (digit_sign c d D)].
Qed.
Lemma early_first u b p q v : based u b (p ++ q) -> loose b p v -> two64 <= v -> exists c t, u = c :: t /\ c <> "+"%char /\ c <> "-"%char.
Proof.
  intros I R V. apply run_loose in R. remember (p ++ q) as w eqn:E. destruct I as [c t N|x y c t L|t N]; [|exists "0"%char; eexists; split; [reflexivity|split; discriminate]..]. exists c, t. split; [reflexivity|].
  destruct p as [|x p]; [inversion R; subst; unfold two64 in V; lia|]. injection E as -> ->. destruct (run_bytes 10 0 _ v x p R eq_refl) as [->|(d & D & _)]; [split; discriminate|exact (digit_sign x d D)].
Qed.
(** The sign and what follows it. *)
Definition sign_cut (s : str) : bool * str :=
  match s with c :: t => if Ascii.eqb c "+" then (false, t) else if Ascii.eqb c "-" then (true, t) else (false, s) | [] => (false, []) end.
Lemma sign_cut_spec sg neg u : any_sign sg neg -> (exists c t, u = c :: t /\ c <> "+"%char /\ c <> "-"%char) -> sign_cut (sg ++ u) = (neg, u).
Proof.
  intros S (c & t & -> & A & B). destruct S; [|reflexivity..]. cbn [app sign_cut]. replace (Ascii.eqb c "+") with false by (symmetry; apply Ascii.eqb_neq; exact A).
  replace (Ascii.eqb c "-") with false by (symmetry; apply Ascii.eqb_neq; exact B). reflexivity.
Qed.
Lemma sign_cut_sign s neg u : sign_cut s = (neg, u) -> exists sg, any_sign sg neg /\ s = sg ++ u.
Proof.
  destruct s as [|c t]; [intro H; injection H as <- <-; exists []; split; [constructor|reflexivity]|]. cbn [sign_cut]. destruct (Ascii.eqb c "+") eqn:E; [|destruct (Ascii.eqb c "-") eqn:F].
  - apply Ascii.eqb_eq in E. subst c. intro H. injection H as <- <-. exists ($"+"). split; [constructor|reflexivity].
  - apply Ascii.eqb_eq in F. subst c. intro H. injection H as <- <-. exists ($"-"). split; [constructor|reflexivity].
  - intro H. injection H as <- <-. exists []. split; [constructor|reflexivity].
Qed.
Lemma parse_int_cut s : parse_int s = let '(neg, u) := sign_cut s in
  match parse_uint u with
  | inl f => inl f
  | inr n => if negb neg && (two63 <=? n) then inl Range else if neg && (two63 <? n) then inl Range else inr (if neg then - n else n)
  end.
Proof. destruct s as [|c t]; [reflexivity|]. unfold parse_int, sign_cut. destruct (Ascii.eqb c "+"); [reflexivity|]. destruct (Ascii.eqb c "-"); reflexivity. Qed.
Lemma literal_fun s v w : literal s v -> literal s w -> v < two64 -> w < two64 -> v = w.
Proof. intros A B V W. assert (E : parse_uint s = inr v) by (apply uint_ok; auto). assert (F : parse_uint s = inr w) by (apply uint_ok; auto). congruence. Qed.
Lemma literal_nonneg s v : literal s v -> 0 <= v.
Proof.
  intro H. assert (N : s <> []) by (destruct H; discriminate). destruct (based_exists s N) as (b & t & I). apply (literal_run s b t v I) in H. destruct H as (R & _). pose proof (based_base _ _ _ I). exact (run_le b 0 t v ltac:(lia) ltac:(lia) R).
Qed.
Lemma literal_large s v : literal s v -> two64 <= v -> parse_uint s = inl Range.
Proof.
  intros H V. assert (N : s <> []) by (destruct H; discriminate). destruct (based_exists s N) as (b & t & I). apply (literal_run s b t v I) in H. destruct H as (R & _). apply uint_range.
  exists b, t, [], v. rewrite app_nil_r. split; [exact I|]. split; [apply run_loose; exact R|exact V].
Qed.
Theorem int_ok s n : parse_int s = inr n <-> port_text s n.
Proof.
  rewrite parse_int_cut. unfold port_text, in_int64. destruct (sign_cut s) as [neg u] eqn:C. split.
  - destruct (sign_cut_sign s neg u C) as (sg & S & E). destruct (parse_uint u) as [f|v] eqn:P; [discriminate|]. apply uint_ok in P. destruct P as (L & V). pose proof (literal_nonneg u v L) as V0.
    unfold two63. intro H. assert (n = signed neg v /\ - 2 ^ 63 <= n < 2 ^ 63) as (En & B).
    { destruct neg; cbn [negb andb signed] in *.
      - destruct (9223372036854775808 <? v) eqn:T; [discriminate H|]. injection H as <-. lia.
      - destruct (9223372036854775808 <=? v) eqn:T; [discriminate H|]. injection H as <-. lia. }
    split; [|exact B]. exact (num_literal s n sg neg u v S L E En).
  - intros ([sg neg' u' v S L E En] & B). pose proof (sign_cut_spec sg neg' u' S (literal_first u' v L)) as C'. rewrite <- E, C in C'. injection C' as <- <-. pose proof (literal_nonneg u v L) as V0.
    assert (V : v < two64) by (unfold two64; destruct neg; cbn [signed] in En; lia). rewrite (proj2 (uint_ok u v) (conj L V)). unfold two63. destruct neg; cbn [negb andb signed] in *.
    + replace (9223372036854775808 <? v) with false by lia. rewrite En. reflexivity.
    + replace (9223372036854775808 <=? v) with false by lia. rewrite En. reflexivity.
Qed.
Theorem int_range s : parse_int s = inl Range <-> too_large s.
Proof.
  rewrite parse_int_cut. destruct (sign_cut s) as [neg u] eqn:C. split.
  - destruct (sign_cut_sign s neg u C) as (sg & S & E). destruct (parse_uint u) as [f|v] eqn:P.
    + intro H. injection H as ->. apply uint_range in P. destruct P as (b & p & q & v & I & L & V). exact (tl_early s sg neg u b p q v S E I L V).
    + apply uint_ok in P. destruct P as (L & V). pose proof (literal_nonneg u v L) as V0. intro H. apply (tl_number s (signed neg v)); [exact (num_literal s _ sg neg u v S L E eq_refl)|]. unfold in_int64.
      unfold two63 in H. destruct neg; cbn [negb andb signed] in *.
      * destruct (9223372036854775808 <? v) eqn:T; [lia|discriminate H].
      * destruct (9223372036854775808 <=? v) eqn:T; [lia|discriminate H].
  - intros [n [sg neg' u' v S L E En] B|sg neg' u' b p q v S E I L V].
    + pose proof (sign_cut_spec sg neg' u' S (literal_first u' v L)) as C'. rewrite <- E, C in C'. injection C' as <- <-. pose proof (literal_nonneg u v L) as V0. unfold in_int64 in B.
      destruct (Z.lt_ge_cases v two64) as [V|V]; [|rewrite (literal_large u v L V); reflexivity]. rewrite (proj2 (uint_ok u v) (conj L V)). unfold two63. destruct neg; cbn [negb andb signed] in *.
      * replace (9223372036854775808 <? v) with true by lia. reflexivity.
      * replace (9223372036854775808 <=? v) with true by lia. reflexivity.
    + pose proof (sign_cut_spec sg neg' u' S (early_first u' b p q v I L V)) as C'. rewrite <- E, C in C'. injection C' as <- <-. rewrite (proj2 (uint_range u)); [reflexivity|]. exists b, p, q, v. auto.
Qed.
Theorem int_fault_spec s why : parse_int s = inl why <-> no_port s why.
Proof.
  destruct why; [|exact (int_range s)]. cbn [no_port]. split.
  - intro H. split; [intro T; apply int_range in T; congruence|]. intros n N. assert (D : in_int64 n \/ ~ in_int64 n) by (unfold in_int64; lia). destruct D as [D|D].
    + assert (parse_int s = inr n) by (apply int_ok; split; assumption). congruence.
    + assert (parse_int s = inl Range) by (apply int_range; exact (tl_number s n N D)). congruence.
  - intros (T & N). destruct (parse_int s) as [[|]|n] eqn:E; [reflexivity|destruct T; apply int_range; exact E|]. apply int_ok in E. destruct (N n). apply E.
Qed.
