(** Lemmas for C62: the matches tool. *)
From Coq Require Import Ascii String ZArith NArith Bool Lia ZifyBool List.
From Verif Require Import GoStr ErrText SpecCal SpecText SpecGrammar SpecForms SpecReads SpecRefused SpecTools SpecMessage StrFacts TextFacts
  Edtf Level0 Level1 Level2 Parser Cmd Level0Proofs ReadsFacts RefProofs RefStamp MessageProofs.
Import ListNotations.
Open Scope Z_scope.

Lemma nameless1 s : no_feature s level1_features -> L1_Matches s = Err (EInvalid ($"Invalid Level 1 string") s).
Proof.
  intro N. assert (M : forall f, L1_Matches s <> OK f) by (intros f H; apply (N f), first1; exact H). clear N.
  unfold L1_Matches in *. repeat match goal with |- context [if ?b then _ else _] => destruct b; [exfalso; eapply M; reflexivity|] end. reflexivity.
Qed.
Lemma nameless2 s : no_feature s level2_features -> L2_Matches s = Err (EInvalid ($"Invalid or unsupported Level 2 string") s).
Proof.
  intro N. assert (M : forall f, L2_Matches s <> OK f) by (intros f H; apply (N f), first2; exact H). clear N.
  unfold L2_Matches in *. repeat match goal with |- context [if ?b then _ else _] => destruct b; [exfalso; eapply M; reflexivity|] end. reflexivity.
Qed.
Theorem unmatched_exactly s e : Matches s = Err e <-> unmatched s e.
Proof.
  split.
  - intro M. unfold Matches in M. pose proof (level0_test s) as G0. pose proof (level1_test s) as G1. pose proof (level2_test s) as G2.
    destruct (IsLevel0 s) eqn:E0.
    { destruct (level0_matches s E0) as (f & Q). unfold Matches in Q. rewrite E0 in Q. congruence. }
    assert (N0 : ~ level0_form s) by (intro Q; apply G0 in Q; discriminate). destruct (IsLevel1 s) eqn:E1.
    { assert (N : no_feature s level1_features) by (intros f Q; apply first1 in Q; rewrite Q in M; discriminate).
      rewrite (nameless1 s N) in M. apply err_same in M. subst e. apply un_level1; [exact N0|apply G1; reflexivity|exact N]. }
    assert (N1 : ~ level1_text s) by (intro Q; apply G1 in Q; discriminate). destruct (IsLevel2 s) eqn:E2.
    { assert (N : no_feature s level2_features) by (intros f Q; apply first2 in Q; rewrite Q in M; discriminate).
      rewrite (nameless2 s N) in M. apply err_same in M. subst e. apply un_level2; [exact N0|exact N1|apply G2; reflexivity|exact N]. }
    assert (N2 : ~ level2_text s) by (intro Q; apply G2 in Q; discriminate). apply err_same in M. subst e. apply un_none; assumption.
  - intros [N0 T1 N|N0 N1 T2 N|N0 N1 N2]; unfold Matches; rewrite (untest _ _ (level0_test s) N0).
    + rewrite (proj2 (level1_test s) T1), (nameless1 s N). reflexivity.
    + rewrite (untest _ _ (level1_test s) N1), (proj2 (level2_test s) T2), (nameless2 s N). reflexivity.
    + rewrite (untest _ _ (level1_test s) N1), (untest _ _ (level2_test s) N2). reflexivity.
Qed.
Lemma matches_settles s : Matches s <> Panic.
Proof.
  unfold Matches, L0_Matches, L1_Matches, L2_Matches. repeat match goal with |- context [if ?b then _ else _] => destruct b end; discriminate.
Qed.
Lemma unmatched_spoken s e : unmatched s e -> spoken e.
Proof. intros []; apply label_spoken; exact I. Qed.
Lemma line_text s lv f out : takes s lv f -> s ++ $" level " ++ itoa lv ++ $" (" ++ f ++ $")" ++ newline ++ out = match_line s lv f ++ out.
Proof. intro T. unfold match_line, newline. destruct T; rewrite <- !app_assoc; reflexivity. Qed.
Theorem match_runs args : forall out x, cmd_matches args = (out, x) <-> match_run args out x.
Proof.
  induction args as [|a args IH]; intros out x.
  - split; [intro H; injection H as <- <-; constructor|intro H; inversion H; reflexivity].
  - cbn [cmd_matches]. destruct (Matches a) as [(lv & f)|e|] eqn:M.
    + apply matches_takes in M. destruct (cmd_matches args) as (out' & x') eqn:E. rewrite (line_text a lv f out' M). split.
      * intro H. injection H as <- <-. apply mr_line; [exact M|]. apply IH. reflexivity.
      * intro H. inversion H as [|a0 lv' f' rest out0 x0 T H' E1 E2 E3|a0 e w rest U _ E1 E2 E3]; subst.
        -- apply matches_takes in M, T. rewrite M in T. injection T as <- <-. apply IH in H'. injection H' as <- <-. reflexivity.
        -- apply unmatched_exactly in U. apply matches_takes in M. congruence.
    + apply unmatched_exactly in M. split.
      * intro H. injection H as <- <-. apply (mr_stop a e (error_text e)); [exact M|]. apply (unmatched_spoken a e M). reflexivity.
      * intro H. inversion H as [|a0 lv' f' rest out0 x0 T H' E1 E2 E3|a0 e' w rest U S E1 E2 E3]; subst.
        -- apply matches_takes in T. apply unmatched_exactly in M. congruence.
        -- pose proof U as U'. apply unmatched_exactly in M, U. rewrite M in U. apply err_same in U. subst e'.
           apply (unmatched_spoken a e U') in S. subst w. reflexivity.
    + destruct (matches_settles a M).
Qed.
