(** Lemmas for C59: what the text of an error tells. *)
From Coq Require Import Ascii String ZArith NArith Bool Lia ZifyBool List.
From Verif Require Import GoStr GoBig ErrText SpecCal SpecText SpecZone SpecForms SpecSpan SpecReads SpecRefused SpecMessage StrFacts TextFacts Edtf Parser DateTimeFacts HullProofs ReadsStamp RefStamp SupportProofs RefProofs MessageProofs.
Import ListNotations.
Open Scope Z_scope.

Definition kinds (e : err) : list bool := map (fun p => p e) [IsNotSet; IsNotImplemented; IsInvalid; IsUnsupported; IsUnrecognized].
Lemma library_kinds e e' : library_error e -> library_error e' -> error_text e = error_text e' -> kinds e = kinds e'.
Proof. intros [] [] E; try reflexivity; exfalso; revert E; cbn; discriminate. Qed.
(** ** The errors of a parse *)
Definition usual (e : err) : Prop :=
  match e with
  | ENotImplemented l _ | EInvalid l _ | EUnsupported l _ | EUnrecognized l _ => In l labels
  | ENum x | EInt x => Forall bare x
  | ETime l x => Forall bare l /\ Forall bare x
  | EBig _ => True
  | EText m => m = $"Invalid days for month"
  | _ => False
  end.
Ltac plain := cbn; tauto.
Lemma bare_X c : is_digit c = true -> Forall bare ["X"%char; c].
Proof. intro D. constructor; [right; cbn; tauto|constructor; [left; exact D|constructor]]. Qed.
Lemma date_usual s e : date_refused s e -> usual e.
Proof.
  intros [N|r m d H X|r m d H X|y m H D|y m d H N I X|y l h c d H N R D|y l h m l' h' c H R R' D|y m d y' m' d' H N]; try plain.
  - constructor; [right; cbn; tauto|constructor].
  - apply bare_year. destruct H; assumption.
  - exact (bare_X c D).
  - exact (bare_X c D).
Qed.
Definition bareb (c : ascii) : bool := is_digit c || existsb (Ascii.eqb c) (list_ascii_of_string "+-:TXZEe").
Lemma bare_lit s : forallb bareb s = true -> Forall bare s.
Proof.
  intro H. apply Forall_forall. intros c Hc. rewrite forallb_forall in H. specialize (H c Hc). apply orb_true_iff in H. destruct H as [H|H]; [left; exact H|right].
  apply existsb_exists in H. destruct H as (d & Hd & E). apply Ascii.eqb_eq in E. subst d. exact Hd.
Qed.
Lemma stamp_usual s e : stamp_refused s e -> usual e.
Proof.
  intros [t h m sc z g l s' Ht Hh Hm Hs Hg Hl -> _]. apply layout_kind in Hl. destruct Hl as (k & Hk & ->). split.
  - destruct Hg; apply bare_lit; destruct k; reflexivity.
  - assert (L : forall c, bareb c = true -> Forall bare [c]) by (intros c H; apply bare_lit; cbn [forallb]; rewrite H; reflexivity).
    apply Forall_app. split; [exact (bare_date t Ht)|]. apply Forall_app. split; [apply L; reflexivity|]. apply Forall_app. split; [exact (bare_two h Hh)|].
    apply Forall_app. split; [apply L; reflexivity|]. apply Forall_app. split; [exact (bare_two m Hm)|]. apply Forall_app. split; [apply L; reflexivity|].
    apply Forall_app. split; [exact (bare_two sc Hs)|exact (bare_zone k z Hk)].
Qed.
Lemma halves_usual a b e : halves_refused a b e -> usual e.
Proof. intros [[_ _ H]|(_ & [_ _ H])]; exact (date_usual _ _ H). Qed.
Lemma months_usual y b y' e : months_refused y b y' e -> usual e.
Proof. intros [H|H|H H']; try plain. split; apply bare_lit; reflexivity. Qed.
Lemma notation_usual t e : notation_refused t e -> usual e.
Proof. intros []; plain. Qed.
Theorem refused_usual s e : refused s e -> usual e.
Proof.
  intros [s' lv f x _ H|s' _ _ _|s' _ _ _ _|s' _ _ _ _ _]; try plain.
  destruct H as [f0 s0 x0 _ H|s0 x0 H|s0 x0 H|s0 x0 H|s0 x0 H|s0 x0 H|s0 x0 H|s0 x0 H].
  - destruct H as [s1 e1 _ H|a b e1 _ _ H|a b c]; [exact (date_usual _ _ H)|exact (halves_usual _ _ _ H)|plain].
  - exact (stamp_usual _ _ H).
  - destruct H; plain.
  - destruct H as [t y n r b e0 j x1 _ _ H|n w v sp sp' y b e0 j x1 _ _ _ _ _ H]; exact (months_usual _ _ _ _ H).
  - destruct H as [a t x1 _ H|a t y w _ _ _ _]; [exact (notation_usual _ _ H)|plain].
  - destruct H as [sg ds nd s1 _ _ _ _ _|c t nd x1 _ H _|u y nd v s1 _ _ _ _|u y nd v w x1 _ _ _ _ _ _]; try plain. exact (notation_usual _ _ H).
  - destruct H. plain.
  - destruct H as [o l p c s1 _ _ _ _|o l ds so eo c a b x1 _ _ _ _ H]; [plain|exact (halves_usual _ _ _ H)].
Qed.
(** The first letters of a text say which kind it is. *)
Lemma big_head t : (exists r, big_text t = $"strconv" ++ r) \/ (exists r, big_text t = $"exponent" ++ r) \/ (exists r, big_text t = $"number" ++ r).
Proof.
  unfold big_text. destruct (exp_split t) as [((a & b) & c)|]; [|right; right; eexists; reflexivity].
  destruct (_ <? _); [left; eexists; reflexivity|right; left; eexists; reflexivity].
Qed.
Theorem parse_kinds s e s' e' : ParseString s = Err e -> ParseString s' = Err e' -> error_text e = error_text e' -> kinds e = kinds e'.
Proof.
  intros H H' E. apply refused_complete, refused_usual in H, H'.
  destruct e, e'; cbn [usual] in H, H'; try contradiction; try reflexivity; exfalso; cbn [error_text] in E; try subst;
    try (revert E; cbn; discriminate);
    try (match type of E with context [big_text ?t] => destruct (big_head t) as [(r & Q)|[(r & Q)|(r & Q)]]; rewrite Q in E; revert E; cbn; discriminate end).
Qed.
(** ** The string *)
Definition clash (a b : str) : bool := negb (has_prefix (rev b) (rev a)) && negb (has_prefix (rev a) (rev b)).
Lemma no_clash (a b : str) : forall u v, a ++ u = b ++ v -> has_prefix b a = true \/ has_prefix a b = true.
Proof.
  revert b. induction a as [|c a IH]; intros [|d b] u v E; try (left; destruct b; reflexivity); try (right; reflexivity); [left; reflexivity..|].
  injection E as -> E. cbn [has_prefix]. rewrite Ascii.eqb_refl. exact (IH b u v E).
Qed.
Lemma ends_differ a b s s' : clash a b = true -> s ++ a <> s' ++ b.
Proof.
  intros C E. apply (f_equal (@rev ascii)) in E. rewrite !rev_app_distr in E. unfold clash in C. apply andb_true_iff in C. destruct C as (C1 & C2).
  destruct (no_clash _ _ _ _ E) as [Q|Q]; rewrite Q in *; discriminate.
Qed.
Definition tail (l : str) : str := $"' (" ++ l ++ $")".
Lemma label_pairs : forallb (fun l => forallb (fun l' => seqb l l' || clash (tail l) (tail l')) labels) labels = true.
Proof. vm_compute. reflexivity. Qed.
Lemma payload_same l l' s s' : In l labels -> In l' labels -> s ++ tail l = s' ++ tail l' -> l = l' /\ s = s'.
Proof.
  intros H H' E. pose proof label_pairs as P. rewrite forallb_forall in P. specialize (P l H). cbn beta in P. rewrite forallb_forall in P. specialize (P l' H').
  apply orb_true_iff in P. destruct P as [P|P].
  - apply seqb_eq in P. subst l'. apply app_tail_inv in E; [|reflexivity]. destruct E as (-> & _). auto.
  - destruct (ends_differ _ _ _ _ P E).
Qed.
Theorem parse_strings s e s' e' : ParseString s = Err e -> ParseString s' = Err e' -> library_error e -> error_text e = error_text e' -> e = e'.
Proof.
  intros H H' L E. pose proof (parse_kinds s e s' e' H H' E) as K. apply refused_complete, refused_usual in H, H'.
  destruct L as [|l x|l x|l x|l x]; cbn [usual] in H; [destruct H|..]; destruct e' as [|l' x'|l' x'|l' x'|l' x'|x'|x'|l' x'|x'|m|m i]; cbn [usual] in H'; try contradiction; try discriminate K;
    (assert (Q : x ++ tail l = x' ++ tail l'); [|destruct (payload_same _ _ _ _ H H' Q) as (-> & ->); reflexivity]);
    cbn [error_text] in E; apply app_inv_head in E; exact E.
Qed.
(** As five statements. *)
Lemma kinds_tests e e' : kinds e = kinds e' ->
  IsNotSet e = IsNotSet e' /\ IsNotImplemented e = IsNotImplemented e' /\ IsInvalid e = IsInvalid e' /\
  IsUnsupported e = IsUnsupported e' /\ IsUnrecognized e = IsUnrecognized e'.
Proof. intro H. injection H as H1 H2 H3 H4 H5. auto. Qed.
Theorem library_tests e e' : library_error e -> library_error e' -> error_text e = error_text e' ->
  IsNotSet e = IsNotSet e' /\ IsNotImplemented e = IsNotImplemented e' /\ IsInvalid e = IsInvalid e' /\
  IsUnsupported e = IsUnsupported e' /\ IsUnrecognized e = IsUnrecognized e'.
Proof. intros H H' E. apply kinds_tests. apply library_kinds; assumption. Qed.
Theorem parse_tests s s' e e' : ParseString s = Err e -> ParseString s' = Err e' -> error_text e = error_text e' ->
  IsNotSet e = IsNotSet e' /\ IsNotImplemented e = IsNotImplemented e' /\ IsInvalid e = IsInvalid e' /\
  IsUnsupported e = IsUnsupported e' /\ IsUnrecognized e = IsUnrecognized e'.
Proof. intros H H' E. apply kinds_tests. exact (parse_kinds s e s' e' H H' E). Qed.
(** The text of an error of another package need not name the string. *)
Theorem overflow_ambiguous : exists s s' e e', ParseString s = Err e /\ ParseString s' = Err e' /\ e <> e' /\ error_text e = error_text e'.
Proof.
  exists ($"Y1E1234567890123"), ($"Y2E1234567890123"). do 2 eexists. split; [vm_compute; reflexivity|]. split; [vm_compute; reflexivity|].
  split; [discriminate|vm_compute; reflexivity].
Qed.
