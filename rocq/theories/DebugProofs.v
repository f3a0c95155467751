(** Lemmas for C86. *)
From Coq Require Import Ascii String ZArith NArith Bool Lia ZifyBool List.
From Verif Require Import GoStr SpecCal SpecText SpecGrammar SpecForms SpecReads SpecRefused SpecHelpers SpecDebug StrFacts SplitFacts Edtf Common DebugCommon CommonProofs SupportProofs RangeProofs.
Import ListNotations.
Open Scope Z_scope.

Lemma sd_equals_spec a b : sd_equals a b = true <-> a = b.
Proof.
  destruct a as [y m d], b as [y' m' d']. unfold sd_equals. cbn [sd_year sd_month sd_day]. rewrite !andb_true_iff, !seqb_eq.
  split; [intros ((-> & ->) & ->); reflexivity|intro H; injection H as -> -> ->; auto].
Qed.
Lemma sd_string_pre a b r r' : plain_sd a -> plain_sd b -> StringDate_String a ++ r = StringDate_String b ++ r' -> a = b /\ r = r'.
Proof.
  destruct a as [y m d], b as [y' m' d']. intros (A1 & A2 & A3) (B1 & B2 & B3). unfold StringDate_String. cbn [sd_year sd_month sd_day] in *. rewrite <- !app_assoc. intro E.
  apply app_inv_head in E. change (y ++ $"'" ++ $" M: '" ++ m ++ $"'" ++ $" D: '" ++ d ++ $"'" ++ $"]" ++ r =
    y' ++ $"'" ++ $" M: '" ++ m' ++ $"'" ++ $" D: '" ++ d' ++ $"'" ++ $"]" ++ r') in E.
  apply quoted in E; try assumption. destruct E as (E1 & E). apply app_inv_head in E.
  apply quoted in E; try assumption. destruct E as (E2 & E). apply app_inv_head in E.
  apply quoted in E; try assumption. destruct E as (E3 & E). apply app_inv_head in E. split; congruence.
Qed.
Theorem sd_string_inj a b : plain_sd a -> plain_sd b -> StringDate_String a = StringDate_String b -> a = b.
Proof. intros A B E. apply (sd_string_pre a b [] [] A B). rewrite !app_nil_r. exact E. Qed.
Theorem qualifier_string_inj a b : quoteless (q_value a) -> quoteless (q_value b) -> Qualifier_String a = Qualifier_String b -> a = b.
Proof.
  destruct a as [v t], b as [v' t']. unfold Qualifier_String. cbn [q_value q_type]. intros A B E. apply app_inv_head in E.
  change (v ++ $"'" ++ $" Type: '" ++ qtype_text t ++ $"'" = v' ++ $"'" ++ $" Type: '" ++ qtype_text t' ++ $"'") in E.
  apply quoted in E; try assumption. destruct E as (-> & E). apply app_inv_head in E. destruct t, t'; try discriminate E; reflexivity.
Qed.
Theorem sr_string_inj a b : plain_sd (sr_start a) -> plain_sd (sr_end a) -> plain_sd (sr_start b) -> plain_sd (sr_end b) ->
  StringRange_String a = StringRange_String b -> sr_start a = sr_start b /\ sr_end a = sr_end b.
Proof.
  intros A A' B B' E. unfold StringRange_String in E. apply app_inv_head in E. apply sd_string_pre in E; try assumption. destruct E as (E1 & E).
  apply app_inv_head in E. apply sd_string_pre in E; try assumption. destruct E as (E2 & _). split; assumption.
Qed.
Lemma digit_quoteless s : Forall (fun c => is_digit c = true \/ c = "X"%char \/ c = "-"%char) s -> quoteless s.
Proof. intros F I. rewrite Forall_forall in F. destruct (F _ I) as [H|[H|H]]; discriminate H. Qed.
Lemma canonical_quoteless t v : canonical_text t v -> quoteless t.
Proof.
  intros H I. assert (T : integer_text t v).
  { destruct H as [(_ & D & _)|(L & u & -> & D & _)]; [apply it_plain; exact D|]. pose proof (it_minus _ _ D) as Q. rewrite Z.opp_involutive in Q. exact Q. }
  destruct (integer_bytes _ _ _ T I) as [Q|[Q|Q]]; discriminate Q.
Qed.
Lemma four_x_quoteless s : four_x s -> quoteless s.
Proof. intros (_ & F). apply digit_quoteless. eapply Forall_impl; [|exact F]. intros c [H|H]; auto. Qed.
Lemma year_part_quoteless y : year_part y -> quoteless y.
Proof.
  intros (a & b & A & B & ->) I. apply in_app_iff in I. destruct I as [I|I]; [|exact (four_x_quoteless _ B I)].
  destruct A as [A|A]; [subst a; destruct I|]. red in A. subst a. cbn in I. intuition discriminate.
Qed.
Lemma x_number_quoteless (P : Z -> Prop) s : (forall n, P n -> 0 <= n <= 99) -> x_number P s -> quoteless s.
Proof.
  intros H (n & a & b & Pn & -> & A & B). specialize (H n Pn). apply digit_quoteless.
  pose proof (Z.div_mod n 10 ltac:(lia)). pose proof (Z.mod_pos_bound n 10 ltac:(lia)).
  apply Forall_cons; [|apply Forall_cons; [|apply Forall_nil]].
  - destruct A as [->| ->]; [left; apply is_digit_char; lia|auto].
  - destruct B as [->| ->]; [left; apply is_digit_char; lia|auto].
Qed.
Lemma month_part_quoteless m : month_part m -> quoteless m.
Proof. apply x_number_quoteless. intros. lia. Qed.
Lemma day_part_quoteless m : day_part m -> quoteless m.
Proof. apply x_number_quoteless. intros. lia. Qed.
Lemma parts_quoteless s y m d yw mw dw : marked_parts s y m d yw mw dw -> quoteless y /\ (forall t, m = Some t -> quoteless t) /\ (forall t, d = Some t -> quoteless t).
Proof.
  intros [yt y0 w _ Y|yt y0 w mt m0 mw0 _ Y _ M|yt y0 w mt m0 mw0 dt d0 dw0 _ Y _ M _ D]; split; try exact (year_part_quoteless _ Y); split; intros t E; try discriminate E; injection E as <-;
    first [exact (month_part_quoteless _ M)|exact (day_part_quoteless _ D)].
Qed.
Ltac literal := let H := fresh in intro H; cbn in H; intuition discriminate.
Theorem range_plain s r : StringRangeFromYMD s = OK r -> plain_sd (sr_start r) /\ plain_sd (sr_end r).
Proof.
  intro H. apply range_values in H. destruct H as [y m d yw mw dw ys ye ms me ds dl de P Y M D L]. cbn [sr_start sr_end].
  destruct (parts_quoteless _ _ _ _ _ _ _ P) as (Qy & Qm & Qd).
  assert (A : quoteless ys /\ quoteless ye) by (destruct Y as [y0 _|a b c lo hi _ _ _ L1 L2]; [auto|split; eapply canonical_quoteless; eassumption]).
  assert (B : quoteless ms /\ quoteless me) by (destruct M as [|m0 _| |a _]; [split; literal|auto|split; literal|split; literal]).
  assert (C : quoteless ds /\ forall t, dl = Some t -> quoteless t).
  { destruct D as [|d0 _| | | |]; (split; [first [literal|apply Qd; reflexivity]|intros t E; first [discriminate E|injection E as <-; first [literal|apply Qd; reflexivity]]]). }
  assert (Z0 : quoteless de) by (destruct L as [t|y0 m0 t _ _ L]; [apply C; reflexivity|eapply canonical_quoteless; exact L]).
  unfold plain_sd. cbn [sd_year sd_month sd_day]. tauto.
Qed.
Theorem range_texts s s' r r' : StringRangeFromYMD s = OK r -> StringRangeFromYMD s' = OK r' -> StringRange_String r = StringRange_String r' ->
  sr_start r = sr_start r' /\ sr_end r = sr_end r'.
Proof. intros E E' T. destruct (range_plain _ _ E), (range_plain _ _ E'). apply sr_string_inj; assumption. Qed.
