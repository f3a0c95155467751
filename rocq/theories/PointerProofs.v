(** The methods on dates with nil pointers. *)
From Coq Require Import Ascii String ZArith NArith Bool Lia ZifyBool List.
From Verif Require Import GoStr GoTime SpecText StrFacts TextFacts Edtf Common ApiFacts Json JsonText JsonDoc Unmarshal SpecUnmarshal.
Import ListNotations.
Open Scope Z_scope.
Ltac Zify.zify_post_hook ::= Z.div_mod_to_equations.

Lemma lower_is o : bound_result (begins o) (PLower o).
Proof.
  unfold PLower, deref, bind. destruct o as [d|]; [|apply br_missing; intros ts (? & ? & ? & E & _); discriminate].
  destruct (pe_start d) as [r|] eqn:E; [|apply br_missing; intros ts (? & ? & ? & E1 & E2 & _); injection E1 as <-; congruence].
  destruct (pr_lower r) as [b|] eqn:F; [|apply br_missing; intros ts (? & ? & ? & E1 & E2 & E3 & _); injection E1 as <-; rewrite E in E2; injection E2 as <-; congruence].
  assert (B : begins (Some d) (d_timestamp b)) by (exists d, r, b; auto). destruct (d_timestamp b); [exact (br_set _ _ B)|exact (br_unset _ B)].
Qed.
Lemma upper_is o : bound_result (ends o) (PUpper o).
Proof.
  unfold PUpper, deref, bind. destruct o as [d|]; [|apply br_missing; intros ts (? & ? & ? & E & _); discriminate].
  destruct (pe_end d) as [r|] eqn:E; [|apply br_missing; intros ts (? & ? & ? & E1 & E2 & _); injection E1 as <-; congruence].
  destruct (pr_upper r) as [b|] eqn:F; [|apply br_missing; intros ts (? & ? & ? & E1 & E2 & E3 & _); injection E1 as <-; rewrite E in E2; injection E2 as <-; congruence].
  assert (B : ends (Some d) (d_timestamp b)) by (exists d, r, b; auto). destruct (d_timestamp b); [exact (br_set _ _ B)|exact (br_unset _ B)].
Qed.
Lemma begins_one o x y : begins o x -> begins o y -> x = y.
Proof. intros (d & r & b & E1 & E2 & E3 & <-) (d' & r' & b' & F1 & F2 & F3 & <-). rewrite E1 in F1. injection F1 as <-. rewrite E2 in F2. injection F2 as <-. rewrite E3 in F3. injection F3 as <-. reflexivity. Qed.
Lemma ends_one o x y : ends o x -> ends o y -> x = y.
Proof. intros (d & r & b & E1 & E2 & E3 & <-) (d' & r' & b' & F1 & F2 & F3 & <-). rewrite E1 in F1. injection F1 as <-. rewrite E2 in F2. injection F2 as <-. rewrite E3 in F3. injection F3 as <-. reflexivity. Qed.
Lemma result_one (P : option Z -> Prop) : (forall x y : option Z, P x -> P y -> x = y) -> forall r r', bound_result P r -> bound_result P r' -> r = r'.
Proof.
  intros U r r' [M|N|z Z] [M'|N'|z' Z']; try reflexivity; try (exfalso; first [eapply M|eapply M']; eassumption); try (specialize (U _ _ N Z'); discriminate); try (specialize (U _ _ Z N'); discriminate).
  specialize (U _ _ Z Z'). injection U as <-. reflexivity.
Qed.
Theorem lower_exact o r : PLower o = r <-> bound_result (begins o) r.
Proof. split; [intros <-; apply lower_is|]. apply (result_one _ (begins_one o)), lower_is. Qed.
Theorem upper_exact o r : PUpper o = r <-> bound_result (ends o) r.
Proof. split; [intros <-; apply upper_is|]. apply (result_one _ (ends_one o)), upper_is. Qed.
Lemma counts_iff z n : counts_as z n <-> n = time_sec z.
Proof.
  unfold counts_as, time_sec, wrap64, two63, two64. change (2 ^ 63) with 9223372036854775808. change (2 ^ 64) with 18446744073709551616. split.
  - intros (R & k & E). lia.
  - intros ->. split; [lia|]. exists ((z + 62135596800 + 9223372036854775808) / 18446744073709551616). lia.
Qed.
Lemma sooner_iff x y : sooner x y <-> time_sec x < time_sec y.
Proof. split; [intros (n & m & N & M & L); apply counts_iff in N, M; subst; exact L|]. intro L. exists (time_sec x), (time_sec y). rewrite !counts_iff. auto. Qed.
Lemma open_iff s : IsOpen s = true <-> open_word s.
Proof. unfold IsOpen, open_word. rewrite orb_true_iff, !seqb_eq. reflexivity. Qed.
Lemma open_not s : IsOpen s = false -> ~ open_word s.
Proof. intros E H. apply open_iff in H. congruence. Qed.
(** A comparison through two of the bounds. *)
Definition compare (late : Z -> Z -> bool) (text text' : str) (theirs ours : option pedtf -> res Z) (d u : option pedtf) : res bool :=
  let* x := deref d in
  if IsOpen (pe_edtf x) then OK false
  else
    let* u_t := wrap_err (text ++ $" (" ++ edtf_of u ++ $")") (theirs u) in
    let* t := wrap_err (text' ++ $" (" ++ edtf_of d ++ $")") (ours d) in
    if late u_t t then OK false else OK true.
Lemma compare_is late lateb text text' (P Q : option pedtf -> option Z -> Prop) theirs ours :
  (forall x y, late x y <-> lateb x y = true) -> (forall o, bound_result (P o) (theirs o)) -> (forall o, bound_result (Q o) (ours o)) -> (forall ts, ~ P None ts) ->
  forall d u, compared late text text' P Q d u (compare lateb text text' theirs ours d u).
Proof.
  intros L HP HQ N d u. unfold compare. destruct d as [x|]; [|apply cp_nil]. cbn [deref bind]. destruct (IsOpen (pe_edtf x)) eqn:E; [apply cp_open, open_iff, E|]. apply open_not in E.
  specialize (HP u). inversion HP as [M R|M R|z M R].
  - apply cp_theirs_missing; assumption.
  - cbn [wrap_err bind]. destruct u as [u|]; [|exfalso; exact (N _ M)]. cbn [edtf_of]. apply cp_theirs_unset; assumption.
  - cbn [wrap_err bind]. specialize (HQ (Some x)). inversion HQ as [M' R'|M' R'|y M' R'].
    + eapply cp_ours_missing; eassumption.
    + cbn [wrap_err bind edtf_of]. eapply cp_ours_unset; eassumption.
    + cbn [wrap_err bind]. destruct (lateb z y) eqn:F; [eapply cp_no; try eassumption; apply L; exact F|]. eapply cp_yes; try eassumption. rewrite L. congruence.
Qed.
Lemma compared_one late text text' (P Q : option pedtf -> option Z -> Prop) :
  (forall o x y, P o x -> P o y -> x = y) -> (forall o x y, Q o x -> Q o y -> x = y) ->
  forall d u r r', compared late text text' P Q d u r -> compared late text text' P Q d u r' -> r = r'.
Proof.
  intros UP UQ d u r r' H H'.
  destruct H; inversion H'; subst; try reflexivity; try contradiction;
    repeat match goal with
    | M : missing (P ?o), X : P ?o ?t |- _ => exfalso; exact (M t X)
    | M : missing (Q ?o), X : Q ?o ?t |- _ => exfalso; exact (M t X)
    | A : P ?o ?x, B : P ?o ?y |- _ => let E := fresh "E" in pose proof (UP _ _ _ A B) as E; first [discriminate E|injection E as E; subst; clear B|clear B]
    | A : Q ?o ?x, B : Q ?o ?y |- _ => let E := fresh "E" in pose proof (UQ _ _ _ A B) as E; first [discriminate E|injection E as E; subst; clear B|clear B]
    end; try reflexivity; contradiction.
Qed.
Lemma after_is d u : after_result d u (PAfter d u).
Proof.
  assert (E : PAfter d u = compare (fun u_t t => time_sec t <? time_sec u_t) ($"Failed to derive upper time for inception date") ($"Failed to derive lower time for cessation date") PUpper PLower d u) by reflexivity.
  rewrite E. apply compare_is; [intros x y; rewrite sooner_iff; lia|exact upper_is|exact lower_is|]. intros ts (? & ? & ? & F & _). discriminate.
Qed.
Lemma before_is d u : before_result d u (PBefore d u).
Proof.
  assert (E : PBefore d u = compare (fun u_t t => time_sec u_t <? time_sec t) ($"Failed to derive lower time for inception date") ($"Failed to derive upper time for cessation date") PLower PUpper d u) by reflexivity.
  rewrite E. apply compare_is; [intros x y; rewrite sooner_iff; lia|exact lower_is|exact upper_is|]. intros ts (? & ? & ? & F & _). discriminate.
Qed.
Theorem after_exact d u r : PAfter d u = r <-> after_result d u r.
Proof. split; [intros <-; apply after_is|]. intro H. exact (compared_one _ _ _ _ _ ends_one begins_one _ _ _ _ (after_is d u) H). Qed.
Theorem before_exact d u r : PBefore d u = r <-> before_result d u r.
Proof. split; [intros <-; apply before_is|]. intro H. exact (compared_one _ _ _ _ _ begins_one ends_one _ _ _ _ (before_is d u) H). Qed.
(** On dates with all pointers, as the parser returns them. *)
Theorem plain_lower d : PLower (Some (of_edtf d)) = Lower d /\ PUpper (Some (of_edtf d)) = Upper d.
Proof. split; reflexivity. Qed.
Definition near (d : edtfdate) : Prop := forall z, d_timestamp (r_lower (e_start d)) = Some z \/ d_timestamp (r_upper (e_end d)) = Some z -> - 2 ^ 63 <= z < 2 ^ 63 - 62135596800.
Theorem plain_compare d u : near d -> near u -> PAfter (Some (of_edtf d)) (Some (of_edtf u)) = After d u /\ PBefore (Some (of_edtf d)) (Some (of_edtf u)) = Before d u.
Proof.
  intros D U. assert (S : forall z, - 2 ^ 63 <= z < 2 ^ 63 - 62135596800 -> time_sec z = z + 62135596800).
  { intros z Z. unfold time_sec. apply wrap64_id. unfold min_int64, max_int64. change (2 ^ 63) with 9223372036854775808 in Z. lia. }
  unfold PAfter, PBefore, After, Before, PLower, PUpper, Lower, Upper, near in *. cbn [deref bind of_edtf of_range pe_edtf pe_start pe_end pr_lower pr_upper edtf_of]. unfold ts_time.
  destruct (IsOpen (e_edtf d)); [split; reflexivity|].
  split.
  - destruct (d_timestamp (r_upper (e_end u))) as [x|]; [|reflexivity]. cbn [wrap_err bind]. destruct (d_timestamp (r_lower (e_start d))) as [y|]; [|reflexivity]. cbn [wrap_err bind]. rewrite !S by auto.
    replace (y + 62135596800 <? x + 62135596800) with (y <? x) by lia. reflexivity.
  - destruct (d_timestamp (r_lower (e_start u))) as [x|]; [|reflexivity]. cbn [wrap_err bind]. destruct (d_timestamp (r_upper (e_end d))) as [y|]; [|reflexivity]. cbn [wrap_err bind]. rewrite !S by auto.
    replace (x + 62135596800 <? y + 62135596800) with (x <? y) by lia. reflexivity.
Qed.
