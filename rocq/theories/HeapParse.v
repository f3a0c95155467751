(** C77 for the parsers of the features and for parser.ParseString. *)
From Coq Require Import Ascii String ZArith NArith Bool Lia Permutation List.
From Verif Require Import GoStr GoTime Regex Patterns Edtf Calendar Common Level0 Level1 Level2 Parser SpecText StrFacts SplitFacts ApiFacts SetGrammar Heap SpecHeap HeapFacts HeapProofs HeapSet.
Import ListNotations.
Open Scope Z_scope.

Definition from_span (P : hspan -> heap -> datespan -> Prop) (x : hedtf) (h' : heap) (d : edtfdate) : Prop :=
  exists sp v, P sp h' v /\ he_start x = hs_start sp /\ he_end x = hs_end sp /\
    d = mkEDTF (s_start v) (s_end v) (he_edtf x) (he_level x) (he_feature x).
Definition opens (d : edtfdate) : Prop := d_open (r_lower (e_start d)) = true /\ d_open (r_lower (e_end d)) = true.
Inductive twice (h : heap) (x : hedtf) (h' : heap) (d : edtfdate) : Prop :=
  twice_intro a b v :
    nth_error (h_ranges h') (he_start x) = Some (mkHRange [] a a) -> nth_error (h_ranges h') (he_end x) = Some (mkHRange [] b b) ->
    (length (h_ranges h) <= he_start x)%nat -> (length (h_ranges h) <= he_end x)%nat -> he_start x <> he_end x ->
    (length (h_dates h) <= a)%nat -> (length (h_dates h) <= b)%nat -> a <> b ->
    read_date h' a = Some v -> read_date h' b = Some v -> new_ymds h h' -> apart h' a b ->
    d = mkEDTF (mkRange [] v v) (mkRange [] v v) (he_edtf x) (he_level x) (he_feature x) -> twice h x h' d.
Definition kind (h : heap) (x : hedtf) (h' : heap) (d : edtfdate) : Prop :=
  (from_span (made h) x h' d /\ he_feature x <> DATE_AND_TIME /\ ~ (he_feature x = SET_REPRESENTATIONS /\ opens d)) \/
  (he_feature x = DATE_AND_TIME /\ twice h x h' d) \/
  (he_feature x = SET_REPRESENTATIONS /\ opens d /\ from_span (one_range h) x h' d).

Lemma kind_span h sp h' v s l f : made h sp h' v -> f <> DATE_AND_TIME -> f <> SET_REPRESENTATIONS ->
  kind h (hedtf_of_span sp s l f) h' (edtf_of_span v s l f).
Proof. intros M A B. left. split; [exists sp, v; auto|]. split; [exact A|]. intros (E & _). exact (B E). Qed.

Local Ltac span := eapply sim_bind; [apply span_sim|]; let sp := fresh in let h' := fresh in let v := fresh in let X := fresh in let K := fresh in
  intros sp h' v X K; apply sim_ret; [exact X|]; apply kind_span; [exact K|vm_compute; discriminate|vm_compute; discriminate].
Local Ltac plain := match goal with |- sim _ _ (if ?c then _ else _) _ _ => destruct c end; [apply sim_err, extends_refl|span].

Lemma date_sim s h : sim h h (HParseDate s) (ParseDate s) (kind h).
Proof. unfold HParseDate, ParseDate. plain. Qed.
Lemma interval0_sim s h : sim h h (HParseTimeInterval s) (ParseTimeInterval s) (kind h).
Proof. unfold HParseTimeInterval, ParseTimeInterval. plain. Qed.

Definition time_cell (t : time) : hdate := mkHDate (format_rfc3339 t) (Some t) None 0 0 0 0 false false 0.
Lemma datetime_run s t h : (let! upper_date := new_date hzero_date in
    let! lower_date := new_date hzero_date in
    let! _ := HSetTime upper_date t in
    let! _ := HSetTime lower_date t in
    let! start := new_range (mkHRange [] lower_date lower_date) in
    let! end_ := new_range (mkHRange [] upper_date upper_date) in
    ret (mkHEDTF start end_ s LEVEL0 DATE_AND_TIME)) h =
  (OK (mkHEDTF (length (h_ranges h)) (length (h_ranges h) + 1) s LEVEL0 DATE_AND_TIME),
   mkHeap (h_ymds h) (h_dates h ++ [time_cell t; time_cell t])
     (h_ranges h ++ [mkHRange [] (length (h_dates h) + 1) (length (h_dates h) + 1); mkHRange [] (length (h_dates h)) (length (h_dates h))])).
Proof.
  unfold mbind, new_date, new_range, HSetTime, get_date, put_date, ret.
  repeat (rewrite <- ?app_assoc, ?app_length, ?nth_app_k, ?nth_app_0, ?update_app_k, ?update_app_0; cbn [app length Nat.add nth_error update h_ymds h_dates h_ranges]; unfold mbind).
  reflexivity.
Qed.
Lemma datetime_sim s h : sim h h (HParseDateAndTime s) (ParseDateAndTime s) (kind h).
Proof.
  unfold HParseDateAndTime, ParseDateAndTime. match goal with |- sim _ _ (if ?c then _ else _) _ _ => destruct c end; [apply sim_err, extends_refl|].
  apply sim_lift; [apply extends_refl|]. intro t0. generalize (if has_prefix s ($"-") then TimeToBCE t0 else t0). intro t.
  unfold sim. rewrite datetime_run. split.
  - repeat split; cbn [h_ymds h_dates h_ranges]; [apply keeps_refl|apply keeps_app|apply keeps_app].
  - eexists. split; [reflexivity|]. right. left. split; [reflexivity|].
    apply (twice_intro h _ _ _ (length (h_dates h) + 1) (length (h_dates h)) (SetTime zero_date t)); cbn [he_start he_end h_ranges]; try lia.
    + now rewrite nth_app_0.
    + now rewrite nth_app_k.
    + unfold read_date. cbn [h_dates]. rewrite nth_app_k. reflexivity.
    + unfold read_date. cbn [h_dates]. rewrite nth_app_0. reflexivity.
    + rewrite <- (app_nil_r (h_ymds h)) at 1. apply new_ymds_app. repeat constructor.
    + intros c d y. cbn [h_dates]. rewrite nth_app_k, nth_app_0. intros [= <-] [= <-]. discriminate.
    + reflexivity.
Qed.
Lemma level0_sim s h : sim h h (HL0_ParseString s) (L0_ParseString s) (kind h).
Proof.
  unfold HL0_ParseString, L0_ParseString. destruct (IsDate s); [apply date_sim|]. destruct (IsDateAndTime s); [apply datetime_sim|].
  destruct (IsTimeInterval s); [apply interval0_sim|apply sim_err, extends_refl].
Qed.

Lemma letter_sim s h : sim h h (HParseLetterPrefixedCalendarYear s) (ParseLetterPrefixedCalendarYear s) (kind h).
Proof.
  unfold HParseLetterPrefixedCalendarYear, ParseLetterPrefixedCalendarYear.
  match goal with |- sim _ _ (if ?c then _ else _) _ _ => destruct c end; [apply sim_err, extends_refl|]. cbv zeta. plain.
Qed.
Lemma season_sim s h : sim h h (HParseSeason s) (ParseSeason s) (kind h).
Proof.
  unfold HParseSeason, ParseSeason. cbv zeta. match goal with |- sim _ _ (if ?c then _ else _) _ _ => destruct c end; [apply sim_err, extends_refl|].
  eapply (sim_bind h h _ _ _ _ (fun a h' v => h' = h /\ a = v)).
  - destruct (is_empty (sub (find_submatch Season s) 1)).
    + apply sim_lift; [apply extends_refl|]. intro y. destruct (season_word _ y); [apply sim_ret; [apply extends_refl|auto]|apply sim_err, extends_refl].
    + apply sim_lift; [apply extends_refl|]. intro y. apply sim_lift; [apply extends_refl|]. intro m. apply sim_ret; [apply extends_refl|auto].
  - intros a h' (((sy, sm), ey), em) _ (-> & ->). apply sim_lift; [apply extends_refl|]. intro dd. span.
Qed.
Lemma qualified_sim s h : sim h h (HParseQualifiedDate s) (ParseQualifiedDate s) (kind h).
Proof. unfold HParseQualifiedDate, ParseQualifiedDate. plain. Qed.
Lemma digits_sim s h : sim h h (HParseUnspecifiedDigits s) (ParseUnspecifiedDigits s) (kind h).
Proof. unfold HParseUnspecifiedDigits, ParseUnspecifiedDigits. plain. Qed.
Lemma negative_sim s h : sim h h (HParseNegativeCalendarYear s) (ParseNegativeCalendarYear s) (kind h).
Proof. unfold HParseNegativeCalendarYear, ParseNegativeCalendarYear. plain. Qed.
Lemma ext_start_sim s h : sim h h (HParseExtendedIntervalStart s) (ParseExtendedIntervalStart s) (kind h).
Proof. unfold HParseExtendedIntervalStart, ParseExtendedIntervalStart. plain. Qed.
Lemma ext_end_sim s h : sim h h (HParseExtendedIntervalEnd s) (ParseExtendedIntervalEnd s) (kind h).
Proof. unfold HParseExtendedIntervalEnd, ParseExtendedIntervalEnd. plain. Qed.
Lemma extended_sim s h : sim h h (HParseExtendedInterval s) (ParseExtendedInterval s) (kind h).
Proof.
  unfold HParseExtendedInterval, ParseExtendedInterval. destruct (match_string IntervalStart s); [apply ext_start_sim|].
  destruct (match_string IntervalEnd s); [apply ext_end_sim|apply sim_err, extends_refl].
Qed.
Lemma level1_sim s h : sim h h (HL1_ParseString s) (L1_ParseString s) (kind h).
Proof.
  unfold HL1_ParseString, L1_ParseString. destruct (IsLetterPrefixedCalendarYear s); [apply letter_sim|]. destruct (IsSeason s); [apply season_sim|].
  destruct (IsQualifiedDate s); [apply qualified_sim|]. destruct (IsUnspecifiedDigits s); [apply digits_sim|].
  destruct (IsNegativeCalendarYear s); [apply negative_sim|]. destruct (IsExtendedInterval s); [apply extended_sim|apply sim_err, extends_refl].
Qed.

Lemma exponential_sim s h : sim h h (HParseExponentialYear s) (ParseExponentialYear s) (kind h).
Proof.
  unfold HParseExponentialYear, ParseExponentialYear. cbv zeta.
  match goal with |- sim _ _ (if ?c then _ else _) _ _ => destruct c end; [apply sim_err, extends_refl|].
  match goal with |- sim _ _ (if ?c then _ else _) _ _ => destruct c end; [apply sim_err, extends_refl|].
  apply sim_lift; [apply extends_refl|]. intro y. span.
Qed.
Lemma significant_sim s h : sim h h (HParseSignificantDigits s) (ParseSignificantDigits s) (kind h).
Proof.
  unfold HParseSignificantDigits, ParseSignificantDigits. cbv zeta.
  match goal with |- sim _ _ (if ?c then _ else _) _ _ => destruct c end; [apply sim_err, extends_refl|].
  apply sim_lift; [apply extends_refl|]. intro y. match goal with |- sim _ _ (if ?c then _ else _) _ _ => destruct c end; [apply sim_err, extends_refl|].
  apply sim_lift; [apply extends_refl|]. intro dg. match goal with |- sim _ _ (if ?c then _ else _) _ _ => destruct c end; [apply sim_err, extends_refl|].
  match goal with |- sim _ _ (if ?c then _ else _) _ _ => destruct c end; [apply sim_panic, extends_refl|]. span.
Qed.
Lemma grouping_sim s h : sim h h (HParseSubYearGroupings s) (ParseSubYearGroupings s) (kind h).
Proof.
  unfold HParseSubYearGroupings, ParseSubYearGroupings. cbv zeta.
  match goal with |- sim _ _ (if ?c then _ else _) _ _ => destruct c end; [apply sim_err, extends_refl|].
  destruct (grouping_bounds _) as [((((a, b), c), d), n)|]; [|apply sim_err, extends_refl].
  apply sim_lift; [apply extends_refl|]. intro y. span.
Qed.
Lemma group_sim s h : sim h h (HParseGroupQualification s) (ParseGroupQualification s) (kind h).
Proof. unfold HParseGroupQualification, ParseGroupQualification. plain. Qed.
Lemma individual_sim s h : sim h h (HParseIndividualQualification s) (ParseIndividualQualification s) (kind h).
Proof. unfold HParseIndividualQualification, ParseIndividualQualification. plain. Qed.
Lemma digit_sim s h : sim h h (HParseUnspecifiedDigit s) (ParseUnspecifiedDigit s) (kind h).
Proof. unfold HParseUnspecifiedDigit, ParseUnspecifiedDigit. plain. Qed.
Lemma interval2_sim s h : sim h h (HParseInterval s) (ParseInterval s) (kind h).
Proof. unfold HParseInterval, ParseInterval. plain. Qed.

(** ** Sets *)
Lemma free_members s l : forall ps so eo, set_members s l = OK (ps, so, eo) ->
  Forall (fun p => ~ occurs ($"..") p) ps /\ ((if so then 1 else 0) + (if eo then 1 else 0) <= length ps)%nat.
Proof.
  induction l as [|d l IH]; intros ps so eo E; cbn [set_members] in E.
  - injection E as <- <- <-. split; [constructor|cbn; lia].
  - pose proof (split_free d ($"..") ltac:(discriminate)) as F. apply bind_OK in E. destruct E as (((here, so1), eo1) & H & E).
    apply bind_OK in E. destruct E as (((ps', so2), eo2) & K & E). injection E as <- <- <-. destruct (IH _ _ _ K) as (G & L).
    assert (A : Forall (fun p => ~ occurs ($"..") p) here /\ ((if so1 then 1 else 0) + (if eo1 then 1 else 0) <= length here)%nat).
    { destruct (split d ($"..")) as [|a [|b [|c r]]] eqn:Q; try discriminate H.
      - injection H as <- <- <-. split; [|cbn; lia]. destruct (split_single d ($"..") ltac:(discriminate) _ Q) as (-> & N). repeat constructor. exact N.
      - pose proof (Forall_inv F) as Fa. pose proof (Forall_inv (Forall_inv_tail F)) as Fb.
        destruct (negb (is_empty a) && negb (is_empty b)); [|destruct (is_empty a)]; injection H as <- <- <-; (split; [repeat constructor; assumption|cbn; lia]). }
    destruct A as (A & B). split; [apply Forall_app; split; assumption|]. rewrite app_length. destruct so1, so2, eo1, eo2; cbn [orb]; lia.
Qed.

(** A first date that is not ".." is not open. *)
Lemma ymd_closed s v : dateSpanFromYMD s = OK v -> d_open (r_lower (s_start v)) = false.
Proof.
  unfold dateSpanFromYMD. intro E. apply bind_OK in E. destruct E as (sr & _ & E). apply bind_OK in E. destruct E as (a & _ & E).
  apply bind_OK in E. destruct E as (b & _ & E). apply bind_OK in E. destruct E as ((((sl, su), el), eu) & _ & E). injection E as <-. reflexivity.
Qed.
Lemma half_closed s v : dateSpanFromEDTF s = OK v -> s <> $".." -> d_open (r_lower (s_start v)) = false.
Proof.
  unfold dateSpanFromEDTF. destruct (seqb s UNKNOWN); [intros [= <-] _; reflexivity|].
  destruct (seqb s OPEN) eqn:O; [intros _ N; destruct N; apply seqb_eq, O|]. intros E _. exact (ymd_closed s v E).
Qed.
Lemma span_closed s v : DateSpanFromEDTF s = OK v -> (forall r, s <> $"../" ++ r) -> d_open (r_lower (s_start v)) = false.
Proof.
  unfold DateSpanFromEDTF. intros E N. destruct (split s ($"/")) as [|l [|r [|z rest]]] eqn:Q; try discriminate E.
  - exact (ymd_closed l v E).
  - apply bind_OK in E. destruct E as (lv & L & E). apply bind_OK in E. destruct E as (rv & _ & E). injection E as <-. cbn [s_start r_lower].
    apply (half_closed l lv L). intros ->. destruct (split_inv2 "/"%char s _ _ Q) as (S & _). exact (N r S).
Qed.
Lemma open_left_closed t v : DateSpanFromEDTF ($"../" ++ t) = OK v -> t <> $".." -> d_open (r_lower (s_end v)) = false.
Proof.
  unfold DateSpanFromEDTF. assert (Q0 : split ($"../" ++ t) ($"/") = $".." :: split t ($"/"))
    by exact (split_one "/"%char ($"..") t ltac:(cbn [In]; intros [A|[A|[]]]; discriminate A)).
  rewrite Q0. clear Q0.
  intros E N. destruct (split t ($"/")) as [|r [|z rest]] eqn:Q; [exfalso; exact (split_nonempty "/"%char _ Q)| |discriminate E].
  destruct (split_inv1 "/"%char _ _ Q) as (-> & _). apply bind_OK in E. destruct E as (lv & _ & E). apply bind_OK in E. destruct E as (rv & R & E). injection E as <-.
  cbn [s_end r_lower]. exact (half_closed _ rv R N).
Qed.
Lemma free_start a b : ~ occurs ($"..") a -> forall r, a ++ $"/" ++ b <> $"../" ++ r.
Proof.
  intros N r E. destruct a as [|c [|c' a]]; [discriminate E|injection E as _ E; discriminate E|]. injection E as -> -> _. apply N. exists [], a. reflexivity.
Qed.
Lemma free_alone a : ~ occurs ($"..") a -> forall r, a <> $"../" ++ r.
Proof. intros N r ->. apply N. exists [], ("/"%char :: r). reflexivity. Qed.
Lemma free_not a : ~ occurs ($"..") a -> a <> $"..".
Proof. intros N ->. apply N. exists [], []. reflexivity. Qed.

Lemma includes_sim (so eo : bool) i s h sp h1 v : extends h h1 -> made h sp h1 v ->
  (so && eo = false) -> ~ (d_open (r_lower (s_start v)) = true /\ d_open (r_lower (s_end v)) = true) ->
  sim h h1 (let! _ := if so then ret tt else include (hs_start sp) i in
            let! _ := if eo then ret tt else include (hs_end sp) i in
            ret (hedtf_of_span sp s LEVEL2 SET_REPRESENTATIONS))
    (OK (edtf_of_span (mkSpan (if so then s_start v else incl_range (s_start v) i) (if eo then s_end v else incl_range (s_end v) i)) s LEVEL2 SET_REPRESENTATIONS)) (kind h).
Proof.
  intros X M B C. destruct v as [vs ve]. cbn [s_start s_end] in *.
  assert (F : forall h2 v', extends h h2 -> made h sp h2 v' -> d_open (r_lower (s_start v')) = d_open (r_lower vs) -> d_open (r_lower (s_end v')) = d_open (r_lower ve) ->
    sim h h2 (ret (hedtf_of_span sp s LEVEL2 SET_REPRESENTATIONS)) (OK (edtf_of_span v' s LEVEL2 SET_REPRESENTATIONS)) (kind h)).
  { intros h2 v' X2 M2 P Q. apply sim_ret; [exact X2|]. left. split; [exists sp, v'; auto|]. split; [vm_compute; discriminate|].
    intros (_ & O). apply C. unfold opens, edtf_of_span in O. cbn [e_start e_end] in O. rewrite P, Q in O. exact O. }
  destruct so, eo; try discriminate B.
  - eapply sim_step; [reflexivity|]. destruct (include_end h sp h1 _ i X M) as (h2 & R & X2 & M2). eapply sim_step; [exact R|]. now apply F.
  - destruct (include_start h sp h1 _ i X M) as (h2 & R & X2 & M2). eapply sim_step; [exact R|]. eapply sim_step; [reflexivity|]. now apply F.
  - destruct (include_start h sp h1 _ i X M) as (h2 & R & X2 & M2). eapply sim_step; [exact R|].
    destruct (include_end h sp h2 _ i X2 M2) as (h3 & R3 & X3 & M3). eapply sim_step; [exact R3|]. now apply F.
Qed.

Lemma sort_length l : length (sort_strs l) = length l.
Proof. apply Permutation_length, sort_perm. Qed.

Lemma set_sim s h : sim h h (HParseSetRepresentations s) (ParseSetRepresentations s) (kind h).
Proof.
  unfold HParseSetRepresentations, ParseSetRepresentations. cbv zeta.
  match goal with |- sim _ _ (if ?c then _ else _) _ _ => destruct c end; [apply sim_err, extends_refl|].
  apply sim_lift; [apply extends_refl|]. intro i.
  match goal with |- sim _ _ (mbind (lift ?m) _) _ _ => destruct m as [((ps, so), eo)|e|] eqn:E end;
    [|split; [apply extends_refl|reflexivity]|split; [apply extends_refl|reflexivity]].
  destruct (free_members _ _ _ _ _ E) as (F & L). clear E. eapply sim_step; [reflexivity|]. cbn [bind].
  pose proof (sort_length ps) as SL. destruct (sort_strs ps) as [|hd tl] eqn:S; [apply sim_err, extends_refl|].
  assert (Fh : ~ occurs ($"..") hd) by (rewrite Forall_forall in F; apply F, (sort_hd_last _ _ _ S)).
  rewrite <- SL in L. set (post := (so || eo) && Nat.ltb 1 (length (hd :: tl))). set (en := last (hd :: tl) hd).
  set (text := if post then _ else _).
  eapply (sim_bind h h _ _ _ _ (fun sp h1 v => made h sp h1 v /\ DateSpanFromEDTF text = OK v)).
  { pose proof (span_sim text h) as H. unfold sim in *. destruct (HDateSpanFromEDTF text h) as ([sp|e|], h1); destruct H as (X & H); (split; [exact X|]); [|exact H|exact H].
    destruct H as (v & P & M). exists v. split; [exact P|split; [exact M|exact P]]. }
  intros sp h1 v X (M & P).
  destruct post eqn:Post.
  - assert (O : so || eo = true) by (apply andb_true_iff in Post; apply Post).
    assert (C : d_open (r_lower (s_start v)) = false) by (apply (span_closed _ _ P); subst text; apply free_start, Fh).
    change (true && so) with so. change (true && eo) with eo.
    destruct (so && eo) eqn:B.
    + apply andb_true_iff in B. destruct B as (-> & ->). pose proof (reopen_sim true true h sp h1 v eq_refl X M) as R. cbn [andb] in R.
      unfold sim in R. destruct (reopen true true sp h1) as ([sp2|e|], h2) eqn:RE; destruct R as (X2 & R); [|discriminate R|discriminate R].
      destruct R as (v2 & [= <-] & R). eapply sim_step; [exact RE|]. eapply sim_step; [reflexivity|]. eapply sim_step; [reflexivity|].
      apply sim_ret; [exact X2|]. right. right. split; [reflexivity|]. split; [split; reflexivity|]. exists sp2, (reopened true true v). auto.
    + pose proof (reopen_sim so eo h sp h1 v O X M) as R. rewrite B in R.
      unfold sim in R. destruct (reopen so eo sp h1) as ([sp2|e|], h2) eqn:RE; destruct R as (X2 & R); [|discriminate R|discriminate R].
      destruct R as (v2 & [= <-] & R). eapply sim_step; [exact RE|].
      assert (K := includes_sim so eo i s h sp2 h2 (reopened so eo v) X2 R B).
      destruct so, eo; try discriminate O; try discriminate B; cbn [reopened s_start s_end r_lower r_upper r_edtf] in *;
        (refine (K _); intros (O1 & O2); cbn [OpenDateRange r_lower] in *; congruence).
  - cbn [andb]. eapply sim_step; [reflexivity|].
    assert (B : so && eo = false).
    { destruct so, eo; try reflexivity. exfalso. cbn [orb andb] in Post. subst post. apply Nat.ltb_ge in Post. cbn [Nat.add] in L. lia. }
    assert (K := includes_sim so eo i s h sp h1 v X M B).
    destruct so, eo; try discriminate B; (refine (K _)); intros (O1 & O2); subst text; cbn iota in P.
    + pose proof (open_left_closed _ _ P (free_not _ Fh)). congruence.
    + pose proof (span_closed _ _ P (free_start hd ($"..") Fh)). congruence.
    + destruct (negb (seqb hd en)).
      * pose proof (span_closed _ _ P (free_start hd en Fh)). congruence.
      * pose proof (span_closed _ _ P (free_alone hd Fh)). congruence.
Qed.

Lemma level2_sim s h : sim h h (HL2_ParseString s) (L2_ParseString s) (kind h).
Proof.
  unfold HL2_ParseString, L2_ParseString. destruct (IsExponentialYear s); [apply exponential_sim|]. destruct (IsSignificantDigits s); [apply significant_sim|].
  destruct (IsSubYearGrouping s); [apply grouping_sim|]. destruct (IsSetRepresentation s); [apply set_sim|].
  destruct (IsGroupQualification s); [apply group_sim|]. destruct (IsIndividualQualification s); [apply individual_sim|].
  destruct (IsUnspecifiedDigit s); [apply digit_sim|]. destruct (IsInterval s); [apply interval2_sim|apply sim_err, extends_refl].
Qed.

Lemma parse_sim s h : sim h h (HParseString s) (ParseString s) (kind h).
Proof.
  unfold HParseString, ParseString. destruct (IsLevel0 s); [apply level0_sim|]. destruct (IsLevel1 s); [apply level1_sim|]. destruct (IsLevel2 s); [apply level2_sim|].
  destruct (seqb s OPEN).
  - pose proof (open_span_sim h) as H. unfold sim in H. destruct (HOpenDateSpan h) as ([sp|e|], h1) eqn:R; destruct H as (X & H); [|discriminate H|discriminate H].
    destruct H as (v & [= <-] & M). eapply sim_step; [exact R|]. apply sim_ret; [exact X|]. left. split; [exists sp, OpenDateSpan; auto|].
    split; [vm_compute; discriminate|]. intros (A & _). vm_compute in A. discriminate A.
  - destruct (seqb s UNKNOWN); [|apply sim_err, extends_refl].
    pose proof (unknown_span_sim h) as H. unfold sim in H. destruct (HUnknownDateSpan h) as ([sp|e|], h1) eqn:R; destruct H as (X & H); [|discriminate H|discriminate H].
    destruct H as (v & [= <-] & M). eapply sim_step; [exact R|]. apply sim_ret; [exact X|]. left. split; [exists sp, UnknownDateSpan; auto|].
    split; [vm_compute; discriminate|]. intros (A & _). vm_compute in A. discriminate A.
Qed.
