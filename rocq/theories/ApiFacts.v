(** Facts about the dispatch of package parser and about the comparison, range and
    JSON interfaces. *)
From Coq Require Import Ascii String ZArith NArith Bool Lia ZifyBool List.
From Verif Require Import GoStr GoTime ErrText SpecCal StrFacts Regex Edtf Calendar Common Level0 Level1 Level2 Parser Json Cmd CalFacts.
Import ListNotations.
Open Scope Z_scope.

Lemma bind_OK {A B} (x : res A) (f : A -> res B) b : bind x f = OK b <-> exists a, x = OK a /\ f a = OK b.
Proof.
  destruct x as [a|e|]; cbn [bind]; split.
  - eauto.
  - intros (a' & Ha & Hf). injection Ha as ->. exact Hf.
  - discriminate.
  - intros (a & H & _). discriminate.
  - discriminate.
  - intros (a & H & _). discriminate.
Qed.

(** ** Dispatch *)
Definition same_class (s : str) (lv : Z) (m : res str) (p : res edtfdate) : Prop :=
  forall d, p = OK d -> e_edtf d = s /\ e_level d = lv /\ m = OK (e_feature d).

Lemma finish_class s lv f x : same_class s lv (OK f) (let* sp := x in OK (edtf_of_span sp s lv f)).
Proof. intros d H. apply bind_OK in H. destruct H as (sp & _ & H). injection H as <-. repeat split. Qed.

Ltac class := repeat match goal with
  | |- same_class _ _ (OK _) (Err _) => intros ? ?; discriminate
  | |- same_class _ _ (OK _) Panic => intros ? ?; discriminate
  | |- same_class _ _ (OK _) (if ?b then _ else _) => destruct b
  | |- same_class _ _ (OK _) (let* sp := _ in OK (edtf_of_span sp _ _ _)) => apply finish_class
  end.

Lemma class_bind {A} s lv f (x : res A) k : (forall a, same_class s lv (OK f) (k a)) -> same_class s lv (OK f) (bind x k).
Proof. intros H d Hd. apply bind_OK in Hd. destruct Hd as (a & _ & Hk). exact (H a d Hk). Qed.

Lemma ParseDateAndTime_class s : same_class s LEVEL0 (OK DATE_AND_TIME) (ParseDateAndTime s).
Proof.
  unfold ParseDateAndTime. class. apply class_bind. intros t d H. injection H as <-. repeat split.
Qed.
Lemma L0_class s : same_class s LEVEL0 (L0_Matches s) (L0_ParseString s).
Proof.
  unfold L0_Matches, L0_ParseString.
  destruct (IsDate s); [unfold ParseDate; class|].
  destruct (IsDateAndTime s); [apply ParseDateAndTime_class|].
  destruct (IsTimeInterval s); [unfold ParseTimeInterval; class|]. intros d H. discriminate.
Qed.

Lemma ParseSeason_class s : same_class s LEVEL1 (OK SEASON) (ParseSeason s).
Proof.
  unfold ParseSeason. destruct (negb _); [class|]. cbv zeta.
  apply class_bind. intros (((a & b) & c) & e). apply class_bind. intro dd. class.
Qed.
Lemma ParseLetter_class s : same_class s LEVEL1 (OK LETTER_PREFIXED_CALENDAR_YEAR) (ParseLetterPrefixedCalendarYear s).
Proof. unfold ParseLetterPrefixedCalendarYear. class. Qed.
Lemma L1_class s : same_class s LEVEL1 (L1_Matches s) (L1_ParseString s).
Proof.
  unfold L1_Matches, L1_ParseString.
  destruct (IsLetterPrefixedCalendarYear s); [apply ParseLetter_class|].
  destruct (IsSeason s); [apply ParseSeason_class|].
  destruct (IsQualifiedDate s); [unfold ParseQualifiedDate; class|].
  destruct (IsUnspecifiedDigits s); [unfold ParseUnspecifiedDigits; class|].
  destruct (IsNegativeCalendarYear s); [unfold ParseNegativeCalendarYear; class|].
  assert (Hx : IsExtendedInterval s = true).
  { unfold IsExtendedInterval. destruct (match_string _ s); [reflexivity|]. destruct (match_string _ s); reflexivity. }
  rewrite Hx. cbn [andb]. unfold ParseExtendedInterval, ParseExtendedIntervalStart, ParseExtendedIntervalEnd.
  destruct (match_string Patterns.IntervalStart s); [cbn [negb]; class|].
  destruct (match_string Patterns.IntervalEnd s); [cbn [negb]; class|].
  intros d H. discriminate.
Qed.

Lemma ParseSignificant_class s : same_class s LEVEL2 (OK SIGNIFICANT_DIGITS) (ParseSignificantDigits s).
Proof.
  unfold ParseSignificantDigits. destruct (negb _); [class|]. cbv zeta.
  apply class_bind. intro y. destruct (_ <? y); [class|]. apply class_bind. intro n. class.
Qed.
Lemma ParseSubYear_class s : same_class s LEVEL2 (OK SUB_YEAR_GROUPINGS) (ParseSubYearGroupings s).
Proof.
  unfold ParseSubYearGroupings. destruct (negb _); [class|]. cbv zeta.
  destruct (grouping_bounds _) as [((((a & b) & c) & e) & n)|]; [|class].
  apply class_bind. intro y. class.
Qed.
Lemma ParseSet_class s : same_class s LEVEL2 (OK SET_REPRESENTATIONS) (ParseSetRepresentations s).
Proof.
  unfold ParseSetRepresentations. destruct (negb _); [class|]. cbv zeta.
  apply class_bind. intro i. apply class_bind. intros ((l & so) & eo).
  destruct (sort_strs l); [class|]. apply class_bind. intro sp.
  intros d H. injection H as <-. repeat split.
Qed.
Lemma L2_class s : same_class s LEVEL2 (L2_Matches s) (L2_ParseString s).
Proof.
  unfold L2_Matches, L2_ParseString.
  destruct (IsExponentialYear s).
  { unfold ParseExponentialYear. destruct (negb _); [class|]. destruct (negb _); [class|]. apply class_bind. intro y. class. }
  destruct (IsSignificantDigits s); [apply ParseSignificant_class|].
  destruct (IsSubYearGrouping s); [apply ParseSubYear_class|].
  destruct (IsSetRepresentation s); [apply ParseSet_class|].
  destruct (IsGroupQualification s); [unfold ParseGroupQualification; class|].
  destruct (IsIndividualQualification s); [unfold ParseIndividualQualification; class|].
  destruct (IsUnspecifiedDigit s); [unfold ParseUnspecifiedDigit; class|].
  destruct (IsInterval s); [unfold ParseInterval; class|].
  intros d H. discriminate.
Qed.

Lemma parse_class s d : ParseString s = OK d ->
  e_edtf d = s /\ edtf_string d = s /\
  (s <> $".." -> s <> [] -> Matches s = OK (e_level d, e_feature d)) /\
  (s = $".." -> e_level d = -1 /\ e_feature d = $"Open") /\
  (s = [] -> e_level d = -1 /\ e_feature d = $"Unknown").
Proof.
  intro H.
  assert (Hop : s = $".." -> e_level d = -1 /\ e_feature d = $"Open").
  { intros ->. vm_compute in H. injection H as <-. split; reflexivity. }
  assert (Hun : s = [] -> e_level d = -1 /\ e_feature d = $"Unknown").
  { intros ->. vm_compute in H. injection H as <-. split; reflexivity. }
  assert (G : e_edtf d = s /\ (s <> $".." -> s <> [] -> Matches s = OK (e_level d, e_feature d))).
  { unfold ParseString, Matches in *.
    destruct (IsLevel0 s).
    { destruct (L0_class s d H) as (H1 & H2 & H3). rewrite H3, H2. cbn [bind]. auto. }
    destruct (IsLevel1 s).
    { destruct (L1_class s d H) as (H1 & H2 & H3). rewrite H3, H2. cbn [bind]. auto. }
    destruct (IsLevel2 s).
    { destruct (L2_class s d H) as (H1 & H2 & H3). rewrite H3, H2. cbn [bind]. auto. }
    destruct (seqb s OPEN) eqn:E1.
    { injection H as <-. split; [reflexivity|]. intros C. apply seqb_eq in E1. contradiction. }
    destruct (seqb s UNKNOWN) eqn:E2.
    { injection H as <-. split; [reflexivity|]. intros _ C. apply seqb_eq in E2. contradiction. }
    discriminate. }
  destruct G as (G1 & G2). unfold edtf_string. auto.
Qed.

Lemma parse_valid s d : ParseString s = OK d -> IsValid s = true.
Proof.
  unfold ParseString, IsValid. intro H.
  destruct (IsLevel0 s); [reflexivity|]. destruct (IsLevel1 s); [reflexivity|]. destruct (IsLevel2 s); [reflexivity|].
  destruct (seqb s OPEN); [reflexivity|]. destruct (seqb s UNKNOWN); [reflexivity|]. discriminate.
Qed.
Lemma invalid_unrecognized s : IsValid s = false ->
  (exists label, ParseString s = Err (EUnrecognized label s)) /\
  (exists label, Matches s = Err (EUnrecognized label s)).
Proof.
  unfold ParseString, IsValid, Matches. intro H.
  destruct (IsLevel0 s); [discriminate|]. destruct (IsLevel1 s); [discriminate|]. destruct (IsLevel2 s); [discriminate|].
  destruct (seqb s OPEN); [discriminate|]. destruct (seqb s UNKNOWN); [discriminate|]. split; eexists; reflexivity.
Qed.

(** ** Comparison *)
Lemma wrap_OK {A} msg (x : res A) a : wrap_err msg x = OK a <-> x = OK a.
Proof. destruct x; cbn; split; congruence. Qed.
Lemma text_OK {A} msg (x : res A) a : text_err msg x = OK a <-> x = OK a.
Proof. destruct x; cbn; split; congruence. Qed.

(** Upper and lower bounds of a date as options. *)
Definition lower_ts (d : edtfdate) : option Z := d_timestamp (r_lower (e_start d)).
Definition upper_ts (d : edtfdate) : option Z := d_timestamp (r_upper (e_end d)).

Lemma After_cases d u :
  After d u = if IsOpen (e_edtf d) then OK false
              else match upper_ts u, lower_ts d with
                   | Some t, Some l => OK (t <=? l)
                   | None, _ => Err (EWrap ($"Failed to derive upper time for inception date (" ++ e_edtf u ++ $")") NotSet)
                   | _, None => Err (EWrap ($"Failed to derive lower time for cessation date (" ++ e_edtf d ++ $")") NotSet)
                   end.
Proof.
  unfold After, Upper, Lower, upper_ts, lower_ts, ts_time. destruct (IsOpen _); [reflexivity|].
  destruct (d_timestamp (r_upper (e_end u))) as [t|]; [|reflexivity]. cbn [wrap_err bind].
  destruct (d_timestamp (r_lower (e_start d))) as [l|]; [|reflexivity]. cbn [wrap_err bind].
  destruct (l <? t) eqn:E; f_equal; lia.
Qed.
Lemma Before_cases d u :
  Before d u = if IsOpen (e_edtf d) then OK false
              else match lower_ts u, upper_ts d with
                   | Some l, Some t => OK (t <=? l)
                   | None, _ => Err (EWrap ($"Failed to derive lower time for inception date (" ++ e_edtf u ++ $")") NotSet)
                   | _, None => Err (EWrap ($"Failed to derive upper time for cessation date (" ++ e_edtf d ++ $")") NotSet)
                   end.
Proof.
  unfold Before, Upper, Lower, upper_ts, lower_ts, ts_time. destruct (IsOpen _); [reflexivity|].
  destruct (d_timestamp (r_lower (e_start u))) as [l|]; [|reflexivity]. cbn [wrap_err bind].
  destruct (d_timestamp (r_upper (e_end d))) as [t|]; [|reflexivity]. cbn [wrap_err bind].
  destruct (l <? t) eqn:E; f_equal; lia.
Qed.

Lemma IsAfter_cases x y : IsAfter x y =
  match ParseString x, ParseString y with
  | OK a, OK b => After a b
  | Err e, _ => Err (EText ($"Failed to parse '" ++ x ++ $"', " ++ error_text e))
  | Panic, _ => Panic
  | OK _, Err e => Err (EText ($"Failed to parse '" ++ y ++ $"', " ++ error_text e))
  | OK _, Panic => Panic
  end.
Proof. unfold IsAfter. destruct (ParseString x), (ParseString y); reflexivity. Qed.
Lemma IsBefore_cases x y : IsBefore x y =
  match ParseString x, ParseString y with
  | OK a, OK b => Before a b
  | Err e, _ => Err (EText ($"Failed to parse '" ++ x ++ $"', " ++ error_text e))
  | Panic, _ => Panic
  | OK _, Err e => Err (EText ($"Failed to parse '" ++ y ++ $"', " ++ error_text e))
  | OK _, Panic => Panic
  end.
Proof. unfold IsBefore. destruct (ParseString x), (ParseString y); reflexivity. Qed.

(** ** Command line *)
Fixpoint join_with (sep : str) (l : list str) : str :=
  match l with
  | [] => []
  | [x] => x
  | x :: l' => x ++ sep ++ join_with sep l'
  end.
Lemma parse_loop_all args : forall ds i, Forall2 (fun a d => ParseString a = OK d) args ds ->
  parse_loop i args =
  ((if Nat.ltb 0 i then flat_map (fun d => $"," ++ print (enc_edtf d)) ds
    else join_with ($",") (map (fun d => print (enc_edtf d)) ds)) ++ $"]", Done).
Proof.
  intros ds i H. revert i. induction H as [|a d args ds Ha H IH]; intro i.
  - cbn. destruct i; reflexivity.
  - cbn [parse_loop]. rewrite Ha, IH. cbn [Nat.ltb Nat.leb].
    destruct i as [|i]; cbn [Nat.ltb Nat.leb flat_map map].
    + f_equal. cbn [app]. clear. rewrite app_assoc. f_equal.
      induction ds as [|e ds IH'] in d |- *; cbn [flat_map map join_with]; [apply app_nil_r|].
      cbn [join_with] in IH'. rewrite <- IH'. rewrite <- !app_assoc. reflexivity.
    + f_equal. rewrite <- !app_assoc. reflexivity.
Qed.
Lemma parse_loop_stop args : forall ds i bad rest, Forall2 (fun a d => ParseString a = OK d) args ds ->
  (forall d, ParseString bad <> OK d) ->
  parse_loop i (args ++ bad :: rest) =
  (if Nat.ltb 0 i then flat_map (fun d => $"," ++ print (enc_edtf d)) ds
    else join_with ($",") (map (fun d => print (enc_edtf d)) ds),
   match ParseString bad with Err e => fatal bad e | _ => Crash end).
Proof.
  intros ds i bad rest H Hb. revert i. induction H as [|a d args ds Ha H IH]; intro i.
  - cbn. destruct (ParseString bad) as [d|e|]; [exfalso; exact (Hb d eq_refl)| |]; destruct i; reflexivity.
  - cbn [app parse_loop]. rewrite Ha, IH. cbn [Nat.ltb Nat.leb].
    destruct i as [|i]; cbn [Nat.ltb Nat.leb flat_map map].
    + f_equal. cbn [app]. clear.
      induction ds as [|e ds IH'] in d |- *; cbn [flat_map map join_with]; [apply app_nil_r|].
      cbn [join_with] in IH'. rewrite <- IH'. rewrite <- !app_assoc. reflexivity.
    + rewrite <- ?app_assoc. reflexivity.
Qed.
