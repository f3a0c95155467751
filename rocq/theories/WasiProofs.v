(** The errors of a parse, and the output of the WASM tools. *)
From Coq Require Import Ascii String ZArith NArith Bool Lia ZifyBool List.
From Verif Require Import GoStr GoTime Regex Patterns SpecCal SpecText SpecWasi StrFacts TextFacts Edtf Calendar Common Level0 Level1 Level2 Parser Json Cmd.
Import ListNotations.
Open Scope Z_scope.

(** ** Kinds of errors *)
Definition labelled (l : str) : Prop := existsb (Ascii.eqb (chr 10)) l = false.
Definition of_parse (e : err) : Prop :=
  match e with
  | ENotImplemented l _ | EInvalid l _ | EUnsupported l _ | EUnrecognized l _ => labelled l
  | ENum _ | EInt _ | ETime _ _ | EBig _ => True
  | EText m => In m plain_texts
  | _ => False
  end.
Definition er {A} (x : res A) : Prop := forall e, x = Err e -> of_parse e.
Lemma er_OK {A} (a : A) : er (OK a). Proof. intros e H. discriminate. Qed.
Lemma er_Panic {A} : er (@Panic A). Proof. intros e H. discriminate. Qed.
Lemma er_Err {A} e : of_parse e -> er (@Err A e). Proof. intros H e' E. injection E as <-. exact H. Qed.
Lemma er_bind {A B} (x : res A) (f : A -> res B) : er x -> (forall a, er (f a)) -> er (bind x f).
Proof. intros Hx Hf. destruct x as [a|e|]; cbn [bind]; [apply Hf|apply er_Err; apply Hx; reflexivity|apply er_Panic]. Qed.
Lemma er_if {A} (b : bool) (x y : res A) : er x -> er y -> er (if b then x else y).
Proof. destruct b; auto. Qed.
Create HintDb er_db.
#[local] Hint Extern 0 (labelled _) => reflexivity : er_db.
Ltac er := repeat first
  [ apply er_OK | apply er_Panic | apply er_Err; exact I | apply er_Err; reflexivity | apply er_Err; cbn; tauto | solve [auto with er_db nocore]
  | apply er_bind; [|intros ?] | apply er_if
  | match goal with |- er (match ?x with _ => _ end) => destruct x end
  | progress cbv zeta ].
Lemma er_atoi s : er (atoi s). Proof. unfold atoi. er. Qed.
#[local] Hint Resolve er_atoi : er_db.
Lemma er_parse_int s : er (parse_int s). Proof. unfold parse_int. er. Qed.
#[local] Hint Resolve er_parse_int : er_db.
Lemma er_time l v : er (time_parse l v). Proof. unfold time_parse. er. Qed.
#[local] Hint Resolve er_time : er_db.
Lemma er_days y m : er (DaysInMonth y m). Proof. unfold DaysInMonth. er. Qed.
#[local] Hint Resolve er_days : er_db.
Lemma er_days_string s : er (DaysInMonthWithString s). Proof. unfold DaysInMonthWithString. er. Qed.
#[local] Hint Resolve er_days_string : er_db.
Lemma er_ymd a b c : er (YMDFromStrings a b c). Proof. unfold YMDFromStrings. er. Qed.
#[local] Hint Resolve er_ymd : er_db.
Lemma er_with d h : er (TimeWithYMD d h). Proof. unfold TimeWithYMD. er. Qed.
#[local] Hint Resolve er_with : er_db.
Lemma er_notation s : er (ParseExponentialNotation s). Proof. unfold ParseExponentialNotation. er. Qed.
#[local] Hint Resolve er_notation : er_db.
Lemma er_component d : er (component d). Proof. unfold component, parseYMDComponent. er. Qed.
#[local] Hint Resolve er_component : er_db.
Lemma er_digit s i w fl p : er (year_digit s i w fl p). Proof. unfold year_digit, byte_at. er. Qed.
#[local] Hint Resolve er_digit : er_db.
Lemma er_year s t : er (year_range s t). Proof. unfold year_range, byte_at. er. Qed.
#[local] Hint Resolve er_year : er_db.
Lemma er_day s t p : er (day_range s t p). Proof. unfold day_range, byte_at. er. Qed.
#[local] Hint Resolve er_day : er_db.
Lemma er_range s : er (StringRangeFromYMD s). Proof. unfold StringRangeFromYMD. er. Qed.
#[local] Hint Resolve er_range : er_db.
Lemma er_span s : er (dateSpanFromYMD s). Proof. unfold dateSpanFromYMD, YMDFromStringDate. er. Qed.
#[local] Hint Resolve er_span : er_db.
Lemma er_half s : er (dateSpanFromEDTF s). Proof. unfold dateSpanFromEDTF. er. Qed.
#[local] Hint Resolve er_half : er_db.
Lemma er_edtf s : er (DateSpanFromEDTF s). Proof. unfold DateSpanFromEDTF. er. Qed.
#[local] Hint Resolve er_edtf : er_db.
Lemma er_or {A} (x : res A) l s : labelled l -> er (or_invalid x l s). Proof. intro H. unfold or_invalid. destruct x; [er|apply er_Err; exact H|er]. Qed.
#[local] Hint Resolve er_or : er_db.
Lemma er_0 s : er (L0_ParseString s). Proof. unfold L0_ParseString, ParseDate, ParseDateAndTime, ParseTimeInterval. er. Qed.
Lemma er_season s : er (ParseSeason s). Proof. unfold ParseSeason. er. Qed.
#[local] Hint Resolve er_season : er_db.
Lemma er_letter s : er (ParseLetterPrefixedCalendarYear s). Proof. unfold ParseLetterPrefixedCalendarYear. er. Qed.
#[local] Hint Resolve er_letter : er_db.
Lemma er_1 s : er (L1_ParseString s).
Proof. unfold L1_ParseString, ParseQualifiedDate, ParseUnspecifiedDigits, ParseNegativeCalendarYear, ParseExtendedInterval, ParseExtendedIntervalStart, ParseExtendedIntervalEnd. er. Qed.
Lemma er_significant s : er (ParseSignificantDigits s). Proof. unfold ParseSignificantDigits. er. Qed.
#[local] Hint Resolve er_significant : er_db.
Lemma er_grouping s : er (ParseSubYearGroupings s). Proof. unfold ParseSubYearGroupings. er. Qed.
#[local] Hint Resolve er_grouping : er_db.
Lemma er_members s l : er (set_members s l). Proof. induction l as [|x l IH]; cbn [set_members]; er. Qed.
#[local] Hint Resolve er_members : er_db.
Lemma er_set s : er (ParseSetRepresentations s). Proof. unfold ParseSetRepresentations. er. Qed.
#[local] Hint Resolve er_set : er_db.
Lemma er_2 s : er (L2_ParseString s).
Proof. unfold L2_ParseString, ParseExponentialYear, ParseGroupQualification, ParseIndividualQualification, ParseUnspecifiedDigit, ParseInterval. er. Qed.
#[local] Hint Resolve er_0 er_1 er_2 : er_db.
Theorem parse_errors s e : ParseString s = Err e -> of_parse e.
Proof. assert (H : er (ParseString s)) by (unfold ParseString; er). apply H. Qed.
