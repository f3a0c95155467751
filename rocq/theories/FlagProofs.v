(** Lemmas for C74: the command lines of the tools. *)
From Coq Require Import Ascii String ZArith NArith Bool Lia ZifyBool List.
From Verif Require Import GoStr ErrText Regex Patterns SpecCal SpecText SpecGrammar SpecForms SpecReads SpecRefused SpecTools SpecMessage SpecFlags
  StrFacts TextFacts RegexRel RegexGen LangFacts LangNorm LangForms Edtf Level0 Level1 Level2 Parser Json JsonText Cmd ApiFacts FormFacts Level0Facts Level0Proofs FormProofs InvProofs ReadsFacts RefProofs RefStamp MessageProofs MatchProofs.
Import ListNotations.
Open Scope Z_scope.

(** ** Flags *)
Lemma before_value n v : ~ In "="%char n -> flag_value v -> before_equals (n ++ v) = n.
Proof.
  intros N V. induction n as [|c n IH].
  - destruct V as [->|(u & ->)]; reflexivity.
  - cbn [app before_equals]. destruct (Ascii.eqb c "=") eqn:E; [exfalso; apply N; left; apply Ascii.eqb_eq in E; auto|]. rewrite IH; [reflexivity|]. intro H. apply N. right. exact H.
Qed.
Lemma equals_split s : exists v, s = before_equals s ++ v /\ flag_value v /\ ~ In "="%char (before_equals s).
Proof.
  induction s as [|c s (v & E & V & N)]; [exists []; repeat split; [left; reflexivity|intros []]|]. cbn [before_equals]. destruct (Ascii.eqb c "=") eqn:Q.
  - apply Ascii.eqb_eq in Q. subst c. exists ("="%char :: s). repeat split; [right; eauto|intros []].
  - exists v. split; [cbn [app]; f_equal; exact E|]. split; [exact V|]. intros [H|H]; [apply Ascii.eqb_neq in Q; auto|exact (N H)].
Qed.
Definition fault_exit (f : flags) : exit := match f with Args _ => Done | Bad m => Usage m | Help => Helped end.
Lemma fault_spec d c t : dashes d -> (d = $"-" -> c <> "-"%char) -> flag_error (d ++ c :: t) (fault_exit (flag_fault (d ++ c :: t) (c :: t))) /\ forall l, flag_fault (d ++ c :: t) (c :: t) <> Args l.
Proof.
  intros D N. cbn [flag_fault]. destruct (Ascii.eqb c "-") eqn:E1; cbn [orb].
  { apply Ascii.eqb_eq in E1. subst c. destruct D as [->| ->]; [destruct (N eq_refl eq_refl)|]. split; [exact (fe_dash t)|discriminate]. }
  destruct (Ascii.eqb c "=") eqn:E2.
  { apply Ascii.eqb_eq in E2. subst c. split; [exact (fe_equals d t D)|discriminate]. }
  cbv zeta. apply Ascii.eqb_neq in E1, E2. destruct (equals_split t) as (v & Et & V & Ne).
  assert (Ev : d ++ c :: t = d ++ (c :: before_equals t) ++ v) by (cbn [app]; rewrite <- Et; reflexivity).
  destruct (seqb (c :: before_equals t) ($"help") || seqb (c :: before_equals t) ($"h")) eqn:H.
  - split; [|discriminate]. rewrite Ev. apply fe_help; [exact D| |exact V]. apply orb_true_iff in H. destruct H as [H|H]; apply seqb_eq in H; [right|left]; exact H.
  - split; [|discriminate]. apply orb_false_iff in H. destruct H as (H1 & H2). apply seqb_neq in H1, H2. cbn [fault_exit].
    rewrite Ev. apply fe_unknown; [exact D|exact E1| |exact V|].
    + intros [Q|Q]; [congruence|exact (Ne Q)].
    + intros [Q|Q]; contradiction.
Qed.
Theorem flags_total args : (exists l, positional args l /\ flag_args args = Args l) \/
  exists s r x, args = s :: r /\ flag_error s x /\ (forall l, flag_args args <> Args l) /\ fault_exit (flag_args args) = x.
Proof.
  destruct args as [|s r]; [left; exists []; split; [constructor|reflexivity]|].
  assert (P : (forall c t, s <> "-"%char :: c :: t) -> flag_args (s :: r) = Args (s :: r) -> exists l, positional (s :: r) l /\ flag_args (s :: r) = Args l) by (intros N E; exists (s :: r); split; [exact (po_plain s r N)|exact E]).
  destruct s as [|a [|b t]]; [left; apply P; [discriminate|reflexivity]..|].
  cbn [flag_args] in *. destruct (Ascii.eqb a "-") eqn:Ea; [apply Ascii.eqb_eq in Ea; subst a|left; apply P; [|reflexivity]; intros c t0 E; injection E as -> _ _; discriminate Ea].
  destruct (Ascii.eqb b "-") eqn:Eb.
  - apply Ascii.eqb_eq in Eb. subst b. destruct t as [|c t]; [left; exists r; split; [exact (po_dashes r)|reflexivity]|]. right.
    destruct (fault_spec ($"--") c t ltac:(right; reflexivity) ltac:(discriminate)) as (H & N). do 3 eexists. split; [reflexivity|]. split; [exact H|]. split; [exact N|reflexivity].
  - right. apply Ascii.eqb_neq in Eb. destruct (fault_spec ($"-") b t ltac:(left; reflexivity) ltac:(intros _; exact Eb)) as (H & N). do 3 eexists. split; [reflexivity|]. split; [exact H|]. split; [exact N|reflexivity].
Qed.
Lemma positional_flags args l : positional args l -> flag_args args = Args l.
Proof.
  intros [|s r N|r]; [reflexivity| |reflexivity]. destruct s as [|a [|b t]]; [reflexivity..|]. cbn [flag_args].
  destruct (Ascii.eqb a "-") eqn:E; [|reflexivity]. apply Ascii.eqb_eq in E. subst a. destruct (N b t eq_refl).
Qed.
Lemma error_flags s x r : flag_error s x -> (forall l, flag_args (s :: r) <> Args l) /\ fault_exit (flag_args (s :: r)) = x.
Proof.
  assert (Q : forall d c t, dashes d -> c <> "-"%char \/ d = $"--" -> flag_args ((d ++ c :: t) :: r) = flag_fault (d ++ c :: t) (c :: t)).
  { intros d c t [->| ->] H; [|reflexivity]. destruct H as [H|H]; [|discriminate H]. change ($"-" ++ c :: t) with ("-"%char :: c :: t). cbn [flag_args].
    change (Ascii.eqb "-" "-") with true. cbv iota. replace (Ascii.eqb c "-") with false by (symmetry; apply Ascii.eqb_neq; exact H). reflexivity. }
  intros [t|d t D|d n v D N V|d c n v D C E V N].
  - split; [discriminate|reflexivity].
  - change (d ++ $"=" ++ t) with (d ++ "="%char :: t). rewrite Q; [|exact D|left; discriminate]. split; [discriminate|reflexivity].
  - assert (exists c n', n = c :: n' /\ c <> "-"%char /\ c <> "="%char /\ ~ In "="%char n') as (c & n' & -> & C & C' & E).
    { destruct N as [->| ->]; do 2 eexists; (split; [reflexivity|]); (split; [discriminate|]); (split; [discriminate|]); cbn; intuition discriminate. }
    cbn [app]. rewrite Q; [|exact D|left; exact C]. cbn [flag_fault]. replace (Ascii.eqb c "-") with false by (symmetry; apply Ascii.eqb_neq; exact C).
    replace (Ascii.eqb c "=") with false by (symmetry; apply Ascii.eqb_neq; exact C'). cbn [orb]. cbv zeta. rewrite (before_value n' v E V).
    destruct N as [N|N]; rewrite N; split; (discriminate || reflexivity).
  - cbn [app]. rewrite Q; [|exact D|left; exact C]. cbn [flag_fault]. replace (Ascii.eqb c "-") with false by (symmetry; apply Ascii.eqb_neq; exact C).
    replace (Ascii.eqb c "=") with false by (symmetry; apply Ascii.eqb_neq; intro H; apply E; left; exact H). cbn [orb]. cbv zeta. rewrite (before_value n v); [|intro H; apply E; right; exact H|exact V].
    destruct (seqb (c :: n) ($"help")) eqn:E1; [apply seqb_eq in E1; destruct N; right; exact E1|]. destruct (seqb (c :: n) ($"h")) eqn:E2; [apply seqb_eq in E2; destruct N; left; exact E2|].
    split; [discriminate|reflexivity].
Qed.
Theorem flags_run run args out x : with_flags run args = (out, x) <->
  (exists l, positional args l /\ run l = (out, x)) \/ (exists s r, args = s :: r /\ flag_error s x /\ out = []).
Proof.
  unfold with_flags. split.
  - intro H. destruct (flags_total args) as [(l & P & E)|(s & r & x' & Ea & F & N & X)].
    + left. exists l. rewrite E in H. auto.
    + right. exists s, r. split; [exact Ea|]. destruct (flag_args args) as [l|m|]; [destruct (N l eq_refl)| |]; cbn [fault_exit] in X; injection H as <- <-; subst x'; auto.
  - intros [(l & P & H)|(s & r & -> & F & ->)].
    + rewrite (positional_flags _ _ P). exact H.
    + destruct (error_flags s x r F) as (N & X). destruct (flag_args (s :: r)) as [l|m|]; [destruct (N l eq_refl)| |]; cbn [fault_exit] in X; subst x; reflexivity.
Qed.

(** ** Dates that begin with a dash *)
(** No date has an equals sign. *)
Definition lacks (R : regexp) (c : ascii) : bool := match anchored R with Some a => plain a && negb (in_set (bytes a) c) | None => false end.
Lemma match_lacks R s c : match_string R s = true -> lacks R c = true -> ~ In c s.
Proof.
  intros H P Hc. pose proof (match_bytes R) as B. unfold lacks in P. destruct (anchored R) as [a|]; [|discriminate P]. apply andb_true_iff in P. destruct P as (P & A).
  specialize (B P s H). unfold all_in in B. rewrite Forall_forall in B. rewrite (B c Hc) in A. discriminate A.
Qed.
Lemma matched_no_equals s p : Matches s = OK p -> ~ In "="%char s.
Proof.
  unfold Matches. destruct (IsLevel0 s) eqn:E0; [intros _; exact (match_lacks Level0_re s "=" E0 eq_refl)|]. destruct (IsLevel1 s) eqn:E1; [intros _; exact (match_lacks Level1_re s "=" E1 eq_refl)|].
  destruct (IsLevel2 s); [|discriminate]. intro H. apply bind_OK in H. destruct H as (f & H & _). unfold L2_Matches in H.
  destruct (IsExponentialYear s) eqn:E; [exact (match_lacks _ s "=" E eq_refl)|clear E]. destruct (IsSignificantDigits s) eqn:E; [exact (match_lacks _ s "=" E eq_refl)|clear E].
  destruct (IsSubYearGrouping s) eqn:E; [exact (match_lacks _ s "=" E eq_refl)|clear E]. destruct (IsSetRepresentation s) eqn:E; [exact (match_lacks _ s "=" E eq_refl)|clear E].
  destruct (IsGroupQualification s) eqn:E; [exact (match_lacks _ s "=" E eq_refl)|clear E]. destruct (IsIndividualQualification s) eqn:E; [exact (match_lacks _ s "=" E eq_refl)|clear E].
  destruct (IsUnspecifiedDigit s) eqn:E; [exact (match_lacks _ s "=" E eq_refl)|clear E]. destruct (IsInterval s) eqn:E; [exact (match_lacks _ s "=" E eq_refl)|clear E]. discriminate.
Qed.
(** Among the first bytes is one that is no dash. *)
Definition starts (n : nat) (s : str) : Prop := exists a c r, s = a ++ c :: r /\ (length a <= n)%nat /\ c <> "-"%char.
Lemma starts_app n s t : starts n s -> starts n (s ++ t).
Proof. intros (a & c & r & -> & L & C). exists a, c, (r ++ t). split; [rewrite <- app_assoc; reflexivity|auto]. Qed.
Lemma starts_here n c s : c <> "-"%char -> starts n (c :: s).
Proof. intro C. exists [], c, s. split; [reflexivity|split; [cbn; lia|exact C]]. Qed.
Lemma starts_dash n s : starts n s -> starts (S n) ("-"%char :: s).
Proof. intros (a & c & r & -> & L & C). exists ("-"%char :: a), c, r. split; [reflexivity|split; [cbn; lia|exact C]]. Qed.
Lemma starts_more n m s : starts n s -> (n <= m)%nat -> starts m s.
Proof. intros (a & c & r & -> & L & C) H. exists a, c, r. split; [reflexivity|split; [lia|exact C]]. Qed.
Definition starting (n : nat) (P : str -> Prop) : Prop := forall s, P s -> starts n s.
Lemma starting_cat n P Q : starting n P -> starting n (cat P Q).
Proof. intros H s (u & v & Hu & _ & ->). apply starts_app. exact (H u Hu). Qed.
Lemma starting_minus n Q : starting n Q -> starting (S n) (cat minus_text Q).
Proof. intros H s (u & v & [-> |Hu] & Hv & ->); [exact (starts_more n (S n) v (H v Hv) ltac:(lia))|]. rewrite Hu. apply starts_dash. exact (H v Hv). Qed.
Lemma starting_may n P Q : starting n P -> starting n Q -> starting n (cat (may P) Q).
Proof. intros H H' s (u & v & [-> |Hu] & Hv & ->); [exact (H' v Hv)|]. apply starts_app. exact (H u Hu). Qed.
Lemma starting_ymd n Y M D : starting n Y -> starting n (ymd_form Y M D).
Proof. intros H s [y Hy|y m Hy _|y m d Hy _ _]; [exact (H y Hy)|apply starts_app; exact (H y Hy)..]. Qed.
Lemma digit_dash c : is_digit c = true -> c <> "-"%char.
Proof. intros H ->. discriminate H. Qed.
Lemma starting_run k (P : ascii -> Prop) : (forall c, P c -> c <> "-"%char) -> starting 0 (run_of (S k) P).
Proof. intros H [|c s] (L & F); [discriminate L|]. apply starts_here. inversion F; subst. auto. Qed.
Lemma starting_four : starting 0 four_digits.
Proof. apply starting_run. exact digit_dash. Qed.
Lemma starting_x : starting 0 four_x.
Proof. apply starting_run. intros c [H| ->]; [exact (digit_dash c H)|discriminate]. Qed.
Lemma starting_mark : starting 0 mark.
Proof. intros s [->|[->| ->]]; apply starts_here; discriminate. Qed.
Lemma starting_year : starting 1 signed_year.
Proof.
  assert (F : forall n, 0 <= n <= 9999 -> starts 0 (four n)) by (intros n H; apply starts_here; apply digit_dash, is_digit_char; lia).
  intros s (y & [n H|n H]); [exact (starts_more 0 1 _ (F n H) ltac:(lia))|apply starts_dash; exact (F n H)].
Qed.
Lemma starting_date : starting 1 is_level0_date.
Proof. intros s (y & m & d & [t y' r m' d' Hy _]). apply starts_app, starting_year. exists y'. exact Hy. Qed.
Lemma starting_is n c t : c <> "-"%char -> starting n (is (c :: t)).
Proof. intros H s ->. apply starts_here. exact H. Qed.
Lemma same_letter_dash c u : same_letter c u -> code c <> 45 -> code c <> 77 -> starting 0 (fun s => exists v, s = u ++ v).
Proof.
  intros H C C2 s (v & ->). destruct H as [->|[(d & -> & D)|(_ & ->)]]; apply starts_here; intros E; try discriminate E.
  - rewrite E in C. apply C. reflexivity.
  - rewrite E in D. change (code "-") with 45 in D. lia.
Qed.
Lemma starting_season : starting 0 season_words.
Proof.
  apply starting_cat. intros s H. assert (Q : forall w, code (hd "a"%char w) <> 45 -> code (hd "a"%char w) <> 77 -> w <> [] -> any_case w s -> starts 0 s).
  { intros w C C2 N A. destruct A as [|c w u v L A]; [contradiction|]. cbn [hd] in C, C2. apply (same_letter_dash c u L C C2). exists v. reflexivity. }
  destruct H as [H|[H|[H|H]]]; (eapply Q; [| | |exact H]); (vm_compute; discriminate) || discriminate.
Qed.
Lemma starting_letter : starting 0 letter_y.
Proof. intros s [->| ->]; apply starts_here; discriminate. Qed.
Lemma starts_upx n s : starts n (map upx s) -> starts n s.
Proof.
  intros (a & c & r & E & L & C). apply map_eq_app in E. destruct E as (s1 & s2 & -> & <- & E). destruct s2 as [|d s2]; [discriminate E|]. injection E as E1 _.
  exists s1, d, s2. split; [reflexivity|]. rewrite map_length in L. split; [exact L|]. intros ->. apply C. rewrite <- E1. reflexivity.
Qed.
Lemma matched_starts s p : Matches s = OK p -> starts 2 s.
Proof.
  intro V. unfold Matches in V.
  destruct (IsLevel0 s) eqn:E0.
  { apply level0_test in E0. apply (starts_more 1); [|lia]. destruct E0 as [H|[H|(a & b & Ha & _ & ->)]].
    - exact (starting_date s H).
    - destruct H as [t h m sc z Ht _ _ _ _]. apply starts_app. exact (starting_date t Ht).
    - apply starts_app. exact (starting_date a Ha). }
  destruct (IsLevel1 s) eqn:E1.
  { apply level1_test in E1. destruct E1 as [[H|[H|[H|[H|[H|[H|[H|H]]]]]]]|H].
    - exact (starting_cat 2 _ _ (starting_is 2 "Y" [] ltac:(discriminate)) s H).
    - exact (starts_more 1 2 s (starting_cat 1 _ _ starting_year s H) ltac:(lia)).
    - exact (starts_more 0 2 s (starting_season s H) ltac:(lia)).
    - exact (starts_more 1 2 s (starting_cat 1 _ _ starting_date s H) ltac:(lia)).
    - exact (starts_more 0 2 s (starting_ymd 0 _ _ _ starting_x s H) ltac:(lia)).
    - apply (starts_more 0); [|lia]. refine (starting_may 0 _ _ (starting_is 0 "." ($".") ltac:(discriminate)) _ s H). apply starting_cat. exact (starting_is 0 "/" [] ltac:(discriminate)).
    - exact (starts_more 1 2 s (starting_cat 1 _ _ starting_date s H) ltac:(lia)).
    - destruct H as (u & v & -> & Hv & ->). apply starts_dash. exact (starting_year v Hv).
    - apply starts_upx. exact (starts_more 0 2 _ (starting_ymd 0 _ _ _ starting_x _ H) ltac:(lia)). }
  destruct (IsLevel2 s) eqn:E2.
  { apply bind_OK in V. destruct V as (f' & V & _). apply first2 in V. apply first2_form in V. rename V into E2'. apply (starts_more 1); [|lia]. destruct E2' as [H|[H|[H|[H|[H|[H|[H|H]]]]]]].
    - exact (starts_more 0 1 s (starting_cat 0 _ _ starting_letter s H) ltac:(lia)).
    - destruct H as (u & v & Hu & _ & ->). apply starts_app. destruct Hu as [Hu|[Hu|Hu]].
      + exact (starting_year u Hu).
      + exact (starts_more 0 1 u (starting_cat 0 _ _ (starting_is 0 "Y" [] ltac:(discriminate)) u Hu) ltac:(lia)).
      + exact (starts_more 0 1 u (starting_cat 0 _ _ starting_letter u Hu) ltac:(lia)).
    - exact (starts_more 0 1 s (starting_cat 0 _ _ starting_four s H) ltac:(lia)).
    - destruct H as (o & body & [o' b c Ho _ _]). apply starts_here. destruct Ho as [->| ->]; discriminate.
    - exact (starts_more 0 1 s (starting_ymd 0 _ _ _ (starting_cat 0 _ _ starting_four) s H) ltac:(lia)).
    - exact (starts_more 0 1 s (starting_ymd 0 _ _ _ (starting_may 0 _ _ starting_mark starting_four) s H) ltac:(lia)).
    - exact (starts_more 0 1 _ (starting_ymd 0 _ _ _ starting_x _ H) ltac:(lia)).
    - refine (starting_cat 1 _ _ (starting_ymd 1 _ _ _ (starting_may 1 _ _ (fun t Ht => starts_more 0 1 t (starting_mark t Ht) ltac:(lia)) (starting_minus 0 _ starting_x))) _ H). }
  discriminate V.
Qed.
(** A date that begins with a dash is taken for a flag that is not defined. *)
Theorem dash_dates s p : Matches s = OK p -> (exists t, s = "-"%char :: t) ->
  exists d n, s = d ++ n /\ dashes d /\ flag_error s (Usage ($"flag provided but not defined: -" ++ n)).
Proof.
  intros V (t & ->). pose proof (matched_no_equals _ _ V) as Ne. destruct (matched_starts _ _ V) as (a & c & r & E & L & C).
  assert (D : exists d c' n, "-"%char :: t = d ++ c' :: n /\ dashes d /\ c' <> "-"%char).
  { destruct a as [|a1 [|a2 [|a3 a]]]; [injection E as E _; congruence| | |cbn in L; lia].
    - injection E as <- ->. exists ($"-"), c, r. split; [reflexivity|split; [left; reflexivity|exact C]].
    - injection E as <- ->. destruct (Ascii.eqb a2 "-") eqn:Q; [apply Ascii.eqb_eq in Q; subst a2; exists ($"--"), c, r; split; [reflexivity|split; [right; reflexivity|exact C]]|].
      apply Ascii.eqb_neq in Q. exists ($"-"), a2, (c :: r). split; [reflexivity|split; [left; reflexivity|exact Q]]. }
  clear E L C a c r. destruct D as (d & c & n & E & D & C). exists d, (c :: n). split; [exact E|]. split; [exact D|]. rewrite E in *.
  pose proof (fe_unknown d c n [] D C) as F. rewrite app_nil_r in F. apply F; [|left; reflexivity|].
  - intro H. apply Ne. apply in_or_app. right. exact H.
  - assert (Q : Matches (d ++ $"h") <> OK p /\ Matches (d ++ $"help") <> OK p) by (destruct D as [->| ->]; vm_compute; split; discriminate).
    intros [H|H]; rewrite H in V; destruct Q; contradiction.
Qed.
Theorem parsed_flag s d : ParseString s = OK d -> (exists t, s = "-"%char :: t) ->
  exists m n, s = m ++ n /\ dashes m /\ flag_error s (Usage ($"flag provided but not defined: -" ++ n)).
Proof.
  intros H (t & ->). destruct (parse_class _ _ H) as (_ & _ & M & _). eapply dash_dates; [apply M; discriminate|eauto].
Qed.

(** ** Runs *)
Lemma comma_join l : comma_list l (join_with ($",") l).
Proof.
  induction l as [|t l IH]; [constructor|]. destruct l as [|u l]; [constructor|]. apply (cl_more t (u :: l)); [discriminate|exact IH].
Qed.
Lemma comma_only l t : comma_list l t -> t = join_with ($",") l.
Proof. intro H. induction H as [|t|t l u N H IH]; [reflexivity..|]. subst u. destruct l as [|v l]; [contradiction|reflexivity]. Qed.
Lemma runs_total args : exists ds x, parse_run args ds x.
Proof.
  induction args as [|a args (ds & x & IH)]; [exists [], Done; constructor|]. destruct (ParseString a) as [d|e|] eqn:E.
  - exists (d :: ds), x. exact (pr_date a d args ds x E IH).
  - do 2 eexists. apply (pr_stop a e (error_text e) args E). apply (text_exactly a e E). reflexivity.
  - do 2 eexists. exact (pr_crash a args E).
Qed.
Lemma run_loop args ds x : parse_run args ds x -> exists good rest, args = good ++ rest /\ Forall2 (fun a d => ParseString a = OK d) good ds /\
  (x = Done /\ rest = [] \/ x <> Done /\ exists bad r, rest = bad :: r /\ (forall d, ParseString bad <> OK d) /\ x = match ParseString bad with Err e => fatal bad e | _ => Crash end).
Proof.
  intro H. induction H as [|a d args ds x E H (good & rest & -> & F & IH)|a e w rest E S|a rest E].
  - exists [], []. split; [reflexivity|]. split; [constructor|auto].
  - exists (a :: good), rest. split; [reflexivity|]. split; [constructor; assumption|exact IH].
  - exists [], (a :: rest). split; [reflexivity|]. split; [constructor|]. right. split; [discriminate|]. exists a, rest. split; [reflexivity|].
    apply (text_exactly a e E) in S. subst w. rewrite E. split; [discriminate|reflexivity].
  - exists [], (a :: rest). split; [reflexivity|]. split; [constructor|]. right. split; [discriminate|]. exists a, rest. rewrite E. split; [reflexivity|split; [discriminate|reflexivity]].
Qed.
Lemma run_output args ds x : parse_run args ds x -> cmd_parse args = ($"[" ++ join_with ($",") (map marshal_edtf ds) ++ match x with Done => $"]" | _ => [] end, x).
Proof.
  intro H. apply run_loop in H. destruct H as (good & rest & -> & F & [(-> & ->)|(N & bad & r & -> & B & X)]); unfold cmd_parse.
  - rewrite app_nil_r, (parse_loop_all good ds 0 F). reflexivity.
  - rewrite (parse_loop_stop good ds 0 bad r F B). rewrite <- X. cbn [Nat.ltb Nat.leb]. destruct x; try (destruct (N eq_refl)); rewrite ?app_nil_r; reflexivity.
Qed.
Theorem parse_outputs args out x : cmd_parse args = (out, x) <-> parse_output args out x.
Proof.
  split.
  - intro H. destruct (runs_total args) as (ds & x' & R). rewrite (run_output args ds x' R) in H. injection H as <- <-. pose proof (comma_join (map marshal_edtf ds)) as C.
    destruct x'; try (rewrite app_nil_r; apply (pt_part args ds _ _ R); [discriminate|exact C]). exact (pt_all args ds _ R C).
  - intros [args' ds t R C|args' ds t x' R N C]; rewrite (run_output _ _ _ R), (comma_only _ _ C); [reflexivity|]. destruct x'; try (destruct (N eq_refl)); rewrite ?app_nil_r; reflexivity.
Qed.
Lemma ok_same {A} (a b : A) : OK a = OK b -> a = b.
Proof. intro H. exact (f_equal (fun x => match x with OK v => v | _ => a end) H). Qed.
Theorem wasi_runs args : forall out x, cmd_wasi args = (out, x) <-> wasi_run args out x.
Proof.
  induction args as [|a args IH]; intros out x.
  - split; [intro H; injection H as <- <-; constructor|intro H; inversion H; reflexivity].
  - cbn [cmd_wasi]. unfold wasi_parse. destruct (ParseString a) as [d|e|] eqn:E.
    + destruct (cmd_wasi args) as (out' & x') eqn:R. split.
      * intro H. injection H as <- <-. apply (wr_date a d args out' x' E). apply IH. reflexivity.
      * intro H. inversion H as [|a0 d0 r o x0 E0 R0|a0 e0 w r o x0 E0 S R0|a0 r E0]; subst; rewrite E in E0; try discriminate E0. apply ok_same in E0. subst d0. apply IH in R0. injection R0 as <- <-. reflexivity.
    + destruct (cmd_wasi args) as (out' & x') eqn:R. split.
      * intro H. injection H as <- <-. apply (wr_error a e (error_text e) args out' x' E); [apply (text_exactly a e E); reflexivity|]. apply IH. reflexivity.
      * intro H. inversion H as [|a0 d0 r o x0 E0 R0|a0 e0 w r o x0 E0 S R0|a0 r E0]; subst; rewrite E in E0; try discriminate E0. apply err_same in E0. subst e0.
        apply (text_exactly a e E) in S. subst w. apply IH in R0. injection R0 as <- <-. reflexivity.
    + split; [intro H; injection H as <- <-; exact (wr_crash a args E)|]. intro H. inversion H as [|a0 d0 r o x0 E0 R0|a0 e0 w r o x0 E0 S R0|a0 r E0]; subst; rewrite E in E0; [discriminate E0..|reflexivity].
Qed.
(** ** The tools *)
Theorem parse_main args out x : main_parse args = (out, x) <->
  (exists l, positional args l /\ parse_output l out x) \/ (exists s r, args = s :: r /\ flag_error s x /\ out = []).
Proof. unfold main_parse. rewrite flags_run. split; (intros [(l & P & H)|H]; [left; exists l; split; [exact P|apply parse_outputs; exact H]|right; exact H]). Qed.
Theorem matches_main args out x : main_matches args = (out, x) <->
  (exists l, positional args l /\ SpecMessage.match_run l out x) \/ (exists s r, args = s :: r /\ flag_error s x /\ out = []).
Proof. unfold main_matches. rewrite flags_run. split; (intros [(l & P & H)|H]; [left; exists l; split; [exact P|apply match_runs; exact H]|right; exact H]). Qed.
Theorem wasi_main args out x : main_wasi args = (out, x) <->
  (exists l, positional args l /\ wasi_run l out x) \/ (exists s r, args = s :: r /\ flag_error s x /\ out = []).
Proof. unfold main_wasi. rewrite flags_run. split; (intros [(l & P & H)|H]; [left; exists l; split; [exact P|apply wasi_runs; exact H]|right; exact H]). Qed.
Theorem dash_refused s r d : ParseString s = OK d -> (exists t, s = "-"%char :: t) -> exists m n, s = m ++ n /\ dashes m /\
  main_parse (s :: r) = ([], Usage ($"flag provided but not defined: -" ++ n)) /\
  main_matches (s :: r) = ([], Usage ($"flag provided but not defined: -" ++ n)) /\
  main_wasi (s :: r) = ([], Usage ($"flag provided but not defined: -" ++ n)).
Proof.
  intros H T. destruct (parsed_flag s d H T) as (m & n & E & D & F). exists m, n. split; [exact E|]. split; [exact D|].
  split; [apply parse_main|split; [apply matches_main|apply wasi_main]]; right; exists s, r; auto.
Qed.
Theorem year_44 : exists s d, ParseString s = OK d /\ main_parse [s] = ([], Usage ($"flag provided but not defined: -0044")) /\ main_parse [$"--"; s] <> ([], Usage ($"flag provided but not defined: -0044")).
Proof.
  exists ($"-0044"). eexists. split; [vm_compute; reflexivity|]. split; [vm_compute; reflexivity|]. vm_compute. discriminate.
Qed.
Theorem two_dashes args : main_parse ($"--" :: args) = cmd_parse args /\ main_matches ($"--" :: args) = cmd_matches args /\ main_wasi ($"--" :: args) = cmd_wasi args.
Proof. split; [|split]; reflexivity. Qed.
Theorem no_dash s r : (forall t, s <> "-"%char :: t) -> main_parse (s :: r) = cmd_parse (s :: r) /\ main_matches (s :: r) = cmd_matches (s :: r) /\ main_wasi (s :: r) = cmd_wasi (s :: r).
Proof.
  intro N. unfold main_parse, main_matches, main_wasi, with_flags. rewrite (positional_flags (s :: r) (s :: r) (po_plain s r (fun c t => N (c :: t)))). auto.
Qed.
