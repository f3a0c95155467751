(** Group and individual qualification. *)
From Coq Require Import Ascii String ZArith NArith Bool Lia ZifyBool List.
From Verif Require Import GoStr GoTime Regex Patterns RegexSym RegexRel RegexGen SpecCal SpecText SpecGrammar SpecForms SpecSpan SpecInner StrFacts TextFacts Edtf Calendar Common Level0 Level1 Level2 Parser CalFacts ApiFacts SpanFacts YmdShapes YmdFacts InvFacts GrammarFacts LangFacts LangNorm LangForms LangForms2 DateFacts ParseFacts SplitFacts Level0Facts FormFacts SeasonFacts Level1Proofs XProofs FormProofs.
Import ListNotations.
Open Scope Z_scope.
Ltac Zify.zify_post_hook ::= Z.div_mod_to_equations.

Definition qual_of (t : qtype) (q : option ascii) : option qualifier := match q with Some c => Some (mkQual [c] t) | None => None end.
Lemma qualified_after core q : mark_ok q -> qualified (core ++ mark_text q) core (qual_of Group q).
Proof. destruct q as [c|]; cbn; intro H; [constructor; apply mark_in; exact H|rewrite app_nil_r; constructor]. Qed.
Lemma qualified_before core q : mark_ok q -> qualified (mark_text q ++ core) core (qual_of Individual q).
Proof. destruct q as [c|]; cbn; intro H; [constructor; apply mark_in; exact H|constructor]. Qed.
Lemma nonempty_app (a b : str) n : a ++ two n ++ b <> [].
Proof. destruct a; discriminate. Qed.
Lemma two_app_ne n (b : str) : two n ++ b <> [].
Proof. discriminate. Qed.
Lemma real_month y m d : exists_date y (Some m) d -> 1 <= m <= 12.
Proof. intros (H & _). exact H. Qed.
Lemma real_day y m d : exists_date y (Some m) (Some d) -> 1 <= d <= 31.
Proof. intros (H & H'). cbn in H'. pose proof (month_len_range y m). cbn in H. lia. Qed.
Ltac marks3 H := repeat match goal with
  | q : option ascii |- _ => destruct q as [?|]
  | K : mark_ok (Some _) |- _ => cbn in K; destruct K as [->|[->| ->]]
  | K : mark_ok None |- _ => clear K
  end; reflexivity.
Definition q_complete (x : qdate) : bool := match q_month x, q_day x with Some _, Some _ => true | _, _ => false end.
Lemma group_den x : q_ok x ->
  date_den (group_text x) (q_year x) (first_month (q_month x)) (first_day (q_day x))
    (q_year x) (last_month (q_month x)) (last_day (q_year x) (last_month (q_month x)) (q_day x))
    (group_bits marks_uncertain x) (group_bits marks_approximate x) YEAR (q_complete x).
Proof.
  intros (Hy & X & Hq). destruct x as [y p|y p m q|y p m q d r]; cbn [q_year q_month q_day q_marks] in *; destruct Hq as (Hp & Hq & Hr).
  - apply (num_den _ (four y ++ mark_text p) (four y) y (qual_of Group p) [] [] None None [] [] None None);
      [constructor|apply qualified_after; exact Hp|constructor; exact Hy|repeat split|repeat split|].
    unfold group_bits. cbn [q_marks]. marks3 0.
  - pose proof (real_month _ _ _ X) as Hm.
    apply (num_den _ (four y ++ mark_text p) (four y) y (qual_of Group p) (two m ++ mark_text q) (two m) (Some m) (qual_of Group q) [] [] None None).
    + unfold group_text. replace (four y ++ mark_text p ++ $"-" ++ two m ++ mark_text q) with ((four y ++ mark_text p) ++ "-"%char :: two m ++ mark_text q)
        by (rewrite <- app_assoc; reflexivity). apply yt_ym. apply two_app_ne.
    + apply qualified_after; exact Hp.
    + constructor; exact Hy.
    + split; [apply qualified_after; exact Hq|]. auto.
    + repeat split.
    + unfold group_bits. cbn [q_marks]. marks3 0.
  - pose proof (real_month _ _ _ X) as Hm. pose proof (real_day _ _ _ X) as Hd.
    apply (num_den _ (four y ++ mark_text p) (four y) y (qual_of Group p) (two m ++ mark_text q) (two m) (Some m) (qual_of Group q) (two d ++ mark_text r) (two d) (Some d) (qual_of Group r)).
    + unfold group_text.
      replace (four y ++ mark_text p ++ $"-" ++ two m ++ mark_text q ++ $"-" ++ two d ++ mark_text r)
        with ((four y ++ mark_text p) ++ "-"%char :: (two m ++ mark_text q) ++ "-"%char :: two d ++ mark_text r)
        by (rewrite <- !app_assoc; cbn [app lit list_ascii_of_string]; rewrite <- ?app_assoc; reflexivity).
      apply yt_ymd; apply two_app_ne.
    + apply qualified_after; exact Hp.
    + constructor; exact Hy.
    + split; [apply qualified_after; exact Hq|]. auto.
    + split; [apply qualified_after; exact Hr|]. auto.
    + unfold group_bits. cbn [q_marks]. marks3 0.
Qed.
Lemma individual_den x : q_ok x ->
  date_den (individual_text x) (q_year x) (first_month (q_month x)) (first_day (q_day x))
    (q_year x) (last_month (q_month x)) (last_day (q_year x) (last_month (q_month x)) (q_day x))
    (individual_bits marks_uncertain x) (individual_bits marks_approximate x) YEAR (q_complete x).
Proof.
  intros (Hy & X & Hq). destruct x as [y p|y p m q|y p m q d r]; cbn [q_year q_month q_day q_marks] in *; destruct Hq as (Hp & Hq & Hr).
  - apply (num_den _ (mark_text p ++ four y) (four y) y (qual_of Individual p) [] [] None None [] [] None None);
      [constructor|apply qualified_before; exact Hp|constructor; exact Hy|repeat split|repeat split|].
    unfold individual_bits. cbn [q_marks]. marks3 0.
  - pose proof (real_month _ _ _ X) as Hm.
    apply (num_den _ (mark_text p ++ four y) (four y) y (qual_of Individual p) (mark_text q ++ two m) (two m) (Some m) (qual_of Individual q) [] [] None None).
    + unfold individual_text. replace (mark_text p ++ four y ++ $"-" ++ mark_text q ++ two m) with ((mark_text p ++ four y) ++ "-"%char :: mark_text q ++ two m)
        by (rewrite <- app_assoc; reflexivity). apply yt_ym. destruct (mark_text q); discriminate.
    + apply qualified_before; exact Hp.
    + constructor; exact Hy.
    + split; [apply qualified_before; exact Hq|]. auto.
    + repeat split.
    + unfold individual_bits. cbn [q_marks]. marks3 0.
  - pose proof (real_month _ _ _ X) as Hm. pose proof (real_day _ _ _ X) as Hd.
    apply (num_den _ (mark_text p ++ four y) (four y) y (qual_of Individual p) (mark_text q ++ two m) (two m) (Some m) (qual_of Individual q) (mark_text r ++ two d) (two d) (Some d) (qual_of Individual r)).
    + unfold individual_text.
      replace (mark_text p ++ four y ++ $"-" ++ mark_text q ++ two m ++ $"-" ++ mark_text r ++ two d)
        with ((mark_text p ++ four y) ++ "-"%char :: (mark_text q ++ two m) ++ "-"%char :: mark_text r ++ two d)
        by (rewrite <- !app_assoc; cbn [app lit list_ascii_of_string]; rewrite <- ?app_assoc; reflexivity).
      apply yt_ymd; [destruct (mark_text q)|destruct (mark_text r)]; discriminate.
    + apply qualified_before; exact Hp.
    + constructor; exact Hy.
    + split; [apply qualified_before; exact Hq|]. auto.
    + split; [apply qualified_before; exact Hr|]. auto.
    + unfold individual_bits. cbn [q_marks]. marks3 0.
Qed.
Lemma four_digitsF' y : 0 <= y <= 9999 -> four_digits (four y).
Proof. intro H. split; [reflexivity|]. unfold four. repeat (apply Forall_cons; [apply is_digit_char; lia|]). apply Forall_nil. Qed.
Lemma two_digits' n : 0 <= n <= 99 -> two_digits (two n).
Proof. intro H. split; [reflexivity|]. unfold two. repeat (apply Forall_cons; [apply is_digit_char; lia|]). apply Forall_nil. Qed.
Lemma may_mark q : mark_ok q -> may mark (mark_text q).
Proof. destruct q as [c|]; cbn; [intros [->|[->| ->]]; right; [left|right; left|right; right]; reflexivity|left; reflexivity]. Qed.
Lemma group_form x : q_ok x -> group_qualified (group_text x).
Proof.
  intros (Hy & X & Hq). assert (A : forall (P : str -> Prop) core q, P core -> mark_ok q -> cat P (may mark) (core ++ mark_text q)).
  { intros P core q H1 H2. exists core, (mark_text q). auto using may_mark. }
  destruct x as [y p|y p m q|y p m q d r]; cbn [q_year q_month q_day q_marks] in *; destruct Hq as (Hp & Hq & Hr).
  - apply yf_y. apply A; [apply four_digitsF'; exact Hy|exact Hp].
  - pose proof (real_month _ _ _ X) as Hm.
    unfold group_text. replace (four y ++ mark_text p ++ $"-" ++ two m ++ mark_text q) with ((four y ++ mark_text p) ++ "-"%char :: two m ++ mark_text q)
        by (rewrite <- app_assoc; reflexivity). apply yf_ym; (apply A; [apply four_digitsF'||apply two_digits'; lia|assumption]).
  - pose proof (real_month _ _ _ X) as Hm. pose proof (real_day _ _ _ X) as Hd. unfold group_text.
      replace (four y ++ mark_text p ++ $"-" ++ two m ++ mark_text q ++ $"-" ++ two d ++ mark_text r)
        with ((four y ++ mark_text p) ++ "-"%char :: (two m ++ mark_text q) ++ "-"%char :: two d ++ mark_text r)
        by (rewrite <- !app_assoc; cbn [app lit list_ascii_of_string]; rewrite <- ?app_assoc; reflexivity).
    apply yf_ymd; (apply A; [apply four_digitsF'||apply two_digits'; lia|assumption]).
Qed.
Lemma individual_form x : q_ok x -> individually_qualified (individual_text x).
Proof.
  intros (Hy & X & Hq). assert (A : forall (P : str -> Prop) core q, P core -> mark_ok q -> cat (may mark) P (mark_text q ++ core)).
  { intros P core q H1 H2. exists (mark_text q), core. auto using may_mark. }
  destruct x as [y p|y p m q|y p m q d r]; cbn [q_year q_month q_day q_marks] in *; destruct Hq as (Hp & Hq & Hr).
  - apply yf_y. apply A; [apply four_digitsF'; exact Hy|exact Hp].
  - pose proof (real_month _ _ _ X) as Hm.
    unfold individual_text. replace (mark_text p ++ four y ++ $"-" ++ mark_text q ++ two m) with ((mark_text p ++ four y) ++ "-"%char :: mark_text q ++ two m)
        by (rewrite <- app_assoc; reflexivity). apply yf_ym; (apply A; [apply four_digitsF'||apply two_digits'; lia|assumption]).
  - pose proof (real_month _ _ _ X) as Hm. pose proof (real_day _ _ _ X) as Hd. unfold individual_text.
      replace (mark_text p ++ four y ++ $"-" ++ mark_text q ++ two m ++ $"-" ++ mark_text r ++ two d)
        with ((mark_text p ++ four y) ++ "-"%char :: (mark_text q ++ two m) ++ "-"%char :: mark_text r ++ two d)
        by (rewrite <- !app_assoc; cbn [app lit list_ascii_of_string]; rewrite <- ?app_assoc; reflexivity).
    apply yf_ymd; (apply A; [apply four_digitsF'||apply two_digits'; lia|assumption]).
Qed.
Lemma q_last x : q_ok x -> real_date (q_year x) (last_month (q_month x)) (last_day (q_year x) (last_month (q_month x)) (q_day x)).
Proof.
  intros (_ & X & _). destruct x as [y p|y p m q|y p m q d r]; cbn in *.
  - split; cbn; lia.
  - pose proof (month_len_range y m). destruct X as (X & _). cbn in X. split; cbn; lia.
  - exact X.
Qed.
Lemma q_same x : q_complete x = true -> (q_year x, first_month (q_month x), first_day (q_day x)) = (q_year x, last_month (q_month x), last_day (q_year x) (last_month (q_month x)) (q_day x)).
Proof. destruct x; [discriminate|discriminate|reflexivity]. Qed.
Lemma q_span s x u a lv f : q_ok x ->
  date_den s (q_year x) (first_month (q_month x)) (first_day (q_day x))
    (q_year x) (last_month (q_month x)) (last_day (q_year x) (last_month (q_month x)) (q_day x)) u a YEAR (q_complete x) ->
  exists sp, dateSpanFromYMD s = OK sp /\ q_result (edtf_of_span sp s lv f) x u a.
Proof.
  intros Hx D. destruct (span_fwd _ _ _ _ _ _ _ _ _ _ _ D (proj1 (proj2 Hx)) (q_last x Hx)) as (E & _).
  eexists. split; [exact E|]. 
  pose proof (span6_runs s lv f u a YEAR (q_complete x) (q_year x) (first_month (q_month x)) (first_day (q_day x)) (q_year x) (last_month (q_month x)) (last_day (q_year x) (last_month (q_month x)) (q_day x)) (q_same x)) as (R & F & _).
  split; assumption.
Qed.
Lemma group_noslash s : group_qualified s -> ~ In "/"%char s.
Proof. intros H Hi. apply Group_spec in H. revert H. apply not_true_iff_false. no_byte "/"%char. exact Hi. Qed.
Lemma individual_noslash s : individually_qualified s -> ~ In "/"%char s.
Proof. intros H Hi. apply Individual_spec in H. revert H. apply not_true_iff_false. no_byte "/"%char. exact Hi. Qed.
Theorem group_direct x : q_ok x -> exists e, ParseGroupQualification (group_text x) = OK e /\ e_level e = 2 /\ e_feature e = $"Qualification (Group)" /\
  q_result e x (group_bits marks_uncertain x) (group_bits marks_approximate x).
Proof.
  intro Hx. pose proof (group_form x Hx) as F. unfold ParseGroupQualification. rewrite (proj2 (Group_spec _) F). cbn [negb].
  rewrite single_fwd by (apply group_noslash; exact F).
  destruct (q_span _ _ _ _ 2 GROUP_QUALIFICATION Hx (group_den x Hx)) as (sp & -> & R). cbn [bind]. eexists. split; [reflexivity|]. auto.
Qed.
Theorem individual_direct x : q_ok x -> exists e, ParseIndividualQualification (individual_text x) = OK e /\ e_level e = 2 /\ e_feature e = $"Qualification (Individual)" /\
  q_result e x (individual_bits marks_uncertain x) (individual_bits marks_approximate x).
Proof.
  intro Hx. pose proof (individual_form x Hx) as F. unfold ParseIndividualQualification. rewrite (proj2 (Individual_spec _) F). cbn [negb].
  rewrite single_fwd by (apply individual_noslash; exact F).
  destruct (q_span _ _ _ _ 2 INDIVIDUAL_QUALIFICATION Hx (individual_den x Hx)) as (sp & -> & R). cbn [bind]. eexists. split; [reflexivity|]. auto.
Qed.

(** ** ParseString *)
Lemma mark_not_level1 s q : a_mark q -> In q s -> ~ In ","%char s -> IsLevel1 s = true -> qualified_date s.
Proof.
  intros Hq Hi Nc H. unfold IsLevel1 in H. apply Level1_spec in H.
  assert (N : forall R, match_string R s = true -> match_string R s = false -> qualified_date s) by (intros R H1 H2; congruence).
  assert (D : is_digit q = false /\ q <> "-"%char /\ q <> "x"%char /\ q <> "X"%char) by (destruct Hq as [->|[->| ->]]; repeat split; discriminate).
  destruct H as [H|[H|[H|[H|[H|[H|[H|H]]]]]]].
  - apply LetterYear_spec in H. apply (N _ H). destruct Hq as [->|[->| ->]]; [no_byte "?"%char|no_byte "~"%char|no_byte "%"%char]; exact Hi.
  - exfalso. destruct H as (t & r & (y & Hy) & (d & n & -> & (k & Hk & ->) & ->) & ->). apply in_app_or in Hi.
    destruct Hi as [Hi|[<-|Hi]]; [destruct (year4_bytes _ _ _ Hy Hi) as [Q|Q]; [rewrite Q in D; destruct D; discriminate|tauto]|tauto|].
    apply in_two in Hi; [rewrite Hi in D; destruct D; discriminate|lia].
  - exfalso. apply Nc. apply words_comma. exact H.
  - exact H.
  - exfalso. apply UnspecifiedDigits_spec in H. revert H. apply not_true_iff_false.
    assert (Hi' : In q (map upx s)) by (apply in_upx; tauto).
    destruct Hq as [->|[->| ->]]; [no_byte "?"%char|no_byte "~"%char|no_byte "%"%char]; exact Hi'.
  - apply IntervalStart_spec in H. apply (N _ H). destruct Hq as [->|[->| ->]]; [no_byte "?"%char|no_byte "~"%char|no_byte "%"%char]; exact Hi.
  - apply IntervalEnd_spec in H. apply (N _ H). destruct Hq as [->|[->| ->]]; [no_byte "?"%char|no_byte "~"%char|no_byte "%"%char]; exact Hi.
  - apply NegativeYear_spec in H. apply (N _ H). destruct Hq as [->|[->| ->]]; [no_byte "?"%char|no_byte "~"%char|no_byte "%"%char]; exact Hi.
Qed.
Lemma mark_not_level0 s q : a_mark q -> In q s -> IsLevel0 s = false.
Proof. intros Hq Hi. apply (not_level0 s q); [destruct Hq as [->|[->| ->]]; reflexivity|exact Hi]. Qed.
Lemma to_level2 s q : a_mark q -> In q s -> ~ In ","%char s -> ~ qualified_date s -> level2_exact s ->
  ParseString s = if IsGroupQualification s then ParseGroupQualification s else if IsIndividualQualification s then ParseIndividualQualification s
    else if IsUnspecifiedDigit s then ParseUnspecifiedDigit s else if IsInterval s then ParseInterval s
    else Err (Invalid ($"Invalid or unsupported Level 2 string") s).
Proof.
  intros Hq Hi Nc Nq H2. unfold ParseString. rewrite (mark_not_level0 s q Hq Hi).
  replace (IsLevel1 s) with false by (symmetry; apply not_true_iff_false; intro H; exact (Nq (mark_not_level1 s q Hq Hi Nc H))).
  replace (IsLevel2 s) with true by (symmetry; apply level2_iff; exists s, []; rewrite app_nil_r; split; [apply exact_form; exact H2|reflexivity]).
  unfold L2_ParseString, IsExponentialYear, IsSignificantDigits, IsSubYearGrouping, IsSetRepresentation.
  replace (match_string ExponentialYear s) with false by (symmetry; destruct Hq as [->|[->| ->]]; [no_byte "?"%char|no_byte "~"%char|no_byte "%"%char]; exact Hi).
  replace (match_string SignificantDigits s) with false by (symmetry; destruct Hq as [->|[->| ->]]; [no_byte "?"%char|no_byte "~"%char|no_byte "%"%char]; exact Hi).
  replace (match_string SubYearGrouping s) with false by (symmetry; destruct Hq as [->|[->| ->]]; [no_byte "?"%char|no_byte "~"%char|no_byte "%"%char]; exact Hi).
  replace (match_string SetRepresentations s) with false by (symmetry; destruct Hq as [->|[->| ->]]; [no_byte "?"%char|no_byte "~"%char|no_byte "%"%char]; exact Hi).
  reflexivity.
Qed.
Lemma run4 s : four_digits s -> exists a b c d, s = [a; b; c; d] /\ is_digit a = true /\ is_digit b = true /\ is_digit c = true /\ is_digit d = true.
Proof.
  intros (L & F). destruct s as [|a [|b [|c [|d [|? ?]]]]]; try discriminate. exists a, b, c, d. split; [reflexivity|].
  inversion F as [|? ? Ha F1]; subst. inversion F1 as [|? ? Hb F2]; subst. inversion F2 as [|? ? Hc F3]; subst. inversion F3; subst. auto.
Qed.
Lemma run2 s : two_digits s -> exists a b, s = [a; b] /\ is_digit a = true /\ is_digit b = true.
Proof.
  intros (L & F). destruct s as [|a [|b [|? ?]]]; try discriminate. exists a, b. split; [reflexivity|].
  inversion F as [|? ? Ha F1]; subst. inversion F1; subst. auto.
Qed.
Lemma mark_a v : mark v -> exists q, v = [q] /\ a_mark q.
Proof. intros [->|[->| ->]]; eexists; (split; [reflexivity|]); unfold a_mark; auto. Qed.
Lemma may_a v : may mark v -> v = [] \/ exists q, v = [q] /\ a_mark q.
Proof. intros [->|H]; [auto|right; apply mark_a; exact H]. Qed.
Lemma mark_dash : ~ a_mark "-"%char.
Proof. intros [H|[H|H]]; discriminate. Qed.
Lemma mark_digit q : a_mark q -> is_digit q = true -> False.
Proof. intros [->|[->| ->]]; discriminate. Qed.
Lemma tail_inner (a : str) w u c v : a ++ [w] = u ++ c :: v -> v <> [] -> In c a.
Proof.
  intros E Hv. destruct (exists_last Hv) as (v0 & z & ->). 
  replace (u ++ c :: v0 ++ [z]) with ((u ++ c :: v0) ++ [z]) in E by (rewrite <- app_assoc; reflexivity).
  apply app_inj_tail in E. destruct E as (-> & _). apply in_or_app. right. left. reflexivity.
Qed.
Lemma inner_not_qualified u c v : a_mark c -> v <> [] -> ~ qualified_date (u ++ c :: v).
Proof.
  intros Hc Hv (a & w & Ha & Hw & E). apply mark_a in Hw. destruct Hw as (q & -> & _). symmetry in E.
  pose proof (tail_inner _ _ _ _ _ E Hv) as H. destruct (date_bytes _ _ Ha H) as [Q|Q]; [exact (mark_digit _ Hc Q)|subst; exact (mark_dash Hc)].
Qed.
Lemma last_not_qualified u c : is_digit c = true -> ~ qualified_date (u ++ [c]).
Proof.
  intros Hc (a & w & Ha & Hw & E). apply mark_a in Hw. destruct Hw as (q & -> & Hq). apply app_inj_tail in E. destruct E as (_ & ->). exact (mark_digit _ Hq Hc).
Qed.
Lemma group_nocomma s : group_qualified s -> ~ In ","%char s.
Proof. intros H Hi. apply Group_spec in H. revert H. apply not_true_iff_false. no_byte ","%char. exact Hi. Qed.
Lemma individual_nocomma s : individually_qualified s -> ~ In ","%char s.
Proof. intros H Hi. apply Individual_spec in H. revert H. apply not_true_iff_false. no_byte ","%char. exact Hi. Qed.
Lemma inner_split x : q_ok x -> inner_mark x -> exists u c v, group_text x = u ++ c :: v /\ a_mark c /\ v <> [].
Proof.
  intros (_ & _ & Hq) Hi. destruct x as [y p|y p m q|y p m q d r]; cbn [q_marks inner_mark] in *; destruct Hq as (Hp & Hq & _); [destruct Hi| |].
  - destruct p as [c|]; [|congruence]. exists (four y), c, ($"-" ++ two m ++ mark_text q). repeat split; [exact Hp|discriminate].
  - destruct p as [c|].
    + exists (four y), c, ($"-" ++ two m ++ mark_text q ++ $"-" ++ two d ++ mark_text r). repeat split; [exact Hp|discriminate].
    + destruct q as [c|]; [|destruct Hi; congruence].
      exists (four y ++ $"-" ++ two m), c, ($"-" ++ two d ++ mark_text r). repeat split; [exact Hq|discriminate].
Qed.
Theorem group_string x : q_ok x -> inner_mark x -> exists e, ParseString (group_text x) = OK e /\ e_level e = 2 /\ e_feature e = $"Qualification (Group)" /\
  q_result e x (group_bits marks_uncertain x) (group_bits marks_approximate x).
Proof.
  intros Hx Hi. pose proof (group_form x Hx) as F. destruct (inner_split x Hx Hi) as (u & c & v & E & Hc & Hv).
  destruct (group_direct x Hx) as (e & H & R). exists e. split; [|exact R]. rewrite <- H.
  rewrite (to_level2 _ c Hc).
  - unfold IsGroupQualification. rewrite (proj2 (Group_spec _) F). reflexivity.
  - rewrite E. apply in_or_app. right. left. reflexivity.
  - apply group_nocomma. exact F.
  - rewrite E. apply inner_not_qualified; assumption.
  - unfold level2_exact. tauto.
Qed.
Lemma group_shape s : group_qualified s -> exists a b c d v, s = a :: b :: c :: d :: v /\ is_digit a = true /\
  (may mark v \/ exists vq e f w, may mark vq /\ v = vq ++ "-"%char :: e :: f :: w /\ is_digit e = true /\ is_digit f = true /\
     (may mark w \/ exists wq g z, may mark wq /\ w = wq ++ "-"%char :: g :: z /\ is_digit g = true)).
Proof.
  intros [y Hy|y m Hy Hm|y m d Hy Hm Hd]; destruct Hy as (y4 & vq & Hy & Hq & ->); destruct (run4 _ Hy) as (a & b & c & e & -> & Da & _); exists a, b, c, e.
  - exists vq. auto.
  - destruct Hm as (m2 & wq & Hm & Hw & ->). destruct (run2 _ Hm) as (f & g & -> & Df & Dg).
    exists (vq ++ "-"%char :: f :: g :: wq). split; [reflexivity|]. split; [exact Da|]. right. exists vq, f, g, wq. auto 10.
  - destruct Hm as (m2 & wq & Hm & Hw & ->). destruct (run2 _ Hm) as (f & g & -> & Df & Dg).
    destruct Hd as (d2 & zq & Hd & Hz & ->). destruct (run2 _ Hd) as (h & i & -> & Dh & Di).
    exists (vq ++ "-"%char :: f :: g :: wq ++ "-"%char :: h :: i :: zq).
    split; [rewrite <- !app_assoc; cbn [app]; rewrite <- ?app_assoc; reflexivity|]. split; [exact Da|]. right.
    exists vq, f, g, (wq ++ "-"%char :: h :: i :: zq). split; [exact Hq|]. split; [reflexivity|]. split; [exact Df|]. split; [exact Dg|].
    right. exists wq, h, (i :: zq). auto.
Qed.
Lemma before_not_group x : q_ok x -> q_marks x <> (None, None, None) -> ~ group_qualified (individual_text x).
Proof.
  intros Hx Hn H. destruct Hx as (_ & _ & Hq).
  assert (Bad : forall q, a_mark q -> forall r l, q :: r = l -> match l with c :: _ => is_digit c = true | [] => True end -> False).
  { intros q Hm r l <- Hd. exact (mark_digit _ Hm Hd). }
  apply group_shape in H. destruct H as (a & b & c & d & v & E & Da & H).
  assert (Y : forall q, a_mark q -> forall v0, v = "-"%char :: q :: v0 -> False).
  { intros q Hm v0 ->. destruct H as [H|(vq & e & f & w & Hv & Ev & De & _)].
    - apply may_a in H. destruct H as [H|(k & H & _)]; discriminate.
    - apply may_a in Hv. destruct Hv as [->|(k & -> & Hk)]; [injection Ev as -> _; exact (mark_digit _ Hm De)|injection Ev as <- _; exact (mark_dash Hk)]. }
  destruct x as [y p|y p m q|y p m q z r]; cbn [q_marks individual_text mark_ok] in *; destruct Hq as (Hp & Hq & Hr).
  - destruct p as [k|]; [|congruence]. injection E as -> _. exact (mark_digit _ Hp Da).
  - destruct p as [k|]; [injection E as -> _; exact (mark_digit _ Hp Da)|]. destruct q as [k|]; [|congruence].
    injection E as _ _ _ _ E. exact (Y k Hq _ (eq_sym E)).
  - destruct p as [k|]; [injection E as -> _; exact (mark_digit _ Hp Da)|]. destruct q as [k|].
    + injection E as _ _ _ _ E. exact (Y k Hq _ (eq_sym E)).
    + destruct r as [k|]; [|congruence]. injection E as _ _ _ _ E. subst v.
      destruct H as [H|(vq & e & f & w & Hv & Ev & De & Df & H)].
      * apply may_a in H. destruct H as [H|(k' & H & _)]; discriminate.
      * apply may_a in Hv. destruct Hv as [->|(k' & -> & Hk')]; [|injection Ev as <- _; exact (mark_dash Hk')].
        injection Ev as _ _ Ew. subst w. destruct H as [H|(wq & g & z' & Hw & Ew & Dg)].
        -- apply may_a in H. destruct H as [H|(k' & H & _)]; discriminate.
        -- apply may_a in Hw. destruct Hw as [->|(k' & -> & Hk')]; [injection Ew as -> _; exact (mark_digit _ Hr Dg)|injection Ew as <- _; exact (mark_dash Hk')].
Qed.
Lemma some_mark x : q_ok x -> q_marks x <> (None, None, None) -> exists c, a_mark c /\ In c (individual_text x).
Proof.
  intros (_ & _ & Hq) Hn. destruct x as [y p|y p m q|y p m q d r]; cbn [q_marks individual_text] in *; destruct Hq as (Hp & Hq & Hr).
  - destruct p as [c|]; [|congruence]. exists c. split; [exact Hp|left; reflexivity].
  - destruct p as [c|]; [exists c; split; [exact Hp|left; reflexivity]|]. destruct q as [c|]; [|congruence]. exists c. split; [exact Hq|].
    do 5 right. left. reflexivity.
  - destruct p as [c|]; [exists c; split; [exact Hp|left; reflexivity]|]. destruct q as [c|]; [exists c; split; [exact Hq|]; do 5 right; left; reflexivity|].
    destruct r as [c|]; [|congruence]. exists c. split; [exact Hr|]. do 8 right. left. reflexivity.
Qed.
Lemma ends_digit x : q_ok x -> exists u c, individual_text x = u ++ [c] /\ is_digit c = true.
Proof.
  intros (Hy & X & _). destruct x as [y p|y p m q|y p m q d r]; cbn [q_year q_month q_day individual_text] in *.
  - exists (mark_text p ++ [digit_char (y / 1000); digit_char (y / 100 mod 10); digit_char (y / 10 mod 10)]), (digit_char (y mod 10)).
    split; [rewrite <- app_assoc; reflexivity|apply is_digit_char; lia].
  - pose proof (real_month _ _ _ X). exists (mark_text p ++ four y ++ $"-" ++ mark_text q ++ [digit_char (m / 10)]), (digit_char (m mod 10)).
    split; [rewrite <- !app_assoc; reflexivity|apply is_digit_char; lia].
  - pose proof (real_day _ _ _ X). exists (mark_text p ++ four y ++ $"-" ++ mark_text q ++ two m ++ $"-" ++ mark_text r ++ [digit_char (d / 10)]), (digit_char (d mod 10)).
    split; [rewrite <- !app_assoc; reflexivity|apply is_digit_char; lia].
Qed.
Theorem individual_string x : q_ok x -> q_marks x <> (None, None, None) -> exists e, ParseString (individual_text x) = OK e /\ e_level e = 2 /\ e_feature e = $"Qualification (Individual)" /\
  q_result e x (individual_bits marks_uncertain x) (individual_bits marks_approximate x).
Proof.
  intros Hx Hn. pose proof (individual_form x Hx) as F. destruct (some_mark x Hx Hn) as (c & Hc & Hi).
  destruct (individual_direct x Hx) as (e & H & R). exists e. split; [|exact R]. rewrite <- H.
  rewrite (to_level2 _ c Hc).
  - unfold IsGroupQualification, IsIndividualQualification. rewrite (proj2 (Individual_spec _) F).
    destruct (match_string GroupQualification (individual_text x)) eqn:G; [|reflexivity]. exfalso. apply (before_not_group x Hx Hn). apply Group_spec. exact G.
  - exact Hi.
  - apply individual_nocomma. exact F.
  - destruct (ends_digit x Hx) as (u & k & -> & Hk). apply last_not_qualified. exact Hk.
  - unfold level2_exact. tauto.
Qed.
