(** Lemmas for C90. *)
From Coq Require Import Ascii String ZArith NArith Bool Lia ZifyBool List.
From Verif Require Import GoStr GoTime SpecCal SpecText SpecZone SpecGrammar SpecForms SpecSpan SpecSet SpecWrap SpecReads SpecWhole SpecCase StrFacts TextFacts
  CalFacts Regex RegexRel RegexGen LangFacts Patterns Edtf Common Level0 Level1 Level2 Parser FormProofs LangForms LangForms2 GrammarFacts ReadsFacts RefProofs ReadsProofs ReadsYears
  InvFacts FormFacts SeasonFacts BytesProofs WithinProofs HideProofs Level1Proofs WholeProofs.
Import ListNotations.
Open Scope Z_scope.
Ltac Zify.zify_post_hook ::= Z.div_mod_to_equations.

(** ** Capitals *)
Definition low (c : ascii) : bool := (97 <=? code c) && (code c <=? 122).
Definition up (c : ascii) : ascii := if low c then chr (code c - 32) else c.
Lemma capital_up c u : capital c u <-> u = up c.
Proof.
  split.
  - intros [n c0 u0 A B|c0 N].
    + do 26 (destruct n as [|n]; [injection A as <-; injection B as <-; reflexivity|]). destruct n; discriminate A.
    + unfold up. destruct (low c0) eqn:L; [|reflexivity]. exfalso. apply N. destruct c0 as [[] [] [] [] [] [] [] []]; try discriminate L; apply existsb_in; reflexivity.
  - intros ->. destruct (low c) eqn:L.
    + destruct c as [[] [] [] [] [] [] [] []]; try discriminate L;
      match goal with |- capital ?c _ => let n := eval vm_compute in (N.to_nat (N_of_ascii c) - 97)%nat in exact (cp_letter n c _ eq_refl eq_refl) end.
    + unfold up. rewrite L. apply cp_other. intro I. apply existsb_in in I. destruct c as [[] [] [] [] [] [] [] []]; try discriminate L; discriminate I.
Qed.
Lemma capitals_up s u : in_capitals s u <-> u = map up s.
Proof.
  split.
  - intro H. induction H as [|c d s u C _ IH]; [reflexivity|]. apply capital_up in C. subst d u. reflexivity.
  - intros ->. induction s as [|c s IH]; [constructor|]. constructor; [apply capital_up; reflexivity|exact IH].
Qed.
Definition high_b (c : ascii) : bool := negb (low c).
Lemma up_high s : Forall (fun c => high_b c = true) s -> map up s = s.
Proof. intro H. induction H as [|c s C _ IH]; [reflexivity|]. cbn [map]. rewrite IH. unfold up. unfold high_b in C. destruct (low c); [discriminate C|reflexivity]. Qed.
Lemma digit_high c : is_digit c = true -> high_b c = true.
Proof. unfold is_digit, high_b, low. lia. Qed.
Lemma digits_high s : Forall (fun c => is_digit c = true) s -> Forall (fun c => high_b c = true) s.
Proof. apply Forall_impl. exact digit_high. Qed.

(** ** Which strings have small letters *)
Ltac highs Q L := right; apply L in Q; revert Q; apply only_all; vm_compute; reflexivity.
Lemma takes_high s lv f : takes s lv f -> In f small_features \/ Forall (fun c => high_b c = true) s.
Proof.
  intros [g F|g _ L F|g _ _ F].
  - right. assert (E : IsLevel0 s = true).
    { apply first_form in F. destruct F as (P & I & H). apply level0_test. cbn [In level0_features] in I. unfold level0_form.
      decompose [or] I; try contradiction; match goal with E : (_, _) = (_, _) |- _ => injection E as _ <- end; auto. }
    revert E. apply only_all. vm_compute. reflexivity.
  - apply first_form in F. destruct F as (P & I & H). cbn [In level1_features] in I.
    decompose [or] I; try contradiction; match goal with E : (_, _) = (_, _) |- _ => injection E as <- <- end.
    + highs H LetterYear_spec.
    + left. left. reflexivity.
    + highs H QualifiedDate_spec.
    + highs H UnspecifiedDigits_spec.
    + highs H NegativeYear_spec.
    + highs H IntervalStart_spec.
    + highs H IntervalEnd_spec.
  - apply first_form in F. destruct F as (P & I & H). cbn [In level2_features] in I.
    decompose [or] I; try contradiction; match goal with E : (_, _) = (_, _) |- _ => injection E as <- <- end.
    + left. right. left. reflexivity.
    + left. right. right. left. reflexivity.
    + highs H Grouping_spec.
    + highs H set_test.
    + highs H Group_spec.
    + highs H Individual_spec.
    + highs H Unspecified_spec.
    + highs H Interval_spec.
Qed.

(** ** Pieces of texts *)
Lemma same_up c u : same_letter c u -> low c = true -> same_letter c (map up u).
Proof.
  intros [->|[(d & -> & D)|(-> & ->)]] L; cbn [map].
  - right. left. eexists. split; [reflexivity|]. unfold up. rewrite L. destruct c as [[] [] [] [] [] [] [] []]; try discriminate L; reflexivity.
  - right. left. exists d. split; [|exact D]. unfold up. replace (low d) with false; [reflexivity|]. unfold low in *. lia.
  - right. right. split; reflexivity.
Qed.
Lemma case_up w v : any_case w v -> Forall (fun c => low c = true) w -> any_case w (map up v).
Proof.
  intro H. induction H as [|c w u v S _ IH]; intro F; [constructor|]. inversion F as [|? ? Fc Fw]; subst. rewrite map_app. constructor; [exact (same_up _ _ S Fc)|exact (IH Fw)].
Qed.
Lemma words_low n w b e j : season_of n w b e j -> Forall (fun c => low c = true) w.
Proof. intro H. apply Forall_forall. intros c I. destruct H; revert c I; apply forallb_forall; reflexivity. Qed.
Lemma spaces_high g : spaces g -> Forall (fun c => high_b c = true) g.
Proof. apply Forall_impl. intros c [->|[->|[->|[->| ->]]]]; reflexivity. Qed.
Lemma four_high y : 0 <= y <= 9999 -> Forall (fun c => high_b c = true) (four y).
Proof. intro H. apply digits_high. unfold four. repeat constructor; apply is_digit_char; lia. Qed.
Lemma two_high n : 0 <= n <= 99 -> Forall (fun c => high_b c = true) (two n).
Proof. intro H. apply digits_high. unfold two. repeat constructor; apply is_digit_char; lia. Qed.
Lemma year4_high t y : year4 t y -> Forall (fun c => high_b c = true) t.
Proof. intros [k K|k K]; [exact (four_high k K)|constructor; [reflexivity|exact (four_high k K)]]. Qed.
Lemma dec_high ds m : dec_digits ds m -> Forall (fun c => high_b c = true) ds.
Proof. intro H. apply digits_high. induction H as [n N|ds v n _ IH N]; [|apply Forall_app; split; [exact IH|]]; repeat constructor; apply is_digit_char; exact N. Qed.
Lemma sign_high neg : map up (sign neg) = sign neg.
Proof. destruct neg; reflexivity. Qed.
Lemma exp_up t m e : exp_text t m e -> exp_text (map up t) m e.
Proof.
  intros [neg ds c es m0 e0 Hd Hc He]. rewrite map_app, map_app. cbn [map]. rewrite sign_high, (up_high ds), (up_high es) by (eapply dec_high; eassumption).
  constructor; [exact Hd| |exact He]. destruct Hc as [->| ->]; left; reflexivity.
Qed.
Lemma before_up u y : before_year u y -> before_year (map up u) y.
Proof.
  intros [t y0 Y|neg ds m D L|c t m e y0 C T W Y0 Y].
  - rewrite (up_high t (year4_high _ _ Y)). exact (by_year _ _ Y).
  - cbn [map]. rewrite map_app, sign_high, (up_high ds (dec_high _ _ D)). exact (by_letter neg ds m D L).
  - cbn [map]. apply (by_exp _ _ m e); [destruct C as [->| ->]; left; reflexivity|exact (exp_up _ _ _ T)|assumption..].
Qed.

(** ** Seasons *)
Lemma word_head w v x r : season_name w -> w ++ v = x :: r -> is_digit x = false /\ x <> "-"%char.
Proof.
  assert (K : forall c l, any_case (c :: l) w -> low c = true -> w ++ v = x :: r -> is_digit x = false /\ x <> "-"%char).
  { intros c l H L E. inversion H as [|? ? u z S _]; subst. destruct S as [->|[(d & -> & D)|(_ & ->)]]; cbn in E; injection E as <- _.
    - split; [unfold is_digit, low in *; lia|intros ->; discriminate L].
    - split; [unfold is_digit, low in *; lia|]. intros ->. change (code "-") with 45 in D. unfold low in L. lia.
    - split; [reflexivity|discriminate]. }
  intros [H|[H|[H|H]]] E; exact (K _ _ H eq_refl E).
Qed.
Lemma season_level1 s lv : takes s lv ($"Seasons") -> lv = 1 /\ level1_text s /\ IsLevel0 s = false.
Proof.
  intro T. inversion T as [f F|f N L F|f _ _ F]; subst; [|split; [reflexivity|split; [exact L|]]|];
    [apply first_form in F; destruct F as (P & J & _); cbn [In level0_features level2_features] in J;
      decompose [or] J; try contradiction; match goal with E : (_, _) = (_, _) |- _ => discriminate E end| |
     apply first_form in F; destruct F as (P & J & _); cbn [In level0_features level2_features] in J;
      decompose [or] J; try contradiction; match goal with E : (_, _) = (_, _) |- _ => discriminate E end].
  exact (untest _ _ (level0_test s) N).
Qed.
Ltac highs' Q L := left; apply L in Q; revert Q; apply only_all; vm_compute; reflexivity.
Lemma high_or_x t y n r : year4 t y -> 0 <= n <= 99 -> level1_text (t ++ $"-" ++ two n ++ r) ->
  Forall (fun c => high_b c = true) (t ++ $"-" ++ two n ++ r) \/
  unspecified_digits (map upx (t ++ $"-" ++ two n ++ r)) /\ exists p q, r = $"-" ++ [p; q] /\ dx_any p /\ dx_any q.
Proof.
  intros Y N.
  assert (Hd : Forall (fun c => high_b c = true) (t ++ $"-" ++ two n)) by (apply Forall_app; split; [exact (year4_high _ _ Y)|]; constructor; [reflexivity|exact (two_high n N)]).
  intros [[Q|[Q|[Q|[Q|[Q|[Q|[Q|Q]]]]]]]|Q].
  - highs' Q LetterYear_spec.
  - left. destruct Q as (a & b & (z & Z) & (d & m & Dd & (k & K & ->) & ->) & ->). unfold is in Dd. subst d. apply Forall_app. split; [exact (year4_high _ _ Z)|].
    constructor; [reflexivity|apply two_high; lia].
  - exfalso. destruct Q as (w & v & W & _ & E). destruct Y as [k K|k K]; symmetry in E.
    + unfold four in E. destruct (word_head w v _ _ W E) as (D & _). rewrite is_digit_char in D by lia. discriminate D.
    + destruct (word_head w v _ _ W E) as (_ & D). congruence.
  - highs' Q QualifiedDate_spec.
  - highs' Q UnspecifiedDigits_spec.
  - highs' Q IntervalStart_spec.
  - highs' Q IntervalEnd_spec.
  - highs' Q NegativeYear_spec.
  - destruct (upx_day t y n r Y N Q) as [->|X]; [left; rewrite app_nil_r; exact Hd|right; split; [exact Q|exact X]].
Qed.
Lemma dx_up p : dx_any p -> dx_any (up p) /\ upx (up p) = upx p /\ (high_b p = true \/ up p = "X"%char) /\ up p <> "Y"%char.
Proof.
  unfold dx_any. intros [D|D].
  - unfold upx in D. destruct (Ascii.eqb p "x") eqn:E; [discriminate D|]. assert (U : up p = p) by (unfold up; pose proof (digit_high p D) as H; unfold high_b in H; destruct (low p); [discriminate H|reflexivity]).
    rewrite U. split; [left; unfold upx; rewrite E; exact D|]. split; [reflexivity|]. split; [left; exact (digit_high p D)|intros ->; discriminate D].
  - unfold upx in D. destruct (Ascii.eqb p "x") eqn:E; [apply Ascii.eqb_eq in E; subst p|subst p]; (split; [right; reflexivity|]); (split; [reflexivity|]); (split; [right; reflexivity|discriminate]).
Qed.
Lemma season_up t y n r b e j sp lv : takes (t ++ $"-" ++ two n ++ r) lv ($"Seasons") -> year4 t y -> season_months n b e j -> rendered y -> rendered (y + j) ->
  whole_span (day_text y b 1 ++ $"/" ++ day_text (y + j) e (month_len (y + j) e)) sp ->
  Forall (fun c => high_b c = true) (t ++ $"-" ++ two n ++ r) \/
  ParseString (map up (t ++ $"-" ++ two n ++ r)) = OK (mkEDTF (s_start sp) (s_end sp) (map up (t ++ $"-" ++ two n ++ r)) lv ($"Seasons")).
Proof.
  intros T Y M Ry Rj W. destruct (season_level1 _ _ T) as (-> & L & _). assert (N : 0 <= n <= 99) by (destruct (months_range _ _ _ _ M); lia).
  destruct (high_or_x t y n r Y N L) as [H|(D & p & q & -> & P & Q)]; [left; exact H|].
  destruct (dx_up p P) as (P1 & P2 & P3 & P4). destruct (dx_up q Q) as (Q1 & Q2 & Q3 & Q4).
  assert (Hd : Forall (fun c => high_b c = true) (t ++ $"-" ++ two n ++ $"-")).
  { apply Forall_app; split; [exact (year4_high _ _ Y)|]; constructor; [reflexivity|]. apply Forall_app; split; [exact (two_high n N)|constructor; [reflexivity|constructor]]. }
  assert (E : map up (t ++ $"-" ++ two n ++ $"-" ++ [p; q]) = t ++ $"-" ++ two n ++ $"-" ++ [up p; up q]).
  { replace (t ++ $"-" ++ two n ++ $"-" ++ [p; q]) with ((t ++ $"-" ++ two n ++ $"-") ++ [p; q]) by (rewrite <- !app_assoc; reflexivity).
    rewrite map_app, (up_high _ Hd), <- !app_assoc. reflexivity. }
  assert (X : Forall (fun c => high_b c = true) (t ++ $"-" ++ two n ++ $"-" ++ [p; q]) \/ In "X"%char [up p; up q]).
  { destruct P3 as [P3|P3]; [|right; left; exact P3]. destruct Q3 as [Q3|Q3]; [|right; right; left; exact Q3]. left.
    replace (t ++ $"-" ++ two n ++ $"-" ++ [p; q]) with ((t ++ $"-" ++ two n ++ $"-") ++ [p; q]) by (rewrite <- !app_assoc; reflexivity).
    apply Forall_app. split; [exact Hd|]. repeat constructor; assumption. }
  destruct X as [X|X]; [left; exact X|right]. rewrite E.
  assert (I : In "X"%char (t ++ $"-" ++ two n ++ $"-" ++ [up p; up q])) by (do 4 (apply in_or_app; right); exact X).
  assert (U : map upx (t ++ $"-" ++ two n ++ $"-" ++ [up p; up q]) = map upx (t ++ $"-" ++ two n ++ $"-" ++ [p; q])) by (rewrite !map_app; cbn [map]; rewrite P2, Q2; reflexivity).
  rewrite to_season.
  - rewrite (code_via t y n _ b e j Y M Ry Rj). exact (via_ok _ _ _ _ _ W).
  - exact (not_level0 _ "X"%char eq_refl I).
  - apply level1_test. right. rewrite U. exact D.
  - apply (code_no_Y t y); [exact Y|]. intros c Ic. apply in_app_or in Ic. destruct Ic as [[<-|[]]|Ic]; [discriminate|].
    apply in_app_or in Ic. destruct Ic as [Ic|Ic]; [intros ->; apply in_two in Ic; [discriminate|exact N]|].
    apply in_app_or in Ic. destruct Ic as [[<-|[]]|[<-|[<-|[]]]]; [discriminate|exact P4|exact Q4].
  - apply season_head_match. exists t, y, n, ($"-" ++ [up p; up q]). split; [exact Y|]. split; [|reflexivity]. destruct (months_range _ _ _ _ M); [left|right]; lia.
Qed.
Lemma words_up n w v gap gap' y b e j sp : season_of n w b e j -> any_case w v -> spaces gap -> spaces gap' -> 0 <= y -> y + j <= 9999 ->
  whole_span (day_text y b 1 ++ $"/" ++ day_text (y + j) e (month_len (y + j) e)) sp ->
  ParseString (v ++ gap ++ $"," ++ gap' ++ four y) = OK (mkEDTF (s_start sp) (s_end sp) (v ++ gap ++ $"," ++ gap' ++ four y) 1 ($"Seasons")).
Proof.
  intros Hn Hv Hs Hs' Hy Hj W. rewrite <- (via_ok _ _ 1 ($"Seasons") _ W). etransitivity; [|exact (words_via n w v gap gap' y b e j Hn Hv Hs Hs' Hy Hj)].
  change (v ++ gap ++ $"," ++ gap' ++ four y) with (words_text v gap gap' y).
  assert (Hw : season_name v) by (unfold season_name; destruct Hn; auto).
  assert (J : 0 <= j) by (destruct Hn; lia).
  assert (Hx : season_words (words_text v gap gap' y)) by (apply words_intro; [assumption..|lia]).
  pose proof (words_comma _ Hx) as C.
  assert (Y : match_string LetterPrefixedCalendarYear (words_text v gap gap' y) = false) by (no_byte ","%char; exact C).
  unfold ParseString, IsLevel1. rewrite (not_level0 _ ","%char eq_refl C). rewrite (proj2 (Level1_spec _)) by auto.
  unfold L1_ParseString, IsLetterPrefixedCalendarYear, IsSeason. rewrite Y. rewrite (proj2 (Season_spec _)); [reflexivity|].
  right. exists [], (words_text v gap gap' y). repeat split. exact Hx.
Qed.

(** ** All strings *)
Lemma level_of s lv f e : takes s lv f -> ParseString s = OK e -> e_level e = lv.
Proof.
  intros T H. apply (whole_meaning s lv f T) in H. destruct H as (sp & _ & ->). reflexivity.
Qed.
Lemma capitals_parse s e : ParseString s = OK e -> ParseString (map up s) = OK (mkEDTF (e_start e) (e_end e) (map up s) (e_level e) (e_feature e)).
Proof.
  intro H.
  assert (K : map up s = s -> ParseString (map up s) = OK (mkEDTF (e_start e) (e_end e) (map up s) (e_level e) (e_feature e))).
  { intros ->. rewrite H. destruct (whole_strings _ _ H) as [(-> & ->)|[(-> & ->)|(lv & f & sp & _ & _ & ->)]]; reflexivity. }
  destruct (whole_strings s e H) as [(-> & _)|[(-> & _)|(lv & f & sp & T & W & ->)]]; [apply K; reflexivity..|].
  destruct (takes_high s lv f T) as [S|Hs]; [|exact (K (up_high s Hs))]. cbn [e_start e_end e_level e_feature] in *.
  destruct W as [f s sp F W|s t b A B|t y sp Y W|t y n r b e j sp Y M Ry Rj W|n w v gap gap' y b e j sp Hn Hv G G' Y0 Y1 W|a t m e y sp A X Wr Y W|u y nd v l h sp B D G W|y n b e sp G Y W|y n b e sp G Y W|o i l ds so eo c a b sp _ _ _ _ _ _].
  - exfalso. cbn [In span_features small_features] in F, S. decompose [or] F; try contradiction; subst f; decompose [or] S; try contradiction; discriminate.
  - exfalso. cbn [In small_features] in S. decompose [or] S; try contradiction; discriminate.
  - exfalso. cbn [In small_features] in S. decompose [or] S; try contradiction; discriminate.
  - destruct (season_up t y n r b e j sp lv T Y M Ry Rj W) as [Hh|Hh]; [exact (K (up_high _ Hh))|exact Hh].
  - destruct (season_level1 _ _ T) as (-> & _).
    assert (J : 0 <= j) by (destruct Hn; lia).
    replace (map up (v ++ gap ++ $"," ++ gap' ++ four y)) with (map up v ++ gap ++ $"," ++ gap' ++ four y)
      by (rewrite !map_app, (up_high gap (spaces_high _ G)), (up_high gap' (spaces_high _ G')), (up_high (four y)) by (apply four_high; lia); reflexivity).
    exact (words_up n w _ gap gap' y b e j sp Hn (case_up _ _ Hv (words_low _ _ _ _ _ Hn)) G G' Y0 Y1 W).
  - cbn [map]. assert (A1 : up a = "Y"%char \/ up a = "y"%char) by (destruct A as [->| ->]; left; reflexivity). rewrite (exp_via (up a) (map up t) m e y A1 (exp_up _ _ _ X) Wr Y).
    rewrite (exp_via a t m e y A X Wr Y), (via_ok _ _ _ _ _ W) in H. injection H as <-. exact (via_ok _ _ _ _ _ W).
  - rewrite map_app. change (map up ($"S" ++ nd)) with ("S"%char :: map up nd). rewrite (up_high nd (dec_high _ _ D)).
    change ($"S" ++ nd) with ("S"%char :: nd) in H. rewrite (before_year_parse u y nd v B D), (sig_via _ y nd v l h D G), (via_ok _ _ _ _ _ W) in H. injection H as <-.
    rewrite (before_year_parse (map up u) y nd v (before_up _ _ B) D), (sig_via _ y nd v l h D G). exact (via_ok _ _ _ _ _ W).
  - exfalso. cbn [In small_features] in S. decompose [or] S; try contradiction; discriminate.
  - exfalso. cbn [In small_features] in S. decompose [or] S; try contradiction; discriminate.
  - exfalso. cbn [In small_features] in S. decompose [or] S; try contradiction; discriminate.
Qed.
Theorem in_capitals_parse s u e : in_capitals s u -> ParseString s = OK e -> exists e', ParseString u = OK e' /\ retold e u e'.
Proof. intros C H. apply capitals_up in C. subst u. eexists. split; [exact (capitals_parse s e H)|]. repeat split. Qed.
Theorem case_parse s s' e e' : same_but_case s s' -> ParseString s = OK e -> ParseString s' = OK e' -> retold e s' e'.
Proof.
  intros (u & C & C') H H'. apply capitals_up in C. apply capitals_up in C'. pose proof (capitals_parse s e H) as U. pose proof (capitals_parse s' e' H') as U'.
  rewrite <- C in U. rewrite <- C' in U'. rewrite U in U'. injection U' as E1 E2 E3 E4.
  repeat split; [congruence..|]. destruct (whole_strings _ _ H') as [(-> & ->)|[(-> & ->)|(lv & f & sp & _ & _ & ->)]]; reflexivity.
Qed.
Theorem small_parse s e c : ParseString s = OK e -> In c s -> In c small_letters -> In (e_feature e) small_features.
Proof.
  intros H I L. destruct (whole_strings s e H) as [(-> & _)|[(-> & _)|(lv & f & sp & T & W & ->)]]; [|destruct I|].
  - exfalso. destruct I as [<-|[<-|[]]]; apply existsb_in in L; discriminate L.
  - destruct (takes_high s lv f T) as [S|Hs]; [exact S|]. exfalso. rewrite Forall_forall in Hs. specialize (Hs c I). unfold high_b in Hs.
    apply existsb_in in L. destruct c as [[] [] [] [] [] [] [] []]; try discriminate L; discriminate Hs.
Qed.

(** ** Back to small letters *)
Definition plain_b (c : ascii) : bool := negb (low c) && negb ((65 <=? code c) && (code c <=? 90)).
Lemma up_plain c d : up c = d -> plain_b d = true -> c = d.
Proof.
  intros <- P. unfold up in *. destruct (low c) eqn:L; [|reflexivity]. exfalso. unfold plain_b, low in *. destruct c as [[] [] [] [] [] [] [] []]; try discriminate L; discriminate P.
Qed.
Lemma map_up_plain s u : map up s = u -> Forall (fun c => plain_b c = true) u -> s = u.
Proof.
  revert u. induction s as [|c s IH]; intros u E F; cbn [map] in E; subst u; [reflexivity|]. inversion F as [|? ? P Q]; subst. f_equal; [exact (up_plain _ _ eq_refl P)|exact (IH _ eq_refl Q)].
Qed.
Lemma digit_plain c : is_digit c = true -> plain_b c = true.
Proof. unfold is_digit, plain_b, low. lia. Qed.
Lemma digits_plain s : Forall (fun c => is_digit c = true) s -> Forall (fun c => plain_b c = true) s.
Proof. apply Forall_impl. exact digit_plain. Qed.
Lemma four_plain y : 0 <= y <= 9999 -> Forall (fun c => plain_b c = true) (four y).
Proof. intro H. apply digits_plain. unfold four. repeat constructor; apply is_digit_char; lia. Qed.
Lemma two_plain n : 0 <= n <= 99 -> Forall (fun c => plain_b c = true) (two n).
Proof. intro H. apply digits_plain. unfold two. repeat constructor; apply is_digit_char; lia. Qed.
Lemma year4_plain t y : year4 t y -> Forall (fun c => plain_b c = true) t.
Proof. intros [k K|k K]; [exact (four_plain k K)|constructor; [reflexivity|exact (four_plain k K)]]. Qed.
Lemma dec_plain ds m : dec_digits ds m -> Forall (fun c => plain_b c = true) ds.
Proof. intro H. apply digits_plain. induction H as [n N|ds v n _ IH N]; [|apply Forall_app; split; [exact IH|]]; repeat constructor; apply is_digit_char; exact N. Qed.
Lemma sign_plain neg : Forall (fun c => plain_b c = true) (sign neg).
Proof. destruct neg; repeat constructor. Qed.
Lemma spaces_plain g : spaces g -> Forall (fun c => plain_b c = true) g.
Proof. apply Forall_impl. intros c [->|[->|[->|[->| ->]]]]; reflexivity. Qed.
Lemma up_app s u v : map up s = u ++ v -> exists a b, s = a ++ b /\ map up a = u /\ map up b = v.
Proof. apply map_eq_app. Qed.
Lemma up_plain_app s u v : map up s = u ++ v -> Forall (fun c => plain_b c = true) u -> exists b, s = u ++ b /\ map up b = v.
Proof. intros E F. apply up_app in E. destruct E as (a & b & -> & A & B). rewrite (map_up_plain a u A F). eauto. Qed.
Lemma up_cons s c v : map up s = c :: v -> exists d b, s = d :: b /\ up d = c /\ map up b = v.
Proof. destruct s as [|d b]; [discriminate|]. cbn [map]. intro E. injection E as E F. eauto. Qed.
Lemma up_letter d c : up d = c -> 65 <= code c <= 90 -> d = c \/ d = chr (code c + 32).
Proof. intros <- H. destruct d as [[] [] [] [] [] [] [] []]; vm_compute in H; first [left; reflexivity|right; reflexivity|exfalso; lia]. Qed.
Lemma same_down c u : same_letter c (map up u) -> low c = true -> same_letter c u.
Proof.
  intros [E|[(d & E & D)|(-> & E)]] L.
  - exfalso. apply up_cons in E. destruct E as (x & y & -> & E & _). subst c. unfold up, low in L. destruct ((97 <=? code x) && (code x <=? 122)) eqn:G; [|lia].
    destruct x as [[] [] [] [] [] [] [] []]; try discriminate G; discriminate L.
  - apply up_cons in E. destruct E as (x & y & -> & E & F). destruct y; [|discriminate F]. destruct (up_letter x d E) as [->| ->]; [unfold low in L; lia|right; left; exists d; auto|].
    left. f_equal. rewrite D. replace (code c - 32 + 32) with (code c) by lia. destruct c as [[] [] [] [] [] [] [] []]; reflexivity.
  - apply map_up_plain in E; [|repeat constructor]. subst u. right. right. auto.
Qed.
Lemma case_down w v v' : any_case w v' -> map up v = v' -> Forall (fun c => low c = true) w -> any_case w v.
Proof.
  intro H. revert v. induction H as [|c w u v0 S _ IH]; intros v E F; [destruct v; [constructor|discriminate E]|].
  inversion F as [|? ? Fc Fw]; subst. apply up_app in E. destruct E as (a & b & -> & A & B). constructor; [subst u; exact (same_down _ _ S Fc)|exact (IH _ B Fw)].
Qed.
Lemma exp_down s t m e : map up s = t -> exp_text t m e -> exp_text s m e.
Proof.
  intros E X. revert E. destruct X as [neg ds c es m0 e0 Hd Hc He]. intro E. apply up_plain_app in E; [|apply sign_plain]. destruct E as (s1 & -> & E).
  apply up_plain_app in E; [|exact (dec_plain _ _ Hd)]. destruct E as (s2 & -> & E). apply up_cons in E. destruct E as (d & b & -> & E & F).
  apply map_up_plain in F; [|exact (dec_plain _ _ He)]. subst b. constructor; [exact Hd| |exact He]. destruct Hc as [->| ->].
  - destruct (up_letter d "E" E) as [->| ->]; [change (code "E") with 69; lia|left; reflexivity|right; reflexivity].
  - exfalso. unfold up in E. destruct (low d) eqn:L; [|subst d; discriminate L]. destruct d as [[] [] [] [] [] [] [] []]; try discriminate L; discriminate E.
Qed.
Ltac plains Q L := left; apply L in Q; revert Q; apply only_all; vm_compute; reflexivity.
Lemma plain_or_x t y n r : year4 t y -> 0 <= n <= 99 -> level1_text (t ++ $"-" ++ two n ++ r) ->
  Forall (fun c => plain_b c = true) (t ++ $"-" ++ two n ++ r) \/
  unspecified_digits (map upx (t ++ $"-" ++ two n ++ r)) /\ exists p q, r = $"-" ++ [p; q] /\ dx_any p /\ dx_any q.
Proof.
  intros Y N.
  assert (Hd : Forall (fun c => plain_b c = true) (t ++ $"-" ++ two n)) by (apply Forall_app; split; [exact (year4_plain _ _ Y)|]; constructor; [reflexivity|exact (two_plain n N)]).
  assert (U : unspecified_digits (map upx (t ++ $"-" ++ two n ++ r)) -> Forall (fun c => plain_b c = true) (t ++ $"-" ++ two n ++ r) \/
    unspecified_digits (map upx (t ++ $"-" ++ two n ++ r)) /\ exists p q, r = $"-" ++ [p; q] /\ dx_any p /\ dx_any q).
  { intro Q. destruct (upx_day t y n r Y N Q) as [->|X]; [left; rewrite app_nil_r; exact Hd|right; split; [exact Q|exact X]]. }
  intros [[Q|[Q|[Q|[Q|[Q|[Q|[Q|Q]]]]]]]|Q].
  - exfalso. destruct Q as (u & v & Hu & _ & E). unfold is in Hu. subst u. destruct Y as [k K|k K]; [|discriminate E]. unfold four in E. injection E as E _.
    assert (D : is_digit "Y" = true) by (rewrite <- E; apply is_digit_char; lia). discriminate D.
  - left. destruct Q as (a & b & (z & Z) & (d & m & Dd & (k & K & ->) & ->) & ->). unfold is in Dd. subst d. apply Forall_app. split; [exact (year4_plain _ _ Z)|].
    constructor; [reflexivity|apply two_plain; lia].
  - exfalso. destruct Q as (w & v & W & _ & E). destruct Y as [k K|k K]; symmetry in E.
    + unfold four in E. destruct (word_head w v _ _ W E) as (D & _). rewrite is_digit_char in D by lia. discriminate D.
    + destruct (word_head w v _ _ W E) as (_ & D). congruence.
  - plains Q QualifiedDate_spec.
  - exact (U (not_x_upx _ Q)).
  - plains Q IntervalStart_spec.
  - plains Q IntervalEnd_spec.
  - plains Q NegativeYear_spec.
  - exact (U Q).
Qed.
Lemma dx_down p p' : up p = p' -> dx_any p' -> dx_any p /\ upx p = upx p' /\ (plain_b p' = true \/ p' = "X"%char \/ p' = "x"%char) /\ p <> "Y"%char.
Proof.
  unfold dx_any. intros E [D|D].
  - unfold upx in D. destruct (Ascii.eqb p' "x") eqn:X; [discriminate D|]. pose proof (up_plain p p' E (digit_plain _ D)) as <-.
    split; [left; unfold upx; rewrite X; exact D|]. split; [reflexivity|]. split; [left; exact (digit_plain _ D)|intros ->; discriminate D].
  - assert (K : p' = "X"%char \/ p' = "x"%char) by (unfold upx in D; destruct (Ascii.eqb p' "x") eqn:X; [apply Ascii.eqb_eq in X; auto|auto]).
    destruct K as [->| ->].
    + destruct (up_letter p "X" E) as [->| ->]; [change (code "X") with 88; lia| |]; (split; [right; reflexivity|]); (split; [reflexivity|]); (split; [auto|discriminate]).
    + exfalso. unfold up in E. destruct (low p) eqn:L; [|subst p; discriminate L]. destruct p as [[] [] [] [] [] [] [] []]; try discriminate L; discriminate E.
Qed.
Lemma season_down s t y n r b e j sp lv : map up s = t ++ $"-" ++ two n ++ r -> takes (t ++ $"-" ++ two n ++ r) lv ($"Seasons") -> year4 t y -> season_months n b e j ->
  rendered y -> rendered (y + j) -> whole_span (day_text y b 1 ++ $"/" ++ day_text (y + j) e (month_len (y + j) e)) sp ->
  s = t ++ $"-" ++ two n ++ r \/ ParseString s = OK (mkEDTF (s_start sp) (s_end sp) s lv ($"Seasons")).
Proof.
  intros E T Y M Ry Rj W. destruct (season_level1 _ _ T) as (-> & L & _). assert (N : 0 <= n <= 99) by (destruct (months_range _ _ _ _ M); lia).
  destruct (plain_or_x t y n r Y N L) as [H|(D & p' & q' & -> & P & Q)]; [left; exact (map_up_plain _ _ E H)|].
  apply up_plain_app in E; [|exact (year4_plain _ _ Y)]. destruct E as (s1 & -> & E). apply up_plain_app in E; [|repeat constructor]. destruct E as (s2 & -> & E).
  apply up_plain_app in E; [|exact (two_plain n N)]. destruct E as (s3 & -> & E). apply up_plain_app in E; [|repeat constructor]. destruct E as (s4 & -> & E).
  apply up_cons in E. destruct E as (p & s5 & -> & Ep & E). apply up_cons in E. destruct E as (q & s6 & -> & Eq & E). destruct s6; [|discriminate E].
  destruct (dx_down p p' Ep P) as (P1 & P2 & P3 & P4). destruct (dx_down q q' Eq Q) as (Q1 & Q2 & Q3 & Q4).
  assert (B : plain_b p' = true /\ plain_b q' = true \/ In "X"%char [p; q] \/ In "x"%char [p; q]).
  { assert (K : forall z z', up z = z' -> plain_b z' = true \/ z' = "X"%char \/ z' = "x"%char -> plain_b z' = true \/ z = "X"%char \/ z = "x"%char).
    { intros z z' Ez [A|[->| ->]]; [auto|right; apply (up_letter z "X" Ez); change (code "X") with 88; lia|].
      exfalso. unfold up in Ez. destruct (low z) eqn:Lz; [|subst z; discriminate Lz]. destruct z as [[] [] [] [] [] [] [] []]; try discriminate Lz; discriminate Ez. }
    destruct (K p p' Ep P3) as [A|[->| ->]]; [|cbn; auto..]. destruct (K q q' Eq Q3) as [C|[->| ->]]; cbn; auto. }
  destruct B as [(B & C)|B]; [left; rewrite (up_plain p p' Ep B), (up_plain q q' Eq C); reflexivity|right].
  assert (U : map upx (t ++ $"-" ++ two n ++ $"-" ++ [p; q]) = map upx (t ++ $"-" ++ two n ++ $"-" ++ [p'; q'])) by (rewrite !map_app; cbn [map]; rewrite P2, Q2; reflexivity).
  rewrite to_season.
  - rewrite (code_via t y n _ b e j Y M Ry Rj). exact (via_ok _ _ _ _ _ W).
  - destruct B as [B|B].
    + apply (not_level0 _ "X"%char eq_refl). do 4 (apply in_or_app; right). exact B.
    + apply (not_level0 _ "x"%char eq_refl). do 4 (apply in_or_app; right). exact B.
  - apply level1_test. right. rewrite U. exact D.
  - apply (code_no_Y t y); [exact Y|]. intros c Ic. apply in_app_or in Ic. destruct Ic as [[<-|[]]|Ic]; [discriminate|].
    apply in_app_or in Ic. destruct Ic as [Ic|Ic]; [intros ->; apply in_two in Ic; [discriminate|exact N]|].
    apply in_app_or in Ic. destruct Ic as [[<-|[]]|[<-|[<-|[]]]]; [discriminate|exact P4|exact Q4].
  - apply season_head_match. exists t, y, n, ($"-" ++ [p; q]). split; [exact Y|]. split; [|reflexivity]. destruct (months_range _ _ _ _ M); [left|right]; lia.
Qed.
Theorem free_parse s u e : in_capitals s u -> ParseString u = OK e -> e_feature e = $"Seasons" \/ e_feature e = $"Exponential year" ->
  exists e', ParseString s = OK e' /\ retold e s e'.
Proof.
  intros C H F. apply capitals_up in C. symmetry in C.
  assert (K : s = u -> exists e', ParseString s = OK e' /\ retold e s e').
  { intros ->. exists e. split; [exact H|]. repeat split. destruct (whole_strings _ _ H) as [(-> & ->)|[(-> & ->)|(lv & f & sp & _ & _ & ->)]]; reflexivity. }
  destruct (whole_strings u e H) as [(-> & ->)|[(-> & ->)|(lv & f & sp & T & W & ->)]]; [destruct F; discriminate..|].
  cbn [e_start e_end e_level e_feature] in *.
  assert (G : forall e', ParseString s = OK (mkEDTF (s_start sp) (s_end sp) s lv f) -> e' = mkEDTF (s_start sp) (s_end sp) u lv f -> exists e'', ParseString s = OK e'' /\ retold e' s e'')
    by (intros e' P ->; eexists; split; [exact P|repeat split]).
  destruct W as [f u sp I W|u t b A B|t y sp Y W|t y n r b e j sp Y M Ry Rj W|n w v gap gap' y b e j sp Hn Hv Hg Hg' Y0 Y1 W|a t m e y sp A X Wr Y W|x y nd v l h sp B D Hs W|y n b e sp Hg Y W|y n b e sp Hg Y W|o i l ds so eo c a b sp _ _ _ _ _ _].
  - exfalso. cbn [In span_features] in I. decompose [or] I; try contradiction; subst f; destruct F; discriminate.
  - destruct F; discriminate.
  - destruct F; discriminate.
  - destruct (season_down s t y n r b e j sp lv C T Y M Ry Rj W) as [Hh|Hh]; [exact (K Hh)|exact (G _ Hh eq_refl)].
  - destruct (season_level1 _ _ T) as (-> & _). assert (J : 0 <= j) by (destruct Hn; lia).
    apply up_app in C. destruct C as (v1 & s1 & -> & V & C). apply up_plain_app in C; [|exact (spaces_plain _ Hg)]. destruct C as (s2 & -> & C).
    apply up_plain_app in C; [|repeat constructor]. destruct C as (s3 & -> & C). apply up_plain_app in C; [|exact (spaces_plain _ Hg')]. destruct C as (s4 & -> & C).
    apply map_up_plain in C; [|apply four_plain; lia]. subst s4.
    apply G; [|reflexivity]. exact (words_up n w _ gap gap' y b e j sp Hn (case_down _ _ _ Hv V (words_low _ _ _ _ _ Hn)) Hg Hg' Y0 Y1 W).
  - rewrite (exp_via a t m e y A X Wr Y), (via_ok _ _ _ _ _ W) in H. injection H as <-.
    apply up_cons in C. destruct C as (d & s1 & -> & Ed & C).
    assert (A1 : d = "Y"%char \/ d = "y"%char).
    { destruct A as [->| ->]; [apply (up_letter d "Y" Ed); change (code "Y") with 89; lia|]. exfalso. unfold up in Ed. destruct (low d) eqn:L; [|subst d; discriminate L]. destruct d as [[] [] [] [] [] [] [] []]; try discriminate L; discriminate Ed. }
    apply G; [|reflexivity]. rewrite (exp_via d s1 m e y A1 (exp_down _ _ _ _ C X) Wr Y). exact (via_ok _ _ _ _ _ W).
  - destruct F; discriminate.
  - destruct F; discriminate.
  - destruct F; discriminate.
  - destruct F; discriminate.
Qed.
(** Elsewhere letters are capitals. *)
Theorem fixed_parse s u e : in_capitals s u -> ParseString u = OK e -> ~ In (e_feature e) small_features -> (exists e', ParseString s = OK e') -> s = u.
Proof.
  intros C H N (e' & H'). apply capitals_up in C. pose proof (capitals_parse s e' H') as U. rewrite <- C, H in U. injection U as ->. cbn [e_feature] in N.
  rewrite C. symmetry. apply up_high. apply Forall_forall. intros c I. unfold high_b. destruct (low c) eqn:L; [|reflexivity]. exfalso. apply N. apply (small_parse s e' c H' I).
  destruct c as [[] [] [] [] [] [] [] []]; try discriminate L; apply existsb_in; reflexivity.
Qed.
