(** Which parser a level 1 string reaches. *)
From Coq Require Import Ascii String ZArith NArith Bool Lia ZifyBool List.
From Verif Require Import GoStr GoTime Regex Patterns RegexSym RegexRel RegexGen SpecCal SpecText SpecGrammar SpecForms SpecSpan StrFacts TextFacts Edtf Calendar Common Level0 Level1 Level2 Parser CalFacts ApiFacts SpanFacts YmdShapes YmdFacts InvFacts GrammarFacts LangFacts LangNorm LangForms LangForms2 DateFacts Level0Facts.
Import ListNotations.
Open Scope Z_scope.
Ltac Zify.zify_post_hook ::= Z.div_mod_to_equations.

(** ** A byte that the expression does not have *)
Lemma byte_out R c s : match anchored R with Some a => plain a | None => false end = true ->
  in_set (match anchored R with Some a => bytes a | None => [] end) c = false -> In c s -> match_string R s = false.
Proof.
  intros Hp Hc Hi. destruct (match_string R s) eqn:E; [|reflexivity]. exfalso.
  apply match_bytes in E; [|exact Hp]. unfold all_in in E. rewrite Forall_forall in E. rewrite (E _ Hi) in Hc. discriminate.
Qed.
Ltac no_byte c := apply (byte_out _ c); [reflexivity|reflexivity|].
Lemma not_level0 s c : in_set (match anchored Level0_re with Some a => bytes a | None => [] end) c = false -> In c s -> IsLevel0 s = false.
Proof. intros H. apply byte_out; [reflexivity|exact H]. Qed.

(** ** Years at the beginning *)
Lemma digit_not_minus n : 0 <= n <= 9 -> digit_char n <> "-"%char.
Proof. intros H E. apply (f_equal code) in E. rewrite code_digit_char in E by exact H. change (code "-") with 45 in E. lia. Qed.
Lemma year_prefix t t' y y' r r' : year4 t y -> year4 t' y' -> t ++ r = t' ++ r' -> t = t' /\ r = r'.
Proof.
  intros H H' E. pose proof digit_not_minus as N.
  destruct H as [n Hn|n Hn]; destruct H' as [k Hk|k Hk]; unfold four in *; cbn [app] in E.
  - injection E as -> -> -> -> ->. auto.
  - injection E as E _. apply N in E; [destruct E|lia].
  - injection E as E _. symmetry in E. apply N in E; [destruct E|lia].
  - injection E as -> -> -> -> ->. auto.
Qed.
Lemma year4_bytes t y c : year4 t y -> In c t -> is_digit c = true \/ c = "-"%char.
Proof. intros H Hc. apply (date_bytes t); [|exact Hc]. exists y, None, None. replace t with (t ++ []) by apply app_nil_r. constructor; [exact H|constructor]. Qed.

(** ** Seasons *)
Definition season_head (s : str) : Prop := exists t y n r, year4 t y /\ (1 <= n <= 12 \/ 21 <= n <= 24) /\ s = t ++ "-"%char :: two n ++ r.
Lemma season_head_iff s : cat season_date anything s <-> season_head s.
Proof.
  split.
  - intros (u & v & (t & w & (y & Hy) & (d & x & Hd & (n & Hn & ->) & ->) & ->) & _ & ->). unfold is in Hd. subst d.
    exists t, y, n, v. split; [exact Hy|]. split; [exact Hn|]. rewrite <- app_assoc. reflexivity.
  - intros (t & y & n & r & Hy & Hn & ->). exists (t ++ "-"%char :: two n), r. split; [|split; [exact I|rewrite <- app_assoc; reflexivity]].
    exists t, ("-"%char :: two n). split; [exists y; exact Hy|]. split; [|reflexivity]. exists ["-"%char], (two n). repeat split. exists n. auto.
Qed.
Lemma words_comma s : season_words s -> In ","%char s.
Proof.
  intros (w & r & _ & (sp & r' & _ & (c & r'' & Hc & _ & ->) & ->) & ->). unfold is in Hc. subst c.
  apply in_or_app. right. apply in_or_app. right. left. reflexivity.
Qed.
Lemma season_iff s : ~ In ","%char s -> (match_string Season s = true <-> season_head s).
Proof.
  intro N. rewrite Season_spec, season_head_iff. split; [|auto]. intros [H|(u & v & _ & H & ->)]; [exact H|].
  exfalso. apply N. apply in_or_app. right. exact (words_comma _ H).
Qed.
Lemma season_false s : ~ In ","%char s -> ~ season_head s -> match_string Season s = false.
Proof. intros N H. destruct (match_string Season s) eqn:E; [|reflexivity]. exfalso. apply H. apply season_iff; assumption. Qed.
(** after a year, something else than a dash *)
Lemma season_tail t y r : year4 t y -> season_head (t ++ r) -> exists n q, (1 <= n <= 12 \/ 21 <= n <= 24) /\ r = "-"%char :: two n ++ q.
Proof. intros H (t' & y' & n & q & H' & Hn & E). destruct (year_prefix _ _ _ _ _ _ H H' E) as (_ & ->). eauto. Qed.
Lemma no_comma s : is_level0_date s -> ~ In ","%char s.
Proof. intros H Hi. destruct (date_bytes _ _ H Hi) as [E|E]; discriminate E. Qed.

(** ** Open and unknown starts *)
Lemma start_parser a b : a = [] \/ a = $".." -> is_level0_date b ->
  ParseString (a ++ "/"%char :: b) = let* sp := DateSpanFromEDTF (a ++ "/"%char :: b) in OK (edtf_of_span sp (a ++ "/"%char :: b) 1 ($"Extended Interval (Start)")).
Proof.
  intros Ha Hb. set (s := a ++ "/"%char :: b).
  assert (Hs : In "/"%char s) by (apply in_or_app; right; left; reflexivity).
  assert (HE : extended_start s).
  { exists a, ("/"%char :: b). split; [destruct Ha as [->| ->]; [left|right]; reflexivity|]. split; [|reflexivity].
    exists ["/"%char], b. repeat split. exact Hb. }
  assert (L1 : match_string Level1_re s = true) by (apply Level1_spec; auto 10).
  assert (L0 : match_string Level0_re s = false).
  { destruct (match_string Level0_re s) eqn:E; [|reflexivity]. exfalso. apply Level0_spec in E. destruct (slash_not_date s Hs) as (N1 & N2).
    destruct E as [E|[E|E]]; [congruence|congruence|]. apply TimeInterval_spec in E. destruct E as (l & r & Hl & _ & E). unfold s in E.
    assert (Na : ~ In "/"%char a) by (destruct Ha as [->| ->]; cbn; [tauto|intros [H|[H|[]]]; discriminate H]).
    destruct (split_once _ _ _ _ _ Na (no_slash _ Hl) E) as (<- & _).
    apply IsDate_spec in Hl. destruct Ha as [->| ->]; vm_compute in Hl; discriminate. }
  assert (LS : match_string Season s = false).
  { apply season_false.
    - unfold s. intro H. apply in_app_or in H. destruct H as [H|[H|H]]; [destruct Ha as [->| ->]; cbn in H; intuition discriminate|discriminate|exact (no_comma _ Hb H)].
    - intros (t & y & n & r & Hy & _ & E). unfold s in E.
      assert (G : exists c u, t = c :: u /\ (is_digit c = true \/ c = "-"%char)).
      { pose proof (fun c => year4_bytes t y c Hy) as B. destruct t as [|c u]; [inversion Hy|]. exists c, u. split; [reflexivity|]. apply B. left. reflexivity. }
      destruct G as (c & u & -> & Hc). destruct Ha as [->| ->]; cbn in E; injection E as <- _; destruct Hc as [Hc|Hc]; discriminate Hc. }
  unfold ParseString, IsLevel0, IsLevel1. rewrite L0, L1. unfold L1_ParseString, IsLetterPrefixedCalendarYear, IsSeason, IsQualifiedDate, IsUnspecifiedDigits, IsNegativeCalendarYear.
  replace (match_string LetterPrefixedCalendarYear s) with false by (symmetry; no_byte "/"%char; exact Hs).
  rewrite LS.
  replace (match_string QualifiedDate s) with false by (symmetry; no_byte "/"%char; exact Hs).
  replace (match_string UnspecifiedDigits s) with false by (symmetry; no_byte "/"%char; exact Hs).
  replace (match_string NegativeYear s) with false by (symmetry; no_byte "/"%char; exact Hs).
  replace (IsExtendedInterval s) with true by (unfold IsExtendedInterval; destruct (match_string IntervalEnd s), (match_string IntervalStart s); reflexivity).
  unfold ParseExtendedInterval. rewrite (proj2 (IntervalStart_spec s) HE). unfold ParseExtendedIntervalStart. rewrite (proj2 (IntervalStart_spec s) HE). reflexivity.
Qed.
Lemma open_bound_range s : open_range (mkRange s open_bound open_bound).
Proof. intros b [->| ->]; vm_compute; auto. Qed.
Lemma unknown_bound_range s : unknown_range (mkRange s unknown_bound unknown_bound).
Proof. intros b [->| ->]; vm_compute; auto. Qed.
Lemma dotdot_noslash : ~ In "/"%char ($"..").
Proof. cbn. intros [H|[H|[]]]; discriminate H. Qed.
Theorem start_parses b y m d : level0_date b y m d -> exists_date y m d ->
  (exists e, ParseString ($"../" ++ b) = OK e /\ e_level e = 1 /\ open_range (e_start e) /\ whole (e_end e) b y m d) /\
  (exists e, ParseString ($"/" ++ b) = OK e /\ e_level e = 1 /\ unknown_range (e_start e) /\ whole (e_end e) b y m d).
Proof.
  intros Hb X. pose proof (level0_is _ _ _ _ Hb) as Ib. split.
  - change ($"../" ++ b) with ($".." ++ "/"%char :: b). rewrite start_parser by auto.
    rewrite (interval_fwd _ _ _ _ _ _ dotdot_noslash (no_slash _ Ib) half_open (level0_half _ _ _ _ Hb X)). cbn [bind].
    eexists. split; [reflexivity|]. split; [reflexivity|]. split; [apply open_bound_range|]. split; [reflexivity|]. split; apply dated_bound.
  - change ($"/" ++ b) with ([] ++ "/"%char :: b). rewrite start_parser by auto.
    rewrite (interval_fwd _ _ _ _ _ _ (@in_nil _ _) (no_slash _ Ib) half_unknown (level0_half _ _ _ _ Hb X)). cbn [bind].
    eexists. split; [reflexivity|]. split; [reflexivity|]. split; [apply unknown_bound_range|]. split; [reflexivity|]. split; apply dated_bound.
Qed.
