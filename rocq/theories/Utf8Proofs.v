(** Which bytes a parsed string can contain. *)
From Coq Require Import Ascii String ZArith NArith Bool Lia ZifyBool List.
From Verif Require Import GoStr GoTime SpecText StrFacts Regex RegexRel RegexGen LangFacts Patterns Edtf Common Level0 Level1 Level2 Parser.
Import ListNotations.
Open Scope Z_scope.

Lemma latin_app a b : latin_text a -> latin_text b -> latin_text (a ++ b).
Proof. intros H Hb. induction H; cbn [app]; [exact Hb|apply lt_ascii; assumption|apply lt_long_s; assumption]. Qed.
Definition ascii_set (cs : cset) : bool := forallb (fun r => snd r <=? 127) cs.
Definition is_long_s (r : re) : bool :=
  match r with RSeq (RSet [(197, 197)]) (RSet [(191, 191)]) => true | _ => false end.
Fixpoint latin (r : re) : bool :=
  match r with
  | REps => true
  | RSet cs => ascii_set cs
  | RSeq a b => is_long_s r || (latin a && latin b)
  | RAlt a b => latin a && latin b
  | ROpt a | RStar a | RCap _ a => latin a
  | RBegin | REnd => false
  end.
Lemma ascii_in cs c : ascii_set cs = true -> in_set cs c = true -> code c < 128.
Proof.
  unfold ascii_set, in_set. rewrite forallb_forall. intros H E. apply existsb_exists in E. destruct E as (x & Hx & E).
  specialize (H x Hx). lia.
Qed.
Lemma is_long_s_eq r : is_long_s r = true -> r = RSeq (RSet [(197, 197)]) (RSet [(191, 191)]).
Proof.
  unfold is_long_s. intro H.
  repeat match type of H with match ?x with _ => _ end = true => destruct x; try discriminate H end. reflexivity.
Qed.
Lemma byte_is n c : in_set [(n, n)] c = true -> code c = n.
Proof. unfold in_set. cbn [existsb fst snd]. lia. Qed.
Lemma latin_gen r : latin r = true -> forall u k, gen r u k -> latin_text u.
Proof.
  induction r as [|cs|a IHa b IHb|a IHa b IHb|a IHa|a IHa|i a IHa| |]; intros H u k G; cbn [gen] in G; try discriminate H.
  - destruct G as (-> & _). constructor.
  - destruct G as (c & -> & G & _). apply lt_ascii; [exact (ascii_in _ _ H G)|constructor].
  - cbn [latin] in H. destruct (is_long_s (RSeq a b)) eqn:E.
    + apply is_long_s_eq in E. injection E as -> ->. destruct G as (u1 & k1 & u2 & k2 & (c & -> & G1 & _) & (d & -> & G2 & _) & -> & _).
      apply byte_is in G1, G2. cbn [app]. rewrite <- (chr_code c), <- (chr_code d), G1, G2. apply lt_long_s. constructor.
    + cbn [orb] in H. apply andb_true_iff in H. destruct H as (Ha & Hb). destruct G as (u1 & k1 & u2 & k2 & G1 & G2 & -> & _).
      apply latin_app; [exact (IHa Ha _ _ G1)|exact (IHb Hb _ _ G2)].
  - cbn [latin] in H. apply andb_true_iff in H. destruct H as (Ha & Hb). destruct G as [G|G]; [exact (IHa Ha _ _ G)|exact (IHb Hb _ _ G)].
  - destruct G as [G|(-> & _)]; [exact (IHa H _ _ G)|constructor].
  - cbn [latin] in H. specialize (IHa H). clear H. induction G; [constructor|]. apply latin_app; eauto.
  - destruct G as (k1 & G & _). exact (IHa H _ _ G).
Qed.
Definition latin_re (R : regexp) : bool := match anchored R with Some a => plain a && latin a | None => false end.
Lemma latin_match R s : latin_re R = true -> match_string R s = true -> latin_text s.
Proof.
  unfold latin_re. destruct (anchored R) as [a|] eqn:E; [|discriminate]. intros H M. apply andb_true_iff in H. destruct H as (Hp & Hl).
  apply (anchored_lg R a E Hp) in M. destruct M as (k & M). exact (latin_gen _ Hl _ _ M).
Qed.
Theorem parsed_latin s d : ParseString s = OK d -> latin_text s.
Proof.
  unfold ParseString. intro H. destruct (IsLevel0 s) eqn:E0; [apply (latin_match Level0_re); [reflexivity|exact E0]|].
  destruct (IsLevel1 s) eqn:E1; [apply (latin_match Level1_re); [reflexivity|exact E1]|].
  destruct (IsLevel2 s) eqn:E2.
  - unfold L2_ParseString in H.
    destruct (IsExponentialYear s) eqn:F1; [apply (latin_match ExponentialYear); [reflexivity|exact F1]|].
    destruct (IsSignificantDigits s) eqn:F2; [apply (latin_match SignificantDigits); [reflexivity|exact F2]|].
    destruct (IsSubYearGrouping s) eqn:F3; [apply (latin_match SubYearGrouping); [reflexivity|exact F3]|].
    destruct (IsSetRepresentation s) eqn:F4; [apply (latin_match SetRepresentations); [reflexivity|exact F4]|].
    destruct (IsGroupQualification s) eqn:F5; [apply (latin_match GroupQualification); [reflexivity|exact F5]|].
    destruct (IsIndividualQualification s) eqn:F6; [apply (latin_match IndividualQualification); [reflexivity|exact F6]|].
    destruct (IsUnspecifiedDigit s) eqn:F7; [apply (latin_match UnspecifiedDigit); [reflexivity|exact F7]|].
    destruct (IsInterval s) eqn:F8; [apply (latin_match Interval); [reflexivity|exact F8]|discriminate H].
  - destruct (seqb s OPEN) eqn:F1; [apply seqb_eq in F1; subst s; repeat (apply lt_ascii; [reflexivity|]); constructor|].
    destruct (seqb s UNKNOWN) eqn:F2; [apply seqb_eq in F2; subst s; constructor|discriminate H].
Qed.
