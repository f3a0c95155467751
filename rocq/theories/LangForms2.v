(** The languages of the level 2 expressions. *)
From Coq Require Import Ascii String ZArith NArith Bool Lia ZifyBool List.
From Verif Require Import GoStr Regex Patterns RegexSym RegexRel RegexGen SpecCal SpecGrammar SpecForms StrFacts GrammarFacts LangFacts LangNorm LangForms.
Import ListNotations.
Open Scope Z_scope.
Ltac Zify.zify_post_hook ::= Z.div_mod_to_equations.

Lemma den_pair a b c d : 0 <= a < 256 -> 0 <= b < 256 -> [chr a] = c -> [chr b] = d ->
  denotes (RSet [(a, a); (b, b)]) (fun s => s = c \/ s = d).
Proof.
  intros Ha Hb <- <- s. rewrite lg_set. change [(a, a); (b, b)] with ([(a, a)] ++ [(b, b)]). split.
  - intros (x & -> & H). rewrite in_set_app, orb_true_iff, !in_rc in H by assumption. destruct H as [->| ->]; auto.
  - intros [->| ->]; eexists; (split; [reflexivity|]); rewrite in_set_app, orb_true_iff, !in_rc by assumption; auto.
Qed.
Definition expo_re : re := RSeq (RSet [(89, 89); (121, 121)]) (RSeq (ROpt (rc 45)) (RSeq plus_digits (RSeq (RSet [(69, 69); (101, 101)]) plus_digits))).
Lemma den_expo : denotes expo_re exponential_year.
Proof.
  repeat apply den_seq; [apply den_pair; [lia|lia|reflexivity|reflexivity]|apply den_minus|apply den_digits|apply den_pair; [lia|lia|reflexivity|reflexivity]|apply den_digits].
Qed.
Theorem Exponential_spec s : match_string ExponentialYear s = true <-> exponential_year s.
Proof. by_norm expo_re. apply den_expo. Qed.
Definition sig_re : re := RSeq (RAlt yr (RAlt letter_re expo_re)) (RSeq (rc 83) plus_digits).
Lemma den_sig : denotes sig_re significant_digits.
Proof.
  apply den_seq; [|apply den_seq; [apply den_rc; lia|apply den_digits]].
  apply den_alt; [apply den_yr|apply den_alt; [apply den_letter|apply den_expo]].
Qed.
Theorem Significant_spec s : match_string SignificantDigits s = true <-> significant_digits s.
Proof. by_norm sig_re. apply den_sig. Qed.
Definition gnum_re : re := RAlt (RSeq (rc 49) (RSet [(48, 50)])) (RAlt (RSeq (rc 50) (RSet [(49, 57)])) (RAlt (RSeq (rc 51) rd) (RSeq (rc 52) (RSet [(48, 49)])))).
Lemma den_gnum : denotes gnum_re grouping_number.
Proof.
  eapply den_iff; [apply den_alt; [|apply den_alt; [|apply den_alt]]; apply den_two_range; lia|]. intro s. unfold grouping_number. cbv beta. split.
  - intros [(n & H & E)|[(n & H & E)|[(n & H & E)|(n & H & E)]]]; exists n; (split; [lia|exact E]).
  - intros (n & H & E). assert (C : n <= 12 \/ 21 <= n <= 29 \/ 30 <= n <= 39 \/ 40 <= n) by lia.
    destruct C as [C|[C|[C|C]]]; [left|right; left|do 2 right; left|do 3 right]; exists n; (split; [lia|exact E]).
Qed.
Definition grouping_re : re := RSeq (times 4 rd) (RSeq (rc 45) gnum_re).
Lemma den_grouping : denotes grouping_re sub_year_grouping.
Proof. apply den_seq; [apply den_4|apply den_seq; [apply den_rc; lia|apply den_gnum]]. Qed.
Theorem Grouping_spec s : match_string SubYearGrouping s = true <-> sub_year_grouping s.
Proof. by_norm grouping_re. apply den_grouping. Qed.
Definition qm : re := qre 37 126 63.
Definition group_re : re := ymd_re (RSeq (times 4 rd) (ROpt qm)) (RSeq (times 2 rd) (ROpt qm)) (RSeq (times 2 rd) (ROpt qm)).
Lemma den_group : denotes group_re group_qualified.
Proof. apply den_ymd; (apply den_seq; [apply den_4||apply den_2|apply den_opt, den_mark']). Qed.
Theorem Group_spec s : match_string GroupQualification s = true <-> group_qualified s.
Proof. by_norm group_re. apply den_group. Qed.
Definition indiv_re : re := ymd_re (RSeq (ROpt qm) (times 4 rd)) (RSeq (ROpt qm) (times 2 rd)) (RSeq (ROpt qm) (times 2 rd)).
Lemma den_indiv : denotes indiv_re individually_qualified.
Proof. apply den_ymd; (apply den_seq; [apply den_opt, den_mark'|apply den_4||apply den_2]). Qed.
Theorem Individual_spec s : match_string IndividualQualification s = true <-> individually_qualified s.
Proof. by_norm indiv_re. apply den_indiv. Qed.
Definition unspec2_re : re := ymd_re (times 4 rx) (times 2 rx) (times 2 rx).
Lemma den_unspec2 : denotes unspec2_re unspecified_form.
Proof. apply den_ymd; [apply den_4x|apply den_2x|apply den_2x]. Qed.
Theorem Unspecified_spec s : match_string UnspecifiedDigit s = true <-> unspecified_form s.
Proof. by_norm unspec2_re. apply den_unspec2. Qed.
Definition half_re : re := ymd_re (RSeq (ROpt qm) (RSeq (ROpt (rc 45)) (times 4 rx))) (RSeq (ROpt qm) (times 2 rx)) (RSeq (ROpt qm) (times 2 rx)).
Lemma den_half : denotes half_re half_form.
Proof.
  apply den_ymd; (apply den_seq; [apply den_opt, den_mark'|]); [apply den_seq; [apply den_minus|apply den_4x]|apply den_2x|apply den_2x].
Qed.
Definition interval_re : re := RSeq half_re (RSeq (rc 47) half_re).
Lemma den_interval : denotes interval_re interval_form.
Proof. apply den_seq; [apply den_half|apply den_seq; [apply den_rc; lia|apply den_half]]. Qed.
Theorem Interval_spec s : match_string Interval s = true <-> interval_form s.
Proof. by_norm interval_re. apply den_interval. Qed.

(** *** The level 2 expression: a prefix, with letters in either case *)
From Verif Require Import SetGrammar.
Definition sig_fold : re :=
  RSeq (RAlt yr (RAlt (RSeq (RSet [(89, 89); (121, 121)]) (RSeq (ROpt (rc 45)) plus_digits)) expo_re))
       (RSeq (RAlt (RSet [(83, 83); (115, 115)]) (RSeq (rc 197) (rc 191))) plus_digits).
Lemma den_sig_fold : denotes sig_fold significant_any_case.
Proof.
  apply den_seq; [|apply den_seq; [|apply den_digits]].
  - apply den_alt; [apply den_yr|apply den_alt; [|apply den_expo]].
    repeat apply den_seq; [apply den_pair; [lia|lia|reflexivity|reflexivity]|apply den_minus|apply den_digits].
  - eapply den_iff; [apply den_alt; [apply den_pair; [lia|lia|reflexivity|reflexivity]|apply den_seq; apply den_rc; lia]|].
    intro s. unfold letter_s, cat, is. split.
    + intros [[H|H]|(u & v & -> & -> & ->)]; auto.
    + intros [H|[H| ->]]; auto. right. exists [chr 197], [chr 191]. auto.
Qed.
Lemma den_set_re : denotes set_grammar is_set.
Proof. intro s. unfold is_set. rewrite <- IsSet_spec. symmetry. exact (anchored_match SetRepresentations set_grammar eq_refl eq_refl s). Qed.
Definition level2_alts : re :=
  RAlt expo_re (RAlt sig_fold (RAlt grouping_re (RAlt set_grammar (RAlt group_re (RAlt indiv_re (RAlt (lower unspec2_re) (lower interval_re))))))).
Lemma den_level2 : denotes level2_alts level2_form.
Proof.
  intro s. unfold level2_alts, level2_form. rewrite !lg_alt.
  rewrite (den_expo s), (den_sig_fold s), (den_grouping s), (den_set_re s), (den_group s), (den_indiv s).
  rewrite (lg_lower unspec2_re eq_refl s), (lg_lower interval_re eq_refl s), (den_unspec2 _), (den_interval _). reflexivity.
Qed.
Definition level2_A : re := Eval vm_compute in match re_body Level2_re with RSeq RBegin a => a | _ => REps end.
Lemma Level2_body : re_body Level2_re = RSeq RBegin level2_A.
Proof. reflexivity. Qed.
Theorem Level2_spec s : match_string Level2_re s = true <-> exists u v, level2_form u /\ s = u ++ v.
Proof.
  assert (EA : forall u, lg level2_A u <-> level2_form u) by (intro u; rewrite (lg_same level2_A level2_alts eq_refl); apply den_level2).
  rewrite match_run. split.
  - intros (p & q & st & -> & H). rewrite Level2_body in H. apply run_pre in H; [|reflexivity]. destruct H as (-> & u & k & G & E & _).
    exists u, (m_rest st). split; [apply EA; exact (gen_lg _ _ _ G)|exact E].
  - intros (u & v & Hu & ->). apply EA in Hu. destruct Hu as (k & G). exists [], (u ++ v), (mkm (if nonempty u then false else true) v k). split; [reflexivity|].
    rewrite Level2_body. apply (run_pre level2_A [] (u ++ v)); [reflexivity|]. split; [reflexivity|]. exists u, k. auto.
Qed.
