(** Languages of expressions up to nesting of sequences, and of expressions that
    are not anchored at both ends. *)
From Coq Require Import Ascii String ZArith NArith Bool Lia ZifyBool List.
From Verif Require Import GoStr Regex Patterns RegexSym RegexRel RegexGen SpecCal SpecGrammar StrFacts GrammarFacts LangFacts.
Import ListNotations.
Open Scope Z_scope.

Fixpoint app_seq (a b : re) : re :=
  match a with
  | REps => b
  | RSeq x y => RSeq x (app_seq y b)
  | _ => match b with REps => a | _ => RSeq a b end
  end.
Fixpoint norm (r : re) : re :=
  match r with
  | RSeq a b => app_seq (norm a) (norm b)
  | RAlt a b => RAlt (norm a) (norm b)
  | ROpt a => ROpt (norm a)
  | RStar a => RStar (norm a)
  | RCap _ a => norm a
  | _ => r
  end.
Lemma lg_eps_r a s : lg (RSeq a REps) s <-> lg a s.
Proof.
  rewrite lg_seq. split.
  - intros (u & v & H & Hv & ->). apply lg_eps in Hv. subst. rewrite app_nil_r. exact H.
  - intro H. exists s, []. rewrite app_nil_r. split; [exact H|]. split; [apply lg_eps|]; reflexivity.
Qed.
Lemma lg_eps_l b s : lg (RSeq REps b) s <-> lg b s.
Proof.
  rewrite lg_seq. split.
  - intros (u & v & H & Hv & ->). apply lg_eps in H. subst. exact Hv.
  - intro H. exists [], s. split; [apply lg_eps; reflexivity|auto].
Qed.
Lemma lg_seq_ext a b a' b' s : (forall u, lg a u <-> lg a' u) -> (forall u, lg b u <-> lg b' u) -> lg (RSeq a b) s <-> lg (RSeq a' b') s.
Proof. intros Ha Hb. rewrite !lg_seq. split; intros (u & v & H1 & H2 & H3); exists u, v; [rewrite <- Ha, <- Hb|rewrite Ha, Hb]; auto. Qed.
Lemma lg_app_seq a : forall b s, lg (app_seq a b) s <-> lg (RSeq a b) s.
Proof.
  assert (G : forall a b s, lg (match b with REps => a | _ => RSeq a b end) s <-> lg (RSeq a b) s).
  { intros x b s. destruct b; try reflexivity. symmetry. apply lg_eps_r. }
  induction a as [|cs|a IHa b' IHb|a IHa b' IHb|a IHa|a IHa|i a IHa| |]; intros b s; cbn [app_seq]; try apply G.
  - symmetry. apply lg_eps_l.
  - rewrite <- lg_assoc. apply lg_seq_ext; [reflexivity|]. intro u. apply IHb.
Qed.
Lemma lg_norm r : forall s, lg (norm r) s <-> lg r s.
Proof.
  induction r as [|cs|a IHa b IHb|a IHa b IHb|a IHa|a IHa|i a IHa| |]; intro s; cbn [norm]; try reflexivity.
  - rewrite lg_app_seq. apply lg_seq_ext; assumption.
  - rewrite !lg_alt, IHa, IHb. reflexivity.
  - rewrite !lg_opt, IHa. reflexivity.
  - rewrite !lg_star. apply lstar_iff. exact IHa.
  - rewrite lg_cap. apply IHa.
Qed.
Lemma lg_same r r' : norm r = norm r' -> forall s, lg r s <-> lg r' s.
Proof. intros E s. rewrite <- lg_norm, E. apply lg_norm. Qed.
(** The language of an anchored expression is that of a differently nested one. *)
Lemma anchored_norm R t : option_map norm (anchored R) = Some (norm t) -> match anchored R with Some a => plain a | None => false end = true ->
  forall s, match_string R s = true <-> lg t s.
Proof.
  destruct (anchored R) as [a|] eqn:E; [|discriminate]. intros H Hp s. injection H as H.
  rewrite <- (lg_same a t H s). exact (anchored_lg R a E Hp s).
Qed.

(** ** Expressions that are not anchored *)
Lemma run_find r : forall s p q st, s = p ++ q -> forall bot, run r (mkm (match p with [] => bot | _ => false end) q []) st -> find_from r bot s <> None.
Proof.
  induction s as [|c s IH]; intros p q st E bot H.
  - destruct p; [|discriminate E]. cbn [app] in E. subst q. cbn [find_from]. apply in_mt in H. destruct (mt r _); [destruct H|discriminate].
  - cbn [find_from]. destruct (mt r (mkm bot (c :: s) [])) eqn:M; [|discriminate].
    destruct p as [|d p].
    + cbn [app] in E. subst q. apply in_mt in H. rewrite M in H. destruct H.
    + injection E as <- ->. apply (IH p q st eq_refl false). destruct p; exact H.
Qed.
Lemma match_run R s : match_string R s = true <-> exists p q st, s = p ++ q /\ run (re_body R) (mkm (match p with [] => true | _ => false end) q []) st.
Proof.
  split.
  - intro H. apply match_iff in H. destruct (submatch_run _ _ H) as (p & q & st & E & Hr & _). eauto.
  - intros (p & q & st & E & H). unfold match_string. pose proof (run_find _ _ _ _ _ E true H). destruct (find_from _ _ _); congruence.
Qed.
(** a prefix or a suffix *)
Lemma run_pre a (p s : str) st : plain a = true -> run (RSeq RBegin a) (mkm (match p with [] => true | _ => false end) s []) st <->
  p = [] /\ exists u k, gen a u k /\ s = u ++ m_rest st /\ m_caps st = k /\ m_bot st = (if nonempty u then false else true).
Proof.
  intro Hp. cbn [run]. split.
  - intros (m & (Hb & ->) & H). destruct p; [|discriminate Hb]. split; [reflexivity|]. apply (run_gen _ Hp) in H.
    destruct H as (u & k & G & E & Hc & Hb'). cbn in *. exists u, k. rewrite app_nil_r in Hc. auto.
  - intros (-> & u & k & G & E & Hc & Hb). eexists. split; [split; reflexivity|]. apply (run_gen _ Hp). exists u, k. cbn. rewrite app_nil_r. auto.
Qed.
Lemma run_suf b : plain b = true -> forall B s st, run (RSeq b REnd) (mkm B s []) st <->
  exists k, gen b s k /\ st = mkm (if nonempty s then false else B) [] k.
Proof.
  intros Hp B s st. cbn [run]. split.
  - intros (m & H & (He & ->)). apply (run_gen _ Hp) in H. destruct H as (u & k & G & E & Hc & Hb). cbn in *. rewrite He, app_nil_r in E. subst u.
    exists k. split; [exact G|]. destruct m as [x y z]. cbn in *. rewrite app_nil_r in Hc. subst. reflexivity.
  - intros (k & G & ->). exists (mkm (if nonempty s then false else B) [] k). split; [apply (run_gen _ Hp); exists s, k; cbn|].
    + split; [exact G|]. rewrite ?app_nil_r. split; [|split]; reflexivity.
    + cbn. split; reflexivity.
Qed.
