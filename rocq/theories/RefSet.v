(** The errors of sets. *)
From Coq Require Import Ascii String ZArith NArith Bool Lia ZifyBool List.
From Verif Require Import GoStr GoTime Regex Patterns RegexSym RegexRel RegexGen SpecCal SpecText SpecZone SpecGrammar SpecForms SpecSpan SpecSet SpecReads SpecRefused StrFacts TextFacts Edtf Calendar Common Level0 Level1 Level2 Parser CalFacts ApiFacts SpanFacts YmdShapes YmdFacts InvFacts GrammarFacts SetFacts SetGrammar LangFacts LangNorm LangForms LangForms2 DateFacts ParseFacts SplitFacts Level0Facts Level0Proofs FormFacts SeasonFacts Level1Proofs XProofs FormProofs SigProofs ExpProofs GroupingProofs SetProofs ReadsFacts ReadsSeason ReadsYears ReadsSet RefDate RefYears.
Import ListNotations.
Open Scope Z_scope.

Lemma same_halves t x : halves_refused t t x <-> half_refused t x.
Proof. unfold halves_refused. split; [intros [H|(_ & H)]; exact H|auto]. Qed.
Lemma alone_errors t x : slashless t -> t <> [] -> t <> $".." -> (DateSpanFromEDTF t = Err x <-> half_refused t x).
Proof.
  intros N N1 N2. rewrite span_errors. split.
  - intro H. apply hx_intro; [exact N1|exact N2|]. destruct H as [t x _ H|a b x _ _ _|a b c]; [exact H|exfalso..]; apply N; apply in_or_app; right; left; reflexivity.
  - intros [_ _ H]. apply sx_date; assumption.
Qed.
Lemma dots_fine : half_fine ($"..").
Proof. do 2 eexists. constructor. Qed.
Lemma dots_never x : ~ half_refused ($"..") x.
Proof. intros [_ N _]. apply N. reflexivity. Qed.
Lemma set_text_errors so eo hd tl x : ~ In "/"%char hd -> ~ In "/"%char (last tl hd) -> hd <> $".." -> last tl hd <> $".." ->
  (so = true -> eo = true -> two_or_more tl = true) -> last tl hd <> [] ->
  (DateSpanFromEDTF (set_text so eo hd tl) = Err x <-> halves_refused hd (last tl hd) x).
Proof.
  intros S1 S2 N1 N2 B Nb. unfold set_text. unfold str in *.
  assert (Sd : ~ In "/"%char ($"..")) by (intros [Q|[Q|[]]]; discriminate).
  change ($"/" ++ last tl hd) with ("/"%char :: last tl hd). change ($"../" ++ hd) with ($".." ++ "/"%char :: hd). change ($"/..") with ("/"%char :: $"..").
  destruct (two_or_more tl) eqn:Em.
  - rewrite !andb_true_r. destruct (so || eo) eqn:Eo; [apply halves_errors; assumption|].
    apply orb_false_iff in Eo. destruct Eo as (-> & ->). destruct (seqb hd (last tl hd)) eqn:Es; [|apply halves_errors; assumption].
    apply seqb_eq in Es. rewrite <- Es in *. rewrite same_halves. apply alone_errors; assumption.
  - destruct tl; [|discriminate]. cbn [last] in *. rewrite !andb_false_r, same_halves. destruct so.
    + rewrite halves_errors by assumption. unfold halves_refused. split; [intros [H|(_ & H)]; [destruct (dots_never _ H)|exact H]|]. intro H. right. split; [exact dots_fine|exact H].
    + destruct eo.
      * rewrite halves_errors by assumption. unfold halves_refused. split; [intros [H|(_ & H)]; [exact H|destruct (dots_never _ H)]|auto].
      * rewrite seqb_refl. apply alone_errors; assumption.
Qed.
Lemma piece_twice s p : twice_dotted p -> piece_members s p = Err (Invalid SET_REPRESENTATIONS s).
Proof.
  intros (a & b & c & (_ & Na) & (_ & Nb) & ->). unfold piece_members. rewrite split_dots by exact Na. rewrite split_dots by exact Nb.
  pose proof (split_aux_nonempty ($"..") c [] 0) as Q. unfold split. destruct (split_aux ($"..") c [] 0) as [|z l]; [congruence|]. destruct l; reflexivity.
Qed.
Lemma piece_cases (s p : str) : paired p -> ~ In ","%char p -> (exists ds so eo, set_piece p ds so eo) \/ twice_dotted p.
Proof.
  intros Hp Nc. destruct (piece_members s p) as [((ds & so) & eo)|x|] eqn:E.
  - left. exists ds, so, eo. exact (piece_inv s p ds so eo Hp Nc E).
  - right. unfold piece_members in E. destruct (paired_cases p Hp) as [N|(a & r & Na & Hr & ->)]; [rewrite split_whole in E by exact N; discriminate|].
    rewrite split_dots in E by exact Na.
    assert (Ca : ~ In ","%char a) by (intro Hi; apply Nc; apply in_or_app; left; exact Hi).
    assert (Cr : ~ In ","%char r) by (intro Hi; apply Nc; apply in_or_app; right; right; right; exact Hi).
    destruct (paired_cases r Hr) as [N|(a' & r' & Na' & _ & ->)].
    + rewrite split_whole in E by exact N. destruct (_ && _); [discriminate|]. destruct (is_empty a); discriminate.
    + exists a, a', r'. split; [split; assumption|]. split; [split; [intro Hi; apply Cr; apply in_or_app; left; exact Hi|exact Na']|reflexivity].
  - exfalso. unfold piece_members in E. destruct (split p ($"..")) as [|? [|? [|? ?]]]; try discriminate. destruct (_ && _); [discriminate|]. destruct (is_empty _); discriminate.
Qed.
Lemma members_twice s l p : In p l -> twice_dotted p -> set_members s l = Err (Invalid SET_REPRESENTATIONS s).
Proof.
  intros Hi Ht. induction l as [|q l IH]; [destruct Hi|]. rewrite members_step. destruct Hi as [->|Hi]; [rewrite (piece_twice s p Ht); reflexivity|].
  assert (C : (exists r, piece_members s q = OK r) \/ piece_members s q = Err (Invalid SET_REPRESENTATIONS s)).
  { unfold piece_members. destruct (split q ($"..")) as [|? [|? [|? ?]]]; eauto. destruct (_ && _); [eauto|]. destruct (is_empty _); eauto. }
  destruct C as [(((h & so) & eo) & ->)| ->]; [|reflexivity]. cbn [bind]. rewrite (IH Hi). reflexivity.
Qed.
Lemma members_cases l : Forall paired l -> Forall (fun p => ~ In ","%char p) l -> (exists ds so eo, set_pieces l ds so eo) \/ exists p, In p l /\ twice_dotted p.
Proof.
  intros Hp Hc. induction l as [|x l IH]; [left; do 3 eexists; constructor|].
  apply Forall_cons_iff in Hp. destruct Hp as (Px & Pl). apply Forall_cons_iff in Hc. destruct Hc as (Cx & Cl).
  destruct (piece_cases [] x Px Cx) as [(ds & so & eo & H)|H]; [|right; exists x; split; [left; reflexivity|exact H]].
  destruct (IH Pl Cl) as [(ds' & so' & eo' & H')|(p & I & H')]; [left; do 3 eexists; econstructor; eassumption|right; exists p; split; [right; exact I|exact H']].
Qed.
Lemma set_inner s o body o' l c : set_string s o body -> s = o' :: joined ($",") l ++ [c] -> body = joined ($",") l.
Proof. intros [o0 b c0 _ _ _] E. injection E as _ E. apply app_inj_tail in E. apply E. Qed.
Theorem set_errors s x : is_set s -> (ParseSetRepresentations s = Err x <-> set_refused s x).
Proof.
  intros (o & body & Hset).
  assert (Bd : set_body body) by (destruct Hset; assumption). pose proof (body_paired _ Bd) as Pb.
  destruct (opener_of _ _ _ Hset) as (i & Hi). pose proof (fun l ds so eo => set_core s o body i l ds so eo Hset Hi) as Core.
  apply exactly.
  - intros x' H. inversion H as [o' l p c s' Fc Ip Tp Es E1 E2|o' l ds so eo c a b x2 Nl Hp Ha Hb Hx E1 E2].
    + subst s' x'. pose proof (set_inner _ _ _ _ _ _ Hset Es) as Eb. assert (Nl : l <> []) by (intros ->; destruct Ip).
      assert (Hm : set_members s (split body ($",")) = Err (Invalid SET_REPRESENTATIONS s)).
      { rewrite Eb. change ($",") with [","%char]. rewrite split_of_joined; [exact (members_twice s l p Ip Tp)|exact Nl|exact Fc]. }
      assert (M : match_string SetRepresentations s = true) by (apply IsSet_spec; eauto).
      apply match_iff in M. apply submatch_length in M. change (S (re_ncap SetRepresentations)) with 6%nat in M.
      destruct (set_submatch _ M) as (o2 & body' & Hset' & Q1 & Q2).
      assert (Q : body' = body).
      { clear - Hset Hset'. destruct Hset as [o b c _ _ _]. remember (o :: b ++ [c]) as s0 eqn:E. destruct Hset' as [o1 b1 c1 _ _ _]. injection E as -> E. apply app_inj_tail in E. apply E. }
      rewrite Q in Q2. unfold ParseSetRepresentations. rewrite M, Q1, Q2. cbn [Nat.eqb negb]. destruct (if seqb [o2] ($"[") then _ else _) as [z|z|] eqn:Ez.
      * cbn [bind]. rewrite Hm. reflexivity.
      * destruct (seqb [o2] ($"[")); [discriminate|]. destruct (seqb [o2] ($"{")); [discriminate|]. injection Ez as <-. reflexivity.
      * destruct (seqb [o2] ($"[")); [discriminate|]. destruct (seqb [o2] ($"{")); discriminate.
    + subst x2. pose proof (set_inner _ _ _ _ _ _ Hset (eq_sym E1)) as Eb. destruct (Core l ds so eo Nl Hp Eb) as (hd & tl & Es & Ep & S1 & S2 & N1 & N2 & B & Nb).
      apply (sort_least _ _ _ Es) in Ha. apply (sort_greatest _ _ _ Es) in Hb. subst a b.
      apply (set_text_errors so eo hd tl x' S1 S2 N1 N2 B Nb) in Hx. rewrite Hx in Ep. rewrite E1. rewrite Ep. reflexivity.
  - pose proof (split_joined body ($",") ltac:(discriminate)) as J. assert (Nl : split body ($",") <> []) by apply split_aux_nonempty.
    assert (Fc : Forall (fun p => ~ In ","%char p) (split body ($","))).
    { eapply Forall_impl; [|apply split_free; discriminate]. intros p Hp Q. apply Hp. change ($",") with [","%char]. apply occurs_1. exact Q. }
    assert (Fp : Forall paired (split body ($","))) by (apply paired_joined; rewrite J; exact Pb).
    assert (Es0 : exists c, s = o :: joined ($",") (split body ($",")) ++ [c]) by (rewrite J; destruct Hset as [o b c _ _ _]; eauto). destruct Es0 as (c & Es0).
    destruct (members_cases _ Fp Fc) as [(ds & so & eo & Hp)|(p & Ip & Tp)].
    + destruct (Core _ _ _ _ Nl Hp (eq_sym J)) as (hd & tl & Es & Ep & S1 & S2 & N1 & N2 & B & Nb).
      destruct (DateSpanFromEDTF (set_text so eo hd tl)) as [sp|x'|] eqn:E; [left; rewrite Ep; cbn [bind]; eauto| |exfalso; exact (np_DateSpan _ E)].
      right. exists x'. apply (set_text_errors so eo hd tl x' S1 S2 N1 N2 B Nb) in E. rewrite Es0.
      apply (ox_bounds o _ ds so eo c hd (last tl hd) x' Nl Hp); [apply (sort_least _ _ _ Es); reflexivity|apply (sort_greatest _ _ _ Es); reflexivity|exact E].
    + right. eexists. exact (ox_dots o _ p c s Fc Ip Tp Es0).
Qed.
