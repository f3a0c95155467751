(** Order within the ranges and inclusivity flags of every parsed date. *)
From Coq Require Import Ascii String ZArith NArith Bool Lia ZifyBool List.
From Verif Require Import GoStr GoTime Regex Patterns RegexSym RegexRel SpecCal SpecText SpecGrammar StrFacts SplitFacts TextFacts Edtf Calendar Common Level0 Level1 Level2 Parser CalFacts ApiFacts SpanFacts YmdShapes YmdFacts InvFacts ParseFacts TimeFacts SetFacts SetGrammar InvProofs.
Import ListNotations.
Open Scope Z_scope.

Definition ranges_ordered (d : edtfdate) : Prop :=
  bound_le (r_lower (e_start d)) (r_upper (e_start d)) /\ bound_le (r_lower (e_end d)) (r_upper (e_end d)).

Lemma joined_occurs l : forall p sep x, In p l -> occurs x p -> occurs x (joined sep l).
Proof.
  induction l as [|q l IH]; intros p sep x Hp Hx; [destruct Hp|]. destruct l as [|q' l].
  - destruct Hp as [-> |[]]. cbn [joined]. exact Hx.
  - change (joined sep (q :: q' :: l)) with (q ++ sep ++ joined sep (q' :: l)). destruct Hp as [-> |Hp].
    + destruct Hx as (a & b & ->). exists a, (b ++ sep ++ joined sep (q' :: l)). rewrite <- !app_assoc. reflexivity.
    + destruct (IH p sep x Hp Hx) as (a & b & ->). exists (q ++ sep ++ a), b. rewrite <- !app_assoc. reflexivity.
Qed.
Lemma set_closed s d : ParseSetRepresentations s = OK d -> ~ occurs ($"..") s -> ranges_ordered d.
Proof.
  intros H Hn. destruct (set_members_ok _ _ H) as (o & body & i & ps & so & eo & hd & tl & sp & Hset & Hi & Hm & Hs & S1 & S2 & N1 & N2 & Hsp & ->).
  destruct (set_members_inv _ _ _ _ _ Hm) as (F1 & F2 & _).
  assert (Hb : forall p, In p (split body ($",")) -> ~ occurs ($"..") p).
  { intros p Hp Q. apply Hn. inversion Hset as [o0 b0 c Ho Hbd Hc E1 E2 E3]. subst.
    assert (J : occurs ($"..") body) by (rewrite <- (split_joined body ($",")) by discriminate; eapply joined_occurs; eassumption).
    destruct J as (a & b & ->). exists (o :: a), (b ++ [c]). cbn [app]. rewrite <- !app_assoc. reflexivity. }
  assert (Es : so = false).
  { destruct so; [|reflexivity]. destruct (proj1 F1 eq_refl) as (b & Q). exfalso. apply (Hb _ Q). exists [], b. reflexivity. }
  assert (Ee : eo = false).
  { destruct eo; [|reflexivity]. destruct (F2 eq_refl) as (a & _ & Q). exfalso. apply (Hb _ Q). exists a, []. rewrite app_nil_r. reflexivity. }
  subst. destruct (DateSpan_good _ _ Hsp) as [_ _ _ _ G5 G6]. split; [exact G5|exact G6].
Qed.
Lemma datetime_feature s d : ParseDateAndTime s = OK d -> e_feature d = $"Date and Time".
Proof.
  unfold ParseDateAndTime. intro H. repeat match type of H with
  | context [if ?b then _ else _] => destruct b; try discriminate H
  | bind _ _ = OK _ => apply bind_OK in H; destruct H as (? & ? & H)
  | OK _ = OK _ => injection H as <-; reflexivity
  end.
Qed.
Lemma set_feature s d : ParseSetRepresentations s = OK d -> e_feature d = $"Set representation".
Proof. intro H. destruct (set_inv _ _ H) as (i & ps & so & eo & hd & tl & sp & Q). cbv zeta in Q. destruct Q as (_ & _ & _ & _ & _ & ->). reflexivity. Qed.

(** C27, first clause. *)
Lemma in_range_order s d : ParseString s = OK d ->
  (e_feature d = $"Set representation" -> ~ occurs ($"..") s) -> ranges_ordered d.
Proof.
  intros H Hset. destruct (parsed_span _ _ H) as [H1|[H1|[(-> & ->)|[(-> & ->)|(t & sp & lv & f & H1 & -> & _ & _)]]]].
  - destruct (datetime_inv _ _ H1) as (y & m & dd & hh & mi & ss & _ & _ & _ & E).
    cbv zeta in E. subst d. split; intros t t' Et Et'; injection Et as <-; injection Et' as <-; apply Z.le_refl.
  - apply (set_closed s d H1). apply Hset. exact (set_feature _ _ H1).
  - split; intros t t' E; discriminate E.
  - split; intros t t' E; discriminate E.
  - destruct (DateSpan_good _ _ H1) as [_ _ _ _ G5 G6]. split; assumption.
Qed.
Lemma in_range_order_refuted : exists s d t t', ParseString s = OK d /\
  d_timestamp (r_lower (e_end d)) = Some t /\ d_timestamp (r_upper (e_end d)) = Some t' /\ t' < t.
Proof.
  exists ($"[..-1985,-1984]"). eexists. eexists. eexists. split; [vm_compute; reflexivity|].
  split; [vm_compute; reflexivity|]. split; [vm_compute; reflexivity|]. reflexivity.
Qed.

(** C25. *)
Lemma inclusivity_sets s d : ParseString s = OK d -> e_feature d = $"Set representation" -> ParseSetRepresentations s = OK d.
Proof.
  intros H Hf. destruct (parsed_span _ _ H) as [H1|[H1|[(-> & ->)|[(-> & ->)|(t & sp & lv & f & H1 & -> & _ & N)]]]].
  - rewrite (datetime_feature _ _ H1) in Hf. discriminate.
  - exact H1.
  - discriminate.
  - discriminate.
  - contradiction.
Qed.
Lemma inclusivity_ok s d : ParseString s = OK d -> e_feature d = $"Set representation" -> exists o body i,
  set_string s o body /\ ((o = "["%char /\ i = ANY) \/ (o = "{"%char /\ i = ALL)) /\
  ((forall l, body = joined ($",") l -> l <> [] -> Forall (fun p => ~ In ","%char p) l ->
      (forall b, ~ In ($".." ++ b) l) \/ (forall a, a <> [] -> ~ In (a ++ $"..") l)) ->
   forall b, In b (bounds d) -> d_inclusivity b = if d_open b then 0%N else i).
Proof. intros H Hf. exact (set_inclusivity_ok s d (inclusivity_sets s d H Hf)). Qed.
Lemma no_inclusivity s d : ParseString s = OK d -> e_feature d <> $"Set representation" ->
  forall b, In b (bounds d) -> d_inclusivity b = 0%N.
Proof.
  intros H Hf b Hb. assert (Z0 : forall P b, gbound P 0 b -> d_inclusivity b = 0%N) by (intros P b0 [| |]; reflexivity).
  destruct (parsed_span _ _ H) as [H1|[H1|[(-> & ->)|[(-> & ->)|(t & sp & lv & f & H1 & -> & _ & _)]]]].
  - pose proof (datetime_feature _ _ H1) as F. destruct (parsed_bound _ _ _ H Hb) as [(_ & y & m & dd & hh & mi & ss & _ & _ & _ & ->)|(N & _)]; [reflexivity|contradiction].
  - exfalso. apply Hf. exact (set_feature _ _ H1).
  - unfold bounds in Hb. cbn [In e_start e_end OpenDateRange r_lower r_upper] in Hb. destruct Hb as [<-|[<-|[<-|[<-|[]]]]]; reflexivity.
  - unfold bounds in Hb. cbn [In e_start e_end UnknownDateRange r_lower r_upper] in Hb. destruct Hb as [<-|[<-|[<-|[<-|[]]]]]; reflexivity.
  - destruct (DateSpan_good _ _ H1) as [G1 G2 G3 G4 _ _]. unfold bounds in Hb. cbn [In e_start e_end edtf_of_span] in Hb.
    destruct Hb as [<-|[<-|[<-|[<-|[]]]]]; eapply Z0; eassumption.
Qed.
Lemma inclusivity_refuted : exists s d b, ParseString s = OK d /\ e_feature d = $"Set representation" /\ In b (bounds d) /\
  d_open b = false /\ d_timestamp b <> None /\ d_inclusivity b = 0%N.
Proof.
  exists ($"[..1984,1985..]"). eexists. eexists. split; [vm_compute; reflexivity|]. split; [reflexivity|].
  split; [right; left; reflexivity|]. split; [reflexivity|]. split; [discriminate|reflexivity].
Qed.
