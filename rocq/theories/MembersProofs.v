(** Lemmas for C82. *)
From Coq Require Import Ascii String ZArith NArith Bool Lia ZifyBool Permutation Sorting.Sorted List.
From Verif Require Import GoStr GoTime Regex Patterns SpecCal SpecText SpecGrammar SpecForms SpecSpan SpecSet SpecReads SpecSame SpecMembers StrFacts SplitFacts Edtf Common Level2 Parser ApiFacts InvFacts SetFacts SetGrammar SetProofs FormFacts FormProofs ReadsFacts ReadsSet RefSet ReadsProofs SameProofs MarksProofs.
Import ListNotations.
Open Scope Z_scope.

Lemma pieces_perm l l' : Permutation l l' -> forall ds so eo, set_pieces l ds so eo -> exists ds', set_pieces l' ds' so eo /\ Permutation ds ds'.
Proof.
  assert (inv : forall x l ds so eo, set_pieces (x :: l) ds so eo -> exists d1 d2 s1 s2 e1 e2, set_piece x d1 s1 e1 /\ set_pieces l d2 s2 e2 /\ ds = d1 ++ d2 /\ so = s1 || s2 /\ eo = e1 || e2).
  { intros x l0 ds so eo H. remember (x :: l0) as w eqn:E. destruct H as [|x0 l1 d1 d2 s1 s2 e1 e2 A B]; [discriminate E|]. injection E as -> ->. exists d1, d2, s1, s2, e1, e2. auto. }
  induction 1 as [|x l l' P IH|x y l|l l1 l2 P1 IH1 P2 IH2]; intros ds so eo H.
  - exists ds. auto.
  - apply inv in H. destruct H as (d1 & d2 & s1 & s2 & e1 & e2 & A & B & -> & -> & ->). destruct (IH _ _ _ B) as (d2' & B' & Q). exists (d1 ++ d2'). split; [constructor; assumption|apply Permutation_app_head; exact Q].
  - apply inv in H. destruct H as (d1 & d2 & s1 & s2 & e1 & e2 & A & B & -> & -> & ->). apply inv in B. destruct B as (d3 & d4 & s3 & s4 & e3 & e4 & B & C & -> & -> & ->).
    exists (d3 ++ d1 ++ d4). split.
    + replace (s1 || (s3 || s4)) with (s3 || (s1 || s4)) by (destruct s1, s3, s4; reflexivity). replace (e1 || (e3 || e4)) with (e3 || (e1 || e4)) by (destruct e1, e3, e4; reflexivity).
      constructor; [exact B|]. constructor; assumption.
    + apply Permutation_app_swap_app.
  - destruct (IH1 _ _ _ H) as (d1 & H1 & Q1). destruct (IH2 _ _ _ H1) as (d2 & H2 & Q2). exists d2. split; [exact H2|exact (perm_trans Q1 Q2)].
Qed.
Lemma sorted_unique l : forall l', StronglySorted sle l -> StronglySorted sle l' -> Permutation l l' -> l = l'.
Proof.
  induction l as [|x l IH]; intros l' S S' P; [apply Permutation_nil in P; auto|]. destruct l' as [|y l']; [apply Permutation_sym, Permutation_nil in P; discriminate P|].
  inversion S as [|? ? Sl Fl]; subst. inversion S' as [|? ? Sl' Fl']; subst. rewrite Forall_forall in Fl, Fl'.
  assert (x = y) as ->.
  { apply sle_antisym.
    - assert (I : In y (x :: l)) by (apply (Permutation_in _ (Permutation_sym P)); left; reflexivity). destruct I as [->|I]; [apply sle_refl|auto].
    - assert (I : In x (y :: l')) by (apply (Permutation_in _ P); left; reflexivity). destruct I as [->|I]; [apply sle_refl|auto]. }
  f_equal. apply IH; [exact Sl|exact Sl'|exact (Permutation_cons_inv P)].
Qed.
Lemma sort_same l l' : Permutation l l' -> sort_strs l = sort_strs l'.
Proof.
  intro P. apply sorted_unique; try apply sort_sorted. apply (perm_trans (sort_perm l)). apply (perm_trans P). apply Permutation_sym, sort_perm.
Qed.
Lemma set_opening s o l c : s = set_written o l c -> is_set s -> exists i, set_string s o (joined ($",") l) /\ opener o i /\ ParseString s = ParseSetRepresentations s.
Proof.
  intros E (o' & body & H). pose proof (set_inner _ _ _ _ _ _ H E) as ->. assert (O : o' = o) by (clear - E H; destruct H as [o0 b c0 _ _ _]; injection E as -> _; reflexivity). subst o'.
  destruct (opener_of _ _ _ H) as (i & Hi). exists i. split; [exact H|]. split; [exact Hi|].
  assert (M : match_string SetRepresentations s = true) by (apply set_test; exists o, (joined ($",") l); exact H).
  rewrite E in *. apply to_set; [|exact M]. destruct Hi as [(-> & _)|(-> & _)]; [left|right]; reflexivity.
Qed.
Lemma accepted_pieces s o l c e : s = set_written o l c -> is_set s -> comma_free l -> ParseString s = OK e -> exists ds so eo, l <> [] /\ set_pieces l ds so eo.
Proof.
  intros E S C P. destruct (set_opening _ _ _ _ E S) as (i & H & Hi & Q). rewrite Q in P.
  destruct (set_members_ok _ _ P) as (o' & body' & i' & ps & so & eo & hd & tl & sp & H' & _ & Hm & _).
  assert (body' = joined ($",") l) as ->.
  { exact (set_inner _ _ _ _ _ _ H' E). }
  assert (Bd : set_body (joined ($",") l)) by (inversion H; assumption).
  assert (N : l <> []). { intros ->. destruct (body_digit _ Bd) as (d & _ & []). }
  change ($",") with [","%char] in Hm. rewrite (split_of_joined ","%char l N C) in Hm. exists ps, so, eo. split; [exact N|]. apply (pieces_inv s); [apply paired_joined, body_paired; exact Bd|exact C|exact Hm].
Qed.
Theorem set_order o l c l' c' e : is_set (set_written o l c) -> is_set (set_written o l' c') -> comma_free l -> Permutation l l' ->
  ParseString (set_written o l c) = OK e -> exists e', ParseString (set_written o l' c') = OK e' /\ retold e (set_written o l' c') e'.
Proof.
  intros S S' C P E. destruct (accepted_pieces _ o l c e eq_refl S C E) as (ds & so & eo & N & H).
  destruct (pieces_perm _ _ P _ _ _ H) as (ds' & H' & Q). assert (N' : l' <> []) by (intros ->; apply N; apply Permutation_nil; apply Permutation_sym; exact P).
  destruct (set_opening _ _ _ _ eq_refl S) as (i & A & Hi & R). destruct (set_opening _ _ _ _ eq_refl S') as (i' & A' & Hi' & R').
  assert (i' = i) as -> by (destruct Hi as [(-> & ->)|(-> & ->)], Hi' as [(X & ->)|(X & ->)]; try discriminate X; reflexivity).
  destruct (set_core _ _ _ _ _ _ _ _ A Hi N H eq_refl) as (hd & tl & Es & Ep & _). destruct (set_core _ _ _ _ _ _ _ _ A' Hi' N' H' eq_refl) as (hd' & tl' & Es' & Ep' & _).
  rewrite (sort_same _ _ Q), Es' in Es. injection Es as -> ->. rewrite R, Ep in E. rewrite R', Ep'. destruct (DateSpanFromEDTF (set_text so eo hd tl)) as [sp| |]; cbn [bind] in *; [|discriminate..].
  injection E as <-. eexists. split; [reflexivity|]. repeat split.
Qed.
Lemma pieces_fun l ds so eo ds' so' eo' : set_pieces l ds so eo -> set_pieces l ds' so' eo' -> ds = ds' /\ so = so' /\ eo = eo'.
Proof. intros H H'. apply (pieces_ok []) in H. apply (pieces_ok []) in H'. rewrite H in H'. injection H' as -> -> ->. auto. Qed.
Lemma joined_same l l' : l <> [] -> l' <> [] -> comma_free l -> comma_free l' -> joined ($",") l = joined ($",") l' -> l = l'.
Proof. intros N N' C C' E. change ($",") with [","%char] in E. rewrite <- (split_of_joined ","%char l N C), <- (split_of_joined ","%char l' N' C'), E. reflexivity. Qed.
Lemma least_same ds ds' t : (forall u, In u ds <-> In u ds') -> least ds t -> least ds' t.
Proof. intros H (I & M). split; [apply H; exact I|]. intros u U. apply M, H. exact U. Qed.
Lemma greatest_same ds ds' t : (forall u, In u ds <-> In u ds') -> greatest ds t -> greatest ds' t.
Proof. intros H (I & M). split; [apply H; exact I|]. intros u U. apply M, H. exact U. Qed.
Lemma set_reads_inv o l c ds so eo lo hi : l <> [] -> set_pieces l ds so eo -> set_reads (set_written o l c) lo hi ->
  exists a b l0 x x' h0, least ds a /\ greatest ds b /\ half_reads a l0 x /\ half_reads b x' h0 /\ lo = (if so then Dots else l0) /\ hi = (if eo && negb so then Dots else h0).
Proof.
  intros N H R. remember (set_written o l c) as s eqn:E. destruct R as [o1 l1 ds1 so1 eo1 c1 a b l0 x x' h0 N1 H1 A B Ra Rb].
  assert (l1 = l) as ->.
  { injection E as _ E. apply app_inj_tail in E. destruct E as (E & _). apply joined_same; [exact N1|exact N|exact (pieces_comma _ _ _ _ H1)|exact (pieces_comma _ _ _ _ H)|exact E]. }
  destruct (pieces_fun _ _ _ _ _ _ _ H H1) as (-> & -> & ->). exists a, b, l0, x, x', h0. auto 10.
Qed.
Theorem set_same o l c o' l' c' e : is_set (set_written o l c) -> is_set (set_written o' l' c') -> same_members l l' ->
  ParseString (set_written o l c) = OK e -> exists e', ParseString (set_written o' l' c') = OK e' /\ same_outer e e'.
Proof.
  intros S S' (ds & ds' & so & eo & H & H' & Q) E.
  destruct (set_opening _ _ _ _ eq_refl S) as (i & A & _ & R). destruct (set_opening _ _ _ _ eq_refl S') as (i' & A' & _ & R').
  assert (NE : forall o l c, is_set (set_written o l c) -> l <> []).
  { intros o0 l0 c0 X X0. subst l0. destruct (set_opening _ _ _ _ eq_refl X) as (j & Y & _). assert (Bd : set_body (joined ($",") [])) by (inversion Y; assumption). destruct (body_digit _ Bd) as (d & _ & []). }
  pose proof (NE _ _ _ S) as N. pose proof (NE _ _ _ S') as N'.
  destruct (spot_ex _ _ E) as (lo & hi & Sp). pose proof Sp as (e0 & E0 & L & U). rewrite E in E0. injection E0 as <-.
  assert (RS : set_reads (set_written o l c) lo hi).
  { apply (set_bridge _ lo hi S). exists e. rewrite <- R. split; [exact E|]. rewrite R in E. destruct (set_members_ok _ _ E) as (? & ? & ? & ? & ? & ? & ? & ? & ? & _ & _ & _ & _ & _ & _ & _ & _ & _ & ->).
    split; [reflexivity|]. split; [reflexivity|]. auto. }
  destruct (set_reads_inv _ _ _ _ _ _ _ _ N H RS) as (a & b & l0 & x & x' & h0 & Ha & Hb & Ra & Rb & -> & ->).
  assert (RS' : set_reads (set_written o' l' c') (if so then Dots else l0) (if eo && negb so then Dots else h0)).
  { apply (se_intro o' l' ds' so eo c' a b l0 x x' h0 N' H'); [exact (least_same _ _ _ Q Ha)|exact (greatest_same _ _ _ Q Hb)|exact Ra|exact Rb]. }
  apply (set_bridge _ _ _ S') in RS'. destruct RS' as (e' & E' & (_ & _ & L' & U')). rewrite <- R' in E'.
  apply (spot_same _ _ _ _ Sp (ex_intro _ e' (conj E' (conj L' U'))) e E).
Qed.
Lemma element_ends x ds so eo : element is_plain x ds so eo -> so = false -> eo = false -> (forall b, x <> $".." ++ b) /\ forall a, x <> a ++ $"..".
Proof.
  intros H E1 E2. destruct H as [t Ht|a b Ha Hb|b Hb|a Ha]; [split; [apply plain_not_dots; exact Ht|apply plain_not_dots'; exact Ht]| |discriminate E1|discriminate E2].
  split; [apply head_not_dots; exact Ha|]. intros a' E.
  destruct (exists_last (plain_ne _ Hb)) as (b' & z & ->). change ($"..") with ($"." ++ $".") in E at 2. rewrite !app_assoc in E. apply app_inj_tail in E. destruct E as (_ & ->).
  apply (plain_no _ "."%char Hb); [reflexivity|discriminate|apply in_or_app; right; left; reflexivity].
Qed.
Lemma elements_each l ds so eo : elements is_plain l ds so eo -> so = false -> eo = false -> forall x, In x l -> exists d, element is_plain x d false false.
Proof.
  intros H E1 E2. induction H as [|x l ds ds' so so' eo eo' A B IH]; [intros ? []|]. apply orb_false_iff in E1. apply orb_false_iff in E2. destruct E1 as (-> & ->), E2 as (-> & ->). intros z [<-|I]; [eauto|apply IH; auto].
Qed.
Lemma elements_perm l l' : Permutation l l' -> forall ds, elements is_plain l ds false false -> exists ds', elements is_plain l' ds' false false.
Proof.
  intros P ds H. pose proof (elements_each _ _ _ _ H eq_refl eq_refl) as F. assert (F' : forall x, In x l' -> exists d, element is_plain x d false false) by (intros x I; apply F; apply (Permutation_in _ (Permutation_sym P)); exact I).
  clear - F'. induction l' as [|x l IH]; [exists []; constructor|]. destruct (F' x (or_introl eq_refl)) as (d & D). destruct IH as (ds & Q); [intros z I; apply F'; right; exact I|].
  exists (d ++ ds). exact (els_cons is_plain x l d ds false false false false D Q).
Qed.
Lemma removelast_in {A} (x : A) l : In x (removelast l) -> In x l.
Proof. induction l as [|y l IH]; [intros []|]. destruct l as [|z l]; [intros []|]. intros [->|I]; [left; reflexivity|right; apply IH; exact I]. Qed.
Lemma elements_set o l ds c : opening o -> closing c -> l <> [] -> elements is_plain l ds false false -> is_set (set_written o l c).
Proof.
  intros O C N H. pose proof (elements_each _ _ _ _ H eq_refl eq_refl) as F. exists o, (joined ($",") l). constructor; [exact O| |exact C]. apply (set_of_body _ _ _ _ H N). split.
  - intros x I. destruct l as [|z l]; [destruct I|]. destruct (F x) as (d & D); [right; exact I|]. apply (element_ends _ _ _ _ D eq_refl eq_refl).
  - intros x I. destruct (F x) as (d & D); [exact (removelast_in _ _ I)|]. apply (element_ends _ _ _ _ D eq_refl eq_refl).
Qed.
Theorem set_dates o l c l' c' ds e : opening o -> closing c -> closing c' -> elements is_plain l ds false false -> Permutation l l' ->
  ParseString (set_written o l c) = OK e -> exists e', ParseString (set_written o l' c') = OK e' /\ retold e (set_written o l' c') e'.
Proof.
  intros O C C' H P E. destruct (elements_perm _ _ P _ H) as (ds' & H').
  assert (N : l <> []). { intros ->. destruct O as [->| ->], C as [->| ->]; vm_compute in E; discriminate E. }
  assert (N' : l' <> []) by (intros ->; apply N; apply Permutation_nil; apply Permutation_sym; exact P).
  apply (set_order o l c l' c' e); [exact (elements_set _ _ _ _ O C N H)|exact (elements_set _ _ _ _ O C' N' H')|exact (elements_no_comma _ _ _ _ H)|exact P|exact E].
Qed.
