(** C82: a set means its members; neither their order nor how often or in which way
    they are written matters to the outer bounds. *)
From Coq Require Import Ascii String ZArith NArith Bool Lia List Permutation.
From Verif Require Import GoStr SpecCal SpecText SpecGrammar SpecForms SpecSet SpecReads SpecSame SpecMembers CalFacts Edtf Parser MembersProofs.
Import ListNotations.
Open Scope Z_scope.

(** ** C82 *)
Theorem C82_order : forall o l c l' c' e, is_set (set_written o l c) -> is_set (set_written o l' c') -> comma_free l -> Permutation l l' ->
  ParseString (set_written o l c) = OK e -> exists e', ParseString (set_written o l' c') = OK e' /\ retold e (set_written o l' c') e'.
Proof. exact set_order. Qed.
Print Assumptions C82_order.
(** Without dots at the ends the second string need not be assumed to be a set. *)
Theorem C82_dates : forall o l c l' c' ds e, opening o -> closing c -> closing c' -> elements is_plain l ds false false -> Permutation l l' ->
  ParseString (set_written o l c) = OK e -> exists e', ParseString (set_written o l' c') = OK e' /\ retold e (set_written o l' c') e'.
Proof. exact set_dates. Qed.
Print Assumptions C82_dates.
Theorem C82_members : forall o l c o' l' c' e, is_set (set_written o l c) -> is_set (set_written o' l' c') -> same_members l l' ->
  ParseString (set_written o l c) = OK e -> exists e', ParseString (set_written o' l' c') = OK e' /\ same_outer e e'.
Proof. exact set_same. Qed.
Print Assumptions C82_members.
(** Dots at an end bind a member to its place: the order then matters. *)
Theorem C82_order_refuted : exists o l c l' e, comma_free l /\ Permutation l l' /\ ParseString (set_written o l c) = OK e /\
  forall e', ParseString (set_written o l' c) <> OK e'.
Proof.
  exists "["%char, [$"1985"; $"1990.."], "]"%char, [$"1990.."; $"1985"]. eexists.
  split; [repeat constructor; cbn; intuition discriminate|]. split; [apply perm_swap|]. split; [vm_compute; reflexivity|].
  intros e' H. vm_compute in H. discriminate H.
Qed.
Print Assumptions C82_order_refuted.
(** With the other kind of bracket the result is not the same but for the text. *)
Theorem C82_bracket_refuted : exists o o' l c e e', ParseString (set_written o l c) = OK e /\ ParseString (set_written o' l c) = OK e' /\
  ~ retold e (set_written o' l c) e'.
Proof.
  exists "["%char, "{"%char, [$"1985"; $"1990"], "]"%char. do 2 eexists. split; [vm_compute; reflexivity|]. split; [vm_compute; reflexivity|].
  intros (H & _). vm_compute in H. discriminate H.
Qed.
Print Assumptions C82_bracket_refuted.
Example C82_elements : elements is_plain [$"1990"; $"1985..1987"] [$"1990"; $"1985"; $"1987"] false false /\
  elements is_plain [$"1987"; $"1985..1990"; $"1987"] [$"1987"; $"1985"; $"1990"; $"1987"] false false.
Proof.
  assert (A : is_plain ($"1990")) by (exists 1990, None, None; exact (plain_intro 1990 [] _ _ ltac:(lia) mmdd_none)).
  assert (B : is_plain ($"1985")) by (exists 1985, None, None; exact (plain_intro 1985 [] _ _ ltac:(lia) mmdd_none)).
  assert (C : is_plain ($"1987")) by (exists 1987, None, None; exact (plain_intro 1987 [] _ _ ltac:(lia) mmdd_none)).
  split; [exact (els_cons _ _ _ _ _ _ _ _ _ (el_date _ _ A) (els_cons _ _ _ _ _ _ _ _ _ (el_range _ _ _ B C) (els_nil _)))|].
  exact (els_cons _ _ _ _ _ _ _ _ _ (el_date _ _ C) (els_cons _ _ _ _ _ _ _ _ _ (el_range _ _ _ B A) (els_cons _ _ _ _ _ _ _ _ _ (el_date _ _ C) (els_nil _)))).
Qed.
Example C82_case : is_set ($"{1990,1985..1987}") /\ is_set ($"{1985..1987,1990]") /\ is_set ($"[1987,1985..1990,1987]") /\
  set_written "{" [$"1990"; $"1985..1987"] "}" = $"{1990,1985..1987}" /\
  exists e e' e2, ParseString ($"{1990,1985..1987}") = OK e /\ ParseString ($"{1985..1987,1990]") = OK e' /\ ParseString ($"[1987,1985..1990,1987]") = OK e2 /\
    e_start e = e_start e' /\ d_datetime (r_lower (e_start e)) = $"1985-01-01T00:00:00Z" /\ d_datetime (r_upper (e_end e)) = $"1990-12-31T23:59:59Z" /\
    d_datetime (r_lower (e_start e2)) = $"1985-01-01T00:00:00Z" /\ d_datetime (r_upper (e_end e2)) = $"1990-12-31T23:59:59Z".
Proof.
  destruct C82_elements as (A & B).
  split; [exact (elements_set "{" _ _ "}" (or_intror eq_refl) (or_intror eq_refl) (fun E => nil_cons (eq_sym E)) A)|].
  split; [destruct (elements_perm _ _ (perm_swap ($"1985..1987") ($"1990") []) _ A) as (ds & A');
          exact (elements_set "{" _ _ "]" (or_intror eq_refl) (or_introl eq_refl) (fun E => nil_cons (eq_sym E)) A')|].
  split; [exact (elements_set "[" _ _ "]" (or_introl eq_refl) (or_introl eq_refl) (fun E => nil_cons (eq_sym E)) B)|].
  split; [reflexivity|]. do 3 eexists. repeat (split; [vm_compute; reflexivity|]). vm_compute. reflexivity.
Qed.
Example C82_same : same_members [$"1990"; $"1985..1987"] [$"1987"; $"1985..1990"; $"1987"].
Proof.
  assert (D : forall t, t = $"1990" \/ t = $"1985" \/ t = $"1987" -> dotless t) by (intros t [->|[->| ->]]; split; cbn; intuition discriminate).
  assert (A : dotless ($"1990")) by auto. assert (B : dotless ($"1985")) by auto. assert (C : dotless ($"1987")) by auto.
  exists [$"1990"; $"1985"; $"1987"], [$"1987"; $"1985"; $"1990"; $"1987"], false, false.
  split; [exact (pcs_cons _ _ _ _ _ _ _ _ (pc_text _ A) (pcs_cons _ _ _ _ _ _ _ _ (pc_range ($"1985") ($"1987") B C ltac:(discriminate) ltac:(discriminate)) pcs_nil))|].
  split; [exact (pcs_cons _ _ _ _ _ _ _ _ (pc_text _ C) (pcs_cons _ _ _ _ _ _ _ _ (pc_range ($"1985") ($"1990") B A ltac:(discriminate) ltac:(discriminate)) (pcs_cons _ _ _ _ _ _ _ _ (pc_text _ C) pcs_nil)))|].
  intros t. cbn [In]. tauto.
Qed.
