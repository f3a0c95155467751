(** Set representations. *)
From Coq Require Import Ascii String ZArith NArith Bool Lia ZifyBool List.
From Verif Require Import GoStr GoTime Regex Patterns RegexSym SpecCal SpecText StrFacts TextFacts Edtf Calendar Common Level0 Level1 Level2 Parser CalFacts ApiFacts SpanFacts YmdShapes YmdFacts InvFacts.
Import ListNotations.
Open Scope Z_scope.
Ltac Zify.zify_post_hook ::= Z.div_mod_to_equations.

Definition two_or_more (tl : list str) : bool := match tl with [] => false | _ => true end.
Definition set_text (so eo : bool) (hd : str) (tl : list str) : str :=
  if (so || eo) && two_or_more tl then hd ++ $"/" ++ last tl hd
  else if so then $"../" ++ hd
  else if eo then hd ++ $"/.."
  else if seqb hd (last tl hd) then hd else hd ++ $"/" ++ last tl hd.
Definition incl_range (i : N) (r : daterange) : daterange :=
  mkRange (r_edtf r) (set_inclusivity (r_lower r) i) (set_inclusivity (r_upper r) i).
Definition whole_range (e : str) (sp : datespan) : daterange := mkRange e (r_lower (s_start sp)) (r_upper (s_end sp)).
Definition half_open_range (sp : datespan) : daterange := mkRange [] open_bound (r_upper (s_end sp)).
Definition set_span (i : N) (so eo multi : bool) (sp : datespan) : datespan :=
  match so, eo, multi with
  | false, false, _ => mkSpan (incl_range i (s_start sp)) (incl_range i (s_end sp))
  | true, false, false => mkSpan (s_start sp) (incl_range i (s_end sp))
  | false, true, false => mkSpan (incl_range i (s_start sp)) (s_end sp)
  | true, true, false => sp
  | true, false, true => mkSpan OpenDateRange (incl_range i (whole_range (r_edtf (s_end sp)) sp))
  | false, true, true => mkSpan (incl_range i (whole_range (r_edtf (s_start sp)) sp)) OpenDateRange
  | true, true, true => mkSpan (half_open_range sp) (half_open_range sp)
  end.
Lemma set_inv s d : ParseSetRepresentations s = OK d -> exists i ps so eo hd tl sp,
  let m := find_submatch SetRepresentations s in length m = 6%nat /\
  ((sub m 1 = $"[" /\ i = ANY) \/ (sub m 1 = $"{" /\ i = ALL)) /\
  set_members s (split (sub m 2) ($",")) = OK (ps, so, eo) /\ sort_strs ps = hd :: tl /\
  DateSpanFromEDTF (set_text so eo hd tl) = OK sp /\
  d = edtf_of_span (set_span i so eo (two_or_more tl) sp) s LEVEL2 SET_REPRESENTATIONS.
Proof.
  unfold ParseSetRepresentations. intro H. destruct (Nat.eqb _ 6) eqn:E; [|discriminate H]. cbn [negb] in H. cbv zeta in H.
  apply bind_OK in H. destruct H as (i & Hi & H). apply bind_OK in H. destruct H as (((ps & so) & eo) & Hm & H).
  destruct (sort_strs ps) as [|hd tl] eqn:Es; [discriminate H|].
  apply bind_OK in H. destruct H as (sp & Hsp & H).
  exists i, ps, so, eo, hd, tl, sp. cbv zeta. apply Nat.eqb_eq in E. split; [exact E|].
  split.
  { destruct (seqb (sub _ 1) ($"[")) eqn:E1; [apply seqb_eq in E1; injection Hi as <-; auto|].
    destruct (seqb (sub _ 1) ($"{")) eqn:E2; [apply seqb_eq in E2; injection Hi as <-; auto|discriminate]. }
  split; [exact Hm|]. split; [exact Es|].
  assert (L : last (hd :: tl) hd = last tl hd) by (destruct tl; reflexivity).
  assert (M : Nat.ltb 1 (length (hd :: tl)) = two_or_more tl) by (destruct tl; reflexivity).
  rewrite L, M in *.
  split.
  - rewrite <- Hsp. f_equal. unfold set_text. destruct ((so || eo) && two_or_more tl); [reflexivity|].
    destruct so; [reflexivity|]. destruct eo; [reflexivity|]. destruct (seqb hd (last tl hd)); reflexivity.
  - injection H as <-. unfold set_span, edtf_of_span, incl_range, whole_range, half_open_range.
    destruct so, eo, (two_or_more tl); cbn [andb orb s_start s_end r_lower r_upper r_edtf]; reflexivity.
Qed.

(** The bounds of a set. *)
Lemma gbound_incl P j i b : gbound P j b -> gbound P i (set_inclusivity b i).
Proof. intros [| |y m d hh mi ss u a p H1 H2 H3 H4]; [exact (gb_open P i)|exact (gb_unknown P i)|]. exact (gb_dated P i y m d hh mi ss u a p H1 H2 H3 H4). Qed.
Lemma gbound_open P : gbound P 0 open_bound.
Proof. exact (gb_open P 0). Qed.
Definition some_bound (P : Z -> Z -> Z -> Prop) (b : date) : Prop := exists i, gbound P i b.
Lemma set_good i so eo mu sp : good_span sp -> let sp' := set_span i so eo mu sp in
  some_bound midnight (r_lower (s_start sp')) /\ some_bound any_clock (r_upper (s_start sp')) /\
  some_bound any_clock (r_lower (s_end sp')) /\ some_bound last_second (r_upper (s_end sp')).
Proof.
  intros [H1 H2 H3 H4 _ _]. cbv zeta.
  pose proof (gbound_any _ _ _ H1) as H5. pose proof (gbound_any _ _ _ H4) as H6.
  pose proof (gbound_open midnight) as O1. pose proof (gbound_open any_clock) as O2. pose proof (gbound_open last_second) as O3.
  unfold some_bound. destruct so, eo, mu; cbn [set_span s_start s_end r_lower r_upper incl_range whole_range half_open_range OpenDateRange];
    fold open_bound; repeat split; first [eexists; eassumption | eexists; eapply gbound_incl; eassumption].
Qed.
