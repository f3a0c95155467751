(** C24: a set runs from its earliest to its latest member. *)
From Coq Require Import Ascii String ZArith NArith Bool Lia List.
From Verif Require Import GoStr SpecCal SpecText SpecGrammar SpecSpan SpecMask SpecSet Edtf Common Level2 Parser Level0Facts SetProofs.
Import ListNotations.
Open Scope Z_scope.

(** Non-negative years, any number of members in any order, ranges among them.
    Without an open end the start is the earliest member and the end the latest; an
    open side is open.  Missing: sets with negative years, the end of sets in which
    a member contains another, the end when both sides are open (see the
    refutations). *)
Theorem C24_set_span_partial s l ds so eo e : set_of is_plain s l ds so eo -> ParseString s = OK e ->
  (so = false -> exists t y m d, earliest ds t y m d /\ Lower e = OK (first_instant y m d)) /\
  (eo = false -> no_prefix ds -> exists t y m d, latest ds t y m d /\ Upper e = OK (last_instant y m d)) /\
  (so = true -> eo = false -> open_range (e_start e)) /\
  (so = false -> eo = true -> open_range (e_end e)) /\
  (so = false -> eo = false -> no_prefix ds -> exists t y m d t' y' m' d', earliest ds t y m d /\ latest ds t' y' m' d' /\
     (whole (e_start e) t y m d /\ whole (e_end e) t' y' m' d' \/
      (forall u, In u ds -> u = t) /\ runs e y (first_month m) (first_day d) y (last_month m) (last_day y (last_month m) d))).
Proof. exact (set_members_span s l ds so eo e). Qed.
Print Assumptions C24_set_span_partial.
(** Every member lies between Lower() and Upper(). *)
Theorem C24_members_covered_partial s l ds e : set_of is_plain s l ds false false -> ParseString s = OK e -> no_prefix ds ->
  forall t y m d, In t ds -> plain_date t y m d -> exists_date y m d -> covers e y m d.
Proof. exact (set_covers s l ds e). Qed.
Print Assumptions C24_members_covered_partial.
(** Sets of existing dates with non-negative years do parse. *)
Theorem C24_sets_parse s l ds so eo : set_of is_plain s l ds so eo -> well_placed l ->
  (forall t y m d, In t ds -> plain_date t y m d -> exists_date y m d) -> exists e, ParseString s = OK e.
Proof. exact (set_parses s l ds so eo). Qed.
Print Assumptions C24_sets_parse.

Example three : set_of is_plain ($"{1667-12,1668,1660-02..1661-01-31}") [$"1667-12"; $"1668"; $"1660-02..1661-01-31"]
  [$"1667-12"; $"1668"; $"1660-02"; $"1661-01-31"] false false.
Proof.
  assert (A : is_plain ($"1667-12")) by (exists 1667, (Some 12), None; exact (plain_intro 1667 ($"-12") _ _ ltac:(lia) (mmdd_m 12 ltac:(lia)))).
  assert (B : is_plain ($"1668")) by (exists 1668, None, None; exact (plain_intro 1668 [] _ _ ltac:(lia) mmdd_none)).
  assert (C : is_plain ($"1660-02")) by (exists 1660, (Some 2), None; exact (plain_intro 1660 ($"-02") _ _ ltac:(lia) (mmdd_m 2 ltac:(lia)))).
  assert (D : is_plain ($"1661-01-31")) by (exists 1661, (Some 1), (Some 31); exact (plain_intro 1661 ($"-01-31") _ _ ltac:(lia) (mmdd_md 1 31 ltac:(lia) ltac:(lia)))).
  apply (set_of_intro is_plain "{"%char [$"1667-12"; $"1668"; $"1660-02..1661-01-31"] _ _ _ "}"%char); [auto|auto|discriminate|].
  apply (els_cons _ _ _ _ _ _ _ _ _ (el_date _ _ A)). apply (els_cons _ _ _ _ _ _ _ _ _ (el_date _ _ B)).
  exact (els_cons _ _ _ _ _ _ _ _ _ (el_range _ _ _ C D) (els_nil _)).
Qed.
Example three_parses : match ParseString ($"{1667-12,1668,1660-02..1661-01-31}") with
  | OK e => Lower e = OK (first_instant 1660 (Some 2) None) /\ Upper e = OK (last_instant 1668 None None) | _ => False end.
Proof. vm_compute. repeat split. Qed.
Example three_no_prefix : no_prefix [$"1667-12"; $"1668"; $"1660-02"; $"1661-01-31"].
Proof.
  intros t u Ht Hu. cbn [In] in Ht, Hu.
  destruct Ht as [<-|[<-|[<-|[<-|[]]]]]; destruct Hu as [Hu|[Hu|[Hu|[Hu|[]]]]];
    first [discriminate Hu | (injection Hu as Hu; symmetry; exact Hu) | reflexivity].
Qed.
Example open_left : set_of is_plain ($"[..1760,1762]") [$"..1760"; $"1762"] [$"1760"; $"1762"] true false.
Proof.
  assert (A : is_plain ($"1760")) by (exists 1760, None, None; exact (plain_intro 1760 [] _ _ ltac:(lia) mmdd_none)).
  assert (B : is_plain ($"1762")) by (exists 1762, None, None; exact (plain_intro 1762 [] _ _ ltac:(lia) mmdd_none)).
  apply (set_of_intro is_plain "["%char [$"..1760"; $"1762"] _ _ _ "]"%char); [auto|auto|discriminate|].
  pose proof (els_cons _ _ _ _ _ _ _ _ _ (el_upto _ _ A) (els_cons _ _ _ _ _ _ _ _ _ (el_date _ _ B) (els_nil _))) as Q. exact Q.
Qed.
Example open_left_parses : match ParseString ($"[..1760,1762]") with
  | OK e => d_open (r_lower (e_start e)) = true /\ Upper e = OK (last_instant 1762 None None) | _ => False end.
Proof. vm_compute. repeat split. Qed.
Example open_left_placed : well_placed [$"..1760"; $"1762"].
Proof.
  split; intros x [<-|[]]; [intros b E; discriminate|]. intros a E. apply (f_equal (@rev ascii)) in E. rewrite rev_app_distr in E. discriminate.
Qed.

(** Negative years: the members are sorted as text, so a member lies outside. *)
Theorem C24_negative_years_refuted : exists s l ds e t y m d, set_of is_level0_date s l ds false false /\ ParseString s = OK e /\
  In t ds /\ level0_date t y m d /\ exists_date y m d /\ ~ covers e y m d.
Proof.
  pose proof (year_level0 (-5) ltac:(lia)) as A. pose proof (year_level0 (-3) ltac:(lia)) as B.
  exists ($"[-0005,-0003]"), [$"-0005"; $"-0003"], [$"-0005"; $"-0003"].
  eexists. exists ($"-0005"), (-5), None, None. split; [|split; [vm_compute; reflexivity|]].
  - apply (set_of_intro is_level0_date "["%char [$"-0005"; $"-0003"] _ _ _ "]"%char); [auto|auto|discriminate|].
    apply (els_cons _ _ _ _ _ _ _ _ _ (el_date is_level0_date ($"-0005") (ex_intro _ _ (ex_intro _ _ (ex_intro _ _ A))))).
    exact (els_cons _ _ _ _ _ _ _ _ _ (el_date is_level0_date ($"-0003") (ex_intro _ _ (ex_intro _ _ (ex_intro _ _ B)))) (els_nil _)).
  - split; [left; reflexivity|]. split; [exact A|]. split; [vm_compute; intuition discriminate|].
    intros (lo & hi & H1 & H2 & H3 & _). vm_compute in H1. injection H1 as <-. apply H3. reflexivity.
Qed.
Print Assumptions C24_negative_years_refuted.
(** A year and a month of it: the end of the set is the month's, so the year is not covered. *)
Theorem C24_mixed_precision_refuted : exists s l ds e t y m d, set_of is_plain s l ds false false /\ ParseString s = OK e /\
  In t ds /\ plain_date t y m d /\ exists_date y m d /\ ~ covers e y m d.
Proof.
  pose proof (plain_intro 1667 [] _ _ ltac:(lia) mmdd_none) as A. pose proof (plain_intro 1667 ($"-05") _ _ ltac:(lia) (mmdd_m 5 ltac:(lia))) as B.
  exists ($"{1667-05,1667}"), [$"1667-05"; $"1667"], [$"1667-05"; $"1667"].
  eexists. exists ($"1667"), 1667, None, None. split; [|split; [vm_compute; reflexivity|]].
  - apply (set_of_intro is_plain "{"%char [$"1667-05"; $"1667"] _ _ _ "}"%char); [auto|auto|discriminate|].
    apply (els_cons _ _ _ _ _ _ _ _ _ (el_date is_plain ($"1667-05") (ex_intro _ _ (ex_intro _ _ (ex_intro _ _ B))))).
    exact (els_cons _ _ _ _ _ _ _ _ _ (el_date is_plain ($"1667") (ex_intro _ _ (ex_intro _ _ (ex_intro _ _ A)))) (els_nil _)).
  - split; [right; left; reflexivity|]. split; [exact A|]. split; [vm_compute; intuition discriminate|].
    intros (lo & hi & _ & H2 & _ & H4). vm_compute in H2. injection H2 as <-. apply H4. reflexivity.
Qed.
Print Assumptions C24_mixed_precision_refuted.
(** With an open start and two members, the end range begins with the earliest member. *)
Theorem C24_open_end_range_refuted : exists s l ds e, set_of is_plain s l ds true false /\ ParseString s = OK e /\ no_prefix ds /\
  ~ exists t y m d, latest ds t y m d /\ whole (e_end e) t y m d.
Proof.
  exists ($"[..1760,1762]"), [$"..1760"; $"1762"], [$"1760"; $"1762"]. eexists. split; [exact open_left|]. split; [vm_compute; reflexivity|].
  split.
  - intros t u Ht Hu. cbn [In] in Ht, Hu. destruct Ht as [<-|[<-|[]]]; destruct Hu as [Hu|[Hu|[]]]; first [discriminate Hu | (injection Hu as Hu; symmetry; exact Hu) | reflexivity].
  - intros (t & y & m & d & (Ht & Hp & Hx & Hl) & (Hw & (_ & _ & Hy & _) & _)).
    pose proof (plain_intro 1762 [] _ _ ltac:(lia) mmdd_none) as A. vm_compute in Hw. subst t.
    vm_compute in Hy. injection Hy as Hy Hm Hd.
    assert (G : forall t y m d, plain_date t y m d -> firstn 4 t = four y /\ 0 <= y <= 9999) by (intros t0 y0 m0 d0 [n r m1 d1 Hn _]; auto).
    destruct (G _ _ _ _ Hp) as (Ez & Hn). change (four 1762 = four y) in Ez. apply four_inj in Ez; lia.
Qed.
Print Assumptions C24_open_end_range_refuted.
(** Dots at both ends: the end is not open. *)
Theorem C24_both_open_refuted : exists s l ds e, set_of is_plain s l ds true true /\ well_placed l /\ ParseString s = OK e /\ ~ open_range (e_end e).
Proof.
  assert (A : is_plain ($"1667")) by (exists 1667, None, None; exact (plain_intro 1667 [] _ _ ltac:(lia) mmdd_none)).
  assert (B : is_plain ($"1668")) by (exists 1668, None, None; exact (plain_intro 1668 [] _ _ ltac:(lia) mmdd_none)).
  exists ($"[..1667,1668..]"), [$"..1667"; $"1668.."], [$"1667"; $"1668"]. eexists. split; [|split; [|split; [vm_compute; reflexivity|]]].
  - apply (set_of_intro is_plain "["%char [$"..1667"; $"1668.."] _ _ _ "]"%char); [auto|auto|discriminate|].
    pose proof (els_cons _ _ _ _ _ _ _ _ _ (el_upto _ _ A) (els_cons _ _ _ _ _ _ _ _ _ (el_from _ _ B) (els_nil _))) as Q. exact Q.
  - split; intros x [<-|[]]; [intros b E; discriminate|]. intros a E. apply (f_equal (@rev ascii)) in E. rewrite rev_app_distr in E. discriminate.
  - intro H. destruct (H _ (or_intror eq_refl)) as (Q & _). vm_compute in Q. discriminate.
Qed.
Print Assumptions C24_both_open_refuted.
