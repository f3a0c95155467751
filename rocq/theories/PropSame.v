(** C70: different ways of writing the same time give the same outer bounds and compare
    alike. *)
From Coq Require Import Ascii String ZArith NArith Bool Lia ZifyBool List.
From Verif Require Import GoStr SpecCal SpecText SpecZone SpecGrammar SpecForms SpecSet SpecSame CalFacts Edtf Parser SameProofs.
Import ListNotations.
Open Scope Z_scope.

(** ** C70 *)
Theorem C70_same : forall s t, same_time s t -> exists e e', ParseString s = OK e /\ ParseString t = OK e' /\ same_outer e e'.
Proof. exact same_bounds. Qed.
Print Assumptions C70_same.
Theorem C70_compare : forall s t, same_time s t -> forall u v,
  alike (IsBefore s u) (IsBefore t u) /\ alike (IsBefore u s) (IsBefore u t) /\ alike (IsAfter s u) (IsAfter t u) /\ alike (IsAfter u s) (IsAfter u t) /\
  alike (IsBetween s u v) (IsBetween t u v) /\ alike (IsBetween u s v) (IsBetween u t v) /\ alike (IsBetween u v s) (IsBetween u v t).
Proof. exact same_cmp. Qed.
Print Assumptions C70_compare.

(** One second written in two zones. *)
Example C70_instant_case : same_time ($"2004-12-31T23:30:00-01:00") ($"2005-01-01T00:30:00Z").
Proof.
  refine (sm_instant 2004 12 31 23 30 0 ($"-01:00") (-3600) 2005 1 1 0 30 0 ($"Z") 0 _ _ _ _ _ _ _ _ _);
    try (unfold clock; lia); try (vm_compute; repeat split; discriminate); try reflexivity.
  - exact (zm_west_min 1 0 ltac:(lia) ltac:(lia)).
  - exact zm_utc.
Qed.
(** Four spellings of the decade of 1985, and two comparisons they share. *)
Example C70_decade_case : same_time ($"1985S1") ($"198X") /\ same_time ($"198X") ($"[1980..1989]") /\
  IsBefore ($"[1980..1989]") ($"1990") = OK true /\ IsBefore ($"1985S1") ($"1990") = OK true /\ IsAfter ($"198X") ($"1979-12") = OK true.
Proof.
  assert (A : same_time ($"198X") ($"1980/1989")) by exact (sm_decade 198 ltac:(lia)).
  split; [|split].
  - apply (sm_trans _ ($"1980/1989")); [|apply sm_sym; exact A]. exact (sm_significant 1985 ($"1") 1 ltac:(lia) (dd_one 1 ltac:(lia)) ltac:(lia)).
  - apply (sm_trans _ ($"1980/1989")); [exact A|]. apply sm_sym.
    refine (sm_range "["%char ($"1980") 1980 None None ($"1989") 1989 None None "]"%char (or_introl eq_refl) (or_introl eq_refl) _ _ _ _ _).
    + exact (plain_intro 1980 [] None None ltac:(lia) mmdd_none).
    + vm_compute; repeat split; discriminate.
    + exact (plain_intro 1989 [] None None ltac:(lia) mmdd_none).
    + vm_compute; repeat split; discriminate.
    + vm_compute. reflexivity.
  - vm_compute. repeat split.
Qed.
(** The winter that ends in a leap year, in words, as a code and in months. *)
Example C70_season_case : same_time ($"Winter, 2003") ($"2003-12/2004-02") /\
  exists e, ParseString ($"Winter, 2003") = OK e /\ d_datetime (r_upper (e_end e)) = $"2004-02-29T23:59:59Z".
Proof.
  split; [|eexists; split; [vm_compute; reflexivity|reflexivity]]. apply (sm_trans _ ($"2003-24")).
  - refine (sm_words 24 ($"winter") ($"Winter") [] ($" ") 12 2 1 2003 so_winter _ _ _ _ _); try lia; [|constructor|constructor; [left; reflexivity|constructor]].
    apply (ac_cons "w"%char ($"inter") ($"W") ($"inter")); [right; left; exists "W"%char; split; reflexivity|].
    repeat (refine (ac_cons _ _ [_] _ (or_introl eq_refl) _)). exact ac_nil.
  - exact (sm_season 24 ($"winter") 12 2 1 2003 so_winter ltac:(lia) ltac:(lia)).
Qed.
(** Open ends. *)
Example C70_open_case : same_time ($"{..1985-04}") ($"../1985-04") /\ same_time ($"[1985..]") ($"1985/..").
Proof.
  split; [|exact (sm_from "["%char 1985 "]"%char (or_introl eq_refl) (or_introl eq_refl) ltac:(lia))].
  refine (sm_upto "{"%char ($"1985-04") 1985 (Some 4) None "}"%char (or_intror eq_refl) (or_intror eq_refl) _ _).
  - exact (plain_intro 1985 ($"-04") (Some 4) None ltac:(lia) (mmdd_m 4 ltac:(lia))).
  - vm_compute; repeat split; discriminate.
Qed.
