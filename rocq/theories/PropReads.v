(** Which feature a string is taken for, and what every string is read as (C64, C65). *)
From Coq Require Import Ascii String ZArith NArith Bool Lia ZifyBool List.
From Verif Require Import GoStr SpecCal SpecText SpecZone SpecGrammar SpecForms SpecSpan SpecSet SpecReads Edtf Common Parser StrFacts Level0Facts SeasonFacts LangForms ReadsFacts ReadsYears ReadsProofs.
Import ListNotations.
Open Scope Z_scope.
Ltac Zify.zify_post_hook ::= Z.div_mod_to_equations.

(** ** C64: the name under which a string is reported.  Missing: that a string with
    the form of a feature is reported under that feature, which is false when the form
    of an earlier feature also fits. *)
Theorem C64_order_partial : forall s lv f, Matches s = OK (lv, f) <-> takes s lv f.
Proof. exact matches_takes. Qed.
Print Assumptions C64_order_partial.
(** 1985-04-12? is reported as a season, not as a qualified date. *)
Theorem C64_refuted : exists s f, ~ level0_form s /\ qualified_date s /\ Matches s = OK (1, f) /\ f <> $"Qualification of a date (complete)".
Proof.
  exists ($"1985-04-12?"), ($"Seasons"). split; [|split; [|split]].
  - intro H. assert (T : Matches ($"1985-04-12?") = OK (1, $"Seasons")) by (vm_compute; reflexivity).
    apply matches_takes in T. inversion T as [|f N _ _|]; subst. exact (N H).
  - apply QualifiedDate_spec. vm_compute. reflexivity.
  - vm_compute. reflexivity.
  - discriminate.
Qed.
Print Assumptions C64_refuted.
Example C64_case : takes ($"2004-06-~01/2004-06-~20") 2 ($"Interval") /\ takes ($"1985/..") 1 ($"Extended Interval (End)").
Proof. split; apply matches_takes; vm_compute; reflexivity. Qed.

(** ** C65: the outer bounds of every string. *)
Theorem C65_meaning : forall s lv f, takes s lv f ->
  forall lo hi, reads_as f s lo hi <-> exists e, ParseString s = OK e /\ result e lv f lo hi.
Proof. exact meaning. Qed.
Print Assumptions C65_meaning.
Theorem C65_nothing_else : forall s e, ParseString s = OK e ->
  s = $".." /\ result e (-1) ($"Open") Dots Dots \/ s = [] /\ result e (-1) ($"Unknown") Blank Blank \/
  exists lv f lo hi, takes s lv f /\ reads_as f s lo hi /\ result e lv f lo hi.
Proof. exact read_strings. Qed.
Print Assumptions C65_nothing_else.
Theorem C65_unambiguous : forall s lv f lo hi lo' hi', takes s lv f ->
  reads_as f s lo hi -> reads_as f s lo' hi' -> lo = lo' /\ hi = hi'.
Proof. exact read_once. Qed.
Print Assumptions C65_unambiguous.
(** All of April; the day is not read. *)
Example C65_case : takes ($"1985-04-12?") 1 ($"Seasons") /\
  reads_as ($"Seasons") ($"1985-04-12?") (from_day 1985 4 1) (to_day 1985 4 30).
Proof.
  split; [apply matches_takes; vm_compute; reflexivity|].
  apply ra_season. exact (sn_code ($"1985") 1985 4 ($"-12?") 4 4 0 (year4_pos 1985 ltac:(lia)) (sm_month 4 ltac:(lia)) ltac:(unfold rendered; lia) ltac:(unfold rendered; lia)).
Qed.
(** 1985 or later, written with a comma, is read as 1985 or earlier. *)
Example C65_set_case : takes ($"[1985,..]") 2 ($"Set representation") /\
  reads_as ($"Set representation") ($"[1985,..]") Dots (to_day 1985 12 31).
Proof.
  split; [apply matches_takes; vm_compute; reflexivity|].
  apply (meaning _ 2 ($"Set representation")); [apply matches_takes; vm_compute; reflexivity|].
  eexists. split; [vm_compute; reflexivity|]. vm_compute. repeat split.
Qed.
