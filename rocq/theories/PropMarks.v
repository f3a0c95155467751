(** C80: marks of uncertainty and approximation never move the outer bounds, but for a
    complete date with a mark behind it. C81: each half of an interval means what the
    same text means alone. *)
From Coq Require Import Ascii String ZArith NArith Bool Lia List.
From Verif Require Import GoStr SpecCal SpecText SpecGrammar SpecForms SpecSame SpecMarks CalFacts Edtf Parser MarksProofs HalvesProofs.
Import ListNotations.
Open Scope Z_scope.

(** ** C80 *)
Theorem C80_kept : forall s e, ParseString s = OK e -> (forall u, ~ marked_day s u) ->
  exists e', ParseString (bare s) = OK e' /\ same_outer e e'.
Proof. exact marks_kept. Qed.
Print Assumptions C80_kept.
Theorem C80_compare : forall s e, ParseString s = OK e -> (forall u, ~ marked_day s u) -> forall u v,
  alike (IsBefore s u) (IsBefore (bare s) u) /\ alike (IsBefore u s) (IsBefore u (bare s)) /\
  alike (IsAfter s u) (IsAfter (bare s) u) /\ alike (IsAfter u s) (IsAfter u (bare s)) /\
  alike (IsBetween s u v) (IsBetween (bare s) u v) /\ alike (IsBetween u s v) (IsBetween u (bare s) v) /\
  alike (IsBetween u v s) (IsBetween u v (bare s)).
Proof. exact marks_cmp. Qed.
Print Assumptions C80_compare.
(** A complete date with a mark behind it is read as its month. *)
Theorem C80_day : forall s u e, marked_day s u -> ParseString s = OK e -> exists e', ParseString u = OK e' /\ same_outer e e'.
Proof. exact marks_day. Qed.
Print Assumptions C80_day.
(** So the claim is false of such dates: the bounds move, and a day that does not exist
    is taken. *)
Theorem C80_bounds_refuted : exists s e e', ParseString s = OK e /\ ParseString (bare s) = OK e' /\ ~ same_outer e e'.
Proof.
  exists ($"1985-04-12?"). do 2 eexists. split; [vm_compute; reflexivity|]. split; [vm_compute; reflexivity|].
  intros ((H & _) & _). vm_compute in H. discriminate H.
Qed.
Print Assumptions C80_bounds_refuted.
Theorem C80_taken_refuted : exists s e, ParseString s = OK e /\ forall e', ParseString (bare s) <> OK e'.
Proof. exists ($"1985-02-31~"). eexists. split; [vm_compute; reflexivity|]. intros e' H. vm_compute in H. discriminate H. Qed.
Print Assumptions C80_taken_refuted.

(** Marks in both halves of an interval. *)
Example C80_interval_case : (forall u, ~ marked_day ($"2004-06-~01/?2004-06-20") u) /\ bare ($"2004-06-~01/?2004-06-20") = $"2004-06-01/2004-06-20" /\
  exists e, ParseString ($"2004-06-~01/?2004-06-20") = OK e /\ d_datetime (r_upper (e_end e)) = $"2004-06-20T23:59:59Z" /\
  IsBefore ($"2004-06-~01/?2004-06-20") ($"2004-06-21") = OK true.
Proof.
  split; [|split; [reflexivity|eexists; split; [vm_compute; reflexivity|split; vm_compute; reflexivity]]].
  apply (not_marked_day _ "/"%char); [cbn; auto 20|]. intros [H|[H|[H|[H|H]]]]; discriminate H.
Qed.
(** A year with a mark, which is no complete date, and a marked day. *)
Example C80_year_case : (forall u, ~ marked_day ($"1984%") u) /\ exists e, ParseString ($"1984%") = OK e /\ d_datetime (r_upper (e_end e)) = $"1984-12-31T23:59:59Z".
Proof.
  split; [|eexists; split; [vm_compute; reflexivity|vm_compute; reflexivity]].
  intros u H. remember ($"1984%") as s eqn:E. destruct H as [t y m d q Y _ _ _]. apply (f_equal (@length ascii)) in E. rewrite !app_length in E. cbn in E. lia.
Qed.
Example C80_day_case : marked_day ($"1985-04-12?") ($"1985-04") /\ exists e, ParseString ($"1985-04-12?") = OK e /\
  d_datetime (r_lower (e_start e)) = $"1985-04-01T00:00:00Z" /\ d_datetime (r_upper (e_end e)) = $"1985-04-30T23:59:59Z".
Proof.
  split; [exact (md_intro ($"1985") 1985 4 12 "?"%char (year4_pos 1985 ltac:(lia)) ltac:(lia) ltac:(lia) (or_introl eq_refl))|].
  eexists. split; [vm_compute; reflexivity|vm_compute; repeat split].
Qed.

(** ** C81 *)
Theorem C81_halves : forall s e a b, ParseString s = OK e -> s = a ++ "/"%char :: b -> e_feature e <> $"Seasons" ->
  range_text (e_start e) a /\ range_text (e_end e) b /\
  (forall e1, ParseString a = OK e1 -> e_feature e1 <> $"Seasons" -> covers (e_start e) e1) /\
  (forall e2, ParseString b = OK e2 -> e_feature e2 <> $"Seasons" -> covers (e_end e) e2).
Proof. exact halves. Qed.
Print Assumptions C81_halves.
(** False of strings taken for seasons, as an interval or as a half. *)
Theorem C81_interval_refuted : exists a b e e2, ParseString (a ++ "/"%char :: b) = OK e /\ ParseString b = OK e2 /\ e_feature e2 <> $"Seasons" /\ ~ covers (e_end e) e2.
Proof.
  exists ($"2004-06"), ($".."). do 2 eexists. split; [vm_compute; reflexivity|]. split; [vm_compute; reflexivity|]. split; [discriminate|].
  intros (_ & H). vm_compute in H. discriminate H.
Qed.
Print Assumptions C81_interval_refuted.
Theorem C81_half_refuted : exists a b e e1, ParseString (a ++ "/"%char :: b) = OK e /\ e_feature e <> $"Seasons" /\ ParseString a = OK e1 /\ ~ covers (e_start e) e1.
Proof.
  exists ($"1985-04-1X"), ($"1990"). do 2 eexists. split; [vm_compute; reflexivity|]. split; [discriminate|]. split; [vm_compute; reflexivity|].
  intros (H & _). vm_compute in H. discriminate H.
Qed.
Print Assumptions C81_half_refuted.
(** A text may be a half and not a date by itself, and two dates need not make an
    interval. *)
Theorem C81_alone_refuted : exists a b e, ParseString (a ++ "/"%char :: b) = OK e /\ forall e1, ParseString a <> OK e1.
Proof. exists ($"-1984-1X"), ($"1990"). eexists. split; [vm_compute; reflexivity|]. intros e1 H. vm_compute in H. discriminate H. Qed.
Print Assumptions C81_alone_refuted.
Theorem C81_join_refuted : exists a b e1 e2, ParseString a = OK e1 /\ ParseString b = OK e2 /\ forall e, ParseString (a ++ "/"%char :: b) <> OK e.
Proof. exists ($"1985?"), ($"1990"). do 2 eexists. split; [vm_compute; reflexivity|]. split; [vm_compute; reflexivity|]. intros e H. vm_compute in H. discriminate H. Qed.
Print Assumptions C81_join_refuted.
Example C81_case : exists e e1 e2, ParseString ($"~1985/199X") = OK e /\ e_feature e <> $"Seasons" /\ ParseString ($"~1985") = OK e1 /\ e_feature e1 <> $"Seasons" /\
  ParseString ($"199X") = OK e2 /\ e_feature e2 <> $"Seasons" /\ d_datetime (r_upper (e_start e)) = $"1985-12-31T23:59:59Z" /\ d_datetime (r_lower (e_end e)) = $"1990-01-01T00:00:00Z".
Proof. do 3 eexists. repeat (split; [vm_compute; first [reflexivity|discriminate]|]). vm_compute. reflexivity. Qed.
