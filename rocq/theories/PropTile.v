(** C92: texts of every level follow each other as the days they name do. *)
From Coq Require Import Ascii String ZArith NArith Bool Lia ZifyBool List.
From Verif Require Import GoStr SpecCal SpecText SpecGrammar SpecForms SpecSpan SpecInner SpecPeriod SpecTile Edtf Common Parser TileProofs.
Import ListNotations.
Open Scope Z_scope.
Ltac Zify.zify_post_hook ::= Z.div_mod_to_equations.

(** The days are real and the bounds are their first and last second. *)
Theorem C92_bounds : forall s y m d y' m' d', days s y m d y' m' d' -> real_date y m d /\ real_date y' m' d' /\
  exists e, ParseString s = OK e /\ Lower e = OK (instant y m d 0 0 0) /\ Upper e = OK (instant y' m' d' 23 59 59).
Proof. exact days_bounds. Qed.
Print Assumptions C92_bounds.
(** One text follows the other exactly if its first day is the day after the other's last. *)
Theorem C92_follows : forall a y m d y' m' d' b u v w u' v' w', days a y m d y' m' d' -> days b u v w u' v' w' ->
  (follows b a <-> next_day y' m' d' = (u, v, w)).
Proof. exact days_follow. Qed.
Print Assumptions C92_follows.
Theorem C92_alike : forall a y m d y' m' d' b u v w u' v' w', days a y m d y' m' d' -> days b u v w u' v' w' ->
  (begin_alike a b <-> (y, m, d) = (u, v, w)) /\ (end_alike a b <-> (y', m', d') = (u', v', w')).
Proof. exact days_begin. Qed.
Print Assumptions C92_alike.
(** The comparisons are those of the days. *)
Theorem C92_order : forall a y m d y' m' d' b u v w u' v' w', days a y m d y' m' d' -> days b u v w u' v' w' ->
  exists r, IsBefore a b = OK r /\ IsAfter b a = OK r /\ (r = true <-> earlier y' m' d' u v w).
Proof. exact days_order. Qed.
Print Assumptions C92_order.
Theorem C92_between : forall s y m d y' m' d' i u v w u' v' w' c p q r p' q' r',
  days s y m d y' m' d' -> days i u v w u' v' w' -> days c p q r p' q' r' ->
  exists b, IsBetween s i c = OK b /\ (b = true <-> ~ earlier y' m' d' u v w /\ ~ earlier p' q' r' y m d).
Proof. exact days_between. Qed.
Print Assumptions C92_between.
(** The quarters, thirds, halves and months fill their year, the days their month, the
    years their decade, the decades their century, the centuries their millennium. *)
Theorem C92_year : forall y, 0 <= y <= 9999 ->
  parts_of_whole (run_of (coded y) 33 4) (four y) /\ parts_of_whole (run_of (coded y) 37 3) (four y) /\
  parts_of_whole (run_of (coded y) 40 2) (four y) /\ parts_of_whole (run_of (coded y) 1 12) (four y).
Proof. exact all_parts. Qed.
Print Assumptions C92_year.
Theorem C92_month : forall y m, 0 <= y <= 9999 -> 1 <= m <= 12 -> parts_of_whole (run_of (dayed y m) 1 (Z.to_nat (month_len y m))) (coded y m).
Proof. exact month_parts. Qed.
Print Assumptions C92_month.
Theorem C92_decade : forall k, 0 <= k <= 999 -> parts_of_whole (run_of four (10 * k) 10) (decade k).
Proof. exact decade_parts. Qed.
Print Assumptions C92_decade.
Theorem C92_century : forall k, 0 <= k <= 99 -> parts_of_whole (run_of decade (10 * k) 10) (century k).
Proof. exact century_parts. Qed.
Print Assumptions C92_century.
Theorem C92_millennium : forall k, 0 <= k <= 9 -> parts_of_whole (run_of century (10 * k) 10) (millennium k).
Proof. exact millennium_parts. Qed.
Print Assumptions C92_millennium.
(** Every season is followed by the next one, in the same year or the next. *)
Theorem C92_seasons : forall n s n' y, next_season n s n' -> 999 <= y -> y + s <= 9998 -> follows (coded (y + s) n') (coded y n).
Proof. exact seasons_follow. Qed.
Print Assumptions C92_seasons.

(** Winter 1999 ends on 29 February 2000, the last day before spring 2000; quarters
    beside seasons leave gaps. *)
Example C92_case : coded 1999 24 = $"1999-24" /\ follows ($"2000-21") ($"1999-24") /\ ~ follows ($"2000-33") ($"1999-24") /\
  run_of (coded 1985) 37 3 = [$"1985-37"; $"1985-38"; $"1985-39"] /\ decade 198 = $"198X" /\ century 19 = $"19XX" /\ millennium 1 = $"1XXX".
Proof.
  split; [reflexivity|]. split; [exact (C92_seasons 24 1 21 1999 ns_24 ltac:(lia) ltac:(lia))|]. split; [|vm_compute; repeat split].
  intro F. apply (proj1 (C92_follows _ _ _ _ _ _ _ _ _ _ _ _ _ _
    (dy_season 24 _ 12 2 1 1999 so_winter ltac:(unfold rendered; lia) ltac:(unfold rendered; lia)) (dy_grouping 33 1 3 0 2000 go_33 ltac:(lia) (or_introl eq_refl)))) in F.
  vm_compute in F. discriminate.
Qed.
Example C92_compared : days ($"198X") 1980 1 1 1989 12 31 /\ days ($"1990-33") 1990 1 1 1990 3 31 /\ earlier 1989 12 31 1990 1 1 /\
  next_day 1989 12 31 = (1990, 1, 1) /\ IsBefore ($"198X") ($"1990-33") = OK true /\ IsBefore ($"198X") ($"1989-36") = OK false.
Proof.
  split; [exact (dy_decade 198 ltac:(lia))|]. split; [exact (dy_grouping 33 1 3 0 1990 go_33 ltac:(lia) (or_introl eq_refl))|].
  split; [left; lia|]. vm_compute. repeat split.
Qed.
(** The nineteen hundreds as significant digits and as a century. *)
Example C92_significant : days ($"1950S2") 1900 1 1 1999 12 31 /\ days ($"19XX") 1900 1 1 1999 12 31 /\ begin_alike ($"1950S2") ($"19XX") /\ follows ($"2000") ($"1950S2").
Proof.
  assert (D : days ($"1950S2") 1900 1 1 1999 12 31).
  { apply (dy_significant ($"1950") 1950 ($"2") 2 1900 1999); [constructor; exact (year4_pos 1950 ltac:(lia))|exact (dd_one 2 ltac:(lia))|lia|lia|].
    intro z. change (10 ^ 2) with 100. change (Z.abs 1950 / 100) with 19. lia. }
  assert (X : days ($"19XX") 1900 1 1 1999 12 31) by exact (dy_century 19 ltac:(lia)).
  split; [exact D|]. split; [exact X|]. split; [exact (proj2 (proj1 (C92_alike _ _ _ _ _ _ _ _ _ _ _ _ _ _ D X)) eq_refl)|].
  exact (proj2 (C92_follows _ _ _ _ _ _ _ _ _ _ _ _ _ _ D (year_days 2000 ltac:(lia))) eq_refl).
Qed.
