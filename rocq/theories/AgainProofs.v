(** Lemmas for C83 and C84. *)
From Coq Require Import Ascii String ZArith NArith Bool Lia ZifyBool List.
From Verif Require Import GoStr GoTime SpecCal SpecText SpecZone SpecGrammar SpecSpan SpecForms SpecSet SpecReads SpecSame SpecAgain CalFacts TimeFacts Edtf Common Parser InvFacts InvProofs Level0Facts Level0Proofs FormFacts ReadsFacts ReadsProofs SameProofs.
Import ListNotations.
Open Scope Z_scope.
Ltac Zify.zify_post_hook ::= Z.div_mod_to_equations.

Lemma first_last_year y m d : real_date y m d -> real_date y 1 1 /\ real_date y 12 31.
Proof. intros _. split; split; cbn; lia. Qed.
Lemma years_of y m d hh mi ss : real_date y m d -> clock hh mi ss -> four_digit_time (instant y m d hh mi ss) -> -9999 <= y <= 9999.
Proof.
  intros R C (A & B).
  assert (C0 : clock 0 0 0) by (unfold clock; lia). assert (C1 : clock 23 59 59) by (unfold clock; lia).
  destruct (Z_lt_ge_dec y (-9999)) as [L|L].
  - assert (Q : instant y m d hh mi ss <= instant (-10000) 12 31 23 59 59).
    { apply instant_le; try assumption; [split; cbn; lia| |unfold clock in *; lia]. pose proof (proj1 R). pose proof (proj2 R). pose proof (month_len_range y m). unfold date_le. lia. }
    assert (E : instant (-10000) 12 31 23 59 59 < instant (-9999) 1 1 0 0 0) by (vm_compute; reflexivity). lia.
  - destruct (Z_lt_ge_dec 9999 y) as [G|G]; [|lia].
    assert (Q : instant 10000 1 1 0 0 0 <= instant y m d hh mi ss).
    { apply instant_le; try assumption; [split; cbn; lia| |unfold clock in *; lia]. pose proof (proj1 R). pose proof (proj2 R). unfold date_le. lia. }
    assert (E : instant 9999 12 31 23 59 59 < instant 10000 1 1 0 0 0) by (vm_compute; reflexivity). lia.
Qed.
Lemma utc_stamp y m d hh mi ss : utc_text y m d hh mi ss = stamp_text y m d hh mi ss ["Z"%char].
Proof. reflexivity. Qed.
Lemma stamp_any y m d hh mi ss : -9999 <= y <= 9999 -> real_date y m d -> clock hh mi ss ->
  exists e b, ParseString (utc_text y m d hh mi ss) = OK e /\ e_level e = 0 /\ e_feature e = $"Date and Time" /\
    bounds e = [b; b; b; b] /\ d_timestamp b = Some (instant y m d hh mi ss).
Proof.
  intros Y R C. rewrite utc_stamp, <- (Z.sub_0_r (instant y m d hh mi ss)).
  destruct (Z_lt_ge_dec y 0) as [N|N]; [|exact (stamp_ce y m d hh mi ss _ 0 ltac:(lia) R C zm_utc)].
  apply (stamp_neg y m d hh mi ss _ 0); [lia|exact R|exact C|exact zm_utc|]. rewrite Z.sub_0_r.
  assert (C0 : clock 0 0 0) by (unfold clock; lia). assert (C1 : clock 23 59 59) by (unfold clock; lia).
  destruct (first_last_year _ _ _ R) as (R0 & R1).
  pose proof (proj1 R). pose proof (proj2 R). pose proof (month_len_range y m). split; apply instant_le; try assumption; unfold date_le, clock in *; lia.
Qed.
Theorem bound_again s e b ts : ParseString s = OK e -> In b (bounds e) -> d_timestamp b = Some ts -> four_digit_time ts ->
  exists e' b', ParseString (d_datetime b) = OK e' /\ e_feature e' = $"Date and Time" /\ bounds e' = [b'; b'; b'; b'] /\ same_bound b b'.
Proof.
  intros E I T F. destruct (bounds_agree _ _ E _ _ I T) as (y & m & d & hh & mi & ss & R & C & _ & -> & D & _).
  pose proof (years_of _ _ _ _ _ _ R C F) as Y. rewrite (wide_utc_narrow _ _ _ _ _ _ Y) in D.
  destruct (stamp_any y m d hh mi ss Y R C) as (e' & b' & E' & _ & F' & B' & T'). exists e', b'. rewrite D. split; [exact E'|]. split; [exact F'|]. split; [exact B'|].
  assert (I' : In b' (bounds e')) by (rewrite B'; left; reflexivity).
  unfold same_bound. rewrite (datetime_of _ _ _ E I), (datetime_of _ _ _ E' I'), T, T'. split; [reflexivity|]. split; [reflexivity|].
  destruct (proj1 (bound_kinds _ _ E _ I)) as [(_ & _ & Q)|[(_ & _ & Q)|(-> & -> & _)]]; [rewrite T in Q; discriminate Q|rewrite T in Q; discriminate Q|].
  destruct (proj1 (bound_kinds _ _ E' _ I')) as [(_ & _ & Q)|[(_ & _ & Q)|(-> & -> & _)]]; [rewrite T' in Q; discriminate Q|rewrite T' in Q; discriminate Q|]. split; reflexivity.
Qed.
Theorem date_again s e b : ParseString s = OK e -> In b (bounds e) -> e_feature e <> $"Date and Time" -> d_timestamp b <> None ->
  exists e' b', ParseString (d_datetime b) = OK e' /\ e_feature e' = $"Date and Time" /\ bounds e' = [b'; b'; b'; b'] /\ same_bound b b'.
Proof.
  intros E I N T. destruct (d_timestamp b) as [ts|] eqn:Q; [|contradiction]. apply (bound_again s e b ts E I Q).
  destruct (bounds_years _ _ E _ _ I Q) as (y & m & d & hh & mi & ss & R & C & -> & _ & H). destruct (H N) as (Y & _).
  assert (C0 : clock 0 0 0) by (unfold clock; lia). assert (C1 : clock 23 59 59) by (unfold clock; lia).
  pose proof (proj1 R). pose proof (proj2 R). pose proof (month_len_range y m).
  split; apply instant_le; try assumption; try (split; cbn; lia); unfold date_le, clock in *; lia.
Qed.
Lemma day_of_bound s e b t : ParseString s = OK e -> In b (bounds e) -> e_feature e <> $"Date and Time" -> day_of b t ->
  exists y m d hh mi ss, t = day_text y m d /\ level0_date t y (Some m) (Some d) /\ real_date y m d /\ clock hh mi ss /\ d_timestamp b = Some (instant y m d hh mi ss).
Proof.
  intros E I N (y & m & d & T & V & ->). destruct (d_timestamp b) as [ts|] eqn:Q; [|contradiction].
  destruct (bounds_agree _ _ E _ _ I Q) as (y1 & m1 & d1 & hh & mi & ss & R & C & _ & -> & _ & [V'|(_ & F)]); [|contradiction].
  destruct (bounds_years _ _ E _ _ I Q) as (y2 & m2 & d2 & hh2 & mi2 & ss2 & R2 & C2 & J & _ & H). destruct (H N) as (Y & _).
  rewrite V in V'. injection V' as <- <- <-. exists y, m, d, hh, mi, ss.
  assert (y = y2). { unfold instant, clock in *. assert (K : epoch_day y m d = epoch_day y2 m2 d2) by lia. injection (epoch_inj _ _ _ _ _ _ R R2 K) as K1 _ _. exact K1. }
  subst y2. pose proof (proj1 R). pose proof (proj2 R). pose proof (month_len_range y m).
  split; [reflexivity|]. split; [apply day_level0; lia|]. split; [exact R|]. split; [exact C|reflexivity].
Qed.
Theorem day_again s e b t : ParseString s = OK e -> In b (bounds e) -> e_feature e <> $"Date and Time" -> day_of b t ->
  exists e' (lo hi ts : Z), ParseString t = OK e' /\ e_feature e' = $"Date" /\ Lower e' = OK lo /\ Upper e' = OK hi /\ hi = lo + 86399 /\ d_timestamp b = Some ts /\ lo <= ts <= hi.
Proof.
  intros E I N D. destruct (day_of_bound _ _ _ _ E I N D) as (y & m & d & hh & mi & ss & _ & L & R & C & T).
  destruct (level0_parses _ _ _ _ L R) as (e' & E' & _ & F & (A & B & _) & _). cbn in A, B.
  exists e', (instant y m d 0 0 0), (instant y m d 23 59 59), (instant y m d hh mi ss). split; [exact E'|]. split; [exact F|].
  unfold Lower, Upper. destruct A as (-> & _), B as (-> & _). split; [reflexivity|]. split; [reflexivity|]. split; [unfold instant; ring|]. split; [exact T|].
  unfold instant, clock in *. lia.
Qed.
(** ** The interval from the first to the last day *)
Lemma outer_lower s e t y m d hh mi ss : ParseString s = OK e -> e_feature e <> $"Date and Time" -> Lower e = OK t -> real_date y m d -> clock hh mi ss -> t = instant y m d hh mi ss -> t = instant y m d 0 0 0.
Proof.
  intros E N L R C ->. destruct (proj1 (outer_clock _ _ E N) _ L) as (y' & m' & d' & R' & Q). rewrite Q.
  unfold instant, clock in *. assert (K : epoch_day y m d = epoch_day y' m' d') by lia. injection (epoch_inj _ _ _ _ _ _ R R' K) as -> -> ->. reflexivity.
Qed.
Lemma outer_upper s e t y m d hh mi ss : ParseString s = OK e -> e_feature e <> $"Date and Time" -> Upper e = OK t -> real_date y m d -> clock hh mi ss -> t = instant y m d hh mi ss -> t = instant y m d 23 59 59.
Proof.
  intros E N L R C ->. destruct (proj2 (outer_clock _ _ E N) _ L) as (y' & m' & d' & R' & Q). rewrite Q.
  unfold instant, clock in *. assert (K : epoch_day y m d = epoch_day y' m' d') by lia. injection (epoch_inj _ _ _ _ _ _ R R' K) as -> -> ->. reflexivity.
Qed.
Lemma lower_in e : In (r_lower (e_start e)) (bounds e).
Proof. left. reflexivity. Qed.
Lemma upper_in e : In (r_upper (e_end e)) (bounds e).
Proof. do 3 right. left. reflexivity. Qed.
Lemma dated_one s e b t : ParseString s = OK e -> In b (bounds e) -> d_timestamp b = Some t -> shows b (At t).
Proof.
  intros E I T. cbn. split; [exact T|].
  destruct (proj1 (bound_kinds _ _ E _ I)) as [(_ & _ & Q)|[(_ & _ & Q)|(-> & -> & _)]]; [rewrite T in Q; discriminate Q|rewrite T in Q; discriminate Q|]. split; reflexivity.
Qed.
Lemma first_day_of s e a : ParseString s = OK e -> e_feature e <> $"Date and Time" -> day_of (r_lower (e_start e)) a ->
  exists y m d, a = day_text y m d /\ level0_date a y (Some m) (Some d) /\ real_date y m d /\ shows (r_lower (e_start e)) (from_day y m d).
Proof.
  intros E N D. destruct (day_of_bound _ _ _ _ E (lower_in e) N D) as (y & m & d & hh & mi & ss & Q & L & R & C & T).
  exists y, m, d. split; [exact Q|]. split; [exact L|]. split; [exact R|]. unfold from_day.
  rewrite <- (outer_lower s e (instant y m d hh mi ss) y m d hh mi ss E N ltac:(unfold Lower; rewrite T; reflexivity) R C eq_refl). exact (dated_one _ _ _ _ E (lower_in e) T).
Qed.
Lemma last_day_of s e b : ParseString s = OK e -> e_feature e <> $"Date and Time" -> day_of (r_upper (e_end e)) b ->
  exists y m d, b = day_text y m d /\ level0_date b y (Some m) (Some d) /\ real_date y m d /\ shows (r_upper (e_end e)) (to_day y m d).
Proof.
  intros E N D. destruct (day_of_bound _ _ _ _ E (upper_in e) N D) as (y & m & d & hh & mi & ss & Q & L & R & C & T).
  exists y, m, d. split; [exact Q|]. split; [exact L|]. split; [exact R|]. unfold to_day.
  rewrite <- (outer_upper s e (instant y m d hh mi ss) y m d hh mi ss E N ltac:(unfold Upper; rewrite T; reflexivity) R C eq_refl). exact (dated_one _ _ _ _ E (upper_in e) T).
Qed.
Lemma spot_outer s e t lo hi : ParseString s = OK e -> shows (r_lower (e_start e)) lo -> shows (r_upper (e_end e)) hi -> spot t lo hi ->
  exists e', ParseString t = OK e' /\ same_outer e e'.
Proof.
  intros E L U (e' & E' & L' & U'). exists e'. split; [exact E'|].
  split; [apply (shows_same s e _ t e' _ lo)|apply (shows_same s e _ t e' _ hi)]; try assumption; try apply lower_in; apply upper_in.
Qed.
Lemma kinds_open s e b : ParseString s = OK e -> In b (bounds e) -> d_open b = true -> shows b Dots.
Proof. intros E I O. destruct (proj1 (bound_kinds _ _ E _ I)) as [(A & B & C)|[(A & _)|(A & _)]]; [cbn; auto|rewrite A in O; discriminate O|rewrite A in O; discriminate O]. Qed.
Lemma kinds_unknown s e b : ParseString s = OK e -> In b (bounds e) -> d_unknown b = true -> shows b Blank.
Proof. intros E I O. destruct (proj1 (bound_kinds _ _ E _ I)) as [(_ & A & _)|[(A & B & C)|(_ & A & _)]]; [rewrite A in O; discriminate O|cbn; auto|rewrite A in O; discriminate O]. Qed.
Lemma unknown_shows r b : unknown_range r -> b = r_lower r \/ b = r_upper r -> shows b Blank.
Proof. intros H I. destruct (H b I) as (A & B & C & _). repeat split; assumption. Qed.
Theorem interval_again s e a b : ParseString s = OK e -> e_feature e <> $"Date and Time" -> left_of (r_lower (e_start e)) a -> day_of (r_upper (e_end e)) b ->
  exists e', ParseString (a ++ $"/" ++ b) = OK e' /\ same_outer e e'.
Proof.
  intros E N A B. destruct (last_day_of s e b E N B) as (y' & m' & d' & _ & L' & R' & U).
  destruct A as [a A|A|A].
  - destruct (first_day_of s e a E N A) as (y & m & d & _ & L & R & Lo).
    exact (spot_outer s e _ _ _ E Lo U (spot_pair _ _ _ _ _ _ _ _ L L' R R')).
  - apply (spot_outer s e _ _ _ E (kinds_open _ _ _ E (lower_in e) A) U).
    destruct (proj1 (start_parses b _ _ _ L' R')) as (e2 & E2 & _ & O & _ & _ & B2). exists e2. split; [exact E2|]. split; [apply (open_shows _ _ O); auto|apply dated_shows; exact B2].
  - apply (spot_outer s e _ _ _ E (kinds_unknown _ _ _ E (lower_in e) A) U).
    destruct (proj2 (start_parses b _ _ _ L' R')) as (e2 & E2 & _ & O & _ & _ & B2). exists e2. split; [exact E2|]. split; [apply (unknown_shows _ _ O); auto|apply dated_shows; exact B2].
Qed.
Theorem open_again s e a : ParseString s = OK e -> e_feature e <> $"Date and Time" -> day_of (r_lower (e_start e)) a -> d_open (r_upper (e_end e)) = true ->
  (forall u, a <> "-"%char :: u) -> exists e', ParseString ($"[" ++ a ++ $"..]") = OK e' /\ same_outer e e'.
Proof.
  intros E N A O P. destruct (first_day_of s e a E N A) as (y & m & d & Q & L & R & Lo).
  apply (spot_outer s e _ _ _ E Lo (kinds_open _ _ _ E (upper_in e) O)).
  assert (Y : 0 <= y <= 9999). { destruct (Z_lt_ge_dec y 0) as [G|G]; [|pose proof (proj1 (level0_range _ _ _ _ L)); lia]. exfalso. rewrite Q in P. unfold day_text, year_text in P. assert (T : (y <? 0) = true) by lia. rewrite T in P. exact (P _ eq_refl). }
  assert (PD : plain_date a y (Some m) (Some d)).
  { rewrite Q. unfold day_text. rewrite (year_text_pos y) by lia. change ($"-" ++ two m ++ $"-" ++ two d) with ("-"%char :: two m ++ "-"%char :: two d).
    pose proof (proj1 R). pose proof (proj2 R). pose proof (month_len_range y m). constructor; [exact Y|constructor; lia]. }
  pose proof (spot_from "[" a y (Some m) (Some d) "]" (or_introl eq_refl) (or_introl eq_refl) PD R) as G. rewrite <- app_assoc in G. exact G.
Qed.
Theorem always_written s e b : ParseString s = OK e -> In b (bounds e) -> e_feature e <> $"Date and Time" -> exists t, left_of b t.
Proof.
  intros E I N. destruct (proj1 (bound_kinds _ _ E _ I)) as [(O & _)|[(_ & U & _)|(_ & _ & T)]]; [exists ($".."); exact (lf_open b O)|exists []; exact (lf_unknown b U)|].
  destruct (d_timestamp b) as [ts|] eqn:Q; [|contradiction].
  destruct (bounds_agree _ _ E _ _ I Q) as (y & m & d & hh & mi & ss & R & C & _ & _ & _ & [V|(_ & F)]); [|contradiction].
  exists (day_text y m d). apply lf_day. exists y, m, d. split; [rewrite Q; discriminate|]. split; [exact V|reflexivity].
Qed.
