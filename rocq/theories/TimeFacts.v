(** time.Parse in general, and the date-time feature. *)
From Coq Require Import Ascii String ZArith NArith Bool Lia ZifyBool List.
From Verif Require Import GoStr GoTime Regex Patterns SpecCal SpecText StrFacts TextFacts Edtf Calendar Common Level0 CalFacts ApiFacts.
Import ListNotations.
Open Scope Z_scope.
Ltac Zify.zify_post_hook ::= Z.div_mod_to_equations.

Lemma format_wide y m d hh mi ss : -10000 <= y <= 10000 -> real_date y m d -> clock hh mi ss ->
  format_rfc3339 (instant y m d hh mi ss) = wide_utc_text y m d hh mi ss.
Proof.
  intros Hy H Hc. unfold wide_utc_text, wide_year_text.
  destruct ((-9999 <=? y) && (y <=? 9999)) eqn:E.
  - rewrite format_instant by (assumption || lia). unfold utc_text, day_text. rewrite <- !app_assoc. reflexivity.
  - unfold format_rfc3339. rewrite t_civil_instant, t_secs_instant by assumption.
    assert (Hc' := Hc). destruct Hc' as (Hh & Hmi & Hs).
    assert (Hm := proj1 H). pose proof (proj2 H) as Hd. pose proof (month_len_range y m).
    replace ((hh * 3600 + mi * 60 + ss) / 3600) with hh by lia.
    replace ((hh * 3600 + mi * 60 + ss) / 60 mod 60) with mi by lia.
    replace ((hh * 3600 + mi * 60 + ss) mod 60) with ss by lia.
    rewrite !append_two by lia. assert (Q : y = -10000 \/ y = 10000) by lia. unfold clock_text. rewrite <- !app_assoc.
    destruct Q as [-> | ->]; reflexivity.
Qed.
Lemma wide_utc_narrow y m d hh mi ss : -9999 <= y <= 9999 -> wide_utc_text y m d hh mi ss = utc_text y m d hh mi ss.
Proof.
  intro H. unfold wide_utc_text, wide_year_text, utc_text, day_text. replace ((-9999 <=? y) && (y <=? 9999)) with true by lia.
  rewrite <- !app_assoc. reflexivity.
Qed.

(** What every successful scan returns. *)
Definition ok_parts (p : parts) : Prop :=
  0 <= pt_y p <= 9999 /\ 1 <= pt_mo p <= 12 /\ clock (pt_h p) (pt_mi p) (pt_s p) /\ -90000 <= pt_zone p <= 90000.
Lemma getnum_range s f n r : getnum s f = Some (n, r) -> 0 <= n <= 99.
Proof.
  unfold getnum. destruct s as [|a t]; [discriminate|]. destruct (is_digit a) eqn:Ea; [|discriminate]. apply digit_val_range in Ea.
  destruct t as [|b u]; [destruct f; [discriminate|]; intro H; injection H as <- <-; lia|].
  destruct (is_digit b) eqn:Eb; [apply digit_val_range in Eb; intro H; injection H as <- <-; lia|].
  destruct f; [discriminate|]; intro H; injection H as <- <-; lia.
Qed.
Lemma dec4_range a b c d y : dec_val 0 [a; b; c; d] = Some y -> 0 <= y <= 9999.
Proof.
  cbn [dec_val]. destruct (is_digit a) eqn:Ea; [|discriminate]. destruct (is_digit b) eqn:Eb; [|discriminate].
  destruct (is_digit c) eqn:Ec; [|discriminate]. destruct (is_digit d) eqn:Ed; [|discriminate].
  apply digit_val_range in Ea, Eb, Ec, Ed. intro H. injection H as <-. lia.
Qed.
Lemma zone_range sg h m z : zone_offset sg h m = Some z -> -90000 <= z <= 90000.
Proof.
  unfold zone_offset. destruct (getnum h true) as [(hr & r)|] eqn:Eh; [|discriminate].
  destruct (getnum m true) as [(mm & r')|] eqn:Em; [|discriminate]. apply getnum_range in Eh, Em.
  destruct ((24 <? hr) || (60 <? mm)) eqn:E; [discriminate|].
  destruct (Ascii.eqb sg "+"); [intro H; injection H as <-; lia|]. destruct (Ascii.eqb sg "-"); [|discriminate].
  intro H; injection H as <-; lia.
Qed.
Lemma toks_ok l : forall v p q, ok_parts p -> parse_toks l v p = Some q -> ok_parts q.
Proof.
  induction l as [|t l IH]; intros v p q Hp H.
  - cbn [parse_toks] in H. destruct v; [injection H as <-; exact Hp|discriminate].
  - destruct Hp as (P1 & P2 & (P3 & P4 & P5) & P6). destruct t; cbn [parse_toks] in H.
    + destruct v as [|a [|b [|c [|e v]]]]; try discriminate. destruct (dec_val 0 [a; b; c; e]) eqn:E; [|discriminate].
      apply dec4_range in E. eapply IH; [|exact H]. repeat split; cbn; lia.
    + destruct (getnum v true) as [(n & r)|] eqn:E; [|discriminate]. destruct ((1 <=? n) && (n <=? 12)) eqn:E2; [|discriminate].
      eapply IH; [|exact H]. repeat split; cbn; lia.
    + destruct (getnum v true) as [(n & r)|] eqn:E; [|discriminate]. eapply IH; [|exact H]. repeat split; cbn; lia.
    + destruct (getnum v false) as [(n & r)|] eqn:E; [|discriminate]. destruct (n <? 24) eqn:E2; [|discriminate].
      apply getnum_range in E. eapply IH; [|exact H]. repeat split; cbn; lia.
    + destruct (getnum v true) as [(n & r)|] eqn:E; [|discriminate]. destruct (n <? 60) eqn:E2; [|discriminate].
      apply getnum_range in E. eapply IH; [|exact H]. repeat split; cbn; lia.
    + destruct (getnum v true) as [(n & r)|] eqn:E; [|discriminate]. destruct (n <? 60) eqn:E2; [|discriminate].
      apply getnum_range in E. cbv zeta in H. eapply IH; [|exact H]. repeat split; cbn; lia.
    + destruct v as [|sg [|h1 [|h2 [|co [|m1 [|m2 v]]]]]]; try discriminate. destruct (Ascii.eqb co ":"); [|discriminate].
      destruct (zone_offset sg _ _) eqn:E; [|discriminate]. apply zone_range in E. eapply IH; [|exact H]. repeat split; cbn; lia.
    + destruct v as [|sg [|h1 [|h2 v]]]; try discriminate.
      destruct (zone_offset sg _ _) eqn:E; [|discriminate]. apply zone_range in E. eapply IH; [|exact H]. repeat split; cbn; lia.
    + destruct v as [|c0 v]; [discriminate|]. destruct (Ascii.eqb c c0); [|discriminate]. eapply IH; [|exact H]. repeat split; lia.
Qed.

(** A civil time shifted by at most 25 hours stays within one year. *)
Lemma shift_year y m d hh mi ss z t y' m' d' : real_date y m d -> clock hh mi ss -> -90000 <= z <= 90000 ->
  t = instant y m d hh mi ss - z -> real_date y' m' d' -> t_day t = epoch_day y' m' d' -> y - 1 <= y' <= y + 1.
Proof.
  intros Hr Hc Hz -> Hr' E.
  assert (Q : epoch_day y m d - 2 <= epoch_day y' m' d' <= epoch_day y m d + 2).
  { rewrite <- E. unfold t_day, instant, clock in *. lia. }
  pose proof (epoch_year_bounds _ _ _ Hr). pose proof (epoch_year_bounds _ _ _ Hr').
  assert (Y : forall a, epoch_day a 1 1 + 365 <= epoch_day (a + 1) 1 1).
  { intro a. unfold epoch_day. rewrite leaps_step. destruct (leap_yearb a); cbn [month_sum Z.sub Z.to_nat Z.pos_sub Z.opp Z.add]; lia. }
  pose proof (Y y) as Y1. pose proof (Y (y + 1)) as Y2. pose proof (Y (y - 1)) as Y3. pose proof (Y (y - 2)) as Y4.
  replace (y - 1 + 1) with y in Y3 by lia. replace (y - 2 + 1) with (y - 1) in Y4 by lia.
  destruct (Z_lt_ge_dec y' (y - 1)) as [L|L].
  - pose proof (epoch_year_mono (y' + 1) (y - 1 - (y' + 1))) as M. replace (y' + 1 + (y - 1 - (y' + 1))) with (y - 1) in M by lia. lia.
  - destruct (Z_lt_ge_dec (y + 1) y') as [L'|L']; [|lia].
    pose proof (epoch_year_mono (y + 2) (y' - (y + 2))) as M. replace (y + 2 + (y' - (y + 2))) with y' in M by lia.
    replace (y + 1 + 1) with (y + 2) in Y2 by lia. lia.
Qed.
Lemma time_parse_range l v t : time_parse l v = OK t -> exists y m d hh mi ss,
  -1 <= y <= 10000 /\ real_date y m d /\ clock hh mi ss /\ t = instant y m d hh mi ss.
Proof.
  unfold time_parse. destruct (parse_toks _ v _) as [p|] eqn:E; [|discriminate].
  apply toks_ok in E; [|repeat split; cbn; lia]. destruct E as (H1 & H2 & H3 & H4).
  destruct ((1 <=? pt_d p) && (pt_d p <=? days_in (pt_mo p) (pt_y p))) eqn:E2; [|discriminate].
  intro H. injection H as <-. rewrite time_date_instant by lia. rewrite days_in_spec in E2 by lia.
  assert (R : real_date (pt_y p) (pt_mo p) (pt_d p)) by (split; lia).
  set (t := instant _ _ _ _ _ _ - _).
  destruct (instant_exists t) as (y & m & d & hh & mi & ss & Hr & Hc & E).
  exists y, m, d, hh, mi, ss. split; [|auto].
  assert (Hd : t_day t = epoch_day y m d) by (rewrite E; apply t_day_instant; exact Hc).
  pose proof (shift_year _ _ _ _ _ _ _ t _ _ _ R H3 H4 eq_refl Hr Hd). lia.
Qed.
Lemma datetime_inv s d : ParseDateAndTime s = OK d -> exists y m dd hh mi ss,
  -10000 <= y <= 10000 /\ real_date y m dd /\ clock hh mi ss /\
  let b := SetTime zero_date (instant y m dd hh mi ss) in
  d = mkEDTF (mkRange [] b b) (mkRange [] b b) s 0 ($"Date and Time").
Proof.
  unfold ParseDateAndTime. intro H. destruct (negb (Nat.eqb _ 12)); [discriminate H|]. cbv zeta in H.
  apply bind_OK in H. destruct H as (t & Ht & H). injection H as <-.
  apply time_parse_range in Ht. destruct Ht as (y & m & dd & hh & mi & ss & Hy & Hr & Hc & ->).
  change ($"-") with ["-"%char]. destruct (has_prefix s ["-"%char]).
  - exists (- y), m, dd, hh, mi, ss. rewrite TimeToBCE_instant by assumption.
    split; [lia|]. split; [apply real_date_neg; exact Hr|]. split; [exact Hc|reflexivity].
  - exists y, m, dd, hh, mi, ss. split; [lia|]. split; [exact Hr|]. split; [exact Hc|reflexivity].
Qed.
