(** How tightly the span of a mask fits the dates that it stands for (C63). *)
From Coq Require Import Ascii String ZArith NArith Bool Lia ZifyBool List.
From Verif Require Import GoStr SpecCal SpecText SpecGrammar SpecForms SpecSpan SpecMask SpecHull Edtf Common Parser StrFacts Level0Facts MaskProofs HullProofs.
Import ListNotations.
Open Scope Z_scope.
Ltac Zify.zify_post_hook ::= Z.div_mod_to_equations.

(** ** C63: the span begins and ends with dates that the mask stands for.  Missing:
    months written 0X, and days with one X after a given month, for which it is
    false. *)
Theorem C63_hull_partial : forall s e, ParseString s = OK e -> ~ month_0x s -> ~ day_half_x s ->
  (exists y m d, stands_for s y m d) -> ends_reached s e.
Proof. exact mask_hull. Qed.
Print Assumptions C63_hull_partial.
(** A day with one X after a given year and month is read as the whole month. *)
Theorem C63_whole_month_partial : forall y m a b, 0 <= y <= 9999 -> 1 <= m <= 12 ->
  is_digit a = true /\ digit_val a <= 3 /\ b = "X"%char \/ a = "X"%char /\ is_digit b = true ->
  exists e, ParseString (four y ++ $"-" ++ two m ++ $"-" ++ [a; b]) = OK e /\ e_level e = 1 /\ e_feature e = $"Seasons" /\ months e y m y m.
Proof. exact half_x_month. Qed.
Print Assumptions C63_whole_month_partial.
(** 1985-04-1X is read as all of April. *)
Theorem C63_refuted : exists s e lo hi, ParseString s = OK e /\ Lower e = OK lo /\ Upper e = OK hi /\ (exists y m d, stands_for s y m d) /\
  forall y m d, stands_for s y m d -> lo < first_instant y m d /\ last_instant y m d < hi.
Proof.
  exists ($"1985-04-1X"). do 3 eexists. split; [vm_compute; reflexivity|]. split; [vm_compute; reflexivity|]. split; [vm_compute; reflexivity|].
  split; [|exact april_teens].
  exists 1985, (Some 4), (Some 12), ($"1985-04-12"). split; [do 9 apply fi_same; apply fi_x; [reflexivity|constructor]|].
  split; [exact (day_level0 1985 4 12 ltac:(lia) ltac:(lia) ltac:(lia))|]. split; cbn; lia.
Qed.
Print Assumptions C63_refuted.
Example C63_case : (exists e, ParseString ($"156X-12-2X") = OK e /\ Lower e = OK (instant 1560 12 20 0 0 0) /\ Upper e = OK (instant 1569 12 29 23 59 59)) /\
  ~ month_0x ($"156X-12-2X") /\ ~ day_half_x ($"156X-12-2X") /\ stands_for ($"156X-12-2X") 1568 (Some 12) (Some 25).
Proof.
  split; [eexists; split; [vm_compute; reflexivity|split; vm_compute; reflexivity]|]. 
  change ($"156X-12-2X") with ["1"%char; "5"%char; "6"%char; "X"%char; "-"%char; "1"%char; "2"%char; "-"%char; "2"%char; "X"%char]. split; [|split].
  - intros (y & r & E & L).
    do 6 (destruct y as [|? y]; [destruct L as [L|L]; cbn in L; try lia; discriminate E|]). destruct L as [L|L]; cbn in L; lia.
  - intros (t & y & n & a & b & Hy & Hn & E & _). destruct Hy as [k Hk|k Hk].
    + injection E as _ _ _ E. pose proof (is_digit_char (k mod 10) ltac:(lia)) as D. rewrite <- E in D. discriminate D.
    + discriminate E.
  - exists ($"1568-12-25"). split; [do 3 apply fi_same; apply fi_x; [reflexivity|]; do 5 apply fi_same; apply fi_x; [reflexivity|constructor]|].
    split; [exact (day_level0 1568 12 25 ltac:(lia) ltac:(lia) ltac:(lia))|]. split; cbn; lia.
Qed.
