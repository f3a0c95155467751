(** Unspecified digits, precision and flags: C18, C47 and C50. *)
From Coq Require Import Ascii String ZArith NArith Bool Lia ZifyBool List.
From Verif Require Import GoStr SpecCal SpecText SpecGrammar SpecForms SpecSpan SpecMask Edtf Common Level0 Level1 Level2 Parser Level0Facts InvProofs XProofs MaskProofs.
Import ListNotations.
Open Scope Z_scope.

(** ** C18: the span covers every date the mask stands for.  Missing: months
    written 0X, for which it is false. *)
Theorem C18_covers_partial : forall s e, ParseString s = OK e -> ~ month_0x s ->
  forall y m d, stands_for s y m d -> covers e y m d.
Proof. exact mask_covers. Qed.
Print Assumptions C18_covers_partial.
Theorem C18_interval_partial : forall a b e, ParseString (a ++ "/"%char :: b) = OK e -> ~ month_0x a -> ~ month_0x b ->
  forall y m d y' m' d', stands_for a y m d -> stands_for b y' m' d' ->
  exists lo hi, Lower e = OK lo /\ Upper e = OK hi /\ lo <= first_instant y m d /\ last_instant y' m' d' <= hi.
Proof. exact mask_interval. Qed.
Print Assumptions C18_interval_partial.
(** 1985-0X is read as October to December. *)
Theorem C18_refuted : exists s e y m d lo, ParseString s = OK e /\ stands_for s y m d /\ Lower e = OK lo /\ last_instant y m d < lo.
Proof.
  exists ($"1985-0X"). eexists. exists 1985, (Some 4), None. eexists. split; [vm_compute; reflexivity|].
  split; [|split; [vm_compute; reflexivity|vm_compute; reflexivity]].
  exists ($"1985-04"). split; [repeat apply fi_same; apply fi_x; [reflexivity|constructor]|].
  split; [exact (month_level0 1985 4 ltac:(lia) ltac:(lia))|]. split; cbn; lia.
Qed.
Print Assumptions C18_refuted.
Example C18_case : (exists e, ParseString ($"156X-12-2X") = OK e) /\ ~ month_0x ($"156X-12-2X") /\ stands_for ($"156X-12-2X") 1568 (Some 12) (Some 25).
Proof.
  split; [eexists; vm_compute; reflexivity|]. split.
  - intros (y & r & E & L). change ($"156X-12-2X") with ["1"%char; "5"%char; "6"%char; "X"%char; "-"%char; "1"%char; "2"%char; "-"%char; "2"%char; "X"%char] in E.
    do 6 (destruct y as [|? y]; [destruct L as [L|L]; cbn in L; try lia; discriminate E|]). destruct L as [L|L]; cbn in L; lia.
  - exists ($"1568-12-25"). split; [do 3 apply fi_same; apply fi_x; [reflexivity|]; do 5 apply fi_same; apply fi_x; [reflexivity|constructor]|].
    split; [exact (day_level0 1568 12 25 ltac:(lia) ltac:(lia) ltac:(lia))|]. split; cbn; lia.
Qed.
Example C18_interval_case : exists e, ParseString ($"2004-XX/201X-1X") = OK e /\ e_feature e = $"Interval" /\
  Lower e = OK (instant 2004 1 1 0 0 0) /\ Upper e = OK (instant 2019 12 31 23 59 59).
Proof. eexists. split; [vm_compute; reflexivity|]. split; [reflexivity|]. split; vm_compute; reflexivity. Qed.

(** ** C47: precision.  Every level 0 date carries YEAR, which is right for years
    only; a year mask carries the precision of its rightmost digit that is given. *)
Theorem C47_level0_partial : forall s y m d, level0_date s y m d -> exists_date y m d -> exists e, ParseString s = OK e /\ precise e YEAR.
Proof. exact level0_year_precision. Qed.
Print Assumptions C47_level0_partial.
Theorem C47_mask_partial : forall a b c, is_digit a = true -> d_or_x b -> d_or_x c -> exists e, ParseString [a; b; c; "X"%char] = OK e /\
  precise e (if Ascii.eqb c "X" then if Ascii.eqb b "X" then MILLENIUM else CENTURY else DECADE).
Proof. exact year_mask_spans. Qed.
Print Assumptions C47_mask_partial.
Theorem C47_refuted : exists s y m d e, level0_date s y (Some m) (Some d) /\ exists_date y (Some m) (Some d) /\ ParseString s = OK e /\
  forall b, In b (bounds e) -> HasFlag (d_precision b) DAY = false /\ HasFlag (d_precision b) MONTH = false.
Proof.
  exists ($"1985-04-12"), 1985, 4, 12. eexists. split; [exact (day_level0 1985 4 12 ltac:(lia) ltac:(lia) ltac:(lia))|].
  split; [split; cbn; lia|]. split; [vm_compute; reflexivity|]. intros b [<-|[<-|[<-|[<-|[]]]]]; split; reflexivity.
Qed.
Print Assumptions C47_refuted.
Example C47_case : d_or_x "9"%char /\ 
  match ParseString ($"19XX") with OK e => d_precision (r_lower (e_start e)) = CENTURY | _ => False end.
Proof. split; [left; reflexivity|]. vm_compute. reflexivity. Qed.

(** ** C50: flags for unspecified digits.  They are never set, which is right only
    for strings without X. *)
Theorem C50_never_set_partial : forall s e, ParseString s = OK e -> forall b, In b (bounds e) -> d_unspecified b = 0%N.
Proof. exact never_unspecified. Qed.
Print Assumptions C50_never_set_partial.
Theorem C50_refuted : exists s e, In "X"%char s /\ ParseString s = OK e /\ forall b, In b (bounds e) -> d_unspecified b = 0%N.
Proof.
  exists ($"201X"). eexists. split; [do 3 right; left; reflexivity|]. split; [vm_compute; reflexivity|].
  intros b [<-|[<-|[<-|[<-|[]]]]]; reflexivity.
Qed.
Print Assumptions C50_refuted.
Example C50_case : exists e, ParseString ($"[1667,1668..1670]") = OK e /\ length (bounds e) = 4%nat.
Proof. eexists. split; [vm_compute; reflexivity|reflexivity]. Qed.
