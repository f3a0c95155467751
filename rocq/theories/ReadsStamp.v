(** What a date with a time of day is read as. *)
From Coq Require Import Ascii String ZArith NArith Bool Lia ZifyBool List.
From Verif Require Import GoStr GoTime Regex Patterns SpecCal SpecText SpecZone SpecGrammar SpecForms SpecSpan SpecReads StrFacts TextFacts Edtf Calendar Common Level0 Level1 Level2 Parser CalFacts ApiFacts SpanFacts GrammarFacts LangFacts DateFacts Level0Facts TimeFacts DateTimeFacts InvProofs Level0Proofs ReadsFacts.
Import ListNotations.
Open Scope Z_scope.
Ltac Zify.zify_post_hook ::= Z.div_mod_to_equations.

Lemma stamp_written (b : bool) y m d hh mi ss z : 0 <= y ->
  (if b then $"-" else []) ++ stamp_text y m d hh mi ss z = signed b (core_text y m d hh mi ss z).
Proof.
  intro Hy. rewrite stamp_signed. replace (y <? 0) with false by lia. replace (Z.abs y) with y by lia. destruct b; reflexivity.
Qed.
Lemma stamp_result s t : result (stamp_date s t) 0 ($"Date and Time") (At t) (At t).
Proof. repeat split. Qed.
Lemma stamp_ok (b : bool) y m d hh mi ss z off : 0 <= y <= 9999 -> real_date y m d -> clock hh mi ss -> zone_means z off ->
  let s := (if b then $"-" else []) ++ stamp_text y m d hh mi ss z in
  ParseString s = OK (stamp_date s (if b then TimeToBCE (instant y m d hh mi ss - off) else instant y m d hh mi ss - off)).
Proof.
  intros Hy Hr Hc Hz s. apply means_val in Hz. destruct Hz as (k & Hz).
  assert (Hd : 1 <= d <= 31) by (pose proof (month_len_range y m); destruct Hr; lia). assert (Hm : 1 <= m <= 12) by apply Hr.
  assert (Hs : small y m d hh mi ss) by (unfold clock in Hc; constructor; lia).
  pose proof (stamp_core b _ _ _ _ _ _ _ _ _ Hs Hm Hd Hz) as H. cbv zeta in H.
  unfold s. rewrite stamp_written by lia. rewrite (proj2 (real_dateb_spec y m d) Hr) in H.
  replace (clockb hh mi ss) with true in H by (unfold clockb, clock in *; lia). exact H.
Qed.
Theorem stamp_bridge s lo hi : datetime_text s ->
  (exists t, lo = At t /\ hi = At t /\ stamp_reads s t) <-> exists e, ParseString s = OK e /\ result e 0 ($"Date and Time") lo hi.
Proof.
  intro Ht. split.
  - intros (t & -> & -> & H). destruct H as [y m d hh mi ss z off Hy Hr Hc Hz|y m d hh mi ss z off y' m' d' hh' mi' ss' Hy Hr Hc Hz Hr' Hc' E].
    + pose proof (stamp_ok false _ _ _ _ _ _ _ _ Hy Hr Hc Hz) as P. cbv zeta in P. cbn [app] in P. rewrite P. eexists. split; [reflexivity|apply stamp_result].
    + pose proof (stamp_ok true _ _ _ _ _ _ _ _ Hy Hr Hc Hz) as P. cbv zeta in P. rewrite P. eexists. split; [reflexivity|].
      rewrite E, TimeToBCE_instant by assumption. apply stamp_result.
  - intros (e & E & _ & _ & L & U). destruct (datetime_complete _ _ Ht E) as (y & m & d & hh & mi & ss & z & off & Hy & Hr & Hc & Hz & Hs).
    assert (G : exists (b : bool) n, s = (if b then $"-" else []) ++ stamp_text n m d hh mi ss z /\ 0 <= n <= 9999 /\ real_date n m d).
    { destruct Hs as [->|(-> & ->)]; [|exists true, 0; split; [reflexivity|split; [lia|exact Hr]]].
      destruct (Z_lt_ge_dec y 0) as [Ly|Ly].
      - exists true, (- y). split; [|split; [lia|apply real_date_neg; exact Hr]].
        rewrite (stamp_written true (- y)) by lia. rewrite stamp_signed. replace (y <? 0) with true by lia. replace (Z.abs y) with (- y) by lia. reflexivity.
      - exists false, y. split; [reflexivity|]. split; [lia|exact Hr]. }
    clear Hs Hy Hr. destruct G as (b & n & -> & Hn & Hr). pose proof (stamp_ok b _ _ _ _ _ _ _ _ Hn Hr Hc Hz) as P. cbv zeta in P.
    rewrite P in E. injection E as <-. destruct (stamp_result ((if b then $"-" else []) ++ stamp_text n m d hh mi ss z)
      (if b then TimeToBCE (instant n m d hh mi ss - off) else instant n m d hh mi ss - off)) as (_ & _ & L' & U').
    pose proof (shows_fun _ _ _ L L') as ->. pose proof (shows_fun _ _ _ U U') as ->. eexists. split; [reflexivity|]. split; [reflexivity|].
    destruct b.
    + destruct (instant_exists (instant n m d hh mi ss - off)) as (y' & m' & d' & hh' & mi' & ss' & Hr' & Hc' & E).
      rewrite E, TimeToBCE_instant by assumption. exact (st_minus _ _ _ _ _ _ _ _ _ _ _ _ _ _ Hn Hr Hc Hz Hr' Hc' E).
    + exact (st_plain _ _ _ _ _ _ _ _ Hn Hr Hc Hz).
Qed.
