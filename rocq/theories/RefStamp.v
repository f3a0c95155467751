(** The errors of dates with a time of day. *)
From Coq Require Import Ascii String ZArith NArith Bool Lia ZifyBool List.
From Verif Require Import GoStr GoTime Regex Patterns RegexSym RegexRel RegexGen SpecCal SpecText SpecZone SpecGrammar SpecForms SpecSpan SpecReads SpecRefused StrFacts TextFacts Edtf Calendar Common Level0 Level1 Level2 Parser CalFacts ApiFacts SpanFacts YmdShapes GrammarFacts LangFacts DateFacts Level0Facts TimeFacts DateTimeFacts InvProofs Level0Proofs ReadsFacts ReadsStamp.
Import ListNotations.
Open Scope Z_scope.
Ltac Zify.zify_post_hook ::= Z.div_mod_to_equations.

(** The three kinds of dates: with the day, without it, and without the month. *)
Definition day_shape (k : nat) : shape :=
  match k with O => [] | 1%nat => [c0 45; dg; dg] | _ => [c0 45; dg; dg; c0 45; dg; dg] end.
Definition anyshape (bce : bool) (p : nat) (k : zkind) : shape :=
  ((if bce then [c0 45] else []) ++ [dg; dg; dg; dg] ++ day_shape p) ++ [c0 84; dg; dg; c0 58; dg; dg; c0 58; dg; dg] ++ zshape k.
Lemma any_check : forallb (fun x => check 60 [DateAndTime] (fun _ o => dt_ok (snd x) o) (anyshape (fst (fst x)) (snd (fst x)) (snd x)))
  (flat_map (fun k => flat_map (fun p => [(false, p, k); (true, p, k)]) [0; 1; 2]%nat) [ZNone; ZUtc; ZHour; ZMin]) = true.
Proof. vm_compute. reflexivity. Qed.
Lemma date_fits t : is_level0_date t -> exists (b : bool) p, (p < 3)%nat /\ fits ((if b then [c0 45] else []) ++ [dg; dg; dg; dg] ++ day_shape p) t /\
  forall r, has_prefix (t ++ r) ["-"%char] = b.
Proof.
  intros (y & m & d & H). destruct H as [t y r m d Hy Hr].
  assert (R : exists p, (p < 3)%nat /\ fits (day_shape p) r).
  { destruct Hr as [|m0 Hm|m0 d0 Hm Hd]; [exists 0%nat|exists 1%nat|exists 2%nat]; (split; [lia|]); cbn [day_shape].
    - constructor.
    - constructor; [reflexivity|apply fits_two; lia].
    - constructor; [reflexivity|]. apply (fits_app [dg; dg]); [apply fits_two; lia|]. constructor; [reflexivity|apply fits_two; lia]. }
  destruct R as (p & Lp & R). destruct Hy as [n Hn|n Hn]; [exists false|exists true]; exists p; (split; [exact Lp|]); split.
  - apply (fits_app [dg; dg; dg; dg]); [apply fits_four; exact Hn|exact R].
  - intro w. unfold four. cbn [app has_prefix]. destruct (Ascii.eqb "-" _) eqn:E; [|reflexivity]. exfalso. apply Ascii.eqb_eq in E.
    pose proof (is_digit_char (n / 1000)) as D. rewrite <- E in D. discriminate D. lia.
  - constructor; [reflexivity|]. apply (fits_app [dg; dg; dg; dg]); [apply fits_four; exact Hn|exact R].
  - reflexivity.
Qed.
Lemma time_layout t hh mi ss k z : is_level0_date t -> 0 <= hh <= 99 -> 0 <= mi <= 99 -> 0 <= ss <= 99 -> zone_kind k z ->
  let s := t ++ "T"%char :: two hh ++ ":"%char :: two mi ++ ":"%char :: two ss ++ z in match_string DateAndTime s = true ->
  let b := has_prefix t ["-"%char] in
  ParseDateAndTime s =
    (let* x := time_parse (signed b ($"2006-01-02T15:04:05" ++ zone_layout k)) s in
     OK (stamp_date s (if b then TimeToBCE x else x))).
Proof.
  intros Ht Hh Hi Hs Hz s Hm. destruct (date_fits t Ht) as (b & p & Lp & Hf & Hb).
  assert (F : fits (anyshape b p k) s).
  { apply fits_app; [exact Hf|]. constructor; [reflexivity|]. apply (fits_app [dg; dg]); [apply fits_two; assumption|]. cbn [app]. constructor; [reflexivity|].
    apply (fits_app [dg; dg]); [apply fits_two; assumption|]. cbn [app]. constructor; [reflexivity|].
    apply (fits_app [dg; dg]); [apply fits_two; assumption|]. apply fits_zone. exact Hz. }
  assert (Eb : has_prefix t ["-"%char] = b) by (rewrite <- (app_nil_r t); apply Hb). cbv zeta. rewrite Eb.
  assert (Hp : has_prefix s ["-"%char] = b) by apply Hb.
  assert (Hsp : exists u, s = u ++ z).
  { exists (t ++ "T"%char :: two hh ++ ":"%char :: two mi ++ ":"%char :: two ss). unfold s. rewrite <- app_assoc. cbn [app]. rewrite <- app_assoc. cbn [app]. rewrite <- app_assoc. reflexivity. }
  clearbody s. clear Hf Hb Eb.
  pose proof any_check as Hc. rewrite forallb_forall in Hc. specialize (Hc (b, p, k)).
  destruct (check_ok _ _ _ _ s (Hc ltac:(destruct p as [|[|[|p]]]; [| | |lia]; destruct b, k; cbn; tauto)) F) as (sh' & outs & _ & Ha & He). cbn [fst snd] in He.
  apply answers_one in Ha. destruct Ha as (o & -> & Hfs & Ho). rewrite Ho in Hm. destruct o as [g|]; [|discriminate Hm].
  cbn [dt_ok] in He. apply andb_true_iff in He. destruct He as (Hl & He). apply Nat.eqb_eq in Hl.
  apply list_eqb_eq in He; [|apply opt_eqb_eq; apply pair_eqb_eq].
  assert (HL : length (find_submatch DateAndTime s) = 12%nat) by (rewrite Hfs; cbn [out_subs]; rewrite map_length; exact Hl).
  assert (Hg : [sub (find_submatch DateAndTime s) 7; sub (find_submatch DateAndTime s) 8; sub (find_submatch DateAndTime s) 10] = map (group_str s) (zgroups k)).
  { rewrite Hfs. cbn [out_subs]. rewrite !nth_map_none by lia. rewrite <- He. reflexivity. }
  clear Hfs He Hl g Ho Hm sh' F Hc. unfold ParseDateAndTime. rewrite HL. cbn [Nat.eqb negb]. cbv zeta. change ($"-") with ["-"%char]. rewrite Hp. clear HL Hp.
  destruct Hsp as (u & Hu).
  destruct Hz as [| |c h Hc Hh'|c h n Hc Hh' Hn]; cbn [zgroups map] in Hg; injection Hg as H7 H8 H10.
  - cbn [group_str] in H7, H8, H10. rewrite H7, H8. destruct b; reflexivity.
  - assert (H7' : sub (find_submatch DateAndTime s) 7 = ["Z"%char]) by (rewrite H7, Hu; apply group_tail; reflexivity).
    rewrite H7', H8. destruct b; reflexivity.
  - assert (H7' : sub (find_submatch DateAndTime s) 7 = c :: two h) by (rewrite H7, Hu; apply group_tail; reflexivity).
    assert (H8' : sub (find_submatch DateAndTime s) 8 = [c]).
    { rewrite H8, Hu. change (c :: two h) with ([c] ++ two h). apply group_mid; reflexivity. }
    rewrite H7', H8', H10. destruct Hc as [-> | ->]; destruct b; reflexivity.
  - assert (H7' : sub (find_submatch DateAndTime s) 7 = c :: two h ++ ":"%char :: two n) by (rewrite H7, Hu; apply group_tail; reflexivity).
    assert (H8' : sub (find_submatch DateAndTime s) 8 = [c]).
    { rewrite H8, Hu. change (c :: two h ++ ":"%char :: two n) with ([c] ++ two h ++ ":"%char :: two n). apply group_mid; reflexivity. }
    assert (H10' : sub (find_submatch DateAndTime s) 10 = ":"%char :: two n).
    { rewrite H10, Hu. change (c :: two h ++ ":"%char :: two n) with ((c :: two h) ++ ":"%char :: two n). rewrite app_assoc. apply group_tail. reflexivity. }
    rewrite H7', H8', H10'. destruct Hc as [-> | ->]; destruct b; reflexivity.
Qed.
Lemma time_parse_err l s : (exists t, time_parse l s = OK t) \/ time_parse l s = Err (ETime l s).
Proof. unfold time_parse. destruct (parse_toks _ _ _) as [p|]; [|auto]. destruct (_ && _); eauto. Qed.
Lemma layout_kind z l : layout_zone z l <-> exists k, zone_kind k z /\ l = zone_layout k.
Proof.
  split.
  - intros [| |c h Hc Hh|c h m Hc Hh Hm]; [exists ZNone|exists ZUtc|exists ZHour|exists ZMin]; (split; [constructor; assumption|reflexivity]).
  - intros (k & [| |c h Hc Hh|c h m Hc Hh Hm] & ->); constructor; assumption.
Qed.
Lemma minus_signed t g l : leading_minus t g <-> signed (has_prefix t ["-"%char]) l = g ++ l.
Proof.
  split.
  - intros [r|u N]; [cbn [has_prefix]; rewrite has_prefix_nil; reflexivity|]. destruct u as [|c r]; [reflexivity|]. cbn [has_prefix]. destruct (Ascii.eqb "-" c) eqn:E; [|reflexivity].
    apply Ascii.eqb_eq in E. subst c. exfalso. exact (N r eq_refl).
  - intro H. assert (G : signed (has_prefix t ["-"%char]) l = (if has_prefix t ["-"%char] then $"-" else []) ++ l) by (destruct (has_prefix _ _); reflexivity).
    rewrite G in H. apply app_inv_tail in H. subst g. destruct t as [|c r]; [cbn; apply lm_no; discriminate|].
    cbn [has_prefix]. destruct (Ascii.eqb "-" c) eqn:E.
    + apply Ascii.eqb_eq in E. subst c. rewrite has_prefix_nil. apply lm_yes.
    + apply lm_no. intros r' Q. injection Q as -> _. discriminate E.
Qed.
Lemma err_same {A} (a b : err) : @Err A a = Err b -> a = b.
Proof. congruence. Qed.
Lemma no_reads s : datetime_text s -> (forall i, ~ stamp_reads s i) -> forall x, ParseString s <> OK x.
Proof.
  intros Ht N x E. assert (R : exists t, x = stamp_date s t).
  { rewrite parse_datetime in E by exact Ht. pose proof Ht as Hm. apply DateAndTime_spec in Hm. destruct Ht as [t h m sc z Hd Hh Hi Hs Hz].
    assert (K : exists k, zone_kind k z) by (destruct (zone_has_val _ Hz) as (k & v & Hv); exists k; exact (val_kind _ _ _ Hv)).
    destruct K as (k & K). pose proof (time_layout t h m sc k z Hd Hh Hi Hs K Hm) as P. cbv zeta in P. rewrite P in E.
    apply bind_OK in E. destruct E as (i & _ & E). injection E as <-. eexists. reflexivity. }
  destruct R as (t & ->). pose proof (stamp_bridge s (At t) (At t) Ht) as (_ & B).
  destruct B as (i & _ & _ & B); [eexists; split; [exact E|apply stamp_result]|]. exact (N i B).
Qed.
Theorem stamp_errors s e : datetime_text s -> (ParseString s = Err e <-> stamp_refused s e).
Proof.
  intro Ht. pose proof (proj2 (DateAndTime_spec s) Ht) as Hm. split.
  - intro E. pose proof Ht as Ht0. pose proof E as E0. rewrite parse_datetime in E by exact Ht. destruct Ht as [t h m sc z Hd Hh Hi Hs Hz].
    assert (K : exists k, zone_kind k z) by (destruct (zone_has_val _ Hz) as (k & v & Hv); exists k; exact (val_kind _ _ _ Hv)).
    destruct K as (k & K). pose proof (time_layout t h m sc k z Hd Hh Hi Hs K Hm) as P. cbv zeta in P. rewrite P in E. clear P.
    destruct (time_parse_err (signed (has_prefix t ["-"%char]) ($"2006-01-02T15:04:05" ++ zone_layout k)) (t ++ "T"%char :: two h ++ ":"%char :: two m ++ ":"%char :: two sc ++ z)) as [(x & Q)|Q];
      rewrite Q in E; cbn [bind] in E; [discriminate|]. apply err_same in E. subst e.
    set (g := if has_prefix t ["-"%char] then $"-" else []).
    assert (G : leading_minus t g) by (apply (minus_signed t g []); unfold g; destruct (has_prefix _ _); reflexivity).
    replace (signed (has_prefix t ["-"%char]) ($"2006-01-02T15:04:05" ++ zone_layout k)) with (g ++ $"2006-01-02T15:04:05" ++ zone_layout k)
      by (unfold g; destruct (has_prefix _ _); reflexivity).
    apply (tx_intro t h m sc z g (zone_layout k)); try assumption; [apply layout_kind; eauto|reflexivity|].
    intros i R. pose proof (stamp_bridge _ (At i) (At i) Ht0) as (B & _). destruct B as (x & B & _); [eauto|]. rewrite B in E0. discriminate.
  - intro R. destruct R as [t h m sc z g l s0 Hd Hh Hi Hs Hg Hl Es N]. subst s0. apply layout_kind in Hl. destruct Hl as (k & K & ->).
    pose proof (time_layout t h m sc k z Hd Hh Hi Hs K Hm) as P. cbv zeta in P. pose proof (no_reads _ Ht N) as N'. rewrite parse_datetime in * by exact Ht.
    change (t ++ $"T" ++ two h ++ $":" ++ two m ++ $":" ++ two sc ++ z) with (t ++ "T"%char :: two h ++ ":"%char :: two m ++ ":"%char :: two sc ++ z) in *.
    rewrite P in *. clear P. rewrite <- (proj1 (minus_signed t g ($"2006-01-02T15:04:05" ++ zone_layout k)) Hg).
    match goal with |- context [time_parse ?L ?s] => destruct (time_parse_err L s) as [(x & Q)|Q]; rewrite Q in * end; cbn [bind] in *; [|reflexivity].
    exfalso. exact (N' _ eq_refl).
Qed.
