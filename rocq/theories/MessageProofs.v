(** Lemmas for C73: the text of every error of a parse. *)
From Coq Require Import Ascii String ZArith NArith Bool Lia ZifyBool List.
From Verif Require Import GoStr GoTime GoBig ErrText SpecCal SpecText SpecZone SpecGrammar SpecForms SpecSpan SpecSet SpecWrap SpecReads SpecRefused SpecMessage
  StrFacts TextFacts Edtf Calendar Common Level0 Level1 Level2 Parser CalFacts ApiFacts SpanFacts DateFacts Level0Facts TimeFacts DateTimeFacts Level1Proofs HullProofs ExpProofs SigProofs ReadsStamp RefStamp RefProofs.
Import ListNotations.
Open Scope Z_scope.
Ltac Zify.zify_post_hook ::= Z.div_mod_to_equations.

(** ** Quotes *)
Definition bare (c : ascii) : Prop := is_digit c = true \/ In c (list_ascii_of_string "+-:TXZEe").
Lemma bare_byte c : bare c -> quote_byte c = [c].
Proof.
  intro H. unfold quote_byte. replace ((code c =? 34) || (code c =? 92)) with false; [reflexivity|].
  destruct H as [H|H]; [unfold is_digit in H; lia|]. cbn in H. repeat (destruct H as [<-|H]; [reflexivity|]). destruct H.
Qed.
Lemma quote_bare s : Forall bare s -> quote s = in_quotes s.
Proof.
  intro H. unfold quote, in_quotes. f_equal. f_equal. induction H as [|c s Hc H IH]; [reflexivity|]. cbn [flat_map]. rewrite (bare_byte c Hc), IH. reflexivity.
Qed.
Lemma bare_two n : 0 <= n <= 99 -> Forall bare (two n).
Proof. intro H. unfold two. constructor; [left; apply is_digit_char; lia|]. constructor; [left; apply is_digit_char; lia|constructor]. Qed.
Lemma bare_date t : is_level0_date t -> Forall bare t.
Proof. intro H. apply Forall_forall. intros c Hc. destruct (date_bytes t c H Hc) as [D| ->]; [left; exact D|right; cbn; tauto]. Qed.
Lemma bare_digits t v : dec_digits t v -> Forall bare t.
Proof.
  intro H. apply dec_digits_iff in H. destruct H as (_ & H). assert (D : digit_str t) by (apply (dec_val_digits t 0); eauto).
  eapply Forall_impl; [|exact D]. intros c Hc. left. exact Hc.
Qed.
Lemma bare_zone k z : zone_kind k z -> Forall bare z.
Proof.
  assert (S : forall c, c = "+"%char \/ c = "-"%char -> bare c) by (intros c [->| ->]; right; cbn; tauto).
  intros [| |c h Hc Hh|c h m Hc Hh Hm].
  - constructor.
  - constructor; [right; cbn; tauto|constructor].
  - constructor; [exact (S c Hc)|apply bare_two; exact Hh].
  - constructor; [exact (S c Hc)|]. apply Forall_app. split; [apply bare_two; exact Hh|]. constructor; [right; cbn; tauto|apply bare_two; exact Hm].
Qed.

(** ** time.Parse *)
Lemma fault_lit l v c : parse_fault (TLit c :: l) (c :: v) = parse_fault l v.
Proof. cbn [parse_fault]. rewrite Ascii.eqb_refl. reflexivity. Qed.
Lemma fault_year l v n : 0 <= n <= 9999 -> parse_fault (TYear :: l) (four n ++ v) = parse_fault l v.
Proof. intro H. unfold four. cbn [app parse_fault dec_val]. rewrite !is_digit_char by lia. reflexivity. Qed.
Lemma fault_month l v n : 1 <= n <= 12 -> parse_fault (TMonth :: l) (two n ++ v) = parse_fault l v.
Proof. intro H. cbn [parse_fault]. rewrite getnum_two by lia. replace ((1 <=? n) && (n <=? 12)) with true by lia. reflexivity. Qed.
Lemma fault_day l v n : 0 <= n <= 99 -> parse_fault (TDay :: l) (two n ++ v) = parse_fault l v.
Proof. intro H. cbn [parse_fault]. rewrite getnum_two by exact H. reflexivity. Qed.
Lemma fault_hour l v n : 0 <= n <= 99 -> parse_fault (THour :: l) (two n ++ v) = if n <? 24 then parse_fault l v else Some (out_of_range ($"hour")).
Proof. intro H. cbn [parse_fault]. rewrite getnum_two by exact H. reflexivity. Qed.
Lemma fault_min l v n : 0 <= n <= 99 -> parse_fault (TMin :: l) (two n ++ v) = if n <? 60 then parse_fault l v else Some (out_of_range ($"minute")).
Proof. intro H. cbn [parse_fault]. rewrite getnum_two by exact H. reflexivity. Qed.
Lemma fault_sec l v n : 0 <= n <= 99 -> no_frac v -> parse_fault (TSec :: l) (two n ++ v) = if n <? 60 then parse_fault l v else Some (out_of_range ($"second")).
Proof.
  intros H Hf. cbn [parse_fault]. rewrite getnum_two by exact H. destruct (n <? 60); [|reflexivity].
  destruct v as [|c [|d v]]; [reflexivity|reflexivity|]. cbn [no_frac] in Hf. rewrite Hf. reflexivity.
Qed.
(** The zone. *)
Lemma zone_fault_two t v c h m : c = "+"%char \/ c = "-"%char -> 0 <= h <= 99 -> 0 <= m <= 99 ->
  zone_fault t v c (two h) (two m) = if 60 <? m then Some (out_of_range ($"time zone offset minute")) else if 24 <? h then Some (out_of_range ($"time zone offset hour")) else None.
Proof.
  intros Hc Hh Hm. unfold zone_fault. rewrite <- (app_nil_r (two h)), <- (app_nil_r (two m)), !getnum_two by assumption. destruct (60 <? m); [reflexivity|]. destruct (24 <? h); [reflexivity|].
  destruct Hc as [->| ->]; reflexivity.
Qed.
Inductive zone_out : zkind -> str -> option str -> Prop :=
| zo_none : zone_out ZNone [] None
| zo_utc : zone_out ZUtc ["Z"%char] None
| zo_hour c h : c = "+"%char \/ c = "-"%char -> 0 <= h <= 99 -> zone_out ZHour (c :: two h) (if 24 <? h then Some ($"time zone offset hour") else None)
| zo_min c h m : c = "+"%char \/ c = "-"%char -> 0 <= h <= 99 -> 0 <= m <= 99 -> zone_out ZMin (c :: two h ++ ":"%char :: two m)
    (if 60 <? m then Some ($"time zone offset minute") else if 24 <? h then Some ($"time zone offset hour") else None).
Lemma zone_has_out k z : zone_kind k z -> exists o, zone_out k z o.
Proof. intros [| |c h Hc Hh|c h m Hc Hh Hm]; eexists; constructor; assumption. Qed.
Lemma zone_parse_fault k z o : zone_out k z o -> parse_fault (zone_toks k) z = option_map out_of_range o.
Proof.
  intros [| |c h Hc Hh|c h m Hc Hh Hm]; cbn [zone_toks].
  - reflexivity.
  - reflexivity.
  - unfold two. cbn [parse_fault]. fold (two h). change ($"00") with (two 0). rewrite zone_fault_two by (assumption || lia). change (60 <? 0) with false. cbv iota.
    destruct (24 <? h); reflexivity.
  - unfold two. cbn [app parse_fault]. fold (two h) (two m). change (Ascii.eqb ":" ":") with true. cbv iota. rewrite zone_fault_two by assumption.
    destruct (60 <? m); [reflexivity|]. destruct (24 <? h); reflexivity.
Qed.
Lemma zone_out_spec k z o : zone_out k z o -> forall w, zone_error z w <-> o = Some w.
Proof.
  intros H w. split.
  - intro E. destruct E as [c h Hc Hh|c h m Hc Hh Hm|c h m Hc Hh Hm]; inversion H as [ | |c' h' Hc' Hh' E1|c' h' m' Hc' Hh' Hm' E1]; subst.
    + assert (Q : two h' = two h) by (unfold two; congruence). apply two_inj in Q; [|lia|lia]. subst h'. replace (24 <? h) with true by lia. reflexivity.
    + assert (Q : two h' = two h) by (unfold two; congruence). assert (Q2 : two m' = two m) by (unfold two; congruence). apply two_inj in Q; [|lia|lia]. apply two_inj in Q2; [|lia|lia]. subst h' m'.
      replace (60 <? m) with true by lia. reflexivity.
    + assert (Q : two h' = two h) by (unfold two; congruence). assert (Q2 : two m' = two m) by (unfold two; congruence). apply two_inj in Q; [|lia|lia]. apply two_inj in Q2; [|lia|lia]. subst h' m'.
      replace (60 <? m) with false by lia. replace (24 <? h) with true by lia. reflexivity.
  - destruct H as [| |c h Hc Hh|c h m Hc Hh Hm]; intro E; try discriminate E.
    + destruct (24 <? h) eqn:L; [|discriminate E]. injection E as <-. apply ze_hours; [exact Hc|lia].
    + destruct (60 <? m) eqn:L; [injection E as <-; apply ze_minutes; [exact Hc|exact Hh|lia]|]. destruct (24 <? h) eqn:L2; [|discriminate E]. injection E as <-.
      apply ze_both; [exact Hc|lia|lia].
Qed.
(** A full date. *)
Definition first_out (h m sc : Z) (o : option str) : str :=
  if 24 <=? h then $"hour" else if 60 <=? m then $"minute" else if 60 <=? sc then $"second" else match o with Some w => w | None => $"day" end.
Lemma full_fault b y mo d h m sc k z o : 0 <= y <= 9999 -> 1 <= mo <= 12 -> 0 <= d <= 99 -> 0 <= h <= 99 -> 0 <= m <= 99 -> 0 <= sc <= 99 -> zone_out k z o ->
  time_fault (DateTimeFacts.signed b ($"2006-01-02T15:04:05" ++ zone_layout k)) (DateTimeFacts.signed b (core_text y mo d h m sc z)) = out_of_range (first_out h m sc o).
Proof.
  intros Hy Hmo Hd Hh Hm Hs Hz. unfold time_fault. rewrite layout_stamp.
  assert (E : parse_fault ((if b then [TLit "-"] else []) ++ core_toks ++ zone_toks k) (DateTimeFacts.signed b (core_text y mo d h m sc z)) =
    parse_fault (core_toks ++ zone_toks k) (core_text y mo d h m sc z)).
  { unfold DateTimeFacts.signed. destruct b; [apply fault_lit|reflexivity]. }
  rewrite E. clear E. unfold core_toks, core_text. cbn [app].
  rewrite fault_year, fault_lit, fault_month, fault_lit, fault_day, fault_lit, fault_hour by assumption. unfold first_out.
  replace (24 <=? h) with (negb (h <? 24)) by lia. destruct (h <? 24); cbn [negb]; [|reflexivity]. rewrite fault_lit, fault_min by assumption.
  replace (60 <=? m) with (negb (m <? 60)) by lia. destruct (m <? 60); cbn [negb]; [|reflexivity]. rewrite fault_lit, fault_sec; [|exact Hs|].
  2:{ destruct Hz as [| |c h' [->| ->] ?|c h' m' [->| ->] ? ?]; cbn; auto. }
  replace (60 <=? sc) with (negb (sc <? 60)) by lia. destruct (sc <? 60); cbn [negb]; [|reflexivity]. rewrite (zone_parse_fault _ _ _ Hz). destruct o; reflexivity.
Qed.
(** A date without a day. *)
Lemma short_fault b k t y m r : level0_date t y m None -> b = has_prefix t ["-"%char] ->
  time_fault (DateTimeFacts.signed b ($"2006-01-02T15:04:05" ++ zone_layout k)) (t ++ "T"%char :: r) = Cannot ("T"%char :: r) ($"-").
Proof.
  intros H Hb. unfold time_fault. rewrite layout_stamp. remember None as dd eqn:Ed. destruct H as [t y u m dd Hy Hu].
  assert (E : exists n, 0 <= n <= 9999 /\ (t ++ u) ++ "T"%char :: r = DateTimeFacts.signed b (four n ++ u ++ "T"%char :: r)).
  { destruct Hy as [n Hn|n Hn]; exists n; (split; [exact Hn|]); subst b; rewrite <- app_assoc.
    - unfold four. cbn [app has_prefix]. destruct (Ascii.eqb "-" (digit_char (n / 1000))) eqn:E; [|reflexivity]. exfalso. apply Ascii.eqb_eq in E.
      pose proof (is_digit_char (n / 1000) ltac:(lia)) as D. rewrite <- E in D. discriminate D.
    - cbn [app has_prefix]. rewrite has_prefix_nil. reflexivity. }
  destruct E as (n & Hn & ->). clear Hb.
  assert (E : parse_fault ((if b then [TLit "-"] else []) ++ core_toks ++ zone_toks k) (DateTimeFacts.signed b (four n ++ u ++ "T"%char :: r)) =
    parse_fault (core_toks ++ zone_toks k) (four n ++ u ++ "T"%char :: r)).
  { unfold DateTimeFacts.signed. destruct b; [apply fault_lit|reflexivity]. }
  rewrite E. clear E. unfold core_toks. cbn [app]. rewrite fault_year by exact Hn. destruct Hu as [|mo Hm|mo d Hm Hd]; [| |discriminate Ed].
  - reflexivity.
  - cbn [app]. rewrite fault_lit, fault_month by exact Hm. reflexivity.
Qed.
Lemma zone_out_none k z : zone_out k z None -> exists off, zone_means z off.
Proof.
  intro H. remember None as o eqn:Eo. destruct H as [| |c h Hc Hh|c h m Hc Hh Hm].
  - exists 0. constructor.
  - exists 0. constructor.
  - destruct (24 <? h) eqn:L; [discriminate Eo|]. destruct Hc as [->| ->]; eexists; constructor; lia.
  - destruct (60 <? m) eqn:L; [discriminate Eo|]. destruct (24 <? h) eqn:L2; [discriminate Eo|]. destruct Hc as [->| ->]; eexists; constructor; lia.
Qed.
(** A full date and its parts without the sign. *)
Lemma full_date t y mo d : level0_date t y (Some mo) (Some d) -> exists b n, b = has_prefix t ["-"%char] /\ 0 <= n <= 9999 /\ 1 <= mo <= 12 /\ 1 <= d <= 31 /\
  y = (if b then - n else n) /\ t = DateTimeFacts.signed b (four n ++ "-"%char :: two mo ++ "-"%char :: two d).
Proof.
  intro H. remember (Some mo) as m' eqn:Em. remember (Some d) as d' eqn:Ed. destruct H as [t y r m' d' Hy Hr]. destruct Hr as [|mo' Hm|mo' d0 Hm Hd]; try discriminate.
  injection Em as ->. injection Ed as ->. destruct Hy as [n Hn|n Hn]; [exists false|exists true]; exists n; (split; [|repeat (split; [first [lia|assumption]|]); split; reflexivity]).
  - unfold four. cbn [app has_prefix]. destruct (Ascii.eqb "-" (digit_char (n / 1000))) eqn:E; [|reflexivity]. exfalso. apply Ascii.eqb_eq in E.
    pose proof (is_digit_char (n / 1000) ltac:(lia)) as D. rewrite <- E in D. discriminate D.
  - cbn [app has_prefix]. rewrite has_prefix_nil. reflexivity.
Qed.
Definition clock_part (h m sc : Z) (z : str) : str := two h ++ ":"%char :: two m ++ ":"%char :: two sc ++ z.
Lemma full_text b n mo d h m sc z : DateTimeFacts.signed b (four n ++ "-"%char :: two mo ++ "-"%char :: two d) ++ "T"%char :: clock_part h m sc z =
  DateTimeFacts.signed b (core_text n mo d h m sc z).
Proof. unfold DateTimeFacts.signed, core_text, clock_part, two, four. destruct b; reflexivity. Qed.
Lemma full_reads t y mo d h m sc z off : level0_date t y (Some mo) (Some d) -> real_date y mo d -> clock h m sc -> zone_means z off ->
  exists i, stamp_reads (t ++ "T"%char :: clock_part h m sc z) i.
Proof.
  intros Ht Hr Hc Hz. destruct (full_date _ _ _ _ Ht) as (b & n & _ & Hn & Hm & Hd & -> & ->). rewrite full_text.
  assert (E : core_text n mo d h m sc z = stamp_text n mo d h m sc z).
  { unfold stamp_text, core_text, day_text, clock_text, year_text. replace (n <? 0) with false by lia. unfold four, two. reflexivity. }
  rewrite E. destruct b; cbn [DateTimeFacts.signed].
  - rewrite real_date_neg in Hr. destruct (instant_exists (instant n mo d h m sc - off)) as (y' & m' & d' & hh & mi & ss & Hr' & Hc' & Q).
    eexists. exact (st_minus n mo d h m sc z off _ _ _ _ _ _ Hn Hr Hc Hz Hr' Hc' Q).
  - eexists. apply st_plain; eassumption.
Qed.
Lemma range_spec y mo d h m sc k z o : zone_out k z o -> (h < 24 -> m < 60 -> sc < 60 -> o = None -> ~ real_date y mo d) ->
  forall w, range_error y mo d h m sc z w <-> w = first_out h m sc o.
Proof.
  intros Hz N w. pose proof (zone_out_spec _ _ _ Hz) as S. unfold first_out. split.
  - intros [H|H1 H2|H1 H2 H3|w' H1 H2 H3 H4|H1 H2 H3 H4 H5].
    + replace (24 <=? h) with true by lia. reflexivity.
    + replace (24 <=? h) with false by lia. replace (60 <=? m) with true by lia. reflexivity.
    + replace (24 <=? h) with false by lia. replace (60 <=? m) with false by lia. replace (60 <=? sc) with true by lia. reflexivity.
    + replace (24 <=? h) with false by lia. replace (60 <=? m) with false by lia. replace (60 <=? sc) with false by lia. apply S in H4. rewrite H4. reflexivity.
    + replace (24 <=? h) with false by lia. replace (60 <=? m) with false by lia. replace (60 <=? sc) with false by lia. destruct o as [w'|]; [|reflexivity].
      exfalso. apply (H4 w'). apply S. reflexivity.
  - intros ->. destruct (24 <=? h) eqn:E1; [apply re_hour; lia|]. destruct (60 <=? m) eqn:E2; [apply re_minute; lia|]. destruct (60 <=? sc) eqn:E3; [apply re_second; lia|].
    destruct o as [w'|]; [apply re_zone; [lia..|apply S; reflexivity]|]. apply re_day; [lia..| |apply N; (lia || reflexivity)]. intros w' E. apply S in E. discriminate E.
Qed.
Lemma parts_unique t h m sc z t' h' m' sc' z' : is_level0_date t -> is_level0_date t' -> 0 <= h <= 99 -> 0 <= m <= 99 -> 0 <= sc <= 99 -> 0 <= h' <= 99 -> 0 <= m' <= 99 -> 0 <= sc' <= 99 ->
  t ++ "T"%char :: clock_part h m sc z = t' ++ "T"%char :: clock_part h' m' sc' z' -> t = t' /\ h = h' /\ m = m' /\ sc = sc' /\ z = z'.
Proof.
  intros Ht Ht' Hh Hm Hs Hh' Hm' Hs' E. apply split_once in E; [|apply date_bytes_T; assumption|apply date_bytes_T; assumption]. destruct E as (-> & E). split; [reflexivity|].
  unfold clock_part, two in E. cbn [app] in E. injection E as E1 E2 E3 E4 E5 E6 E7.
  assert (Q1 : two h = two h') by (unfold two; congruence). assert (Q2 : two m = two m') by (unfold two; congruence). assert (Q3 : two sc = two sc') by (unfold two; congruence).
  apply two_inj in Q1; [|assumption..]. apply two_inj in Q2; [|assumption..]. apply two_inj in Q3; [|assumption..]. auto.
Qed.

(** ** Errors *)
Definition spoken (e : err) : Prop := forall w, err_says e w <-> w = error_text e.
Lemma layout_long b k : DateTimeFacts.signed b ($"2006-01-02T15:04:05" ++ zone_layout k) <> $"2006-01-02".
Proof. destruct b, k; discriminate. Qed.
Lemma stamp_spoken s e : stamp_refused s e -> spoken e.
Proof.
  intros [t h m sc z g l s' Ht Hh Hm Hs Hg Hl Es N] w. apply layout_kind in Hl. destruct Hl as (k & Hk & ->).
  apply (minus_signed t g ($"2006-01-02T15:04:05" ++ zone_layout k)) in Hg. rewrite <- Hg. clear Hg g. set (b := has_prefix t ["-"%char]).
  change (s' = t ++ "T"%char :: clock_part h m sc z) in Es.
  assert (B : quote s' = in_quotes s').
  { apply quote_bare. subst s'. apply Forall_app. split; [apply bare_date; exact Ht|]. constructor; [right; cbn; tauto|]. unfold clock_part.
    apply Forall_app. split; [apply bare_two; exact Hh|]. constructor; [right; cbn; tauto|]. apply Forall_app. split; [apply bare_two; exact Hm|]. constructor; [right; cbn; tauto|].
    apply Forall_app. split; [apply bare_two; exact Hs|exact (bare_zone _ _ Hk)]. }
  cbn [error_text]. unfold time_text. rewrite B. set (L := DateTimeFacts.signed b ($"2006-01-02T15:04:05" ++ zone_layout k)).
  assert (S : forall w0, err_says (ETime L s') w0 <-> exists v, w0 = $"parsing time " ++ in_quotes s' ++ v /\ stamp_says L s' v).
  { intro w0. split.
    - intro E. remember (ETime L s') as x eqn:Ex. destruct E; try discriminate Ex.
      + exfalso. injection Ex as E1 _. exact (layout_long b k (eq_sym E1)).
      + pose proof (f_equal (fun e => match e with ETime a _ => a | _ => [] end) Ex) as E1. pose proof (f_equal (fun e => match e with ETime _ a => a | _ => [] end) Ex) as E2.
        cbn beta iota in E1, E2. rewrite <- E1, <- E2. eauto.
    - intros (v & -> & E). apply em_stamp. exact E. }
  rewrite S. clear S. pose proof Ht as (y & mo & d & Hd). destruct d as [d|].
  - assert (exists mo', mo = Some mo') as (mo' & ->) by (inversion Hd as [? ? ? ? ? _ R]; inversion R; eauto). rename mo' into mo.
    destruct (zone_has_out k z Hk) as (o & Ho). destruct (full_date _ _ _ _ Hd) as (b' & n & Eb & Hn & Hmo & Hdd & Ey & Et). fold b in Eb. subst b'.
    assert (F : time_fault L s' = out_of_range (first_out h m sc o)).
    { unfold L. rewrite Es, Et, full_text. apply full_fault; (assumption || lia). }
    rewrite F. unfold out_of_range. assert (R : h < 24 -> m < 60 -> sc < 60 -> o = None -> ~ real_date y mo d).
    { intros H1 H2 H3 -> Hr. destruct (zone_out_none _ _ Ho) as (off & Hz). destruct (full_reads t y mo d h m sc z off Hd Hr ltac:(unfold clock; lia) Hz) as (i & Hi).
      apply (N i). rewrite Es. exact Hi. }
    pose proof (range_spec y mo d h m sc k z o Ho R) as Q. clear F R. split.
    + intros (v & -> & E). destruct E as [t' y' m' r Ht' |t' y' mo' d' h' m' sc' z' w' Ht' Hh' Hm' Hs' E].
      * exfalso. assert (t' = t). { apply split_once in Es; [apply Es| |]; apply date_bytes_T; [exists y', m', None; exact Ht'|exact Ht]. }
        subst t'. destruct (level0_unique _ _ _ _ _ _ _ Hd Ht') as (_ & _ & U). discriminate U.
      * destruct (parts_unique t h m sc z t' h' m' sc' z' Ht ltac:(exists y', (Some mo'), (Some d'); exact Ht') Hh Hm Hs Hh' Hm' Hs' (eq_sym Es)) as (-> & -> & -> & -> & ->).
        destruct (level0_unique _ _ _ _ _ _ _ Hd Ht') as (-> & U1 & U2). injection U1 as ->. injection U2 as ->. apply Q in E. subst w'. reflexivity.
    + intros ->. eexists. split; [reflexivity|]. rewrite Es. apply (st_range L t y mo d h m sc z); try assumption. apply Q. reflexivity.
  - assert (F : time_fault L s' = Cannot ("T"%char :: clock_part h m sc z) ($"-")) by (unfold L; rewrite Es; exact (short_fault b k t y mo _ Hd eq_refl)).
    rewrite F.
    assert (B1 : quote L = in_quotes L) by (unfold L; destruct b, k; reflexivity).
    assert (B2 : quote ("T"%char :: clock_part h m sc z) = in_quotes ("T"%char :: clock_part h m sc z)).
    { apply quote_bare. constructor; [right; cbn; tauto|]. unfold clock_part.
      apply Forall_app. split; [apply bare_two; exact Hh|]. constructor; [right; cbn; tauto|]. apply Forall_app. split; [apply bare_two; exact Hm|]. constructor; [right; cbn; tauto|].
      apply Forall_app. split; [apply bare_two; exact Hs|exact (bare_zone _ _ Hk)]. }
    rewrite B1, B2. clear B1 B2 F. split.
    + intros (v & -> & E). destruct E as [t' y' m' r Ht' |t' y' mo' d' h' m' sc' z' w' Ht' Hh' Hm' Hs' E].
      * apply split_once in Es; [|apply date_bytes_T; exists y', m', None; exact Ht'|apply date_bytes_T; exact Ht]. destruct Es as (-> & ->). reflexivity.
      * exfalso. destruct (parts_unique t h m sc z t' h' m' sc' z' Ht ltac:(exists y', (Some mo'), (Some d'); exact Ht') Hh Hm Hs Hh' Hm' Hs' (eq_sym Es)) as (-> & _).
        destruct (level0_unique _ _ _ _ _ _ _ Hd Ht') as (_ & _ & U2). discriminate U2.
    + intros ->. eexists. split; [reflexivity|]. rewrite Es. exact (st_short L t y mo _ Hd).
Qed.
Lemma num_spoken x : Forall bare x -> all_digits (unsigned x) = false -> spoken (ENum x).
Proof.
  intros Hb Hd w. cbn [error_text]. unfold num_text. rewrite (quote_bare x Hb), Hd. split.
  - intro E. remember (ENum x) as e eqn:Ee. destruct E; try discriminate Ee. injection Ee as ->. reflexivity.
  - intros ->. exact (em_number x).
Qed.
Lemma digit_spoken x : Forall bare x -> all_digits (unsigned x) = false -> spoken (EInt x).
Proof.
  intros Hb Hd w. cbn [error_text]. unfold num_text. rewrite (quote_bare x Hb), Hd. split.
  - intro E. remember (EInt x) as e eqn:Ee. destruct E; try discriminate Ee. injection Ee as ->. reflexivity.
  - intros ->. exact (em_digit x).
Qed.
Lemma not_all_digits x : In "X"%char x -> all_digits (unsigned x) = false.
Proof.
  intro H. assert (U : In "X"%char (unsigned x)).
  { destruct x as [|c t]; [destruct H|]. cbn [unsigned]. destruct (Ascii.eqb c "-" || Ascii.eqb c "+") eqn:E; [|exact H]. destruct H as [->|H]; [discriminate E|exact H]. }
  unfold all_digits. destruct (unsigned x) as [|c t]; [reflexivity|]. destruct (forallb is_digit (c :: t)) eqn:E; [|reflexivity].
  rewrite forallb_forall in E. specialize (E _ U). discriminate E.
Qed.
Lemma bare_year y : year_part y -> Forall bare y.
Proof.
  intros (a & b & Ha & (_ & Hb) & ->). apply Forall_app. split.
  - destruct Ha as [-> |Ha]; [constructor|]. rewrite Ha. constructor; [right; cbn; tauto|constructor].
  - eapply Forall_impl; [|exact Hb]. intros c [D| ->]; [left; exact D|right; cbn; tauto].
Qed.
Lemma label_spoken e : match e with ENotImplemented _ _ | EInvalid _ _ | EUnsupported _ _ | EUnrecognized _ _ | EText _ => True | _ => False end -> spoken e.
Proof.
  intros H w. split.
  - intro E. destruct E; try destruct H; reflexivity.
  - intros ->. destruct e; try destruct H; constructor.
Qed.
Ltac labelled := apply label_spoken; exact I.
Lemma date_spoken s e : date_refused s e -> spoken e.
Proof.
  intros [N|r m d H X|r m d H X|y m H D|y m d H N I X|y l h c d H N R D|y l h m l' h' c H R R' D|y m d y' m' d' H N]; try labelled.
  - apply digit_spoken; [constructor; [right; cbn; tauto|constructor]|reflexivity].
  - assert (Y : year_part y) by (destruct H; assumption). apply num_spoken; [exact (bare_year y Y)|exact (not_all_digits y I)].
  - apply num_spoken; [constructor; [right; cbn; tauto|constructor; [left; exact D|constructor]]|apply not_all_digits; left; reflexivity].
  - apply num_spoken; [constructor; [right; cbn; tauto|constructor; [left; exact D|constructor]]|apply not_all_digits; left; reflexivity].
Qed.
Lemma halves_spoken a b e : halves_refused a b e -> spoken e.
Proof. intros [[_ _ H]|(_ & [_ _ H])]; exact (date_spoken _ _ H). Qed.
Lemma span_spoken s e : span_refused s e -> spoken e.
Proof. intros [s' e' _ H|a b e' _ _ H|a b c]; [exact (date_spoken _ _ H)|exact (halves_spoken _ _ _ H)|labelled]. Qed.
Lemma months_spoken y b y' e : months_refused y b y' e -> spoken e.
Proof.
  intros [H|H|H H']; try labelled. intro w. split.
  - intro E. remember (ETime ($"2006-01-02") ($"10000-03-01")) as x eqn:Ex. destruct E as [| | | | | | | | | |layout s w E|]; try discriminate Ex; [reflexivity|].
    exfalso. assert (T : In "T"%char s) by (destruct E; apply in_or_app; right; left; reflexivity). injection Ex as _ Es. rewrite Es in T. cbn in T. intuition discriminate.
  - intros ->. exact em_next.
Qed.
Lemma big_spoken t m e : exp_text t m e -> spoken (EBig t).
Proof.
  intros H w. destruct H as [neg ds c es m e Hd Hc He]. cbn [error_text]. unfold big_text.
  rewrite (exp_split_text neg ds c es (digits_text_dec _ _ Hd) Hc (digits_text_dec _ _ He)), (nat_val_dec _ _ He).
  assert (Q : forall neg' ds' c' es', (exists m', dec_digits ds' m') -> c' = "E"%char \/ c' = "e"%char -> (exists e', dec_digits es' e') ->
    sign neg' ++ ds' ++ c' :: es' = sign neg ++ ds ++ c :: es -> es' = es).
  { intros neg' ds' c' es' (m' & Hd') Hc' (e' & He') E. pose proof (exp_split_text neg' ds' c' es' (digits_text_dec _ _ Hd') Hc' (digits_text_dec _ _ He')) as A.
    rewrite E, (exp_split_text neg ds c es (digits_text_dec _ _ Hd) Hc (digits_text_dec _ _ He)) in A. injection A as _ _ ->. reflexivity. }
  assert (V : forall t' m' e', exp_text t' m' e' -> t' = sign neg ++ ds ++ c :: es -> e' = e).
  { intros t' m' e' E Et. destruct E as [neg' ds' c' es' m' e' Hd' Hc' He']. assert (es' = es) by exact (Q neg' ds' c' es' (ex_intro _ _ Hd') Hc' (ex_intro _ _ He') Et). subst es'.
    rewrite <- (nat_val_dec _ _ He), <- (nat_val_dec _ _ He'). reflexivity. }
  assert (A : all_digits (unsigned es) = true).
  { pose proof (digits_text_dec _ _ He) as (Ne & De). destruct es as [|c0 es0]; [contradiction|]. inversion De as [|? ? D0 D1]; subst. unfold unsigned.
    replace (Ascii.eqb c0 "-" || Ascii.eqb c0 "+") with false; [unfold all_digits; apply forallb_forall; apply Forall_forall; exact De|].
    symmetry. apply orb_false_iff. split; apply Ascii.eqb_neq; intros ->; discriminate D0. }
  unfold num_text. rewrite A, (quote_bare es (bare_digits _ _ He)). split.
  - intro E. remember (EBig (sign neg ++ ds ++ c :: es)) as x eqn:Ex. destruct E as [| | | | | | |neg' ds' c' es' m' e' Hd' Hc' He' B|t' m' e' E B| | |]; try discriminate Ex.
    + assert (Et : sign neg' ++ ds' ++ c' :: es' = sign neg ++ ds ++ c :: es) by (injection Ex as Et; exact Et). assert (es' = es) by exact (Q neg' ds' c' es' (ex_intro _ _ Hd') Hc' (ex_intro _ _ He') Et). subst es'.
      assert (e' = e) by (rewrite <- (nat_val_dec _ _ He), <- (nat_val_dec _ _ He'); reflexivity). subst e'. replace (max_int64 <? e) with true by (unfold max_int64; lia). reflexivity.
    + assert (e' = e) by (apply (V t' m' e' E); injection Ex as Et; exact Et). subst e'. replace (max_int64 <? e) with false by (unfold max_int64; lia). reflexivity.
  - intros ->. destruct (max_int64 <? e) eqn:L.
    + apply (em_exponent neg ds c es m e); try assumption. unfold max_int64 in L. lia.
    + apply (em_size _ (SpecForms.signed neg m) e); [constructor; assumption|unfold max_int64 in L; lia].
Qed.
Lemma notation_spoken t e : notation_refused t e -> spoken e.
Proof. intros [t' m e' H _|t' y _ _]; [exact (big_spoken _ _ _ H)|labelled]. Qed.
Theorem refused_spoken s e : refused s e -> spoken e.
Proof.
  intros [s' lv f x _ H|s' _ _ _|s' _ _ _ _|s' _ _ _ _ _]; try labelled.
  destruct H as [f0 s0 x0 _ H|s0 x0 H|s0 x0 H|s0 x0 H|s0 x0 H|s0 x0 H|s0 x0 H|s0 x0 H].
  - exact (span_spoken _ _ H).
  - exact (stamp_spoken _ _ H).
  - destruct H; labelled.
  - destruct H as [t y n r b e0 j x1 _ _ H|n w v sp sp' y b e0 j x1 _ _ _ _ _ H]; exact (months_spoken _ _ _ _ H).
  - destruct H as [a t x1 _ H|a t y w _ _ _ _]; [exact (notation_spoken _ _ H)|labelled].
  - destruct H as [sg ds nd s1 _ _ _ _ _|c t nd x1 _ H _|u y nd v s1 _ _ _ _|u y nd v w x1 _ _ _ _ _ _]; try labelled. exact (notation_spoken _ _ H).
  - destruct H. labelled.
  - destruct H as [o l p c s1 _ _ _ _|o l ds so eo c a b x1 _ _ _ _ H]; [labelled|exact (halves_spoken _ _ _ H)].
Qed.
Theorem text_exactly s e : ParseString s = Err e -> forall w, err_says e w <-> w = error_text e.
Proof. intro H. exact (refused_spoken s e (refused_complete s e H)). Qed.
