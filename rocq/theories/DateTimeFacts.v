(** Dates with a time of day: parse result of every such text. *)
From Coq Require Import Ascii String ZArith NArith Bool Lia ZifyBool List.
From Verif Require Import GoStr GoTime Regex Patterns RegexSym RegexRel RegexGen SpecCal SpecText SpecGrammar SpecSpan SpecZone StrFacts TextFacts Edtf Calendar Common Level0 Level1 Level2 Parser CalFacts ApiFacts SpanFacts YmdShapes GrammarFacts LangFacts DateFacts Level0Facts TimeFacts.
Import ListNotations.
Open Scope Z_scope.
Ltac Zify.zify_post_hook ::= Z.div_mod_to_equations.

(** ** Captured groups *)
Inductive zkind := ZNone | ZUtc | ZHour | ZMin.
Definition dg : cset := [(48, 57)].
Definition zshape (k : zkind) : shape :=
  match k with
  | ZNone => []
  | ZUtc => [c0 90]
  | ZHour => [[(43, 43); (45, 45)]; dg; dg]
  | ZMin => [[(43, 43); (45, 45)]; dg; dg; c0 58; dg; dg]
  end.
Definition dtshape (bce : bool) (k : zkind) : shape :=
  (if bce then [c0 45] else []) ++ [dg; dg; dg; dg; c0 45; dg; dg; c0 45; dg; dg; c0 84; dg; dg; c0 58; dg; dg; c0 58; dg; dg] ++ zshape k.
Definition zgroups (k : zkind) : list (option (nat * nat)) :=
  match k with
  | ZNone => [None; None; None]
  | ZUtc => [Some (1, 0)%nat; None; None]
  | ZHour => [Some (3, 0)%nat; Some (3, 2)%nat; None]
  | ZMin => [Some (6, 0)%nat; Some (6, 5)%nat; Some (3, 0)%nat]
  end.
Definition dt_ok (k : zkind) (outs : list sout) : bool :=
  match outs with
  | [None] => true
  | [Some g] => Nat.eqb (length g) 12 && list_eqb (opt_eqb pair_eqb) [nth 7 g None; nth 8 g None; nth 10 g None] (zgroups k)
  | _ => false
  end.
Lemma dt_check : forallb (fun x => check 60 [DateAndTime] (fun _ o => dt_ok (snd x) o) (dtshape (fst x) (snd x)))
  (flat_map (fun k => [(false, k); (true, k)]) [ZNone; ZUtc; ZHour; ZMin]) = true.
Proof. vm_compute. reflexivity. Qed.

Lemma is_digit_set c : is_digit c = true -> in_set dg c = true.
Proof. unfold is_digit, in_set, dg. cbn [existsb fst snd]. lia. Qed.
Lemma fits_two n : 0 <= n <= 99 -> fits [dg; dg] (two n).
Proof.
  intro H. unfold two. repeat constructor; apply is_digit_set, is_digit_char; lia.
Qed.
Lemma fits_four n : 0 <= n <= 9999 -> fits [dg; dg; dg; dg] (four n).
Proof.
  intro H. unfold four. repeat constructor; apply is_digit_set, is_digit_char; lia.
Qed.
Inductive zone_kind : zkind -> str -> Prop :=
| zk_none : zone_kind ZNone []
| zk_utc : zone_kind ZUtc ["Z"%char]
| zk_hour c h : c = "+"%char \/ c = "-"%char -> 0 <= h <= 99 -> zone_kind ZHour (c :: two h)
| zk_min c h m : c = "+"%char \/ c = "-"%char -> 0 <= h <= 99 -> 0 <= m <= 99 -> zone_kind ZMin (c :: two h ++ ":"%char :: two m).
Lemma fits_zone k z : zone_kind k z -> fits (zshape k) z.
Proof.
  intros [| |c h Hc Hh|c h m Hc Hh Hm]; cbn [zshape].
  - constructor.
  - repeat constructor.
  - constructor; [destruct Hc; subst; reflexivity|apply fits_two; exact Hh].
  - constructor; [destruct Hc; subst; reflexivity|]. apply (fits_app [dg; dg] [c0 58; dg; dg]); [apply fits_two; exact Hh|].
    constructor; [reflexivity|apply fits_two; exact Hm].
Qed.
(** date and time text with arbitrary two digit numbers *)
Definition core_text (y m d hh mi ss : Z) (z : str) : str :=
  four y ++ "-"%char :: two m ++ "-"%char :: two d ++ "T"%char :: two hh ++ ":"%char :: two mi ++ ":"%char :: two ss ++ z.
Definition signed (bce : bool) (s : str) : str := if bce then "-"%char :: s else s.
Record small (y m d hh mi ss : Z) : Prop := {
  sm_y : 0 <= y <= 9999; sm_m : 0 <= m <= 99; sm_d : 0 <= d <= 99; sm_h : 0 <= hh <= 99; sm_i : 0 <= mi <= 99; sm_s : 0 <= ss <= 99 }.
Lemma fits_core bce y m d hh mi ss k z : small y m d hh mi ss -> zone_kind k z ->
  fits (dtshape bce k) (signed bce (core_text y m d hh mi ss z)).
Proof.
  intros [Hy Hm Hd Hh Hi Hs] Hz.
  assert (C : fits ([dg; dg; dg; dg; c0 45; dg; dg; c0 45; dg; dg; c0 84; dg; dg; c0 58; dg; dg; c0 58; dg; dg] ++ zshape k)
    (core_text y m d hh mi ss z)).
  { unfold core_text. apply (fits_app [dg; dg; dg; dg]); [apply fits_four; exact Hy|]. cbn [app]. constructor; [reflexivity|].
    apply (fits_app [dg; dg]); [apply fits_two; assumption|]. cbn [app]. constructor; [reflexivity|].
    apply (fits_app [dg; dg]); [apply fits_two; assumption|]. cbn [app]. constructor; [reflexivity|].
    apply (fits_app [dg; dg]); [apply fits_two; assumption|]. cbn [app]. constructor; [reflexivity|].
    apply (fits_app [dg; dg]); [apply fits_two; assumption|]. cbn [app]. constructor; [reflexivity|].
    apply (fits_app [dg; dg]); [apply fits_two; assumption|]. apply fits_zone. exact Hz. }
  unfold dtshape, signed. destruct bce; [constructor; [reflexivity|exact C]|exact C].
Qed.
Lemma answers_one s r outs : answers s [r] outs -> exists o, outs = [o] /\ find_submatch r s = out_subs s o /\ match_string r s = out_match o.
Proof. intro H. inversion H as [|? o ? l (H1 & H2) Hl]; subst. inversion Hl; subst. eauto. Qed.
Lemma nth_map_none s g i : (i < length g)%nat -> sub (map (group_str s) g) i = group_str s (nth i g None).
Proof. intro H. unfold sub. rewrite (nth_indep _ [] (group_str s None)) by (rewrite map_length; exact H). apply map_nth. Qed.
Lemma dt_groups bce y m d hh mi ss k z : let s := signed bce (core_text y m d hh mi ss z) in
  small y m d hh mi ss -> zone_kind k z -> match_string DateAndTime s = true ->
  length (find_submatch DateAndTime s) = 12%nat /\
  [sub (find_submatch DateAndTime s) 7; sub (find_submatch DateAndTime s) 8; sub (find_submatch DateAndTime s) 10] = map (group_str s) (zgroups k).
Proof.
  intros s Hs Hz Hm. pose proof (fits_core bce _ _ _ _ _ _ _ _ Hs Hz) as Hf. fold s in Hf. clearbody s.
  pose proof dt_check as Hc. rewrite forallb_forall in Hc. specialize (Hc (bce, k)).
  destruct (check_ok _ _ _ _ s (Hc ltac:(destruct bce, k; cbn; tauto)) Hf) as (sh' & outs & _ & Ha & He). cbn [snd] in He.
  apply answers_one in Ha. destruct Ha as (o & -> & -> & Ho). rewrite Ho in Hm. destruct o as [g|]; [|discriminate Hm].
  cbn [dt_ok] in He. apply andb_true_iff in He. destruct He as (Hl & He). apply Nat.eqb_eq in Hl.
  apply list_eqb_eq in He; [|apply opt_eqb_eq; apply pair_eqb_eq]. cbn [out_subs]. rewrite map_length, !nth_map_none by lia.
  split; [exact Hl|]. rewrite <- He. reflexivity.
Qed.

(** ** time.Parse on such texts *)
Definition zone_layout (k : zkind) : str :=
  match k with ZNone => [] | ZUtc => $"Z" | ZHour => $"-07" | ZMin => $"-07:00" end.
Definition zone_toks (k : zkind) : list tok :=
  match k with ZNone => [] | ZUtc => [TLit "Z"] | ZHour => [TZShort] | ZMin => [TZColon] end.
Definition core_toks : list tok :=
  [TYear; TLit "-"; TMonth; TLit "-"; TDay; TLit "T"; THour; TLit ":"; TMin; TLit ":"; TSec].
Lemma layout_stamp bce k : layout_toks (signed bce ($"2006-01-02T15:04:05" ++ zone_layout k)) 0 =
  (if bce then [TLit "-"] else []) ++ core_toks ++ zone_toks k.
Proof. destruct bce, k; reflexivity. Qed.

Definition sgn (c : ascii) : Z := if Ascii.eqb c "+" then 1 else -1.
Inductive zone_val : zkind -> str -> option Z -> Prop :=
| zv_none : zone_val ZNone [] (Some 0)
| zv_utc : zone_val ZUtc ["Z"%char] (Some 0)
| zv_hour c h : c = "+"%char \/ c = "-"%char -> 0 <= h <= 99 ->
    zone_val ZHour (c :: two h) (if h <=? 24 then Some (sgn c * (h * 3600)) else None)
| zv_min c h m : c = "+"%char \/ c = "-"%char -> 0 <= h <= 99 -> 0 <= m <= 99 ->
    zone_val ZMin (c :: two h ++ ":"%char :: two m) (if (h <=? 24) && (m <=? 60) then Some (sgn c * (h * 3600 + m * 60)) else None).
Lemma val_kind k z v : zone_val k z v -> zone_kind k z.
Proof. intros []; constructor; assumption. Qed.
Lemma zone_has_val z : zone_text z -> exists k v, zone_val k z v.
Proof.
  intros [| |c h Hc Hh|c h m Hc Hh Hm]; [exists ZNone|exists ZUtc|exists ZHour|exists ZMin]; eexists; constructor; assumption.
Qed.
Lemma means_val z off : zone_means z off <-> exists k, zone_val k z (Some off).
Proof.
  split.
  - intros [| |h Hh|h Hh|h m Hh Hm|h m Hh Hm]; [exists ZNone|exists ZUtc|exists ZHour|exists ZHour|exists ZMin|exists ZMin]; try constructor.
    + replace (Some (h * 3600)) with (if h <=? 24 then Some (sgn "+" * (h * 3600)) else None)
        by (replace (h <=? 24) with true by lia; f_equal; change (sgn "+") with 1; lia). constructor; [tauto|lia].
    + replace (Some (- (h * 3600))) with (if h <=? 24 then Some (sgn "-" * (h * 3600)) else None)
        by (replace (h <=? 24) with true by lia; f_equal; change (sgn "-") with (-1); lia). constructor; [tauto|lia].
    + replace (Some (h * 3600 + m * 60)) with (if (h <=? 24) && (m <=? 60) then Some (sgn "+" * (h * 3600 + m * 60)) else None)
        by (replace ((h <=? 24) && (m <=? 60)) with true by lia; f_equal; change (sgn "+") with 1; lia). constructor; [tauto|lia|lia].
    + replace (Some (- (h * 3600 + m * 60))) with (if (h <=? 24) && (m <=? 60) then Some (sgn "-" * (h * 3600 + m * 60)) else None)
        by (replace ((h <=? 24) && (m <=? 60)) with true by lia; f_equal; change (sgn "-") with (-1); lia). constructor; [tauto|lia|lia].
  - intros (k & H). remember (Some off) as v. destruct H as [| |c h Hc Hh|c h m Hc Hh Hm].
    + injection Heqv as <-. constructor.
    + injection Heqv as <-. constructor.
    + destruct (h <=? 24) eqn:E; [|discriminate]. injection Heqv as <-. destruct Hc as [-> | ->].
      * change (sgn "+") with 1. rewrite Z.mul_1_l. constructor. lia.
      * change (sgn "-") with (-1). replace (-1 * (h * 3600)) with (- (h * 3600)) by lia. constructor. lia.
    + destruct ((h <=? 24) && (m <=? 60)) eqn:E; [|discriminate]. injection Heqv as <-. destruct Hc as [-> | ->].
      * change (sgn "+") with 1. rewrite Z.mul_1_l. constructor; lia.
      * change (sgn "-") with (-1). replace (-1 * (h * 3600 + m * 60)) with (- (h * 3600 + m * 60)) by lia. constructor; lia.
Qed.

Lemma zone_offset_two c h m : c = "+"%char \/ c = "-"%char -> 0 <= h <= 99 -> 0 <= m <= 99 ->
  zone_offset c (two h) (two m) = if (h <=? 24) && (m <=? 60) then Some (sgn c * (h * 3600 + m * 60)) else None.
Proof.
  intros Hc Hh Hm. unfold zone_offset. rewrite <- (app_nil_r (two h)), <- (app_nil_r (two m)), !getnum_two by assumption.
  replace ((24 <? h) || (60 <? m)) with (negb ((h <=? 24) && (m <=? 60))) by lia.
  destruct ((h <=? 24) && (m <=? 60)); cbn [negb]; [|reflexivity].
  destruct Hc as [-> | ->]; [change (sgn "+") with 1|change (sgn "-") with (-1)];
  [change (Ascii.eqb "+" "+") with true|change (Ascii.eqb "-" "+") with false; change (Ascii.eqb "-" "-") with true]; cbv iota; f_equal; lia.
Qed.
Lemma zone_parse k z v p : zone_val k z v -> pt_zone p = 0 ->
  parse_toks (zone_toks k) z p = match v with
  | Some off => Some (mkparts (pt_y p) (pt_mo p) (pt_d p) (pt_h p) (pt_mi p) (pt_s p) off)
  | None => None end.
Proof.
  intros [| |c h Hc Hh|c h m Hc Hh Hm] Hp; cbn [zone_toks].
  - cbn [parse_toks]. destruct p. cbn in Hp. subst. reflexivity.
  - rewrite toks_lit. cbn [parse_toks]. destruct p. cbn in Hp. subst. reflexivity.
  - unfold two. cbn [parse_toks]. fold (two h). change ($"00") with (two 0).
    rewrite zone_offset_two by (assumption || lia). change (0 <=? 60) with true. rewrite andb_true_r.
    destruct (h <=? 24); [|reflexivity]. replace (h * 3600 + 0 * 60) with (h * 3600) by lia. reflexivity.
  - unfold two. cbn [app parse_toks]. fold (two h) (two m). change (Ascii.eqb ":" ":") with true. cbv iota.
    rewrite zone_offset_two by assumption. destruct ((h <=? 24) && (m <=? 60)); reflexivity.
Qed.
Definition clockb (hh mi ss : Z) : bool := (hh <? 24) && ((mi <? 60) && (ss <? 60)).
Lemma zone_no_frac k z : zone_kind k z -> no_frac z.
Proof. intros [| |c h [-> | ->] Hh|c h m [-> | ->] Hh Hm]; cbn; auto. Qed.
Lemma core_parse y m d hh mi ss k z v : small y m d hh mi ss -> zone_val k z v ->
  parse_toks (core_toks ++ zone_toks k) (core_text y m d hh mi ss z) (mkparts 0 1 1 0 0 0 0) =
  if (1 <=? m) && (m <=? 12) && clockb hh mi ss
  then match v with Some off => Some (mkparts y m d hh mi ss off) | None => None end else None.
Proof.
  intros [Hy Hm Hd Hh Hi Hs] Hz. unfold core_toks, core_text, clockb. cbn [app].
  rewrite toks_year by exact Hy. cbn [pt_y pt_mo pt_d pt_h pt_mi pt_s pt_zone].
  rewrite toks_lit, toks_month by exact Hm. destruct ((1 <=? m) && (m <=? 12)); [|reflexivity]. cbn [pt_y pt_mo pt_d pt_h pt_mi pt_s pt_zone].
  rewrite toks_lit, toks_day by assumption. cbn [pt_y pt_mo pt_d pt_h pt_mi pt_s pt_zone].
  rewrite toks_lit, toks_hour by assumption. destruct (hh <? 24); [|reflexivity]. cbn [pt_y pt_mo pt_d pt_h pt_mi pt_s pt_zone].
  rewrite toks_lit, toks_min by assumption. destruct (mi <? 60); [|reflexivity]. cbn [pt_y pt_mo pt_d pt_h pt_mi pt_s pt_zone].
  rewrite toks_lit, toks_sec by (try assumption; eapply zone_no_frac, val_kind; exact Hz). destruct (ss <? 60); [|reflexivity].
  rewrite (zone_parse _ _ _ _ Hz) by reflexivity. reflexivity.
Qed.
Lemma stamp_parse bce y m d hh mi ss k z v : small y m d hh mi ss -> zone_val k z v ->
  let L := signed bce ($"2006-01-02T15:04:05" ++ zone_layout k) in let s := signed bce (core_text y m d hh mi ss z) in
  time_parse L s = match v with
    | Some off => if real_dateb y m d && clockb hh mi ss then OK (instant y m d hh mi ss - off) else Err (ETime L s)
    | None => Err (ETime L s) end.
Proof.
  intros Hs Hz L s. unfold time_parse, L. rewrite layout_stamp. fold L.
  assert (E : parse_toks ((if bce then [TLit "-"] else []) ++ core_toks ++ zone_toks k) s (mkparts 0 1 1 0 0 0 0) =
    parse_toks (core_toks ++ zone_toks k) (core_text y m d hh mi ss z) (mkparts 0 1 1 0 0 0 0)).
  { unfold s, signed. destruct bce; [apply toks_lit|reflexivity]. }
  rewrite E, (core_parse _ _ _ _ _ _ _ _ _ Hs Hz). unfold real_dateb.
  destruct ((1 <=? m) && (m <=? 12)) eqn:Em; cbn [andb]; [|destruct v; reflexivity].
  destruct (clockb hh mi ss) eqn:Ec; [|destruct v; [rewrite andb_false_r|]; reflexivity].
  destruct v as [off|]; [|reflexivity]. cbn [pt_y pt_mo pt_d pt_h pt_mi pt_s pt_zone].
  rewrite days_in_spec by lia. destruct ((1 <=? d) && (d <=? month_len y m)); [|reflexivity].
  destruct Hs. unfold clockb in Ec. cbn [andb]. rewrite time_date_instant by lia. reflexivity.
Qed.

(** ** The parser *)
Lemma date_bytes_T s : is_level0_date s -> ~ In "T"%char s.
Proof. intros H Hi. destruct (date_bytes _ _ H Hi) as [E|E]; discriminate E. Qed.
Lemma datetime_T s : datetime_text s -> In "T"%char s.
Proof. intros []. apply in_or_app. right. left. reflexivity. Qed.
Lemma parse_datetime s : datetime_text s -> ParseString s = ParseDateAndTime s.
Proof.
  intro H. assert (HD : match_string DateAndTime s = true) by (apply DateAndTime_spec; exact H).
  unfold ParseString, IsLevel0. rewrite (proj2 (Level0_spec s)) by auto. unfold L0_ParseString, IsDate, IsDateAndTime. rewrite HD.
  destruct (match_string Date_re s) eqn:E; [|reflexivity]. exfalso. apply IsDate_spec in E. exact (date_bytes_T _ E (datetime_T _ H)).
Qed.
Lemma zval_text k z v : zone_val k z v -> zone_text z.
Proof. intros []; constructor; assumption. Qed.
Lemma core_datetime bce y m d hh mi ss z : small y m d hh mi ss -> 1 <= m <= 12 -> 1 <= d <= 31 -> zone_text z ->
  datetime_text (signed bce (core_text y m d hh mi ss z)).
Proof.
  intros [Hy _ _ Hh Hi Hs] Hm Hd Hz.
  assert (L : is_level0_date (signed bce (four y ++ "-"%char :: two m ++ "-"%char :: two d))).
  { destruct bce; [exists (- y)|exists y]; exists (Some m), (Some d).
    - change (signed true (four y ++ "-"%char :: two m ++ "-"%char :: two d)) with (("-"%char :: four y) ++ "-"%char :: two m ++ "-"%char :: two d).
      constructor; [constructor; exact Hy|constructor; assumption].
    - constructor; [constructor; exact Hy|constructor; assumption]. }
  replace (signed bce (core_text y m d hh mi ss z)) with
    (signed bce (four y ++ "-"%char :: two m ++ "-"%char :: two d) ++ "T"%char :: two hh ++ ":"%char :: two mi ++ ":"%char :: two ss ++ z).
  - constructor; assumption.
  - unfold core_text. destruct bce; cbn [signed app]; repeat (rewrite <- app_assoc; cbn [app]); reflexivity.
Qed.
Lemma core_prefix y m d hh mi ss z : 0 <= y <= 9999 -> has_prefix (core_text y m d hh mi ss z) ["-"%char] = false.
Proof.
  intro H. unfold core_text, four. cbn [app]. cbn [has_prefix]. destruct (Ascii.eqb _ _) eqn:E; [|reflexivity].
  exfalso. apply Ascii.eqb_eq in E. pose proof (is_digit_char (y / 1000)) as D. rewrite <- E in D. discriminate D. lia.
Qed.
Lemma group_tail (a b : str) n : length b = n -> group_str (a ++ b) (Some (n, 0%nat)) = b.
Proof. apply slice_tail. Qed.
Lemma group_mid (a b c : str) n k : length c = k -> n = (length b + k)%nat -> group_str (a ++ b ++ c) (Some (n, k)) = b.
Proof. apply slice_mid. Qed.

Definition stamp_date (s : str) (t : time) : edtfdate :=
  let b := SetTime zero_date t in mkEDTF (mkRange [] b b) (mkRange [] b b) s 0 ($"Date and Time").
Lemma layout_of bce y m d hh mi ss k z : let s := signed bce (core_text y m d hh mi ss z) in
  small y m d hh mi ss -> zone_kind k z -> match_string DateAndTime s = true ->
  ParseDateAndTime s =
    (let* t := time_parse (signed bce ($"2006-01-02T15:04:05" ++ zone_layout k)) s in
     OK (stamp_date s (if bce then TimeToBCE t else t))).
Proof.
  intros s Hs Hz Hm. destruct (dt_groups bce _ _ _ _ _ _ _ _ Hs Hz Hm) as (Hl & Hg). fold s in Hl, Hg.
  unfold ParseDateAndTime. rewrite Hl. cbn [Nat.eqb negb]. cbv zeta.
  assert (Hp : has_prefix s ["-"%char] = bce).
  { unfold s, signed. destruct bce; [reflexivity|apply core_prefix; apply Hs]. }
  change ($"-") with ["-"%char]. rewrite Hp.
  assert (Hsp : exists u, s = u ++ z).
  { unfold s, core_text, signed.
    exists (signed bce (four y ++ "-"%char :: two m ++ "-"%char :: two d ++ "T"%char :: two hh ++ ":"%char :: two mi ++ ":"%char :: two ss)).
    destruct bce; cbn [signed app]; repeat (rewrite <- app_assoc; cbn [app]); reflexivity. }
  destruct Hsp as (u & Hu). clear Hl Hm Hp. clearbody s.
  destruct Hz as [| |c h Hc Hh|c h n Hc Hh Hn]; cbn [zgroups map] in Hg; injection Hg as H7 H8 H10.
  - cbn [group_str] in H7, H8, H10. rewrite H7, H8. destruct bce; reflexivity.
  - assert (H7' : sub (find_submatch DateAndTime s) 7 = ["Z"%char]) by (rewrite H7, Hu; apply group_tail; reflexivity).
    rewrite H7', H8. destruct bce; reflexivity.
  - assert (H7' : sub (find_submatch DateAndTime s) 7 = c :: two h) by (rewrite H7, Hu; apply group_tail; reflexivity).
    assert (H8' : sub (find_submatch DateAndTime s) 8 = [c]).
    { rewrite H8, Hu. change (c :: two h) with ([c] ++ two h). apply group_mid; reflexivity. }
    rewrite H7', H8', H10. destruct Hc as [-> | ->]; destruct bce; reflexivity.
  - assert (H7' : sub (find_submatch DateAndTime s) 7 = c :: two h ++ ":"%char :: two n) by (rewrite H7, Hu; apply group_tail; reflexivity).
    assert (H8' : sub (find_submatch DateAndTime s) 8 = [c]).
    { rewrite H8, Hu. change (c :: two h ++ ":"%char :: two n) with ([c] ++ two h ++ ":"%char :: two n). apply group_mid; reflexivity. }
    assert (H10' : sub (find_submatch DateAndTime s) 10 = ":"%char :: two n).
    { rewrite H10, Hu. change (c :: two h ++ ":"%char :: two n) with ((c :: two h) ++ ":"%char :: two n). rewrite app_assoc. apply group_tail. reflexivity. }
    rewrite H7', H8', H10'. destruct Hc as [-> | ->]; destruct bce; reflexivity.
Qed.

(** Every complete date with a time and a zone. *)
Theorem stamp_core bce y m d hh mi ss k z v : let s := signed bce (core_text y m d hh mi ss z) in
  small y m d hh mi ss -> 1 <= m <= 12 -> 1 <= d <= 31 -> zone_val k z v ->
  match v with
  | Some off => if real_dateb y m d && clockb hh mi ss
      then ParseString s = OK (stamp_date s (if bce then TimeToBCE (instant y m d hh mi ss - off) else instant y m d hh mi ss - off))
      else exists err, ParseString s = Err err
  | None => exists err, ParseString s = Err err
  end.
Proof.
  intros s Hs Hm Hd Hz. pose proof (core_datetime bce _ _ _ _ _ _ _ Hs Hm Hd (zval_text _ _ _ Hz)) as Ht.
  pose proof (proj2 (DateAndTime_spec _) Ht) as Hx.
  unfold s. rewrite parse_datetime by exact Ht. rewrite (layout_of _ _ _ _ _ _ _ _ _ Hs (val_kind _ _ _ Hz) Hx).
  rewrite (stamp_parse bce _ _ _ _ _ _ _ _ _ Hs Hz). destruct v as [off|]; [|eexists; reflexivity].
  destruct (real_dateb y m d && clockb hh mi ss); [reflexivity|eexists; reflexivity].
Qed.
Lemma stamp_signed y m d hh mi ss z :
  stamp_text y m d hh mi ss z = signed (y <? 0) (core_text (Z.abs y) m d hh mi ss z).
Proof.
  unfold stamp_text, day_text, clock_text, year_text, core_text. destruct (y <? 0) eqn:E; cbn [signed].
  - replace (Z.abs y) with (- y) by lia. change ($"-") with ["-"%char]. change ($":") with [":"%char]. cbn [app].
    repeat (rewrite <- app_assoc; cbn [app]). reflexivity.
  - replace (Z.abs y) with y by lia. change ($"-") with ["-"%char]. change ($":") with [":"%char].
    repeat (rewrite <- app_assoc; cbn [app]). reflexivity.
Qed.

(** Non-negative years: the civil time less the offset. *)
Theorem stamp_parses y m d hh mi ss z off : 0 <= y <= 9999 -> real_date y m d -> clock hh mi ss -> zone_means z off ->
  let s := stamp_text y m d hh mi ss z in ParseString s = OK (stamp_date s (instant y m d hh mi ss - off)).
Proof.
  intros Hy Hr Hc Hz s. apply means_val in Hz. destruct Hz as (k & Hz).
  assert (Hd : 1 <= d <= 31) by (pose proof (month_len_range y m); destruct Hr; lia). assert (Hm : 1 <= m <= 12) by apply Hr.
  assert (Hs : small y m d hh mi ss) by (unfold clock in Hc; constructor; lia).
  pose proof (stamp_core false _ _ _ _ _ _ _ _ _ Hs Hm Hd Hz) as H. cbv zeta in H.
  assert (E : stamp_text y m d hh mi ss z = signed false (core_text y m d hh mi ss z)).
  { rewrite stamp_signed. replace (y <? 0) with false by lia. replace (Z.abs y) with y by lia. reflexivity. }
  unfold s. rewrite E. rewrite (proj2 (real_dateb_spec y m d) Hr) in H. replace (clockb hh mi ss) with true in H by (unfold clockb, clock in *; lia).
  exact H.
Qed.
(** Negative years: the mirror image of the positive year's UTC time. *)
Theorem stamp_bce y m d hh mi ss z off : 1 <= y <= 9999 -> real_date y m d -> clock hh mi ss -> zone_means z off ->
  let s := stamp_text (- y) m d hh mi ss z in ParseString s = OK (stamp_date s (TimeToBCE (instant y m d hh mi ss - off))).
Proof.
  intros Hy Hr Hc Hz s. apply means_val in Hz. destruct Hz as (k & Hz).
  assert (Hd : 1 <= d <= 31) by (pose proof (month_len_range y m); destruct Hr; lia). assert (Hm : 1 <= m <= 12) by apply Hr.
  assert (Hs : small y m d hh mi ss) by (unfold clock in Hc; constructor; lia).
  pose proof (stamp_core true _ _ _ _ _ _ _ _ _ Hs Hm Hd Hz) as H. cbv zeta in H.
  assert (E : stamp_text (- y) m d hh mi ss z = signed true (core_text y m d hh mi ss z)).
  { rewrite stamp_signed. replace (- y <? 0) with true by lia. replace (Z.abs (- y)) with y by lia. reflexivity. }
  unfold s. rewrite E. rewrite (proj2 (real_dateb_spec y m d) Hr) in H. replace (clockb hh mi ss) with true in H by (unfold clockb, clock in *; lia).
  exact H.
Qed.
Lemma month_sum_neg y n : month_sum (- y) n = month_sum y n.
Proof. induction n as [|n IH]; [reflexivity|]. cbn [month_sum]. rewrite IH, month_len_neg. reflexivity. Qed.
Lemma instant_mirror y m d hh mi ss m' d' hh' mi' ss' off :
  instant y m d hh mi ss - off = instant y m' d' hh' mi' ss' ->
  instant (- y) m d hh mi ss - off = instant (- y) m' d' hh' mi' ss'.
Proof. unfold instant, epoch_day. rewrite !month_sum_neg. lia. Qed.
(** The result when the offset does not carry the time into another year. *)
Theorem stamp_bce_same_year y m d hh mi ss z off m' d' hh' mi' ss' : 1 <= y <= 9999 -> real_date (- y) m d -> clock hh mi ss ->
  zone_means z off -> real_date (- y) m' d' -> clock hh' mi' ss' ->
  instant (- y) m d hh mi ss - off = instant (- y) m' d' hh' mi' ss' ->
  let s := stamp_text (- y) m d hh mi ss z in ParseString s = OK (stamp_date s (instant (- y) m d hh mi ss - off)).
Proof.
  intros Hy Hr Hc Hz Hr' Hc' E s. apply real_date_neg in Hr, Hr'. rewrite Z.opp_involutive in *.
  pose proof (instant_mirror _ _ _ _ _ _ _ _ _ _ _ _ E) as M. rewrite Z.opp_involutive in M.
  unfold s. rewrite (stamp_bce _ _ _ _ _ _ _ _ Hy Hr Hc Hz). rewrite M, TimeToBCE_instant by assumption. rewrite <- E. reflexivity.
Qed.

(** Which date-time texts parse at all. *)
Lemma short_layout (bce : bool) k l (v : str) p y : 0 <= y <= 9999 -> (forall c r, v = c :: r -> c <> "-"%char) -> l = core_toks ++ zone_toks k ->
  parse_toks ((if bce then [TLit "-"] else []) ++ l) (signed bce (four y ++ v)) p = None.
Proof.
  intros Hy Hv ->. transitivity (parse_toks (core_toks ++ zone_toks k) (four y ++ v) p).
  { destruct bce; [apply toks_lit|reflexivity]. }
  unfold core_toks. cbn [app]. rewrite toks_year by exact Hy. destruct v as [|c r]; [reflexivity|].
  cbn [parse_toks]. destruct (Ascii.eqb "-" c) eqn:E; [|reflexivity]. apply Ascii.eqb_eq in E. exfalso. exact (Hv c r eq_refl (eq_sym E)).
Qed.
Lemma short_layout2 (bce : bool) k (v : str) p y m : 0 <= y <= 9999 -> 0 <= m <= 99 -> (forall c r, v = c :: r -> c <> "-"%char) ->
  parse_toks ((if bce then [TLit "-"] else []) ++ core_toks ++ zone_toks k) (signed bce (four y ++ "-"%char :: two m ++ v)) p = None.
Proof.
  intros Hy Hm Hv. transitivity (parse_toks (core_toks ++ zone_toks k) (four y ++ "-"%char :: two m ++ v) p).
  { destruct bce; [apply toks_lit|reflexivity]. }
  unfold core_toks. cbn [app]. rewrite toks_year by exact Hy. rewrite toks_lit, toks_month by exact Hm.
  destruct ((1 <=? m) && (m <=? 12)); [|reflexivity]. destruct v as [|c r]; [reflexivity|].
  cbn [parse_toks]. destruct (Ascii.eqb "-" c) eqn:E; [|reflexivity]. apply Ascii.eqb_eq in E. exfalso. exact (Hv c r eq_refl (eq_sym E)).
Qed.
Lemma layout_some s e : ParseDateAndTime s = OK e -> exists k t, time_parse (signed (has_prefix s ["-"%char]) ($"2006-01-02T15:04:05" ++ zone_layout k)) s = OK t.
Proof.
  unfold ParseDateAndTime. destruct (negb _); [discriminate|]. cbv zeta. intro H. apply bind_OK in H. destruct H as (t & Ht & _).
  change ($"-") with ["-"%char] in Ht. revert Ht. generalize (has_prefix s ["-"%char]) as b. intros b Ht.
  destruct (seqb (sub (find_submatch DateAndTime s) 8) _ || _).
  - destruct (has_prefix (sub (find_submatch DateAndTime s) 10) _); [exists ZMin|exists ZHour]; exists t; destruct b; exact Ht.
  - destruct (seqb (sub (find_submatch DateAndTime s) 7) _); [exists ZUtc|exists ZNone]; exists t; destruct b; exact Ht.
Qed.
Theorem datetime_complete s e : datetime_text s -> ParseString s = OK e ->
  exists y m d hh mi ss z off, -9999 <= y <= 9999 /\ real_date y m d /\ clock hh mi ss /\ zone_means z off /\
    (s = stamp_text y m d hh mi ss z \/ y = 0 /\ s = "-"%char :: stamp_text y m d hh mi ss z).
Proof.
  intros Ht He. pose proof He as Hp. rewrite parse_datetime in Hp by exact Ht. apply layout_some in Hp. destruct Hp as (k & t & Hp).
  destruct Ht as [u hh mi ss z Hu Hh Hi Hs Hz]. destruct Hu as (yy & mm & dd & Hu). inversion Hu as [yt y0 r m0 d0 Hy Hr]; subst; clear Hu.
  assert (Y : exists b n, yt = signed b (four n) /\ 0 <= n <= 9999 /\ yy = (if b then - n else n)).
  { destruct Hy as [n Hn|n Hn]; [exists false|exists true]; exists n; auto. }
  destruct Y as (b & n & -> & Hn & ->). clear Hy.
  assert (P : forall v, has_prefix (signed b (four n) ++ v) ["-"%char] = b).
  { intro v. destruct b; [reflexivity|]. unfold signed, four. cbn [app has_prefix]. destruct (Ascii.eqb _ _) eqn:E; [|reflexivity].
    exfalso. apply Ascii.eqb_eq in E. pose proof (is_digit_char (n / 1000)) as D. rewrite <- E in D. discriminate D. lia. }
  assert (A : forall v, signed b (four n) ++ v = signed b (four n ++ v)) by (intro v; destruct b; reflexivity).
  destruct Hr as [|m Hm|m d Hm Hd].
  - exfalso. rewrite <- app_assoc in Hp. rewrite P, A in Hp. cbn [app] in Hp. unfold time_parse in Hp. rewrite layout_stamp in Hp.
    rewrite (short_layout b k) in Hp by (try reflexivity; try assumption; intros c r E; injection E as <- <-; discriminate). discriminate Hp.
  - exfalso. rewrite <- app_assoc in Hp. rewrite P, A in Hp. cbn [app] in Hp. unfold time_parse in Hp. rewrite layout_stamp in Hp.
    rewrite (short_layout2 b k) in Hp by (try lia; intros c r E; injection E as <- <-; discriminate). discriminate Hp.
  - destruct (zone_has_val _ Hz) as (k' & v & Hv).
    assert (Hsm : small n m d hh mi ss) by (constructor; lia).
    pose proof (stamp_core b _ _ _ _ _ _ _ _ _ Hsm Hm Hd Hv) as H. cbv zeta in H.
    assert (E : (signed b (four n) ++ "-"%char :: two m ++ "-"%char :: two d) ++ "T"%char :: two hh ++ ":"%char :: two mi ++ ":"%char :: two ss ++ z
      = signed b (core_text n m d hh mi ss z)).
    { unfold core_text. destruct b; cbn [signed app]; repeat (rewrite <- app_assoc; cbn [app]); reflexivity. }
    rewrite E in *. destruct v as [off|]; [|destruct H as (err & H); rewrite H in He; discriminate He].
    destruct (real_dateb n m d && clockb hh mi ss) eqn:C; [|destruct H as (err & H); rewrite H in He; discriminate He].
    apply andb_true_iff in C. destruct C as (C1 & C2). apply real_dateb_spec in C1. unfold clockb in C2.
    assert (Hc : clock hh mi ss) by (unfold clock; lia).
    exists (if b then - n else n), m, d, hh, mi, ss, z, off.
    split; [destruct b; lia|]. split; [destruct b; [apply real_date_neg|]; exact C1|]. split; [exact Hc|].
    split; [apply means_val; eauto|]. rewrite stamp_signed. destruct b.
    + destruct (Z.eq_dec n 0) as [->|N].
      * right. split; reflexivity.
      * left. replace (- n <? 0) with true by lia. replace (Z.abs (- n)) with n by lia. reflexivity.
    + left. replace (n <? 0) with false by lia. replace (Z.abs n) with n by lia. reflexivity.
Qed.
