(** The errors of dates, of halves and of pairs of dates. *)
From Coq Require Import Ascii String ZArith NArith Bool Lia ZifyBool List.
From Verif Require Import GoStr GoTime Regex Patterns RegexSym SpecCal SpecText SpecZone SpecGrammar SpecForms SpecSpan SpecReads SpecRefused StrFacts TextFacts Edtf Calendar Common CalFacts SpanFacts YmdShapes YmdFacts InvFacts ParseFacts SplitFacts ReadsFacts.
Import ListNotations.
Open Scope Z_scope.
Ltac Zify.zify_post_hook ::= Z.div_mod_to_equations.

(** ** Numbers *)
Lemma atoi_err s : (exists z, atoi s = OK z) \/ atoi s = Err (ENum s).
Proof.
  unfold atoi. destruct (match s with [] => _ | _ => _ end) as (neg & t). destruct t as [|c t]; [auto|].
  destruct (dec_val 0 (c :: t)) as [v|]; [|auto]. destruct (_ && _); eauto.
Qed.
Lemma dec_no_x s v : dec_digits s v -> ~ In X s.
Proof.
  intros H. apply dec_digits_iff in H. destruct H as (_ & H). intro I. apply in_split in I. destruct I as (u & w & ->).
  rewrite dec_val_app in H. destruct (dec_val 0 u); [|discriminate]. cbn in H. discriminate.
Qed.
Lemma atoi_x s : In X s -> atoi s = Err (ENum s).
Proof.
  intro I. destruct (atoi_err s) as [(z & E)|E]; [|exact E]. exfalso. apply atoi_spec in E. destruct E as (E & _).
  inversion E as [t v Hv|t v Hv|t v Hv]; subst.
  - exact (dec_no_x _ _ Hv I).
  - destruct I as [I|I]; [discriminate|exact (dec_no_x _ _ Hv I)].
  - destruct I as [I|I]; [discriminate|exact (dec_no_x _ _ Hv I)].
Qed.

(** ** Parts *)
Definition odef (o : option str) : str := match o with Some t => t | None => [] end.
Lemma year_part_core t : year_part t <-> core_in year_shapes t.
Proof.
  rewrite year_core. split.
  - intros (u & v & Hu & (L & F) & ->). destruct v as [|a [|b [|c [|d [|]]]]]; try discriminate L.
    inversion F as [|? ? Fa F1]; subst. inversion F1 as [|? ? Fb F2]; subst. inversion F2 as [|? ? Fc F3]; subst. inversion F3 as [|? ? Fd _]; subst.
    exists a, b, c, d. split; [destruct Hu as [->| ->]; auto|]. rewrite !dx_iff. auto.
  - intros (a & b & c & d & E & Ha & Hb & Hc & Hd). apply dx_iff in Ha, Hb, Hc, Hd.
    assert (Q : four_x [a; b; c; d]) by (split; [reflexivity|auto]).
    destruct E as [->| ->]; [exists [], [a; b; c; d]|exists ($"-"), [a; b; c; d]]; (split; [|split; [exact Q|reflexivity]]); [left|right]; reflexivity.
Qed.
Lemma char_val c : is_digit c = true -> c = digit_char (digit_val c) /\ 0 <= digit_val c <= 9.
Proof. intro H. split; [symmetry; apply digit_char_val; exact H|apply digit_val_range; exact H]. Qed.
Lemma month_part_core t : month_part t <-> core_in month_shapes t.
Proof.
  rewrite month_core. split.
  - intros (n & a & b & Hn & -> & Ha & Hb). exists a, b. split; [reflexivity|].
    assert (R : 0 <= n / 10 <= 1 /\ 0 <= n mod 10 <= 9 /\ (n / 10 = 0 -> 1 <= n mod 10) /\ (n / 10 = 1 -> n mod 10 <= 2)) by lia.
    revert R Ha Hb. generalize (n / 10) (n mod 10). intros p q (R1 & R2 & R3 & R4) Ha Hb.
    assert (Dq : b = X \/ is_digit b = true /\ digit_val b = q).
    { destruct Hb as [->| ->]; [right|auto]. split; [apply is_digit_char; lia|apply digit_val_char; lia]. }
    assert (Q : p = 0 \/ p = 1) by lia. destruct Q as [->| ->]; [left|right].
    + split; [destruct Ha as [->| ->]; auto|]. destruct Dq as [Dq|(Dq & ->)]; [auto|right; split; [exact Dq|lia]].
    + split; [destruct Ha as [->| ->]; auto|]. destruct Dq as [Dq|(Dq & ->)]; [auto|right; split; [exact Dq|lia]].
  - intros (a & b & -> & [(Ha & Hb)|(Ha & Hb)]).
    + destruct Hb as [->|(Db & Hb)].
      * exists 1, a, X. split; [lia|]. split; [reflexivity|]. split; [destruct Ha as [->| ->]; [left; reflexivity|right; reflexivity]|right; reflexivity].
      * destruct (char_val b Db) as (Eb & Rb). exists (digit_val b), a, b. split; [lia|]. split; [reflexivity|].
        replace (digit_val b / 10) with 0 by lia. replace (digit_val b mod 10) with (digit_val b) by lia.
        split; [destruct Ha as [->| ->]; [left; reflexivity|right; reflexivity]|left; exact Eb].
    + destruct Hb as [->|(Db & Hb)].
      * exists 10, a, X. split; [lia|]. split; [reflexivity|]. split; [destruct Ha as [->| ->]; [left; reflexivity|right; reflexivity]|right; reflexivity].
      * destruct (char_val b Db) as (Eb & Rb). exists (10 + digit_val b), a, b. split; [lia|]. split; [reflexivity|].
        replace ((10 + digit_val b) / 10) with 1 by lia. replace ((10 + digit_val b) mod 10) with (digit_val b) by lia.
        split; [destruct Ha as [->| ->]; [left; reflexivity|right; reflexivity]|left; exact Eb].
Qed.
Lemma day_part_core t : day_part t <-> core_in day_shapes t.
Proof.
  rewrite day_core. split.
  - intros (n & a & b & Hn & -> & Ha & Hb). exists a, b. split; [reflexivity|].
    assert (R : 0 <= n / 10 <= 3 /\ 0 <= n mod 10 <= 9 /\ (n / 10 = 3 -> n mod 10 <= 1)) by lia.
    revert R Ha Hb. generalize (n / 10) (n mod 10). intros p q (R1 & R2 & R3) Ha Hb.
    assert (Dq : b = X \/ is_digit b = true /\ digit_val b = q).
    { destruct Hb as [->| ->]; [right|auto]. split; [apply is_digit_char; lia|apply digit_val_char; lia]. }
    destruct (Z.eq_dec p 3) as [->|Hp]; [right|left].
    + split; [destruct Ha as [->| ->]; auto|]. destruct Dq as [Dq|(Dq & ->)]; [auto|right; split; [exact Dq|lia]].
    + split; [destruct Ha as [->| ->]; [right; split; [apply is_digit_char; lia|rewrite digit_val_char; lia]|auto]|].
      apply dx_iff. destruct Dq as [Dq|(Dq & _)]; [right; exact Dq|left; exact Dq].
  - intros (a & b & -> & [(Ha & Hb)|(Ha & Hb)]).
    + apply dx_iff in Hb. set (p := if is_digit a then digit_val a else 0). set (q := if is_digit b then digit_val b else 0).
      assert (Pa : 0 <= p <= 2 /\ x_for a p).
      { unfold p. destruct Ha as [->|(Da & Ha)]; [split; [cbn; lia|right; reflexivity]|]. rewrite Da. destruct (char_val a Da). split; [lia|left; assumption]. }
      assert (Pb : 0 <= q <= 9 /\ x_for b q).
      { unfold q. destruct Hb as [Db| ->]; [|split; [cbn; lia|right; reflexivity]]. rewrite Db. destruct (char_val b Db). split; [lia|left; assumption]. }
      destruct Pa as (Rp & Pa), Pb as (Rq & Pb). exists (10 * p + q), a, b. split; [lia|]. split; [reflexivity|].
      replace ((10 * p + q) / 10) with p by lia. replace ((10 * p + q) mod 10) with q by lia. auto.
    + set (q := if is_digit b then digit_val b else 0).
      assert (Pb : 0 <= q <= 1 /\ x_for b q).
      { unfold q. destruct Hb as [->|(Db & Hb)]; [split; [cbn; lia|right; reflexivity]|]. rewrite Db. destruct (char_val b Db). split; [lia|left; assumption]. }
      destruct Pb as (Rq & Pb). exists (30 + q), a, b. split; [lia|]. split; [reflexivity|].
      replace ((30 + q) / 10) with 3 by lia. replace ((30 + q) mod 10) with q by lia.
      split; [destruct Ha as [->| ->]; [left|right]; reflexivity|exact Pb].
Qed.
Lemma parts_fwd s y m d : date_parts s y m d -> exists yt yq mt mq dt dq,
  ymd_text s yt mt dt /\ parts_ok yt y yq mt (odef m) mq dt (odef d) dq /\
  (forall c, m = Some c -> core_in month_shapes c) /\ (forall c, d = Some c -> core_in day_shapes c) /\ (m = None -> d = None).
Proof.
  assert (G : forall c t l, (forall x, core_in l x -> core_in all_cores x) -> marked c t -> core_in l c -> t <> []).
  { intros c t l A M C E. apply (marked_nil _ _ M) in E. subst c. apply A in C. apply core_nonempty in C. destruct C as (C & _). discriminate. }
  intros [yt y0 My Cy|yt y0 mt m0 My Cy Mm Cm|yt y0 mt m0 dt d0 My Cy Mm Cm Md Cd].
  - apply marked_iff in My. destruct My as (yq & My). apply year_part_core in Cy. exists yt, yq, [], None, [], None.
    split; [constructor|]. split; [constructor; auto; constructor|]. split; [discriminate|]. split; [discriminate|auto].
  - apply month_part_core in Cm. pose proof (G _ _ _ core_all_month Mm Cm) as Nm.
    apply marked_iff in My, Mm. destruct My as (yq & My), Mm as (mq & Mm). apply year_part_core in Cy. exists yt, yq, mt, mq, [], None.
    split; [apply yt_ym; exact Nm|]. split; [constructor; auto; constructor|].
    split; [intros c E; injection E as <-; exact Cm|]. split; [discriminate|auto].
  - apply month_part_core in Cm. pose proof (G _ _ _ core_all_month Mm Cm) as Nm. apply day_part_core in Cd. pose proof (G _ _ _ core_all_day Md Cd) as Nd.
    apply marked_iff in My, Mm, Md. destruct My as (yq & My), Mm as (mq & Mm), Md as (dq & Md). apply year_part_core in Cy. exists yt, yq, mt, mq, dt, dq.
    split; [apply yt_ymd; assumption|]. split; [constructor; auto|].
    split; [intros c E; injection E as <-; exact Cm|]. split; [intros c E; injection E as <-; exact Cd|discriminate].
Qed.
Lemma parts_bwd s yt yc yq mt mc mq dt dc dq : ymd_text s yt mt dt -> parts_ok yt yc yq mt mc mq dt dc dq -> exists m d, date_parts s yc m d.
Proof.
  intros Ht [Qy Cy Qm Cm Qd Cd].
  assert (My : marked yc yt) by (apply marked_iff; eauto). assert (Mm : marked mc mt) by (apply marked_iff; eauto). assert (Md : marked dc dt) by (apply marked_iff; eauto).
  apply year_part_core in Cy. destruct Ht as [yt|yt mt Nm|yt mt dt Nm Nd].
  - do 2 eexists. apply dp_y; eassumption.
  - destruct Cm as [Cm|Cm]; [contradiction|]. apply month_part_core in Cm. do 2 eexists. apply dp_ym; eassumption.
  - destruct Cm as [Cm|Cm]; [contradiction|]. apply month_part_core in Cm. destruct Cd as [Cd|Cd]; [contradiction|]. apply day_part_core in Cd.
    do 2 eexists. apply dp_ymd; eassumption.
Qed.
(** What dateSpanFromYMD does with the parts. *)
Lemma parts_tail s y m d : date_parts s y m d -> exists ua,
  dateSpanFromYMD s = (let* sr := sr_tail s y (odef m) (odef d) ua in
    let* a := YMDFromStringDate (sr_start sr) in let* b := YMDFromStringDate (sr_end sr) in dateSpanFromYMD s).
Proof.
  intro H. apply parts_fwd in H. destruct H as (yt & yq & mt & mq & dt & dq & Ht & Hp & _).
  exists (qualifier_flags yq mq dq). unfold dateSpanFromYMD at 1 2. rewrite (string_range _ _ _ _ _ _ _ _ _ _ Ht Hp).
  destruct (sr_tail _ _ _ _ _) as [sr| |]; cbn [bind]; [|reflexivity..].
  destruct (YMDFromStringDate (sr_start sr)); cbn [bind]; [|reflexivity..]. destruct (YMDFromStringDate (sr_end sr)); reflexivity.
Qed.
Lemma suffix_iff t : has_suffix t ($"X") = true <-> ends_in_x t.
Proof.
  split.
  - destruct (rev t) as [|c u] eqn:E.
    + rewrite <- (rev_involutive t), E. discriminate.
    + rewrite <- (rev_involutive t), E. cbn [rev]. rewrite suffix_X_snoc. intro H. apply Ascii.eqb_eq in H. subst c. exists (rev u). reflexivity.
  - intros (u & ->). cbn [lit list_ascii_of_string]. rewrite suffix_X_snoc. reflexivity.
Qed.
Lemma no_suffix t : ~ ends_in_x t -> has_suffix t ($"X") = false.
Proof. intro H. destruct (has_suffix t ($"X")) eqn:E; [apply suffix_iff in E; contradiction|reflexivity]. Qed.

(** ** Cases *)
Lemma year_cases t : year_part t ->
  (exists r, t = X :: r /\ ends_in_x r) \/ (exists r, t = "-"%char :: r /\ ends_in_x r) \/ (exists l h, year_reads t l h) \/
  (In X t /\ ~ ends_in_x t).
Proof.
  intro H. pose proof H as Hc. apply year_part_core in Hc. apply year_core in Hc. destruct Hc as (a & b & c & d & E & Ha & Hb & Hc & Hd).
  apply dx_iff in Ha, Hb, Hc, Hd.
  destruct Hd as [Dd| ->].
  - (* last a digit *)
    assert (Ne : ~ ends_in_x t).
    { intros (u & Q). assert (Q' : exists u', t = u' ++ [d]) by (destruct E as [->| ->]; [exists [a; b; c]|exists ["-"%char; a; b; c]]; reflexivity).
      destruct Q' as (u' & Q'). rewrite Q in Q'. apply app_inj_tail in Q'. destruct Q' as (_ & <-). discriminate Dd. }
    assert (N : In X t \/ (is_digit a = true /\ is_digit b = true /\ is_digit c = true)).
    { destruct Ha as [Da| ->]; [|left; destruct E as [->| ->]; cbn; auto 10]. destruct Hb as [Db| ->]; [|left; destruct E as [->| ->]; cbn; auto 10].
      destruct Hc as [Dc| ->]; [|left; destruct E as [->| ->]; cbn; auto 10]. auto. }
    destruct N as [N|(Da & Db & Dc)]; [auto 10|]. right. right. left.
    destruct (four_of a b c d Da Db Dc Dd) as (n & Hn & E4).
    destruct E as [->| ->]; rewrite E4; do 2 eexists; apply yr_number; constructor; exact Hn.
  - destruct E as [->| ->].
    + destruct Ha as [Da| ->].
      * right. right. left. do 2 eexists. apply yr_mask; assumption.
      * left. exists [b; c; X]. split; [reflexivity|]. exists [b; c]. reflexivity.
    + right. left. exists [a; b; c; X]. split; [reflexivity|]. exists [a; b; c]. reflexivity.
Qed.
Lemma month_cases t : month_part t -> (exists l h, month_reads t l h) \/ exists c, t = [X; c] /\ is_digit c = true.
Proof.
  intro H. apply month_part_core, month_core in H. destruct H as (a & b & -> & H).
  assert (G : (a = "0"%char /\ is_digit b = true /\ 1 <= digit_val b) \/ (a = "1"%char /\ is_digit b = true /\ digit_val b <= 2) \/
    (a = X /\ is_digit b = true) \/ (a = X /\ b = X) \/ ((a = "0"%char \/ a = "1"%char) /\ b = X)).
  { destruct H as [([->| ->] & [->|(D & H)])|([->| ->] & [->|(D & H)])]; auto 10. }
  clear H. destruct G as [(-> & D & H)|[(-> & D & H)|[(-> & D)|[(-> & ->)|(Ha & ->)]]]].
  - left. destruct (char_val b D) as (E & R). exists (digit_val b), (digit_val b).
    replace ["0"%char; b] with (two (digit_val b)); [apply mr_number; lia|]. unfold two. replace (digit_val b / 10) with 0 by lia.
    replace (digit_val b mod 10) with (digit_val b) by lia. rewrite <- E. reflexivity.
  - left. destruct (char_val b D) as (E & R). exists (10 + digit_val b), (10 + digit_val b).
    replace ["1"%char; b] with (two (10 + digit_val b)); [apply mr_number; lia|]. unfold two. replace ((10 + digit_val b) / 10) with 1 by lia.
    replace ((10 + digit_val b) mod 10) with (digit_val b) by lia. rewrite <- E. reflexivity.
  - right. eauto.
  - left. do 2 eexists. apply mr_any.
  - left. do 2 eexists. apply mr_mask. exact Ha.
Qed.
Lemma day_cases t : day_part t -> (forall n n', exists l h, day_reads n n' t l h) \/ t = $"0X" \/ exists c, t = [X; c] /\ is_digit c = true.
Proof.
  intro H. apply day_part_core, day_core in H. destruct H as (a & b & -> & H).
  assert (G : (a = X /\ is_digit b = true) \/ (a = X /\ b = X) \/ (is_digit a = true /\ digit_val a <= 3 /\ b = X) \/
    (is_digit a = true /\ is_digit b = true /\ digit_val a * 10 + digit_val b <= 31)).
  { destruct H as [([->|(D & H)] & B)|([->| ->] & [->|(D & H)])]; try (apply dx_iff in B; destruct B as [B| ->]); auto 10.
    - pose proof (digit_val_range b B). right. right. right. split; [exact D|]. split; [exact B|lia].
    - right. right. left. split; [exact D|]. split; [lia|reflexivity].
    - right. right. left. split; [reflexivity|]. split; [vm_compute; discriminate|reflexivity].
    - right. right. right. split; [reflexivity|]. split; [exact D|]. change (digit_val "3") with 3. lia. }
  clear H. destruct G as [(-> & D)|[(-> & ->)|[(Da & Ra & ->)|(Da & Db & R)]]].
  - right. right. eauto.
  - left. intros. do 2 eexists. apply dr_any.
  - destruct (char_val a Da) as (E & R).
    assert (C : digit_val a = 0 \/ digit_val a = 1 \/ digit_val a = 2 \/ digit_val a = 3) by lia.
    destruct C as [C|[C|[C|C]]]; rewrite C in E; subst a; [right; left; reflexivity|left; intros; do 2 eexists..]; [apply dr_1x|apply dr_2x|apply dr_3x].
  - left. intros n n'. destruct (two_of a b Da Db) as (k & Hk & E). pose proof (digit_val_range a Da). pose proof (digit_val_range b Db).
    assert (Q : k = digit_val a * 10 + digit_val b).
    { pose proof E as E'. unfold two in E'. injection E' as E1 E2. subst a b. rewrite !digit_val_char by lia. lia. }
    rewrite E. destruct (Z.eq_dec k 0) as [->|Nk]; [do 2 eexists; apply dr_zero|]. do 2 eexists. apply dr_number. lia.
Qed.

(** ** Steps *)
Lemma dash_year t : core_in year_shapes t -> dash_ok t.
Proof.
  intro H. apply year_core in H. destruct H as (a & b & c & d & E & Ha & Hb & Hc & Hd).
  assert (N : dashless [a; b; c; d]).
  { intros [Q|[Q|[Q|[Q|[]]]]]; subst; discriminate. }
  destruct E as [->| ->]; [left; exact N|right; eauto].
Qed.
Lemma days_string a b : dash_ok a -> dashless b ->
  DaysInMonthWithString (a ++ $"-" ++ b) = let* y := atoi a in let* m := atoi b in DaysInMonth y m.
Proof.
  intros Ha Hb. unfold DaysInMonthWithString. cbn [lit list_ascii_of_string app]. destruct Ha as [Ha|(u & -> & Hu)].
  - rewrite split_two by assumption. reflexivity.
  - change (("-"%char :: u) ++ "-"%char :: b) with ([] ++ "-"%char :: (u ++ "-"%char :: b)).
    rewrite split_one by (intros []). rewrite split_two by assumption. reflexivity.
Qed.
Lemma ymd_year a b c e : a <> [] -> b <> [] -> atoi a = Err e -> YMDFromStrings a b c = Err e.
Proof. intros Na Nb E. apply is_empty_false in Na, Nb. unfold YMDFromStrings. rewrite Na, Nb, E. reflexivity. Qed.
Lemma ymd_month a b c y e : atoi a = OK y -> b <> [] -> atoi b = Err e -> YMDFromStrings a b c = Err e.
Proof.
  intros Ea Nb E. assert (Na : a <> []) by (intros ->; discriminate). apply is_empty_false in Na, Nb.
  unfold YMDFromStrings. rewrite Na, Nb, Ea, E. reflexivity.
Qed.
Lemma ymd_day a b c y m e : atoi a = OK y -> b <> [] -> atoi b = OK m -> c <> [] -> atoi c = Err e -> YMDFromStrings a b c = Err e.
Proof.
  intros Ea Nb Eb Nc E. assert (Na : a <> []) by (intros ->; discriminate). apply is_empty_false in Na, Nb, Nc.
  unfold YMDFromStrings. rewrite Na, Nb, Nc, Ea, Eb, E. reflexivity.
Qed.
Lemma month_parts m p : (forall c, m = Some c -> core_in month_shapes c) -> exists ms me q, month_range (odef m) p = (ms, me, q) /\
  dashless (fill ($"12") me).
Proof.
  intro H. unfold month_range. assert (D12 : dashless ($"12")) by (intros [E|[E|[]]]; discriminate).
  destruct (negb _); [|destruct (has_prefix _ _); do 3 eexists; (split; [reflexivity|exact D12])].
  do 3 eexists. split; [reflexivity|]. destruct m as [c|]; [|exact D12]. specialize (H c eq_refl). cbn [odef].
  apply month_core in H. destruct H as (a & b & -> & H). unfold fill. cbn [is_empty].
  intros [E|[E|[]]]; subst; destruct H as [([H|H] & H')|([H|H] & H')]; try discriminate; destruct H' as [H'|(H' & _)]; discriminate.
Qed.
Lemma day_parts s d p : (forall c, d = Some c -> core_in day_shapes c) -> d <> Some ($"0X") -> exists ds de q, day_range s (odef d) p = OK (ds, de, q).
Proof.
  intros H N. destruct d as [t|]; [|do 3 eexists; reflexivity]. specialize (H t eq_refl). apply day_part_core in H.
  destruct (day_cases _ H) as [G|[->|(c & -> & D)]]; [|congruence|].
  - destruct (G 30 30) as (l & h & R). cbn [odef]. unfold day_range. destruct R as [k Hk| | | | |]; try (do 3 eexists; reflexivity).
    replace (has_suffix (two k) ($"X")) with false; [do 3 eexists; reflexivity|].
    symmetry. change (two k) with ([digit_char (k / 10)] ++ [digit_char (k mod 10)]). rewrite suffix_X_snoc.
    apply Ascii.eqb_neq. intro E. assert (Q : is_digit (digit_char (k mod 10)) = true) by (apply is_digit_char; lia). rewrite <- E in Q. discriminate.
  - cbn [odef]. unfold day_range. change [X; c] with ([X] ++ [c]). rewrite suffix_X_snoc.
    replace (Ascii.eqb X c) with false; [do 3 eexists; reflexivity|]. symmetry. apply Ascii.eqb_neq. intros <-. discriminate.
Qed.
Lemma fill_ne d t : d <> [] -> fill d t <> [].
Proof. intro H. unfold fill. destruct (is_empty t) eqn:E; [exact H|apply is_empty_false; exact E]. Qed.

Lemma fill_01 t : fill ($"01") t <> [].
Proof. apply fill_ne. discriminate. Qed.
Lemma pair_ne (a b : ascii) : [a; b] <> [].
Proof. discriminate. Qed.

(** ** Soundness *)
Lemma date_sound s e : date_refused s e -> dateSpanFromYMD s = Err e.
Proof.
  intros [N|r m d H R|r m d H R|y m H R|y m d H D I R|y l h c d H D Y R|y l h m l' h' c H Y M R|y m d y' m' d' H R].
  - unfold dateSpanFromYMD, StringRangeFromYMD. destruct (find_submatch YMD_re s) as [|g gs] eqn:E; [reflexivity|]. exfalso.
    assert (F : find_submatch YMD_re s <> []) by (rewrite E; discriminate). apply ymd_inv in F.
    destruct F as (yt & yc & yq & mt & mc & mq & dt & dc & dq & Ht & Hp). destruct (parts_bwd _ _ _ _ _ _ _ _ _ _ Ht Hp) as (m & d & F). exact (N _ _ _ F).
  - destruct (parts_tail _ _ _ _ H) as ((u & a) & ->). unfold sr_tail, year_range. destruct R as (w & ->).
    change (X :: w ++ $"X") with ((X :: w) ++ [X]). rewrite suffix_X_snoc. reflexivity.
  - destruct (parts_tail _ _ _ _ H) as ((u & a) & ->). unfold sr_tail, year_range. destruct R as (w & ->).
    change ("-"%char :: w ++ $"X") with (("-"%char :: w) ++ [X]). rewrite suffix_X_snoc. reflexivity.
  - destruct (parts_tail _ _ _ _ H) as ((u & a) & ->). unfold sr_tail.
    assert (Q : exists r, year_range s y = OK r).
    { apply parts_fwd in H. destruct H as (? & ? & ? & ? & ? & ? & _ & Hp & _). destruct Hp as [_ C _ _ _ _].
      destruct (has_suffix y ($"X")) eqn:E.
      - apply suffix_iff in E. destruct (R E) as (c & w & -> & D). apply year_part_core, year_cases in C.
        destruct C as [(r & Q & _)|[(r & Q & _)|[(l & h & Q)|(_ & Q)]]]; [injection Q as -> _; discriminate|injection Q as -> _; discriminate| |contradiction].
        apply year_bridge in Q. destruct Q as (p & sy & Q). destruct (year_den_range s _ _ _ _ _ Q) as (ys & ye & Q' & _). eauto.
      - rewrite (year_range_num _ _ E). eauto. }
    destruct Q as (((ys & ye) & p) & ->). cbn [bind]. destruct (month_range (odef m) p) as ((ms & me) & q). reflexivity.
  - destruct (parts_tail _ _ _ _ H) as ((u & a) & ->). apply parts_fwd in H. destruct H as (? & ? & ? & ? & ? & ? & _ & Hp & Cm & Cd & _). destruct Hp as [_ C _ _ _ _].
    unfold sr_tail. rewrite (year_range_num _ _ (no_suffix _ R)). cbn [bind].
    destruct (month_parts m YEAR Cm) as (ms & me & q & -> & Dm). destruct (day_parts s d q Cd D) as (ds & de & q' & ->). cbn [bind].
    fold (fill ($"01") ms) (fill ($"12") me) (fill ($"01") ds).
    assert (Ny : y <> []) by (intros ->; destruct I).
    destruct (is_empty de).
    + rewrite (days_string _ _ (dash_year _ C) Dm), (atoi_x _ I). reflexivity.
    + cbn [bind]. unfold YMDFromStringDate. cbn [sr_start sd_year sd_month sd_day].
      rewrite (ymd_year _ _ _ _ Ny (fill_01 _) (atoi_x _ I)). reflexivity.
  - destruct (parts_tail _ _ _ _ H) as ((u & a) & ->). apply parts_fwd in H. destruct H as (? & ? & ? & ? & ? & ? & _ & Hp & Cm & Cd & _).
    unfold sr_tail. apply year_bridge in Y. destruct Y as (p & sy & Y). destruct (year_den_range s _ _ _ _ _ Y) as (ys & ye & -> & Ys & Ye & _). cbn [bind].
    unfold month_range. cbn [odef]. change (has_suffix [X; c] ($"X")) with (has_suffix ([X] ++ [c]) ($"X")). rewrite suffix_X_snoc.
    replace (Ascii.eqb X c) with false by (symmetry; apply Ascii.eqb_neq; intros <-; discriminate). cbn [negb].
    match goal with |- context [day_range s _ ?p] => destruct (day_parts s d p Cd D) as (ds & de & q' & ->) end. cbn [bind].
    change (is_empty ["X"%char; c]) with false. cbv iota. assert (Ix : atoi [X; c] = Err (ENum [X; c])) by (apply atoi_x; left; reflexivity).
    fold (fill ($"01") ds). destruct (is_empty de).
    + rewrite days_string; [rewrite Ye, Ix; reflexivity|exact (atoi_dash_ok _ _ Ye)|]. intros [E|[E|[]]]; subst; discriminate.
    + cbn [bind]. unfold YMDFromStringDate. cbn [sr_start sd_year sd_month sd_day].
      rewrite (ymd_month ys _ _ _ _ Ys (pair_ne _ _) Ix). reflexivity.
  - destruct (parts_tail _ _ _ _ H) as ((u & a) & ->). apply parts_fwd in H. destruct H as (? & ? & ? & ? & ? & ? & _ & Hp & Cm & Cd & _).
    unfold sr_tail. apply year_bridge in Y. destruct Y as (p & sy & Y). destruct (year_den_range s _ _ _ _ _ Y) as (ys & ye & -> & Ys & Ye & _ & _ & _ & _ & _ & Np). cbn [bind].
    apply month_bridge in M. destruct M as (_ & sm & M). destruct (month_den_range _ _ _ _ p Np M) as (ms & me & Er & Ms & Me & _). cbn [odef]. rewrite Er.
    unfold day_range. change (has_suffix [X; c] ($"X")) with (has_suffix ([X] ++ [c]) ($"X")). rewrite suffix_X_snoc.
    replace (Ascii.eqb X c) with false by (symmetry; apply Ascii.eqb_neq; intros <-; discriminate). cbn [negb bind].
    change (is_empty ["X"%char; c]) with false. cbv iota. assert (Ix : atoi [X; c] = Err (ENum [X; c])) by (apply atoi_x; left; reflexivity).
    fold (fill ($"01") ms). cbn [bind]. unfold YMDFromStringDate. cbn [sr_start sd_year sd_month sd_day].
    rewrite (ymd_day ys _ _ _ _ _ Ys (fill_01 _) Ms (pair_ne _ _) Ix). reflexivity.
  - apply date_bridge in H. destruct H as (u & a & p & sg & [(yt & yc & yq & mt & mc & mq & dt & dc & dq & py & sy & sm & sd & Ht & Hp & Hy & Hm & Hd & _)]).
    destruct (string_range_den _ _ _ _ _ _ _ _ _ _ _ _ _ _ _ _ _ _ _ _ Ht Hp Hy Hm Hd)
      as (ys & ms & ds & ye & me & de & n & n' & Hsr & Hys & Hye & Hms & Hme & Hds & Hde & Hne & Hne' & Ed & Ed' & By & By' & Bm & Bm' & Hs).
    unfold dateSpanFromYMD. rewrite Hsr. cbn [bind]. unfold YMDFromStringDate. cbn [sr_start sr_end sd_year sd_month sd_day].
    rewrite (ymd_of_den _ _ _ _ _ _ _ Hys Hms Hds Hne Ed By Bm). rewrite (ymd_of_den _ _ _ _ _ _ _ Hye Hme Hde Hne' Ed' By' Bm').
    pose proof (month_len_range y m). pose proof (month_len_range y' m').
    destruct (month_len y m <? n) eqn:L; [reflexivity|]. destruct (month_len y' m' <? n') eqn:L'; [reflexivity|]. exfalso. apply R.
    assert (P : 1 <= d /\ 1 <= d').
    { clear - Hd H H0. assert (K : forall k, 1 <= k <= 31 -> k = k) by reflexivity. inversion Hd as [|t0 k Hc Ha Hz| | | | |]; subst; try lia.
      pose proof (day_core_bound _ _ Hc Ha). lia. }
    split; (split; [assumption|]); [destruct (n =? 0) eqn:Z0|destruct (n' =? 0) eqn:Z0]; subst; lia.
Qed.

Lemma digit_not n : 0 <= n <= 9 -> digit_char n <> X.
Proof. intros H E. assert (W : is_digit (digit_char n) = true) by (apply is_digit_char; lia). rewrite E in W. discriminate. Qed.
Lemma no_0x n n' l h : ~ day_reads n n' ($"0X") l h.
Proof.
  intro Q. remember ($"0X") as t eqn:E. destruct Q as [k Hk| | | | |]; try discriminate E. unfold two in E. injection E as _ E.
  revert E. apply digit_not. lia.
Qed.
Lemma year4_end u y : ~ year4 (u ++ $"X") y.
Proof.
  intro H. remember (u ++ $"X") as t eqn:E. apply (f_equal (@rev ascii)) in E. cbn [lit list_ascii_of_string] in E. rewrite rev_unit in E.
  destruct H as [n Hn|n Hn]; unfold four in E; cbn [rev app lit list_ascii_of_string] in E; injection E as E _; revert E; apply digit_not; lia.
Qed.

(** ** Every date is read or refused *)
Lemma date_total s : (exists sp, dateSpanFromYMD s = OK sp) \/ exists e, date_refused s e.
Proof.
  destruct (find_submatch YMD_re s) as [|g gs] eqn:E.
  - right. eexists. apply dx_form. intros y m d H. apply parts_fwd in H. destruct H as (yt & yq & mt & mq & dt & dq & Ht & Hp & _).
    rewrite (ymd_sub _ _ _ _ _ _ _ _ _ _ Ht Hp) in E. discriminate.
  - assert (F : find_submatch YMD_re s <> []) by (rewrite E; discriminate). apply ymd_inv in F. clear E.
    destruct F as (yt & yc & yq & mt & mc & mq & dt & dc & dq & Ht & Hp). destruct (parts_bwd _ _ _ _ _ _ _ _ _ _ Ht Hp) as (m & d & H).
    clear yt yq mt mc mq dt dc dq Ht Hp.
    assert (Done : forall y0 m0 d0 y1 m1 d1, date_reads s y0 m0 d0 y1 m1 d1 -> (exists sp, dateSpanFromYMD s = OK sp) \/ exists e, date_refused s e).
    { intros y0 m0 d0 y1 m1 d1 Hr. destruct (real_dateb y0 m0 d0 && real_dateb y1 m1 d1) eqn:Q.
      - apply andb_true_iff in Q. rewrite !real_dateb_spec in Q. destruct Q as (Q1 & Q2). left. apply date_bridge in Hr. destruct Hr as (u & a & p & sg & Hr).
        destruct (span_fwd _ _ _ _ _ _ _ _ _ _ _ Hr Q1 Q2) as (F & _). eauto.
      - right. eexists. eapply dx_days; [exact Hr|]. rewrite <- !real_dateb_spec, <- andb_true_iff, Q. discriminate. }
    assert (Cy : year_part yc) by (inversion H; assumption).
    destruct (year_cases _ Cy) as [(r & -> & R)|[(r & -> & R)|[(l & h & R)|(I & R)]]].
    + right. eexists. eapply dx_leading; eassumption.
    + right. eexists. eapply dx_minus; eassumption.
    + inversion H as [yt y0 My _|yt y0 mt m0 My _ Mm Cm|yt y0 mt m0 dt d0 My _ Mm Cm Md Cd]; subst.
      * eapply Done. apply dt_y with yc; eassumption.
      * destruct (month_cases _ Cm) as [(l' & h' & M)|(c & -> & D)].
        -- eapply Done. eapply dt_ym; eassumption.
        -- right. eexists. eapply dx_month; [exact H|discriminate|exact R|exact D].
      * destruct (day_cases _ Cd) as [G|[->|(c' & -> & D')]].
        -- destruct (month_cases _ Cm) as [(l' & h' & M)|(c & -> & D)].
           ++ destruct (G (month_len l l') (month_len h h')) as (l2 & h2 & Dr). eapply Done. eapply dt_ymd; eassumption.
           ++ right. eexists. eapply dx_month; [exact H| |exact R|exact D]. intro Q. injection Q as ->. destruct (G 30 30) as (? & ? & Q). exact (no_0x _ _ _ _ Q).
        -- right. eexists. eapply dx_day_0x; [exact H|]. intros (u & ->). inversion R as [t y1 Hy|a b c Ha Hb Hc]; subst.
           ++ exfalso. exact (year4_end _ _ Hy).
           ++ exists a, [b; c; X]. split; [symmetry; assumption || reflexivity|exact Ha].
        -- destruct (month_cases _ Cm) as [(l' & h' & M)|(c & -> & D)].
           ++ right. eexists. eapply dx_day; [exact H|exact R|exact M|exact D'].
           ++ right. eexists. eapply dx_month; [exact H|intro Q; injection Q as Q; discriminate|exact R|exact D].
    + destruct d as [d|].
      * destruct (list_eq_dec Ascii.ascii_dec d ($"0X")) as [->|N].
        -- right. eexists. eapply dx_day_0x; [exact H|]. intro Q. contradiction.
        -- right. eexists. eapply dx_year; [exact H|congruence|exact I|exact R].
      * right. eexists. eapply dx_year; [exact H|discriminate|exact I|exact R].
Qed.
Theorem date_errors s e : dateSpanFromYMD s = Err e <-> date_refused s e.
Proof.
  split; [|apply date_sound]. intro H. destruct (date_total s) as [(sp & E)|(e' & R)]; [congruence|].
  pose proof (date_sound _ _ R) as E. rewrite E in H. injection H as <-. exact R.
Qed.

(** ** Halves and pairs *)
Lemma half_fine_iff t : half_fine t <-> exists sp, dateSpanFromEDTF t = OK sp.
Proof.
  split.
  - intros (lo & hi & H). apply half_bridge in H. destruct H as (b & b' & H & _). apply half_fwd in H. destruct H as (sp & H & _). eauto.
  - intros (sp & E). destruct (dateSpanFromEDTF_inv _ _ E) as (H & _ & _).
    assert (G : forall t c c', half t c c' -> exists x x', shows c x /\ shows c' x').
    { intros t0 c c' [| |t1 y m d y' m' d' u q p sg _ _ _ _ _]; [exists Blank, Blank|exists Dots, Dots|exists (from_day y m d), (to_day y' m' d')]; repeat split. }
    destruct (G _ _ _ H) as (x & x' & Hx & Hx'). exists x, x'. apply half_bridge. eauto.
Qed.
Lemma half_errors t e : dateSpanFromEDTF t = Err e <-> half_refused t e.
Proof.
  unfold dateSpanFromEDTF. change UNKNOWN with (@nil ascii). change OPEN with ($".."). split.
  - intro H. destruct (seqb t []) eqn:E1; [discriminate|]. destruct (seqb t ($"..")) eqn:E2; [discriminate|].
    apply seqb_neq in E1, E2. constructor; [exact E1|exact E2|apply date_errors; exact H].
  - intros [N1 N2 H]. apply seqb_neq in N1, N2. rewrite N1, N2. apply date_errors. exact H.
Qed.
Lemma half_total t : half_fine t \/ exists e, half_refused t e.
Proof.
  destruct (dateSpanFromEDTF t) as [sp|e|] eqn:E.
  - left. apply half_fine_iff. eauto.
  - right. exists e. apply half_errors. exact E.
  - exfalso. unfold dateSpanFromEDTF in E. destruct (seqb t UNKNOWN); [discriminate|]. destruct (seqb t OPEN); [discriminate|].
    destruct (date_total t) as [(sp & Q)|(e & Q)]; [congruence|]. apply date_sound in Q. congruence.
Qed.
Lemma halves_errors a b e : slashless a -> slashless b -> DateSpanFromEDTF (a ++ "/"%char :: b) = Err e <-> halves_refused a b e.
Proof.
  intros Na Nb. unfold DateSpanFromEDTF. change ($"/") with ["/"%char]. rewrite split_two by assumption. unfold halves_refused. rewrite <- !half_errors, half_fine_iff.
  destruct (dateSpanFromEDTF a) as [sp|e0|]; cbn [bind].
  - destruct (dateSpanFromEDTF b) as [sp'|e1|]; cbn [bind].
    + split; [discriminate|]. intros [H|(_ & H)]; discriminate.
    + split; [intro H; right; eauto|]. intros [H|(_ & H)]; [discriminate|exact H].
    + split; [discriminate|]. intros [H|(_ & H)]; discriminate.
  - split; [auto|]. intros [H|((sp & H) & _)]; [exact H|discriminate].
  - split; [discriminate|]. intros [H|((sp & H) & _)]; discriminate.
Qed.
Lemma split_three a b c : split (a ++ "/"%char :: b ++ "/"%char :: c) ["/"%char] <> [] /\
  forall l, split (a ++ "/"%char :: b ++ "/"%char :: c) ["/"%char] = l -> (3 <= length l)%nat.
Proof.
  split; [apply split_nonempty|]. intros l E. destruct l as [|x [|y [|z l]]]; [exact (False_ind _ (split_nonempty _ _ E))|..]; [| |cbn; lia]; exfalso.
  - apply split_inv1 in E. destruct E as (_ & E). apply E, in_or_app. right. left. reflexivity.
  - apply split_inv2 in E. destruct E as (E & Nx & Ny).
    assert (Q : count_occ Ascii.ascii_dec (a ++ "/"%char :: b ++ "/"%char :: c) "/"%char = 1%nat).
    { rewrite E, count_occ_app. cbn [count_occ]. destruct (Ascii.ascii_dec "/" "/") as [_|N]; [|contradiction].
      apply (count_occ_not_In Ascii.ascii_dec) in Nx, Ny. rewrite Nx, Ny. reflexivity. }
    rewrite count_occ_app in Q. cbn [count_occ] in Q. destruct (Ascii.ascii_dec "/" "/") as [_|N]; [|contradiction].
    rewrite count_occ_app in Q. cbn [count_occ] in Q. destruct (Ascii.ascii_dec "/" "/") as [_|N]; [|contradiction]. lia.
Qed.
Theorem span_errors s e : DateSpanFromEDTF s = Err e <-> span_refused s e.
Proof.
  split.
  - intro H. pose proof H as H0. unfold DateSpanFromEDTF in H. change ($"/") with ["/"%char] in H.
    destruct (split s ["/"%char]) as [|x [|y [|z l]]] eqn:E.
    + exfalso. exact (split_nonempty _ _ E).
    + apply split_inv1 in E. destruct E as (-> & E). apply sx_date; [exact E|apply date_errors; exact H].
    + apply split_inv2 in E. destruct E as (-> & Nx & Ny). apply (sx_pair x y); [exact Nx|exact Ny|]. apply halves_errors; assumption.
    + injection H as <-. apply split_inv_cons in E. destruct E as (r & -> & _ & E). apply split_inv_cons in E. destruct E as (r' & -> & _ & E).
      exact (sx_more x y r').
  - intros [t e0 N H|a b e0 Na Nb H|a b c].
    + rewrite single_fwd by exact N. apply date_errors. exact H.
    + apply halves_errors; assumption.
    + change (a ++ $"/" ++ b ++ $"/" ++ c) with (a ++ "/"%char :: b ++ "/"%char :: c). unfold DateSpanFromEDTF. change ($"/") with ["/"%char].
      destruct (split_three a b c) as (_ & L). destruct (split _ _) as [|x [|y [|z l]]]; specialize (L _ eq_refl); cbn in L; try lia. reflexivity.
Qed.
