(** StringRangeFromYMD called directly. *)
From Coq Require Import Ascii String ZArith NArith Bool Lia ZifyBool List.
From Verif Require Import GoStr GoTime Regex Patterns RegexSym SpecCal SpecText SpecZone SpecGrammar SpecForms SpecSpan SpecPeriod SpecReads SpecWhole SpecRefused SpecHelpers StrFacts TextFacts Edtf Calendar Common CalFacts SpanFacts YmdShapes YmdFacts InvFacts ParseFacts SplitFacts DateFacts ReadsFacts WholeFacts RefDate RefYears HelperProofs.
Import ListNotations.
Open Scope Z_scope.
Ltac Zify.zify_post_hook ::= Z.div_mod_to_equations.

(** ** Parts *)
Lemma marks_marked c t w : marks c t w -> marked c t.
Proof. intros [|q H|q H]; [apply mk_none|apply mk_before; exact H|apply mk_after; exact H]. Qed.
Lemma marked_marks c t : marked c t -> exists w, marks c t w.
Proof. intros [|q H|q H]; [exists NoMark; constructor|exists (Front q); constructor; exact H|exists (Back q); constructor; exact H]. Qed.
Lemma parts_marked s y m d : date_parts s y m d <-> exists yw mw dw, marked_parts s y m d yw mw dw.
Proof.
  split.
  - intros [yt y0 My Py|yt y0 mt m0 My Py Mm Pm|yt y0 mt m0 dt d0 My Py Mm Pm Md Pd].
    + apply marked_marks in My. destruct My as (yw & My). exists yw, NoMark, NoMark. constructor; assumption.
    + apply marked_marks in My, Mm. destruct My as (yw & My), Mm as (mw & Mm). exists yw, mw, NoMark. constructor; assumption.
    + apply marked_marks in My, Mm, Md. destruct My as (yw & My), Mm as (mw & Mm), Md as (dw & Md). exists yw, mw, dw. constructor; assumption.
  - intros (yw & mw & dw & [yt y0 yw' My Py|yt y0 yw' mt m0 mw' My Py Mm Pm|yt y0 yw' mt m0 mw' dt d0 dw' My Py Mm Pm Md Pd]).
    + apply dp_y; [exact (marks_marked _ _ _ My)|assumption].
    + apply dp_ym; try assumption; eapply marks_marked; eassumption.
    + apply dp_ymd; try assumption; eapply marks_marked; eassumption.
Qed.
Lemma marks_nil c w : marks c [] w -> c = [].
Proof. intro H. apply marks_marked in H. apply (marked_nil _ _ H). reflexivity. Qed.
Lemma part_nonempty t : month_part t \/ day_part t -> t <> [].
Proof.
  intros [H|H] ->.
  - apply month_part_core, month_core in H. destruct H as (a & b & H & _). discriminate.
  - apply day_part_core, day_core in H. destruct H as (a & b & H & _). discriminate.
Qed.
Lemma marked_tail s y m d yw mw dw : marked_parts s y m d yw mw dw ->
  StringRangeFromYMD s = sr_tail s y (odef m) (odef d) (concerned marks_uncertain yw mw dw, concerned marks_approximate yw mw dw) /\
  year_part y /\ (forall c, m = Some c -> month_part c) /\ (forall c, d = Some c -> day_part c) /\ (m = None -> d = None).
Proof.
  assert (N : forall c t w, marks c t w -> c <> [] -> t <> []) by (intros c t w M C ->; apply marks_nil in M; contradiction).
  intros [yt y0 yw' My Py|yt y0 yw' mt m0 mw' My Py Mm Pm|yt y0 yw' mt m0 mw' dt d0 dw' My Py Mm Pm Md Pd].
  - destruct (marks_qualified _ _ _ My) as (Qy & Wy). split.
    + rewrite (string_range yt yt y0 (as_qualifier yw') [] [] None [] [] None); [|constructor|].
      * rewrite <- (flags_concerned yw' NoMark NoMark Wy I I). reflexivity.
      * apply year_part_core in Py. constructor; auto; constructor.
    + split; [exact Py|]. split; [discriminate|]. split; [discriminate|auto].
  - destruct (marks_qualified _ _ _ My) as (Qy & Wy). destruct (marks_qualified _ _ _ Mm) as (Qm & Wm).
    pose proof (N _ _ _ Mm (part_nonempty _ (or_introl Pm))) as Nm. split.
    + rewrite (string_range (yt ++ $"-" ++ mt) yt y0 (as_qualifier yw') mt m0 (as_qualifier mw') [] [] None); [|exact (yt_ym yt mt Nm)|].
      * rewrite <- (flags_concerned yw' mw' NoMark Wy Wm I). reflexivity.
      * apply year_part_core in Py. apply month_part_core in Pm. constructor; auto; constructor.
    + split; [exact Py|]. split; [intros c E; injection E as <-; exact Pm|]. split; [discriminate|discriminate].
  - destruct (marks_qualified _ _ _ My) as (Qy & Wy). destruct (marks_qualified _ _ _ Mm) as (Qm & Wm). destruct (marks_qualified _ _ _ Md) as (Qd & Wd).
    pose proof (N _ _ _ Mm (part_nonempty _ (or_introl Pm))) as Nm. pose proof (N _ _ _ Md (part_nonempty _ (or_intror Pd))) as Nd. split.
    + rewrite (string_range (yt ++ $"-" ++ mt ++ $"-" ++ dt) yt y0 (as_qualifier yw') mt m0 (as_qualifier mw') dt d0 (as_qualifier dw')); [|exact (yt_ymd yt mt dt Nm Nd)|].
      * rewrite <- (flags_concerned yw' mw' dw' Wy Wm Wd). reflexivity.
      * apply year_part_core in Py. apply month_part_core in Pm. apply day_part_core in Pd. constructor; auto.
    + split; [exact Py|]. split; [intros c E; injection E as <-; exact Pm|]. split; [intros c E; injection E as <-; exact Pd|discriminate].
Qed.
Lemma no_parts s : (forall y m d, ~ date_parts s y m d) -> StringRangeFromYMD s = Err (EInvalid ($"date") s).
Proof.
  intro N. unfold StringRangeFromYMD. destruct (find_submatch YMD_re s) as [|g gs] eqn:E; [reflexivity|]. exfalso.
  assert (F : find_submatch YMD_re s <> []) by (rewrite E; discriminate). apply ymd_inv in F.
  destruct F as (yt & yc & yq & mt & mc & mq & dt & dc & dq & Ht & Hp). destruct (parts_bwd _ _ _ _ _ _ _ _ _ _ Ht Hp) as (m & d & F). exact (N _ _ _ F).
Qed.
Lemma parts_case s : (exists y m d, date_parts s y m d) \/ forall y m d, ~ date_parts s y m d.
Proof.
  destruct (find_submatch YMD_re s) as [|g gs] eqn:E.
  - right. intros y m d H. apply parts_fwd in H. destruct H as (yt & yq & mt & mq & dt & dq & Ht & Hp & _).
    rewrite (ymd_sub _ _ _ _ _ _ _ _ _ _ Ht Hp) in E. discriminate.
  - left. assert (F : find_submatch YMD_re s <> []) by (rewrite E; discriminate). apply ymd_inv in F.
    destruct F as (yt & yc & yq & mt & mc & mq & dt & dc & dq & Ht & Hp). destruct (parts_bwd _ _ _ _ _ _ _ _ _ _ Ht Hp) as (m & d & F). eauto.
Qed.

(** ** Years, months and days *)
Lemma plain_last_x a b c d : ~ ends_in_x [a; b; c; d] -> is_x d = false.
Proof. intro H. unfold is_x. apply Ascii.eqb_neq. intros ->. apply H. exists [a; b; c]. reflexivity. Qed.
Lemma year_texts_range s y ys ye : year_part y -> year_texts y ys ye ->
  year_range s y = OK (ys, ye, year_precision y) /\ dash_ok ye /\ (forall z, whole_number ye z -> -9999 <= z <= 9999).
Proof.
  intros P T. pose proof P as C. apply year_part_core in C. destruct T as [y N|a b c lo hi A B D L H].
  - split; [|split; [exact (dash_year _ C)|intros z Z; apply number_iff in Z; pose proof (year_core_bound _ _ C Z); lia]].
    rewrite (year_range_num _ _ (no_suffix _ N)). apply year_core in C. destruct C as (a & b & c & d & [->| ->] & _).
    + unfold year_precision. rewrite (plain_last_x _ _ _ _ N). reflexivity.
    + reflexivity.
  - apply canonical_itoa in L, H. apply dx_iff in B, D. pose proof (year_bounds a b c A B D) as R. unfold year_lo, year_hi in R. change xlo with low_digit in R. change xhi with high_digit in R.
    split; [|split; [rewrite H; refine (atoi_dash_ok _ _ (atoi_itoa _ _)); unfold min_int64, max_int64; lia|]].
    + rewrite year_range_x by assumption. unfold year_lo, year_hi. change xlo with low_digit. change xhi with high_digit. rewrite <- L, <- H. unfold xprec, year_precision, is_x.
      rewrite Ascii.eqb_refl. change X with "X"%char. rewrite !(Ascii.eqb_sym _ "X"). destruct (Ascii.eqb "X" c), (Ascii.eqb "X" b); reflexivity.
    + intros z Z. apply number_iff in Z. rewrite H, atoi_itoa in Z by (unfold min_int64, max_int64; lia). injection Z as <-. lia.
Qed.
Definition month_precision (m : option str) (p : N) : N := match m with None => p | Some c => with_month c p end.
Lemma month_texts_range m ms me p : (forall c, m = Some c -> month_part c) -> month_texts m ms me -> p <> NONE ->
  exists a b, month_range (odef m) p = (a, b, month_precision m p) /\ fill ($"01") a = ms /\ fill ($"12") b = me /\ dashless me /\
  (forall z, whole_number me z -> 1 <= z <= 12).
Proof.
  assert (D12 : dashless ($"12")) by (intros [E|[E|[]]]; discriminate).
  assert (Z12 : forall z, whole_number ($"12") z -> 1 <= z <= 12).
  { intros z Z. apply number_iff in Z. change (atoi ($"12")) with (OK 12) in Z. injection Z as <-. lia. }
  intros P T Np. destruct T as [|m N| |a A].
  - exists [], []. split; [reflexivity|]. auto.
  - specialize (P m eq_refl). apply month_part_core in P. exists m, m.
    assert (E : is_empty m = false) by (apply core_nonempty, core_all_month; exact P).
    unfold fill. rewrite E. split; [|split; [reflexivity|split; [reflexivity|split]]].
    + unfold month_range. cbn [odef]. rewrite (no_suffix _ N). cbn [negb]. apply N.eqb_neq in Np. rewrite Np, andb_false_r.
      apply month_core in P. destruct P as (a & b & -> & _). unfold month_precision, with_month, is_x.
      replace (Ascii.eqb b "X") with false; [reflexivity|]. symmetry. apply Ascii.eqb_neq. intros ->. apply N. exists [a]. reflexivity.
    + apply month_core in P. destruct P as (a & b & -> & P).
      intros [F|[F|[]]]; subst; destruct P as [([H|H] & H')|([H|H] & H')]; try discriminate; destruct H' as [H'|(H' & _)]; discriminate.
    + intros z Z. apply number_iff in Z. pose proof (month_core_bound _ _ P Z). lia.
  - do 2 eexists. split; [reflexivity|]. auto.
  - destruct A as [->| ->]; (do 2 eexists; split; [reflexivity|]; auto).
Qed.
Lemma day_texts_range s d ds dl p : (forall c, d = Some c -> day_part c) -> day_texts d ds dl -> p <> NONE ->
  exists a b, day_range s (odef d) p = OK (a, b, p) /\ fill ($"01") a = ds /\ b = odef dl /\ dl <> Some [].
Proof.
  intros P T Np. destruct T as [|d N| | | |]; try (do 2 eexists; split; [reflexivity|]; split; [reflexivity|]; split; [reflexivity|discriminate]).
  specialize (P d eq_refl). apply day_part_core in P. exists d, d.
  assert (E : is_empty d = false) by (apply day_core in P; destruct P as (a & b & -> & _); reflexivity).
  unfold fill. rewrite E. split; [|split; [reflexivity|split; [reflexivity|intro Q; injection Q as ->; discriminate]]].
  unfold day_range. cbn [odef]. rewrite (no_suffix _ N). cbn [negb]. apply N.eqb_neq in Np. rewrite Np, andb_false_r. reflexivity.
Qed.
Lemma year_precision_some y : year_precision y <> NONE.
Proof. unfold year_precision. destruct y as [|a [|b [|c [|d [|? ?]]]]]; try discriminate. destruct (is_x d), (is_x c), (is_x b); discriminate. Qed.
Lemma month_precision_some m p : p <> NONE -> month_precision m p <> NONE.
Proof.
  intro H. destruct m as [c|]; [|exact H]. unfold month_precision, with_month. destruct c as [|a [|b [|? ?]]]; try exact H.
  destruct (is_x b && negb (is_x a)); [discriminate|exact H].
Qed.
Lemma two_x a b : seqb [a; b] ($"XX") = is_x a && is_x b.
Proof. unfold is_x. cbn [seqb lit list_ascii_of_string]. rewrite andb_true_r. reflexivity. Qed.
Lemma tail_precision y m d : (forall c, m = Some c -> month_part c) -> (forall c, d = Some c -> day_part c) -> (m = None -> d = None) ->
  (if seqb (odef d) ($"XX") && seqb (odef m) ($"XX") then YEAR else if seqb (odef d) ($"XX") then MONTH else month_precision m (year_precision y)) = range_precision y m d.
Proof.
  intros Pm Pd N. destruct m as [m|].
  - specialize (Pm m eq_refl). apply month_part_core, month_core in Pm. destruct Pm as (a & b & -> & _).
    destruct d as [d|]; [|reflexivity]. specialize (Pd d eq_refl). apply day_part_core, day_core in Pd. destruct Pd as (a' & b' & -> & _).
    cbn [odef]. rewrite !two_x. unfold month_precision, range_precision, with_day. destruct (is_x a' && is_x b'), (is_x a && is_x b); reflexivity.
  - rewrite (N eq_refl). reflexivity.
Qed.

(** ** The whole *)
Lemma tail_eval s y m d ys ye ms me ds dl u a : year_part y -> (forall c, m = Some c -> month_part c) -> (forall c, d = Some c -> day_part c) -> (m = None -> d = None) ->
  year_texts y ys ye -> month_texts m ms me -> day_texts d ds dl ->
  sr_tail s y (odef m) (odef d) (u, a) =
  let* de := match dl with Some t => OK t | None => let* y := atoi ye in let* m := atoi me in let* n := DaysInMonth y m in OK (itoa n) end in
  OK (mkSR (mkSD ys ms ds) (mkSD ye me de) (range_precision y m d) u a).
Proof.
  intros Py Pm Pd N Ty Tm Td. destruct (year_texts_range s _ _ _ Py Ty) as (Ey & Dy & _).
  destruct (month_texts_range _ _ _ _ Pm Tm (year_precision_some y)) as (a1 & b1 & Em & Fs & Fe & Dm & _).
  destruct (day_texts_range s _ _ _ _ Pd Td (month_precision_some m _ (year_precision_some y))) as (a2 & b2 & Ed & Fd & -> & Nd).
  unfold sr_tail. rewrite Ey. cbn [bind]. rewrite Em, Ed. cbn [bind]. fold (fill ($"01") a1) (fill ($"12") b1) (fill ($"01") a2). rewrite Fs, Fe, Fd.
  rewrite (tail_precision y m d Pm Pd N). destruct dl as [t|]; cbn [odef].
  - destruct (is_empty t) eqn:E; [apply is_empty_spec in E; subst t; contradiction|]. reflexivity.
  - cbn [is_empty]. rewrite (RefDate.days_string _ _ Dy Dm). destruct (atoi ye) as [z| |]; cbn [bind]; [|reflexivity..].
    destruct (atoi me) as [z'| |]; cbn [bind]; [|reflexivity..]. destruct (DaysInMonth z z'); reflexivity.
Qed.
Lemma range_complete s r : range_gives s r -> StringRangeFromYMD s = OK r.
Proof.
  intros [y m d yw mw dw ys ye ms me ds dl de H Ty Tm Td L]. destruct (marked_tail _ _ _ _ _ _ _ H) as (E & Py & Pm & Pd & N). rewrite E.
  rewrite (tail_eval _ _ _ _ _ _ _ _ _ _ _ _ Py Pm Pd N Ty Tm Td). destruct L as [t|z z' t Wy Wm C]; [reflexivity|].
  destruct (year_texts_range s _ _ _ Py Ty) as (_ & _ & Ry). destruct (month_texts_range _ _ _ _ Pm Tm (year_precision_some y)) as (_ & _ & _ & _ & _ & _ & Rm).
  specialize (Ry _ Wy). specialize (Rm _ Wm). apply number_iff in Wy, Wm. rewrite Wy. cbn [bind]. rewrite Wm. cbn [bind].
  rewrite (DaysInMonth_ok z z' Ry Rm). cbn [bind]. apply canonical_itoa in C. rewrite C. reflexivity.
Qed.
Lemma day_text_total d : (forall c, d = Some c -> day_part c) -> d = Some ($"0X") \/ exists ds dl, day_texts d ds dl.
Proof.
  intro P. destruct d as [d|]; [|right; do 2 eexists; constructor]. specialize (P d eq_refl).
  destruct (has_suffix d ($"X")) eqn:E.
  - apply suffix_iff in E. destruct E as (u & E). apply day_part_core, day_core in P. destruct P as (a & b & -> & P).
    destruct u as [|c [|? [|? ?]]]; try discriminate. injection E as -> ->.
    assert (Q : c = X \/ c = "0"%char \/ c = "1"%char \/ c = "2"%char \/ c = "3"%char).
    { destruct P as [([->|(D & R)] & _)|([->| ->] & _)]; auto 10. destruct (char_val c D) as (Ec & B). rewrite Ec.
      assert (V : digit_val c = 0 \/ digit_val c = 1 \/ digit_val c = 2) by lia. destruct V as [->|[->| ->]]; auto 10. }
    destruct Q as [->|[->|[->|[->| ->]]]]; [right; do 2 eexists; apply yd_any|left; reflexivity|right; do 2 eexists; apply yd_1x|right; do 2 eexists; apply yd_2x|right; do 2 eexists; apply yd_3x].
  - right. exists d, (Some d). constructor. intro Q. apply suffix_iff in Q. congruence.
Qed.
Lemma month_text_total m : (forall c, m = Some c -> month_part c) -> exists ms me, month_texts m ms me.
Proof.
  intro P. destruct m as [m|]; [|do 2 eexists; constructor]. specialize (P m eq_refl).
  destruct (has_suffix m ($"X")) eqn:E.
  - apply suffix_iff in E. destruct E as (u & E). apply month_part_core, month_core in P. destruct P as (a & b & -> & P).
    destruct u as [|c [|? [|? ?]]]; try discriminate. injection E as -> ->.
    assert (Q : c = X \/ c = "0"%char \/ c = "1"%char) by (destruct P as [([->| ->] & _)|([->| ->] & _)]; auto).
    destruct Q as [->|Q]; [do 2 eexists; apply mw_any|do 2 eexists; apply mw_mask; exact Q].
  - exists m, m. constructor. intro Q. apply suffix_iff in Q. congruence.
Qed.
Lemma year_text_total y : year_part y ->
  (exists r, y = X :: r /\ ends_in_x r) \/ (exists r, y = "-"%char :: r /\ ends_in_x r) \/ exists ys ye, year_texts y ys ye.
Proof.
  intro P. destruct (year_cases _ P) as [H|[H|[(l & h & H)|(_ & H)]]]; auto; right; right.
  - destruct H as [t y4 H|a b c A B D].
    + exists t, t. constructor. intro Q. apply suffix_iff in Q. pose proof (year4_den _ _ H) as G.
      inversion G as [t' y' Hc Ha|]; subst. apply atoi_no_x in Ha. congruence.
    + do 2 eexists. apply yw_mask; try assumption; apply itoa_canonical.
  - exists y, y. constructor. exact H.
Qed.
Lemma range_sound s x : range_refused s x -> StringRangeFromYMD s = Err x.
Proof.
  intros [N|r m d H R|r m d H R|y m H R|y m d ds H D I R|y l h c d ds H D Y R].
  - exact (no_parts _ N).
  - apply parts_marked in H. destruct H as (yw & mw & dw & H). destruct (marked_tail _ _ _ _ _ _ _ H) as (E & _). rewrite E.
    unfold sr_tail, year_range. destruct R as (w & ->).
    change (X :: w ++ $"X") with ((X :: w) ++ [X]). rewrite suffix_X_snoc. reflexivity.
  - apply parts_marked in H. destruct H as (yw & mw & dw & H). destruct (marked_tail _ _ _ _ _ _ _ H) as (E & _). rewrite E.
    unfold sr_tail, year_range. destruct R as (w & ->).
    change ("-"%char :: w ++ $"X") with (("-"%char :: w) ++ [X]). rewrite suffix_X_snoc. reflexivity.
  - apply parts_marked in H. destruct H as (yw & mw & dw & H). destruct (marked_tail _ _ _ _ _ _ _ H) as (E & Py & _). rewrite E.
    assert (T : exists ys ye, year_texts y ys ye).
    { destruct (year_text_total _ Py) as [(r & -> & Q)|[(r & -> & Q)|Q]]; [exfalso..|exact Q].
      - destruct R as (c & w & F & D); [|injection F as <- _; discriminate]. destruct Q as (w & ->). exists (X :: w). reflexivity.
      - destruct R as (c & w & F & D); [|injection F as <- _; discriminate]. destruct Q as (w & ->). exists ("-"%char :: w). reflexivity. }
    destruct T as (ys & ye & T). destruct (year_texts_range s _ _ _ Py T) as (Ey & _). unfold sr_tail. rewrite Ey. cbn [bind].
    destruct (month_range (odef m) _) as ((ms & me) & q). reflexivity.
  - apply parts_marked in H. destruct H as (yw & mw & dw & H). destruct (marked_tail _ _ _ _ _ _ _ H) as (E & Py & Pm & Pd & N). rewrite E.
    destruct (month_text_total _ Pm) as (ms & me & Tm).
    rewrite (tail_eval _ _ _ _ _ _ _ _ _ _ _ _ Py Pm Pd N (yw_plain _ R) Tm D), (atoi_x _ I). reflexivity.
  - apply parts_marked in H. destruct H as (yw & mw & dw & H). destruct (marked_tail _ _ _ _ _ _ _ H) as (E & Py & Pm & Pd & N). rewrite E.
    assert (Tm : month_texts (Some [X; c]) [X; c] [X; c]).
    { constructor. intros (u & Q). destruct u as [|? [|? [|? ?]]]; try discriminate. injection Q as _ Q. subst c. discriminate. }
    assert (T : exists ys ye z, year_texts y ys ye /\ atoi ye = OK z).
    { destruct Y as [t y4 H4|a b c' A B C].
      - exists t, t, y4. pose proof (year4_den _ _ H4) as G.
        assert (Ha : atoi t = OK y4) by (inversion G; subst; assumption).
        split; [constructor; intro Q; apply suffix_iff in Q; apply atoi_no_x in Ha; congruence|exact Ha].
      - do 3 eexists. split; [apply yw_mask; try assumption; apply itoa_canonical|]. apply dx_iff in B, C. pose proof (year_bounds a b c' A B C) as Rb.
        unfold year_lo, year_hi in Rb. change xlo with low_digit in Rb. change xhi with high_digit in Rb. apply atoi_itoa. unfold min_int64, max_int64. lia. }
    destruct T as (ys & ye & z & Ty & Ez).
    rewrite (tail_eval _ _ _ _ _ _ _ _ _ _ _ _ Py Pm Pd N Ty Tm D), Ez. cbn [bind]. rewrite atoi_x by (left; reflexivity). reflexivity.
Qed.
Lemma last_total y m d ys ye ms me ds : year_part y -> (forall c, m = Some c -> month_part c) -> year_texts y ys ye -> month_texts m ms me -> day_texts d ds None ->
  (exists t, last_day_text ye me None t) \/ (In X y /\ ~ ends_in_x y) \/ (exists l h c, year_reads y l h /\ m = Some [X; c] /\ is_digit c = true).
Proof.
  intros Py Pm Ty Tm Td.
  assert (Cy : (exists z l h, whole_number ye z /\ year_reads y l h) \/ (In X y /\ ~ ends_in_x y)).
  { destruct Ty as [y N|a b c lo hi A B D L H].
    - destruct (year_cases _ Py) as [(r & -> & Q)|[(r & -> & Q)|[(l & h & Q)|Q]]].
      + exfalso. apply N. destruct Q as (w & ->). exists (X :: w). reflexivity.
      + exfalso. apply N. destruct Q as (w & ->). exists ("-"%char :: w). reflexivity.
      + left. destruct Q as [t y4 H4|a b c A B D]; [|exfalso; apply N; exists [a; b; c]; reflexivity].
        exists y4, y4, y4. split; [|constructor; exact H4]. apply number_iff. pose proof (year4_den _ _ H4) as G. inversion G; subst; assumption.
      + right. exact Q.
    - left. do 3 eexists. split; [|apply yr_mask; assumption]. apply number_iff. apply canonical_itoa in H. rewrite H. apply dx_iff in B, D. pose proof (year_bounds a b c A B D) as Rb.
      unfold year_lo, year_hi in Rb. change xlo with low_digit in Rb. change xhi with high_digit in Rb. apply atoi_itoa. unfold min_int64, max_int64. lia. }
  assert (Cm : (exists z, whole_number me z) \/ exists c, m = Some [X; c] /\ is_digit c = true).
  { assert (T : exists z, whole_number ($"12") z) by (exists 12; apply number_iff; reflexivity).
    destruct Tm as [|m N| |a A]; auto. specialize (Pm m eq_refl). destruct (month_cases _ Pm) as [(l & h & R)|(c & -> & D)]; [left|right; eauto].
    destruct R as [k K| |a A]; [|exfalso; apply N; exists [X]; reflexivity|exfalso; apply N; exists [a]; reflexivity].
    exists k. apply number_iff. apply atoi_two. lia. }
  destruct Cy as [(z & l & h & Wy & R)|Q]; [|right; left; exact Q]. destruct Cm as [(z' & Wm)|(c & -> & D)]; [|right; right; exists l, h, c; auto].
  left. eexists. apply (ld_found ye me z z'); [exact Wy|exact Wm|apply itoa_canonical].
Qed.
Lemma range_total s : (exists r, range_gives s r) \/ (exists x, range_refused s x).
Proof.
  destruct (parts_case s) as [(y & m & d & H)|N]; [|right; eexists; apply rr_form; exact N].
  pose proof H as H'. apply parts_marked in H'. destruct H' as (yw & mw & dw & H'). destruct (marked_tail _ _ _ _ _ _ _ H') as (_ & Py & Pm & Pd & N).
  destruct (year_text_total _ Py) as [(r & -> & Q)|[(r & -> & Q)|(ys & ye & Ty)]]; [right; eexists; eapply rr_leading; eassumption|right; eexists; eapply rr_minus; eassumption|].
  destruct (month_text_total _ Pm) as (ms & me & Tm). destruct (day_text_total _ Pd) as [->|(ds & dl & Td)].
  - right. eexists. apply (rr_day_0x _ y m H). intro E. destruct Ty as [y0 Ny|a b c lo hi A B D L Hh]; [contradiction|]. eauto.
  - destruct dl as [t|].
    + left. eexists. exact (rg_intro _ _ _ _ _ _ _ _ _ _ _ _ _ _ H' Ty Tm Td (ld_given _ _ t)).
    + destruct (last_total y m d ys ye ms me ds Py Pm Ty Tm Td) as [(t & L)|[(I & Ny)|(l & h & c & R & -> & D)]].
      * left. eexists. exact (rg_intro _ _ _ _ _ _ _ _ _ _ _ _ _ _ H' Ty Tm Td L).
      * right. eexists. eapply rr_year; eassumption.
      * right. eexists. eapply rr_month; eassumption.
Qed.
Lemma range_values s r : StringRangeFromYMD s = OK r <-> range_gives s r.
Proof.
  split; [|apply range_complete]. intro E. destruct (range_total s) as [(r' & H)|(x & H)].
  - pose proof (range_complete _ _ H) as Q. rewrite E in Q. injection Q as ->. exact H.
  - apply range_sound in H. rewrite E in H. discriminate.
Qed.
Lemma range_errors s x : StringRangeFromYMD s = Err x <-> range_refused s x.
Proof.
  split; [|apply range_sound]. intro E. destruct (range_total s) as [(r & H)|(x' & H)].
  - apply range_complete in H. rewrite E in H. discriminate.
  - pose proof (range_sound _ _ H) as Q. rewrite E in Q. injection Q as ->. exact H.
Qed.
Lemma range_no_panic s : StringRangeFromYMD s <> Panic.
Proof.
  intro E. destruct (range_total s) as [(r & H)|(x & H)]; [apply range_complete in H|apply range_sound in H]; rewrite E in H; discriminate.
Qed.
