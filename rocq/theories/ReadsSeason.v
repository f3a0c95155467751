(** What seasons, letter years and groupings are read as. *)
From Coq Require Import Ascii String ZArith NArith Bool Lia ZifyBool List.
From Verif Require Import GoStr GoTime Regex Patterns RegexSym RegexRel RegexGen SpecCal SpecText SpecZone SpecGrammar SpecForms SpecSpan SpecReads StrFacts TextFacts Edtf Calendar Common Level0 Level1 Level2 Parser CalFacts ApiFacts SpanFacts YmdShapes YmdFacts InvFacts GrammarFacts SetGrammar LangFacts LangNorm LangForms LangForms2 DateFacts ParseFacts SplitFacts Level0Facts Level0Proofs FormFacts SeasonFacts Level1Proofs XProofs FormProofs SigProofs ExpProofs GroupingProofs ReadsFacts.
Import ListNotations.
Open Scope Z_scope.
Ltac Zify.zify_post_hook ::= Z.div_mod_to_equations.

(** ** Readings are unique *)
Lemma half_reads_fun t lo hi lo' hi' : half_reads t lo hi -> half_reads t lo' hi' -> lo = lo' /\ hi = hi'.
Proof.
  intros H H'. apply half_bridge in H. destruct H as (b & b' & H & L & U). apply half_bridge in H'. destruct H' as (c & c' & H' & L' & U').
  destruct (half_fwd _ _ _ H) as (sp & E & E1 & E2 & _). destruct (half_fwd _ _ _ H') as (sp' & E' & E1' & E2' & _).
  rewrite E in E'. injection E' as <-. subst. split; eapply shows_fun; eassumption.
Qed.
Lemma span_reads_fun t lo hi lo' hi' : span_reads t lo hi -> span_reads t lo' hi' -> lo = lo' /\ hi = hi'.
Proof.
  intros H H'. apply span_bridge in H. destruct H as (sp & E & L & U). apply span_bridge in H'. destruct H' as (sp' & E' & L' & U').
  rewrite E in E'. injection E' as <-. split; eapply shows_fun; eassumption.
Qed.
(** ** Pairs of known texts *)
Lemma pair_reads a b lo hi : ~ In "/"%char a -> ~ In "/"%char b ->
  span_reads (a ++ "/"%char :: b) lo hi <-> exists x x', half_reads a lo x /\ half_reads b x' hi.
Proof.
  intros Na Nb. split.
  - intro H. remember (a ++ "/"%char :: b) as t eqn:Et. destruct H as [t lo hi H|a' b' lo x x' hi Ha Hb].
    + exfalso. apply whole_bridge in H. destruct H as (sp & E & _). apply (ymd_no_slash _ _ E). rewrite Et. apply in_or_app. right. left. reflexivity.
    + change ($"/" ++ b') with ("/"%char :: b') in Et. pose proof (half_no_slash _ _ _ Ha) as Na'. pose proof (half_no_slash _ _ _ Hb) as Nb'.
      pose proof (split_two "/"%char a' b' Na' Nb') as S1. rewrite Et, (split_two "/"%char a b Na Nb) in S1. injection S1 as <- <-. eauto.
  - intros (x & x' & Ha & Hb). exact (sr_pair _ _ _ _ _ _ Ha Hb).
Qed.
Lemma date_half t y m d : level0_date t y m d -> exists_date y m d ->
  half_reads t (from_day y (first_month m) (first_day d)) (to_day y (last_month m) (last_day y (last_month m) d)).
Proof.
  intros H He. apply half_bridge. do 2 eexists. split; [exact (level0_half _ _ _ _ H He)|]. split; [apply shows_start|apply shows_end].
Qed.
Lemma day_half y m d : -9999 <= y <= 9999 -> real_date y m d -> half_reads (day_text y m d) (from_day y m d) (to_day y m d).
Proof.
  intros Hy Hr. destruct Hr as (Hm & Hd). assert (B : 1 <= d <= 31) by (pose proof (month_len_range y m); lia).
  apply (date_half _ y (Some m) (Some d)); [apply day_level0; assumption|split; assumption].
Qed.
(** A year of other than four digits, with more after it. *)
Lemma dash_unique (a a' x x' : str) : ~ In "-"%char a -> ~ In "-"%char a' -> a ++ "-"%char :: x = a' ++ "-"%char :: x' -> a = a'.
Proof.
  revert a'. induction a as [|c a IH]; intros [|c' a'] N N' E; cbn [app] in E; [reflexivity| | |].
  - injection E as <- _. contradiction N'. left. reflexivity.
  - injection E as -> _. contradiction N. left. reflexivity.
  - injection E as <- E. f_equal. apply IH; [intro H; apply N; right; exact H|intro H; apply N'; right; exact H|exact E].
Qed.
Definition digit_dash (c : ascii) : Prop := is_digit c = true \/ c = "-"%char.
Lemma long_year sgn ds r lo hi : minus_text sgn -> digits_text ds -> Forall digit_dash r ->
  half_reads (sgn ++ ds ++ "-"%char :: r) lo hi -> length ds = 4%nat.
Proof.
  intros Hs Hd Hr H. apply half_bridge in H. destruct H as (b & b' & H & _).
  assert (Dn : ~ In "-"%char ds) by (apply digits_no; [exact Hd|reflexivity]).
  assert (Ne : ds <> []) by apply Hd.
  assert (F : forall c, In c (sgn ++ ds ++ "-"%char :: r) -> digit_dash c).
  { intros c Hi. apply in_app_or in Hi. destruct Hi as [Hi|Hi]; [destruct Hs as [->| ->]; [destruct Hi|destruct Hi as [<-|[]]; right; reflexivity]|].
    apply in_app_or in Hi. destruct Hi as [Hi|[<-|Hi]]; [left|right; reflexivity|rewrite Forall_forall in Hr; exact (Hr _ Hi)].
    destruct Hd as (_ & Hd). rewrite Forall_forall in Hd. apply Hd, Hi. }
  remember (sgn ++ ds ++ "-"%char :: r) as s eqn:Es. destruct H as [| |t y m d y' m' d' u a p sg HD _ _ _ _].
  - destruct Hs as [->| ->]; destruct ds; try discriminate; congruence.
  - destruct (F "."%char (or_introl eq_refl)) as [Q|Q]; discriminate.
  - destruct HD as [(yt & yc & yq & mt & mc & mq & dt & dc & dq & py & sy & sm & sd & Ht & Hp & _)].
    destruct Hp as [Hq Hy _ _ _ _]. apply year_core in Hy. destruct Hy as (c1 & c2 & c3 & c4 & Hc & D1 & D2 & D3 & D4).
    assert (Hin : forall c, In c yt -> In c t) by (intros c Hi; inversion Ht; subst; [exact Hi|apply in_or_app; auto..]).
    assert (Eq : yt = yc).
    { inversion Hq as [|c0 cc Hc0|c0 cc Hc0]; subst yt; [reflexivity|exfalso..]; destruct (qset_not c0 Hc0) as (Q1 & _ & Q2).
      - destruct (F c0 (Hin c0 (or_introl eq_refl))) as [Q|Q]; [congruence|contradiction].
      - destruct (F c0) as [Q|Q]; [apply Hin, in_or_app; right; left; reflexivity|congruence|contradiction]. }
    subst yt. assert (N4 : ~ In "-"%char [c1; c2; c3; c4]).
    { intros [E|[E|[E|[E|[]]]]]; subst; discriminate. }
    assert (A : exists sgn' ds', minus_text sgn' /\ ~ In "-"%char ds' /\ yc = sgn' ++ ds' /\ length ds' = 4%nat).
    { destruct Hc as [->| ->]; [exists [], [c1; c2; c3; c4]|exists ($"-"), [c1; c2; c3; c4]]; (split; [first [left; reflexivity|right; reflexivity]|auto]). }
    destruct A as (sgn' & ds' & Hs' & Nd' & -> & L'). clear Hc.
    assert (R : exists r', t = sgn' ++ ds' ++ r' /\ (r' = [] \/ exists r'', r' = "-"%char :: r'')).
    { inversion Ht; subst; [exists []; rewrite app_nil_r; auto| |]; rewrite <- app_assoc; eexists; split; try reflexivity; right; eexists; reflexivity. }
    destruct R as (r' & Er & Hr'). clear - Es Er Hr' Hs Hs' Nd' Dn Ne L'. rewrite Es in Er. clear Es t.
    assert (C : ds ++ "-"%char :: r = ds' ++ r').
    { destruct Hs as [->| ->], Hs' as [->| ->].
      - exact Er.
      - destruct ds as [|c ds]; [congruence|]. cbn [app] in Er. injection Er as -> _. contradiction Dn. left. reflexivity.
      - destruct ds' as [|c ds']; [discriminate|]. cbn [app] in Er. injection Er as <- _. contradiction Nd'. left. reflexivity.
      - cbn [app] in Er. injection Er as Er. exact Er. }
    destruct Hr' as [->|(r'' & ->)].
    + exfalso. apply Nd'. rewrite app_nil_r in C. rewrite <- C. apply in_or_app. right. left. reflexivity.
    + apply dash_unique in C; [subst; exact L'|assumption..].
Qed.
(** ** Four digit years *)
Lemma digits_len n : 0 <= n <= 9999 -> Z.of_nat (length (digits n)) = if n <? 10 then 1 else if n <? 100 then 2 else if n <? 1000 then 3 else 4.
Proof. intro H. pose proof (itoa_len n H) as E. unfold slen, itoa in E. replace (n <? 0) with false in E by lia. exact E. Qed.
Lemma digits_all n : 0 <= n -> Forall (fun c => is_digit c = true) (digits n).
Proof. intro H. pose proof (itoa_digits n H) as (_ & E). unfold itoa in E. replace (n <? 0) with false in E by lia. exact E. Qed.
Lemma pad_digits w n : (0 < w)%nat -> 0 <= n -> digits_text (pad0 w (digits n)).
Proof.
  intros Hw Hn. unfold pad0, zeros. split.
  - intro E. apply app_eq_nil in E. destruct E as (E & E'). rewrite E' in E. destruct w; [lia|discriminate].
  - apply Forall_app. split; [|apply digits_all; exact Hn]. apply Forall_forall. intros c Hi. apply repeat_spec in Hi. subst. reflexivity.
Qed.
Lemma pad_len w t : (length (pad0 w t) = Nat.max w (length t))%nat.
Proof. unfold pad0, zeros. rewrite app_length, repeat_length. lia. Qed.
Lemma fmt_number y : exists sgn ds, minus_text sgn /\ digits_text ds /\ fmt_0d 4 y = sgn ++ ds /\ (-9999 <= y <= 10000 -> length ds = 4%nat -> rendered y).
Proof.
  unfold fmt_0d. destruct (y <? 0) eqn:E.
  - exists ($"-"), (pad0 3 (digits (- y))). split; [right; reflexivity|]. split; [apply pad_digits; lia|]. split; [reflexivity|].
    intros Hy L. rewrite pad_len in L. right. pose proof (digits_len (- y) ltac:(lia)) as D.
    destruct (- y <? 10) eqn:E1; [lia|]. destruct (- y <? 100) eqn:E2; [lia|]. destruct (- y <? 1000) eqn:E3; lia.
  - exists [], (pad0 4 (digits y)). split; [left; reflexivity|]. split; [apply pad_digits; lia|]. split; [reflexivity|].
    intros Hy L. left. destruct (Z.eq_dec y 10000) as [->|N]; [vm_compute in L; discriminate|lia].
Qed.
Lemma two_dash n : 0 <= n <= 99 -> Forall digit_dash (two n).
Proof. intro H. apply Forall_forall. intros c Hi. left. apply (in_two c n); assumption. Qed.
Lemma pad_dash w n : 0 <= n -> Forall digit_dash (pad0 w (digits n)).
Proof.
  intro H. unfold pad0, zeros. apply Forall_app. split.
  - apply Forall_forall. intros c Hi. apply repeat_spec in Hi. subst. left. reflexivity.
  - eapply Forall_impl; [|apply digits_all; exact H]. intros c Hc. left. exact Hc.
Qed.
Lemma fmt_dash w n : Forall digit_dash (fmt_0d w n).
Proof.
  unfold fmt_0d. destruct (n <? 0) eqn:E; [|apply pad_dash; lia]. constructor; [right; reflexivity|apply pad_dash; lia].
Qed.
Lemma fmt_noslash y : ~ In "/"%char (fmt_0d 4 y).
Proof. destruct (fmt_number y) as (sgn & ds & Hs & Hd & -> & _). apply number_noslash; assumption. Qed.
Lemma dash_noslash t : Forall digit_dash t -> ~ In "/"%char t.
Proof. intros H Hi. rewrite Forall_forall in H. destruct (H _ Hi) as [E|E]; discriminate. Qed.
Lemma fmt_rendered y r lo hi : -9999 <= y <= 10000 -> Forall digit_dash r -> half_reads (fmt_0d 4 y ++ "-"%char :: r) lo hi -> rendered y.
Proof.
  intros Hy Hr H. destruct (fmt_number y) as (sgn & ds & Hs & Hd & E & G). rewrite E, <- app_assoc in H.
  apply G; [exact Hy|]. exact (long_year _ _ _ _ _ Hs Hd Hr H).
Qed.
(** ** Seasons *)
Definition season_rest (s : str) (a b c e : Z) : res edtfdate :=
  let* end_dd := DaysInMonth c e in
  let* sp := DateSpanFromEDTF (season_text a b c e end_dd) in OK (edtf_of_span sp s LEVEL1 SEASON).
Lemma months_span a b c e lo hi dd : -9999 <= a <= 10000 -> -9999 <= c <= 10000 ->
  span_reads (season_text a b c e dd) lo hi -> rendered a /\ rendered c.
Proof.
  intros Ha Hc H. unfold season_text in H.
  assert (E : fmt_0d 4 a ++ $"-" ++ fmt_0d 2 b ++ $"-" ++ fmt_0d 2 1 ++ $"/" ++ fmt_0d 4 c ++ $"-" ++ fmt_0d 2 e ++ $"-" ++ fmt_0d 2 dd
    = (fmt_0d 4 a ++ "-"%char :: fmt_0d 2 b ++ "-"%char :: fmt_0d 2 1) ++ "/"%char :: (fmt_0d 4 c ++ "-"%char :: fmt_0d 2 e ++ "-"%char :: fmt_0d 2 dd)).
  { change ($"-") with ["-"%char]. change ($"/") with ["/"%char]. rewrite <- !app_assoc. cbn [app]. rewrite <- !app_assoc. reflexivity. }
  rewrite E in H. clear E.
  assert (F : forall x k, Forall digit_dash (fmt_0d 2 x ++ "-"%char :: fmt_0d 2 k)).
  { intros x k. apply Forall_app. split; [apply fmt_dash|]. constructor; [right; reflexivity|apply fmt_dash]. }
  assert (N : forall y x k, ~ In "/"%char (fmt_0d 4 y ++ "-"%char :: fmt_0d 2 x ++ "-"%char :: fmt_0d 2 k)).
  { intros y x k Hi. apply in_app_or in Hi. destruct Hi as [Hi|[Hi|Hi]]; [exact (fmt_noslash y Hi)|discriminate|].
    exact (dash_noslash _ (F x k) Hi). }
  apply pair_reads in H; [|apply N..]. destruct H as (x & x' & H & H'). split.
  - exact (fmt_rendered a _ _ _ Ha (F b 1) H).
  - exact (fmt_rendered c _ _ _ Hc (F e dd) H').
Qed.
Lemma months_result d a b c e : months d a b c e -> e_level d = 1 -> e_feature d = SEASON ->
  forall lo hi, lo = from_day a b 1 -> hi = to_day c e (month_len c e) -> result d 1 SEASON lo hi.
Proof.
  intros (((S1 & _ & _ & S2 & S3) & _) & (_ & (T1 & _ & _ & T2 & T3)) & _) Hl Hf lo hi -> ->.
  repeat split; assumption.
Qed.
Lemma season_rest_reads s a b c e lo hi : -9999 <= a <= 10000 -> -9999 <= c <= 10000 -> 1 <= b <= 12 -> 1 <= e <= 12 ->
  (exists d, season_rest s a b c e = OK d /\ result d 1 SEASON lo hi) <->
  rendered a /\ rendered c /\ lo = from_day a b 1 /\ hi = to_day c e (month_len c e).
Proof.
  intros Ha Hc Hb He. split.
  - intros (d & H & R). unfold season_rest in H. apply bind_OK in H. destruct H as (dd & Hd & H).
    assert (Q : span_reads (season_text a b c e dd) lo hi) by (apply (span_result s _ 1 SEASON); eauto).
    destruct (months_span _ _ _ _ _ _ _ Ha Hc Q) as (Ra & Rc). split; [exact Ra|]. split; [exact Rc|].
    rewrite (DaysInMonth_ok c e) in Hd by (pose proof (rendered_range _ Rc); lia). injection Hd as <-.
    destruct (season_span a b c e Ra Rc Hb He) as (sp & _ & E & M). rewrite E in H. cbn [bind] in H. injection H as <-.
    pose proof (months_result _ _ _ _ _ (M s LEVEL1 SEASON) eq_refl eq_refl _ _ eq_refl eq_refl) as (_ & _ & L & U).
    destruct R as (_ & _ & L' & U'). split; eapply shows_fun; eassumption.
  - intros (Ra & Rc & -> & ->). destruct (season_span a b c e Ra Rc Hb He) as (sp & Hd & E & M). unfold season_rest. rewrite Hd. cbn [bind]. rewrite E. cbn [bind].
    eexists. split; [reflexivity|]. eapply months_result; [apply M|reflexivity..].
Qed.
Lemma season_code_rest t y n r a b c e : year4 t y -> 1 <= n <= 12 \/ 21 <= n <= 24 -> season_code n y = (a, b, c, e) ->
  ParseSeason (t ++ "-"%char :: two n ++ r) = season_rest (t ++ "-"%char :: two n ++ r) a b c e.
Proof.
  intros Hy Hn Hc. unfold ParseSeason. rewrite (season_submatch_code t y n r Hy Hn). change (negb (Nat.eqb (length _) 5)) with false. cbv iota zeta. unfold sub. cbn [nth].
  destruct (is_empty t) eqn:Et; [apply is_empty_spec in Et; destruct (year4_ne _ _ Hy Et)|].
  rewrite (atoi_year4 _ _ Hy), (atoi_two n) by lia. cbn [bind]. rewrite Hc. reflexivity.
Qed.
Lemma season_words_rest n w v sp sp' y b e j : season_of n w b e j -> any_case w v -> spaces sp -> spaces sp' -> 0 <= y <= 9999 ->
  ParseSeason (words_text v sp sp' y) = season_rest (words_text v sp sp' y) y b (y + j) e.
Proof.
  intros Hn Hv Hs Hs' Hy. assert (Hw : season_name v) by (unfold season_name; destruct Hn; auto).
  assert (Eu : to_upper v = map upper_byte w) by (apply to_upper_case; [exact Hv|destruct Hn; reflexivity]).
  assert (Ew : season_word v y = Some (y, b, y + j, e)).
  { unfold season_word. rewrite Eu. destruct Hn; rewrite ?Z.add_0_r; vm_compute (map upper_byte _); reflexivity. }
  unfold ParseSeason. rewrite (season_submatch_words v sp sp' y Hw Hs Hs' Hy). change (negb (Nat.eqb (length _) 5)) with false. cbv iota zeta. unfold sub. cbn [nth].
  change (is_empty []) with true. cbv iota. rewrite (atoi_four y) by lia. cbn [bind]. rewrite Ew. reflexivity.
Qed.
Lemma season_months_code n y b e j : season_months n b e j -> (1 <= n <= 12 \/ 21 <= n <= 24) /\ season_code n y = (y, b, y + j, e) /\ 1 <= b <= 12 /\ 1 <= e <= 12 /\ 0 <= j <= 1.
Proof.
  intros [k Hk|k w b' e' j' H].
  - split; [lia|]. split; [|lia]. unfold season_code. replace (k =? 21) with false by lia. replace (k =? 22) with false by lia.
    replace (k =? 23) with false by lia. replace (k =? 24) with false by lia. rewrite Z.add_0_r. reflexivity.
  - destruct H; rewrite ?Z.add_0_r; repeat split; lia.
Qed.
Lemma season_months_total n : 1 <= n <= 12 \/ 21 <= n <= 24 -> exists b e j, season_months n b e j.
Proof.
  intros [H|H]; [exists n, n, 0; constructor; exact H|].
  assert (C : n = 21 \/ n = 22 \/ n = 23 \/ n = 24) by lia. destruct C as [->|[->|[->| ->]]]; do 3 eexists; eapply sm_season; constructor.
Qed.
Lemma comma_words s : level1_text s -> In ","%char s -> season_words s.
Proof.
  intros H C. assert (N : forall b, b = true -> b = false -> False) by congruence.
  destruct H as [H|H].
  - unfold level1_form in H. destruct H as [H|[H|[H|[H|[H|[H|[H|H]]]]]]]; [|  |exact H| | | | |]; exfalso.
    + apply LetterYear_spec in H. apply (N _ H). no_byte ","%char. exact C.
    + destruct H as (t & w & (y & Hy) & (d & x & Hd & (n & Hn & ->) & ->) & ->). unfold is in Hd. subst d.
      apply in_app_or in C. destruct C as [C|[C|C]]; [destruct (year4_bytes _ _ _ Hy C); discriminate|discriminate|].
      apply in_two in C; [discriminate|lia].
    + apply QualifiedDate_spec in H. apply (N _ H). no_byte ","%char. exact C.
    + apply UnspecifiedDigits_spec in H. apply (N _ H). no_byte ","%char. exact C.
    + apply IntervalStart_spec in H. apply (N _ H). no_byte ","%char. exact C.
    + apply IntervalEnd_spec in H. apply (N _ H). no_byte ","%char. exact C.
    + apply NegativeYear_spec in H. apply (N _ H). no_byte ","%char. exact C.
  - exfalso. apply UnspecifiedDigits_spec in H. apply (N _ H). no_byte ","%char. apply in_upx; [discriminate|discriminate|exact C].
Qed.
Lemma season_name_of v : season_name v -> exists n w b e j, season_of n w b e j /\ any_case w v.
Proof. intros [H|[H|[H|H]]]; do 5 eexists; (split; [constructor|exact H]). Qed.
Theorem season_bridge s lo hi : level1_text s -> season_like s ->
  (season_reads s lo hi <-> exists e, ParseSeason s = OK e /\ result e 1 SEASON lo hi).
Proof.
  intros H1 Hl. split.
  - intros [t y n r b e j Hy Hn Ra Rc|n w v sp sp' y b e j Hn Hv Hs Hs' Hy Hj].
    + destruct (season_months_code n y b e j Hn) as (Bn & E & Bb & Be & Bj). change ($"-" ++ two n ++ r) with ("-"%char :: two n ++ r).
      rewrite (season_code_rest t y n r _ _ _ _ Hy Bn E). pose proof (rendered_range _ Ra). pose proof (rendered_range _ Rc).
      apply season_rest_reads; [lia..|]. auto.
    + change (v ++ sp ++ $"," ++ sp' ++ four y) with (words_text v sp sp' y).
      assert (B : 1 <= b <= 12 /\ 1 <= e <= 12 /\ 0 <= j) by (destruct Hn; lia).
      rewrite (season_words_rest n w v sp sp' y b e j Hn Hv Hs Hs') by lia. apply season_rest_reads; [lia..|]. unfold rendered. repeat split; lia.
  - intros H. destruct Hl as [Hl|(u & x & _ & Hx & E)].
    + apply season_head_iff in Hl. destruct Hl as (t & y & n & r & Hy & Hn & ->).
      destruct (season_months_total n Hn) as (b & e & j & Hm). destruct (season_months_code n y b e j Hm) as (_ & E & Bb & Be & Bj).
      rewrite (season_code_rest t y n r _ _ _ _ Hy Hn E) in H. assert (By : -9999 <= y <= 9999) by (destruct Hy; lia).
      apply season_rest_reads in H; [|lia..]. destruct H as (Ra & Rc & -> & ->). exact (sn_code t y n r b e j Hy Hm Ra Rc).
    + assert (W : season_words s) by (apply comma_words; [exact H1|rewrite E; apply in_or_app; right; apply words_comma; exact Hx]).
      clear u x Hx E. destruct W as (v & r & Hv & (sp & r' & Hs & (c & r'' & Hc & (sp' & f & Hs' & Hf & ->) & ->) & ->) & ->).
      unfold is in Hc. subst c. destruct Hf as (Lf & Ff). destruct f as [|a [|b [|c [|d [|? ?]]]]]; try discriminate.
      apply Forall_cons_iff in Ff. destruct Ff as (Da & Ff). apply Forall_cons_iff in Ff. destruct Ff as (Db & Ff). apply Forall_cons_iff in Ff. destruct Ff as (Dc & Ff).
      apply Forall_cons_iff in Ff. destruct Ff as (Dd & _). destruct (StrFacts.four_of a b c d Da Db Dc Dd) as (y & Hy & Ey). rewrite Ey in H |- *. clear Ey.
      destruct (season_name_of v Hv) as (n & w & b' & e & j & Hn & Hw). assert (B : 1 <= b' <= 12 /\ 1 <= e <= 12 /\ 0 <= j <= 1) by (destruct Hn; lia).
      change (v ++ sp ++ $"," ++ sp' ++ four y) with (words_text v sp sp' y) in *.
      rewrite (season_words_rest n w v sp sp' y b' e j Hn Hw Hs Hs') in H by lia. apply season_rest_reads in H; [|lia..].
      destruct H as (Ra & Rc & -> & ->). apply (sn_words n w v sp sp' y b' e j); try assumption; try lia. unfold rendered in Rc. lia.
Qed.
