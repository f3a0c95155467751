(** The whole result of every feature. *)
From Coq Require Import Ascii String ZArith NArith Bool Lia ZifyBool List.
From Verif Require Import GoStr GoTime Regex Patterns RegexSym RegexRel RegexGen SpecCal SpecText SpecZone SpecGrammar SpecForms SpecSpan SpecSet SpecWrap SpecReads SpecWhole StrFacts TextFacts Edtf Calendar Common Level0 Level1 Level2 Parser CalFacts ApiFacts SpanFacts YmdShapes YmdFacts InvFacts GrammarFacts SetFacts SetGrammar LangFacts LangNorm LangForms LangForms2 DateFacts ParseFacts SplitFacts Level0Facts TimeFacts DateTimeFacts Level0Proofs FormFacts SeasonFacts Level1Proofs XProofs FormProofs SigProofs ExpProofs ExpWrap GroupingProofs SetProofs InvProofs ReadsFacts ReadsStamp ReadsSeason ReadsYears ReadsSet ReadsProofs WholeFacts.
Import ListNotations.
Open Scope Z_scope.
Ltac Zify.zify_post_hook ::= Z.div_mod_to_equations.

Definition via (t s : str) (lv : Z) (f : str) : res edtfdate := let* sp := DateSpanFromEDTF t in OK (edtf_of_span sp s lv f).
Lemma via_ok t s lv f sp : whole_span t sp -> via t s lv f = OK (mkEDTF (s_start sp) (s_end sp) s lv f).
Proof. intro H. apply whole_span_iff in H. unfold via. rewrite H. reflexivity. Qed.

(** ** Letter years *)
Lemma letter_via t y : year4 t y -> ParseString ($"Y" ++ t) = via t ($"Y" ++ t) 1 ($"Letter-prefixed calendar year").
Proof.
  intro Hy. change ($"Y" ++ t) with ("Y"%char :: t). rewrite to_letter by exact (year4_text' _ _ Hy).
  unfold ParseLetterPrefixedCalendarYear. rewrite letter_submatch by exact (year4_text' _ _ Hy). cbn [length Nat.eqb negb]. cbv zeta. unfold sub. cbn [nth].
  assert (L : Nat.ltb (if has_prefix t ($"-") then 5 else 4) (length t) = false).
  { destruct Hy as [n Hn|n Hn]; [|reflexivity]. replace (has_prefix (four n) ($"-")) with false; [reflexivity|]. symmetry.
    apply not_true_iff_false. intro E. apply has_prefix_spec in E. destruct E as (r & E). injection E as E _.
    apply digit_not_minus in E; [destruct E|lia]. }
  rewrite L. reflexivity.
Qed.

(** ** Seasons *)
Lemma season_via s y b c e : rendered y -> rendered c -> 1 <= b <= 12 -> 1 <= e <= 12 ->
  season_rest s y b c e = via (day_text y b 1 ++ $"/" ++ day_text c e (month_len c e)) s 1 SEASON.
Proof.
  intros Ry Rc Hb He. unfold season_rest, via. pose proof (rendered_range _ Rc). rewrite DaysInMonth_ok by lia. cbn [bind].
  pose proof (month_len_range c e). rewrite season_text_eq by (assumption || lia). reflexivity.
Qed.
Lemma code_via t y n r b e j : year4 t y -> season_months n b e j -> rendered y -> rendered (y + j) ->
  ParseSeason (t ++ $"-" ++ two n ++ r) = via (day_text y b 1 ++ $"/" ++ day_text (y + j) e (month_len (y + j) e)) (t ++ $"-" ++ two n ++ r) 1 SEASON.
Proof.
  intros Hy Hn Ra Rc. destruct (season_months_code n y b e j Hn) as (Bn & E & Bb & Be & Bj). change ($"-" ++ two n ++ r) with ("-"%char :: two n ++ r).
  rewrite (season_code_rest t y n r _ _ _ _ Hy Bn E). apply season_via; assumption.
Qed.
Lemma words_via n w v gap gap' y b e j : season_of n w b e j -> any_case w v -> spaces gap -> spaces gap' -> 0 <= y -> y + j <= 9999 ->
  ParseSeason (v ++ gap ++ $"," ++ gap' ++ four y) = via (day_text y b 1 ++ $"/" ++ day_text (y + j) e (month_len (y + j) e)) (v ++ gap ++ $"," ++ gap' ++ four y) 1 SEASON.
Proof.
  intros Hn Hv Hs Hs' Hy Hj. change (v ++ gap ++ $"," ++ gap' ++ four y) with (words_text v gap gap' y).
  assert (B : 1 <= b <= 12 /\ 1 <= e <= 12 /\ 0 <= j) by (destruct Hn; lia).
  rewrite (season_words_rest n w v gap gap' y b e j Hn Hv Hs Hs') by lia. apply season_via; unfold rendered; lia.
Qed.

(** ** Exponential years *)
Lemma itoa_text y : 1000 <= Z.abs y <= 9999 -> itoa y = year_text y.
Proof.
  intro H. unfold year_text. destruct (y <? 0) eqn:E; [|apply itoa_four; lia]. replace y with (- - y) at 1 by lia. rewrite itoa_neg, itoa_four by lia. reflexivity.
Qed.
Lemma exp_via a t m e y : a = "Y"%char \/ a = "y"%char -> exp_text t m e -> wraps (m * 10 ^ e) y -> 1000 <= Z.abs y <= 9999 ->
  ParseString (a :: t) = via (year_text y) (a :: t) 2 EXPONENTIAL_YEAR.
Proof. intros Ha Ht W Hy. rewrite (wrap_year a t m e y Ha Ht W Hy), itoa_text by exact Hy. reflexivity. Qed.

(** ** Significant digits *)
Lemma sig_via s y nd v l h : dec_digits nd v -> significant_texts y v l h -> sig_rest s y nd = via (l ++ $"/" ++ h) s 2 SIGNIFICANT_DIGITS.
Proof.
  intros Hn H. pose proof (dec_nonneg _ _ Hn) as Hv0. unfold sig_rest, MAX_YEARS.
  assert (Q : -9999 <= y <= 9999 /\ v <= 4) by (destruct H; lia). destruct Q as (By & Bv).
  replace (9999 <? y) with false by lia. rewrite (atoi_dec _ _ Hn). unfold max_int64. replace (v <=? _) with true by lia. cbn [or_invalid bind].
  rewrite (itoa_len_small v) by lia.
  destruct H as [y v Hy Hv|y v Hy Hv|y Hy].
  - rewrite (itoa_four y) by exact Hy. change (slen (four y)) with 4. replace (4 <? 1) with false by reflexivity. replace ((4 <? v) || (v <? 0)) with false by lia.
    rewrite sig_text_pos by lia. reflexivity.
  - rewrite itoa_neg, (itoa_four y) by lia. change (slen ("-"%char :: four y)) with 5. replace (5 <? 1) with false by reflexivity. replace ((5 <? v) || (v <? 0)) with false by lia.
    rewrite sig_text_neg by lia. reflexivity.
  - rewrite sig_text_short by exact Hy. rewrite itoa_neg by lia. pose proof (itoa_len y ltac:(lia)) as L. replace (y <? 10) with false in L by lia. replace (y <? 100) with false in L by lia.
    replace (y <? 1000) with true in L by lia. unfold slen in *. cbn [length]. replace (Z.of_nat (S (length (itoa y)))) with 4 by lia. change (4 <? 1) with false. change ((4 <? 4) || (4 <? 0)) with false. cbv iota.
    reflexivity.
Qed.

(** ** Groupings *)
Lemma grouping_via n b e y : grouping_of n b e 0 -> 0 <= y <= 9999 ->
  ParseString (four y ++ $"-" ++ two n) = via (day_text y b 1 ++ $"/" ++ day_text y e (month_len y e)) (four y ++ $"-" ++ two n) 2 SUB_YEAR_GROUPINGS.
Proof.
  intros Hg Hy. destruct (code_range _ _ _ _ Hg) as (Hn & Hb & He & Hj01). change ($"-" ++ two n) with ("-"%char :: two n). fold (code_text y n).
  rewrite to_grouping by assumption. unfold ParseSubYearGroupings. rewrite grouping_submatch by (assumption || lia). cbn [length Nat.eqb negb]. cbv zeta. unfold sub. cbn [nth].
  destruct (table n b e 0 y Hg) as (dd & -> & Hdd). change (0 =? 0) with true in *. cbn [negb bind]. subst dd. replace (is_empty (two (month_len y e))) with false by reflexivity.
  replace (four y ++ $"-" ++ two b ++ $"-" ++ $"01") with (day_text y b 1) by (unfold day_text; rewrite text_four by exact Hy; reflexivity).
  replace ((four y ++ $"-" ++ two e) ++ $"-" ++ two (month_len y e)) with (day_text y e (month_len y e)) by (unfold day_text; rewrite text_four by exact Hy; rewrite <- !app_assoc; reflexivity).
  reflexivity.
Qed.
Lemma grouping_next_via n b e y : grouping_of n b e 1 -> 999 <= y <= 9998 ->
  ParseString (four y ++ $"-" ++ two n) = via (day_text y b 1 ++ $"/" ++ month_text (y + 1) e) (four y ++ $"-" ++ two n) 2 SUB_YEAR_GROUPINGS.
Proof.
  intros Hg Hy. assert (Hy' : 0 <= y <= 9999) by lia. destruct (code_range _ _ _ _ Hg) as (Hn & Hb & He & Hj01). change ($"-" ++ two n) with ("-"%char :: two n). fold (code_text y n).
  rewrite to_grouping by assumption. unfold ParseSubYearGroupings. rewrite grouping_submatch by (assumption || lia). cbn [length Nat.eqb negb]. cbv zeta. unfold sub. cbn [nth].
  destruct (table n b e 1 y Hg) as (dd & -> & Hdd). change (1 =? 0) with false in *. cbn [negb bind]. subst dd.
  rewrite atoi_year4 with (y := y) by (apply four_year4; exact Hy'). cbn [bind is_empty]. rewrite itoa_four by lia.
  replace (four y ++ $"-" ++ two b ++ $"-" ++ $"01") with (day_text y b 1) by (unfold day_text; rewrite text_four by exact Hy'; reflexivity).
  replace (four (y + 1) ++ $"-" ++ two e) with (month_text (y + 1) e) by (unfold month_text; rewrite text_four by lia; reflexivity).
  reflexivity.
Qed.

(** ** Sets *)
Lemma two_length ds hd tl : sort_strs ds = hd :: tl -> (1 <? Z.of_nat (length ds)) = two_or_more tl.
Proof. intro E. rewrite <- (Permutation.Permutation_length (sort_perm ds)), E. destruct tl as [|x tl]; [reflexivity|]. cbn [length two_or_more]. lia. Qed.
Lemma dots_pair t lo hi : side t lo hi -> whole_span ($"../" ++ t) (mkSpan (mkRange ($"..") dots_bound dots_bound) (mkRange t lo hi)) /\
  whole_span (t ++ $"/..") (mkSpan (mkRange t lo hi) (mkRange ($"..") dots_bound dots_bound)).
Proof. intro H. split; [exact (ws_pair ($"..") t _ _ _ _ sd_dots H)|exact (ws_pair t ($"..") _ _ _ _ H sd_dots)]. Qed.
Lemma set_whole_text i so eo hd tl sp : set_whole i hd (last tl hd) (two_or_more tl) so eo sp ->
  exists sp0, whole_span (set_text so eo hd tl) sp0 /\ sp = set_span i so eo (two_or_more tl) sp0.
Proof.
  intro H. remember (two_or_more tl) as multi eqn:Em. remember (last tl hd) as b eqn:Eb. unfold set_text. rewrite <- Eb, <- Em.
  destruct H as [multi sp -> H|multi lo x x' hi N Ha Hb|lo hi Ha|lo hi Ha|lo x x' hi Ha Hb|lo x x' hi Ha Hb|lo x x' hi Ha Hb]; cbn [andb orb].
  - rewrite seqb_refl. exists sp. split; [apply ws_date; exact H|reflexivity].
  - rewrite (proj2 (seqb_neq _ _) N). eexists. split; [exact (ws_pair _ _ _ _ _ _ Ha Hb)|reflexivity].
  - eexists. split; [exact (proj1 (dots_pair _ _ _ Ha))|reflexivity].
  - eexists. split; [exact (proj2 (dots_pair _ _ _ Ha))|reflexivity].
  - eexists. split; [exact (ws_pair _ _ _ _ _ _ Ha Hb)|reflexivity].
  - eexists. split; [exact (ws_pair _ _ _ _ _ _ Ha Hb)|reflexivity].
  - eexists. split; [exact (ws_pair _ _ _ _ _ _ Ha Hb)|reflexivity].
Qed.
Lemma counts_opener o i : counts o i -> opener o i.
Proof. unfold opener. intros [|]; [left|right]; split; reflexivity. Qed.
Lemma set_whole_parse s o i l ds so eo c a b sp : is_set s -> s = o :: joined ($",") l ++ [c] -> counts o i -> l <> [] -> set_pieces l ds so eo -> least ds a -> greatest ds b ->
  set_whole i a b (1 <? Z.of_nat (length ds)) so eo sp -> ParseSetRepresentations s = OK (mkEDTF (s_start sp) (s_end sp) s 2 ($"Set representation")).
Proof.
  intros (o' & body & Hset) E0 Hi Nl Hp Ha Hb Hw.
  assert (Q : o' = o /\ body = joined ($",") l).
  { clear - Hset E0. destruct Hset as [o' b c' _ _ _]. injection E0 as -> E0. apply app_inj_tail in E0. split; [reflexivity|apply E0]. }
  destruct Q as (-> & Eb). destruct (set_core s o body i l ds so eo Hset (counts_opener _ _ Hi) Nl Hp Eb) as (hd & tl & Es & Ep & _).
  apply (sort_least _ _ _ Es) in Ha. apply (sort_greatest _ _ _ Es) in Hb. subst a b. rewrite (two_length _ _ _ Es) in Hw.
  destruct (set_whole_text _ _ _ _ _ _ Hw) as (sp0 & H0 & ->). apply whole_span_iff in H0. rewrite Ep, H0. reflexivity.
Qed.

(** ** What [whole_reads] gives is what is parsed *)
Lemma stamp_whole s t b : stamp_reads s t -> stamp_bound t b -> ParseString s = OK (mkEDTF (mkRange [] b b) (mkRange [] b b) s 0 ($"Date and Time")).
Proof.
  intros H [y m d hh mi ss Hy Hr Hc Et].
  assert (P : ParseString s = OK (stamp_date s t)).
  { destruct H as [y0 m0 d0 hh0 mi0 ss0 z off Hy0 Hr0 Hc0 Hz|y0 m0 d0 hh0 mi0 ss0 z off y' m' d' hh' mi' ss' Hy0 Hr0 Hc0 Hz Hr' Hc' E].
    - exact (stamp_ok false _ _ _ _ _ _ _ _ Hy0 Hr0 Hc0 Hz).
    - pose proof (stamp_ok true _ _ _ _ _ _ _ _ Hy0 Hr0 Hc0 Hz) as P. cbv zeta in P. rewrite E, TimeToBCE_instant in P by assumption. exact P. }
  rewrite P. unfold stamp_date, SetTime. rewrite Et, format_wide by assumption. reflexivity.
Qed.
Ltac not_span := exfalso; match goal with H : In _ span_features |- _ => cbn [In span_features] in H; repeat (destruct H as [H|H]; [discriminate H|]); exact H end.
Ltac only_route M := inversion M; subst; try not_span; clear M.
Theorem whole_parse s lv f sp : takes s lv f -> whole_reads f s sp -> ParseString s = OK (mkEDTF (s_start sp) (s_end sp) s lv f).
Proof.
  intros T H. pose proof T as M. apply matches_takes in M. apply named_routed in M.
  destruct H as [f s sp Hf H|s t b H Hb|t y sp Hy H|t y n r b e j sp Hy Hn Ra Rc H|n w v gap gap' y b e j sp Hn Hv Hs Hs' Hy Hj H|a t m e y sp Ha Ht W Hm H|u y nd v l h sp Hu Hn Hy H|y n b e sp Hg Hy H|y n b e sp Hg Hy H|o i l ds so eo c a b sp Hi Nl Hp Ha Hb H].
  - destruct M as [lv f _ E|I E|I E|I E|I E|I E|I E|I E]; [|not_span..]. rewrite E. exact (via_ok s s lv f sp H).
  - only_route M. cbn [s_start s_end]. exact (stamp_whole s t b H Hb).
  - only_route M. rewrite (letter_via t y Hy). apply via_ok. exact H.
  - only_route M. match goal with E : ParseString _ = _ |- _ => rewrite E end. rewrite (code_via t y n r b e j Hy Hn Ra Rc). apply via_ok. exact H.
  - only_route M. match goal with E : ParseString _ = _ |- _ => rewrite E end. rewrite (words_via n w v gap gap' y b e j Hn Hv Hs Hs' Hy Hj). apply via_ok. exact H.
  - only_route M. rewrite (exp_via a t m e y Ha Ht W Hm). apply via_ok. exact H.
  - only_route M. change ($"S" ++ nd) with ("S"%char :: nd) in *. rewrite (before_year_parse u y nd v Hu Hn), (sig_via _ y nd v l h Hn Hy). apply via_ok. exact H.
  - only_route M. rewrite (grouping_via n b e y Hg Hy). apply via_ok. exact H.
  - only_route M. rewrite (grouping_next_via n b e y Hg Hy). apply via_ok. exact H.
  - only_route M. match goal with E : ParseString _ = _ |- _ => rewrite E end.
    match goal with E : IsSetRepresentation _ = true |- _ => apply set_test in E; exact (set_whole_parse _ o i l ds so eo c a b sp E eq_refl Hi Nl Hp Ha Hb H) end.
Qed.

(** ** Every reading has its span *)
Lemma span_total s lo hi : span_reads s lo hi -> exists sp, whole_span s sp.
Proof. intro H. apply span_bridge in H. destruct H as (sp & E & _). exists sp. apply whole_span_iff. exact E. Qed.
Lemma half_total t lo hi : half_reads t lo hi -> exists b b', side t b b'.
Proof. intro H. apply half_bridge in H. destruct H as (b & b' & E & _). exists b, b'. apply side_iff. exact E. Qed.
Lemma date_total t lo hi : half_reads t lo hi -> t <> [] -> t <> $".." -> exists sp, date_span t sp.
Proof.
  intros H N1 N2. apply whole_half in H; [|assumption..]. apply whole_bridge in H. destruct H as (sp & E & _). exists sp. apply date_span_iff. exact E.
Qed.
Lemma pair_total a b lo x x' hi : half_reads a lo x -> half_reads b x' hi -> exists sp, whole_span (a ++ $"/" ++ b) sp.
Proof. intros Ha Hb. exact (span_total _ _ _ (sr_pair _ _ _ _ _ _ Ha Hb)). Qed.
Lemma days_total y b c e : -9999 <= y <= 9999 -> -9999 <= c <= 9999 -> 1 <= b <= 12 -> 1 <= e <= 12 ->
  exists sp, whole_span (day_text y b 1 ++ $"/" ++ day_text c e (month_len c e)) sp.
Proof.
  intros Hy Hc Hb He. pose proof (month_len_range y b). pose proof (month_len_range c e).
  eapply pair_total; apply day_half; try assumption; (split; lia).
Qed.
Lemma year_half t y : year4 t y -> half_reads t (from_day y 1 1) (to_day y 12 31).
Proof.
  intro H. apply hr_date. refine (wd_intro _ _ _ _ _ _ _ (dt_y _ _ _ _ (mk_none _) (yr_number _ _ H)) _ _).
  - pose proof (month_len_range y 1). split; lia.
  - split; [lia|]. change (month_len y 12) with 31. lia.
Qed.
Lemma month_half y m : 0 <= y <= 9999 -> 1 <= m <= 12 -> half_reads (month_text y m) (from_day y m 1) (to_day y m (month_len y m)).
Proof.
  intros Hy Hm. apply hr_date. pose proof (month_len_range y m). unfold month_text. refine (wd_intro _ _ _ _ _ _ _ (dt_ym _ _ _ _ _ _ _ _ (mk_none _) (yr_number _ _ _) (mk_none _) (mr_number _ Hm)) _ _).
  - apply year4_text. lia.
  - split; lia.
  - split; lia.
Qed.
Lemma year_total t y : year4 t y -> exists sp, whole_span t sp.
Proof.
  intro H. apply (span_total t (from_day y 1 1) (to_day y 12 31)). apply sr_date. apply whole_half; [destruct H; discriminate|destruct H; [|discriminate]|exact (year_half _ _ H)].
  intro E. discriminate E.
Qed.
Lemma significant_total y v l h : significant_years y v l h -> exists l' h' sp, significant_texts y v l' h' /\ whole_span (l' ++ $"/" ++ h') sp.
Proof.
  intros [y0 v0 Hy Hv|y0 v0 Hy Hv|y0 Hy].
  - destruct (prefix_zero y0 v0 ltac:(lia) ltac:(lia)) as (Hz & _). destruct (prefix_nine y0 v0 ltac:(lia) ltac:(lia)) as (H9 & _).
    destruct (pair_total _ _ _ _ _ _ (year_half _ _ (year4_pos _ Hz)) (year_half _ _ (year4_pos _ H9))) as (sp & H). do 3 eexists. split; [apply st_pos; assumption|exact H].
  - destruct (prefix_zero y0 v0 ltac:(lia) ltac:(lia)) as (Hz & _). destruct (prefix_nine y0 v0 ltac:(lia) ltac:(lia)) as (H9 & _).
    destruct (pair_total _ _ _ _ _ _ (year_half _ _ (year4_neg _ H9)) (year_half _ _ (year4_neg _ Hz))) as (sp & H). do 3 eexists. split; [apply st_neg; assumption|exact H].
  - destruct (pair_total _ _ _ _ _ _ (year_half ($"0000") _ (year4_pos 0 ltac:(lia))) (year_half ($"9999") _ (year4_pos 9999 ltac:(lia)))) as (sp & H).
    do 3 eexists. split; [apply st_short; assumption|exact H].
Qed.
Lemma set_total i a b multi so eo lo x x' hi : (so = true -> eo = true -> multi = true) -> (multi = false -> a = b) -> a <> $".." -> b <> [] ->
  half_reads a lo x -> half_reads b x' hi -> exists sp, set_whole i a b multi so eo sp.
Proof.
  intros B M N1 N2 Ha Hb. destruct (half_total _ _ _ Ha) as (la & ha & Sa). destruct (half_total _ _ _ Hb) as (lb & hb & Sb).
  destruct so, eo.
  - rewrite (B eq_refl eq_refl). eexists. exact (sw_both _ _ _ _ _ _ _ Sa Sb).
  - destruct multi; eexists; [exact (sw_upto_more _ _ _ _ _ _ _ Sa Sb)|exact (sw_upto _ _ _ _ _ Sa)].
  - destruct multi; eexists; [exact (sw_from_more _ _ _ _ _ _ _ Sa Sb)|exact (sw_from _ _ _ _ _ Sa)].
  - destruct (seqb a b) eqn:E.
    + apply seqb_eq in E. subst b. destruct (date_total _ _ _ Ha N2 N1) as (sp & H). eexists. exact (sw_same _ _ _ _ _ eq_refl H).
    + apply seqb_neq in E. eexists. exact (sw_closed _ _ _ _ _ _ _ _ E Sa Sb).
Qed.
Theorem whole_total s lv f lo hi : takes s lv f -> reads_as f s lo hi -> exists sp, whole_reads f s sp.
Proof.
  intros T H. pose proof T as M. apply matches_takes in M. pose proof M as M0. apply named_routed in M.
  destruct H as [f s lo hi Hf H|s t H|s lo hi H|s lo hi H|s lo hi H|s lo hi H|s lo hi H|s lo hi H].
  - destruct (span_total _ _ _ H) as (sp & Q). exists sp. apply wr_span; assumption.
  - destruct (proj1 (stamp_bridge s (At t) (At t) ltac:(only_route M; apply DateAndTime_spec; assumption))) as (e & E & _ & _ & L & _); [eauto|].
    destruct (bounds_agree s e E (r_lower (e_start e)) t) as (y & m & d & hh & mi & ss & Hr & Hc & Hy & Et & _); [left; reflexivity|apply L|].
    eexists. exact (wr_stamp s t _ H (sb_intro t y m d hh mi ss Hy Hr Hc Et)).
  - destruct H as [t y lo hi Hy _]. destruct (year_total _ _ Hy) as (sp & Q).
    exists sp. exact (wr_letter t y sp Hy Q).
  - destruct H as [t y n r b e j Hy Hn Ra Rc|n w v gap gap' y b e j Hn Hv Hs Hs' Hy Hj].
    + destruct (season_months_code n y b e j Hn) as (_ & _ & Bb & Be & _). pose proof (rendered_range _ Ra). pose proof (rendered_range _ Rc).
      destruct (days_total y b (y + j) e ltac:(lia) ltac:(lia) Bb Be) as (sp & Q). exists sp. exact (wr_season t y n r b e j sp Hy Hn Ra Rc Q).
    + assert (B : 1 <= b <= 12 /\ 1 <= e <= 12 /\ 0 <= j) by (destruct Hn; lia).
      destruct (days_total y b (y + j) e ltac:(lia) ltac:(lia) ltac:(lia) ltac:(lia)) as (sp & Q). exists sp. exact (wr_words n w v gap gap' y b e j sp Hn Hv Hs Hs' Hy Hj Q).
  - destruct H as [a t m e y lo hi Ha Ht W Hm _]. pose proof (year4_text y ltac:(lia)) as Y.
    destruct (year_total _ _ Y) as (sp & Q).
    exists sp. exact (wr_exponential a t m e y sp Ha Ht W Hm Q).
  - destruct H as [u y nd v l h lo hi Hu Hn Hy _]. destruct (significant_total _ _ _ _ Hy) as (l' & h' & sp & Hs & Q). exists sp. exact (wr_significant u y nd v l' h' sp Hu Hn Hs Q).
  - destruct H as [y n b e j Hg Hy Hj]. destruct (code_range _ _ _ _ Hg) as (Hn & Hb & He & Bj). assert (Cj : j = 0 \/ j = 1) by lia. destruct Cj as [->| ->].
    + destruct (days_total y b y e ltac:(lia) ltac:(lia) Hb He) as (sp & Q). exists sp. exact (wr_grouping y n b e sp Hg Hy Q).
    + assert (Hy' : 999 <= y <= 9998) by lia. pose proof (month_len_range y b).
      destruct (pair_total _ _ _ _ _ _ (day_half y b 1 ltac:(lia) ltac:(split; lia)) (month_half (y + 1) e ltac:(lia) He)) as (sp & Q).
      exists sp. exact (wr_grouping_next y n b e sp Hg Hy' Q).
  - assert (I : is_set s) by (only_route M; apply set_test; assumption). destruct I as (o' & body & Hset).
    remember s as s0 eqn:E0. destruct H as [o l ds so eo c a b lo x x' hi Nl Hp Ha Hb Ra Rb].
    assert (Q : o' = o /\ body = joined ($",") l).
    { clear - Hset. remember (o :: joined ($",") l ++ [c]) as s1 eqn:E1. destruct Hset as [o' b' c' _ _ _]. injection E1 as -> E1. apply app_inj_tail in E1. split; [reflexivity|apply E1]. }
    destruct Q as (-> & Eb).
    assert (Ci : exists i, counts o i) by (destruct (opener_of _ _ _ Hset) as (i & [(-> & _)|(-> & _)]); eexists; constructor). destruct Ci as (i & Ci).
    destruct (set_core _ o body i l ds so eo Hset (counts_opener _ _ Ci) Nl Hp Eb) as (hd & tl & Es & _ & _ & _ & N1 & _ & B & N2).
    pose proof Ha as Ea. pose proof Hb as Eb'. apply (sort_least _ _ _ Es) in Ea. apply (sort_greatest _ _ _ Es) in Eb'. subst a b.
    destruct (set_total i hd (last tl hd) (1 <? Z.of_nat (length ds)) so eo lo x x' hi) as (sp & W); [rewrite (two_length _ _ _ Es); exact B| |exact N1|exact N2|exact Ra|exact Rb|].
    { rewrite (two_length _ _ _ Es). destruct tl; [reflexivity|discriminate]. }
    exists sp. exact (wr_set o i l ds so eo c hd (last tl hd) sp Ci Nl Hp Ha Hb W).
Qed.
Theorem whole_meaning s lv f : takes s lv f ->
  forall e, ParseString s = OK e <-> exists sp, whole_reads f s sp /\ e = mkEDTF (s_start sp) (s_end sp) s lv f.
Proof.
  intros T e. split; [|intros (sp & H & ->); apply whole_parse; assumption]. intro E.
  destruct (bound_shows s e (r_lower (e_start e)) E) as (lo & L); [left; reflexivity|].
  destruct (bound_shows s e (r_upper (e_end e)) E) as (hi & U); [cbn; auto|].
  assert (N : (s <> $".." /\ s <> []) ).
  { apply matches_takes in T. split; intros ->; vm_compute in T; discriminate. }
  destruct N as (N1 & N2). destruct (parse_class s e E) as (_ & _ & M & _). specialize (M N1 N2). pose proof (proj2 (matches_takes s lv f) T) as M'. rewrite M' in M. injection M as Hl Hf.
  destruct (whole_total s lv f lo hi T) as (sp & W).
  { apply (meaning s lv f T). exists e. split; [exact E|]. repeat split; congruence || assumption. }
  exists sp. split; [exact W|]. pose proof (whole_parse s lv f sp T W) as E'. rewrite E in E'. injection E' as E'. exact E'.
Qed.
Theorem whole_unique s lv f sp sp' : takes s lv f -> whole_reads f s sp -> whole_reads f s sp' -> sp = sp'.
Proof.
  intros T H H'. apply (whole_parse s lv f sp T) in H. apply (whole_parse s lv f sp' T) in H'. rewrite H in H'. injection H' as E1 E2.
  destruct sp as [a b], sp' as [a' b']. cbn [s_start s_end] in *. congruence.
Qed.
Theorem whole_strings s e : ParseString s = OK e ->
  s = $".." /\ e = mkEDTF (mkRange [] dots_bound dots_bound) (mkRange [] dots_bound dots_bound) s (-1) ($"Open") \/
  s = [] /\ e = mkEDTF (mkRange [] blank_bound blank_bound) (mkRange [] blank_bound blank_bound) s (-1) ($"Unknown") \/
  exists lv f sp, takes s lv f /\ whole_reads f s sp /\ e = mkEDTF (s_start sp) (s_end sp) s lv f.
Proof.
  intros H. destruct (read_strings s e H) as [(-> & _)|[(-> & _)|(lv & f & lo & hi & T & _ & _)]].
  - left. split; [reflexivity|]. vm_compute in H. injection H as <-. vm_compute. reflexivity.
  - right. left. split; [reflexivity|]. vm_compute in H. injection H as <-. vm_compute. reflexivity.
  - right. right. apply (whole_meaning s lv f T) in H. destruct H as (sp & W & E). exists lv, f, sp. auto.
Qed.
(** Exponential years of any size. *)
Theorem exponential_whole a t m e d : a = "Y"%char \/ a = "y"%char -> exp_text t m e ->
  (ParseString (a :: t) = OK d <-> exists y, wraps (m * 10 ^ e) y /\ 1000 <= Z.abs y <= 9999 /\
     d = mkEDTF (mkRange (year_text y) (dawn y 1 1 0 0 64) (dusk y 1 1 0 0 64)) (mkRange (year_text y) (dawn y 12 31 0 0 64) (dusk y 12 31 0 0 64)) (a :: t) 2 ($"Exponential year")).
Proof.
  intros Ha Ht.
  assert (Sp : forall y, 1000 <= Z.abs y <= 9999 -> whole_span (year_text y)
    (mkSpan (mkRange (year_text y) (dawn y 1 1 0 0 64) (dusk y 1 1 0 0 64)) (mkRange (year_text y) (dawn y 12 31 0 0 64) (dusk y 12 31 0 0 64)))).
  { intros y Hy. apply ws_date. assert (R : real_date y 1 1 /\ real_date y 12 31) by (unfold real_date; pose proof (month_len_range y 1); change (month_len y 12) with 31; lia).
    apply ds_more; [|apply R|apply R|congruence].
    pose proof (dw_y (year_text y) (year_text y) NoMark y y (ms_none _) (yr_number _ _ (year4_text y ltac:(lia)))) as D.
    replace (year_precision (year_text y)) with 64%N in D; [exact D|]. symmetry. unfold year_text. destruct (y <? 0); [reflexivity|]. unfold four, year_precision, is_x.
    assert (X : Ascii.eqb (digit_char (y mod 10)) "X" = false) by (apply Ascii.eqb_neq; intro E; assert (Q : is_digit (digit_char (y mod 10)) = true) by (apply is_digit_char; lia); rewrite E in Q; discriminate Q).
    rewrite X. reflexivity. }
  split.
  - intro E. pose proof E as E0. rewrite (exp_parse a t Ha) in E0 by (apply exp_text_form; eauto). apply bind_OK in E0. destruct E0 as (y & Hy & E0).
    assert (B : 1000 <= Z.abs y).
    { destruct (Z_lt_dec (Z.abs y) 1000) as [L|L]; [|lia]. exfalso. destruct (itoa_short y L) as (err & E'). rewrite E' in E0. discriminate. }
    apply (notation_year t m e y Ht ltac:(lia)) in Hy. destruct Hy as (W & Hy). exists y. split; [exact W|]. split; [lia|].
    rewrite (exp_via a t m e y Ha Ht W ltac:(lia)), (via_ok _ _ _ _ _ (Sp y ltac:(lia))) in E. injection E as <-. reflexivity.
  - intros (y & W & Hy & ->). rewrite (exp_via a t m e y Ha Ht W Hy). exact (via_ok _ _ _ _ _ (Sp y Hy)).
Qed.
