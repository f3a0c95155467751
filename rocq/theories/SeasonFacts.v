(** Seasons: what the expression captures, and the span. *)
From Coq Require Import Ascii String ZArith NArith Bool Lia ZifyBool List.
From Verif Require Import GoStr GoTime Regex Patterns RegexSym RegexRel RegexGen SpecCal SpecText SpecGrammar SpecForms SpecSpan StrFacts TextFacts Edtf Calendar Common Level0 Level1 Level2 Parser CalFacts ApiFacts SpanFacts YmdShapes YmdFacts InvFacts GrammarFacts LangFacts LangNorm LangForms LangForms2 DateFacts ParseFacts Level0Facts FormFacts.
Import ListNotations.
Open Scope Z_scope.
Ltac Zify.zify_post_hook ::= Z.div_mod_to_equations.

(** ** A match at the beginning *)
Lemma submatch_first R s out : (exists st, run (re_body R) (mkm true s []) st) ->
  (forall st, run (re_body R) (mkm true s []) st -> outcome R s st = out) -> find_submatch R s = out.
Proof.
  intros (st & H) Hu. unfold find_submatch. apply in_mt in H.
  destruct s; cbn [find_from]; (destruct (mt (re_body R) _) as [|st' l] eqn:E; [destruct H|]);
    (rewrite <- (Hu st'); [reflexivity|]; apply in_mt; rewrite E; left; reflexivity).
Qed.
Lemma gen_nocap r u k : gen r u k -> cap_keys r = [] -> k = [].
Proof. intros G E. apply gen_keys in G. rewrite E in G. destruct G as [|p l H]; [reflexivity|destruct H]. Qed.

Lemma season_A_eq : season_A = RSeq (RCap 1 yr) (RSeq (rc 45) (RCap 2 snum_re)).
Proof. reflexivity. Qed.
Lemma gen_season_A u k : gen season_A u k -> exists t y n, year4 t y /\ (1 <= n <= 12 \/ 21 <= n <= 24) /\ u = t ++ "-"%char :: two n /\ k = [(2%nat, two n); (1%nat, t)].
Proof.
  rewrite season_A_eq. intros (u1 & k1 & v1 & l1 & (k2 & H1 & ->) & (u2 & k3 & u3 & k4 & H2 & (k5 & H3 & ->) & -> & ->) & -> & ->).
  apply gen_yr in H1. destruct H1 as (-> & y & Hy). apply gen_rc in H2; [|lia]. destruct H2 as (-> & ->).
  rewrite (gen_nocap _ _ _ H3 eq_refl). assert (Hn : season_number u3) by (apply den_snum; exists k5; exact H3).
  destruct Hn as (n & Hn & ->). exists u1, y, n. auto.
Qed.
Definition season_b : re := Eval vm_compute in match re_body Season with RAlt _ b => b | _ => REps end.
Lemma Season_body' : re_body Season = RAlt (RSeq RBegin season_A) season_b.
Proof. reflexivity. Qed.
Lemma season_run s st : run (re_body Season) (mkm true s []) st ->
  (exists t y n r, year4 t y /\ (1 <= n <= 12 \/ 21 <= n <= 24) /\ s = t ++ "-"%char :: two n ++ r /\ m_rest st = r /\ m_caps st = [(2%nat, two n); (1%nat, t)]) \/
  (exists k, gen season_B s k /\ m_rest st = [] /\ m_caps st = k).
Proof.
  rewrite Season_body'. intros [H|H].
  - left. apply (run_pre season_A [] s st) in H; [|reflexivity]. destruct H as (_ & u & k & G & E & Ec & _).
    apply gen_season_A in G. destruct G as (t & y & n & Hy & Hn & -> & ->). exists t, y, n, (m_rest st).
    rewrite <- app_assoc in E. auto 10.
  - right. apply (unend_run season_b season_B eq_refl) in H. destruct H as (H & He).
    apply (run_gen season_B eq_refl) in H. destruct H as (u & k & G & E & Ec & _). cbn in E, Ec. rewrite He, app_nil_r in E. subst u.
    rewrite app_nil_r in Ec. eauto.
Qed.
Lemma words_B s k : gen season_B s k -> season_words s.
Proof. intro G. apply den_words. apply (lg_same season_B words_re eq_refl). exists k. exact G. Qed.

(** A season word starts with a letter. *)
Definition letter (c : ascii) : Prop := 65 <= code c <= 90 \/ 97 <= code c <= 122 \/ code c = 197 \/ code c = 191.
Lemma any_case_letters w v : any_case w v -> forallb (fun c => (97 <=? code c) && (code c <=? 122)) w = true -> Forall letter v.
Proof.
  induction 1 as [|c w u v Hc H IH]; intro Hw; [constructor|]. cbn [forallb] in Hw. apply andb_true_iff in Hw. destruct Hw as (Hc' & Hw).
  apply Forall_app. split; [|exact (IH Hw)]. unfold letter. destruct Hc as [->|[(d & -> & Hd)|(-> & ->)]].
  - constructor; [lia|constructor].
  - constructor; [lia|constructor].
  - constructor; [do 2 right; left; reflexivity|constructor; [do 3 right; reflexivity|constructor]].
Qed.
Lemma season_name_letters v : season_name v -> Forall letter v /\ v <> [].
Proof.
  assert (N : forall c w v, any_case (c :: w) v -> v <> []).
  { intros c w v0 H. inversion H as [|? ? u v1 Hu _]; subst. destruct Hu as [->|[(d & -> & _)|(_ & ->)]]; discriminate. }
  intros [H|[H|[H|H]]]; (split; [apply (any_case_letters _ _ H); reflexivity|exact (N _ _ _ H)]).
Qed.
Lemma words_first s : season_words s -> exists c r, s = c :: r /\ letter c.
Proof.
  intros (w & r & Hw & _ & ->). apply season_name_letters in Hw. destruct Hw as (Hl & Hne).
  destruct w as [|c w]; [congruence|]. inversion Hl; subst. exists c, (w ++ r). auto.
Qed.
Lemma year_first t y : year4 t y -> exists c u, t = c :: u /\ 45 <= code c <= 57.
Proof.
  intros [n Hn|n Hn]; [|do 2 eexists; split; [reflexivity|cbv; split; discriminate]].
  unfold four. do 2 eexists. split; [reflexivity|]. rewrite code_digit_char by lia. lia.
Qed.

(** ** Captures *)
Theorem season_submatch_code t y n r : year4 t y -> 1 <= n <= 12 \/ 21 <= n <= 24 ->
  find_submatch Season (t ++ "-"%char :: two n ++ r) = [t ++ "-"%char :: two n; t; two n; []; []].
Proof.
  intros Hy Hn. apply submatch_first.
  - exists (mkm false r [(2%nat, two n); (1%nat, t)]). rewrite Season_body'. left. apply (run_pre season_A [] _ _ eq_refl). split; [reflexivity|].
    exists (t ++ "-"%char :: two n), [(2%nat, two n); (1%nat, t)]. cbn [m_rest m_caps m_bot]. split; [|split; [rewrite <- app_assoc; reflexivity|split; [reflexivity|]]].
    + rewrite season_A_eq. exists t, [(1%nat, t)], ("-"%char :: two n), [(2%nat, two n)]. split; [exists []; split; [apply gen_yr; eauto|reflexivity]|].
      split; [|auto]. exists ["-"%char], [], (two n), [(2%nat, two n)]. split; [apply gen_rc; [lia|auto]|]. split; [|auto].
      assert (G : lg snum_re (two n)) by (apply den_snum; exists n; auto). destruct G as (k & G). rewrite (gen_nocap _ _ _ G eq_refl) in G.
      exists []. auto.
    + destruct t; reflexivity.
  - intros st H. apply season_run in H. destruct H as [(t' & y' & n' & r' & Hy' & Hn' & E & Er & Ec)|(k & G & _)].
    + destruct (year_prefix _ _ _ _ _ _ Hy Hy' E) as (<- & E'). cbn [app two] in E'.
      change ("-"%char :: two n ++ r = "-"%char :: two n' ++ r') in E'. injection E' as E1 E2 E3.
      unfold outcome. rewrite Er, Ec.
      assert (T : two n = two n') by (unfold two; congruence).
      assert (K : t ++ "-"%char :: two n ++ r = (t ++ "-"%char :: two n) ++ r) by (rewrite <- app_assoc; reflexivity).
      rewrite K, <- E3, taken_app, <- T. reflexivity.
    + exfalso. apply words_B in G. apply words_first in G. destruct G as (c & q & E & Hl). destruct (year_first _ _ Hy) as (c' & u & -> & Hc).
      injection E as <- _. unfold letter in Hl. lia.
Qed.

(** Words *)
Definition words_text (w sp sp' : str) (n : Z) : str := w ++ sp ++ "," % char :: sp' ++ four n.
Lemma gen_words s k : gen season_B s k -> exists w sp sp' n, season_name w /\ spaces sp /\ spaces sp' /\ 0 <= n <= 9999 /\
  s = words_text w sp sp' n /\ k = [(4%nat, four n); (3%nat, w)].
Proof.
  assert (E : exists a, season_B = RSeq (RCap 3 a) (RSeq sp_re (RSeq (rc 44) (RSeq sp_re (RCap 4 (RSeq rd (RSeq rd (RSeq rd rd))))))) /\ norm a = norm name_re /\ cap_keys a = []).
  { eexists. split; [reflexivity|]. split; reflexivity. }
  destruct E as (a & -> & En & Ek).
  intros (w & k1 & v1 & l1 & (k2 & H1 & ->) & (sp & k3 & v2 & l2 & H2 & (c & k4 & v3 & l3 & H3 & (sp' & k5 & y & k6 & H4 & (k7 & H5 & ->) & -> & ->) & -> & ->) & -> & ->) & -> & ->).
  assert (Hw : season_name w) by (apply den_name; apply (lg_same a name_re En); exists k2; exact H1).
  rewrite (gen_nocap _ _ _ H1 Ek). rewrite (gen_nocap _ _ _ H2 eq_refl). rewrite (gen_nocap _ _ _ H4 eq_refl).
  assert (Hs : spaces sp) by (apply den_spaces; eexists; exact H2). assert (Hs' : spaces sp') by (apply den_spaces; eexists; exact H4).
  apply gen_rc in H3; [|lia]. destruct H3 as (-> & ->). apply gen_4 in H5. destruct H5 as (-> & n & Hn & ->).
  exists w, sp, sp', n. auto 10.
Qed.
Lemma space_code c : is_space c -> code c <= 32.
Proof. intros [->|[->|[->|[->| ->]]]]; vm_compute; discriminate. Qed.
Lemma run_split {A} (P Q : A -> Prop) : (forall c, P c -> Q c -> False) -> forall a b a' b', Forall P a -> Forall P a' -> Forall Q b -> Forall Q b' ->
  a ++ b = a' ++ b' -> a = a' /\ b = b'.
Proof.
  intro D. induction a as [|c a IH]; intros b [|c' a'] b' Ha Ha' Hb Hb' E; cbn in E.
  - auto.
  - exfalso. subst b. inversion Ha'; inversion Hb; subst. eauto.
  - exfalso. subst b'. inversion Ha; inversion Hb'; subst. eauto.
  - injection E as <- E. inversion Ha; inversion Ha'; subst. destruct (IH b a' b') as (-> & ->); auto.
Qed.
Lemma four_digitsF n : 0 <= n <= 9999 -> Forall (fun c => 48 <= code c <= 57) (four n).
Proof. intro H. unfold four. repeat constructor; rewrite code_digit_char by lia; lia. Qed.
Lemma four_inj n k : 0 <= n <= 9999 -> 0 <= k <= 9999 -> four n = four k -> n = k.
Proof. intros Hn Hk E. assert (X : Some n = Some k) by (rewrite <- !dec_val_four, E by assumption; reflexivity). injection X as X. exact X. Qed.
Lemma words_unique w sp sp' n w1 sp1 sp1' n1 : season_name w -> spaces sp -> spaces sp' -> 0 <= n <= 9999 ->
  season_name w1 -> spaces sp1 -> spaces sp1' -> 0 <= n1 <= 9999 -> words_text w sp sp' n = words_text w1 sp1 sp1' n1 -> w = w1 /\ n = n1.
Proof.
  intros Hw Hs Hs' Hn Hw1 Hs1 Hs1' Hn1 E. apply season_name_letters in Hw, Hw1. destruct Hw as (Hw & _). destruct Hw1 as (Hw1 & _).
  unfold words_text in E. rewrite !app_assoc in E.
  assert (NC : forall w sp, Forall letter w -> spaces sp -> ~ In ","%char (w ++ sp)).
  { intros w0 sp0 H1 H2 Hi. apply in_app_or in Hi. unfold spaces in H2. rewrite Forall_forall in *. destruct Hi as [Hi|Hi].
    - specialize (H1 _ Hi). destruct H1 as [H1|[H1|[H1|H1]]]; revert H1; change (code ",") with 44; lia.
    - specialize (H2 _ Hi). apply space_code in H2. revert H2. change (code ",") with 44. lia. }
  destruct (split_once _ _ _ _ _ (NC _ _ Hw Hs) (NC _ _ Hw1 Hs1) E) as (E1 & E2).
  assert (D1 : forall c, letter c -> is_space c -> False) by (intros c [H|[H|[H|H]]] H'; apply space_code in H'; lia).
  destruct (run_split letter is_space D1 _ _ _ _ Hw Hw1 Hs Hs1 E1) as (-> & _).
  assert (D2 : forall c, is_space c -> 48 <= code c <= 57 -> False) by (intros c H' H; apply space_code in H'; lia).
  destruct (run_split is_space _ D2 _ _ _ _ Hs' Hs1' (four_digitsF _ Hn) (four_digitsF _ Hn1) E2) as (_ & E4).
  split; [reflexivity|]. exact (four_inj _ _ Hn Hn1 E4).
Qed.
Lemma words_intro w sp sp' n : season_name w -> spaces sp -> spaces sp' -> 0 <= n <= 9999 -> season_words (words_text w sp sp' n).
Proof.
  intros Hw Hs Hs' Hn. exists w, (sp ++ ","%char :: sp' ++ four n). split; [exact Hw|]. split; [|reflexivity].
  exists sp, (","%char :: sp' ++ four n). split; [exact Hs|]. split; [|reflexivity]. exists [","%char], (sp' ++ four n). repeat split.
  exists sp', (four n). split; [exact Hs'|]. split; [|reflexivity]. split; [reflexivity|]. unfold four. repeat constructor; apply is_digit_char; lia.
Qed.
Theorem season_submatch_words w sp sp' n : season_name w -> spaces sp -> spaces sp' -> 0 <= n <= 9999 ->
  find_submatch Season (words_text w sp sp' n) = [words_text w sp sp' n; []; []; w; four n].
Proof.
  intros Hw Hs Hs' Hn. set (s := words_text w sp sp' n). assert (Hx : season_words s) by (apply words_intro; assumption).
  apply submatch_first.
  - assert (G : lg season_B s) by (apply (lg_same season_B words_re eq_refl); apply den_words; exact Hx). destruct G as (k & G).
    exists (mkm (if nonempty s then false else true) [] k). rewrite Season_body'. right. apply (unend_run season_b season_B eq_refl). split; [|reflexivity].
    apply (run_gen season_B eq_refl). exists s, k. cbn. rewrite !app_nil_r. auto.
  - intros st H. apply season_run in H. destruct H as [(t' & y' & n' & r' & Hy' & Hn' & E & _)|(k & G & Er & Ec)].
    + exfalso. apply words_first in Hx. destruct Hx as (c & q & E' & Hl). destruct (year_first _ _ Hy') as (c' & u & -> & Hc).
      rewrite E' in E. injection E as <- _. unfold letter in Hl. lia.
    + apply gen_words in G. destruct G as (w1 & sp1 & sp1' & n1 & H1 & H2 & H3 & H4 & E & ->).
      destruct (words_unique _ _ _ _ _ _ _ _ Hw Hs Hs' Hn H1 H2 H3 H4 E) as (<- & <-).
      unfold outcome. rewrite Er, Ec. unfold taken. cbn [length]. rewrite Nat.sub_0_r, firstn_all. reflexivity.
Qed.

(** ** Upper case *)
Lemma to_upper_cons c t : code c <> 197 -> to_upper (c :: t) = upper_byte c :: to_upper t.
Proof. intro H. destruct t as [|b t]; [reflexivity|]. cbn [to_upper]. replace (code c =? 197) with false by lia. reflexivity. Qed.
Lemma to_upper_case w v : any_case w v -> forallb (fun c => (97 <=? code c) && (code c <=? 122)) w = true -> to_upper v = map upper_byte w.
Proof.
  induction 1 as [|c w u v Hc H IH]; intro Hw; [reflexivity|]. cbn [forallb] in Hw. apply andb_true_iff in Hw. destruct Hw as (Hc' & Hw).
  cbn [map]. destruct Hc as [->|[(d & -> & Hd)|(-> & ->)]]; cbn [app].
  - rewrite to_upper_cons by lia. f_equal. exact (IH Hw).
  - rewrite to_upper_cons by lia. f_equal; [|exact (IH Hw)]. unfold upper_byte. replace (97 <=? code d) with false by lia. cbn [andb].
    replace ((97 <=? code c) && (code c <=? 122)) with true. rewrite <- Hd. symmetry. apply chr_code.
  - change (chr 197 :: chr 191 :: v) with (chr 197 :: chr 191 :: v). cbn [to_upper]. change ((code (chr 197) =? 197) && (code (chr 191) =? 191)) with true.
    cbv iota. f_equal. exact (IH Hw).
Qed.

(** ** Spans *)
(** Years that the library renders as four digits with an optional sign. *)
Lemma fmt_year y : rendered y -> fmt_0d 4 y = year_text y.
Proof.
  intros [H|H]; unfold year_text.
  - replace (y <? 0) with false by lia. apply fmt_four. exact H.
  - replace (y <? 0) with true by lia. rewrite <- itoa_four by lia. unfold fmt_0d, itoa. replace (y <? 0) with true by lia. replace (- y <? 0) with false by lia.
    assert (L : length (digits (- y)) = 4%nat).
    { pose proof (itoa_four (- y) ltac:(lia)) as E. unfold itoa in E. replace (- y <? 0) with false in E by lia. rewrite E. reflexivity. }
    unfold pad0. rewrite L. reflexivity.
Qed.
Lemma season_text_eq a b c e dd : rendered a -> rendered c -> 1 <= b <= 12 -> 1 <= e <= 12 -> 1 <= dd <= 31 ->
  season_text a b c e dd = day_text a b 1 ++ "/"%char :: day_text c e dd.
Proof.
  intros Ha Hc Hb He Hd. unfold season_text, day_text. rewrite !fmt_year, !fmt_two by (assumption || lia).
  change ($"-") with ["-"%char]. change ($"/") with ["/"%char]. rewrite <- !app_assoc. reflexivity.
Qed.
Lemma day_noslash y m d : -9999 <= y <= 9999 -> 1 <= m <= 12 -> 1 <= d <= 31 -> ~ In "/"%char (day_text y m d).
Proof. intros Hy Hm Hd. apply no_slash. eapply level0_is. apply day_level0; assumption. Qed.
Lemma days_span a b d1 c e d2 : -9999 <= a <= 9999 -> -9999 <= c <= 9999 -> real_date a b d1 -> real_date c e d2 ->
  DateSpanFromEDTF (day_text a b d1 ++ "/"%char :: day_text c e d2) =
    OK (mkSpan (mkRange (day_text a b d1) (day_start a b d1 0 0 YEAR) (day_end a b d1 0 0 YEAR))
               (mkRange (day_text c e d2) (day_start c e d2 0 0 YEAR) (day_end c e d2 0 0 YEAR))).
Proof.
  intros Ha Hc R1 R2. assert (B1 : 1 <= d1 <= 31) by (destruct R1; pose proof (month_len_range a b); lia).
  assert (B2 : 1 <= d2 <= 31) by (destruct R2; pose proof (month_len_range c e); lia).
  destruct R1 as (M1 & D1). destruct R2 as (M2 & D2).
  apply interval_fwd; [apply day_noslash; assumption..| |].
  - apply (level0_half _ _ _ _ (day_level0 a b d1 Ha M1 B1)). split; assumption.
  - apply (level0_half _ _ _ _ (day_level0 c e d2 Hc M2 B2)). split; assumption.
Qed.
(** the date from the first day of one month to the last of another *)
Lemma rendered_range y : rendered y -> -9999 <= y <= 9999.
Proof. unfold rendered. lia. Qed.
Lemma season_span a b c e : rendered a -> rendered c -> 1 <= b <= 12 -> 1 <= e <= 12 -> exists sp,
  DaysInMonth c e = OK (month_len c e) /\ DateSpanFromEDTF (season_text a b c e (month_len c e)) = OK sp /\
  forall s lv f, months (edtf_of_span sp s lv f) a b c e.
Proof.
  intros Ha Hc Hb He. pose proof (month_len_range a b). pose proof (month_len_range c e).
  pose proof (rendered_range _ Ha). pose proof (rendered_range _ Hc).
  eexists. split; [apply DaysInMonth_ok; assumption|]. split.
  - rewrite season_text_eq by (assumption || lia). apply days_span; try assumption; split; lia.
  - intros s lv f. unfold months, from_to. cbn. split; [split; apply dated_bound|]. split; [split; apply dated_bound|]. split; repeat constructor.
Qed.
Definition code_months (n y : Z) : Z * Z * Z * Z := season_code n y.
Lemma atoi_year4 t y : year4 t y -> atoi t = OK y.
Proof. intro H. apply year4_core in H. tauto. Qed.
Lemma year4_ne t y : year4 t y -> t <> [].
Proof. intros [n H|n H]; discriminate. Qed.
Theorem season_code_parses t y n r a b c e : year4 t y -> 1 <= n <= 12 \/ 21 <= n <= 24 -> season_code n y = (a, b, c, e) -> rendered a -> rendered c ->
  exists d, ParseSeason (t ++ "-"%char :: two n ++ r) = OK d /\ e_level d = 1 /\ e_feature d = $"Seasons" /\ months d a b c e.
Proof.
  intros Hy Hn Hc Ra Rc.
  assert (B : 1 <= b <= 12 /\ 1 <= e <= 12).
  { unfold season_code in Hc. destruct (n =? 21) eqn:E1; [injection Hc as <- <- <- <-; lia|]. destruct (n =? 22) eqn:E2; [injection Hc as <- <- <- <-; lia|].
    destruct (n =? 23) eqn:E3; [injection Hc as <- <- <- <-; lia|]. destruct (n =? 24) eqn:E4; [injection Hc as <- <- <- <-; lia|]. injection Hc as <- <- <- <-. lia. }
  destruct B as (Bb & Be). destruct (season_span a b c e Ra Rc Bb Be) as (sp & Hd & Hsp & Hm).
  unfold ParseSeason. rewrite (season_submatch_code t y n r Hy Hn). change (negb (Nat.eqb (length _) 5)) with false. cbv iota zeta. unfold sub. cbn [nth].
  destruct (is_empty t) eqn:Et; [apply is_empty_spec in Et; destruct (year4_ne _ _ Hy Et)|].
  rewrite (atoi_year4 _ _ Hy), (atoi_two n) by lia. cbn [bind]. rewrite Hc. cbn [bind]. rewrite Hd. cbn [bind].
  fold (season_text a b c e (month_len c e)). rewrite Hsp. cbn [bind]. eexists. split; [reflexivity|]. split; [reflexivity|]. split; [reflexivity|]. apply Hm.
Qed.
Theorem season_words_parses n w v sp sp' y b e j : season_of n w b e j -> any_case w v -> spaces sp -> spaces sp' -> 0 <= y <= 9999 -> y + j <= 9999 ->
  exists d, ParseSeason (words_text v sp sp' y) = OK d /\ e_level d = 1 /\ e_feature d = $"Seasons" /\ months d y b (y + j) e.
Proof.
  intros Hn Hv Hs Hs' Hy Hj. assert (Hw : season_name v) by (unfold season_name; destruct Hn; auto).
  assert (B : 1 <= b <= 12 /\ 1 <= e <= 12 /\ 0 <= j) by (destruct Hn; lia). destruct B as (Bb & Be & Bj).
  assert (Eu : to_upper v = map upper_byte w) by (apply to_upper_case; [exact Hv|destruct Hn; reflexivity]).
  assert (Ew : season_word v y = Some (y, b, y + j, e)).
  { unfold season_word. rewrite Eu. destruct Hn; rewrite ?Z.add_0_r; vm_compute (map upper_byte _); reflexivity. }
  destruct (season_span y b (y + j) e ltac:(unfold rendered; lia) ltac:(unfold rendered; lia) Bb Be) as (s & Hd & Hsp & Hm).
  unfold ParseSeason. rewrite (season_submatch_words v sp sp' y Hw Hs Hs' Hy). change (negb (Nat.eqb (length _) 5)) with false. cbv iota zeta. unfold sub. cbn [nth].
  change (is_empty []) with true. cbv iota. rewrite (atoi_four y) by lia. cbn [bind]. rewrite Ew. cbn [bind]. rewrite Hd. cbn [bind].
  fold (season_text y b (y + j) e (month_len (y + j) e)). rewrite Hsp. cbn [bind]. eexists. split; [reflexivity|]. split; [reflexivity|]. split; [reflexivity|]. apply Hm.
Qed.
