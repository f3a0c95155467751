(** Significant digits. *)
From Coq Require Import Ascii String ZArith NArith Bool Lia ZifyBool List.
From Verif Require Import GoStr GoTime Regex Patterns RegexSym RegexRel RegexGen SpecCal SpecText SpecGrammar SpecForms SpecSpan StrFacts TextFacts Edtf Calendar Common Level0 Level1 Level2 Parser CalFacts ApiFacts SpanFacts YmdShapes YmdFacts InvFacts GrammarFacts LangFacts LangNorm LangForms LangForms2 DateFacts ParseFacts SplitFacts Level0Facts FormFacts SeasonFacts Level1Proofs XProofs FormProofs.
Import ListNotations.
Open Scope Z_scope.
Ltac Zify.zify_post_hook ::= Z.div_mod_to_equations.

(** ** Strings that are not level 1 *)
Lemma sig_has_S s : significant_digits s -> In "S"%char s.
Proof. intros (a & b & _ & (c & d & -> & _ & ->) & ->). apply in_or_app. right. left. reflexivity. Qed.
Lemma comma_out R s : match anchored R with Some a => plain a | None => false end = true ->
  in_set (match anchored R with Some a => bytes a | None => [] end) ","%char = false -> match_string R s = true -> ~ In ","%char s.
Proof. intros H1 H2 H3 Hi. rewrite (byte_out R ","%char s H1 H2 Hi) in H3. discriminate. Qed.
Lemma S_not_level1 s c : c = "S"%char \/ c = "E"%char \/ c = "e"%char -> In c s -> ~ In ","%char s -> IsLevel1 s = false.
Proof.
  intros Hc Hi Nc. apply not_true_iff_false. intro H. unfold IsLevel1 in H. apply Level1_spec in H.
  assert (N : forall R, match_string R s = true -> match_string R s = false -> False) by (intros R H1 H2; congruence).
  destruct H as [H|[H|[H|[H|[H|[H|[H|H]]]]]]].
  - apply LetterYear_spec in H. apply (N _ H). destruct Hc as [->|[->| ->]]; [no_byte "S"%char|no_byte "E"%char|no_byte "e"%char]; exact Hi.
  - destruct H as (t & r & (y & Hy) & (d & n & -> & (k & Hk & ->) & ->) & ->). apply in_app_or in Hi.
    destruct Hi as [Hi|[<-|Hi]]; [destruct (year4_bytes _ _ _ Hy Hi) as [Q|Q]; destruct Hc as [->|[->| ->]]; discriminate Q|destruct Hc as [Hc|[Hc|Hc]]; discriminate|].
    apply in_two in Hi; [destruct Hc as [->|[->| ->]]; discriminate Hi|lia].
  - apply Nc. apply words_comma. exact H.
  - apply QualifiedDate_spec in H. apply (N _ H). destruct Hc as [->|[->| ->]]; [no_byte "S"%char|no_byte "E"%char|no_byte "e"%char]; exact Hi.
  - apply UnspecifiedDigits_spec in H. revert H. apply not_true_iff_false.
    assert (Hi' : In c (map upx s)) by (apply in_upx; [intros ->; destruct Hc as [Hc|[Hc|Hc]]; discriminate|intros ->; destruct Hc as [Hc|[Hc|Hc]]; discriminate|exact Hi]).
    destruct Hc as [->|[->| ->]]; [no_byte "S"%char|no_byte "E"%char|no_byte "e"%char]; exact Hi'.
  - apply IntervalStart_spec in H. apply (N _ H). destruct Hc as [->|[->| ->]]; [no_byte "S"%char|no_byte "E"%char|no_byte "e"%char]; exact Hi.
  - apply IntervalEnd_spec in H. apply (N _ H). destruct Hc as [->|[->| ->]]; [no_byte "S"%char|no_byte "E"%char|no_byte "e"%char]; exact Hi.
  - apply NegativeYear_spec in H. apply (N _ H). destruct Hc as [->|[->| ->]]; [no_byte "S"%char|no_byte "E"%char|no_byte "e"%char]; exact Hi.
Qed.
Lemma S_not_level0 s c : c = "S"%char \/ c = "E"%char \/ c = "e"%char -> In c s -> IsLevel0 s = false.
Proof. intros Hc Hi. apply (not_level0 s c); [destruct Hc as [->|[->| ->]]; reflexivity|exact Hi]. Qed.
Lemma exact_level2 s : level2_exact s -> IsLevel2 s = true.
Proof. intro H. apply level2_iff. exists s, []. rewrite app_nil_r. split; [apply exact_form; exact H|reflexivity]. Qed.
Lemma to_significant s : significant_digits s -> ParseString s = ParseSignificantDigits s.
Proof.
  intro H. pose proof (sig_has_S _ H) as HS. pose proof (proj2 (Significant_spec _) H) as M.
  assert (Nc : ~ In ","%char s) by (apply (comma_out SignificantDigits); [reflexivity|reflexivity|exact M]).
  unfold ParseString. rewrite (S_not_level0 s "S"%char (or_introl eq_refl) HS), (S_not_level1 s "S"%char (or_introl eq_refl) HS Nc).
  rewrite exact_level2 by (unfold level2_exact; auto). unfold L2_ParseString, IsExponentialYear, IsSignificantDigits.
  replace (match_string ExponentialYear s) with false by (symmetry; no_byte "S"%char; exact HS). rewrite M. reflexivity.
Qed.

(** ** Captures *)
Definition letter_cap : re := RSeq (ROpt (rc 45)) (RSeq rd (RStar rd)).
Definition expo_cap : re := RSeq (ROpt (rc 45)) (RSeq plus_digits (RSeq (RSet [(69, 69); (101, 101)]) plus_digits)).
Definition sig_anch : re :=
  RSeq (RAlt (RCap 1 yr) (RAlt (RSeq (rc 89) (RCap 2 letter_cap)) (RSeq (RSet [(89, 89); (121, 121)]) (RCap 3 expo_cap))))
    (RSeq (rc 83) (RCap 4 plus_digits)).
Lemma sig_anch_eq : anchored SignificantDigits = Some sig_anch.
Proof. reflexivity. Qed.
Lemma den_letter_cap : denotes letter_cap (cat minus_text digits_text).
Proof. apply den_seq; [apply den_minus|apply den_digits]. Qed.
Lemma den_expo_cap : denotes expo_cap (cat minus_text (cat digits_text (cat letter_e digits_text))).
Proof.
  repeat apply den_seq; [apply den_minus|apply den_digits|apply den_pair; [lia|lia|reflexivity|reflexivity]|apply den_digits].
Qed.
Lemma digits_no c t : digits_text t -> is_digit c = false -> ~ In c t.
Proof. intros (_ & F) Hc Hi. rewrite Forall_forall in F. rewrite (F _ Hi) in Hc. discriminate. Qed.
Lemma letter_no c b : cat minus_text digits_text b -> is_digit c = false -> c <> "-"%char -> ~ In c b.
Proof.
  intros (u & v & [->| ->] & Hv & ->) Hc Hm Hi; [exact (digits_no _ _ Hv Hc Hi)|]. destruct Hi as [Hi|Hi]; [congruence|exact (digits_no _ _ Hv Hc Hi)].
Qed.
Lemma expo_no c b : cat minus_text (cat digits_text (cat letter_e digits_text)) b -> is_digit c = false -> c <> "-"%char -> c <> "E"%char -> c <> "e"%char -> ~ In c b.
Proof.
  intros (u & v & Hu & (w & x & Hw & (p & q & Hp & Hq & ->) & ->) & ->) Hc Hm HE He Hi.
  apply in_app_or in Hi. destruct Hi as [Hi|Hi]; [destruct Hu as [->| ->]; [destruct Hi|destruct Hi as [Hi|[]]; congruence]|].
  apply in_app_or in Hi. destruct Hi as [Hi|Hi]; [exact (digits_no _ _ Hw Hc Hi)|].
  apply in_app_or in Hi. destruct Hi as [Hi|Hi]; [destruct Hp as [->| ->]; destruct Hi as [Hi|[]]; congruence|exact (digits_no _ _ Hq Hc Hi)].
Qed.
Lemma expo_has_e b : cat minus_text (cat digits_text (cat letter_e digits_text)) b -> In "E"%char b \/ In "e"%char b.
Proof.
  intros (u & v & Hu & (w & x & Hw & (p & q & Hp & Hq & ->) & ->) & ->).
  destruct Hp as [->| ->]; [left|right]; (apply in_or_app; right; apply in_or_app; right; left; reflexivity).
Qed.
(** What precedes the S, and the captures. *)
Inductive sig_head : str -> list str -> Prop :=
| sh_year t y : year4 t y -> sig_head t [t; []; []]
| sh_letter b : cat minus_text digits_text b -> sig_head ("Y"%char :: b) [[]; b; []]
| sh_expo c b : c = "Y"%char \/ c = "y"%char -> cat minus_text (cat digits_text (cat letter_e digits_text)) b -> sig_head (c :: b) [[]; []; b].
Lemma sig_head_no u l : sig_head u l -> ~ In "S"%char u.
Proof.
  intros [t y Hy|b Hb|c b Hc Hb] Hi.
  - destruct (year4_bytes _ _ _ Hy Hi) as [Q|Q]; discriminate Q.
  - destruct Hi as [Hi|Hi]; [discriminate|]. exact (letter_no "S"%char b Hb eq_refl ltac:(discriminate) Hi).
  - destruct Hi as [Hi|Hi]; [destruct Hc; congruence|]. exact (expo_no "S"%char b Hb eq_refl ltac:(discriminate) ltac:(discriminate) ltac:(discriminate) Hi).
Qed.
Lemma sig_head_fun u l l' : sig_head u l -> sig_head u l' -> l = l'.
Proof.
  assert (YY : forall t y c r, year4 t y -> t = c :: r -> c = "Y"%char \/ c = "y"%char -> False).
  { intros t y c r Hy -> Hc. destruct (year4_bytes _ _ c Hy (or_introl eq_refl)) as [Q|Q]; destruct Hc as [->| ->]; discriminate Q. }
  assert (LE : forall b, cat minus_text digits_text b -> cat minus_text (cat digits_text (cat letter_e digits_text)) b -> False).
  { intros b H1 H2. destruct (expo_has_e b H2) as [Q|Q]; [apply (letter_no "E"%char b H1)|apply (letter_no "e"%char b H1)]; try reflexivity; try discriminate; exact Q. }
  intros H1 H2. inversion H1 as [t y Hy|b Hb|c b Hc Hb]; subst; inversion H2 as [t' y' Hy'|b' Hb'|c' b' Hc' Hb']; subst; try reflexivity; exfalso; eauto.
Qed.
Lemma sig_submatch u l nd : sig_head u l -> digits_text nd -> find_submatch SignificantDigits (u ++ "S"%char :: nd) = (u ++ "S"%char :: nd) :: l ++ [nd].
Proof.
  intros Hu Hn. apply (anchored_unique _ _ sig_anch_eq eq_refl).
  - apply (anchored_match SignificantDigits _ sig_anch_eq eq_refl). apply Significant_spec. exists u, ("S"%char :: nd). split; [|split; [|reflexivity]].
    + destruct Hu as [t y Hy|b Hb|c b Hc Hb]; [left; exists y; exact Hy|right; left; exists ["Y"%char], b; repeat split; exact Hb|].
      right. right. exists [c], b. split; [destruct Hc as [->| ->]; [left|right]; reflexivity|]. split; [exact Hb|reflexivity].
    + exists ["S"%char], nd. repeat split; apply Hn.
  - intros k (u1 & k1 & u2 & k2 & H1 & (u3 & k4 & u4 & k5 & H3 & (k6 & H4 & ->) & -> & ->) & E & ->).
    apply gen_rc in H3; [|lia]. destruct H3 as (-> & ->). change ([chr 83] ++ u4) with ("S"%char :: u4) in E.
    rewrite (gen_nocap _ _ _ H4 eq_refl) in *.
    assert (G : exists l', sig_head u1 l' /\ forall k0 : captures, map (fun i => cap_get i (k0 ++ k1)) [1%nat; 2%nat; 3%nat] = map (fun i => cap_get i (k0 ++ k1)) [1%nat; 2%nat; 3%nat] -> l' = map (fun i => cap_get i k1) [1%nat; 2%nat; 3%nat]).
    { rewrite !gen_alt in H1. destruct H1 as [(k3 & H1 & ->)|[(v1 & j1 & v2 & j2 & G1 & (j3 & G2 & ->) & -> & ->)|(v1 & j1 & v2 & j2 & G1 & (j3 & G2 & ->) & -> & ->)]].
      - assert (Y : exists y, year4 u1 y) by (apply den_yr; exists k3; exact H1). destruct Y as (y & Hy).
        exists [u1; []; []]. split; [exact (sh_year _ _ Hy)|]. intros _ _. rewrite (gen_nocap _ _ _ H1 eq_refl). reflexivity.
      - apply gen_rc in G1; [|lia]. destruct G1 as (-> & ->). exists [[]; v2; []]. split; [apply sh_letter; apply den_letter_cap; exists j3; exact G2|].
        intros _ _. rewrite (gen_nocap _ _ _ G2 eq_refl). reflexivity.
      - assert (L : v1 = $"Y" \/ v1 = $"y") by (apply (den_pair 89 121 ($"Y") ($"y")); [lia|lia|reflexivity|reflexivity|exists j1; exact G1]).
        rewrite (gen_nocap _ _ _ G1 eq_refl), (gen_nocap _ _ _ G2 eq_refl).
        exists [[]; []; v2]. split; [|intros _ _; reflexivity].
        destruct L as [->| ->]; apply sh_expo; auto; apply den_expo_cap; exists j3; exact G2. }
    destruct G as (l' & Hl' & Hk). specialize (Hk [] eq_refl).
    destruct (split_once _ _ _ _ _ (sig_head_no _ _ Hu) (sig_head_no _ _ Hl') E) as (<- & <-).
    rewrite (sig_head_fun _ _ _ Hu Hl'), Hk. unfold caps_out. change (re_ncap SignificantDigits) with 4%nat. cbn [seq map app]. reflexivity.
Qed.
Lemma sig_forms s : significant_digits s -> exists u l nd, sig_head u l /\ digits_text nd /\ s = u ++ "S"%char :: nd.
Proof.
  intros (u & v & Hu & (c & nd & -> & Hn & ->) & ->). destruct Hu as [(y & Hy)|[(a & b & -> & Hb & ->)|(a & b & Ha & Hb & ->)]].
  - exists u, [u; []; []], nd. split; [exact (sh_year _ _ Hy)|]. auto.
  - exists ("Y"%char :: b), [[]; b; []], nd. split; [apply sh_letter; exact Hb|]. auto.
  - destruct Ha as [->| ->]; [exists ("Y"%char :: b)|exists ("y"%char :: b)]; exists [[]; []; b], nd; (split; [apply sh_expo; auto|]); auto.
Qed.

(** ** Number texts as dates *)
Lemma qset_not c : in_set qset c = true -> is_digit c = false /\ is_dx c = false /\ c <> "-"%char.
Proof.
  intro H. assert (Q : c = "?"%char \/ c = "~"%char \/ c = "%"%char).
  { unfold qset in H. cbn [in_set existsb fst snd] in H.
    assert (code c = 37 \/ code c = 63 \/ code c = 126) as [E|[E|E]] by lia; [right; right|left|right; left]; apply code_inj; exact E. }
  destruct Q as [->|[->| ->]]; repeat split; try reflexivity; discriminate.
Qed.
Lemma year_only s y m d y' m' d' u a p sg sgn ds : date_den s y m d y' m' d' u a p sg -> minus_text sgn -> digits_text ds -> s = sgn ++ ds -> length ds = 4%nat.
Proof.
  intros [(yt & yc & yq & mt & mc & mq & dt & dc & dq & py & sy & sm & sd & Ht & Hp & _)] Hs Hd E.
  destruct Hp as [Hq Hy _ _ _ _]. apply year_core in Hy. destruct Hy as (c1 & c2 & c3 & c4 & Hc & D1 & D2 & D3 & D4).
  assert (F : forall c, In c s -> is_digit c = true \/ c = "-"%char).
  { intros c Hi. subst s. apply in_app_or in Hi. destruct Hi as [Hi|Hi]; [destruct Hs as [->| ->]; [destruct Hi|destruct Hi as [<-|[]]; auto]|].
    left. destruct Hd as (_ & Hd). rewrite Forall_forall in Hd. apply Hd, Hi. }
  assert (Hin : forall c, In c yt -> In c s) by (intros c Hi; inversion Ht; subst; [exact Hi|apply in_or_app; auto..]).
  assert (Eq : yt = yc).
  { inversion Hq as [|c0 cc Hc0|c0 cc Hc0]; subst yt; [reflexivity|exfalso..]; destruct (qset_not c0 Hc0) as (Q1 & _ & Q2).
    - destruct (F c0 (Hin c0 (or_introl eq_refl))) as [Q|Q]; [congruence|contradiction].
    - destruct (F c0) as [Q|Q]; [apply Hin, in_or_app; right; left; reflexivity|congruence|contradiction]. }
  assert (Tl : forall r, s = yt ++ "-"%char :: r -> False).
  { intros r Er. subst yt. rewrite E in Er.
    assert (NoD : ~ In "-"%char ds) by (apply digits_no; [exact Hd|reflexivity]).
    assert (D1' : c1 <> "-"%char) by (intros ->; discriminate). assert (D2' : c2 <> "-"%char) by (intros ->; discriminate).
    destruct Hs as [->| ->]; cbn [app] in Er.
    - apply NoD. rewrite Er. apply in_or_app. right. left. reflexivity.
    - change ($"-" ++ ds) with ("-"%char :: ds) in Er. destruct Hc as [->| ->]; cbn [app] in Er; injection Er as Er'; subst.
      + apply D1'. congruence.
      + apply NoD. cbn. auto 10. }
  inversion Ht as [yt0 E1|yt0 mt0 Hm E1|yt0 mt0 dt0 Hm Hdd E1]; subst; [|exfalso; eapply Tl; symmetry; exact E1..].
  assert (D1' : is_digit "-"%char = false) by reflexivity.
  assert (NoD : ~ In "-"%char ds) by (apply digits_no; [exact Hd|reflexivity]).
  destruct Hs as [->| ->]; cbn [app] in *; destruct Hc as [Hc|Hc].
  - rewrite Hc. reflexivity.
  - exfalso. apply NoD. rewrite Hc. left. reflexivity.
  - change ($"-" ++ ds) with ("-"%char :: ds) in Hc. injection Hc as Hc1 _. subst c1. discriminate.
  - change ($"-" ++ ds) with ("-"%char :: ds) in Hc. injection Hc as ->. reflexivity.
Qed.
Lemma half_number l lo hi sgn ds : half l lo hi -> minus_text sgn -> digits_text ds -> l = sgn ++ ds -> length ds = 4%nat.
Proof.
  intros [| |t y m d y' m' d' u a p sg HD _ _ _ _] Hs Hd E.
  - destruct Hs as [->| ->]; [destruct ds; [destruct Hd as (Hd & _); contradiction|discriminate]|discriminate].
  - destruct Hs as [->| ->]; [|discriminate]. cbn in E. destruct Hd as (_ & Hd). rewrite <- E in Hd. inversion Hd; subst. discriminate.
  - eapply year_only; eassumption.
Qed.
Lemma number_noslash sgn ds : minus_text sgn -> digits_text ds -> ~ In "/"%char (sgn ++ ds).
Proof.
  intros Hs Hd Hi. apply in_app_or in Hi. destruct Hi as [Hi|Hi]; [destruct Hs as [->| ->]; [destruct Hi|destruct Hi as [Hi|[]]; discriminate]|].
  exact (digits_no "/"%char ds Hd eq_refl Hi).
Qed.

(** ** The two years *)
Definition last_zero (y v : Z) : Z := y / 10 ^ v * 10 ^ v.
Definition last_nine (y v : Z) : Z := y / 10 ^ v * 10 ^ v + 10 ^ v - 1.
Lemma small_v v : 0 <= v <= 4 -> v = 0 \/ v = 1 \/ v = 2 \/ v = 3 \/ v = 4.
Proof. lia. Qed.
Lemma prefix_zero y v : 0 <= y <= 9999 -> 0 <= v <= 4 -> 0 <= last_zero y v <= 9999 /\
  firstn (4 - Z.to_nat v) (four y) ++ repeat_str ($"0") (Z.to_nat v) = four (last_zero y v).
Proof.
  intros Hy Hv. unfold last_zero. destruct (small_v v Hv) as [->|[->|[->|[->| ->]]]];
  [change (10 ^ 0) with 1; change (Z.to_nat 0) with 0%nat|change (10 ^ 1) with 10; change (Z.to_nat 1) with 1%nat|change (10 ^ 2) with 100; change (Z.to_nat 2) with 2%nat|change (10 ^ 3) with 1000; change (Z.to_nat 3) with 3%nat|change (10 ^ 4) with 10000; change (Z.to_nat 4) with 4%nat];
  (split; [lia|]); unfold four; cbn; repeat (apply f_equal2; [try (change "0"%char with (digit_char 0)); f_equal; lia|]); reflexivity.
Qed.
Lemma prefix_nine y v : 0 <= y <= 9999 -> 0 <= v <= 4 -> 0 <= last_nine y v <= 9999 /\
  firstn (4 - Z.to_nat v) (four y) ++ repeat_str ($"9") (Z.to_nat v) = four (last_nine y v).
Proof.
  intros Hy Hv. unfold last_nine. destruct (small_v v Hv) as [->|[->|[->|[->| ->]]]];
  [change (10 ^ 0) with 1; change (Z.to_nat 0) with 0%nat|change (10 ^ 1) with 10; change (Z.to_nat 1) with 1%nat|change (10 ^ 2) with 100; change (Z.to_nat 2) with 2%nat|change (10 ^ 3) with 1000; change (Z.to_nat 3) with 3%nat|change (10 ^ 4) with 10000; change (Z.to_nat 4) with 4%nat];
  (split; [lia|]); unfold four; cbn; repeat (apply f_equal2; [try (change "9"%char with (digit_char 9)); f_equal; lia|]); reflexivity.
Qed.
Lemma itoa_neg n : 0 < n -> itoa (- n) = "-"%char :: itoa n.
Proof. intro H. unfold itoa. replace (- n <? 0) with true by lia. replace (n <? 0) with false by lia. rewrite Z.opp_involutive. reflexivity. Qed.
Lemma four_not_minus n c t : 0 <= n <= 9999 -> four n = c :: t -> c <> "-"%char.
Proof. intros H E ->. pose proof (digit_str_four n H) as D. rewrite E in D. inversion D; subst. discriminate. Qed.
Lemma no_minus n r : 0 <= n <= 9999 -> has_prefix (four n ++ r) ($"-") = false.
Proof.
  intro H. apply not_true_iff_false. intro Q. apply has_prefix_spec in Q. destruct Q as (w & Q). unfold four in Q. cbn [app] in Q.
  injection Q as Q _. apply (four_not_minus n (digit_char (n / 1000)) [digit_char (n / 100 mod 10); digit_char (n / 10 mod 10); digit_char (n mod 10)] H eq_refl). exact Q.
Qed.
Lemma sig_text_pos y v : 1000 <= y <= 9999 -> 0 <= v <= 4 ->
  significant_text y v = four (last_zero y v) ++ "/"%char :: four (last_nine y v).
Proof.
  intros Hy Hv. unfold significant_text. rewrite itoa_four by exact Hy. change (length (four y)) with 4%nat.
  destruct (prefix_zero y v ltac:(lia) Hv) as (Hz & ->). destruct (prefix_nine y v ltac:(lia) Hv) as (Hn & ->). cbv zeta.
  pose proof (no_minus (last_zero y v) [] Hz) as Q. rewrite app_nil_r in Q. rewrite Q. reflexivity.
Qed.
Lemma sig_text_neg n v : 1000 <= n <= 9999 -> 0 <= v <= 4 ->
  significant_text (- n) v = ("-"%char :: four (last_nine n v)) ++ "/"%char :: "-"%char :: four (last_zero n v).
Proof.
  intros Hy Hv. unfold significant_text. rewrite itoa_neg, itoa_four by lia. change (length ("-"%char :: four n)) with 5%nat.
  replace (5 - Z.to_nat v)%nat with (S (4 - Z.to_nat v)) by lia. cbn [firstn app].
  destruct (prefix_zero n v ltac:(lia) Hv) as (Hz & ->). destruct (prefix_nine n v ltac:(lia) Hv) as (Hn & ->). cbv zeta. reflexivity.
Qed.

(** ** ParseSignificantDigits on a year *)
Lemma atoi_year4 t y : year4 t y -> atoi t = OK y.
Proof.
  intro H. apply atoi_spec. inversion H as [n Hn|n Hn]; subst; (split; [|unfold min_int64, max_int64; lia]); constructor; apply dec_digits_iff; (split; [discriminate|apply dec_val_four; exact Hn]).
Qed.
Lemma digits_text_dec nd v : dec_digits nd v -> digits_text nd.
Proof.
  intro H. apply dec_digits_iff in H. destruct H as (Hne & Hv). split; [exact Hne|]. apply (dec_val_digits nd 0). eexists; exact Hv.
Qed.
Lemma atoi_dec nd v : dec_digits nd v -> atoi nd = if v <=? max_int64 then OK v else Err (ENum nd).
Proof.
  intro H. destruct (digits_text_dec _ _ H) as (Hne & HD). rewrite atoi_digits by assumption. apply dec_digits_iff in H. destruct H as (_ & ->). reflexivity.
Qed.
Lemma dec_nonneg nd v : dec_digits nd v -> 0 <= v.
Proof. intro H. apply dec_digits_iff in H. destruct H as (_ & H). apply dec_val_nonneg in H; lia. Qed.
(** After the year is known. *)
Definition sig_rest (s : str) (y : Z) (nd : str) : res edtfdate :=
  if MAX_YEARS <? y then Err (Unsupported SIGNIFICANT_DIGITS s)
  else
    let* digits := or_invalid (atoi nd) SIGNIFICANT_DIGITS s in
    if slen (itoa y) <? slen (itoa digits) then Err (Invalid SIGNIFICANT_DIGITS s)
    else if (slen (itoa y) <? digits) || (digits <? 0) then Panic
    else let* sp := DateSpanFromEDTF (significant_text y digits) in OK (edtf_of_span sp s LEVEL2 SIGNIFICANT_DIGITS).
Lemma sig_parse u l nd : sig_head u l -> digits_text nd -> let s := u ++ "S"%char :: nd in
  ParseString s = let* y := match l with
    | [t; b; e] => if negb (is_empty t) then or_invalid (atoi t) SIGNIFICANT_DIGITS s
      else if negb (is_empty b) then if 4 <? slen b then Err (Unsupported SIGNIFICANT_DIGITS s) else or_invalid (atoi b) SIGNIFICANT_DIGITS s
      else if negb (is_empty e) then ParseExponentialNotation e else Err (Invalid SIGNIFICANT_DIGITS s)
    | _ => Err (Invalid SIGNIFICANT_DIGITS s) end in sig_rest s y nd.
Proof.
  intros Hu Hn s. unfold s. rewrite to_significant.
  - unfold ParseSignificantDigits. rewrite (sig_submatch _ _ _ Hu Hn). destruct Hu; reflexivity.
  - exists u, ("S"%char :: nd). split; [|split; [|reflexivity]].
    + destruct Hu as [t y Hy|b Hb|c b Hc Hb]; [left; exists y; exact Hy|right; left; exists ["Y"%char], b; repeat split; exact Hb|].
      right. right. exists [c], b. split; [destruct Hc as [->| ->]; [left|right]; reflexivity|]. split; [exact Hb|reflexivity].
    + exists ["S"%char], nd. repeat split; apply Hn.
Qed.
Lemma year4_range t y : year4 t y -> -9999 <= y <= 9999.
Proof. inversion 1; lia. Qed.
Lemma sig_year t y nd v : year4 t y -> dec_digits nd v -> ParseString (t ++ "S"%char :: nd) = sig_rest (t ++ "S"%char :: nd) y nd.
Proof.
  intros Hy Hn. rewrite (sig_parse _ _ _ (sh_year _ _ Hy) (digits_text_dec _ _ Hn)). cbv zeta. cbn [bind].
  replace (is_empty t) with false by (inversion Hy; reflexivity). cbn [negb]. rewrite (atoi_year4 _ _ Hy). reflexivity.
Qed.
Lemma itoa_len_small v : 0 <= v <= 9 -> slen (itoa v) = 1.
Proof. intro H. assert (v = 0 \/ v = 1 \/ v = 2 \/ v = 3 \/ v = 4 \/ v = 5 \/ v = 6 \/ v = 7 \/ v = 8 \/ v = 9) as Q by lia. repeat (destruct Q as [->|Q]; [reflexivity|]). subst. reflexivity. Qed.
Lemma year4_slash t y : year4 t y -> ~ In "/"%char t.
Proof. intros H Hi. destruct (year4_bytes _ _ _ H Hi) as [Q|Q]; discriminate Q. Qed.
Lemma sig_half t y : year4 t y -> half t (day_start y 1 1 0 0 YEAR) (day_end y 12 31 0 0 YEAR).
Proof.
  intro H. assert (L : level0_date (t ++ []) y None None) by (constructor; [exact H|constructor]). rewrite app_nil_r in L.
  assert (E : exists_date y None None) by (split; cbn; lia).
  pose proof (level0_half _ _ _ _ L E) as Q. exact Q.
Qed.
Lemma agrees_pos y v : 0 < y -> 0 <= v <= 4 -> forall z, last_zero y v <= z <= last_nine y v <-> 0 <= y * z /\ Z.abs z / 10 ^ v = Z.abs y / 10 ^ v.
Proof.
  intros Hy Hv z. unfold last_zero, last_nine. rewrite (Z.abs_eq y) by lia.
  destruct (small_v v Hv) as [->|[->|[->|[->| ->]]]];
  [change (10 ^ 0) with 1|change (10 ^ 1) with 10|change (10 ^ 2) with 100|change (10 ^ 3) with 1000|change (10 ^ 4) with 10000];
  (split; [intro H; assert (0 <= z) by lia; split; [nia|rewrite Z.abs_eq by lia; lia]|intros (H1 & H2); assert (0 <= z) by nia; rewrite Z.abs_eq in H2 by lia; lia]).
Qed.
Lemma agrees_neg n v : 0 < n -> 0 <= v <= 4 -> forall z, - last_nine n v <= z <= - last_zero n v <-> 0 <= - n * z /\ Z.abs z / 10 ^ v = Z.abs (- n) / 10 ^ v.
Proof.
  intros Hn Hv z. pose proof (agrees_pos n v Hn Hv (- z)) as Q. rewrite Z.abs_opp in Q. rewrite Z.abs_opp. replace (- n * z) with (n * - z) by lia.
  rewrite <- Q. lia.
Qed.
Theorem sig_rest_spans s y nd v : -9999 <= y <= 9999 -> dec_digits nd v -> 1000 <= Z.abs y -> v <= 4 ->
  exists e lo hi, sig_rest s y nd = OK e /\ e_level e = 2 /\ e_feature e = SIGNIFICANT_DIGITS /\
    from_to (e_start e) lo 1 1 lo 12 31 /\ from_to (e_end e) hi 1 1 hi 12 31 /\ flagged e 0 0 /\ precise e YEAR /\
    forall z, lo <= z <= hi <-> 0 <= y * z /\ Z.abs z / 10 ^ v = Z.abs y / 10 ^ v.
Proof.
  intros Hr Hn Ha Hv. pose proof (dec_nonneg _ _ Hn) as Hv0. unfold sig_rest, MAX_YEARS.
  replace (9999 <? y) with false by lia. rewrite (atoi_dec _ _ Hn). unfold max_int64. replace (v <=? _) with true by lia. cbn [or_invalid bind].
  rewrite (itoa_len_small v) by lia.
  assert (C : 1000 <= y <= 9999 \/ exists n, y = - n /\ 1000 <= n <= 9999) by (destruct (Z.leb_spec 0 y); [left; lia|right; exists (- y); lia]).
  destruct C as [C|(n & -> & C)].
  - rewrite (itoa_four y) by exact C. change (slen (four y)) with 4. replace (4 <? 1) with false by reflexivity.
    replace ((4 <? v) || (v <? 0)) with false by lia.
    rewrite sig_text_pos by lia. destruct (prefix_zero y v ltac:(lia) ltac:(lia)) as (Hz & _). destruct (prefix_nine y v ltac:(lia) ltac:(lia)) as (H9 & _).
    pose proof (year4_pos _ Hz) as Y0. pose proof (year4_pos _ H9) as Y9.
    rewrite (interval_fwd _ _ _ _ _ _ (year4_slash _ _ Y0) (year4_slash _ _ Y9) (sig_half _ _ Y0) (sig_half _ _ Y9)). cbn [bind].
    eexists _, (last_zero y v), (last_nine y v). split; [reflexivity|]. split; [reflexivity|]. split; [reflexivity|].
    split; [split; apply dated_bound|]. split; [split; apply dated_bound|].
    split; [repeat constructor|]. split; [repeat constructor|]. apply agrees_pos; lia.
  - rewrite itoa_neg, (itoa_four n) by lia. change (slen ("-"%char :: four n)) with 5. replace (5 <? 1) with false by reflexivity.
    replace ((5 <? v) || (v <? 0)) with false by lia.
    rewrite sig_text_neg by lia. destruct (prefix_zero n v ltac:(lia) ltac:(lia)) as (Hz & _). destruct (prefix_nine n v ltac:(lia) ltac:(lia)) as (H9 & _).
    pose proof (year4_neg _ Hz) as Y0. pose proof (year4_neg _ H9) as Y9.
    rewrite (interval_fwd _ _ _ _ _ _ (year4_slash _ _ Y9) (year4_slash _ _ Y0) (sig_half _ _ Y9) (sig_half _ _ Y0)). cbn [bind].
    eexists _, (- last_nine n v), (- last_zero n v). split; [reflexivity|]. split; [reflexivity|]. split; [reflexivity|].
    split; [split; apply dated_bound|]. split; [split; apply dated_bound|].
    split; [repeat constructor|]. split; [repeat constructor|]. apply agrees_neg; lia.
Qed.


(** ** When it is a date, and when it panics *)
Lemma itoa_len n : 0 <= n <= 9999 -> slen (itoa n) = if n <? 10 then 1 else if n <? 100 then 2 else if n <? 1000 then 3 else 4.
Proof.
  intro H. apply Z.eqb_eq.
  apply (zrange_forall (fun n => slen (itoa n) =? if n <? 10 then 1 else if n <? 100 then 2 else if n <? 1000 then 3 else 4) 0 10000); [vm_compute; reflexivity|lia].
Qed.
Lemma itoa_digits n : 0 <= n -> digits_text (itoa n).
Proof. intro H. destruct (itoa_canonical n) as [(_ & D & _)|(Q & _)]; [exact (digits_text_dec _ _ D)|lia]. Qed.
Lemma slen_app a b : slen (a ++ b) = slen a + slen b.
Proof. unfold slen. rewrite app_length. lia. Qed.
Lemma rep_digits c n : is_digit c = true -> Forall (fun c => is_digit c = true) (repeat_str [c] n) /\ length (repeat_str [c] n) = n.
Proof. intro H. induction n as [|n (IH1 & IH2)]; cbn; split; auto. Qed.
Lemma firstn_digits ds k : Forall (fun c => is_digit c = true) ds -> Forall (fun c => is_digit c = true) (firstn k ds).
Proof. intro H. rewrite Forall_forall in *. intros c Hi. apply H. rewrite <- (firstn_skipn k ds). apply in_or_app. auto. Qed.
(** One side of the span text. *)
Definition sig_side (c : ascii) (y v : Z) : str := firstn (length (itoa y) - Z.to_nat v) (itoa y) ++ repeat_str [c] (Z.to_nat v).
Lemma sig_side_number c y v : is_digit c = true -> 0 <= v <= slen (itoa y) -> exists sgn ds,
  minus_text sgn /\ digits_text ds /\ sig_side c y v = sgn ++ ds /\
  slen ds = if (y <? 0) && (v =? slen (itoa y)) then slen (itoa y) else slen (itoa (Z.abs y)).
Proof.
  intros Hc Hv. unfold sig_side. destruct (rep_digits c (Z.to_nat v) Hc) as (R1 & R2).
  destruct (itoa_digits (Z.abs y) ltac:(lia)) as (Ne & Hd).
  assert (Lp : 1 <= slen (itoa (Z.abs y))) by (unfold slen; destruct (itoa (Z.abs y)); [contradiction|cbn [length]; lia]).
  destruct (y <? 0) eqn:Es; cbn [andb].
  - assert (E : itoa y = "-"%char :: itoa (Z.abs y)).
    { replace y with (- Z.abs y) at 1 by lia. apply itoa_neg. lia. }
    rewrite E in *. unfold slen in *. cbn [length] in *. destruct (v =? Z.of_nat (S (length (itoa (Z.abs y))))) eqn:Ev.
    + replace (S (length (itoa (Z.abs y))) - Z.to_nat v)%nat with 0%nat by lia. cbn [firstn app].
      exists [], (repeat_str [c] (Z.to_nat v)). split; [left; reflexivity|]. split; [split; [|exact R1]|].
      * intro Q. rewrite Q in R2. cbn in R2. lia.
      * split; [reflexivity|]. rewrite R2. lia.
    + replace (S (length (itoa (Z.abs y))) - Z.to_nat v)%nat with (S (length (itoa (Z.abs y)) - Z.to_nat v)) by lia. cbn [firstn app].
      exists ($"-"), (firstn (length (itoa (Z.abs y)) - Z.to_nat v) (itoa (Z.abs y)) ++ repeat_str [c] (Z.to_nat v)).
      assert (L : length (firstn (length (itoa (Z.abs y)) - Z.to_nat v) (itoa (Z.abs y)) ++ repeat_str [c] (Z.to_nat v)) = length (itoa (Z.abs y))).
      { rewrite app_length, R2, firstn_length. lia. }
      split; [right; reflexivity|]. split; [split|].
      * intro Q. rewrite Q in L. cbn in L. lia.
      * apply Forall_app. split; [apply firstn_digits; exact Hd|exact R1].
      * split; [reflexivity|]. rewrite L. reflexivity.
  - rewrite (Z.abs_eq y) in * by lia.
    exists [], (firstn (length (itoa y) - Z.to_nat v) (itoa y) ++ repeat_str [c] (Z.to_nat v)).
    assert (L : length (firstn (length (itoa y) - Z.to_nat v) (itoa y) ++ repeat_str [c] (Z.to_nat v)) = length (itoa y)).
    { rewrite app_length, R2, firstn_length. unfold slen in *. lia. }
    split; [left; reflexivity|]. split; [split|].
    * intro Q. rewrite Q in L. cbn in L. unfold slen in *. lia.
    * apply Forall_app. split; [apply firstn_digits; exact Hd|exact R1].
    * split; [reflexivity|]. unfold slen. rewrite L. reflexivity.
Qed.
Lemma sig_text_ok y v sp : -9999 <= y <= 9999 -> 0 <= v <= slen (itoa y) -> DateSpanFromEDTF (significant_text y v) = OK sp ->
  1000 <= Z.abs y /\ v <= 4 \/ -999 <= y <= -100 /\ v = 4.
Proof.
  intros Hy Hv H.
  destruct (sig_side_number "0"%char y v eq_refl Hv) as (s0 & d0 & M0 & D0 & E0 & L0).
  destruct (sig_side_number "9"%char y v eq_refl Hv) as (s9 & d9 & M9 & D9 & E9 & L9).
  assert (T : exists a b, significant_text y v = a ++ "/"%char :: b /\ exists s d, minus_text s /\ digits_text d /\ a = s ++ d /\
    slen d = if (y <? 0) && (v =? slen (itoa y)) then slen (itoa y) else slen (itoa (Z.abs y))).
  { unfold significant_text. cbv zeta. change ($"0") with ["0"%char]. change ($"9") with ["9"%char]. fold (sig_side "0"%char y v). fold (sig_side "9"%char y v).
    destruct (has_prefix _ _ && has_prefix _ _); [exists (sig_side "9"%char y v), (sig_side "0"%char y v)|exists (sig_side "0"%char y v), (sig_side "9"%char y v)];
      (split; [reflexivity|]); eauto 8. }
  destruct T as (a & b & Et & s & d & Ms & Ds & Ea & La). rewrite Et in H.
  assert (Ns : ~ In "/"%char a) by (rewrite Ea; apply number_noslash; assumption).
  apply DateSpan_inv in H. destruct H as [(Q & _)|(l & r & lo & hi & lo' & hi' & E & Nl & Nr & Hl & Hr & _)]; [exfalso; apply Q; apply in_or_app; right; left; reflexivity|].
  destruct (split_once _ _ _ _ _ Ns Nl E) as (-> & ->).
  pose proof (half_number _ _ _ _ _ Hl Ms Ds Ea) as L4. unfold slen in La at 1. rewrite L4 in La.
  pose proof (itoa_len (Z.abs y) ltac:(lia)) as LL.
  assert (Lneg : y < 0 -> slen (itoa y) = slen (itoa (Z.abs y)) + 1).
  { intro Hn. replace y with (- Z.abs y) at 1 by lia. rewrite itoa_neg by lia. unfold slen. cbn [length]. lia. }
  destruct (y <? 0) eqn:Es; cbn [andb] in La.
  - specialize (Lneg ltac:(lia)). destruct (v =? slen (itoa y)) eqn:Ev.
    + right. destruct (Z.abs y <? 10) eqn:Q1; [lia|]. destruct (Z.abs y <? 100) eqn:Q2; [lia|]. destruct (Z.abs y <? 1000) eqn:Q3; lia.
    + left. destruct (Z.abs y <? 10) eqn:Q1; [lia|]. destruct (Z.abs y <? 100) eqn:Q2; [lia|]. destruct (Z.abs y <? 1000) eqn:Q3; lia.
  - left. rewrite (Z.abs_eq y) in * by lia. destruct (y <? 10) eqn:Q1; [lia|]. destruct (y <? 100) eqn:Q2; [lia|]. destruct (y <? 1000) eqn:Q3; lia.
Qed.
Theorem sig_rest_only s y nd v e : -9999 <= y <= 9999 -> dec_digits nd v -> sig_rest s y nd = OK e ->
  1000 <= Z.abs y /\ v <= 4 \/ -999 <= y <= -100 /\ v = 4.
Proof.
  intros Hr Hn H. unfold sig_rest in H.
  destruct (MAX_YEARS <? y); [discriminate|]. rewrite (atoi_dec _ _ Hn) in H. destruct (v <=? max_int64); [|discriminate]. cbn [or_invalid bind] in H.
  destruct (slen (itoa y) <? slen (itoa v)); [discriminate|]. destruct ((slen (itoa y) <? v) || (v <? 0)) eqn:Ep; [discriminate|].
  apply bind_OK in H. destruct H as (sp & H & _). apply (sig_text_ok y v sp); [lia|lia|exact H].
Qed.
(** The number of characters of a year written without padding. *)
Lemma year_width_ok y : -9999 <= y <= 9999 -> slen (itoa y) = year_width y.
Proof.
  intro H. unfold year_width. destruct (y <? 0) eqn:E.
  - replace y with (- Z.abs y) at 1 by lia. rewrite itoa_neg by lia. unfold slen. cbn [length]. rewrite Nat2Z.inj_succ. fold (slen (itoa (Z.abs y))).
    rewrite itoa_len by lia. lia.
  - rewrite itoa_len by lia. rewrite Z.abs_eq by lia. reflexivity.
Qed.
Lemma itoa_fits v k : 0 <= v -> 1 <= k -> (slen (itoa v) <= k <-> v < 10 ^ k).
Proof.
  intros Hv Hk. unfold itoa. replace (v <? 0) with false by lia. destruct (digits_len v Hv) as (H1 & H2). unfold slen. split; intro H.
  - pose proof (Z.pow_le_mono_r 10 (Z.of_nat (length (digits v))) k ltac:(lia) H). lia.
  - destruct (Z.eq_dec v 0) as [->|Hz]; [cbn; lia|]. specialize (H2 ltac:(lia)).
    destruct (Z.leb_spec (Z.of_nat (length (digits v))) k) as [Q|Q]; [exact Q|exfalso].
    pose proof (Z.pow_le_mono_r 10 k (Z.of_nat (length (digits v)) - 1) ltac:(lia) ltac:(lia)). lia.
Qed.
Lemma year_width_range y : 1 <= year_width y <= 5.
Proof. unfold year_width. destruct (y <? 0), (Z.abs y <? 10), (Z.abs y <? 100), (Z.abs y <? 1000); lia. Qed.
Lemma sig_rest_panics s y nd v : -9999 <= y <= 9999 -> dec_digits nd v -> (sig_rest s y nd = Panic <-> year_width y < v < 10 ^ year_width y).
Proof.
  intros Hr Hn. pose proof (dec_nonneg _ _ Hn) as Hv. unfold sig_rest. pose proof (year_width_range y) as Hw.
  unfold MAX_YEARS. replace (9999 <? y) with false by lia. rewrite (atoi_dec _ _ Hn), (year_width_ok y) by lia.
  pose proof (itoa_fits v (year_width y) Hv ltac:(lia)) as F.
  assert (P : 10 ^ year_width y <= 10 ^ 5) by (apply Z.pow_le_mono_r; lia). change (10 ^ 5) with 100000 in P. unfold max_int64.
  destruct (v <=? 9223372036854775807) eqn:E1; cbn [or_invalid bind]; [|split; [discriminate|lia]].
  destruct (year_width y <? slen (itoa v)) eqn:E2; [split; [discriminate|lia]|].
  destruct ((year_width y <? v) || (v <? 0)) eqn:E3; [split; [lia|reflexivity]|].
  split; [|lia]. intro Q. exfalso. revert Q. pose proof (np_DateSpan (significant_text y v)) as N.
  destruct (DateSpanFromEDTF (significant_text y v)); cbn [bind]; [discriminate|discriminate|contradiction (N eq_refl)].
Qed.
