(** Lemmas for C80 and C81: marks and the halves of intervals. *)
From Coq Require Import Ascii String ZArith NArith Bool Lia ZifyBool List.
From Verif Require Import GoStr GoTime Regex Patterns RegexSym RegexRel RegexGen LangFacts LangNorm SpecCal SpecText SpecZone SpecGrammar SpecForms SpecSpan SpecSet SpecReads SpecSame SpecMarks StrFacts TextFacts Edtf Common Parser CalFacts ApiFacts InvFacts GrammarFacts LangForms LangForms2 FormFacts FormProofs Level0Proofs DateFacts Level0Facts SeasonFacts Level1Proofs ReadsFacts ReadsProofs SameProofs.
Import ListNotations.
Open Scope Z_scope.
Ltac Zify.zify_post_hook ::= Z.div_mod_to_equations.

(** ** Bytes *)
Lemma mark_iff c : is_mark c = true <-> a_mark c.
Proof. unfold is_mark, a_mark. rewrite !orb_true_iff, !Ascii.eqb_eq. tauto. Qed.
Lemma bare_app s t : bare (s ++ t) = bare s ++ bare t.
Proof. apply filter_app. Qed.
Lemma bare_id s : (forall c, a_mark c -> ~ In c s) -> bare s = s.
Proof.
  induction s as [|c s IH]; intro H; [reflexivity|]. unfold bare. cbn [filter]. destruct (is_mark c) eqn:E.
  - exfalso. apply (H c); [apply mark_iff; exact E|left; reflexivity].
  - cbn [negb]. f_equal. apply IH. intros x X I. apply (H x X). right. exact I.
Qed.
(** The bytes of a date without marks. *)
Definition plain_byte (c : ascii) : Prop := is_digit c = true \/ c = "X"%char \/ c = "-"%char.
Lemma plain_no_mark s c : Forall plain_byte s -> a_mark c -> ~ In c s.
Proof. intros F M I. rewrite Forall_forall in F. destruct M as [->|[->| ->]]; destruct (F _ I) as [E|[E|E]]; discriminate E. Qed.
Lemma digit_plain n : 0 <= n <= 9 -> plain_byte (digit_char n).
Proof. intro H. left. apply is_digit_char. exact H. Qed.
Lemma two_plain n : 0 <= n <= 99 -> Forall plain_byte (two n).
Proof. intro H. unfold two. repeat (apply Forall_cons; [apply digit_plain; lia|]). apply Forall_nil. Qed.
Lemma four_plain n : 0 <= n <= 9999 -> Forall plain_byte (four n).
Proof. intro H. unfold four. repeat (apply Forall_cons; [apply digit_plain; lia|]). apply Forall_nil. Qed.
Lemma year4_plain t y : year4 t y -> Forall plain_byte t.
Proof. intros [n H|n H]; [apply four_plain; exact H|]. apply Forall_cons; [right; right; reflexivity|apply four_plain; exact H]. Qed.
Lemma dx_plain c : d_or_x c -> plain_byte c.
Proof. intros [H|H]; [left; exact H|right; left; exact H]. Qed.
Lemma year_plain t y y' : year_reads t y y' -> Forall plain_byte t.
Proof. intros [t0 y0 H|a b c A B C]; [exact (year4_plain _ _ H)|]. repeat apply Forall_cons; [left; exact A|apply dx_plain; exact B|apply dx_plain; exact C|right; left; reflexivity|apply Forall_nil]. Qed.
Ltac plains := repeat (apply Forall_cons; [first [left; reflexivity|right; left; reflexivity|right; right; reflexivity]|]); apply Forall_nil.
Lemma month_plain t m m' : month_reads t m m' -> Forall plain_byte t.
Proof. intros [n H| |a [->| ->]]; [apply two_plain; lia|plains|plains|plains]. Qed.
Lemma day_plain n n' t d d' : day_reads n n' t d d' -> Forall plain_byte t.
Proof. intros [k H| | | | |]; [apply two_plain; lia|plains|plains|plains|plains|plains]. Qed.
Lemma bare_plain s : Forall plain_byte s -> bare s = s.
Proof. intro F. apply bare_id. intros c M. exact (plain_no_mark s c F M). Qed.
Lemma bare_marked c t : marked c t -> Forall plain_byte c -> bare t = c.
Proof.
  intros [|q M|q M] F.
  - exact (bare_plain c F).
  - apply mark_iff in M. unfold bare. cbn [filter]. rewrite M. cbn [negb]. exact (bare_plain c F).
  - apply mark_iff in M. rewrite bare_app, (bare_plain c F). unfold bare. cbn [filter]. rewrite M. cbn [negb]. apply app_nil_r.
Qed.

(** ** What the text without marks is read as *)
Inductive bare_date (u : str) (y m d y' m' d' : Z) : Prop :=
| bd_y yc : year_reads yc y y' -> u = yc -> m = 1 -> d = 1 -> m' = 12 -> d' = 31 -> bare_date u y m d y' m' d'
| bd_ym yc mc : year_reads yc y y' -> month_reads mc m m' -> u = yc ++ $"-" ++ mc -> d = 1 -> d' = month_len y' m' -> bare_date u y m d y' m' d'
| bd_ymd yc mc dc : year_reads yc y y' -> month_reads mc m m' -> day_reads (month_len y m) (month_len y' m') dc d d' -> u = yc ++ $"-" ++ mc ++ $"-" ++ dc ->
    bare_date u y m d y' m' d'.
Lemma bare_cases s y m d y' m' d' : date_reads s y m d y' m' d' -> bare_date (bare s) y m d y' m' d'.
Proof.
  intros [yt yc a a' K Y|yt yc a a' mt mc b b' K Y K2 M|yt yc a a' mt mc b b' dt dc c c' K Y K2 M K3 D].
  - apply (bd_y _ _ _ _ _ _ _ yc); auto. apply (bare_marked yc); [exact K|exact (year_plain _ _ _ Y)].
  - apply (bd_ym _ _ _ _ _ _ _ yc mc); auto. rewrite !bare_app, (bare_marked yc yt K (year_plain _ _ _ Y)), (bare_marked mc mt K2 (month_plain _ _ _ M)). reflexivity.
  - apply (bd_ymd _ _ _ _ _ _ _ yc mc dc); auto. rewrite !bare_app, (bare_marked yc yt K (year_plain _ _ _ Y)), (bare_marked mc mt K2 (month_plain _ _ _ M)), (bare_marked dc dt K3 (day_plain _ _ _ _ _ D)). reflexivity.
Qed.
Lemma bare_back u y m d y' m' d' : bare_date u y m d y' m' d' -> date_reads u y m d y' m' d'.
Proof.
  intros [yc Y -> -> -> -> ->|yc mc Y M -> -> ->|yc mc dc Y M D ->].
  - apply (dt_y yc yc); [apply mk_none|exact Y].
  - apply (dt_ym yc yc _ _ mc mc); [apply mk_none|exact Y|apply mk_none|exact M].
  - apply (dt_ymd yc yc _ _ mc mc _ _ dc dc); [apply mk_none|exact Y|apply mk_none|exact M|apply mk_none|exact D].
Qed.
Lemma bare_date_plain u y m d y' m' d' : bare_date u y m d y' m' d' -> Forall plain_byte u.
Proof.
  assert (D1 : plain_byte "-"%char) by (right; right; reflexivity).
  intros [yc Y -> _ _ _ _|yc mc Y M -> _ _|yc mc dc Y M D ->]; [exact (year_plain _ _ _ Y)| |].
  - apply Forall_app. split; [exact (year_plain _ _ _ Y)|]. apply Forall_cons; [exact D1|exact (month_plain _ _ _ M)].
  - apply Forall_app. split; [exact (year_plain _ _ _ Y)|]. apply Forall_cons; [exact D1|]. apply Forall_app. split; [exact (month_plain _ _ _ M)|]. apply Forall_cons; [exact D1|exact (day_plain _ _ _ _ _ D)].
Qed.
Lemma bare_whole s lo hi : whole_date s lo hi -> whole_date (bare s) lo hi /\ Forall plain_byte (bare s).
Proof.
  intros [y m d y' m' d' D R R']. pose proof (bare_cases _ _ _ _ _ _ _ D) as B. split; [|exact (bare_date_plain _ _ _ _ _ _ _ B)].
  apply wd_intro; [apply bare_back; exact B|exact R|exact R'].
Qed.
Lemma bare_half s lo hi : half_reads s lo hi -> half_reads (bare s) lo hi.
Proof. intros [| |t a b W]; [apply hr_blank|apply hr_dots|]. apply hr_date. exact (proj1 (bare_whole _ _ _ W)). Qed.
Theorem bare_span s lo hi : span_reads s lo hi -> span_reads (bare s) lo hi.
Proof.
  intros [t a b W|a b l x x' h A B]; [apply sr_date; exact (proj1 (bare_whole _ _ _ W))|]. rewrite !bare_app. apply (sr_pair _ _ l x x' h); apply bare_half; assumption.
Qed.

(** ** Which feature it is taken for *)
Definition fits_span (u : str) : Prop := exists lv f, takes u lv f /\ In f span_features.
Lemma spot_of_span u lo hi : fits_span u -> span_reads u lo hi -> spot u lo hi.
Proof.
  intros (lv & f & T & I) H. apply reads_span with (f := f) in H; [|exact I]. apply (meaning u lv f T) in H. destruct H as (e & E & (_ & _ & L & U)). exists e. auto.
Qed.
Lemma letter_byte s : letter_year s -> In "Y"%char s.
Proof. intros (u & v & E & _ & ->). unfold is in E. subst u. left. reflexivity. Qed.
Lemma exponential_byte s : exponential_year s -> In "Y"%char s \/ In "y"%char s.
Proof. intros (u & v & [->| ->] & _ & ->); [left|right]; left; reflexivity. Qed.
Lemma significant_byte s : significant_digits s -> In "S"%char s.
Proof. intros (u & v & _ & (a & b & E & _ & ->) & ->). unfold is in E. subst a. apply in_or_app. right. left. reflexivity. Qed.
Lemma set_byte s : is_set s -> In "["%char s \/ In "{"%char s.
Proof. intros (o & b & H). destruct H as [o b c [->| ->] _ _]; [left|right]; left; reflexivity. Qed.
Lemma datetime_byte s : datetime_text s -> In "T"%char s.
Proof. intros [t h m sc z _ _ _ _ _]. apply in_or_app. right. left. reflexivity. Qed.
Lemma takes_span u lv f : takes u lv f -> (forall c, In c u -> plain_byte c \/ c = "/"%char) -> ~ level1_text u \/ ~ season_like u -> ~ sub_year_grouping u -> In f span_features.
Proof.
  intros T B NS NG.
  assert (X : forall c, is_digit c = false -> c <> "X"%char -> c <> "-"%char -> c <> "/"%char -> ~ In c u).
  { intros c A1 A2 A3 A4 I. destruct (B c I) as [[H|[H|H]]|H]; congruence. }
  assert (XY : ~ In "Y"%char u) by (apply X; [reflexivity|discriminate|discriminate|discriminate]).
  assert (Xy : ~ In "y"%char u) by (apply X; [reflexivity|discriminate|discriminate|discriminate]).
  assert (XS : ~ In "S"%char u) by (apply X; [reflexivity|discriminate|discriminate|discriminate]).
  assert (XT : ~ In "T"%char u) by (apply X; [reflexivity|discriminate|discriminate|discriminate]).
  assert (X1 : ~ In "["%char u) by (apply X; [reflexivity|discriminate|discriminate|discriminate]).
  assert (X2 : ~ In "{"%char u) by (apply X; [reflexivity|discriminate|discriminate|discriminate]).
  assert (L : ~ letter_year u) by (intro H; exact (XY (letter_byte _ H))).
  assert (E : ~ exponential_year u) by (intro H; destruct (exponential_byte _ H); contradiction).
  assert (S : ~ significant_digits u) by (intro H; exact (XS (significant_byte _ H))).
  assert (D : ~ datetime_text u) by (intro H; exact (XT (datetime_byte _ H))).
  assert (W : ~ is_set u) by (intro H; destruct (set_byte _ H); contradiction).
  assert (step : forall g P l h, first_of u ((g, P) :: l) h -> (P u /\ h = g) \/ first_of u l h).
  { intros g P l h H. remember ((g, P) :: l) as w eqn:Ew. destruct H as [g0 P0 l0 H|g0 P0 l0 h0 _ H]; injection Ew as -> -> ->; auto. }
  assert (stop : forall h, ~ first_of u [] h) by (intros h H; inversion H).
  destruct T as [h H|h _ N H|h _ _ H].
  - unfold level0_features in H. repeat (apply step in H; destruct H as [(Q & ->)|H]; [first [contradiction|cbn; auto 20]|]). destruct (stop _ H).
  - unfold level1_features in H. apply step in H. destruct H as [(Q & _)|H]; [contradiction|]. apply step in H. destruct H as [(Q & _)|H]; [tauto|].
    repeat (apply step in H; destruct H as [(Q & ->)|H]; [cbn; auto 20|]). destruct (stop _ H).
  - unfold level2_features in H. repeat (apply step in H; destruct H as [(Q & ->)|H]; [first [contradiction|cbn; auto 20]|]). destruct (stop _ H).
Qed.

(** ** Forms without marks *)
Lemma bare_form (Y M D Y' M' D' : str -> Prop) s : ymd_form Y M D s -> (forall t, Y t -> Y' (bare t)) -> (forall t, M t -> M' (bare t)) -> (forall t, D t -> D' (bare t)) ->
  ymd_form Y' M' D' (bare s).
Proof.
  intros [y A|y m A B|y m d A B C] HY HM HD; rewrite ?bare_app.
  - apply yf_y. auto.
  - change (bare ("-"%char :: m)) with ("-"%char :: bare m). apply yf_ym; auto.
  - change (bare ("-"%char :: m ++ "-"%char :: d)) with ("-"%char :: bare (m ++ "-"%char :: d)). rewrite bare_app. change (bare ("-"%char :: d)) with ("-"%char :: bare d). apply yf_ymd; auto.
Qed.
Lemma run_plain n s : run_of n (fun c => is_digit c = true) s -> Forall plain_byte s.
Proof. intros (_ & F). apply (Forall_impl _ (fun c H => or_introl H) F). Qed.
Lemma run_x_plain n s : run_of n d_or_x s -> Forall plain_byte s.
Proof. intros (_ & F). exact (Forall_impl _ dx_plain F). Qed.
Lemma bare_mark t : may mark t -> bare t = [].
Proof. intros [->|[->|[->| ->]]]; reflexivity. Qed.
Lemma bare_after (P : str -> Prop) t : (forall u, P u -> Forall plain_byte u) -> cat P (may mark) t -> P (bare t).
Proof. intros F (u & v & A & B & ->). rewrite bare_app, (bare_mark v B), app_nil_r, (bare_plain u (F u A)). exact A. Qed.
Lemma bare_before (P : str -> Prop) t : (forall u, P u -> Forall plain_byte u) -> cat (may mark) P t -> P (bare t).
Proof. intros F (u & v & A & B & ->). rewrite bare_app, (bare_mark u A), (bare_plain v (F v B)). exact B. Qed.
Lemma cat_nil (P Q : str -> Prop) t : P t -> Q [] -> cat P Q t.
Proof. intros A B. exists t, []. rewrite app_nil_r. auto. Qed.
Lemma nil_cat (P Q : str -> Prop) t : P [] -> Q t -> cat P Q t.
Proof. intros A B. exists [], t. auto. Qed.
Lemma form_weaken (Y M D Y' M' D' : str -> Prop) s : (forall t, Y t -> Y' t) -> (forall t, M t -> M' t) -> (forall t, D t -> D' t) -> ymd_form Y M D s -> ymd_form Y' M' D' s.
Proof. intros HY HM HD [y A|y m A B|y m d A B C]; [apply yf_y|apply yf_ym|apply yf_ymd]; auto. Qed.
Lemma bare_group s : group_qualified s \/ individually_qualified s -> group_qualified (bare s).
Proof.
  intro H. assert (Z : ymd_form four_digits two_digits two_digits (bare s)).
  { destruct H as [H|H]; refine (bare_form _ _ _ _ _ _ s H _ _ _); intros t K; [| | |apply bare_before|apply bare_before|apply bare_before]; try apply bare_after; try exact K; intro u; apply run_plain. }
  revert Z. apply form_weaken; intros t H0; (apply cat_nil; [exact H0|left; reflexivity]).
Qed.
Lemma minus_x_plain u : cat minus_text four_x u -> Forall plain_byte u.
Proof. intros (a & b & [->|E] & B & ->); [exact (run_x_plain _ _ B)|]. unfold is in E. subst a. apply Forall_cons; [right; right; reflexivity|exact (run_x_plain _ _ B)]. Qed.
Lemma bare_half_form s : half_form s -> half_form (bare s).
Proof.
  intro H. assert (Z : ymd_form (cat minus_text four_x) two_x two_x (bare s)).
  { refine (bare_form _ _ _ _ _ _ s H _ _ _); intros t K; (apply bare_before; [|exact K]); intro u; [apply minus_x_plain|apply run_x_plain|apply run_x_plain]. }
  revert Z. apply form_weaken; intros t H0; (apply nil_cat; [left; reflexivity|exact H0]).
Qed.
Lemma half_form_plain s : half_form s -> Forall plain_byte (bare s) /\ bare s <> [].
Proof.
  intro H. assert (Z : ymd_form (cat minus_text four_x) two_x two_x (bare s)).
  { refine (bare_form _ _ _ _ _ _ s H _ _ _); intros t K; (apply bare_before; [|exact K]); intro u; [apply minus_x_plain|apply run_x_plain|apply run_x_plain]. }
  assert (D1 : plain_byte "-"%char) by (right; right; reflexivity).
  assert (N : forall u, cat minus_text four_x u -> u <> []).
  { intros u (a & b & _ & (L & _) & ->) E. apply app_eq_nil in E. destruct E as (_ & ->). discriminate L. }
  destruct Z as [y A|y m A B|y m d A B C].
  - split; [exact (minus_x_plain _ A)|exact (N _ A)].
  - split; [|intro E; apply app_eq_nil in E; destruct E as (_ & E); discriminate E]. apply Forall_app. split; [exact (minus_x_plain _ A)|]. apply Forall_cons; [exact D1|exact (run_x_plain _ _ B)].
  - split; [|intro E; apply app_eq_nil in E; destruct E as (_ & E); discriminate E]. apply Forall_app. split; [exact (minus_x_plain _ A)|]. apply Forall_cons; [exact D1|]. apply Forall_app. split; [exact (run_x_plain _ _ B)|]. apply Forall_cons; [exact D1|exact (run_x_plain _ _ C)].
Qed.

(** ** Single dates *)
Lemma takes_date u : is_level0_date u -> fits_span u.
Proof. intro H. exists 0, ($"Date"). split; [|left; reflexivity]. apply tk_0. apply fo_here. exact H. Qed.
Lemma no_x_single u y m d y' m' d' : bare_date u y m d y' m' d' -> ~ In "X"%char u ->
  is_level0_date u \/ exists yc n, year4 yc n /\ 1 <= m <= 12 /\ u = yc ++ $"-" ++ two m ++ $"-00".
Proof.
  assert (KY : forall t a b r, year_reads t a b -> ~ In "X"%char (t ++ r) -> exists n, year4 t n).
  { intros t a b r [t0 n H|c1 c2 c3 A B C] N; [eauto|]. destruct N. apply in_or_app. left. cbn. auto. }
  assert (KM : forall t a b p r, month_reads t a b -> ~ In "X"%char (p ++ t ++ r) -> 1 <= a <= 12 /\ t = two a).
  { intros t a b p r [n H| |c H] N; [auto| |]; destruct N; apply in_or_app; right; apply in_or_app; left; cbn; auto. }
  intros [yc Y -> _ _ _ _|yc mc Y M -> _ _|yc mc dc Y M D ->] N.
  - left. destruct (KY yc y y' [] Y) as (n & H); [rewrite app_nil_r; exact N|]. exists n, None, None. replace yc with (yc ++ []) by apply app_nil_r. apply level0; [exact H|apply mmdd_none].
  - left. destruct (KY yc y y' _ Y N) as (n & H). destruct (KM mc m m' (yc ++ $"-") [] M) as (R & ->); [rewrite app_nil_r, <- app_assoc; exact N|].
    exists n, (Some m), None. apply (level0 yc n ($"-" ++ two m)); [exact H|apply mmdd_m; exact R].
  - destruct (KY yc y y' _ Y N) as (n & H). destruct (KM mc m m' (yc ++ $"-") ($"-" ++ dc) M) as (R & ->); [rewrite <- app_assoc; exact N|].
    assert (KD : exists k, 0 <= k <= 31 /\ dc = two k).
    { destruct D as [k K| | | | |]; [exists k; split; [lia|reflexivity]|exists 0; split; [lia|reflexivity]| | | |]; destruct N; rewrite !in_app_iff; cbn; tauto. }
    destruct KD as (k & K & ->). destruct (Z.eq_dec k 0) as [->|K0].
    + right. exists yc, n. auto.
    + left. exists n, (Some m), (Some k). apply (level0 yc n ($"-" ++ two m ++ $"-" ++ two k)); [exact H|apply mmdd_md; lia].
Qed.
Lemma year4_length t y : year4 t y -> (4 <= length t <= 5)%nat.
Proof. intros [n H|n H]; cbn; lia. Qed.
Lemma sub_year_length u : sub_year_grouping u -> length u = 7%nat.
Proof. intros (a & b & (L & _) & (c & d & E & (n & _ & ->) & ->) & ->). unfold is in E. subst c. rewrite app_length, L. reflexivity. Qed.
Lemma season_date_length u : season_date u -> (length u <= 8)%nat.
Proof. intros (a & b & (y & Y) & (c & d & E & (n & _ & ->) & ->) & ->). unfold is in E. subst c. pose proof (year4_length _ _ Y) as L. rewrite app_length. change (length ($"-" ++ two n)) with 3%nat. lia. Qed.
Lemma words_byte u : season_words u -> In ","%char u.
Proof. exact (words_comma u). Qed.
Lemma upx_plain u : (forall c, In c u -> plain_byte c \/ c = "/"%char) -> map upx u = u.
Proof.
  intro B. rewrite <- (map_id u) at 2. apply map_ext_in. intros c I. unfold upx. destruct (Ascii.eqb c "x") eqn:E; [|reflexivity]. apply Ascii.eqb_eq in E. subst c. destruct (B _ I) as [[H|[H|H]]|H]; discriminate H.
Qed.
Lemma qualified_byte u : qualified_date u -> exists c, a_mark c /\ In c u.
Proof.
  intros (a & b & _ & M & ->). destruct M as [->|[->| ->]]; eexists; (split; [|apply in_or_app; right; left; reflexivity]); unfold a_mark; auto.
Qed.
Lemma start_byte u : extended_start u -> In "/"%char u.
Proof. intros (a & b & _ & (c & d & E & _ & ->) & ->). unfold is in E. subst c. apply in_or_app. right. left. reflexivity. Qed.
Lemma end_byte u : extended_end u -> In "/"%char u.
Proof. intros (a & b & _ & (c & d & E & _ & ->) & ->). unfold is in E. subst c. apply in_or_app. right. left. reflexivity. Qed.
Lemma minus_year_length u : minus_year u -> (length u <= 6)%nat.
Proof. intros (a & b & E & (y & Y) & ->). unfold is in E. subst a. pose proof (year4_length _ _ Y) as L. change (length ($"-" ++ b)) with (S (length b)). lia. Qed.
Lemma zero_day_x u r : unspecified_digits u -> (9 <= length u)%nat -> u = r ++ $"00" -> False.
Proof.
  intros H L ->. remember (r ++ $"00") as s eqn:Es. destruct H as [y A|y m A B|y m d A B C].
  - destruct A as (A & _). lia.
  - destruct A as (A & _). destruct B as (n & a & b & _ & -> & _). rewrite app_length in L. cbn [length] in L. lia.
  - destruct C as (n & a & b & N & -> & Xa & Xb). replace (y ++ "-"%char :: m ++ ["-"%char; a; b]) with ((y ++ "-"%char :: m ++ ["-"%char]) ++ [a; b]) in Es by (rewrite <- !app_assoc; cbn [app]; rewrite <- app_assoc; reflexivity).
    assert (E : [a; b] = $"00").
    { revert Es. generalize (y ++ "-"%char :: m ++ ["-"%char]). intros p Es. change [a; b] with ([a] ++ [b]) in Es. change ($"00") with ($"0" ++ $"0") in Es. rewrite !app_assoc in Es.
      apply app_inj_tail in Es. destruct Es as (Es & ->). apply app_inj_tail in Es. destruct Es as (_ & ->). reflexivity. }
    injection E as -> ->. assert (Z0 : forall k, 0 <= k <= 9 -> x_for "0" k -> k = 0).
    { intros k K [E|E]; [|discriminate E]. apply (f_equal code) in E. rewrite code_digit_char in E by exact K. change (code "0") with 48 in E. lia. }
    apply Z0 in Xa; [|lia]. apply Z0 in Xb; [|lia]. lia.
Qed.
Lemma zero_day_level1 u r : Forall plain_byte u -> u = r ++ $"00" -> (9 <= length u)%nat -> ~ level1_text u.
Proof.
  intros P E L H. rewrite Forall_forall in P.
  assert (X : forall c, is_digit c = false -> c <> "X"%char -> c <> "-"%char -> ~ In c u) by (intros c A1 A2 A3 I; destruct (P c I) as [Q|[Q|Q]]; congruence).
  assert (XY : ~ In "Y"%char u) by (apply X; [reflexivity|discriminate|discriminate]). assert (Xc : ~ In ","%char u) by (apply X; [reflexivity|discriminate|discriminate]).
  assert (Xs : ~ In "/"%char u) by (apply X; [reflexivity|discriminate|discriminate]).
  destruct H as [[H|[H|[H|[H|[H|[H|[H|H]]]]]]]|H].
  - exact (XY (letter_byte _ H)).
  - apply season_date_length in H. lia.
  - exact (Xc (words_byte _ H)).
  - apply qualified_byte in H. destruct H as (c & M & I). destruct (P c I) as [Q|[Q|Q]]; destruct M as [M|[M|M]]; subst c; discriminate Q.
  - exact (zero_day_x u r H L E).
  - exact (Xs (start_byte _ H)).
  - exact (Xs (end_byte _ H)).
  - apply minus_year_length in H. lia.
  - rewrite upx_plain in H by (intros c I; left; exact (P c I)). exact (zero_day_x u r H L E).
Qed.
Lemma takes_form u : level2_exact u -> exists lv f, takes u lv f.
Proof. intro H. destruct (proj2 (named_iff u)) as (lv & f & M); [auto|]. exists lv, f. apply matches_takes. exact M. Qed.
Theorem single_fits s lo hi : group_qualified s \/ individually_qualified s -> whole_date s lo hi -> fits_span (bare s).
Proof.
  intros F [y m d y' m' d' D R R']. pose proof (bare_cases _ _ _ _ _ _ _ D) as B. pose proof (bare_date_plain _ _ _ _ _ _ _ B) as P. pose proof (bare_group s F) as G.
  assert (NX : ~ In "X"%char (bare s)).
  { intro I. apply Group_spec in G. revert G. apply not_true_iff_false. no_byte "X"%char. exact I. }
  destruct (no_x_single _ _ _ _ _ _ _ B NX) as [H|(yc & n & Y & M & E)]; [exact (takes_date _ H)|].
  destruct (takes_form (bare s)) as (lv & f & T); [unfold level2_exact; auto 10|]. exists lv, f. split; [exact T|].
  assert (E' : bare s = (yc ++ $"-" ++ two m ++ $"-") ++ $"00") by (rewrite E, <- !app_assoc; reflexivity).
  assert (L : (10 <= length (bare s))%nat).
  { rewrite E. pose proof (year4_length _ _ Y) as Q. rewrite app_length. change (length ($"-" ++ two m ++ $"-00")) with 6%nat. lia. }
  apply (takes_span _ _ _ T); [intros c I; left; rewrite Forall_forall in P; exact (P c I)|left; apply (zero_day_level1 _ _ P E'); lia|]. intro H. apply sub_year_length in H. lia.
Qed.

(** ** Intervals *)
Lemma interval_level1 a b : Forall plain_byte a -> a <> [] -> Forall plain_byte b -> b <> [] -> ~ level1_text (a ++ "/"%char :: b).
Proof.
  intros Pa Na Pb Nb H. set (u := a ++ "/"%char :: b) in *.
  assert (P : forall c, In c u -> plain_byte c \/ c = "/"%char).
  { intros c I. unfold u in I. apply in_app_or in I. rewrite Forall_forall in Pa, Pb. destruct I as [I|[I|I]]; [left; auto|right; auto|left; auto]. }
  assert (X : forall c, is_digit c = false -> c <> "X"%char -> c <> "-"%char -> c <> "/"%char -> ~ In c u) by (intros c A1 A2 A3 A4 I; destruct (P c I) as [[Q|[Q|Q]]|Q]; congruence).
  assert (XY : ~ In "Y"%char u) by (apply X; [reflexivity|discriminate|discriminate|discriminate]). assert (Xc : ~ In ","%char u) by (apply X; [reflexivity|discriminate|discriminate|discriminate]).
  assert (Xd : ~ In "."%char u) by (apply X; [reflexivity|discriminate|discriminate|discriminate]).
  assert (S : In "/"%char u) by (unfold u; apply in_or_app; right; left; reflexivity).
  destruct H as [[H|[H|[H|[H|[H|[H|[H|H]]]]]]]|H].
  - exact (XY (letter_byte _ H)).
  - destruct H as (t & r & (y & Y) & (c & e & E & (n & N & E2) & Er) & Eu). unfold is in E. rewrite Eu, Er, E, E2 in S. apply in_app_or in S. destruct S as [S|[S|S]].
    + destruct (year4_bytes _ _ _ Y S) as [Q|Q]; discriminate Q.
    + discriminate S.
    + pose proof (two_plain n ltac:(lia)) as Q. rewrite Forall_forall in Q. destruct (Q _ S) as [Q1|[Q1|Q1]]; discriminate Q1.
  - exact (Xc (words_byte _ H)).
  - apply qualified_byte in H. destruct H as (c & M & I). destruct (P c I) as [[Q|[Q|Q]]|Q]; destruct M as [M|[M|M]]; subst c; discriminate Q.
  - apply UnspecifiedDigits_spec in H. revert H. apply not_true_iff_false. no_byte "/"%char. exact S.
  - destruct H as (p & q & [->|Hp] & (c & e & E & _ & ->) & Eu); unfold is in *; subst c.
    + unfold u in Eu. destruct a as [|x a]; [contradiction|]. injection Eu as -> _. inversion Pa as [|? ? Q _]. destruct Q as [Q|[Q|Q]]; discriminate Q.
    + apply Xd. rewrite Eu, Hp. left. reflexivity.
  - destruct H as (p & q & _ & (c & e & E & [->|He] & ->) & Eu); unfold is in *; subst c.
    + destruct (exists_last Nb) as (b' & x & ->). unfold u in Eu. rewrite app_nil_r in Eu. replace (a ++ "/"%char :: b' ++ [x]) with ((a ++ "/"%char :: b') ++ [x]) in Eu by (rewrite <- app_assoc; reflexivity).
      apply app_inj_tail in Eu. destruct Eu as (_ & ->). apply Forall_app in Pb. destruct Pb as (_ & Pb). inversion Pb as [|? ? Q _]. destruct Q as [Q|[Q|Q]]; discriminate Q.
    + apply Xd. rewrite Eu, He. apply in_or_app. right. right. left. reflexivity.
  - apply NegativeYear_spec in H. revert H. apply not_true_iff_false. no_byte "/"%char. exact S.
  - rewrite (upx_plain u P) in H. apply UnspecifiedDigits_spec in H. revert H. apply not_true_iff_false. no_byte "/"%char. exact S.
Qed.
Theorem interval_fits s : interval_form s -> fits_span (bare s).
Proof.
  intros (a & w & A & (c & b & E & B & ->) & ->). unfold is in E. subst c. rewrite bare_app. change (bare ($"/" ++ b)) with ("/"%char :: bare b).
  destruct (half_form_plain a A) as (Pa & Na). destruct (half_form_plain b B) as (Pb & Nb). set (u := bare a ++ "/"%char :: bare b).
  assert (S : In "/"%char u) by (unfold u; apply in_or_app; right; left; reflexivity).
  destruct (takes_form u) as (lv & f & T).
  { unfold level2_exact. do 7 right. exists (bare a), ("/"%char :: bare b). split; [exact (bare_half_form a A)|]. split; [|reflexivity]. exists ($"/"), (bare b). split; [reflexivity|]. split; [exact (bare_half_form b B)|reflexivity]. }
  exists lv, f. split; [exact T|]. apply (takes_span _ _ _ T).
  - intros x I. unfold u in I. apply in_app_or in I. rewrite Forall_forall in Pa, Pb. destruct I as [I|[I|I]]; [left; auto|right; auto|left; auto].
  - left. exact (interval_level1 _ _ Pa Na Pb Nb).
  - intro H. apply Grouping_spec in H. revert H. apply not_true_iff_false. no_byte "/"%char. exact S.
Qed.

(** ** Strings that are taken for seasons *)
Lemma level1_marked s c : level1_text s -> a_mark c -> In c s -> qualified_date s.
Proof.
  intros H M I. assert (G : forall R, match anchored R with Some a => plain a | None => false end = true ->
    (forall q, a_mark q -> in_set (match anchored R with Some a => bytes a | None => [] end) q = false) -> match_string R s = true -> False).
  { intros R P Q E. rewrite (byte_out R c s P (Q c M) I) in E. discriminate E. }
  assert (A : forall (f : ascii -> bool), f "?"%char = false -> f "~"%char = false -> f "%"%char = false -> forall q, a_mark q -> f q = false) by (intros f F1 F2 F3 q [->|[->| ->]]; assumption).
  destruct H as [[H|[H|[H|[H|[H|[H|[H|H]]]]]]]|H]; try exact H; exfalso.
  - apply LetterYear_spec in H. revert H. apply G; [reflexivity|apply A; reflexivity].
  - destruct H as (t & r & (y & Y) & (x & e & E & (n & N & ->) & ->) & ->). unfold is in E. subst x. apply in_app_or in I.
    assert (Q : is_digit c = true \/ c = "-"%char).
    { destruct I as [I|[I|I]]; [exact (year4_bytes _ _ _ Y I)|right; auto|]. left. destruct I as [<-|[<-|[]]]; apply is_digit_char; lia. }
    destruct M as [->|[->| ->]]; destruct Q as [Q|Q]; discriminate Q.
  - destruct H as (w & r & W & (sp & r2 & Sp & (cm & r3 & Ec & (sp2 & dg & Sp2 & Dg & ->) & ->) & ->) & ->). unfold is in Ec. subst cm.
    assert (S : forall z, spaces z -> ~ In c z).
    { intros z F J. unfold spaces in F. rewrite Forall_forall in F. specialize (F c J). destruct F as [->|[->|[->|[->| ->]]]]; destruct M as [M|[M|M]]; discriminate M. }
    assert (L : forall v z, forallb (fun k => (97 <=? code k) && (code k <=? 122)) v = true -> any_case v z -> ~ In c z).
    { intros v z F J. induction J as [|k v u z K J IH]; [intros []|]. cbn [forallb] in F. apply andb_true_iff in F. destruct F as (F1 & F2). intro X. apply in_app_or in X. destruct X as [X|X]; [|exact (IH F2 X)].
      assert (Cc : code c = 63 \/ code c = 126 \/ code c = 37) by (destruct M as [->|[->| ->]]; vm_compute; auto).
      destruct K as [->|[(k2 & -> & K)|(_ & ->)]].
      - destruct X as [<-|[]]. lia.
      - destruct X as [<-|[]]. lia.
      - destruct X as [<-|[<-|[]]]; vm_compute in Cc; intuition discriminate. }
    apply in_app_or in I. destruct I as [I|I].
    + destruct W as [W|[W|[W|W]]]; revert I; (refine (L _ _ _ W); reflexivity).
    + apply in_app_or in I. destruct I as [I|[I|I]]; [exact (S _ Sp I)|destruct M as [M|[M|M]]; rewrite M in I; discriminate I|]. change (In c (sp2 ++ dg)) in I. apply in_app_or in I. destruct I as [I|I]; [exact (S _ Sp2 I)|].
      destruct Dg as (_ & Dg). rewrite Forall_forall in Dg. specialize (Dg c I). destruct M as [->|[->| ->]]; discriminate Dg.
  - apply UnspecifiedDigits_spec in H. revert H. apply G; [reflexivity|apply A; reflexivity].
  - apply IntervalStart_spec in H. revert H. apply G; [reflexivity|apply A; reflexivity].
  - apply IntervalEnd_spec in H. revert H. apply G; [reflexivity|apply A; reflexivity].
  - apply NegativeYear_spec in H. revert H. apply G; [reflexivity|apply A; reflexivity].
  - apply UnspecifiedDigits_spec in H. revert H. apply not_true_iff_false. apply (byte_out _ c); [reflexivity|revert M; apply (A (fun q => in_set (match anchored UnspecifiedDigits with Some a => bytes a | None => [] end) q)); reflexivity|].
    apply in_upx; [| |exact I]; intro E; rewrite E in M; destruct M as [M|[M|M]]; discriminate M.
Qed.
Lemma season_month t y m r lo hi : year4 t y -> 1 <= m <= 12 -> season_reads (t ++ $"-" ++ two m ++ r) lo hi -> ~ In ","%char r -> lo = from_day y m 1 /\ hi = to_day y m (month_len y m).
Proof.
  intros Y M H N. remember (t ++ $"-" ++ two m ++ r) as s eqn:Es. destruct H as [t' y' n r' b e j Y' SM _ _|n w v sp sp' y' b e j _ _ _ _ _ _].
  - destruct (year_prefix _ _ _ _ _ _ Y Y' (eq_sym Es)) as (-> & E). injection E as E1 E2 _.
    assert (E : two m = two n) by (unfold two; congruence).
    assert (Nn : 0 <= n <= 99) by (destruct SM as [n0 S|n0 w b0 e0 j0 S]; [lia|destruct S; lia]). apply two_inj in E; [|lia|exact Nn]. subst n.
    assert (y = y') as <-.
    { destruct (year4_core _ _ Y) as (_ & A & _). destruct (year4_core _ _ Y') as (_ & B & _). congruence. }
    destruct SM as [n0 S|n0 w b0 e0 j0 S]; [|destruct S; lia]. rewrite Z.add_0_r. auto.
  - exfalso. assert (I : In ","%char (t ++ $"-" ++ two m ++ r)) by (rewrite <- Es; rewrite !in_app_iff; cbn; tauto).
    rewrite !in_app_iff in I. destruct I as [I|[I|[I|I]]]; [destruct (year4_bytes _ _ _ Y I) as [Q|Q]; discriminate Q|destruct I as [I|[]]; discriminate I| |exact (N I)].
    pose proof (two_plain m ltac:(lia)) as Q. rewrite Forall_forall in Q. destruct (Q _ I) as [Q1|[Q1|Q1]]; discriminate Q1.
Qed.
Lemma month_spot t y m : year4 t y -> 1 <= m <= 12 -> spot (t ++ $"-" ++ two m) (from_day y m 1) (to_day y m (month_len y m)).
Proof.
  intros Y M. apply spot_of_span.
  - apply takes_date. exists y, (Some m), None. apply (level0 t y ($"-" ++ two m)); [exact Y|apply mmdd_m; exact M].
  - apply sr_date. apply wd_intro; [|apply real_first; exact M|].
    + apply (dt_ym t t y y (two m) (two m) m m); [apply mk_none|apply yr_number; exact Y|apply mk_none|apply mr_number; exact M].
    + pose proof (month_len_range y m). unfold real_date. lia.
Qed.

(** ** The claims *)
Lemma spot_same s t lo hi : spot s lo hi -> spot t lo hi -> forall e, ParseString s = OK e -> exists e', ParseString t = OK e' /\ same_outer e e'.
Proof.
  intros (x & X & L & U) (e' & E' & L' & U') e E. rewrite E in X. injection X as <-. exists e'. split; [exact E'|].
  split; [apply (shows_same s e _ t e' _ lo)|apply (shows_same s e _ t e' _ hi)]; try assumption; cbn; auto.
Qed.
Lemma spot_ex s e : ParseString s = OK e -> exists lo hi, spot s lo hi.
Proof.
  intro E. destruct (bound_shows s e (r_lower (e_start e)) E) as (a & A); [left; reflexivity|]. destruct (bound_shows s e (r_upper (e_end e)) E) as (b & B); [cbn; auto|]. exists a, b, e. auto.
Qed.
Lemma spot_reads s lv f lo hi : takes s lv f -> spot s lo hi -> reads_as f s lo hi.
Proof.
  intros T S. pose proof S as (e & E & L & U). destruct (read_strings s e E) as [(-> & _)|[(-> & _)|(lv' & f' & lo' & hi' & T' & R & (_ & _ & L' & U'))]].
  - exfalso. apply matches_takes in T. discriminate T.
  - exfalso. apply matches_takes in T. discriminate T.
  - apply matches_takes in T. apply matches_takes in T'. rewrite T in T'. injection T' as <- <-. rewrite (shows_fun _ _ _ L L'), (shows_fun _ _ _ U U'). exact R.
Qed.
Lemma first_inv s l f : first_of s l f -> exists P, In (f, P) l /\ P s.
Proof. induction 1 as [f P l H|g P l f _ _ (Q & I & H)]; [exists P; split; [left; reflexivity|exact H]|exists Q; split; [right; exact I|exact H]]. Qed.
Lemma level0_clean s c : level0_form s -> a_mark c -> ~ In c s.
Proof.
  intros H M I. apply level0_grammar in H. rewrite (not_level0 s c) in H; [discriminate H| |exact I]. destruct M as [->|[->| ->]]; reflexivity.
Qed.
Lemma qualified_inv s : qualified_date s -> (exists u, marked_day s u) \/ exists t y q r, year4 t y /\ a_mark q /\ s = t ++ r ++ [q] /\ (r = [] \/ exists m, 1 <= m <= 12 /\ r = $"-" ++ two m).
Proof.
  intros (a & b & (y & m & d & H) & Mk & ->). assert (Q : exists q, a_mark q /\ b = [q]) by (destruct Mk as [->|[->| ->]]; eexists; (split; [|reflexivity]); unfold a_mark; auto).
  destruct Q as (q & Q & ->). destruct H as [t y0 r m0 d0 Y R]. destruct R as [|m1 M1|m1 d1 M1 D1].
  - right. exists t, y0, q, []. rewrite app_nil_r. auto.
  - right. exists t, y0, q, ($"-" ++ two m1). rewrite <- app_assoc. split; [exact Y|]. split; [exact Q|]. split; [reflexivity|]. right. eauto.
  - left. exists (t ++ $"-" ++ two m1). replace ((t ++ "-"%char :: two m1 ++ "-"%char :: two d1) ++ [q]) with (t ++ $"-" ++ two m1 ++ $"-" ++ two d1 ++ [q]) by (rewrite <- !app_assoc; reflexivity). apply (md_intro t y0); assumption.
Qed.
Lemma season_like_head t y r : year4 t y -> ~ In ","%char (t ++ r) -> season_like (t ++ r) -> exists n q, r = "-"%char :: two n ++ q.
Proof.
  intros Y N [H|(u & v & _ & H & E)].
  - apply season_head_iff in H. destruct (season_tail _ _ _ Y H) as (n & q & _ & ->). eauto.
  - exfalso. apply N. rewrite E. apply in_or_app. right. exact (words_comma _ H).
Qed.
Lemma fits_not_open u : fits_span u -> IsOpen u = false.
Proof.
  intros (lv & f & T & _). apply matches_takes in T. unfold IsOpen. destruct (seqb u OPEN) eqn:Q; [apply seqb_eq in Q; subst u; discriminate T|].
  destruct (seqb u OPEN_2012) eqn:Q'; [apply seqb_eq in Q'; subst u; discriminate T|reflexivity].
Qed.
Lemma mark_not_open u c : a_mark c -> In c u -> IsOpen u = false.
Proof.
  intros M I. unfold IsOpen. destruct (seqb u OPEN) eqn:Q; [apply seqb_eq in Q; subst u|destruct (seqb u OPEN_2012) eqn:Q'; [apply seqb_eq in Q'; subst u|reflexivity]];
    exfalso; cbn in I; repeat (destruct I as [I|I]; [rewrite <- I in M; destruct M as [M|[M|M]]; discriminate M|]); exact I.
Qed.
Lemma no_marks_bare s : existsb is_mark s = false -> bare s = s.
Proof.
  intro X. apply bare_id. intros c M I. assert (Y : existsb is_mark s = true) by (apply existsb_exists; exists c; split; [exact I|apply mark_iff; exact M]). congruence.
Qed.
Theorem marks_spot s e c : ParseString s = OK e -> (forall u, ~ marked_day s u) -> a_mark c -> In c s ->
  exists lo hi, spot s lo hi /\ spot (bare s) lo hi /\ IsOpen (bare s) = false.
Proof.
  intros E ND M I. destruct (spot_ex s e E) as (lo & hi & S).
  assert (G : spot (bare s) lo hi /\ IsOpen (bare s) = false).
  { destruct (read_strings s e E) as [(-> & _)|[(-> & _)|(lv & f & _ & _ & T & _ & _)]].
    { exfalso. destruct I as [<-|[<-|[]]]; destruct M as [M|[M|M]]; discriminate M. }
    { destruct I. }
    pose proof (spot_reads _ _ _ _ _ T S) as R.
    assert (SP : In f span_features -> fits_span (bare s) -> spot (bare s) lo hi /\ IsOpen (bare s) = false).
    { intros F W. split; [|exact (fits_not_open _ W)]. apply spot_of_span; [exact W|]. apply bare_span. apply (reads_span f s lo hi F). exact R. }
    assert (QD : qualified_date s -> (In f span_features \/ f = $"Seasons" /\ season_like s) -> spot (bare s) lo hi /\ IsOpen (bare s) = false).
    { intros Q F. destruct (qualified_inv s Q) as [(u & D)|(t & y & q & r & Y & Mq & Es & Hr)]; [destruct (ND u D)|].
      assert (C : Forall plain_byte (t ++ r)).
      { apply Forall_app. split; [exact (year4_plain _ _ Y)|]. destruct Hr as [->|(m & Hm & ->)]; [apply Forall_nil|]. apply Forall_cons; [right; right; reflexivity|apply two_plain; lia]. }
      assert (B : bare s = t ++ r).
      { rewrite Es, app_assoc, bare_app, (bare_plain _ C). apply mark_iff in Mq. unfold bare. cbn [filter]. rewrite Mq. apply app_nil_r. }
      destruct F as [F|(-> & SL)].
      - apply SP; [exact F|]. rewrite B. apply takes_date. destruct Hr as [->|(m & Hm & ->)]; [exists y, None, None; apply level0; [exact Y|apply mmdd_none]|exists y, (Some m), None; apply (level0 t y ($"-" ++ two m)); [exact Y|apply mmdd_m; exact Hm]].
      - assert (NC : ~ In ","%char s).
        { rewrite Es, app_assoc. intro J. apply in_app_or in J. rewrite Forall_forall in C. destruct J as [J|[J|[]]]; [destruct (C _ J) as [K|[K|K]]; discriminate K|]. destruct Mq as [K|[K|K]]; rewrite K in J; discriminate J. }
        rewrite Es in SL, NC. destruct (season_like_head t y _ Y NC SL) as (n & z & Ez). destruct Hr as [->|(m & Hm & ->)].
        + destruct Mq as [->|[->| ->]]; discriminate Ez.
        + apply reads_season in R. rewrite Es in R. rewrite <- app_assoc in R. rewrite B.
          destruct (season_month t y m [q] lo hi Y Hm R) as (-> & ->); [intros [K|[]]; destruct Mq as [Z|[Z|Z]]; rewrite Z in K; discriminate K|]. split; [exact (month_spot t y m Y Hm)|]. apply fits_not_open, takes_date. exists y, (Some m), None. apply (level0 t y ($"-" ++ two m)); [exact Y|apply mmdd_m; exact Hm]. }
    destruct T as [f T|f N0 L1 T|f N0 N1 T].
    - exfalso. apply first0_form in T. exact (level0_clean s c T M I).
    - pose proof (level1_marked s c L1 M I) as Q. apply QD; [exact Q|]. destruct (first_inv _ _ _ T) as (P & J & HP).
      cbn in J. repeat (destruct J as [J|J]; [injection J as <- <-; first [right; split; [reflexivity|exact HP]|left; cbn; auto 20|idtac]|]); [|destruct J].
      exfalso. apply letter_byte in HP. apply QualifiedDate_spec in Q. revert Q. apply not_true_iff_false. no_byte "Y"%char. exact HP.
    - destruct (first_inv _ _ _ T) as (P & J & HP). assert (A : forall (h : ascii -> bool), h "?"%char = false -> h "~"%char = false -> h "%"%char = false -> h c = false) by (intros h F1 F2 F3; destruct M as [->|[->| ->]]; assumption).
      assert (W : f = $"Qualification (Group)" /\ group_qualified s \/ f = $"Qualification (Individual)" /\ individually_qualified s \/ f = $"Interval" /\ interval_form s).
      { cbn in J. repeat (destruct J as [J|J]; [injection J as <- <-|]); [..|destruct J]; try (solve [auto]); exfalso.
        - apply Exponential_spec in HP. revert HP. apply not_true_iff_false. apply (byte_out _ c); [reflexivity|apply (A (in_set (match anchored ExponentialYear with Some a => bytes a | None => [] end))); reflexivity|exact I].
        - apply Significant_spec in HP. revert HP. apply not_true_iff_false. apply (byte_out _ c); [reflexivity|apply (A (in_set (match anchored SignificantDigits with Some a => bytes a | None => [] end))); reflexivity|exact I].
        - apply Grouping_spec in HP. revert HP. apply not_true_iff_false. apply (byte_out _ c); [reflexivity|apply (A (in_set (match anchored SubYearGrouping with Some a => bytes a | None => [] end))); reflexivity|exact I].
        - apply set_test in HP. revert HP. apply not_true_iff_false. apply (byte_out _ c); [reflexivity|apply (A (in_set (match anchored SetRepresentations with Some a => bytes a | None => [] end))); reflexivity|exact I].
        - apply Unspecified_spec in HP. revert HP. apply not_true_iff_false. apply (byte_out _ c); [reflexivity|apply (A (in_set (match anchored UnspecifiedDigit with Some a => bytes a | None => [] end))); reflexivity|exact I]. }
      assert (F : In f span_features) by (destruct W as [(-> & _)|[(-> & _)|(-> & _)]]; cbn; auto 20). pose proof (proj1 (reads_span f s lo hi F) R) as R2.
      apply SP; [exact F|]. destruct W as [(_ & W)|[(_ & W)|(_ & W)]].
      + apply (single_fits s lo hi); [auto|]. destruct R2 as [t l h R2|a b l x x' h _ _]; [exact R2|]. exfalso. apply Group_spec in W. revert W. apply not_true_iff_false. no_byte "/"%char. apply in_or_app. right. left. reflexivity.
      + apply (single_fits s lo hi); [auto|]. destruct R2 as [t l h R2|a b l x x' h _ _]; [exact R2|]. exfalso. apply Individual_spec in W. revert W. apply not_true_iff_false. no_byte "/"%char. apply in_or_app. right. left. reflexivity.
      + exact (interval_fits s W). }
  exists lo, hi. tauto.
Qed.
Theorem marks_kept s e : ParseString s = OK e -> (forall u, ~ marked_day s u) -> exists e', ParseString (bare s) = OK e' /\ same_outer e e'.
Proof.
  intros E ND. destruct (existsb is_mark s) eqn:X.
  2:{ rewrite (no_marks_bare s X). exists e. split; [exact E|]. split; repeat split. }
  apply existsb_exists in X. destruct X as (c & I & M). apply mark_iff in M.
  destruct (marks_spot s e c E ND M I) as (lo & hi & S & G & _). exact (spot_same s _ lo hi S G e E).
Qed.
Theorem marks_cmp s e : ParseString s = OK e -> (forall u, ~ marked_day s u) -> forall u v,
  alike (IsBefore s u) (IsBefore (bare s) u) /\ alike (IsBefore u s) (IsBefore u (bare s)) /\ alike (IsAfter s u) (IsAfter (bare s) u) /\ alike (IsAfter u s) (IsAfter u (bare s)) /\
  alike (IsBetween s u v) (IsBetween (bare s) u v) /\ alike (IsBetween u s v) (IsBetween u (bare s) v) /\ alike (IsBetween u v s) (IsBetween u v (bare s)).
Proof.
  intros E ND. destruct (existsb is_mark s) eqn:X; [|rewrite (no_marks_bare s X); intros; repeat split; apply al_same].
  apply existsb_exists in X. destruct X as (c & I & M). apply mark_iff in M.
  destruct (marks_spot s e c E ND M I) as (lo & hi & S & G & N). exact (spot_cmp s _ lo hi S G (mark_not_open s c M I) N).
Qed.
Theorem marks_day s u e : marked_day s u -> ParseString s = OK e -> exists e', ParseString u = OK e' /\ same_outer e e'.
Proof.
  intros D E. destruct D as [t y m d q Y Hm Hd Mq]. set (s := t ++ $"-" ++ two m ++ $"-" ++ two d ++ [q]) in *.
  assert (I : In q s) by (unfold s; rewrite !in_app_iff; cbn; tauto).
  assert (Q : qualified_date s).
  { exists (t ++ "-"%char :: two m ++ "-"%char :: two d), [q]. split; [|split].
    - exists y, (Some m), (Some d). apply (level0 t y ($"-" ++ two m ++ $"-" ++ two d)); [exact Y|apply mmdd_md; assumption].
    - destruct Mq as [->|[->| ->]]; unfold mark; auto.
    - unfold s. rewrite <- !app_assoc. reflexivity. }
  assert (T : takes s 1 ($"Seasons")).
  { apply tk_1; [intro H; exact (level0_clean s q H Mq I)|left; unfold level1_form; tauto|]. apply fo_later.
    - intro H. apply letter_byte in H. apply QualifiedDate_spec in Q. revert Q. apply not_true_iff_false. no_byte "Y"%char. exact H.
    - apply fo_here. left. exists (t ++ $"-" ++ two m), ($"-" ++ two d ++ [q]). split; [|split].
      + exists t, ($"-" ++ two m). split; [exists y; exact Y|]. split; [|reflexivity]. exists ($"-"), (two m). split; [reflexivity|]. split; [|reflexivity]. exists m. split; [lia|reflexivity].
      + exact Logic.I.
      + unfold s. rewrite <- !app_assoc. reflexivity. }
  destruct (spot_ex s e E) as (lo & hi & S). pose proof (spot_reads _ _ _ _ _ T S) as R. apply reads_season in R.
  destruct (season_month t y m ($"-" ++ two d ++ [q]) lo hi Y Hm R) as (-> & ->).
  - intro J. destruct J as [J|J]; [discriminate J|]. change (In ","%char (two d ++ [q])) in J. apply in_app_or in J. destruct J as [J|[J|[]]].
    + pose proof (two_plain d ltac:(lia)) as Z. rewrite Forall_forall in Z. destruct (Z _ J) as [Z1|[Z1|Z1]]; discriminate Z1.
    + destruct Mq as [Z|[Z|Z]]; rewrite Z in J; discriminate J.
  - exact (spot_same s _ _ _ S (month_spot t y m Y Hm) e E).
Qed.
Lemma not_marked_day s c : In c s -> ~ (is_digit c = true \/ c = "-"%char \/ a_mark c) -> forall u, ~ marked_day s u.
Proof.
  intros I N u H. apply N. destruct H as [t y m d q Y M D Q]. rewrite !in_app_iff in I.
  assert (B : forall n, 0 <= n <= 99 -> In c (two n) -> is_digit c = true).
  { intros n R [<-|[<-|[]]]; apply is_digit_char; lia. }
  destruct I as [I|[[I|[]]|[I|[[I|[]]|[I|[I|[]]]]]]]; [|subst c; auto|left; apply (B m); [lia|exact I]|subst c; auto|left; apply (B d); [lia|exact I]|subst c; auto].
  destruct (year4_bytes _ _ _ Y I) as [X|X]; auto.
Qed.
