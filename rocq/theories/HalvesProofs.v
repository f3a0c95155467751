(** Lemmas for C81: the halves of an interval. *)
From Coq Require Import Ascii String ZArith NArith Bool Lia ZifyBool List.
From Verif Require Import GoStr GoTime Regex Patterns RegexSym RegexRel RegexGen LangFacts LangNorm SpecCal SpecText SpecZone SpecGrammar SpecForms SpecSpan SpecSet SpecReads SpecSame SpecMarks StrFacts TextFacts Edtf Common Parser CalFacts ApiFacts InvFacts GrammarFacts LangForms LangForms2 FormFacts FormProofs Level0Proofs DateFacts Level0Facts SeasonFacts Level1Proofs ReadsFacts ReadsProofs SameProofs MarksProofs.
Import ListNotations.
Open Scope Z_scope.

Definition odd_byte (c : ascii) : Prop := In c ["Y"; "y"; "S"; "T"; "["; "{"]%char.
Lemma takes_other u lv f : takes u lv f -> (forall c, odd_byte c -> ~ In c u) -> f <> $"Seasons" ->
  In f span_features \/ (sub_year_grouping u /\ ~ level0_form u).
Proof.
  intros T B NS. unfold odd_byte in B.
  assert (L : ~ letter_year u) by (intro H; apply (B "Y"%char); [cbn; auto 10|exact (letter_byte _ H)]).
  assert (E : ~ exponential_year u) by (intro H; destruct (exponential_byte _ H) as [K|K]; revert K; apply B; cbn; auto 10).
  assert (S : ~ significant_digits u) by (intro H; apply (B "S"%char); [cbn; auto 10|exact (significant_byte _ H)]).
  assert (D : ~ datetime_text u) by (intro H; apply (B "T"%char); [cbn; auto 10|exact (datetime_byte _ H)]).
  assert (W : ~ is_set u) by (intro H; destruct (set_byte _ H) as [K|K]; revert K; apply B; cbn; auto 10).
  assert (step : forall g P l h, first_of u ((g, P) :: l) h -> (P u /\ h = g) \/ first_of u l h).
  { intros g P l h H. remember ((g, P) :: l) as w eqn:Ew. destruct H as [g0 P0 l0 H|g0 P0 l0 h0 _ H]; injection Ew as -> -> ->; auto. }
  assert (stop : forall h, ~ first_of u [] h) by (intros h H; inversion H).
  destruct T as [h H|h _ N H|h N0 _ H].
  - left. unfold level0_features in H. repeat (apply step in H; destruct H as [(Q & ->)|H]; [first [contradiction|cbn; auto 20]|]). destruct (stop _ H).
  - left. unfold level1_features in H. apply step in H. destruct H as [(Q & _)|H]; [contradiction|]. apply step in H. destruct H as [(_ & Q)|H]; [contradiction|].
    repeat (apply step in H; destruct H as [(Q & ->)|H]; [cbn; auto 20|]). destruct (stop _ H).
  - unfold level2_features in H. do 2 (apply step in H; destruct H as [(Q & ->)|H]; [contradiction|]). apply step in H. destruct H as [(Q & ->)|H]; [right; auto|left].
    repeat (apply step in H; destruct H as [(Q & ->)|H]; [first [contradiction|cbn; auto 20]|]). destruct (stop _ H).
Qed.

(** A date holds no odd byte. *)
Lemma date_bytes s lo hi c : whole_date s lo hi -> In c s -> plain_byte c \/ a_mark c.
Proof.
  intros [y m d y' m' d' D _ _] I. destruct (is_mark c) eqn:M; [right; apply mark_iff; exact M|left].
  pose proof (bare_date_plain _ _ _ _ _ _ _ (bare_cases _ _ _ _ _ _ _ D)) as P. rewrite Forall_forall in P. apply P. unfold bare. apply filter_In. split; [exact I|]. rewrite M. reflexivity.
Qed.
Lemma date_odd s lo hi c : whole_date s lo hi -> odd_byte c -> ~ In c s.
Proof.
  intros D O I. cbn in O. destruct (date_bytes _ _ _ _ D I) as [[Q|[Q|Q]]|[Q|[Q|Q]]]; repeat (destruct O as [O|O]; [rewrite <- O in Q; discriminate Q|]); exact O.
Qed.
Lemma date_not_grouping s lo hi : whole_date s lo hi -> sub_year_grouping s -> ~ level0_form s -> False.
Proof.
  intros [y m d y' m' d' D _ _] G N. pose proof (bare_cases _ _ _ _ _ _ _ D) as B.
  assert (O : forall (c : ascii), in_set (match anchored SubYearGrouping with Some a => bytes a | None => [] end) c = false -> ~ In c s).
  { intros c K I. apply Grouping_spec in G. revert G. apply not_true_iff_false. apply (byte_out _ c); [reflexivity|exact K|exact I]. }
  rewrite bare_id in B by (intros c [->|[->| ->]]; apply O; reflexivity).
  destruct (no_x_single _ _ _ _ _ _ _ B) as [H|(yc & n & Y & M & E)]; [apply O; reflexivity|apply N; left; exact H|].
  apply sub_year_length in G. rewrite E, app_length in G. pose proof (year4_length _ _ Y) as L. change (length ($"-" ++ two m ++ $"-00")) with 6%nat in G. lia.
Qed.
(** A half and the same text alone. *)
Lemma half_alone a b b' e : half a b b' -> ~ In "/"%char a -> ParseString a = OK e -> e_feature e <> $"Seasons" ->
  r_lower (e_start e) = b /\ r_upper (e_end e) = b'.
Proof.
  intros H NS E F. pose proof (half_fwd _ _ _ H) as (sp & P & P1 & P2 & _).
  destruct (seqb a ($"..")) eqn:A1; [apply seqb_eq in A1; subst a; vm_compute in E, P; injection E as <-; injection P as <-; subst b b'; split; reflexivity|].
  destruct (seqb a []) eqn:A2; [apply seqb_eq in A2; subst a; vm_compute in E, P; injection E as <-; injection P as <-; subst b b'; split; reflexivity|].
  assert (D : exists lo hi, whole_date a lo hi).
  { destruct (proj2 (half_bridge a (match d_timestamp b with Some t => At t | None => Dots end) (match d_timestamp b' with Some t => At t | None => Dots end))) as [| |t l h D];
      [|rewrite seqb_refl in A2; discriminate A2|rewrite seqb_refl in A1; discriminate A1|eauto].
    exists b, b'. split; [exact H|]. destruct H as [| |t y m d y' m' d' u x p sg HD R R' _ _]; [rewrite seqb_refl in A2; discriminate A2|rewrite seqb_refl in A1; discriminate A1|repeat split]. }
  destruct D as (lo & hi & D).
  destruct (read_strings a e E) as [(-> & _)|[(-> & _)|(lv & f & l & h & T & R & (_ & Ef & _))]]; [discriminate A1|discriminate A2|].
  rewrite Ef in F. destruct (takes_other _ _ _ T (fun c O => date_odd _ _ _ c D O) F) as [SF|(G & N)]; [|destruct (date_not_grouping _ _ _ D G N)].
  apply matches_takes in T. assert (W : exists lv' f', ParseString a = (let* sp := DateSpanFromEDTF a in OK (edtf_of_span sp a lv' f'))).
  { destruct (named_routed a lv f T) as [lv f _ W|K W|K W|K W|K W|K W|K W|K W]; [eauto|..]; exfalso; cbn [In span_features] in SF; repeat (destruct SF as [SF|SF]; [discriminate SF|]); exact SF. }
  destruct W as (lv' & f' & W). rewrite single_fwd in W by exact NS. unfold dateSpanFromEDTF in P. change UNKNOWN with (@nil ascii) in P. change OPEN with ($"..") in P. rewrite A1, A2 in P. rewrite P in W. rewrite E in W. injection W as ->. auto.
Qed.
Lemma slash_once a b a' b' : a ++ "/"%char :: b = a' ++ "/"%char :: b' -> ~ In "/"%char a' -> ~ In "/"%char b' -> a = a' /\ b = b'.
Proof.
  revert a'. induction a as [|x a IH]; intros [|y a'] E Na Nb; cbn in E.
  - injection E as ->. auto.
  - injection E as <- _. destruct Na. left. reflexivity.
  - injection E as -> E. destruct Nb. rewrite <- E. apply in_or_app. right. left. reflexivity.
  - injection E as -> E. destruct (IH a' E) as (-> & ->); [intro I; apply Na; right; exact I|exact Nb|auto].
Qed.
Lemma slash_span s e : ParseString s = OK e -> In "/"%char s -> e_feature e <> $"Seasons" ->
  exists sp lv f, DateSpanFromEDTF s = OK sp /\ e = edtf_of_span sp s lv f.
Proof.
  intros E I F. destruct (read_strings s e E) as [(-> & _)|[(-> & _)|(lv & f & l & h & T & R & (_ & Ef & _))]].
  - destruct I as [I|[I|[]]]; discriminate I.
  - destruct I.
  - rewrite Ef in F. apply matches_takes in T. assert (no : forall R, match anchored R with Some a => plain a | None => false end = true ->
      in_set (match anchored R with Some a => bytes a | None => [] end) "/"%char = false -> match_string R s = true -> False).
    { intros R0 P Q K. rewrite (byte_out R0 "/"%char s P Q I) in K. discriminate K. }
    destruct (named_routed s lv f T) as [lv f SF P|K P|K P|K P|K P|K P|K P|K P]; try (exfalso; revert K; apply no; reflexivity).
    + rewrite E in P. symmetry in P. apply bind_OK in P. destruct P as (sp & P & Q). injection Q as <-. eauto.
    + contradiction F. reflexivity.
Qed.
Theorem halves s e a b : ParseString s = OK e -> s = a ++ "/"%char :: b -> e_feature e <> $"Seasons" ->
  range_text (e_start e) a /\ range_text (e_end e) b /\
  (forall e1, ParseString a = OK e1 -> e_feature e1 <> $"Seasons" -> covers (e_start e) e1) /\
  (forall e2, ParseString b = OK e2 -> e_feature e2 <> $"Seasons" -> covers (e_end e) e2).
Proof.
  intros E Es F. assert (I : In "/"%char s) by (rewrite Es; apply in_or_app; right; left; reflexivity).
  destruct (slash_span s e E I F) as (sp & lv & f & P & ->).
  destruct (DateSpan_inv s sp P) as [(N & _)|(a' & b' & b1 & b2 & b3 & b4 & Es' & Na & Nb & Ha & Hb & ->)]; [contradiction|].
  rewrite Es in Es'. destruct (slash_once _ _ _ _ Es' Na Nb) as (-> & ->). split; [reflexivity|]. split; [reflexivity|].
  split; intros x X Fx; [destruct (half_alone _ _ _ _ Ha Na X Fx) as (<- & <-)|destruct (half_alone _ _ _ _ Hb Nb X Fx) as (<- & <-)]; split; reflexivity.
Qed.
