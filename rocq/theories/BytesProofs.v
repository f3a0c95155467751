(** Lemmas for C87. *)
From Coq Require Import Ascii String ZArith NArith Bool Lia ZifyBool List.
From Verif Require Import GoStr GoTime SpecCal SpecText SpecZone SpecGrammar SpecForms SpecSpan SpecSet SpecWrap SpecReads SpecWhole StrFacts TextFacts
  Regex RegexRel RegexGen LangFacts Patterns Edtf Common Level0 Level1 Level2 Parser Json FormProofs WholeProofs SpecBytes.
Import ListNotations.
Open Scope Z_scope.

Definition plain_b (c : ascii) : bool := is_digit c || existsb (Ascii.eqb c) ($"TZXxYyEeS-+:/.,?~%[]{}").
Lemma plain_b_iff c : plain_b c = true <-> plain_byte c.
Proof.
  unfold plain_b, plain_byte. rewrite orb_true_iff, existsb_exists. split; (intros [H|H]; [left; exact H|right]).
  - destruct H as (x & I & E). apply Ascii.eqb_eq in E. subst x. exact I.
  - exists c. split; [exact H|apply Ascii.eqb_refl].
Qed.
(** Every byte of a set of ranges satisfies [P]. *)
Definition all_bytes : list Z := map Z.of_nat (seq 0 256).
Definition only_set (P : ascii -> bool) (cs : cset) : bool := forallb (fun z => negb (in_set cs (chr z)) || P (chr z)) all_bytes.
Fixpoint only (P : ascii -> bool) (r : re) : bool :=
  match r with
  | REps => true
  | RSet cs => only_set P cs
  | RSeq a b | RAlt a b => only P a && only P b
  | ROpt a | RStar a | RCap _ a => only P a
  | RBegin | REnd => false
  end.
Lemma only_in P cs c : only_set P cs = true -> in_set cs c = true -> P c = true.
Proof.
  unfold only_set. rewrite forallb_forall. intros H I. pose proof (code_range c) as R.
  specialize (H (code c)). rewrite chr_code, I in H. apply H. unfold all_bytes. apply in_map_iff. exists (Z.to_nat (code c)). split; [lia|]. apply in_seq. lia.
Qed.
Lemma only_gen P r : only P r = true -> forall u k, gen r u k -> Forall (fun c => P c = true) u.
Proof.
  induction r as [|cs|a IHa b IHb|a IHa b IHb|a IHa|a IHa|i a IHa| |]; intros H u k G; cbn [gen] in G; cbn [only] in H; try discriminate H.
  - destruct G as (-> & _). constructor.
  - destruct G as (c & -> & G & _). constructor; [exact (only_in _ _ _ H G)|constructor].
  - apply andb_true_iff in H. destruct H as (Ha & Hb). destruct G as (u1 & k1 & u2 & k2 & G1 & G2 & -> & _).
    apply Forall_app. split; [exact (IHa Ha _ _ G1)|exact (IHb Hb _ _ G2)].
  - apply andb_true_iff in H. destruct H as (Ha & Hb). destruct G as [G|G]; [exact (IHa Ha _ _ G)|exact (IHb Hb _ _ G)].
  - destruct G as [G|(-> & _)]; [exact (IHa H _ _ G)|constructor].
  - specialize (IHa H). clear H. induction G; [constructor|]. apply Forall_app. eauto.
  - destruct G as (k1 & G & _). exact (IHa H _ _ G).
Qed.
Definition only_re (P : ascii -> bool) (R : regexp) : bool := match anchored R with Some a => plain a && only P a | None => false end.
Lemma only_match R s : only_re plain_b R = true -> match_string R s = true -> plain_text s.
Proof.
  unfold only_re. destruct (anchored R) as [a|] eqn:E; [|discriminate]. intros H M. apply andb_true_iff in H. destruct H as (Hp & Hl).
  apply (anchored_lg R a E Hp) in M. destruct M as (k & M). apply (Forall_impl _ (fun c => proj1 (plain_b_iff c))). exact (only_gen _ _ Hl _ _ M).
Qed.

(** ** The forms *)
From Verif Require Import LangForms LangForms2 GrammarFacts ReadsFacts RefProofs.
Lemma first_form s l f : first_of s l f -> exists P, In (f, P) l /\ P s.
Proof. intro H. induction H as [f P l H|g P l f N H (Q & I & IH)]; [exists P|exists Q]; (split; [|assumption]); [left; reflexivity|right; exact I]. Qed.
Lemma plain_app a b : plain_text a -> plain_text b -> plain_text (a ++ b).
Proof. intros A B. apply Forall_app. split; assumption. Qed.
Lemma plain_digit n : 0 <= n <= 9 -> plain_byte (digit_char n).
Proof. intro H. left. unfold is_digit. rewrite code_digit_char by exact H. lia. Qed.
Ltac Zify.zify_post_hook ::= Z.div_mod_to_equations.
Lemma plain_two n : 0 <= n <= 99 -> plain_text (two n).
Proof. intro H. unfold two. repeat (constructor; [apply plain_digit; lia|]). constructor. Qed.
Lemma plain_four n : 0 <= n <= 9999 -> plain_text (four n).
Proof. intro H. unfold four. repeat (constructor; [apply plain_digit; lia|]). constructor. Qed.
Lemma plain_upx s : plain_text (map upx s) -> plain_text s.
Proof.
  induction s as [|c s IH]; intro H; [constructor|]. cbn [map] in H. inversion H as [|c' s' Hc Hs]; subst. constructor; [|exact (IH Hs)].
  revert Hc. unfold upx. destruct (Ascii.eqb c "x") eqn:E; [|intro H'; exact H']. apply Ascii.eqb_eq in E. subst c. intros _. apply plain_b_iff. reflexivity.
Qed.
Lemma plain_season s : season_date s -> plain_text s.
Proof.
  intros (t & v & (y & Y) & (u & w & -> & (n & N & ->) & ->) & ->). apply plain_app; [destruct Y; [|constructor; [apply plain_b_iff; reflexivity|]]; apply plain_four; assumption|].
  apply plain_app; [constructor; [apply plain_b_iff; reflexivity|constructor]|apply plain_two; lia].
Qed.
Lemma plain_level1 s : level1_text s -> plain_text s \/ season_words s.
Proof.
  intros [[H|[H|[H|[H|[H|[H|[H|H]]]]]]]|H].
  - left. apply LetterYear_spec in H. revert H. apply only_match. vm_compute. reflexivity.
  - left. exact (plain_season s H).
  - right. exact H.
  - left. apply QualifiedDate_spec in H. revert H. apply only_match. vm_compute. reflexivity.
  - left. apply UnspecifiedDigits_spec in H. revert H. apply only_match. vm_compute. reflexivity.
  - left. apply IntervalStart_spec in H. revert H. apply only_match. vm_compute. reflexivity.
  - left. apply IntervalEnd_spec in H. revert H. apply only_match. vm_compute. reflexivity.
  - left. apply NegativeYear_spec in H. revert H. apply only_match. vm_compute. reflexivity.
  - left. apply plain_upx. apply UnspecifiedDigits_spec in H. revert H. apply only_match. vm_compute. reflexivity.
Qed.
Lemma plain_takes s lv f : takes s lv f -> plain_text s \/ season_words s.
Proof.
  intros [g F|g _ L _|g _ _ F]; [| |].
  - left. assert (E : IsLevel0 s = true).
    { apply first_form in F. destruct F as (P & I & H). apply level0_test. cbn [In level0_features] in I. unfold level0_form.
      decompose [or] I; try contradiction; match goal with E : (_, _) = (_, _) |- _ => injection E as _ <- end; auto. }
    revert E. apply only_match. vm_compute. reflexivity.
  - exact (plain_level1 s L).
  - left. apply first_form in F. destruct F as (P & I & H). cbn [In level2_features] in I.
    decompose [or] I; try contradiction; match goal with E : (_, _) = (_, _) |- _ => injection E as _ <- end.
    + apply Exponential_spec in H. revert H. apply only_match. vm_compute. reflexivity.
    + apply Significant_spec in H. revert H. apply only_match. vm_compute. reflexivity.
    + apply Grouping_spec in H. revert H. apply only_match. vm_compute. reflexivity.
    + apply set_test in H. revert H. apply only_match. vm_compute. reflexivity.
    + apply Group_spec in H. revert H. apply only_match. vm_compute. reflexivity.
    + apply Individual_spec in H. revert H. apply only_match. vm_compute. reflexivity.
    + apply Unspecified_spec in H. revert H. apply only_match. vm_compute. reflexivity.
    + apply Interval_spec in H. revert H. apply only_match. vm_compute. reflexivity.
Qed.
Theorem parsed_bytes s d : ParseString s = OK d -> plain_text s \/ season_words s.
Proof.
  intro H. destruct (whole_strings _ _ H) as [(-> & _)|[(-> & _)|(lv & f & sp & T & _)]]; [left..|exact (plain_takes _ _ _ T)].
  - repeat (constructor; [apply plain_b_iff; reflexivity|]). constructor.
  - constructor.
Qed.
(** Any byte that passes a test of all bytes of accepted strings. *)
Definition word_b (c : ascii) : bool := existsb (Ascii.eqb c) ($"springsummerfallwinterSPRINGSUMMERFALLWINTER") || existsb (Ascii.eqb c) [chr 197; chr 191].
Definition space_b (c : ascii) : bool := existsb (Ascii.eqb c) [" "%char; chr 9; chr 10; chr 12; chr 13].
Lemma existsb_in c l : existsb (Ascii.eqb c) l = true <-> In c l.
Proof. rewrite existsb_exists. split; [intros (x & I & E); apply Ascii.eqb_eq in E; subst x; exact I|intro I; exists c; split; [exact I|apply Ascii.eqb_refl]]. Qed.
Lemma letter_word c u : In c ($"springsummerfallwinter") -> same_letter c u -> Forall (fun x => word_b x = true) u.
Proof.
  intros I [->|[(d & -> & E)|(_ & ->)]].
  - constructor; [|constructor]. unfold word_b. rewrite orb_true_iff. left. apply existsb_in. change ($"springsummerfallwinterSPRINGSUMMERFALLWINTER") with ($"springsummerfallwinter" ++ $"SPRINGSUMMERFALLWINTER"). apply in_or_app. left. exact I.
  - constructor; [|constructor]. rewrite <- (chr_code d), E. assert (N : forallb (fun c => word_b (chr (code c - 32))) ($"springsummerfallwinter") = true) by (vm_compute; reflexivity).
    rewrite forallb_forall in N. exact (N c I).
  - repeat constructor.
Qed.
Lemma case_word w v : any_case w v -> incl w ($"springsummerfallwinter") -> Forall (fun x => word_b x = true) v.
Proof.
  intro H. induction H as [|c w u v L H IH]; intro I; [constructor|]. apply Forall_app. split; [apply (letter_word c); [apply I; left; reflexivity|exact L]|].
  apply IH. intros x X. apply I. right. exact X.
Qed.
Lemma name_word v : season_name v -> Forall (fun x => word_b x = true) v.
Proof. intros [H|[H|[H|H]]]; apply (case_word _ _ H); intros x X; apply existsb_in; revert x X; apply forallb_forall; vm_compute; reflexivity. Qed.
Lemma spaces_b t : spaces t -> Forall (fun x => space_b x = true) t.
Proof. unfold spaces. apply Forall_impl. intros c H. unfold is_space in H. decompose [or] H; subst c; reflexivity. Qed.
Definition any_b (c : ascii) : bool := plain_b c || word_b c || space_b c.
Lemma parsed_any s d : ParseString s = OK d -> Forall (fun c => any_b c = true) s.
Proof.
  intro H. destruct (parsed_bytes _ _ H) as [P|(v & r & V & (g & r' & G & (c & r'' & -> & (g' & n & G' & (L & N) & ->) & ->) & ->) & ->)].
  - revert P. apply Forall_impl. intros c C. apply plain_b_iff in C. unfold any_b. rewrite C. reflexivity.
  - repeat (apply Forall_app; split).
    + apply name_word in V. revert V. apply Forall_impl. intros x X. unfold any_b. rewrite X. apply orb_true_iff. left. apply orb_true_r.
    + apply spaces_b in G. revert G. apply Forall_impl. intros x X. unfold any_b. rewrite X. apply orb_true_r.
    + constructor; [reflexivity|constructor].
    + apply spaces_b in G'. revert G'. apply Forall_impl. intros x X. unfold any_b. rewrite X. apply orb_true_r.
    + revert N. apply Forall_impl. intros x X. unfold any_b, plain_b. rewrite X. reflexivity.
Qed.
Theorem parsed_markup s d c : ParseString s = OK d -> In c s -> ~ marked_up c /\ (control c -> is_space c).
Proof.
  intros H I. pose proof (parsed_any _ _ H) as F. rewrite Forall_forall in F. specialize (F c I). split.
  - intro M. assert (N : forallb (fun x => negb (any_b x)) ([chr 34; chr 39; chr 92; chr 96] ++ $"<>&;|$()*#!=_@^") = true) by (vm_compute; reflexivity).
    rewrite forallb_forall in N. specialize (N c M). rewrite F in N. discriminate N.
  - intro C. assert (N : forallb (fun z => negb (any_b (chr z)) || space_b (chr z)) (map Z.of_nat (seq 0 32 ++ [127%nat])) = true) by (vm_compute; reflexivity).
    rewrite forallb_forall in N. specialize (N (code c)). rewrite chr_code, F in N. pose proof (code_range c). assert (S : space_b c = true).
    { apply N. apply in_map_iff. exists (Z.to_nat (code c)). split; [lia|]. apply in_or_app. unfold control in C. destruct C as [C|C]; [left; apply in_seq; lia|right; left; lia]. }
    unfold space_b in S. apply existsb_in in S. cbn [In] in S. unfold is_space. destruct S as [S|[S|[S|[S|[S|[]]]]]]; symmetry in S; tauto.
Qed.
Lemma plain_quote s : plain_text s -> flat_map esc s = s.
Proof.
  intro H. induction H as [|c s C H IH]; [reflexivity|]. cbn [flat_map]. rewrite IH. assert (E : esc c = [c]); [|rewrite E; reflexivity].
  destruct C as [C|C].
  - unfold is_digit in C. unfold esc. cbv zeta. repeat match goal with |- (if ?b then _ else _) = _ => replace b with false by lia end. reflexivity.
  - assert (N : forallb (fun c => seqb (esc c) [c]) ($"TZXxYyEeS-+:/.,?~%[]{}") = true) by (vm_compute; reflexivity).
    rewrite forallb_forall in N. specialize (N c C). apply seqb_eq in N. exact N.
Qed.
Theorem parsed_quote s d : ParseString s = OK d -> ~ season_words s -> Json.quote s = [chr 34] ++ s ++ [chr 34].
Proof. intros H N. destruct (parsed_bytes _ _ H) as [P|W]; [|contradiction]. unfold Json.quote. rewrite (plain_quote _ P). reflexivity. Qed.

(** ** A digit and four bytes at least *)
Definition sizable (s : str) : Prop := (exists c, In c s /\ is_digit c = true) /\ (4 <= length s)%nat.
Lemma size_l a b : sizable a -> sizable (a ++ b).
Proof. intros ((c & I & D) & L). split; [exists c; split; [apply in_or_app; left; exact I|exact D]|rewrite app_length; lia]. Qed.
Lemma size_r a b : sizable b -> sizable (a ++ b).
Proof. intros ((c & I & D) & L). split; [exists c; split; [apply in_or_app; right; exact I|exact D]|rewrite app_length; lia]. Qed.
Lemma size_cons c b : sizable b -> sizable (c :: b).
Proof. apply (size_r [c]). Qed.
Lemma digit_is n : 0 <= n <= 9 -> is_digit (digit_char n) = true.
Proof. intro H. unfold is_digit. rewrite code_digit_char by exact H. lia. Qed.
Lemma size_four n : 0 <= n <= 9999 -> sizable (four n).
Proof. intro H. split; [|cbn; lia]. exists (digit_char (n mod 10)). split; [right; right; right; left; reflexivity|apply digit_is; lia]. Qed.
Lemma size_year t y : year4 t y -> sizable t.
Proof. intros [n N|n N]; [|apply size_cons]; apply size_four; exact N. Qed.
Lemma size_marks c t w : marks c t w -> sizable c -> sizable t.
Proof. intros [|q _|q _] S; [exact S|apply size_cons; exact S|apply size_l; exact S]. Qed.
Lemma size_reads c y y' : year_reads c y y' -> sizable c.
Proof. intros [t y0 Y|a b e A _ _]; [exact (size_year _ _ Y)|]. split; [exists a; split; [left; reflexivity|exact A]|cbn; lia]. Qed.
Lemma size_date s y m d y' m' d' u a p : date_whole s y m d y' m' d' u a p -> sizable s.
Proof. intros [yt yc yw y0 y0' Y R|yt yc yw y0 y0' mt mc mw m0 m0' Y R M Q|yt yc yw y0 y0' mt mc mw m0 m0' dt dc dw d0 d0' Y R M Q D S]; try apply size_l; exact (size_marks _ _ _ Y (size_reads _ _ _ R)). Qed.
Lemma size_side s lo hi : side s lo hi -> s = [] \/ s = $".." \/ sizable s.
Proof. intros [| |t y m d y' m' d' u a p D _ _]; auto. right. right. exact (size_date _ _ _ _ _ _ _ _ _ _ D). Qed.
Lemma size_digits ds m : dec_digits ds m -> (exists c, In c ds /\ is_digit c = true) /\ (1 <= length ds)%nat.
Proof.
  intros [n N|t v n H N]; [split; [exists (digit_char n); split; [left; reflexivity|exact (digit_is n N)]|cbn; lia]|].
  split; [exists (digit_char n); split; [apply in_or_app; right; left; reflexivity|exact (digit_is n N)]|rewrite app_length; cbn; lia].
Qed.
Lemma size_exp a t m e : exp_text t m e -> sizable (a :: t).
Proof.
  intros [neg ds c es m0 e0 D _ E]. apply size_digits in D, E. destruct D as ((x & X & Dx) & L), E as (_ & L').
  split; [exists x; split; [right; apply in_or_app; right; apply in_or_app; left; exact X|exact Dx]|]. cbn [length]. rewrite !app_length. cbn [length]. lia.
Qed.
Lemma size_level0 t : is_level0_date t -> sizable t.
Proof. intros (y & m & d & [t0 y0 r m0 d0 Y _]). apply size_l. exact (size_year _ _ Y). Qed.
Lemma size_set s : is_set s -> sizable s.
Proof.
  intros (o & body & H). inversion H as [o' body' c O B C]; subst. apply size_cons, size_l. destruct B as [a r b _ R _]. apply size_r, size_l. destruct R; apply size_l, size_level0; assumption.
Qed.
Lemma takes_set s lv : takes s lv ($"Set representation") -> is_set s.
Proof.
  intro H. inversion H as [f F|f _ _ F|f _ _ F]; subst; apply first_form in F; destruct F as (P & I & Q); cbn [In level0_features level1_features level2_features] in I;
    decompose [or] I; try contradiction; match goal with E : (_, _) = (_, _) |- _ => first [discriminate E|injection E as <-] end; assumption.
Qed.
Lemma size_day y m d : 0 <= y <= 9999 -> sizable (day_text y m d).
Proof. intro Y. unfold day_text. apply size_l. unfold year_text. replace (y <? 0) with false by lia. apply size_four. exact Y. Qed.
Theorem parsed_size s d : ParseString s = OK d -> s = [] \/ s = $".." \/ sizable s.
Proof.
  intro H. destruct (whole_strings _ _ H) as [(-> & _)|[(-> & _)|(lv & f & sp & T & W & _)]]; [auto..|right; right].
  destruct W as [f s sp F W|s t b S _|t y sp Y _|t y n r b e j sp Y _ _ _ _|n w v gap gap' y b e j sp S _ _ _ Y0 Y1 _|a t m e y sp _ E _ _ _|u y nd v l h sp U N _ _|y n b e sp _ Y _|y n b e sp _ Y _|o i l ds so eo c a b sp _ _ _ _ _ _].
  - destruct W as [s sp D|a b lo x x' hi A B].
    + destruct D as [y m d0 u a p D _|y m d0 y' m' d' u a p D _ _ _]; exact (size_date _ _ _ _ _ _ _ _ _ _ D).
    + apply size_side in A, B. destruct A as [->|[->|A]]; [| |apply size_l; exact A]; (destruct B as [->|[->|B]]; [| |apply size_r, size_cons; exact B]);
        exfalso; apply matches_takes in T; vm_compute in T; discriminate T.
  - destruct S; unfold stamp_text; [|apply size_cons]; apply size_l; apply size_day; lia.
  - apply size_cons. exact (size_year _ _ Y).
  - apply size_l. exact (size_year _ _ Y).
  - do 4 apply size_r. apply size_four. assert (0 <= j) by (destruct S; lia). lia.
  - exact (size_exp a t m e E).
  - destruct U as [t y Y|neg ds m D _|c t m e y _ E _ _ _]; [apply size_l; exact (size_year _ _ Y)| |apply size_l; exact (size_exp c t m e E)].
    apply size_digits in D, N. destruct D as ((x & X & Dx) & L), N as (_ & L'). split; [exists x; split; [apply in_or_app; left; right; apply in_or_app; right; exact X|exact Dx]|].
    rewrite app_length. cbn [length]. rewrite !app_length. change (length ($"S")) with 1%nat. lia.
  - apply size_l, size_four. exact Y.
  - apply size_l, size_four. lia.
  - apply size_set. exact (takes_set _ _ T).
Qed.
(** ** Every byte is used *)
Definition witnesses : list str :=
  [$"0123"; $"4567"; $"8900"; $"1985-12-1x"; $"y1E3"; $"Y2e3S1"; $"{..1985-04-12,1986}"; $"?1985-~04-%1X/-0003";
   $"1985-04-12T10:00:00+05:30"; $"1985-04-12T10:00:00Z"; $"[1985]"].
Lemma witnesses_parse : Forall (fun s => exists d, ParseString s = OK d) witnesses.
Proof. unfold witnesses. repeat (apply Forall_cons; [eexists; vm_compute; reflexivity|]). constructor. Qed.
Theorem plain_used c : plain_byte c -> exists s d, ParseString s = OK d /\ In c s.
Proof.
  intro H. apply plain_b_iff in H.
  assert (N : forallb (fun z => negb (plain_b (chr z)) || existsb (fun s => existsb (Ascii.eqb (chr z)) s) witnesses) all_bytes = true) by (vm_compute; reflexivity).
  rewrite forallb_forall in N. specialize (N (code c)). rewrite chr_code, H in N. pose proof (code_range c).
  assert (E : existsb (fun s => existsb (Ascii.eqb c) s) witnesses = true) by (apply N; unfold all_bytes; apply in_map_iff; exists (Z.to_nat (code c)); split; [lia|apply in_seq; lia]).
  apply existsb_exists in E. destruct E as (s & I & E). apply existsb_in in E. pose proof witnesses_parse as W. rewrite Forall_forall in W. destruct (W s I) as (d & D). exists s, d. auto.
Qed.
