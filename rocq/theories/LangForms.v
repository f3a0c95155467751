(** The languages of the level 1 and level 2 expressions. *)
From Coq Require Import Ascii String ZArith NArith Bool Lia ZifyBool List.
From Verif Require Import GoStr Regex Patterns RegexSym RegexRel RegexGen SpecCal SpecGrammar SpecForms StrFacts GrammarFacts LangFacts LangNorm.
Import ListNotations.
Open Scope Z_scope.
Ltac Zify.zify_post_hook ::= Z.div_mod_to_equations.

(** ** From expressions to forms *)
Definition denotes (r : re) (P : str -> Prop) : Prop := forall s, lg r s <-> P s.
Lemma den_seq a b P Q : denotes a P -> denotes b Q -> denotes (RSeq a b) (cat P Q).
Proof.
  intros Ha Hb s. rewrite lg_seq. unfold cat. split; intros (u & v & H1 & H2 & H3); exists u, v; [rewrite <- (Ha u), <- (Hb v)|rewrite (Ha u), (Hb v)]; auto.
Qed.
Lemma den_opt a P : denotes a P -> denotes (ROpt a) (may P).
Proof. intros Ha s. rewrite lg_opt, (Ha s). unfold may. tauto. Qed.
Lemma den_alt a b P Q : denotes a P -> denotes b Q -> denotes (RAlt a b) (fun s => P s \/ Q s).
Proof. intros Ha Hb s. rewrite lg_alt, (Ha s), (Hb s). reflexivity. Qed.
Lemma den_iff r P Q : denotes r P -> (forall s, P s <-> Q s) -> denotes r Q.
Proof. intros H E s. rewrite (H s). apply E. Qed.
Lemma den_rc z : 0 <= z < 256 -> denotes (rc z) (is [chr z]).
Proof. intros Hz s. apply lg_rc. exact Hz. Qed.
Lemma den_D : denotes D is_level0_date.
Proof. exact lg_D. Qed.
Lemma den_yr : denotes yr signed_year.
Proof. exact lg_yr. Qed.
Lemma den_set cs (P : ascii -> Prop) : (forall c, in_set cs c = true <-> P c) -> denotes (RSet cs) (fun s => exists c, s = [c] /\ P c).
Proof. intros H s. rewrite lg_set. split; intros (c & E & Hc); exists c; (split; [exact E|apply H; exact Hc]). Qed.
Fixpoint times (n : nat) (r : re) : re := match n with O => REps | S O => r | S k => RSeq r (times k r) end.
Lemma den_times cs (P : ascii -> Prop) : (forall c, in_set cs c = true <-> P c) -> forall n, denotes (times n (RSet cs)) (run_of n P).
Proof.
  intros H. assert (G : forall c, P c <-> in_set cs c = true) by (intro; symmetry; apply H).
  assert (One : denotes (RSet cs) (run_of 1 P)).
  { intro s. rewrite (den_set cs P H s). unfold run_of. split.
    - intros (c & -> & Hc). split; [reflexivity|]. constructor; [exact Hc|constructor].
    - intros (L & F). destruct s as [|c [|]]; try discriminate L. inversion F; subst. eauto. }
  induction n as [|[|n] IH].
  - intro s. cbn [times]. rewrite lg_eps. unfold run_of. split; [intros ->; auto|]. intros (L & _). destruct s; [reflexivity|discriminate].
  - exact One.
  - change (times (S (S n)) (RSet cs)) with (RSeq (RSet cs) (times (S n) (RSet cs))).
    eapply den_iff; [apply den_seq; [exact One|exact IH]|]. intro s. unfold cat, run_of. split.
    + intros (u & v & (L1 & F1) & (L2 & F2) & ->). rewrite app_length, L1, L2. split; [reflexivity|]. apply Forall_app. auto.
    + intros (L & F). destruct s as [|c s]; [discriminate L|]. exists [c], s. inversion F; subst. split; [split; [reflexivity|constructor; auto]|].
      split; [|reflexivity]. split; [|assumption]. cbn in L. lia.
Qed.
Lemma in_digit c : in_set [(48, 57)] c = true <-> is_digit c = true.
Proof. rewrite in_rd. reflexivity. Qed.
Lemma in_x c : in_set [(48, 57); (88, 88)] c = true <-> d_or_x c.
Proof.
  unfold d_or_x. assert (E : in_set [(88, 88)] c = true <-> c = "X"%char) by (apply in_rc; lia).
  change [(48, 57); (88, 88)] with ([(48, 57)] ++ [(88, 88)]). rewrite in_set_app, orb_true_iff, in_digit, E. reflexivity.
Qed.
Lemma den_4 : denotes (times 4 rd) four_digits. Proof. apply den_times. exact in_digit. Qed.
Lemma den_2 : denotes (times 2 rd) two_digits. Proof. apply den_times. exact in_digit. Qed.
Definition rx : re := RSet [(48, 57); (88, 88)].
Lemma den_4x : denotes (times 4 rx) four_x. Proof. apply den_times. exact in_x. Qed.
Lemma den_2x : denotes (times 2 rx) two_x. Proof. apply den_times. exact in_x. Qed.
Definition ymd_re (y m d : re) : re := RSeq y (ROpt (RSeq (rc 45) (RSeq m (ROpt (RSeq (rc 45) d))))).
Lemma den_ymd y m d Y M N : denotes y Y -> denotes m M -> denotes d N -> denotes (ymd_re y m d) (ymd_form Y M N).
Proof.
  intros Hy Hm Hd. assert (H := den_seq _ _ _ _ Hy (den_opt _ _ (den_seq _ _ _ _ (den_rc 45 ltac:(lia)) (den_seq _ _ _ _ Hm (den_opt _ _ (den_seq _ _ _ _ (den_rc 45 ltac:(lia)) Hd)))))).
  eapply den_iff; [exact H|]. clear. intro s. split.
  - intros (u & v & Hu & [->|(a & b & Ha & (b1 & b2 & Hb1 & [->|(c & d & Hc & Hd & ->)] & ->) & ->)] & ->).
    + rewrite app_nil_r. constructor. exact Hu.
    + unfold is in Ha. subst a. rewrite app_nil_r. apply yf_ym; assumption.
    + unfold is in Ha, Hc. subst a c. apply yf_ymd; assumption.
  - intros [u Hu|u m Hu Hm|u m d Hu Hm Hd]; exists u.
    + exists []. split; [exact Hu|]. split; [left; reflexivity|rewrite app_nil_r; reflexivity].
    + exists ("-"%char :: m). split; [exact Hu|]. split; [|reflexivity]. right. exists ($"-"), m. split; [reflexivity|]. split; [|reflexivity].
      exists m, []. split; [exact Hm|]. split; [left; reflexivity|rewrite app_nil_r; reflexivity].
    + exists ("-"%char :: m ++ "-"%char :: d). split; [exact Hu|]. split; [|reflexivity]. right. exists ($"-"), (m ++ "-"%char :: d). split; [reflexivity|].
      split; [|reflexivity]. exists m, ("-"%char :: d). split; [exact Hm|]. split; [|reflexivity]. right. exists ($"-"), d. split; [reflexivity|]. split; [exact Hd|reflexivity].
Qed.
Definition qre (a b c : Z) : re := RAlt (rc a) (RAlt (rc b) (rc c)).
Lemma den_mark : denotes (qre 63 126 37) mark.
Proof.
  eapply den_iff; [apply den_alt; [apply den_rc; lia|apply den_alt; apply den_rc; lia]|]. intro s. unfold is, mark. reflexivity.
Qed.
Lemma den_mark' : denotes (qre 37 126 63) mark.
Proof.
  eapply den_iff; [apply den_alt; [apply den_rc; lia|apply den_alt; apply den_rc; lia]|]. intro s. unfold is, mark.
  change [chr 37] with ($"%"). change [chr 126] with ($"~"). change [chr 63] with ($"?"). tauto.
Qed.
Lemma den_minus : denotes (ROpt (rc 45)) minus_text.
Proof. apply den_opt. apply den_rc. lia. Qed.
Definition plus_digits : re := RSeq rd (RStar rd).
Lemma lstar_set cs s : lstar (lg (RSet cs)) s <-> Forall (fun c => in_set cs c = true) s.
Proof.
  split.
  - intro H. induction H as [|u v Hu _ _ IH]; [constructor|]. apply lg_set in Hu. destruct Hu as (c & -> & Hc). constructor; assumption.
  - intro H. induction H as [|c s Hc _ IH]; [constructor|]. change (c :: s) with ([c] ++ s). constructor; [apply lg_set; eauto|discriminate|exact IH].
Qed.
Lemma den_star_set cs (P : ascii -> Prop) : (forall c, in_set cs c = true <-> P c) -> denotes (RStar (RSet cs)) (Forall P).
Proof.
  intros H s. rewrite lg_star, lstar_set. split; intro F; (eapply Forall_impl; [|exact F]); intros c Hc; apply H; exact Hc.
Qed.
Lemma den_digits : denotes plus_digits digits_text.
Proof.
  eapply den_iff; [apply den_seq; [apply (den_set _ _ in_digit)|apply (den_star_set _ _ in_digit)]|]. intro s. unfold cat, digits_text. split.
  - intros (u & v & (c & -> & Hc) & Hv & ->). split; [discriminate|]. constructor; assumption.
  - intros (Hn & F). destruct s as [|c s]; [congruence|]. inversion F; subst. exists [c], s. eauto.
Qed.
Lemma den_dots : denotes (RSeq (rc 46) (rc 46)) (is ($"..")).
Proof.
  eapply den_iff; [apply den_seq; apply den_rc; lia|]. intro s. unfold cat, is. split.
  - intros (u & v & -> & -> & ->). reflexivity.
  - intros ->. exists [chr 46], [chr 46]. auto.
Qed.
(** ** Level 1 *)
Ltac by_norm t := match goal with |- match_string ?R _ = true <-> _ => rewrite (anchored_norm R t eq_refl eq_refl) end.
Definition letter_re : re := RSeq (rc 89) (RSeq (ROpt (rc 45)) plus_digits).
Lemma den_letter : denotes letter_re letter_year.
Proof. apply den_seq; [apply den_rc; lia|apply den_seq; [apply den_minus|apply den_digits]]. Qed.
Theorem LetterYear_spec s : match_string LetterPrefixedCalendarYear s = true <-> letter_year s.
Proof. by_norm letter_re. apply den_letter. Qed.
Definition qualified_re : re := RSeq D (qre 63 126 37).
Lemma den_qualified : denotes qualified_re qualified_date.
Proof. apply den_seq; [apply den_D|apply den_mark]. Qed.
Theorem QualifiedDate_spec s : match_string QualifiedDate s = true <-> qualified_date s.
Proof. by_norm qualified_re. apply den_qualified. Qed.
Definition start_re : re := RSeq (ROpt (RSeq (rc 46) (rc 46))) (RSeq (rc 47) D).
Lemma den_start : denotes start_re extended_start.
Proof. apply den_seq; [apply den_opt, den_dots|apply den_seq; [apply den_rc; lia|apply den_D]]. Qed.
Theorem IntervalStart_spec s : match_string IntervalStart s = true <-> extended_start s.
Proof. by_norm start_re. apply den_start. Qed.
Definition end_re : re := RSeq D (RSeq (rc 47) (ROpt (RSeq (rc 46) (rc 46)))).
Lemma den_end : denotes end_re extended_end.
Proof. apply den_seq; [apply den_D|apply den_seq; [apply den_rc; lia|apply den_opt, den_dots]]. Qed.
Theorem IntervalEnd_spec s : match_string IntervalEnd s = true <-> extended_end s.
Proof. by_norm end_re. apply den_end. Qed.
Definition minus_re : re := RSeq (rc 45) yr.
Lemma den_minus_year : denotes minus_re minus_year.
Proof. apply den_seq; [apply den_rc; lia|apply den_yr]. Qed.
Theorem NegativeYear_spec s : match_string NegativeYear s = true <-> minus_year s.
Proof. by_norm minus_re. apply den_minus_year. Qed.
(** *** Unspecified digits *)
Definition xset (lo hi : Z) : cset := [(lo, hi); (88, 88)].
Lemma in_xset lo hi c : 48 <= lo -> lo <= hi -> hi <= 57 -> in_set (xset lo hi) c = true <-> exists k, lo - 48 <= k <= hi - 48 /\ x_for c k.
Proof.
  intros H1 H2 H3. unfold xset, x_for. change [(lo, hi); (88, 88)] with ([(lo, hi)] ++ [(88, 88)]). rewrite in_set_app, orb_true_iff.
  assert (E : in_set [(88, 88)] c = true <-> c = "X"%char) by (apply in_rc; lia). rewrite E. clear E. split.
  - intros [H|H]; [|exists (lo - 48); split; [lia|right; exact H]].
    unfold in_set in H. cbn [existsb fst snd] in H. exists (code c - 48). split; [lia|]. left. apply code_inj. rewrite code_digit_char by lia. lia.
  - intros (k & Hk & [->| ->]); [left|right; reflexivity]. unfold in_set. cbn [existsb fst snd]. rewrite code_digit_char by lia. lia.
Qed.
Lemma den_xx lo hi lo' hi' : 48 <= lo <= hi -> hi <= 57 -> 48 <= lo' <= hi' -> hi' <= 57 ->
  denotes (RSeq (RSet (xset lo hi)) (RSet (xset lo' hi'))) (x_number (fun n => lo - 48 <= n / 10 <= hi - 48 /\ lo' - 48 <= n mod 10 <= hi' - 48)).
Proof.
  intros H1 H2 H3 H4. eapply den_iff; [apply den_seq; apply den_set; intro c; apply in_xset; lia|]. intro s. unfold cat, x_number. split.
  - intros (u & v & (a & -> & k & Hk & Ha) & (b & -> & l & Hl & Hb) & ->). exists (10 * k + l), a, b.
    replace ((10 * k + l) / 10) with k by lia. replace ((10 * k + l) mod 10) with l by lia. cbn [app]. auto.
  - intros (n & a & b & (Hn & Hn') & -> & Ha & Hb). exists [a], [b]. split; [exists a; eauto|]. split; [exists b; eauto|reflexivity].
Qed.
Lemma x_number_or P Q s : x_number P s \/ x_number Q s <-> x_number (fun n => P n \/ Q n) s.
Proof.
  unfold x_number. split.
  - intros [(n & a & b & H & R)|(n & a & b & H & R)]; exists n, a, b; auto.
  - intros (n & a & b & [H|H] & R); [left|right]; exists n, a, b; auto.
Qed.
Lemma x_number_iff P Q s : (forall n, P n <-> Q n) -> x_number P s <-> x_number Q s.
Proof. intro E. unfold x_number. split; intros (n & a & b & H & R); exists n, a, b; (split; [apply E; exact H|exact R]). Qed.
Definition xm_re : re := RAlt (RSeq (RSet (xset 48 48)) (RSet (xset 49 57))) (RSeq (RSet (xset 49 49)) (RSet (xset 48 50))).
Lemma den_xm : denotes xm_re x_month.
Proof.
  eapply den_iff; [apply den_alt; apply den_xx; lia|]. intro s. cbv beta. rewrite x_number_or. apply x_number_iff. intro n. lia.
Qed.
Definition xd_re : re := RAlt (RSeq (RSet [(48, 48); (49, 49); (50, 50); (88, 88)]) (RSet (xset 49 57))) (RSeq (RSet (xset 51 51)) (RSet [(48, 48); (49, 49); (88, 88)])).
Lemma lg_set_ext cs cs' : (forall c, in_set cs c = in_set cs' c) -> forall s, lg (RSet cs) s <-> lg (RSet cs') s.
Proof. intros E s. rewrite !lg_set. split; intros (c & H1 & H2); exists c; [rewrite <- E|rewrite E]; auto. Qed.
Lemma den_xd : denotes xd_re x_day.
Proof.
  assert (H := den_alt _ _ _ _ (den_xx 48 50 49 57 ltac:(lia) ltac:(lia) ltac:(lia) ltac:(lia)) (den_xx 51 51 48 49 ltac:(lia) ltac:(lia) ltac:(lia) ltac:(lia))).
  intro s. transitivity (lg (RAlt (RSeq (RSet (xset 48 50)) (RSet (xset 49 57))) (RSeq (RSet (xset 51 51)) (RSet (xset 48 49)))) s).
  - unfold xd_re. rewrite !lg_alt.
    rewrite (lg_seq_ext (RSet [(48, 48); (49, 49); (50, 50); (88, 88)]) (RSet (xset 49 57)) (RSet (xset 48 50)) (RSet (xset 49 57)));
      [|apply lg_set_ext; intro c; unfold in_set, xset; cbn [existsb fst snd]; lia|reflexivity].
    rewrite (lg_seq_ext (RSet (xset 51 51)) (RSet [(48, 48); (49, 49); (88, 88)]) (RSet (xset 51 51)) (RSet (xset 48 49)));
      [|reflexivity|apply lg_set_ext; intro c; unfold in_set, xset; cbn [existsb fst snd]; lia]. reflexivity.
  - rewrite (H s). cbv beta. rewrite x_number_or. apply x_number_iff. intro n. lia.
Qed.
Definition unspec_re : re := ymd_re (times 4 rx) xm_re xd_re.
Lemma den_unspec : denotes unspec_re unspecified_digits.
Proof. apply den_ymd; [apply den_4x|apply den_xm|apply den_xd]. Qed.
Theorem UnspecifiedDigits_spec s : match_string UnspecifiedDigits s = true <-> unspecified_digits s.
Proof. by_norm unspec_re. apply den_unspec. Qed.

Fixpoint lower (r : re) : re :=
  match r with
  | RSet cs => RSet (if in_set cs "X" then cs ++ [(120, 120)] else cs)
  | RSeq a b => RSeq (lower a) (lower b)
  | RAlt a b => RAlt (lower a) (lower b)
  | ROpt a => ROpt (lower a)
  | _ => r
  end.
Fixpoint no_x (r : re) : bool :=
  match r with
  | RSet cs => negb (in_set cs "x")
  | RSeq a b | RAlt a b => no_x a && no_x b
  | ROpt a => no_x a
  | REps => true
  | _ => false
  end.
Lemma map_app_inv {A B} (f : A -> B) : forall s u v, map f s = u ++ v -> exists a b, s = a ++ b /\ map f a = u /\ map f b = v.
Proof.
  induction s as [|c s IH]; intros u v E.
  - destruct u; [|discriminate E]. exists [], []. auto.
  - destruct u as [|d u]; [exists [], (c :: s); auto|]. cbn in E. injection E as <- E. destruct (IH u v E) as (a & b & -> & Ha & Hb).
    exists (c :: a), b. cbn. rewrite Ha. auto.
Qed.
Lemma lower_set cs c : in_set cs "x" = false -> in_set (if in_set cs "X" then cs ++ [(120, 120)] else cs) c = in_set cs (upx c).
Proof.
  intro Hx. unfold upx. destruct (Ascii.eqb c "x") eqn:E.
  - apply Ascii.eqb_eq in E. subst c. destruct (in_set cs "X") eqn:EX; [|exact Hx]. rewrite in_set_app, Hx. reflexivity.
  - destruct (in_set cs "X"); [|reflexivity]. rewrite in_set_app.
    replace (in_set [(120, 120)] c) with false; [apply orb_false_r|]. symmetry. apply not_true_iff_false. intro H. apply in_rc in H; [|lia].
    subst c. discriminate E.
Qed.
Lemma lg_lower r : no_x r = true -> forall s, lg (lower r) s <-> lg r (map upx s).
Proof.
  induction r as [|cs|a IHa b IHb|a IHa b IHb|a IHa|a IHa|i a IHa| |]; intros Hn s; cbn [no_x lower] in *; try discriminate Hn.
  - rewrite !lg_eps. destruct s; split; try reflexivity; discriminate.
  - apply negb_true_iff in Hn. rewrite !lg_set. split.
    + intros (c & -> & Hc). rewrite lower_set in Hc by exact Hn. exists (upx c). auto.
    + intros (c & E & Hc). destruct s as [|d [|]]; try discriminate E. injection E as <-. exists d. rewrite lower_set by exact Hn. auto.
  - apply andb_true_iff in Hn. destruct Hn as (Ha & Hb). rewrite !lg_seq. split.
    + intros (u & v & H1 & H2 & ->). rewrite IHa in H1 by exact Ha. rewrite IHb in H2 by exact Hb. exists (map upx u), (map upx v). rewrite map_app. auto.
    + intros (u & v & H1 & H2 & E). destruct (map_app_inv _ _ _ _ E) as (p & q & -> & <- & <-). exists p, q.
      rewrite IHa, IHb by assumption. auto.
  - apply andb_true_iff in Hn. destruct Hn as (Ha & Hb). rewrite !lg_alt, IHa, IHb by assumption. reflexivity.
  - rewrite !lg_opt, IHa by assumption. destruct s; split; intros [H|H]; auto; discriminate H.
Qed.
Lemma den_unspec_lower : denotes (lower unspec_re) (fun s => unspecified_digits (map upx s)).
Proof. intro s. rewrite lg_lower by reflexivity. apply den_unspec. Qed.

(** *** Seasons *)
Definition fold_re (c : ascii) : re :=
  let r := RSet [(code c, code c); (code c - 32, code c - 32)] in
  if Ascii.eqb c "s" then RAlt r (RSeq (rc 197) (rc 191)) else r.
Definition word_re (w : str) : re := fold_right (fun c r => RSeq (fold_re c) r) REps w.
Lemma den_fold c : 97 <= code c <= 122 -> denotes (fold_re c) (same_letter c).
Proof.
  intro Hc. assert (H : denotes (RSet [(code c, code c); (code c - 32, code c - 32)]) (fun u => u = [c] \/ exists d, u = [d] /\ code d = code c - 32)).
  { intro u. rewrite lg_set. split.
    - intros (d & -> & Hd). unfold in_set in Hd. cbn [existsb fst snd] in Hd.
      destruct (Z.eq_dec (code d) (code c)) as [E|E]; [left; apply code_inj in E; subst; reflexivity|right; exists d; split; [reflexivity|lia]].
    - intros [->|(d & -> & Hd)]; eexists; (split; [reflexivity|]); unfold in_set; cbn [existsb fst snd]; lia. }
  unfold fold_re. destruct (Ascii.eqb c "s") eqn:E.
  - apply Ascii.eqb_eq in E. eapply den_iff; [apply den_alt; [exact H|apply den_seq; apply den_rc; lia]|]. intro u. unfold same_letter, cat, is. split.
    + intros [[H1|H1]|(a & b & -> & -> & ->)]; auto.
    + intros [H1|[H1|(_ & ->)]]; auto. right. exists [chr 197], [chr 191]. auto.
  - apply Ascii.eqb_neq in E. eapply den_iff; [exact H|]. intro u. unfold same_letter. intuition congruence.
Qed.
Lemma den_word w : forallb (fun c => (97 <=? code c) && (code c <=? 122)) w = true -> denotes (word_re w) (any_case w).
Proof.
  induction w as [|c w IH]; intro H.
  - intro s. cbn. rewrite lg_eps. split; [intros ->; constructor|intro Q; inversion Q; reflexivity].
  - cbn [forallb] in H. apply andb_true_iff in H. destruct H as (Hc & Hw). specialize (IH Hw). change (word_re (c :: w)) with (RSeq (fold_re c) (word_re w)).
    eapply den_iff; [apply den_seq; [apply den_fold; lia|exact IH]|]. intro s. split.
    + intros (u & v & Hu & Hv & ->). constructor; assumption.
    + intro Q. inversion Q as [|? ? u v Hu Hv]; subst. exists u, v. auto.
Qed.
Definition name_re : re := RAlt (word_re ($"spring")) (RAlt (word_re ($"summer")) (RAlt (word_re ($"fall")) (word_re ($"winter")))).
Lemma den_name : denotes name_re season_name.
Proof. unfold name_re, season_name. repeat apply den_alt; apply den_word; reflexivity. Qed.
Lemma in_space c : in_set [(9, 10); (12, 13); (32, 32)] c = true <-> is_space c.
Proof.
  unfold in_set, is_space. cbn [existsb fst snd]. split.
  - intro H. assert (C : code c = 32 \/ code c = 9 \/ code c = 10 \/ code c = 12 \/ code c = 13) by lia.
    destruct C as [C|[C|[C|[C|C]]]]; [left|right; left|do 2 right; left|do 3 right; left|do 4 right];
      apply code_inj; rewrite C; reflexivity.
  - intros [->|[->|[->|[->| ->]]]]; reflexivity.
Qed.
Definition sp_re : re := RStar (RSet [(9, 10); (12, 13); (32, 32)]).
Lemma den_spaces : denotes sp_re spaces.
Proof. apply den_star_set. exact in_space. Qed.
Definition words_re : re := RSeq name_re (RSeq sp_re (RSeq (rc 44) (RSeq sp_re (times 4 rd)))).
Lemma den_words : denotes words_re season_words.
Proof. repeat apply den_seq; [apply den_name|apply den_spaces|apply den_rc; lia|apply den_spaces|apply den_4]. Qed.
Lemma den_two_range lo hi lo' hi' : 48 <= lo -> hi <= 57 -> 48 <= lo' -> hi' <= 57 ->
  denotes (RSeq (RSet [(lo, hi)]) (RSet [(lo', hi')])) (fun s => exists n, (lo - 48 <= n / 10 <= hi - 48 /\ lo' - 48 <= n mod 10 <= hi' - 48) /\ s = two n).
Proof.
  intros H1 H2 H3 H4 s. unfold lg. setoid_rewrite gen_2. split.
  - intros (k & _ & a & b & -> & Ha & Hb). destruct (two_class _ _ _ _ a b H1 H2 H3 H4 Ha Hb) as (n & -> & Hn & R1 & R2). exists n. split; [lia|reflexivity].
  - intros (n & Hn & ->). exists []. split; [reflexivity|]. apply class_two; lia.
Qed.
Definition snum_re : re := RAlt (RSeq (rc 48) (RSet [(49, 57)])) (RAlt (RSeq (rc 49) (RSet [(48, 50)])) (RSeq (rc 50) (RSet [(49, 52)]))).
Lemma den_snum : denotes snum_re season_number.
Proof.
  eapply den_iff; [apply den_alt; [|apply den_alt]; apply den_two_range; lia|]. intro s. unfold season_number. cbv beta. split.
  - intros [(n & H & E)|[(n & H & E)|(n & H & E)]]; exists n; (split; [lia|exact E]).
  - intros (n & H & E). assert (C : n <= 9 \/ 10 <= n <= 12 \/ 21 <= n <= 24) by lia.
    destruct C as [C|[C|C]]; [left|right; left|right; right]; exists n; (split; [lia|exact E]).
Qed.
Definition sdate_re : re := RSeq yr (RSeq (rc 45) snum_re).
Lemma den_sdate : denotes sdate_re season_date.
Proof. apply den_seq; [apply den_yr|apply den_seq; [apply den_rc; lia|apply den_snum]]. Qed.
Definition season_A : re := Eval vm_compute in match re_body Season with RAlt (RSeq RBegin a) _ => a | _ => REps end.
Definition season_B : re := Eval vm_compute in match re_body Season with RAlt _ b => match unend b with Some x => x | None => REps end | _ => REps end.
Lemma Season_body : re_body Season = RAlt (RSeq RBegin season_A) (match re_body Season with RAlt _ b => b | _ => REps end).
Proof. reflexivity. Qed.
Lemma gen_lg r s k : gen r s k -> lg r s.
Proof. intro H. exists k. exact H. Qed.
Theorem Season_spec s : match_string Season s = true <-> cat season_date anything s \/ cat anything season_words s.
Proof.
  rewrite match_run. pose (b := match re_body Season with RAlt _ b => b | _ => REps end).
  assert (Ub : unend b = Some season_B) by reflexivity.
  assert (EA : forall u, lg season_A u <-> season_date u) by (intro u; rewrite (lg_same season_A sdate_re eq_refl); apply den_sdate).
  assert (EB : forall u, lg season_B u <-> season_words u) by (intro u; rewrite (lg_same season_B words_re eq_refl); apply den_words).
  split.
  - intros (p & q & st & -> & H). rewrite Season_body in H. destruct H as [H|H].
    + apply run_pre in H; [|reflexivity]. destruct H as (-> & u & k & G & E & _). left. cbn [app]. exists u, (m_rest st).
      split; [apply EA; exact (gen_lg _ _ _ G)|]. split; [exact I|exact E].
    + change (run b (mkm (match p with [] => true | _ => false end) q []) st) in H. apply (unend_run _ _ Ub) in H. destruct H as (H & He).
      apply (run_gen season_B eq_refl) in H. destruct H as (u & k & G & E & _). cbn in E. rewrite He, app_nil_r in E. subst u.
      right. exists p, q. split; [exact I|]. split; [apply EB; exact (gen_lg _ _ _ G)|reflexivity].
  - intros [(u & v & Hu & _ & ->)|(u & v & _ & Hv & ->)].
    + apply EA in Hu. destruct Hu as (k & G). exists [], (u ++ v), (mkm (if nonempty u then false else true) v k). split; [reflexivity|].
      rewrite Season_body. left. apply (run_pre season_A [] (u ++ v)); [reflexivity|]. split; [reflexivity|]. exists u, k. auto.
    + apply EB in Hv. destruct Hv as (k & G). exists u, v, (mkm (if nonempty v then false else match u with [] => true | _ => false end) [] k).
      split; [reflexivity|]. rewrite Season_body. right. fold b. apply (unend_run _ _ Ub). split; [|reflexivity].
      apply (run_gen season_B eq_refl). exists v, k. cbn. rewrite !app_nil_r. auto.
Qed.
Definition level1_re : re :=
  RAlt letter_re (RAlt sdate_re (RAlt words_re (RAlt qualified_re (RAlt (lower unspec_re) (RAlt start_re (RAlt end_re minus_re)))))).
Theorem Level1_spec s : match_string Level1_re s = true <->
  letter_year s \/ season_date s \/ season_words s \/ qualified_date s \/ unspecified_digits (map upx s) \/ extended_start s \/ extended_end s \/ minus_year s.
Proof.
  by_norm level1_re. unfold level1_re. rewrite !lg_alt.
  rewrite (den_letter s), (den_sdate s), (den_words s), (den_qualified s), (den_unspec_lower s), (den_start s), (den_end s), (den_minus_year s). reflexivity.
Qed.
