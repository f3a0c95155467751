(** Lemmas for C88. *)
From Coq Require Import Ascii String ZArith NArith Bool Lia ZifyBool List.
From Verif Require Import GoStr GoTime SpecCal SpecText SpecZone SpecGrammar SpecForms SpecSpan SpecSet SpecWrap SpecReads SpecWithin SpecCompare SpecHide StrFacts TextFacts
  CalFacts Regex RegexRel RegexGen LangFacts Patterns Edtf Common Level0 Level1 Level2 Parser FormProofs LangForms LangForms2 GrammarFacts ReadsFacts RefProofs ReadsProofs
  InvFacts BytesProofs WithinProofs.
Import ListNotations.
Open Scope Z_scope.
Ltac Zify.zify_post_hook ::= Z.div_mod_to_equations.

(** ** Characters *)
Lemma hide_digit k c : 0 <= k <= 9 -> hide (digit_char k) c -> low_digit c <= k <= high_digit c.
Proof.
  intros K [->|(_ & ->)]; [|cbn; lia]. unfold low_digit, high_digit. rewrite (digit_val_char k K).
  destruct (Ascii.eqb (digit_char k) "X") eqn:E; [|lia]. apply Ascii.eqb_eq in E. pose proof (is_digit_char k K) as D. rewrite E in D. discriminate D.
Qed.
Lemma hide_dx a c : d_or_x a -> hide a c -> low_digit c <= low_digit a /\ high_digit a <= high_digit c.
Proof.
  intros D [->|(Da & ->)]; [lia|]. unfold low_digit, high_digit. cbn.
  assert (V : 0 <= digit_val a <= 9) by (unfold digit_val, is_digit in *; lia). destruct (Ascii.eqb a "X"); lia.
Qed.
Lemma hide_digits k n : 0 <= k <= 9 -> 0 <= n <= 9 -> hide (digit_char k) (digit_char n) -> k = n.
Proof.
  intros K N [E|(_ & E)].
  - apply (f_equal digit_val) in E. rewrite !digit_val_char in E by assumption. lia.
  - pose proof (is_digit_char n N) as D. rewrite E in D. discriminate D.
Qed.
Lemma hide_x c : hide "X" c -> c = "X"%char.
Proof. intros [E|(_ & E)]; exact E. Qed.
Lemma hide_minus c : hide "-" c -> c = "-"%char.
Proof. intros [E|(D & E)]; [exact E|discriminate D]. Qed.
Lemma hides_x_digit a k : hide a (digit_char k) -> 0 <= k <= 9 -> a = digit_char k.
Proof. intros [E|(_ & E)] K; [congruence|]. pose proof (is_digit_char k K) as D. rewrite E in D. discriminate D. Qed.
Lemma hides_refl s : hides s s.
Proof. induction s; constructor; [left; reflexivity|assumption]. Qed.
Lemma hides_same s s' : hides s s' -> ~ In "X"%char s' -> s = s'.
Proof.
  intro H. induction H as [|a b s s' [->|(_ & ->)] H IH]; intro N; [reflexivity| |destruct N; left; reflexivity].
  f_equal. apply IH. intro I. apply N. right. exact I.
Qed.
Lemma hides_in s s' c : hides s s' -> In c s -> is_digit c = false -> In c s'.
Proof.
  intros H I D. induction H as [|a b s s' [->|(A & ->)] H IH]; [destruct I| |].
  - destruct I as [<-|I]; [left; reflexivity|right; auto].
  - destruct I as [<-|I]; [rewrite A in D; discriminate D|right; auto].
Qed.
Lemma hides_back s s' c : hides s s' -> In c s' -> c <> "X"%char -> In c s.
Proof.
  intros H I D. induction H as [|a b s s' [->|(A & ->)] H IH]; [destruct I| |].
  - destruct I as [<-|I]; [left; reflexivity|right; auto].
  - destruct I as [<-|I]; [congruence|right; auto].
Qed.
Lemma hides_app_l a b s' : hides (a ++ b) s' -> exists a' b', s' = a' ++ b' /\ hides a a' /\ hides b b'.
Proof. intro H. apply Forall2_app_inv_l in H. destruct H as (a' & b' & A & B & ->). eauto. Qed.
Lemma hides_app_r s a' b' : hides s (a' ++ b') -> exists a b, s = a ++ b /\ hides a a' /\ hides b b'.
Proof. intro H. apply Forall2_app_inv_r in H. destruct H as (a & b & A & B & ->). eauto. Qed.
Lemma hides_length s s' : hides s s' -> length s = length s'.
Proof. intro H. induction H; [reflexivity|cbn; congruence]. Qed.
Lemma hide_mark a b : hide a b -> is_mark b = is_mark a.
Proof.
  intros [->|(D & ->)]; [reflexivity|]. symmetry. unfold is_mark.
  destruct (Ascii.eqb a "?") eqn:E1; [apply Ascii.eqb_eq in E1; subst a; discriminate D|].
  destruct (Ascii.eqb a "~") eqn:E2; [apply Ascii.eqb_eq in E2; subst a; discriminate D|].
  destruct (Ascii.eqb a "%") eqn:E3; [apply Ascii.eqb_eq in E3; subst a; discriminate D|]. reflexivity.
Qed.
Lemma hides_unmarked s s' : hides s s' -> hides (unmarked s) (unmarked s').
Proof.
  intro H. unfold unmarked. induction H as [|a b s s' A H IH]; [constructor|]. cbn [filter]. rewrite (hide_mark _ _ A).
  destruct (is_mark a); cbn [negb]; [exact IH|constructor; assumption].
Qed.
Lemma unmarked_app a b : unmarked (a ++ b) = unmarked a ++ unmarked b.
Proof. apply filter_app. Qed.
Lemma unmarked_none s : Forall (fun c => is_mark c = false) s -> unmarked s = s.
Proof. intro H. unfold unmarked. induction H as [|c s C H IH]; [reflexivity|]. cbn [filter]. rewrite C. cbn [negb]. f_equal. exact IH. Qed.
Lemma digit_no_mark c : is_digit c = true -> is_mark c = false.
Proof. intro D. rewrite <- (hide_mark c "X"); [reflexivity|right; auto]. Qed.
Lemma dx_no_mark c : d_or_x c -> is_mark c = false.
Proof. intros [D| ->]; [exact (digit_no_mark c D)|reflexivity]. Qed.
Lemma unmarked_marked c t : marked c t -> unmarked c = c -> unmarked t = c.
Proof.
  assert (M : forall q, a_mark q -> unmarked [q] = []) by (intros q [->|[->| ->]]; reflexivity).
  intros [|q Q|q Q] E; [exact E| |].
  - change (q :: c) with ([q] ++ c). rewrite unmarked_app, (M q Q), E. reflexivity.
  - rewrite unmarked_app, (M q Q), E. apply app_nil_r.
Qed.

(** ** Components *)
Lemma four_no_mark n : 0 <= n <= 9999 -> unmarked (four n) = four n.
Proof. intro N. apply unmarked_none. unfold four. repeat (constructor; [apply digit_no_mark, is_digit_char; lia|]). constructor. Qed.
Lemma year_bare c y y' : year_reads c y y' -> unmarked c = c.
Proof.
  intros [t y0 [n N|n N]|a b e A B C].
  - exact (four_no_mark n N).
  - change ("-"%char :: four n) with ($"-" ++ four n). rewrite unmarked_app, (four_no_mark n N). reflexivity.
  - apply unmarked_none. repeat constructor; try (apply dx_no_mark; assumption). exact (digit_no_mark a A).
Qed.
Lemma two_no_mark n : 0 <= n <= 99 -> unmarked (two n) = two n.
Proof. intro N. apply unmarked_none. unfold two. repeat (constructor; [apply digit_no_mark, is_digit_char; lia|]). constructor. Qed.
Lemma month_bare c m m' : month_reads c m m' -> unmarked c = c /\ length c = 2%nat.
Proof. intros [m0 M| |a [->| ->]]; [split; [apply two_no_mark; lia|reflexivity]|split; reflexivity..]. Qed.
Lemma day_bare n n' c d d' : day_reads n n' c d d' -> unmarked c = c /\ length c = 2%nat.
Proof. intros [d0 D| | | | |]; [split; [apply two_no_mark; lia|reflexivity]|split; reflexivity..]. Qed.
(** Dates without marks. *)
Inductive bare_reads : str -> Z -> Z -> Z -> Z -> Z -> Z -> Prop :=
| br_y yc y y' : year_reads yc y y' -> bare_reads yc y 1 1 y' 12 31
| br_ym yc y y' mc m m' : year_reads yc y y' -> month_reads mc m m' -> bare_reads (yc ++ $"-" ++ mc) y m 1 y' m' (month_len y' m')
| br_ymd yc y y' mc m m' dc d d' : year_reads yc y y' -> month_reads mc m m' -> day_reads (month_len y m) (month_len y' m') dc d d' ->
    bare_reads (yc ++ $"-" ++ mc ++ $"-" ++ dc) y m d y' m' d'.
Lemma date_bare s y m d y' m' d' : date_reads s y m d y' m' d' -> bare_reads (unmarked s) y m d y' m' d'.
Proof.
  assert (Mi : unmarked ($"-") = $"-") by reflexivity.
  intros [yt yc y0 y0' Y R|yt yc y0 y0' mt mc m0 m0' Y R M Q|yt yc y0 y0' mt mc m0 m0' dt dc d0 d0' Y R M Q D S]; rewrite ?unmarked_app, ?Mi;
    rewrite (unmarked_marked _ _ Y (year_bare _ _ _ R)).
  - constructor. exact R.
  - rewrite (unmarked_marked _ _ M (proj1 (month_bare _ _ _ Q))). constructor; assumption.
  - rewrite (unmarked_marked _ _ M (proj1 (month_bare _ _ _ Q))), (unmarked_marked _ _ D (proj1 (day_bare _ _ _ _ _ S))). econstructor; eassumption.
Qed.
(** Five bytes with a minus sign, otherwise four. *)
Definition year_size (s : str) : nat := match s with "-"%char :: _ => 5 | _ => 4 end.
Lemma year_long c y y' r : year_reads c y y' -> length c = year_size (c ++ r).
Proof.
  assert (G : forall a s, is_digit a = true -> year_size (a :: s) = 4%nat).
  { intros a s D. unfold year_size. destruct a as [[] [] [] [] [] [] [] []]; try reflexivity; discriminate D. }
  intros [t y0 [n N|n N]|a b e A _ _]; [|reflexivity|].
  - unfold four. cbn [app length]. rewrite G; [reflexivity|]. apply is_digit_char. lia.
  - cbn [app length]. rewrite G; [reflexivity|exact A].
Qed.
Lemma year_size_hides s s' : hides s s' -> year_size s = year_size s'.
Proof.
  intros [|a b t t' [->|(D & ->)] H]; [reflexivity..|]. unfold year_size. destruct a as [[] [] [] [] [] [] [] []]; try reflexivity; discriminate D.
Qed.
Lemma app_split {A} (a b a' b' : list A) : length a = length a' -> a ++ b = a' ++ b' -> a = a' /\ b = b'.
Proof.
  revert a'. induction a as [|x a IH]; intros [|x' a'] L E; try discriminate L; [auto|]. cbn in L, E. injection E as -> E. injection L as L.
  destruct (IH a' L E) as (-> & ->). auto.
Qed.
Lemma hides_split a b a' b' : length a = length a' -> hides (a ++ b) (a' ++ b') -> hides a a' /\ hides b b'.
Proof.
  intros L H. apply hides_app_l in H. destruct H as (u & v & E & A & B). apply app_split in E; [|rewrite <- (hides_length _ _ A); lia].
  destruct E as (-> & ->). auto.
Qed.
Lemma year_hidden c y y' c' z z' : year_reads c y y' -> year_reads c' z z' -> hides c c' -> z <= y /\ y' <= z'.
Proof.
  assert (P : forall n c' z z', 0 <= n <= 9999 -> year_reads c' z z' -> hides (four n) c' -> z <= n /\ n <= z').
  { clear. intros n c' z z' N R H. unfold four in H.
    inversion H as [|? c0 ? ? H0 H1]; subst. inversion H1 as [|? c1 ? ? H2 H3]; subst. inversion H3 as [|? c2 ? ? H4 H5]; subst.
    inversion H5 as [|? c3 ? ? H6 H7]; subst. inversion H7; subst. clear H H1 H3 H5 H7.
    remember [c0; c1; c2; c3] as w eqn:E. destruct R as [w y0 [k K|k K]|a b c A B C].
    - unfold four in E. injection E as <- <- <- <-. apply hide_digits in H0, H2, H4, H6; lia.
    - discriminate E.
    - injection E as -> -> -> <-. destruct H0 as [->|(_ & ->)]; [|discriminate A]. rewrite digit_val_char by lia.
      apply hide_digit in H2, H4; lia. }
  intros R R' H. destruct R as [t y [n N|n N]|a b c A B C].
  - exact (P _ _ _ _ N R' H).
  - inversion H as [|? c0 ? r H0 H1]; subst. apply hide_minus in H0. subst c0.
    remember ("-"%char :: r) as w eqn:E. destruct R' as [w y0 [k K|k K]|a b c A B C].
    + injection E as E _. pose proof (is_digit_char (k / 1000) ltac:(lia)) as D. rewrite E in D. discriminate D.
    + injection E as <-. unfold four in H1. repeat match goal with X : Forall2 _ (_ :: _) _ |- _ => inversion X; subst; clear X end.
      repeat match goal with X : hide (digit_char _) (digit_char _) |- _ => apply hide_digits in X; [|lia|lia] end. lia.
    + injection E as -> _. discriminate A.
  - inversion H as [|? c0 ? ? H0 H1]; subst. inversion H1 as [|? c1 ? ? H2 H3]; subst. inversion H3 as [|? c2 ? ? H4 H5]; subst.
    inversion H5 as [|? c3 ? ? H6 H7]; subst. inversion H7; subst. apply hide_x in H6. subst c3.
    remember [c0; c1; c2; "X"%char] as w eqn:E. destruct R' as [w y0 [k K|k K]|a' b' c' A' B' C'].
    + injection E as _ _ _ E. pose proof (is_digit_char (k mod 10) ltac:(lia)) as D. rewrite E in D. discriminate D.
    + discriminate E.
    + injection E as -> -> ->. destruct H0 as [->|(_ & ->)]; [|discriminate A']. apply (hide_dx _ _ B) in H2. apply (hide_dx _ _ C) in H4. lia.
Qed.
Lemma hides_two n c : 0 <= n <= 99 -> hides (two n) c -> exists a b, c = [a; b] /\ hide (digit_char (n / 10)) a /\ hide (digit_char (n mod 10)) b.
Proof.
  intros N H. unfold two in H. inversion H as [|? a ? ? H0 H1]; subst. inversion H1 as [|? b ? ? H2 H3]; subst. inversion H3; subst. eauto.
Qed.
Lemma hides_pair a b c : hides [a; b] c -> exists a' b', c = [a'; b'] /\ hide a a' /\ hide b b'.
Proof. intro H. inversion H as [|? a' ? ? H0 H1]; subst. inversion H1 as [|? b' ? ? H2 H3]; subst. inversion H3; subst. eauto. Qed.
Lemma hides_two_two n k : 0 <= n <= 99 -> 0 <= k <= 99 -> hides (two n) (two k) -> n = k.
Proof.
  intros N K H. apply hides_two in H; [|exact N]. destruct H as (a & b & E & A & B). unfold two in E. injection E as <- <-.
  apply hide_digits in A; [|lia..]. apply hide_digits in B; lia.
Qed.
Lemma digit_x k : 0 <= k <= 9 -> digit_char k = "X"%char -> False.
Proof. intros K E. pose proof (is_digit_char k K) as D. rewrite E in D. discriminate D. Qed.
Lemma hides_x_two a k : 0 <= k <= 99 -> hides [a; "X"%char] (two k) -> False.
Proof.
  intros K H. apply hides_pair in H. destruct H as (a' & b' & E & _ & B). apply hide_x in B. subst b'. unfold two in E. injection E as _ E. apply digit_x in E; [exact E|lia].
Qed.
Lemma two_first d k : 0 <= d <= 99 -> 0 <= k <= 9 -> hide (digit_char (d / 10)) (digit_char k) -> d / 10 = k.
Proof. intros D K. apply hide_digits; lia. Qed.
Lemma month_hidden c m m' c' n n' : month_reads c m m' -> month_reads c' n n' -> hides c c' -> ~ (c' = $"0X" /\ exists b, is_digit b = true /\ c = ["0"%char; b]) ->
  n <= m /\ m' <= n'.
Proof.
  intros R R' H N. destruct R as [m M| |a A].
  - destruct R' as [k K| |b B].
    + apply hides_two_two in H; lia.
    + lia.
    + apply hides_two in H; [|lia]. destruct H as (u & v & E & U & V). injection E as <- <-.
      destruct B as [->| ->].
      * destruct U as [E|(_ & E)]; [|discriminate E]. destruct N. split; [reflexivity|]. exists (digit_char (m mod 10)). split; [apply is_digit_char; lia|]. unfold two. rewrite <- E. reflexivity.
      * apply (two_first m 1) in U; lia.
  - destruct R' as [k K| |b B].
    + exfalso; apply (hides_x_two _ k) in H; [exact H|lia].
    + lia.
    + apply hides_pair in H. destruct H as (u & v & E & U & V). apply hide_x in U. injection E as -> <-. subst u. destruct B as [B|B]; discriminate B.
  - destruct R' as [k K| |b B]; [exfalso; apply (hides_x_two _ k) in H; [exact H|lia]|lia|lia].
Qed.
(** The months have the same length. *)
Lemma day_hidden_low n k k' c d d' c' f f' : day_reads n k c d d' -> day_reads n k' c' f f' -> hides c c' -> 1 <= d -> f <= d.
Proof.
  intros R R' H Hd.
  assert (T : forall p q, hides [p; "X"%char] [q; "X"%char] -> p = q \/ is_digit p = true /\ q = "X"%char).
  { intros p q G. apply hides_pair in G. destruct G as (u & v & E & U & _). injection E as -> _. destruct U as [->|U]; auto. }
  assert (Z0 : forall q, hides ($"00") [q; "X"%char] -> q <> "X"%char -> q = "0"%char).
  { intros q G Nq. apply hides_pair in G. destruct G as (u & v & E & U & _). injection E as -> _. destruct U as [E|(_ & E)]; [exact E|congruence]. }
  destruct R as [d D| | | | |]; destruct R' as [f F| | | | |];
    try (apply hides_two_two in H; lia);
    try (apply (hides_x_two _ _) in H; [destruct H|lia]);
    try (apply hides_two in H; [|lia]; destruct H as (u & v & E & U & V); injection E as <- <-; first [apply (two_first d 1) in U; lia|apply (two_first d 2) in U; lia|apply (two_first d 3) in U; lia]);
    try lia;
    try (exfalso; apply Z0 in H; [discriminate H|discriminate]);
    try (exfalso; apply T in H; destruct H as [H|(_ & H)]; discriminate H);
    try (exfalso; change ($"00") with (two 0) in H; first [apply hides_two_two in H; lia|apply hides_x_two in H; [exact H|lia]]).
Qed.
Lemma day_hidden_high k n n' c d d' c' f f' : day_reads k n c d d' -> day_reads n' n c' f f' -> hides c c' -> 28 <= n -> d' <= n -> d' <= f'.
Proof.
  intros R R' H Hn Hd.
  assert (T : forall p q, hides [p; "X"%char] [q; "X"%char] -> p = q \/ is_digit p = true /\ q = "X"%char).
  { intros p q G. apply hides_pair in G. destruct G as (u & v & E & U & _). injection E as -> _. destruct U as [->|U]; auto. }
  assert (Z0 : forall q, hides ($"00") [q; "X"%char] -> q <> "X"%char -> q = "0"%char).
  { intros q G Nq. apply hides_pair in G. destruct G as (u & v & E & U & _). injection E as -> _. destruct U as [E|(_ & E)]; [exact E|congruence]. }
  destruct R as [d D| | | | |]; destruct R' as [f F| | | | |];
    try (apply hides_two_two in H; lia);
    try (apply (hides_x_two _ _) in H; [destruct H|lia]);
    try (apply hides_two in H; [|lia]; destruct H as (u & v & E & U & V); injection E as <- <-; first [apply (two_first d 1) in U; lia|apply (two_first d 2) in U; lia|apply (two_first d 3) in U; lia]);
    try lia;
    try (exfalso; apply Z0 in H; [discriminate H|discriminate]);
    try (exfalso; apply T in H; destruct H as [H|(_ & H)]; discriminate H);
    try (exfalso; change ($"00") with (two 0) in H; first [apply hides_two_two in H; lia|apply hides_x_two in H; [exact H|lia]]).
Qed.

(** ** Dates *)
Definition bare_month (s s' : str) : Prop := exists a b a' b' c, length a = length a' /\ is_digit c = true /\
  s = a ++ $"-0" ++ c :: b /\ s' = a' ++ $"-0X" ++ b'.
Lemma month_reached y mc r y' mc' r' : length y = length y' -> (mc' = $"0X" /\ exists b, is_digit b = true /\ mc = ["0"%char; b]) ->
  bare_month (y ++ $"-" ++ mc ++ r) (y' ++ $"-" ++ mc' ++ r').
Proof. intros L (-> & b & D & ->). exists y, r, y', r', b. repeat split; assumption. Qed.
Lemma month_reached_end y mc y' mc' : length y = length y' -> (mc' = $"0X" /\ exists b, is_digit b = true /\ mc = ["0"%char; b]) ->
  bare_month (y ++ $"-" ++ mc) (y' ++ $"-" ++ mc').
Proof. intros L H. pose proof (month_reached y mc [] y' mc' [] L H) as G. rewrite !app_nil_r in G. exact G. Qed.
Lemma month_len_28 y m : 28 <= month_len y m <= 31.
Proof. unfold month_len. destruct (m =? 2); [destruct (leap_yearb y); lia|]. destruct (_ || _); lia. Qed.
Lemma bare_hidden s y m d y' m' d' s' z n f z' n' f' : bare_reads s y m d y' m' d' -> bare_reads s' z n f z' n' f' -> hides s s' -> ~ bare_month s s' ->
  real_date y m d -> real_date y' m' d' -> real_date z n f -> real_date z' n' f' -> date_le z n f y m d /\ date_le y' m' d' z' n' f'.
Proof.
  intros R R' H B D1 D2 D3 D4. pose proof (hides_length _ _ H) as L. pose proof (year_size_hides _ _ H) as Z.
  assert (G : forall yc y y' zc z z' r r', year_reads yc y y' -> year_reads zc z z' -> year_size (yc ++ r) = year_size (zc ++ r') -> length yc = length zc).
  { intros yc y0 y0' zc z0 z0' r r' Y Y' E. rewrite (year_long _ _ _ r Y), (year_long _ _ _ r' Y'). exact E. }
  unfold date_le. destruct R as [yc y y' Y|yc y y' mc m m' Y M|yc y y' mc m m' dc d d' Y M D]; destruct R' as [zc z z' Y'|zc z z' nc n n' Y' M'|zc z z' nc n n' fc f f' Y' M' D'].
  - pose proof (year_hidden _ _ _ _ _ _ Y Y' H). lia.
  - exfalso. pose proof (G _ _ _ _ _ _ [] ($"-" ++ nc) Y Y') as E. rewrite app_nil_r in E. specialize (E Z). rewrite !app_length in L. change (length ($"-")) with 1%nat in L. lia.
  - exfalso. pose proof (G _ _ _ _ _ _ [] ($"-" ++ nc ++ $"-" ++ fc) Y Y') as E. rewrite app_nil_r in E. specialize (E Z). rewrite !app_length in L. change (length ($"-")) with 1%nat in L. lia.
  - exfalso. pose proof (G _ _ _ _ _ _ ($"-" ++ mc) [] Y Y') as E. rewrite app_nil_r in E. specialize (E Z). rewrite !app_length in L. change (length ($"-")) with 1%nat in L. lia.
  - pose proof (G _ _ _ _ _ _ _ _ Y Y' Z) as E. assert (Nm := fun K => B (month_reached_end _ _ _ _ E K)).
    apply (hides_split _ _ _ _ E) in H. destruct H as (Hy & H). apply (hides_split ($"-") _ ($"-") _ eq_refl) in H. destruct H as (_ & Hm).
    pose proof (year_hidden _ _ _ _ _ _ Y Y' Hy). pose proof (month_hidden _ _ _ _ _ _ M M' Hm Nm).
    assert (y' = z' -> m' = n' -> month_len y' m' = month_len z' n') by (intros; congruence). lia.
  - exfalso. pose proof (G _ _ _ _ _ _ _ _ Y Y' Z) as E. rewrite !app_length in L. destruct (month_bare _ _ _ M) as (_ & L1), (month_bare _ _ _ M') as (_ & L2), (day_bare _ _ _ _ _ D') as (_ & L3).
    rewrite L1, L2, L3 in L. change (length ($"-")) with 1%nat in L. lia.
  - exfalso. pose proof (G _ _ _ _ _ _ ($"-" ++ mc ++ $"-" ++ dc) [] Y Y') as E. rewrite app_nil_r in E. specialize (E Z). rewrite !app_length in L. change (length ($"-")) with 1%nat in L. lia.
  - exfalso. pose proof (G _ _ _ _ _ _ _ _ Y Y' Z) as E. rewrite !app_length in L. destruct (month_bare _ _ _ M) as (_ & L1), (month_bare _ _ _ M') as (_ & L2), (day_bare _ _ _ _ _ D) as (_ & L3).
    rewrite L1, L2, L3 in L. change (length ($"-")) with 1%nat in L. lia.
  - pose proof (G _ _ _ _ _ _ _ _ Y Y' Z) as E. assert (Nm := fun K => B (month_reached _ _ _ _ _ _ E K)).
    destruct (month_bare _ _ _ M) as (_ & L1), (month_bare _ _ _ M') as (_ & L2).
    apply (hides_split _ _ _ _ E) in H. destruct H as (Hy & H). apply (hides_split ($"-") _ ($"-") _ eq_refl) in H. destruct H as (_ & H).
    apply hides_split in H; [|congruence]. destruct H as (Hm & H). apply (hides_split ($"-") _ ($"-") _ eq_refl) in H. destruct H as (_ & Hd).
    pose proof (year_hidden _ _ _ _ _ _ Y Y' Hy). pose proof (month_hidden _ _ _ _ _ _ M M' Hm Nm).
    unfold real_date in D1, D2.
    assert (y = z -> m = n -> f <= d) by (intros <- <-; apply (day_hidden_low _ _ _ _ _ _ _ _ _ D D' Hd); lia).
    assert (y' = z' -> m' = n' -> d' <= f') by (intros <- <-; pose proof (month_len_28 y' m'); apply (day_hidden_high _ _ _ _ _ _ _ _ _ D D' Hd); lia).
    lia.
Qed.
Lemma clock_0 : clock 0 0 0. Proof. unfold clock. lia. Qed.
Lemma clock_24 : clock 23 59 59. Proof. unfold clock. lia. Qed.
Lemma whole_hidden s lo hi s' lo' hi' : whole_date s lo hi -> whole_date s' lo' hi' -> hides s s' -> ~ hides_month s s' -> no_earlier lo' lo /\ no_later hi hi'.
Proof.
  intros [y m d y' m' d' R D1 D2] [z n f z' n' f' R' D3 D4] H B.
  destruct (bare_hidden _ _ _ _ _ _ _ _ _ _ _ _ _ _ (date_bare _ _ _ _ _ _ _ R) (date_bare _ _ _ _ _ _ _ R') (hides_unmarked _ _ H) B D1 D2 D3 D4) as (A & C).
  split; cbn; apply instant_le; auto using clock_0, clock_24; lia.
Qed.
Lemma half_hidden s lo hi s' lo' hi' : half_reads s lo hi -> half_reads s' lo' hi' -> hides s s' -> ~ hides_month s s' -> no_earlier lo' lo /\ no_later hi hi'.
Proof.
  intros R R' H B.
  assert (N : forall t a b, whole_date t a b -> t <> [] /\ t <> $"..").
  { intros t a b [y m d y' m' d' Q _ _]. apply date_bare in Q. assert (S : sizable (unmarked t)) by (destruct Q; try apply size_l; eapply size_reads; eassumption).
    destruct S as (_ & S). split; intros ->; cbn in S; lia. }
  destruct R as [| |s lo hi W]; destruct R' as [| |s' lo' hi' W'].
  - split; exact I.
  - inversion H.
  - inversion H; subst. destruct (N _ _ _ W') as (N1 & _). congruence.
  - inversion H.
  - split; exact I.
  - apply hides_same in H as E; [subst s'; destruct (N _ _ _ W') as (_ & N2); congruence|].
    intro X. apply hides_pair in H. destruct H as (a & b & -> & [->|(A & _)] & [->|(A' & _)]); try discriminate. cbn in X. intuition discriminate.
  - inversion H; subst. destruct (N _ _ _ W) as (N1 & _). congruence.
  - apply hides_same in H; [|intro X; vm_compute in X; intuition discriminate]. subst s. destruct (N _ _ _ W) as (_ & N2). congruence.
  - exact (whole_hidden _ _ _ _ _ _ W W' H B).
Qed.
(** A text that is read as a date or an interval has these bytes only. *)
Definition span_b (c : ascii) : bool := is_digit c || existsb (Ascii.eqb c) ($"X-/.?~%").
Definition date_b (c : ascii) : bool := is_digit c || existsb (Ascii.eqb c) ($"X-?~%").
Lemma marked_all (P : ascii -> bool) c t : (forall q, a_mark q -> P q = true) -> marked c t -> Forall (fun x => P x = true) c -> Forall (fun x => P x = true) t.
Proof. intros M [|q Q|q Q] F; [exact F|constructor; auto|apply Forall_app; auto]. Qed.
Lemma mark_date q : a_mark q -> date_b q = true.
Proof. intros [->|[->| ->]]; reflexivity. Qed.
Lemma digit_date c : is_digit c = true -> date_b c = true.
Proof. intro D. unfold date_b. rewrite D. reflexivity. Qed.
Lemma dx_date c : d_or_x c -> date_b c = true.
Proof. intros [D| ->]; [exact (digit_date c D)|reflexivity]. Qed.
Lemma four_date n : 0 <= n <= 9999 -> Forall (fun x => date_b x = true) (four n).
Proof. intro N. unfold four. repeat (constructor; [apply digit_date, is_digit_char; lia|]). constructor. Qed.
Lemma two_date n : 0 <= n <= 99 -> Forall (fun x => date_b x = true) (two n).
Proof. intro N. unfold two. repeat (constructor; [apply digit_date, is_digit_char; lia|]). constructor. Qed.
Lemma year_date c y y' : year_reads c y y' -> Forall (fun x => date_b x = true) c.
Proof.
  intros [t y0 [n N|n N]|a b e A B C]; [exact (four_date n N)|constructor; [reflexivity|exact (four_date n N)]|].
  repeat constructor; try (apply dx_date; assumption). exact (digit_date a A).
Qed.
Lemma month_date c y y' : month_reads c y y' -> Forall (fun x => date_b x = true) c.
Proof. intros [m M| |a [->| ->]]; [apply two_date; lia|repeat constructor..]. Qed.
Lemma day_date n n' c y y' : day_reads n n' c y y' -> Forall (fun x => date_b x = true) c.
Proof. intros [m M| | | | |]; [apply two_date; lia|repeat constructor..]. Qed.
Lemma reads_date s lo hi : whole_date s lo hi -> Forall (fun x => date_b x = true) s.
Proof.
  assert (D : Forall (fun x => date_b x = true) ($"-")) by (repeat constructor).
  intros [y m d y' m' d' [yt yc y0 y0' Y R|yt yc y0 y0' mt mc m0 m0' Y R M Q|yt yc y0 y0' mt mc m0 m0' dt dc d0 d0' Y R M Q T S] _ _];
    repeat (apply Forall_app; split); try exact D; (eapply marked_all; [exact mark_date|eassumption|]); eauto using year_date, month_date, day_date.
Qed.
Lemma date_b_span c : date_b c = true -> span_b c = true /\ c <> "/"%char.
Proof.
  destruct c as [[] [] [] [] [] [] [] []]; try (intro H; discriminate H); intros _; (split; [reflexivity|discriminate]).
Qed.
Lemma reads_half s lo hi : half_reads s lo hi -> Forall (fun x => span_b x = true) s /\ ~ In "/"%char s.
Proof.
  intros [| |t lo' hi' W]; [split; [constructor|intros []]|split; [repeat constructor|intro I; vm_compute in I; intuition discriminate]|].
  apply reads_date in W. rewrite Forall_forall in W. split; [apply Forall_forall|]; intros.
  - apply date_b_span. auto.
  - intro I. destruct (date_b_span _ (W _ I)). congruence.
Qed.
Lemma reads_bytes s lo hi : span_reads s lo hi -> Forall (fun x => span_b x = true) s.
Proof.
  intros [t lo' hi' W|a b lo' x x' hi' A B].
  - apply (reads_half t lo' hi'). constructor. exact W.
  - apply reads_half in A, B. apply Forall_app. split; [exact (proj1 A)|]. constructor; [reflexivity|exact (proj1 B)].
Qed.
Lemma hides_month_l a a' b b' : length (unmarked a) = length (unmarked a') -> hides_month a a' -> hides_month (a ++ $"/" ++ b) (a' ++ $"/" ++ b').
Proof.
  intros L (p & q & p' & q' & c & K & D & E & E'). exists p, (q ++ $"/" ++ unmarked b), p', (q' ++ $"/" ++ unmarked b'), c.
  rewrite !unmarked_app, E, E'. change (unmarked ($"/")) with ($"/"). rewrite <- !app_assoc. cbn [app]. repeat split; assumption.
Qed.
Lemma hides_month_r a a' b b' : length (unmarked a) = length (unmarked a') -> hides_month b b' -> hides_month (a ++ $"/" ++ b) (a' ++ $"/" ++ b').
Proof.
  intros L (p & q & p' & q' & c & K & D & E & E'). exists (unmarked a ++ $"/" ++ p), q, (unmarked a' ++ $"/" ++ p'), q', c.
  split; [rewrite !app_length; lia|]. split; [exact D|].
  rewrite !unmarked_app, E, E'. change (unmarked ($"/")) with ($"/"). rewrite <- !app_assoc. split; reflexivity.
Qed.
Lemma slash_split a b a' b' : ~ In "/"%char a -> ~ In "/"%char a' -> hides (a ++ $"/" ++ b) (a' ++ $"/" ++ b') -> hides a a' /\ hides b b'.
Proof.
  revert a'. induction a as [|x a IH]; intros [|x' a'] N N' H; cbn [app list_ascii_of_string] in *.
  - inversion H; subst. split; [constructor|assumption].
  - inversion H as [|? ? ? ? [E|(D & _)] ?]; subst; [|discriminate D]. destruct N'. left. reflexivity.
  - inversion H as [|? ? ? ? [E|(_ & E)] ?]; subst; [|discriminate E]. destruct N. left. reflexivity.
  - inversion H; subst. destruct (IH a') as (A & B); [intro I; apply N; right; exact I|intro I; apply N'; right; exact I|assumption|]. split; [constructor; assumption|exact B].
Qed.
Lemma span_hidden s lo hi s' lo' hi' : span_reads s lo hi -> span_reads s' lo' hi' -> hides s s' -> ~ hides_month s s' -> no_earlier lo' lo /\ no_later hi hi'.
Proof.
  intros R R' H B.
  assert (N : forall t u v, whole_date t u v -> ~ In "/"%char t) by (intros t u v W; apply (reads_half t u v); constructor; exact W).
  destruct R as [s lo hi W|a b lo x x' hi R1 R2]; destruct R' as [s' lo' hi' W'|a' b' lo' w w' hi' R1' R2'].
  - exact (whole_hidden _ _ _ _ _ _ W W' H B).
  - destruct (N _ _ _ W). apply (hides_back _ _ _ H); [apply in_or_app; right; left; reflexivity|discriminate].
  - destruct (N _ _ _ W'). apply (hides_in _ _ _ H); [apply in_or_app; right; left; reflexivity|reflexivity].
  - apply slash_split in H; [|apply (reads_half _ _ _ R1)|apply (reads_half _ _ _ R1')]. destruct H as (Ha & Hb).
    pose proof (hides_length _ _ (hides_unmarked _ _ Ha)) as L.
    split; [apply (half_hidden _ _ _ _ _ _ R1 R1' Ha)|apply (half_hidden _ _ _ _ _ _ R2 R2' Hb)]; intro K; apply B; [apply hides_month_l|apply hides_month_r]; assumption.
Qed.

(** ** Features *)
From Verif Require Import SpecSame SameProofs.
Lemma only_all P R s : only_re P R = true -> match_string R s = true -> Forall (fun c => P c = true) s.
Proof.
  unfold only_re. destruct (anchored R) as [a|] eqn:E; [|discriminate]. intros H M. apply andb_true_iff in H. destruct H as (Hp & Hl).
  apply (anchored_lg R a E Hp) in M. destruct M as (k & M). exact (only_gen _ _ Hl _ _ M).
Qed.
Definition not_x (c : ascii) : bool := negb (Ascii.eqb c "X").
Lemma not_x_in s : Forall (fun c => not_x c = true) s -> ~ In "X"%char s.
Proof. intros F I. rewrite Forall_forall in F. discriminate (F _ I). Qed.
Lemma takes_form s lv f : takes s lv f -> exists P, In (f, P) (level0_features ++ level1_features ++ level2_features) /\ P s.
Proof.
  intros [g F|g _ _ F|g _ _ F]; apply first_form in F; destruct F as (P & I & H); exists P; (split; [|exact H]); apply in_or_app;
    [left; exact I|right; apply in_or_app; left; exact I|right; apply in_or_app; right; exact I].
Qed.
Lemma words_not_x s : season_words s -> ~ In "X"%char s.
Proof.
  intros (v & r & V & (g & r' & G & (c & r'' & -> & (g' & n & G' & (L & N) & ->) & ->) & ->) & ->). apply not_x_in. repeat (apply Forall_app; split).
  - apply name_word in V. revert V. apply Forall_impl. intros x X. unfold not_x. destruct (Ascii.eqb x "X") eqn:E; [apply Ascii.eqb_eq in E; subst x; discriminate X|reflexivity].
  - apply spaces_b in G. revert G. apply Forall_impl. intros x X. unfold not_x. destruct (Ascii.eqb x "X") eqn:E; [apply Ascii.eqb_eq in E; subst x; discriminate X|reflexivity].
  - repeat constructor.
  - apply spaces_b in G'. revert G'. apply Forall_impl. intros x X. unfold not_x. destruct (Ascii.eqb x "X") eqn:E; [apply Ascii.eqb_eq in E; subst x; discriminate X|reflexivity].
  - revert N. apply Forall_impl. intros x X. unfold not_x. destruct (Ascii.eqb x "X") eqn:E; [apply Ascii.eqb_eq in E; subst x; discriminate X|reflexivity].
Qed.
Ltac form_of T Q := apply takes_form in T; let P := fresh "P" in let I := fresh "I" in
  destruct T as (P & I & Q); cbn [In level0_features level1_features level2_features app] in I;
  decompose [or] I; try contradiction; match goal with E : (_, _) = (_, _) |- _ => first [discriminate E|injection E as <-] end; clear I.
Ltac no_x Q L := apply L in Q; apply not_x_in; revert Q; apply only_all; vm_compute; reflexivity.
Lemma others_not_x f s lv lo hi : takes s lv f -> reads_as f s lo hi -> In f span_features \/ f = $"Seasons" \/ ~ In "X"%char s.
Proof.
  intros T R. destruct R as [f s lo hi F _|s t _|s lo hi _|s lo hi _|s lo hi _|s lo hi _|s lo hi _|s lo hi _]; [left; exact F|right..]; try (left; reflexivity); right; form_of T Q.
  - no_x Q DateAndTime_spec.
  - no_x Q LetterYear_spec.
  - no_x Q Exponential_spec.
  - no_x Q Significant_spec.
  - no_x Q Grouping_spec.
  - no_x Q set_test.
Qed.
Definition alien (c : ascii) : Prop := is_digit c = false /\ span_b c = false /\ c <> "x"%char.
Lemma others_alien f s lv lo hi : takes s lv f -> reads_as f s lo hi -> In f span_features \/ f = $"Seasons" \/ f = $"Sub-year groupings" \/ exists c, In c s /\ alien c.
Proof.
  assert (A : forall c, c = "T"%char \/ c = "Y"%char \/ c = "y"%char \/ c = "S"%char \/ c = "["%char \/ c = "{"%char -> alien c)
    by (intros c H; decompose [or] H; subst c; (split; [reflexivity|]; split; [reflexivity|discriminate])).
  intros T R. destruct R as [f s lo hi F _|s t H|s lo hi H|s lo hi _|s lo hi H|s lo hi H|s lo hi _|s lo hi _]; [left; exact F|right..].
  - right. right. exists "T"%char. split; [|apply A; auto]. destruct H as [y m d hh mi ss z off _ _ _ _|y m d hh mi ss z off y' m' d' hh' mi' ss' _ _ _ _ _ _ _].
    + apply in_or_app. right. left. reflexivity.
    + apply in_or_app. right. apply in_or_app. right. left. reflexivity.
  - right. right. exists "Y"%char. split; [|apply A; auto]. destruct H. left. reflexivity.
  - left. reflexivity.
  - right. right. destruct H as [a t m e y lo hi L _ _ _ _]. exists a. split; [left; reflexivity|apply A; tauto].
  - right. right. exists "S"%char. split; [|apply A; auto]. destruct H as [u y nd v l h lo hi _ _ _ _]. apply in_or_app. right. left. reflexivity.
  - right. left. reflexivity.
  - right. right. apply takes_set in T. destruct T as (o & body & [o' body' c O _ _]). exists o'. split; [left; reflexivity|apply A; tauto].
Qed.
(** The two last characters of a season that is written as a day with an X. *)
Definition dx_any (c : ascii) : Prop := d_or_x (upx c).
Lemma dx_any_not c : dx_any c -> is_mark c = false /\ c <> "/"%char /\ (span_b c = true \/ c = "x"%char).
Proof.
  unfold dx_any, upx. destruct (Ascii.eqb c "x") eqn:E; [apply Ascii.eqb_eq in E; subst c; intros _; repeat split; auto; discriminate|].
  intros [D| ->]; [|repeat split; auto; discriminate]. split; [exact (digit_no_mark c D)|]. split; [intros ->; discriminate D|]. left. unfold span_b. rewrite D. reflexivity.
Qed.
Lemma year4_size t y r : year4 t y -> length t = year_size (t ++ r).
Proof. intro Y. exact (year_long t y y r (yr_number t y Y)). Qed.
Lemma year4_not_x t y : year4 t y -> ~ In "X"%char t.
Proof.
  assert (F : forall n, 0 <= n <= 9999 -> ~ In "X"%char (four n)).
  { intros n N I. assert (D : Forall (fun c => is_digit c = true) (four n)) by (unfold four; repeat (constructor; [apply is_digit_char; lia|]); constructor).
    rewrite Forall_forall in D. discriminate (D _ I). }
  intros [n N|n N]; [exact (F n N)|]. intros [E|I]; [discriminate E|exact (F n N I)].
Qed.
Lemma two_not_x n : 0 <= n <= 99 -> ~ In "X"%char (two n).
Proof. intros N [E|[E|[]]]; (apply digit_x in E; [exact E|lia]). Qed.
Lemma months_range n b e j : season_months n b e j -> 1 <= n <= 12 /\ b = n /\ e = n /\ j = 0 \/ 21 <= n <= 24.
Proof. intros [k K|k w b' e' j' S]; [left; lia|right; destruct S; lia]. Qed.
Lemma upx_day t y n r : year4 t y -> 0 <= n <= 99 -> unspecified_digits (map upx (t ++ $"-" ++ two n ++ r)) -> r = [] \/ exists a b, r = $"-" ++ [a; b] /\ dx_any a /\ dx_any b.
Proof.
  intros Y N U. remember (map upx (t ++ $"-" ++ two n ++ r)) as u eqn:E.
  assert (L : length u = (length t + 3 + length r)%nat) by (rewrite E, map_length, !app_length; cbn [length list_ascii_of_string two]; change (length ($"-")) with 1%nat; lia).
  assert (F : forall v w, four_x v -> v ++ w = u -> length t = 4%nat).
  { intros v w (V & D) G. destruct Y as [k K|k K]; [reflexivity|]. exfalso. subst u. destruct v as [|c v]; [discriminate V|]. cbn in G. injection G as -> _.
    inversion D as [|? ? Dc _]; subst. destruct Dc as [Dc|Dc]; discriminate Dc. }
  assert (M : forall m, x_month m \/ x_day m -> exists a b, m = [a; b] /\ d_or_x a /\ d_or_x b).
  { assert (X : forall c k, 0 <= k <= 9 -> x_for c k -> d_or_x c) by (intros c k K [->| ->]; [left; apply is_digit_char; exact K|right; reflexivity]).
    intros m [(k & a & b & K & -> & A & B)|(k & a & b & K & -> & A & B)]; exists a, b; (split; [reflexivity|]); (split; eapply X; [|eassumption| |eassumption]; lia). }
  destruct U as [v V|v m V X|v m d V X D].
  - exfalso. pose proof (F v [] V (app_nil_r v)). destruct V as (V & _). lia.
  - left. pose proof (F v _ V eq_refl). destruct V as (V & _). destruct (M m (or_introl X)) as (a & b & -> & _). rewrite app_length in L. cbn [length] in L.
    destruct r; [reflexivity|cbn [length] in L; lia].
  - right. pose proof (F v _ V eq_refl) as T. destruct V as (V & _). destruct (M m (or_introl X)) as (a & b & -> & _). destruct (M d (or_intror D)) as (a' & b' & -> & A & B).
    rewrite !map_app in E. apply app_split in E; [|rewrite map_length; lia]. destruct E as (_ & E). cbn [map two app list_ascii_of_string] in E.
    change (map upx ($"-") ++ map upx (two n) ++ map upx r) with (upx "-" :: upx (digit_char (n / 10)) :: upx (digit_char (n mod 10)) :: map upx r) in E.
    injection E as _ _ E. destruct r as [|c [|c1 [|c2 [|]]]]; try discriminate E. cbn [map] in E. injection E as E0 -> ->.
    exists c1, c2. split; [|split; assumption]. change ($"-" ++ [c1; c2]) with ["-"%char; c1; c2]. f_equal.
    unfold upx in E0. destruct (Ascii.eqb c "x"); [discriminate E0|]. congruence.
Qed.
Lemma not_x_upx s : unspecified_digits s -> unspecified_digits (map upx s).
Proof.
  intro H. assert (F : Forall (fun c => negb (Ascii.eqb c "x") = true) s) by (apply UnspecifiedDigits_spec in H; revert H; apply only_all; vm_compute; reflexivity).
  replace (map upx s) with s; [exact H|]. clear H. induction F as [|c s C F IH]; [reflexivity|]. cbn [map].
  assert (E : upx c = c) by (unfold upx; destruct (Ascii.eqb c "x"); [discriminate C|reflexivity]). rewrite E, <- IH. reflexivity.
Qed.
Lemma level1_x s : level1_text s -> In "X"%char s -> unspecified_digits (map upx s).
Proof.
  intros [[Q|[Q|[Q|[Q|[Q|[Q|[Q|Q]]]]]]]|Q] I; [exfalso; revert I..| | | | |exact Q].
  - no_x Q LetterYear_spec.
  - destruct Q as (t & r & (y & Y) & (d & n & -> & (k & K & ->) & ->) & ->). intro I. apply in_app_or in I. destruct I as [I|I]; [exact (year4_not_x _ _ Y I)|]. apply in_app_or in I. destruct I as [[I|[]]|I]; [discriminate I|].
    revert I. apply two_not_x. lia.
  - exact (words_not_x s Q).
  - no_x Q QualifiedDate_spec.
  - exact (not_x_upx s Q).
  - exfalso. revert I. no_x Q IntervalStart_spec.
  - exfalso. revert I. no_x Q IntervalEnd_spec.
  - exfalso. revert I. no_x Q NegativeYear_spec.
Qed.
Lemma season_x s lv lo hi : takes s lv ($"Seasons") -> season_reads s lo hi -> In "X"%char s -> exists t y n b e j p q,
  s = t ++ $"-" ++ two n ++ $"-" ++ [p; q] /\ year4 t y /\ season_months n b e j /\ dx_any p /\ dx_any q /\
  lo = from_day y b 1 /\ hi = to_day (y + j) e (month_len (y + j) e).
Proof.
  intros T R I.
  assert (L : level1_text s).
  { inversion T as [f F|f _ L F|f _ _ F]; subst; [|exact L|]; apply first_form in F; destruct F as (P & J & _); cbn [In level0_features level2_features] in J;
      decompose [or] J; try contradiction; match goal with E : (_, _) = (_, _) |- _ => discriminate E end. }
  pose proof (level1_x s L I) as U. destruct R as [t y n r b e j Y M Ry Rj|n w v sp sp' y b e j S V G G' Y0 Y1].
  - assert (N : 0 <= n <= 99) by (destruct (months_range _ _ _ _ M); lia).
    destruct (upx_day _ _ _ _ Y N U) as [->|(p & q & -> & P & Q)].
    + exfalso. rewrite app_nil_r in I. apply in_app_or in I. destruct I as [I|I]; [exact (year4_not_x _ _ Y I)|]. apply in_app_or in I. destruct I as [[I|[]]|I]; [discriminate I|]. revert I. apply two_not_x. exact N.
    + exists t, y, n, b, e, j, p, q. repeat (split; [first [reflexivity|assumption]|]). reflexivity.
  - exfalso. assert (C : In ","%char (map upx (v ++ sp ++ $"," ++ sp' ++ four y))).
    { apply in_map_iff. exists ","%char. split; [reflexivity|]. apply in_or_app. right. apply in_or_app. right. left. reflexivity. }
    assert (F : Forall (fun c => negb (Ascii.eqb c ",") = true) (map upx (v ++ sp ++ $"," ++ sp' ++ four y))) by (apply UnspecifiedDigits_spec in U; revert U; apply only_all; vm_compute; reflexivity).
    rewrite Forall_forall in F. discriminate (F _ C).
Qed.
Lemma season_bytes t y n p q c : year4 t y -> 0 <= n <= 99 -> dx_any p -> dx_any q -> In c (t ++ $"-" ++ two n ++ $"-" ++ [p; q]) -> ~ alien c /\ c <> "/"%char /\ is_mark c = false.
Proof.
  intros Y N P Q I.
  assert (D : forall x, is_digit x = true -> ~ alien x /\ x <> "/"%char /\ is_mark x = false)
    by (intros x X; split; [intros (A & _); congruence|]; split; [intros ->; discriminate X|exact (digit_no_mark x X)]).
  assert (M : ~ alien "-" /\ "-"%char <> "/"%char /\ is_mark "-" = false) by (split; [intros (_ & A & _); discriminate A|]; split; [discriminate|reflexivity]).
  assert (X : forall x, dx_any x -> ~ alien x /\ x <> "/"%char /\ is_mark x = false)
    by (intros x Hx; destruct (dx_any_not x Hx) as (A & B & [C|C]); split; [intros (_ & F & _); congruence|auto|intros (_ & _ & F); congruence|auto]).
  assert (F4 : forall k, 0 <= k <= 9999 -> In c (four k) -> ~ alien c /\ c <> "/"%char /\ is_mark c = false)
    by (intros k K J; apply D; unfold four in J; cbn [In] in J; decompose [or] J; try contradiction; subst c; apply is_digit_char; lia).
  apply in_app_or in I. destruct I as [I|I]; [|apply in_app_or in I; destruct I as [[<-|[]]|I]; [exact M|]].
  - destruct Y as [k K|k K]; [exact (F4 k K I)|]. destruct I as [<-|I]; [exact M|exact (F4 k K I)].
  - apply in_app_or in I. destruct I as [I|I]; [|apply in_app_or in I; destruct I as [[<-|[]]|[<-|[<-|[]]]]; [exact M|exact (X p P)|exact (X q Q)]].
    apply D. unfold two in I. cbn [In] in I. decompose [or] I; try contradiction; subst c; apply is_digit_char; lia.
Qed.
Lemma season_span s lo hi t y n b e j p q : span_reads s lo hi -> year4 t y -> season_months n b e j -> dx_any p -> dx_any q ->
  hides s (t ++ $"-" ++ two n ++ $"-" ++ [p; q]) -> no_earlier (from_day y b 1) lo /\ no_later hi (to_day (y + j) e (month_len (y + j) e)).
Proof.
  intros R Y M P Q H. assert (N : 0 <= n <= 99) by (destruct (months_range _ _ _ _ M); lia).
  pose proof (fun c => season_bytes t y n p q c Y N P Q) as B.
  assert (U : unmarked s = s).
  { apply unmarked_none. apply Forall_forall. intros c I. destruct (is_digit c) eqn:D; [exact (digit_no_mark c D)|]. apply B. exact (hides_in _ _ _ H I D). }
  assert (W : whole_date s lo hi).
  { destruct R as [s lo hi W|a a' lo x x' hi _ _]; [exact W|]. exfalso. destruct (B "/"%char) as (_ & E & _); [|congruence].
    apply (hides_in _ _ _ H); [apply in_or_app; right; left; reflexivity|reflexivity]. }
  destruct W as [y0 m d y0' m' d' D D1 D2]. apply date_bare in D. rewrite U in D.
  apply hides_app_r in H. destruct H as (t0 & r & -> & Ht & H). apply hides_same in Ht; [|exact (year4_not_x t y Y)]. subst t0.
  apply hides_app_r in H. destruct H as (mi & r0 & -> & Hm & H). apply hides_same in Hm; [|intros [X|[]]; discriminate X]. subst mi.
  apply hides_app_r in H. destruct H as (mm & r1 & -> & Hm & H). apply hides_same in Hm; [|exact (two_not_x n N)]. subst mm.
  apply hides_app_r in H. destruct H as (mi & dd & -> & Hm & H). apply hides_same in Hm; [|intros [X|[]]; discriminate X]. subst mi.
  apply hides_length in H. cbn [length] in H.
  remember (t ++ $"-" ++ two n ++ $"-" ++ dd) as s eqn:E.
  assert (G : forall yc z z' r, year_reads yc z z' -> yc ++ r = s -> length yc = length t /\ length s = (length t + 6)%nat).
  { intros yc z z' r Yr Er. split.
    - rewrite (year_long _ _ _ r Yr), Er, (year4_size t y ($"-" ++ two n ++ $"-" ++ dd) Y), <- E. reflexivity.
    - rewrite E, !app_length, H. change (length ($"-")) with 1%nat. cbn [length two]. lia. }
  destruct D as [yc y1 y1' Yr|yc y1 y1' mc m1 m1' Yr Mr|yc y1 y1' mc m1 m1' dc d1 d1' Yr Mr Dr].
  - exfalso. destruct (G _ _ _ [] Yr (app_nil_r _)). lia.
  - exfalso. destruct (G _ _ _ _ Yr eq_refl) as (A & C). destruct (month_bare _ _ _ Mr) as (_ & K). rewrite !app_length, K in C. change (length ($"-")) with 1%nat in C. lia.
  - destruct (G _ _ _ _ Yr eq_refl) as (A & _). apply (app_split _ _ _ _ A) in E. destruct E as (-> & E). apply (app_split ($"-") _ ($"-") _ eq_refl) in E. destruct E as (_ & E).
    destruct (month_bare _ _ _ Mr) as (_ & K). apply app_split in E; [|exact K]. destruct E as (-> & _).
    pose proof (year_hidden _ _ _ _ _ _ (yr_number t y Y) Yr (hides_refl t)). pose proof (year_hidden _ _ _ _ _ _ Yr (yr_number t y Y) (hides_refl t)).
    assert (y1 = y) by lia. assert (y1' = y) by lia. subst y1 y1'.
    assert (C : m1 = n /\ m1' = n /\ 1 <= n <= 12).
    { remember (two n) as w eqn:E. destruct Mr as [k Hk| |a _].
      - assert (k = n) by (apply hides_two_two; [lia|exact N|rewrite E; apply hides_refl]). lia.
      - exfalso. unfold two in E. injection E as E _. apply eq_sym, digit_x in E; [exact E|lia].
      - exfalso. unfold two in E. injection E as _ E. apply eq_sym, digit_x in E; [exact E|lia]. }
    destruct C as (-> & -> & C). destruct (months_range _ _ _ _ M) as [(_ & -> & -> & ->)|]; [|lia]. rewrite Z.add_0_r.
    unfold real_date in D1, D2. pose proof (month_len_28 y n).
    split; cbn; apply instant_le; auto using clock_0, clock_24; unfold date_le, real_date; lia.
Qed.
Lemma shows_refl s e : ParseString s = OK e -> inside e e.
Proof.
  intro E. destruct (bound_shows s e (r_lower (e_start e)) E) as (lo & L); [left; reflexivity|].
  destruct (bound_shows s e (r_upper (e_end e)) E) as (hi & H); [cbn; auto|].
  exists lo, hi, lo, hi. repeat (split; [assumption|]). split; [apply earlier_refl|apply later_refl].
Qed.
Lemma hides_x s s' e e' : hides s s' -> ParseString s = OK e -> ParseString s' = OK e' -> inside e e' /\ inside e' e \/ In "X"%char s'.
Proof.
  intros H E E'. destruct (in_dec ascii_dec "X"%char s') as [I|I]; [right; exact I|left]. apply (hides_same _ _ H) in I. subst s'. rewrite E in E'. injection E' as <-.
  split; exact (shows_refl s e E).
Qed.
Theorem hides_inside s s' e e' : hides s s' -> ~ hides_month s s' -> ParseString s = OK e -> ParseString s' = OK e' ->
  e_feature e <> $"Seasons" -> e_feature e <> $"Sub-year groupings" -> inside e e'.
Proof.
  intros H B E E' N1 N2. destruct (hides_x _ _ _ _ H E E') as [(G & _)|X]; [exact G|].
  destruct (read_strings s' e' E') as [(-> & _)|[(-> & _)|(lv' & f' & lo' & hi' & T' & R' & _ & _ & L' & U')]].
  { exfalso. vm_compute in X. intuition discriminate. } { destruct X. }
  destruct (read_strings s e E) as [(-> & _)|[(-> & _)|(lv & f & lo & hi & T & R & _ & F & L & U)]].
  { exfalso. apply hides_pair in H. destruct H as (a & b & -> & [->|(A & _)] & [->|(A' & _)]); try discriminate. vm_compute in X. intuition discriminate. }
  { inversion H; subst. destruct X. }
  exists lo, hi, lo', hi'. repeat (split; [assumption|]). rewrite F in N1, N2.
  destruct (others_not_x _ _ _ _ _ T' R') as [F'|[->|K]]; [| |contradiction].
  - apply (reads_span _ _ _ _ F') in R'. destruct (others_alien _ _ _ _ _ T R) as [Fs|[K|[K|(c & Ic & A & C & _)]]]; [|contradiction|contradiction|].
    + apply (reads_span _ _ _ _ Fs) in R. exact (span_hidden _ _ _ _ _ _ R R' H B).
    + exfalso. apply reads_bytes in R'. rewrite Forall_forall in R'. rewrite (R' c (hides_in _ _ _ H Ic A)) in C. discriminate C.
  - apply reads_season in R'. destruct (season_x _ _ _ _ T' R' X) as (t & y & n & b & e0 & j & p & q & -> & Y & M & P & Q & -> & ->).
    assert (N : 0 <= n <= 99) by (destruct (months_range _ _ _ _ M); lia).
    destruct (others_alien _ _ _ _ _ T R) as [Fs|[K|[K|(c & Ic & A)]]]; [|contradiction|contradiction|].
    + apply (reads_span _ _ _ _ Fs) in R. exact (season_span _ _ _ _ _ _ _ _ _ _ _ R Y M P Q H).
    + exfalso. destruct (season_bytes t y n p q c Y N P Q) as (K & _); [apply (hides_in _ _ _ H Ic); apply A|]. exact (K A).
Qed.
(** Two seasons of which one is the other with digits hidden are the same. *)
Lemma months_fun n b e j b' e' j' : season_months n b e j -> season_months n b' e' j' -> b = b' /\ e = e' /\ j = j'.
Proof.
  intros [k K|k w b0 e0 j0 S] H.
  - destruct (months_range _ _ _ _ H); lia.
  - destruct H as [k' K|k' w' b1 e1 j1 S']; [destruct S; lia|]. destruct S; inversion S'; auto.
Qed.
Theorem hides_season s s' e e' : hides s s' -> ParseString s = OK e -> ParseString s' = OK e' -> e_feature e = $"Seasons" -> e_feature e' = $"Seasons" -> inside e e' /\ inside e' e.
Proof.
  intros H E E' N N'. destruct (hides_x _ _ _ _ H E E') as [G|X]; [exact G|].
  destruct (read_strings s' e' E') as [(-> & _)|[(-> & _)|(lv' & f' & lo' & hi' & T' & R' & _ & F' & L' & U')]].
  { exfalso. vm_compute in X. intuition discriminate. } { destruct X. }
  destruct (read_strings s e E) as [(-> & _ & F & _)|[(-> & _ & F & _)|(lv & f & lo & hi & T & R & _ & F & L & U)]]; [rewrite F in N; discriminate N..|].
  rewrite N in F. rewrite N' in F'. subst f f'. apply reads_season in R, R'.
  destruct (season_x _ _ _ _ T' R' X) as (t & y & n & b & e0 & j & p & q & -> & Y & M & P & Q & Elo & Ehi).
  assert (Nn : 0 <= n <= 99) by (destruct (months_range _ _ _ _ M); lia).
  assert (G : lo = lo' /\ hi = hi').
  { destruct R as [t0 y0 n0 r b0 e1 j0 Y0 M0 _ _|n0 w v sp sp' y0 b0 e1 j0 S V G G' Y0 Y1].
    - pose proof (year_size_hides _ _ H) as Z. rewrite <- (year4_size _ _ _ Y0), <- (year4_size _ _ _ Y) in Z. apply (hides_split _ _ _ _ Z) in H. destruct H as (Ht & H).
      apply (hides_split ($"-") _ ($"-") _ eq_refl) in H. destruct H as (_ & H). apply (hides_split (two n0) _ (two n) _ eq_refl) in H. destruct H as (Hn & _).
      pose proof (year_hidden _ _ _ _ _ _ (yr_number _ _ Y0) (yr_number _ _ Y) Ht). assert (y0 = y) by lia. subst y0.
      apply hides_two_two in Hn; [|destruct (months_range _ _ _ _ M0); lia|exact Nn]. subst n0. destruct (months_fun _ _ _ _ _ _ _ M0 M) as (-> & -> & ->). auto.
    - exfalso. destruct (season_bytes t y n p q ","%char Y Nn P Q) as (K & _).
      + apply (hides_in _ _ _ H); [|reflexivity]. apply in_or_app. right. apply in_or_app. right. left. reflexivity.
      + apply K. split; [reflexivity|]. split; [reflexivity|discriminate]. }
  destruct G as (-> & ->). split; exists lo', hi', lo', hi'; repeat (split; [assumption|]); (split; [apply earlier_refl|apply later_refl]).
Qed.
(** A season or grouping by its code. *)
Lemma code_spot n y : code_in_year n -> 0 <= y <= 9999 -> 21 <= n <= 99 /\ exists b e, 1 <= b <= 12 /\ 1 <= e <= 12 /\
  spot (four y ++ $"-" ++ two n) (from_day y b 1) (to_day y e (month_len y e)).
Proof.
  intros [k w b e S|k b e G] Y.
  - split; [inversion S; lia|]. exists b, e. split; [inversion S; lia|]. split; [inversion S; lia|]. pose proof (spot_season k w b e 0 y S ltac:(lia) ltac:(lia)) as P. rewrite Z.add_0_r in P. exact P.
  - split; [inversion G; lia|]. exists b, e. split; [inversion G; lia|]. split; [inversion G; lia|]. pose proof (spot_grouping k b e 0 y G Y (or_introl eq_refl)) as P. rewrite Z.add_0_r in P. exact P.
Qed.
Theorem hides_code n y s' e' : code_in_year n -> 0 <= y <= 9999 -> hides (four y ++ $"-" ++ two n) s' -> ParseString s' = OK e' ->
  exists e, ParseString (four y ++ $"-" ++ two n) = OK e /\ inside e e'.
Proof.
  intros C Hy H E'. destruct (code_spot n y C Hy) as (Hn & b & e0 & Hb & He & (e & E & L & U)). exists e. split; [exact E|].
  destruct (hides_x _ _ _ _ H E E') as [(G & _)|X]; [exact G|].
  destruct (read_strings s' e' E') as [(-> & _)|[(-> & _)|(lv' & f' & lo' & hi' & T' & R' & _ & _ & L' & U')]].
  { exfalso. vm_compute in X. intuition discriminate. } { destruct X. }
  pose proof (hides_length _ _ H) as Le. pose proof (year_size_hides _ _ H) as Z. rewrite <- (year4_size _ _ _ (year4_pos y Hy)) in Z.
  assert (Le7 : length s' = 7%nat) by (rewrite <- Le; reflexivity). change (length (four y)) with 4%nat in Z.
  assert (By : forall c, In c s' -> is_mark c = false /\ c <> "/"%char).
  { intros c I. destruct (ascii_dec c "X") as [->|Nx]; [split; [reflexivity|discriminate]|]. apply (hides_back _ _ _ H) in I; [|exact Nx].
    assert (D : is_digit c = true \/ c = "-"%char).
    { unfold four, two in I. change ($"-") with ["-"%char] in I. cbn [app In] in I. decompose [or] I; try contradiction; subst c; try (right; reflexivity); left; apply is_digit_char; lia. }
    destruct D as [D| ->]; [|split; [reflexivity|discriminate]]. split; [exact (digit_no_mark c D)|intros ->; discriminate D]. }
  exists (from_day y b 1), (to_day y e0 (month_len y e0)), lo', hi'. repeat (split; [assumption|]).
  destruct (others_not_x _ _ _ _ _ T' R') as [F'|[->|K]]; [| |contradiction].
  - apply (reads_span _ _ _ _ F') in R'. destruct R' as [s' lo' hi' W|u v lo' x x' hi' _ _].
    2: { exfalso. destruct (By "/"%char) as (_ & K); [apply in_or_app; right; left; reflexivity|congruence]. }
    destruct W as [z n1 f z' n' f'' D D1 D2]. apply date_bare in D. rewrite unmarked_none in D by (apply Forall_forall; intros c I; apply By; exact I).
    remember s' as s2 eqn:Es. destruct D as [yc z z' Yr|yc z z' mc m m' Yr Mr|yc z z' mc m m' dc d d' Yr Mr Dr].
    + exfalso. rewrite (year_long _ _ _ [] Yr), app_nil_r, <- Z in Le7. discriminate Le7.
    + pose proof (year_long _ _ _ ($"-" ++ mc) Yr) as Ly. rewrite <- Z in Ly. apply hides_split in H; [|rewrite Ly; reflexivity]. destruct H as (Ht & H).
      apply (hides_split ($"-") _ ($"-") _ eq_refl) in H. destruct H as (_ & Hm). pose proof (year_hidden _ _ _ _ _ _ (yr_number _ _ (year4_pos y Hy)) Yr Ht).
      assert (M : m = 1 /\ m' = 12).
      { destruct Mr as [k Hk| |a A]; [apply hides_two_two in Hm; lia|lia|]. exfalso. apply hides_two in Hm; [|lia]. destruct Hm as (a' & b' & Em & A' & _). injection Em as <- _.
        destruct A as [->| ->]; [apply (two_first n 0) in A'; lia|apply (two_first n 1) in A'; lia]. }
      destruct M as (-> & ->). unfold real_date in D2. pose proof (month_len_28 y e0). pose proof (month_len_28 y b). pose proof (month_len_28 z 1).
      assert (month_len y 12 = 31 /\ month_len z' 12 = 31) by (split; reflexivity).
      assert (e0 = 12 -> month_len y e0 = 31) by (intros ->; reflexivity).
      split; cbn; apply instant_le; auto using clock_0, clock_24; unfold date_le, real_date; lia.
    + exfalso. pose proof (year_long _ _ _ ($"-" ++ mc ++ $"-" ++ dc) Yr) as Ly. rewrite <- Z in Ly.
      destruct (month_bare _ _ _ Mr) as (_ & K), (day_bare _ _ _ _ _ Dr) as (_ & K'). rewrite !app_length, K, K', Ly in Le7. discriminate Le7.
  - exfalso. apply reads_season in R'. destruct (season_x _ _ _ _ T' R' X) as (t & y' & n' & b' & e1 & j & p & q & -> & Y & _).
    rewrite <- (year4_size _ _ _ Y) in Z. rewrite !app_length, <- Z in Le7. discriminate Le7.
Qed.
