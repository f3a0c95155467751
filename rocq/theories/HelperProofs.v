(** The helper functions called directly: months, days and times. *)
From Coq Require Import Ascii String ZArith NArith Bool Lia ZifyBool List.
From Verif Require Import GoStr GoTime SpecCal SpecText SpecZone SpecGrammar SpecForms SpecSpan SpecPeriod SpecReads SpecWhole SpecRefused SpecHelpers StrFacts TextFacts Edtf Calendar Common CalFacts SpanFacts CommonProofs RefDate RefStamp RefYears SplitFacts ApiFacts CalendarProofs.
Import ListNotations.
Open Scope Z_scope.
Ltac Zify.zify_post_hook ::= Z.div_mod_to_equations.

(** ** Numbers *)
Lemma number_iff t z : atoi t = OK z <-> whole_number t z.
Proof. exact (atoi_spec t z). Qed.
Lemma number_err t : no_number t <-> atoi t = Err (ENum t).
Proof.
  split.
  - intro H. destruct (RefDate.atoi_err t) as [(z & E)|E]; [|exact E]. apply number_iff in E. destruct (H _ E).
  - intros E z Q. apply number_iff in Q. rewrite Q in E. discriminate.
Qed.
Lemma number_case t : (exists z, whole_number t z) \/ no_number t.
Proof. destruct (RefDate.atoi_err t) as [(z & E)|E]; [left; exists z; apply number_iff; exact E|right; apply number_err; exact E]. Qed.
Lemma number_inj t z z' : whole_number t z -> whole_number t z' -> z = z'.
Proof. intros H H'. apply number_iff in H, H'. rewrite H in H'. injection H'. auto. Qed.
Lemma opt_iff t z : number_or_nothing t z <-> opt_num t z.
Proof.
  unfold number_or_nothing, opt_num. rewrite <- number_iff. split.
  - intros [H|H]; [auto|]. right. split; [intros ->; discriminate|exact H].
  - intros [H|(_ & H)]; auto.
Qed.
Lemma magnitude_flip y : min_int64 <= y <= max_int64 -> (if y <? 0 then FlipYear y else y) = magnitude y.
Proof.
  intro H. unfold magnitude. change (- 2 ^ 63) with min_int64. unfold min_int64, max_int64 in *. destruct (y <? 0) eqn:E.
  - destruct (y =? -9223372036854775808) eqn:Q; [apply Z.eqb_eq in Q; subst; reflexivity|]. rewrite FlipYear_neg; unfold two63; lia.
  - destruct (y =? -9223372036854775808) eqn:Q; lia.
Qed.
Lemma magnitude_near y : min_int64 <= y <= max_int64 -> magnitude y <= 9999 <-> -9999 <= y <= 9999 \/ y = min_int64.
Proof. unfold magnitude, min_int64, max_int64. change (- 2 ^ 63) with (-9223372036854775808). destruct (y =? -9223372036854775808) eqn:E; lia. Qed.
Lemma magnitude_abs y : -9999 <= y <= 9999 -> magnitude y = Z.abs y.
Proof. unfold magnitude. change (- 2 ^ 63) with (-9223372036854775808). intro H. replace (y =? -9223372036854775808) with false by lia. reflexivity. Qed.
Lemma magnitude_twice y : min_int64 <= y <= max_int64 -> (if magnitude y <? 0 then FlipYear (magnitude y) else magnitude y) = magnitude y.
Proof.
  intro H. unfold magnitude. change (- 2 ^ 63) with min_int64. unfold min_int64, max_int64 in *.
  destruct (y =? -9223372036854775808) eqn:Q; [apply Z.eqb_eq in Q; subst; reflexivity|]. replace (Z.abs y <? 0) with false by lia. reflexivity.
Qed.

(** ** Padding *)
Lemma itoa_neg z : z < 0 -> itoa z = "-"%char :: digits (- z).
Proof. intro H. unfold itoa. replace (z <? 0) with true by lia. reflexivity. Qed.
Lemma itoa_pos z : 0 <= z -> itoa z = digits z.
Proof. intro H. unfold itoa. replace (z <? 0) with false by lia. reflexivity. Qed.
Lemma digits_no_minus z r : 0 <= z -> digits z <> "-"%char :: r.
Proof. intros H E. destruct (digits_ok z H) as (D & _). rewrite E in D. inversion D. discriminate. Qed.
Lemma padded_fun n z t : padded n z t -> t = fmt_0d n z.
Proof.
  intros [u C L|k u C P L|k u C L]; apply canonical_itoa in C; unfold fmt_0d, pad0, zeros.
  - subst u. unfold itoa in *. destruct (z <? 0) eqn:E.
    + cbn [length] in L. replace (pred n - length (digits (- z)))%nat with 0%nat by lia. reflexivity.
    + replace (n - length (digits z))%nat with 0%nat by lia. reflexivity.
  - subst u. rewrite itoa_pos in * by exact P. replace (z <? 0) with false by lia. replace (n - length (digits z))%nat with k by lia. reflexivity.
  - unfold itoa in C. destruct (z <? 0) eqn:E.
    + injection C as ->. replace (pred n - length (digits (- z)))%nat with k by lia. reflexivity.
    + symmetry in C. apply digits_no_minus in C; [destruct C|lia].
Qed.
Lemma padded_ok n z : padded n z (fmt_0d n z).
Proof.
  unfold fmt_0d, pad0, zeros. pose proof (itoa_canonical z) as C. destruct (z <? 0) eqn:E.
  - rewrite itoa_neg in C by lia. destruct (le_lt_dec n (S (length (digits (- z))))) as [L|L].
    + replace (pred n - length (digits (- z)))%nat with 0%nat by lia. apply pd_fits; [exact C|cbn [length]; exact L].
    + apply pd_minus; [exact C|lia].
  - rewrite itoa_pos in C by lia. destruct (le_lt_dec n (length (digits z))) as [L|L].
    + replace (n - length (digits z))%nat with 0%nat by lia. apply pd_fits; [exact C|exact L].
    + apply pd_plain; [exact C|lia..].
Qed.

(** ** Months *)
Definition days_value (m : Z) (y : Z) : Z := if (1 <=? m) && (m <=? 12) then month_len y m else 31.
Lemma days_err y m : min_int64 <= y <= max_int64 -> min_int64 <= m <= max_int64 -> ~ (-9999 <= y <= 9999 /\ 0 <= m) ->
  DaysInMonth y m = Err (ETime ($"2006-01-02") (fmt_0d 4 (magnitude y) ++ $"-" ++ fmt_0d 2 (next_month m) ++ $"-01")).
Proof.
  intros Hy Hm N. destruct (proj2 (days_total y m Hy Hm) N) as (e & E). rewrite E. unfold DaysInMonth in E. cbv zeta in E.
  change (wrap64 (y - wrap64 (y * 2))) with (FlipYear y) in E. rewrite (magnitude_flip y Hy) in E.
  replace (if 12 <=? m then 1 else wrap64 (m + 1)) with (next_month m) in E.
  2: { unfold next_month. destruct (12 <=? m) eqn:Q; [reflexivity|]. unfold min_int64, max_int64 in *. rewrite wrap64_id; unfold min_int64, max_int64; lia. }
  match type of E with context [time_parse ?L ?s] => destruct (time_parse_err L s) as [(t & Q)|Q]; rewrite Q in E end; cbn [bind] in E; [discriminate|].
  symmetry. exact E.
Qed.
Theorem days_errors y m x : min_int64 <= y <= max_int64 -> min_int64 <= m <= max_int64 -> DaysInMonth y m = Err x <-> days_refused y m x.
Proof.
  intros Hy Hm. split.
  - intro E. assert (N : ~ (-9999 <= y <= 9999 /\ 0 <= m)).
    { intro C. rewrite (proj1 (days_total y m Hy Hm) C) in E. discriminate. }
    rewrite (days_err y m Hy Hm N) in E. injection E as <-. apply dy_intro; [exact N|apply padded_ok..].
  - intros [a b N A B]. apply padded_fun in A, B. subst. exact (days_err y m Hy Hm N).
Qed.
Lemma days_pieces a b s : year_and_month s a b -> DaysInMonthWithString s = let* y := atoi a in let* m := atoi b in DaysInMonth y m.
Proof.
  intro H. unfold DaysInMonthWithString. change ($"-") with ["-"%char]. destruct H as [a b Ha Hb|x a b Hx Ha Hb].
  - rewrite split_two by assumption. reflexivity.
  - rewrite split_one by assumption. rewrite split_two by assumption. reflexivity.
Qed.
Theorem days_text_errors s x : DaysInMonthWithString s = Err x <-> days_text_refused s x.
Proof.
  split.
  - intro H. unfold DaysInMonthWithString in H. change ($"-") with ["-"%char] in H.
    assert (Q : (exists a b, year_and_month s a b) \/ (forall a b, ~ year_and_month s a b) /\ x = EText ($"Invalid YYYYMM string")).
    { destruct (split s ["-"%char]) as [|u [|b [|c [|d l]]]] eqn:E.
      1, 2, 5: right; split; [|injection H as <-; reflexivity]; intros a' b' I; destruct I as [a0 b0 H1 H2|x0 a0 b0 H0 H1 H2]; [rewrite split_two in E by assumption|rewrite split_one in E by assumption; rewrite split_two in E by assumption]; discriminate E.
      - left. apply split_inv2 in E. destruct E as (-> & H1 & H2). exists u, b. constructor; assumption.
      - left. apply split_inv_cons in E. destruct E as (t & -> & Hx & E). apply split_inv2 in E. destruct E as (-> & H1 & H2).
        exists ("-"%char :: b), c. constructor; assumption. }
    destruct Q as [(a & b & Q)|(Q & ->)]; [|apply dyt_form; exact Q].
    change (DaysInMonthWithString s = Err x) in H. rewrite (days_pieces _ _ _ Q) in H.
    destruct (number_case a) as [(y & Na)|Na].
    + pose proof (proj2 (number_iff _ _) Na) as Ea. rewrite Ea in H. cbn [bind] in H. destruct (number_case b) as [(m & Nb)|Nb].
      * pose proof (proj2 (number_iff _ _) Nb) as Eb. rewrite Eb in H. cbn [bind] in H. apply (days_errors y m x (proj2 Na) (proj2 Nb)) in H.
        exact (dyt_days _ _ _ _ _ _ Q Na Nb H).
      * pose proof (proj1 (number_err _) Nb) as Eb. rewrite Eb in H. injection H as <-. exact (dyt_month _ _ _ _ Q Na Nb).
    + pose proof (proj1 (number_err _) Na) as Ea. rewrite Ea in H. injection H as <-. exact (dyt_year _ _ _ Q Na).
  - intros [N|a b Q Na|a b y Q Na Nb|a b y m e Q Na Nb D].
    + unfold DaysInMonthWithString. change ($"-") with ["-"%char]. destruct (split s ["-"%char]) as [|u [|b [|c [|d l]]]] eqn:E; try reflexivity.
      * apply split_inv2 in E. destruct E as (-> & H1 & H2). destruct (N u b). constructor; assumption.
      * apply split_inv_cons in E. destruct E as (t & -> & Hx & E). apply split_inv2 in E. destruct E as (-> & H1 & H2).
        destruct (N ("-"%char :: b) c). constructor; assumption.
    + rewrite (days_pieces _ _ _ Q), (proj1 (number_err _) Na). reflexivity.
    + rewrite (days_pieces _ _ _ Q), (proj2 (number_iff _ _) Na). cbn [bind]. rewrite (proj1 (number_err _) Nb). reflexivity.
    + rewrite (days_pieces _ _ _ Q), (proj2 (number_iff _ _) Na). cbn [bind]. rewrite (proj2 (number_iff _ _) Nb). cbn [bind].
      apply (days_errors y m e (proj2 Na) (proj2 Nb)). exact D.
Qed.

(** ** Days *)
Lemma bc_false (b c : str) : (b = [] -> c = []) -> is_empty b && negb (is_empty c) = false.
Proof. intro H. destruct (is_empty b) eqn:E; [|reflexivity]. apply is_empty_spec in E. rewrite (H E). reflexivity. Qed.
Lemma ymd_numbers a b c y m d : numbers a b c y m d -> YMDFromStrings a b c =
  if MAX_YEARS <? magnitude y then Err (Unsupported ($"year") (itoa (magnitude y)))
  else if (m =? 0) && negb (d =? 0) then Err (EText ($"Missing month"))
  else if negb (m =? 0) && (12 <? m) then Err (EText ($"Invalid month"))
  else
    let* days := DaysInMonth (magnitude y) (month_or_first m) in
    if negb (d =? 0) && (days <? d) then Err (EText ($"Invalid days for month"))
    else OK (mkYMD (if y <? 0 then FlipYear (magnitude y) else magnitude y) (month_or_first m) (if d =? 0 then days else d)).
Proof.
  intros [A B C BC]. unfold YMDFromStrings.
  replace (is_empty a) with false by (symmetry; apply is_empty_false; intros ->; apply number_iff in A; discriminate A).
  rewrite (bc_false _ _ BC). rewrite (proj2 (number_iff _ _) A). cbn [bind].
  apply opt_iff, opt_num_fun in B, C. rewrite B, C. cbn [bind]. rewrite (magnitude_flip y (proj2 A)). reflexivity.
Qed.
Lemma month_range_int a b c y m d : numbers a b c y m d -> min_int64 <= y <= max_int64 /\ min_int64 <= m <= max_int64.
Proof.
  intros [A B _ _]. split; [apply A|]. destruct B as [(_ & ->)|B]; [unfold min_int64, max_int64; lia|apply B].
Qed.
Lemma days_magnitude y m : min_int64 <= y <= max_int64 -> DaysInMonth (magnitude y) m = DaysInMonth y m.
Proof.
  intro H. unfold DaysInMonth. change (wrap64 (y - wrap64 (y * 2))) with (FlipYear y).
  change (wrap64 (magnitude y - wrap64 (magnitude y * 2))) with (FlipYear (magnitude y)).
  rewrite (magnitude_twice y H), (magnitude_flip y H). reflexivity.
Qed.
Lemma min_days m : min_int64 <= m <= max_int64 -> exists x, DaysInMonth min_int64 m = Err x.
Proof. intro H. apply days_far; unfold min_int64, max_int64; lia. Qed.
Lemma ymd_total a b c :
  match YMDFromStrings a b c with OK v => ymd_gives a b c v | Err x => ymd_refused a b c x | Panic => False end.
Proof.
  destruct (is_empty a) eqn:Ea.
  { apply is_empty_spec in Ea. unfold YMDFromStrings. rewrite Ea. cbn [is_empty]. apply yx_nothing. reflexivity. }
  apply is_empty_false in Ea. destruct (is_empty b && negb (is_empty c)) eqn:Eb.
  { unfold YMDFromStrings. rewrite (proj2 (is_empty_false _) Ea), Eb. apply andb_true_iff in Eb. destruct Eb as (Eb & Ec).
    apply yx_day; [exact Ea|apply is_empty_spec; exact Eb|]. apply is_empty_false. apply negb_true_iff in Ec. exact Ec. }
  assert (BC : b = [] -> c = []).
  { intros ->. cbn [is_empty andb] in Eb. apply negb_false_iff, is_empty_spec in Eb. exact Eb. }
  destruct (number_case a) as [(y & Na)|Na].
  2: { pose proof (yx_year a b c Ea BC Na) as G. unfold YMDFromStrings. rewrite (proj2 (is_empty_false _) Ea), Eb, (proj1 (number_err _) Na). exact G. }
  assert (Cb : (exists m, number_or_nothing b m) \/ b <> [] /\ no_number b).
  { destruct (is_empty b) eqn:Q; [apply is_empty_spec in Q; subst; left; exists 0; left; auto|]. apply is_empty_false in Q.
    destruct (number_case b) as [(m & Nb)|Nb]; [left; exists m; right; exact Nb|auto]. }
  destruct Cb as [(m & Nb)|(Qb & Nb)].
  2: { pose proof (yx_month a b c y BC Na Qb Nb) as G. unfold YMDFromStrings. rewrite (proj2 (is_empty_false _) Ea), Eb, (proj2 (number_iff _ _) Na), (proj2 (is_empty_false _) Qb).
       cbn [bind]. rewrite (proj1 (number_err _) Nb). exact G. }
  assert (Cc : (exists d, number_or_nothing c d) \/ c <> [] /\ no_number c).
  { destruct (is_empty c) eqn:Q; [apply is_empty_spec in Q; subst; left; exists 0; left; auto|]. apply is_empty_false in Q.
    destruct (number_case c) as [(d & Nc)|Nc]; [left; exists d; right; exact Nc|auto]. }
  destruct Cc as [(d & Nc)|(Qc & Nc)].
  2: { pose proof (yx_day_text a b c y m BC Na Nb Qc Nc) as G. apply opt_iff, opt_num_fun in Nb.
       unfold YMDFromStrings. rewrite (proj2 (is_empty_false _) Ea), Eb, (proj2 (number_iff _ _) Na), Nb, (proj2 (is_empty_false _) Qc).
       cbn [bind]. rewrite (proj1 (number_err _) Nc). exact G. }
  assert (N : numbers a b c y m d) by (constructor; assumption). rewrite (ymd_numbers _ _ _ _ _ _ N).
  destruct (month_range_int _ _ _ _ _ _ N) as (Ry & Rm). unfold MAX_YEARS.
  destruct (9999 <? magnitude y) eqn:E1; [apply (yx_far a b c y m d); [exact N|lia|apply itoa_canonical]|].
  destruct ((m =? 0) && negb (d =? 0)) eqn:E2; [apply (yx_zero a b c y m d); [exact N|lia..]|].
  destruct (negb (m =? 0) && (12 <? m)) eqn:E3; [apply (yx_late a b c y m d); [exact N|lia..]|].
  assert (Hmf : month_or_first m = 1 /\ m = 0 \/ month_or_first m = m /\ m <> 0) by (unfold month_or_first; destruct (m =? 0) eqn:Q; lia).
  assert (Rf : min_int64 <= month_or_first m <= max_int64) by (unfold min_int64, max_int64 in *; lia).
  rewrite (days_magnitude y _ Ry). destruct (days_total y (month_or_first m) Ry Rf) as (D1 & D2).
  assert (Z : (-9999 <= y <= 9999 /\ 0 <= month_or_first m) \/ ~ (-9999 <= y <= 9999 /\ 0 <= month_or_first m)) by lia. destruct Z as [Z|Z].
  - rewrite (D1 Z). cbn [bind]. replace ((1 <=? month_or_first m) && (month_or_first m <=? 12)) with true by lia.
    pose proof (month_len_range y (month_or_first m)).
    destruct (negb (d =? 0) && (month_len y (month_or_first m) <? d)) eqn:E4.
    + apply (yx_long a b c y m d); [exact N|lia..].
    + replace (if y <? 0 then FlipYear (magnitude y) else magnitude y) with y.
      * change (if d =? 0 then month_len y (month_or_first m) else d) with (day_or_last y (month_or_first m) d).
        apply yg_intro; [exact N|lia..].
      * rewrite magnitude_abs by lia. destruct (y <? 0) eqn:Q; [|lia]. rewrite FlipYear_neg; unfold two63; lia.
  - destruct (D2 Z) as (x & Q). rewrite Q. cbn [bind]. apply (yx_days a b c y m d); [exact N|lia..|]. apply (days_errors y _ x Ry Rf). exact Q.
Qed.
Lemma ymd_gives_ok a b c v : ymd_gives a b c v -> YMDFromStrings a b c = OK v.
Proof.
  intros [y m d N Hy Hm H0 Hd]. destruct N as [A B C BC]. rewrite (YMDFromStrings_fwd a b c y m d); try assumption; [|apply number_iff; exact A|apply opt_iff; assumption..].
  fold (month_or_first m). replace (month_len y (month_or_first m) <? d) with false by lia. reflexivity.
Qed.
Lemma ymd_refused_err a b c x : ymd_refused a b c x -> YMDFromStrings a b c = Err x.
Proof.
  intros [->|Ea -> Ec|Ea BC N|y BC Na Eb N|y m BC Na Nb Ec N|y m d w N M W|y m d N M Z D|y m d N M L|y m d e N M L Z D|y m d N Y M Z D].
  - reflexivity.
  - unfold YMDFromStrings. apply is_empty_false in Ea, Ec. rewrite Ea, Ec. reflexivity.
  - unfold YMDFromStrings. apply is_empty_false in Ea. rewrite Ea, (bc_false _ _ BC), (proj1 (number_err _) N). reflexivity.
  - unfold YMDFromStrings. replace (is_empty a) with false by (symmetry; apply is_empty_false; intros ->; apply number_iff in Na; discriminate Na).
    apply is_empty_false in Eb. rewrite (bc_false _ _ BC), (proj2 (number_iff _ _) Na), Eb. cbn [bind]. rewrite (proj1 (number_err _) N). reflexivity.
  - unfold YMDFromStrings. replace (is_empty a) with false by (symmetry; apply is_empty_false; intros ->; apply number_iff in Na; discriminate Na).
    apply is_empty_false in Ec. apply opt_iff, opt_num_fun in Nb. rewrite (bc_false _ _ BC), (proj2 (number_iff _ _) Na), Nb, Ec. cbn [bind]. rewrite (proj1 (number_err _) N). reflexivity.
  - rewrite (ymd_numbers _ _ _ _ _ _ N). unfold MAX_YEARS. replace (9999 <? magnitude y) with true by lia. apply canonical_itoa in W. subst. reflexivity.
  - rewrite (ymd_numbers _ _ _ _ _ _ N). unfold MAX_YEARS. replace (9999 <? magnitude y) with false by lia. replace ((m =? 0) && negb (d =? 0)) with true by lia. reflexivity.
  - rewrite (ymd_numbers _ _ _ _ _ _ N). unfold MAX_YEARS. replace (9999 <? magnitude y) with false by lia. replace ((m =? 0) && negb (d =? 0)) with false by lia.
    replace (negb (m =? 0) && (12 <? m)) with true by lia. reflexivity.
  - destruct (month_range_int _ _ _ _ _ _ N) as (Ry & Rm).
    assert (Rf : min_int64 <= month_or_first m <= max_int64) by (unfold month_or_first; destruct (m =? 0); unfold min_int64, max_int64 in *; lia).
    rewrite (ymd_numbers _ _ _ _ _ _ N). unfold MAX_YEARS. replace (9999 <? magnitude y) with false by lia. replace ((m =? 0) && negb (d =? 0)) with false by lia.
    replace (negb (m =? 0) && (12 <? m)) with false by lia. rewrite (days_magnitude y _ Ry). apply (days_errors y _ e Ry Rf) in D. rewrite D. reflexivity.
  - destruct N as [A B C BC]. rewrite (YMDFromStrings_fwd a b c y m d); try assumption; [|apply number_iff; exact A|apply opt_iff; assumption..].
    fold (month_or_first m). replace (month_len y (month_or_first m) <? d) with true by lia. reflexivity.
Qed.
Theorem ymd_values a b c v : YMDFromStrings a b c = OK v <-> ymd_gives a b c v.
Proof. split; [|apply ymd_gives_ok]. intro H. pose proof (ymd_total a b c) as T. rewrite H in T. exact T. Qed.
Theorem ymd_errors a b c x : YMDFromStrings a b c = Err x <-> ymd_refused a b c x.
Proof. split; [|apply ymd_refused_err]. intro H. pose proof (ymd_total a b c) as T. rewrite H in T. exact T. Qed.
Lemma ymd_no_panic a b c : YMDFromStrings a b c <> Panic.
Proof. intro H. pose proof (ymd_total a b c) as T. rewrite H in T. exact T. Qed.

Lemma pieces_ymd s a b c : three_pieces s a b c -> YMDFromString s = YMDFromStrings a b c.
Proof.
  unfold YMDFromString. change ($"-") with ["-"%char].
  intros [x Hx|x y Hx Hy|x y z Hx Hy Hz|w x y z Hw Hx Hy Hz]; cbn [app].
  - rewrite split_none by exact Hx. reflexivity.
  - change ($"-" ++ y) with ("-"%char :: y). rewrite split_two by assumption. reflexivity.
  - change ($"-" ++ y ++ $"-" ++ z) with ("-"%char :: y ++ "-"%char :: z). rewrite split_one by assumption. rewrite split_two by assumption. reflexivity.
  - change ($"-" ++ x ++ $"-" ++ y ++ $"-" ++ z) with ("-"%char :: x ++ "-"%char :: y ++ "-"%char :: z).
    rewrite split_one by assumption. rewrite split_one by assumption. rewrite split_two by assumption. reflexivity.
Qed.
Lemma pieces_case s : (exists a b c, three_pieces s a b c) \/ (forall a b c, ~ three_pieces s a b c) /\ YMDFromString s = Err (EText ($"Invalid YMD string")).
Proof.
  pose proof (split_joined s ["-"%char] ltac:(discriminate)) as J. pose proof (split_free s ["-"%char] ltac:(discriminate)) as F.
  assert (L : forall a b c, three_pieces s a b c -> (1 <= length (split s ["-"%char]) <= 4)%nat).
  { intros a b c [x Hx|x y Hx Hy|x y z Hx Hy Hz|w x y z Hw Hx Hy Hz]; cbn [app lit list_ascii_of_string];
      repeat (rewrite split_one by assumption); try rewrite split_none by assumption; try (rewrite split_two by assumption); cbn [length]; lia. }
  unfold YMDFromString. change ($"-") with ["-"%char]. destruct (split s ["-"%char]) as [|a [|b [|c [|d [|e l]]]]] eqn:E.
  - right. split; [intros a b c H; specialize (L _ _ _ H); cbn in L; lia|reflexivity].
  - left. cbn in J. subst a. inversion F as [|? ? F1 _]; subst. rewrite occurs_1 in *. exists s, [], []. constructor. exact F1.
  - left. subst s. inversion F as [|? ? F1 F']; subst. inversion F' as [|? ? F2 _]; subst. rewrite occurs_1 in *.
    exists a, b, []. apply (tp_2 a b); assumption.
  - left. subst s. inversion F as [|? ? F1 F']; subst. inversion F' as [|? ? F2 F'']; subst. inversion F'' as [|? ? F3 _]; subst. rewrite occurs_1 in *.
    exists a, b, c. apply (tp_3 a b c); assumption.
  - left. subst s. inversion F as [|? ? F1 F']; subst. inversion F' as [|? ? F2 F'']; subst. inversion F'' as [|? ? F3 F4]; subst.
    inversion F4 as [|? ? F5 _]; subst. rewrite occurs_1 in *. exists ("-"%char :: b), c, d. apply (tp_4 a b c d); assumption.
  - right. split; [intros a' b' c' H; specialize (L _ _ _ H); cbn [length] in L; lia|reflexivity].
Qed.
Theorem ymd_text_values s v : YMDFromString s = OK v <-> exists a b c, three_pieces s a b c /\ ymd_gives a b c v.
Proof.
  split.
  - intro H. destruct (pieces_case s) as [(a & b & c & P)|(_ & E)]; [|rewrite E in H; discriminate].
    exists a, b, c. split; [exact P|]. apply ymd_values. rewrite <- (pieces_ymd _ _ _ _ P). exact H.
  - intros (a & b & c & P & G). rewrite (pieces_ymd _ _ _ _ P). apply ymd_values. exact G.
Qed.
Theorem ymd_text_errors s x : YMDFromString s = Err x <-> ymd_text_refused s x.
Proof.
  split.
  - intro H. destruct (pieces_case s) as [(a & b & c & P)|(N & E)].
    + apply (yt_pieces s a b c); [exact P|]. apply ymd_errors. rewrite <- (pieces_ymd _ _ _ _ P). exact H.
    + rewrite E in H. injection H as <-. apply yt_form. exact N.
  - intros [N|a b c e P R].
    + destruct (pieces_case s) as [(a & b & c & P)|(_ & E)]; [destruct (N _ _ _ P)|exact E].
    + rewrite (pieces_ymd _ _ _ _ P). apply ymd_errors. exact R.
Qed.
Lemma ymd_text_no_panic s : YMDFromString s <> Panic.
Proof.
  destruct (pieces_case s) as [(a & b & c & P)|(_ & E)]; [rewrite (pieces_ymd _ _ _ _ P); apply ymd_no_panic|rewrite E; discriminate].
Qed.

(** ** Times *)
Lemma getnum_two_inv v n r : getnum v true = Some (n, r) -> 0 <= n <= 99 /\ v = two n ++ r.
Proof.
  unfold getnum. destruct v as [|a [|b u]]; try discriminate; destruct (is_digit a) eqn:Ea; try discriminate.
  destruct (is_digit b) eqn:Eb; try discriminate. intro H. injection H as <- <-.
  pose proof (digit_val_range a Ea). pose proof (digit_val_range b Eb). split; [lia|].
  destruct (two_of a b Ea Eb) as (k & Hk & E). unfold two in *. injection E as -> ->. rewrite !digit_val_char by lia.
  cbn [app]. f_equal; [f_equal; lia|]. f_equal. f_equal. lia.
Qed.
Lemma getnum_hour_inv v n r : getnum v false = Some (n, r) -> exists ht, hour_text n ht /\ v = ht ++ r /\ 0 <= n <= 99.
Proof.
  intro H. destruct (getnum v true) as [(k & w)|] eqn:E.
  - assert (Q : getnum v false = Some (k, w)).
    { unfold getnum in *. destruct v as [|a [|b u]]; try discriminate; destruct (is_digit a); try discriminate. destruct (is_digit b); [exact E|discriminate]. }
    rewrite Q in H. injection H as <- <-. apply getnum_two_inv in E. destruct E as (R & ->). exists (two k). split; [constructor|auto].
  - unfold getnum in *. destruct v as [|a t]; [discriminate|]. destruct (is_digit a) eqn:Ea; [|discriminate].
    assert (Q : Some (digit_val a, t) = Some (n, r)) by (destruct t as [|b u]; [exact H|]; destruct (is_digit b); [discriminate|exact H]).
    injection Q as <- <-. pose proof (digit_val_range a Ea). destruct (char_val a Ea) as (E' & _). exists [digit_char (digit_val a)].
    split; [constructor; lia|]. split; [rewrite <- E'; reflexivity|lia].
Qed.
Lemma hour_getnum n ht c r : hour_text n ht -> 0 <= n <= 99 -> is_digit c = false -> getnum (ht ++ c :: r) false = Some (n, c :: r).
Proof.
  intros [h H|h] R D.
  - cbn [app getnum]. rewrite is_digit_char, digit_val_char, D by lia. reflexivity.
  - apply getnum_two. exact R.
Qed.
(** After the seconds. *)
Definition after_seconds (v' : str) : str :=
  match v' with
  | c :: d :: t => if (Ascii.eqb c "." || Ascii.eqb c ",") && is_digit d then skip_digits t else v'
  | _ => v'
  end.
Lemma skip_nil s : skip_digits s = [] <-> Forall (fun c => is_digit c = true) s.
Proof.
  induction s as [|c s IH]; cbn [skip_digits]; [split; auto|]. destruct (is_digit c) eqn:E.
  - rewrite IH. split; [auto|]. intro H. inversion H. assumption.
  - split; [discriminate|]. intro H. inversion H as [|? ? H1 _]; subst. rewrite H1 in E. discriminate.
Qed.
Lemma after_nil v : after_seconds v = [] <-> fraction_text v.
Proof.
  split.
  - intro H. destruct v as [|c [|d t]]; [constructor|discriminate|]. cbn [after_seconds] in H.
    destruct ((Ascii.eqb c "." || Ascii.eqb c ",") && is_digit d) eqn:E; [|discriminate].
    apply andb_true_iff in E. destruct E as (Ec & Ed). apply orb_true_iff in Ec. apply skip_nil in H.
    apply fr_some; [destruct Ec as [Ec|Ec]; apply Ascii.eqb_eq in Ec; auto|]. split; [discriminate|]. constructor; assumption.
  - intros [|c ds Hc (Hn & Hd)]; [reflexivity|]. destruct ds as [|d t]; [destruct (Hn eq_refl)|]. inversion Hd as [|? ? D1 D2]; subst.
    cbn [after_seconds]. rewrite D1. apply skip_nil in D2. destruct Hc as [-> | ->]; cbn [Ascii.eqb orb andb]; exact D2.
Qed.
Definition hms_toks : list tok := [THour; TLit ":"; TMin; TLit ":"; TSec].
Lemma hms_ok hms h mi ss p : clock_reads hms h mi ss -> parse_toks hms_toks hms p = Some (mkparts (pt_y p) (pt_mo p) (pt_d p) h mi ss (pt_zone p)).
Proof.
  intros [h' mi' ss' ht fr (Hh & Hm & Hs) T F]. unfold hms_toks. cbn [parse_toks].
  change (ht ++ $":" ++ two mi' ++ $":" ++ two ss' ++ fr) with (ht ++ ":"%char :: (two mi' ++ ":"%char :: (two ss' ++ fr))).
  rewrite (hour_getnum h' ht ":" _ T ltac:(lia) eq_refl). replace (h' <? 24) with true by lia. cbn [Ascii.eqb Bool.eqb pt_y pt_mo pt_d pt_h pt_mi pt_s pt_zone].
  rewrite (getnum_two mi' _ true ltac:(lia)). replace (mi' <? 60) with true by lia. cbn [Ascii.eqb Bool.eqb pt_y pt_mo pt_d pt_h pt_mi pt_s pt_zone].
  rewrite (getnum_two ss' fr true ltac:(lia)). replace (ss' <? 60) with true by lia. cbn [pt_y pt_mo pt_d pt_h pt_mi pt_s pt_zone].
  fold (after_seconds fr). apply after_nil in F. rewrite F. reflexivity.
Qed.
Lemma colon_inv v r p l q : parse_toks (TLit ":" :: l) v p = Some q -> r = tl v -> v = ":"%char :: r /\ parse_toks l r p = Some q.
Proof.
  intros H ->. cbn [parse_toks] in H. destruct v as [|c v]; [discriminate|]. destruct (Ascii.eqb ":" c) eqn:E; [|discriminate].
  apply Ascii.eqb_eq in E. subst c. auto.
Qed.
Lemma hms_inv hms p q : parse_toks hms_toks hms p = Some q -> exists h mi ss, clock_reads hms h mi ss.
Proof.
  unfold hms_toks. intro H. cbn [parse_toks] in H.
  destruct (getnum hms false) as [(h & v1)|] eqn:E1; [|discriminate]. apply getnum_hour_inv in E1. destruct E1 as (ht & T & -> & R1).
  destruct (h <? 24) eqn:L1; [|discriminate]. destruct v1 as [|c1 v1]; [discriminate|]. destruct (Ascii.eqb ":" c1) eqn:C1; [|discriminate].
  apply Ascii.eqb_eq in C1. subst c1.
  destruct (getnum v1 true) as [(mi & v2)|] eqn:E2; [|discriminate]. apply getnum_two_inv in E2. destruct E2 as (R2 & ->).
  destruct (mi <? 60) eqn:L2; [|discriminate]. destruct v2 as [|c2 v2]; [discriminate|]. destruct (Ascii.eqb ":" c2) eqn:C2; [|discriminate].
  apply Ascii.eqb_eq in C2. subst c2.
  destruct (getnum v2 true) as [(ss & v3)|] eqn:E3; [|discriminate]. apply getnum_two_inv in E3. destruct E3 as (R3 & ->).
  destruct (ss <? 60) eqn:L3; [|discriminate]. fold (after_seconds v3) in H. destruct (after_seconds v3) as [|x y] eqn:A; [|discriminate].
  apply after_nil in A. exists h, mi, ss.
  change (ht ++ ":"%char :: two mi ++ ":"%char :: two ss ++ v3) with (ht ++ $":" ++ two mi ++ $":" ++ two ss ++ v3).
  constructor; [unfold clock; lia|exact T|exact A].
Qed.

(** Numbers that do not fit their place. *)
Lemma long_two n r l c t : 100 <= n -> is_digit c = false -> (t = TMonth \/ t = TDay) ->
  forall p, parse_toks (t :: TLit c :: l) (fmt_0d 2 n ++ r) p = None.
Proof.
  intros H D Ht p. unfold fmt_0d. replace (n <? 0) with false by lia. destruct (digits_ok n ltac:(lia)) as (Hd & _ & _).
  pose proof (proj1 (digits_len n ltac:(lia))) as Hl. unfold pad0.
  assert (L : (3 <= length (digits n))%nat).
  { destruct (le_lt_dec 3 (length (digits n))) as [L|L]; [exact L|]. exfalso.
    assert (10 ^ Z.of_nat (length (digits n)) <= 10 ^ 2) by (apply Z.pow_le_mono_r; lia). change (10 ^ 2) with 100 in *. lia. }
  replace (2 - length (digits n))%nat with 0%nat by lia. cbn [zeros repeat app].
  destruct (digits n) as [|a [|b [|e u]]]; cbn [length] in L; try lia. unfold digit_str in Hd.
  inversion Hd as [|? ? Da Hd1]; subst. inversion Hd1 as [|? ? Db Hd2]; subst. inversion Hd2 as [|? ? De _]; subst.
  assert (E : Ascii.eqb c e = false) by (apply Ascii.eqb_neq; intros ->; rewrite De in D; discriminate).
  destruct Ht as [-> | ->]; cbn [app parse_toks getnum]; rewrite Da, Db, E; [destruct (_ && _); reflexivity|reflexivity].
Qed.
Lemma minus_two n r l t : n < 0 -> (t = TMonth \/ t = TDay) -> forall p, parse_toks (t :: l) (fmt_0d 2 n ++ r) p = None.
Proof. intros H Ht p. unfold fmt_0d. replace (n <? 0) with true by lia. destruct Ht as [-> | ->]; reflexivity. Qed.
Definition time_toks : list tok := [TYear; TLit "-"; TMonth; TLit "-"; TDay; TLit "T"; THour; TLit ":"; TMin; TLit ":"; TSec].
Lemma time_fields y m d hms p q : min_int64 <= y <= max_int64 ->
  parse_toks time_toks (fmt_0d 4 (magnitude y) ++ $"-" ++ fmt_0d 2 m ++ $"-" ++ fmt_0d 2 d ++ $"T" ++ hms) p = Some q ->
  -9999 <= y <= 9999 /\ 1 <= m <= 12 /\ 0 <= d <= 99 /\ exists h mi ss, clock_reads hms h mi ss.
Proof.
  intros Ry H. unfold time_toks in H.
  assert (Y : -9999 <= y <= 9999).
  { assert (C : -9999 <= y <= 9999 \/ ~ -9999 <= y <= 9999) by lia. destruct C as [C|C]; [exact C|exfalso].
    assert (M : 10000 <= magnitude y \/ magnitude y = min_int64).
    { pose proof (magnitude_near y Ry) as G. unfold magnitude in *. change (- 2 ^ 63) with min_int64 in *. destruct (y =? min_int64) eqn:Q; lia. }
    destruct M as [M|M]; [rewrite long_year in H by exact M; discriminate|]. rewrite M in H. unfold fmt_0d in H. change (min_int64 <? 0) with true in H. cbv iota in H.
    cbn [app] in H. rewrite toks_year_minus in H. discriminate. }
  rewrite (magnitude_abs y Y), fmt_four, toks_year in H by lia.
  match type of H with parse_toks _ ($"-" ++ ?r) ?p = _ => change ($"-" ++ r) with ("-"%char :: r) in H end. rewrite toks_lit in H.
  assert (M : 0 <= m <= 99).
  { assert (C : 0 <= m <= 99 \/ m < 0 \/ 100 <= m) by lia. destruct C as [C|[C|C]]; [exact C|exfalso..].
    - rewrite (minus_two m) in H by auto. discriminate.
    - rewrite (long_two m) in H by auto. discriminate. }
  rewrite fmt_two, toks_month in H by lia. destruct ((1 <=? m) && (m <=? 12)) eqn:Em; [|discriminate].
  match type of H with parse_toks _ ($"-" ++ ?r) ?p = _ => change ($"-" ++ r) with ("-"%char :: r) in H end. rewrite toks_lit in H.
  assert (D : 0 <= d <= 99).
  { assert (C : 0 <= d <= 99 \/ d < 0 \/ 100 <= d) by lia. destruct C as [C|[C|C]]; [exact C|exfalso..].
    - rewrite (minus_two d) in H by auto. discriminate.
    - rewrite (long_two d) in H by auto. discriminate. }
  rewrite fmt_two, toks_day in H by lia.
  match type of H with parse_toks _ ($"T" ++ ?r) ?p = _ => change ($"T" ++ r) with ("T"%char :: r) in H end. rewrite toks_lit in H.
  split; [exact Y|]. split; [lia|]. split; [exact D|]. exact (hms_inv _ _ _ H).
Qed.
Lemma time_shape y m d hms : min_int64 <= y <= max_int64 -> TimeWithYMD (mkYMD y m d) hms =
  let* t := time_parse ($"2006-01-02T15:04:05") (fmt_0d 4 (magnitude y) ++ $"-" ++ fmt_0d 2 m ++ $"-" ++ fmt_0d 2 d ++ $"T" ++ hms) in
  OK (if y <? 0 then TimeToBCE t else t).
Proof. intro H. unfold TimeWithYMD. cbn [y_year y_month y_day]. rewrite (magnitude_flip y H). reflexivity. Qed.
Lemma clock_of hms h mi ss : clock_reads hms h mi ss -> clock h mi ss.
Proof. intros [h' mi' ss' ht fr C _ _]. exact C. Qed.
Lemma time_value y m d hms h mi ss : -9999 <= y <= 9999 -> 1 <= m <= 12 -> 0 <= d <= 99 -> clock_reads hms h mi ss ->
  TimeWithYMD (mkYMD y m d) hms = if real_dateb y m d then OK (instant y m d h mi ss)
    else Err (ETime ($"2006-01-02T15:04:05") (fmt_0d 4 (magnitude y) ++ $"-" ++ fmt_0d 2 m ++ $"-" ++ fmt_0d 2 d ++ $"T" ++ hms)).
Proof.
  intros Y M D C. rewrite time_shape by (unfold min_int64, max_int64; lia). pose proof (clock_of _ _ _ _ C) as K.
  rewrite (magnitude_abs y Y). rewrite fmt_four, !fmt_two by lia. unfold time_parse. rewrite layout_datetime.
  rewrite toks_year by lia. match goal with |- context [parse_toks _ ($"-" ++ ?r) _] => change ($"-" ++ r) with ("-"%char :: r) end. rewrite toks_lit, toks_month by lia.
  replace ((1 <=? m) && (m <=? 12)) with true by lia.
  match goal with |- context [parse_toks _ ($"-" ++ ?r) _] => change ($"-" ++ r) with ("-"%char :: r) end. rewrite toks_lit, toks_day by lia.
  match goal with |- context [parse_toks _ ($"T" ++ ?r) _] => change ($"T" ++ r) with ("T"%char :: r) end. rewrite toks_lit. fold hms_toks.
  rewrite (hms_ok _ _ _ _ _ C). cbn [pt_y pt_mo pt_d pt_h pt_mi pt_s pt_zone].
  assert (Hr : real_dateb (Z.abs y) m d = real_dateb y m d).
  { unfold real_dateb. destruct (Z.abs_spec y) as [(_ & ->)|(_ & ->)]; [|rewrite month_len_neg]; reflexivity. }
  replace ((1 <=? d) && (d <=? days_in m (Z.abs y))) with (real_dateb y m d).
  2: { rewrite <- Hr. unfold real_dateb. rewrite days_in_spec by lia. replace ((1 <=? m) && (m <=? 12)) with true by lia. reflexivity. }
  destruct (real_dateb y m d) eqn:E; [|reflexivity]. cbn [bind]. f_equal. rewrite time_date_instant by lia. rewrite Z.sub_0_r.
  destruct (y <? 0) eqn:Q; [|f_equal; lia]. rewrite TimeToBCE_instant; [f_equal; lia|apply real_dateb_spec; exact Hr|exact K].
Qed.
Lemma time_gives_ok v hms t : time_gives v hms t -> TimeWithYMD v hms = OK t.
Proof.
  intros [h mi ss Y D C]. destruct v as [y m d]. cbn [y_year y_month y_day] in *. pose proof (month_len_range y m). destruct (D) as (D1 & D2).
  rewrite (time_value y m d hms h mi ss); try assumption; try lia. apply real_dateb_spec in D. rewrite D. reflexivity.
Qed.
Lemma parse_fields s t : time_parse ($"2006-01-02T15:04:05") s = OK t -> exists p q, parse_toks time_toks s p = Some q.
Proof.
  unfold time_parse. rewrite layout_datetime. fold time_toks.
  match goal with |- context [parse_toks ?l ?v ?p] => destruct (parse_toks l v p) as [q|] eqn:P end; [eauto|discriminate].
Qed.
Lemma parse_some y m d hms t : min_int64 <= y <= max_int64 ->
  time_parse ($"2006-01-02T15:04:05") (fmt_0d 4 (magnitude y) ++ $"-" ++ fmt_0d 2 m ++ $"-" ++ fmt_0d 2 d ++ $"T" ++ hms) = OK t ->
  -9999 <= y <= 9999 /\ 1 <= m <= 12 /\ 0 <= d <= 99 /\ exists h mi ss, clock_reads hms h mi ss.
Proof.
  intros R E. apply parse_fields in E. destruct E as (p & q & E). exact (time_fields y m d hms _ _ R E).
Qed.
Definition time_text (v : ymd) (hms : str) : str :=
  fmt_0d 4 (magnitude (y_year v)) ++ $"-" ++ fmt_0d 2 (y_month v) ++ $"-" ++ fmt_0d 2 (y_day v) ++ $"T" ++ hms.
Lemma time_case v hms : min_int64 <= y_year v <= max_int64 ->
  (exists t, TimeWithYMD v hms = OK t /\ time_gives v hms t) \/
  (forall t, ~ time_gives v hms t) /\ TimeWithYMD v hms = Err (ETime ($"2006-01-02T15:04:05") (time_text v hms)).
Proof.
  intro R. assert (S : TimeWithYMD v hms = let* t := time_parse ($"2006-01-02T15:04:05") (time_text v hms) in OK (if y_year v <? 0 then TimeToBCE t else t)).
  { destruct v as [y m d]. exact (time_shape y m d hms R). }
  destruct (time_parse_err ($"2006-01-02T15:04:05") (time_text v hms)) as [(t & E)|E].
  - left. rewrite E in S. cbn [bind] in S. destruct (parse_some _ _ _ _ _ R E) as (Y & M & D & h & mi & ss & C).
    assert (V : TimeWithYMD v hms = if real_dateb (y_year v) (y_month v) (y_day v) then OK (instant (y_year v) (y_month v) (y_day v) h mi ss) else Err (ETime ($"2006-01-02T15:04:05") (time_text v hms))).
    { destruct v as [y m d]. exact (time_value y m d hms h mi ss Y M D C). }
    destruct (real_dateb (y_year v) (y_month v) (y_day v)) eqn:Q; [|rewrite V in S; discriminate S].
    exists (instant (y_year v) (y_month v) (y_day v) h mi ss). split; [exact V|]. apply real_dateb_spec in Q. exact (tg_intro v hms h mi ss Y Q C).
  - right. rewrite E in S. cbn [bind] in S. split; [|exact S]. intros t G. rewrite (time_gives_ok _ _ _ G) in S. discriminate S.
Qed.
Theorem time_values v hms t : min_int64 <= y_year v <= max_int64 -> TimeWithYMD v hms = OK t <-> time_gives v hms t.
Proof.
  intro R. split; [|apply time_gives_ok]. intro H. destruct (time_case v hms R) as [(t' & E & G)|(N & E)].
  - rewrite E in H. injection H as <-. exact G.
  - rewrite E in H. discriminate H.
Qed.
Theorem time_errors v hms x : min_int64 <= y_year v <= max_int64 -> TimeWithYMD v hms = Err x <-> time_refused v hms x.
Proof.
  intro R. destruct (time_case v hms R) as [(t & E & G)|(N & E)]; split; intro H.
  - rewrite E in H. discriminate H.
  - destruct H as [a b c N A B C]. destruct (N _ G).
  - rewrite E in H. injection H as <-. apply tr_intro; [exact N|apply padded_ok..].
  - destruct H as [a b c _ A B C]. apply padded_fun in A, B, C. subst. exact E.
Qed.
Lemma time_no_panic v hms : TimeWithYMD v hms <> Panic.
Proof. unfold TimeWithYMD. cbv zeta. destruct (time_parse_err ($"2006-01-02T15:04:05") (fmt_0d 4 (if y_year v <? 0 then FlipYear (y_year v) else y_year v) ++ $"-" ++ fmt_0d 2 (y_month v) ++ $"-" ++ fmt_0d 2 (y_day v) ++ $"T" ++ hms)) as [(t & E)|E]; rewrite E; discriminate. Qed.
Lemma gives_int a b c v : ymd_gives a b c v -> min_int64 <= y_year v <= max_int64.
Proof. intros [y m d N Y M Z D]. cbn [y_year]. unfold min_int64, max_int64. lia. Qed.
Lemma bind_at {A B} (a : A) (f : A -> res B) : bind (OK a) f = f a. Proof. reflexivity. Qed.
Lemma times_date a b c hms v : YMDFromStrings a b c = OK v -> TimeWithYMDString a b c hms = TimeWithYMD v hms.
Proof. intro E. unfold TimeWithYMDString. rewrite E. exact (bind_at v (fun d => TimeWithYMD d hms)). Qed.
Lemma times_date_err a b c hms x : YMDFromStrings a b c = Err x -> TimeWithYMDString a b c hms = Err x.
Proof. intro E. unfold TimeWithYMDString. rewrite E. reflexivity. Qed.
Lemma ymd_case a b c : (exists v, YMDFromStrings a b c = OK v) \/ exists x, YMDFromStrings a b c = Err x.
Proof. pose proof (ymd_no_panic a b c). destruct (YMDFromStrings a b c); eauto. congruence. Qed.
Theorem times_values a b c hms t : TimeWithYMDString a b c hms = OK t <-> times_gives a b c hms t.
Proof.
  split.
  - intro H. destruct (ymd_case a b c) as [(v & E)|(x & E)].
    + rewrite (times_date _ _ _ _ _ E) in H. apply ymd_values in E. apply (tsg_intro _ _ _ _ v); [exact E|].
      apply (time_values v hms t (gives_int _ _ _ _ E)). exact H.
    + rewrite (times_date_err _ _ _ _ _ E) in H. discriminate H.
  - intros [v t' V T]. rewrite (times_date _ _ _ _ _ (proj2 (ymd_values _ _ _ _) V)). apply (time_values v hms t' (gives_int _ _ _ _ V)). exact T.
Qed.
Theorem times_errors a b c hms x : TimeWithYMDString a b c hms = Err x <-> times_refused a b c hms x.
Proof.
  split.
  - intro H. destruct (ymd_case a b c) as [(v & E)|(e & E)].
    + rewrite (times_date _ _ _ _ _ E) in H. apply ymd_values in E. apply (tsr_time _ _ _ _ v); [exact E|].
      apply (time_errors v hms x (gives_int _ _ _ _ E)). exact H.
    + rewrite (times_date_err _ _ _ _ _ E) in H. injection H as <-. apply tsr_date, ymd_errors. exact E.
  - intros [e R|v e V R].
    + apply ymd_errors in R. exact (times_date_err _ _ _ _ _ R).
    + rewrite (times_date _ _ _ _ _ (proj2 (ymd_values _ _ _ _) V)). apply (time_errors v hms e (gives_int _ _ _ _ V)). exact R.
Qed.
Lemma times_no_panic a b c hms : TimeWithYMDString a b c hms <> Panic.
Proof.
  destruct (ymd_case a b c) as [(v & E)|(x & E)].
  - rewrite (times_date _ _ _ _ _ E). apply time_no_panic.
  - rewrite (times_date_err _ _ _ _ _ E). discriminate.
Qed.
