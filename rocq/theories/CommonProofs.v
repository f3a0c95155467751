(** Calendar and YMD helpers, timestamps as JSON: C37, C39, C40, C44. *)
From Coq Require Import Ascii String ZArith NArith Bool Lia ZifyBool List.
From Verif Require Import GoStr GoTime SpecCal SpecText StrFacts TextFacts SplitFacts Edtf Calendar Common CalFacts ApiFacts SpanFacts YmdFacts DateFacts.
Import ListNotations.
Open Scope Z_scope.
Ltac Zify.zify_post_hook ::= Z.div_mod_to_equations.

(** ** C37 *)
Lemma atoi_two m : 0 <= m <= 99 -> atoi (two m) = OK m.
Proof.
  intro H. apply atoi_spec. split; [|unfold min_int64, max_int64; lia]. apply it_plain. unfold two.
  replace m with (10 * (m / 10) + m mod 10) at 3 by lia.
  apply (dd_snoc [digit_char (m / 10)] (m / 10) (m mod 10)); [constructor|]; lia.
Qed.
Lemma dec_four n : 0 <= n <= 9999 -> dec_digits (four n) n.
Proof.
  intro H. apply dec_digits_iff. split; [discriminate|]. apply dec_val_four. exact H.
Qed.
Lemma atoi_year y : -9999 <= y <= 9999 -> atoi (year_text y) = OK y.
Proof.
  intro H. apply atoi_spec. split; [|unfold min_int64, max_int64; lia]. unfold year_text. destruct (y <? 0) eqn:E.
  - replace y with (- (- y)) at 2 by lia. apply it_minus. apply dec_four. lia.
  - apply it_plain. apply dec_four. lia.
Qed.
Theorem month_length y m : -9999 <= y <= 9999 -> 1 <= m <= 12 ->
  DaysInMonth y m = OK (month_len y m) /\ DaysInMonthWithString (month_text y m) = OK (month_len y m).
Proof.
  intros Hy Hm. split; [apply DaysInMonth_ok; assumption|]. unfold month_text.
  apply DaysInMonthWithString_ok; [apply atoi_year; exact Hy|apply atoi_two; lia| |exact Hy|exact Hm].
  intro Hi. unfold two in Hi. destruct Hi as [E|[E|[]]].
  - pose proof (is_digit_char (m / 10) ltac:(lia)) as D. rewrite E in D. discriminate D.
  - pose proof (is_digit_char (m mod 10) ltac:(lia)) as D. rewrite E in D. discriminate D.
Qed.

(** ** C39, C40 *)
(** A component: missing or zero stands for the default. *)
Definition spells_part (t : str) (n default : Z) : Prop :=
  (t = [] \/ integer_text t 0) /\ n = default \/ t <> [] /\ integer_text t n /\ n <> 0.
Definition spells (yt mt dt : str) (v : ymd) : Prop :=
  integer_text yt (y_year v) /\ spells_part mt (y_month v) 1 /\
  spells_part dt (y_day v) (month_len (y_year v) (y_month v)).
Lemma opt_num_spells t n dflt : opt_num t n -> spells_part t (if n =? 0 then dflt else n) dflt.
Proof.
  intros [(-> & ->)|(Hne & H)]; [left; auto|]. apply atoi_spec in H. destruct H as (H & _).
  destruct (n =? 0) eqn:E.
  - left. replace n with 0 in H by lia. auto.
  - right. repeat split; [exact Hne|exact H|lia].
Qed.
Lemma ymd_spells a b c v : YMDFromStrings a b c = OK v ->
  spells a b c v /\ -9999 <= y_year v <= 9999 /\ 1 <= y_month v <= 12 /\ y_day v <= month_len (y_year v) (y_month v) /\ y_day v <> 0.
Proof.
  intro H. apply YMDFromStrings_inv in H. destruct H as (y & mm & dd & Ha & Hb & Hc & Hy & Hm & H0 & Hd & ->). cbn [y_year y_month y_day].
  apply atoi_spec in Ha. destruct Ha as (Ha & _).
  set (m := if mm =? 0 then 1 else mm) in *. assert (1 <= m <= 12) by (unfold m; destruct (mm =? 0) eqn:E; lia).
  pose proof (month_len_range y m). split; [|repeat split; try lia; destruct (dd =? 0) eqn:E; lia].
  split; [exact Ha|]. split; [exact (opt_num_spells _ _ _ Hb)|exact (opt_num_spells _ _ _ Hc)].
Qed.
Lemma dec_nonneg t v : dec_digits t v -> 0 <= v.
Proof. intro H. induction H; lia. Qed.
Lemma integer_minus t n : integer_text t n -> n < 0 -> exists r, t = "-"%char :: r.
Proof.
  intros [s v Hd|s v Hd|s v Hd] Hn; [| |eauto]; exfalso;
  apply dec_nonneg in Hd; lia.
Qed.
Lemma spells_positive t n k : spells_part t n k -> 1 <= k -> n <> 0 -> ~ In "-"%char t -> 1 <= n.
Proof.
  intros [(_ & ->)|(_ & H & _)] Hk Hn Hi; [exact Hk|]. destruct (Z_lt_ge_dec n 0) as [L|L]; [|lia].
  exfalso. destruct (integer_minus _ _ H L) as (r & ->). apply Hi. left. reflexivity.
Qed.
Theorem ymd_strings_partial a b c v : YMDFromStrings a b c = OK v -> ~ In "-"%char c ->
  spells a b c v /\ -9999 <= y_year v <= 9999 /\ real_date (y_year v) (y_month v) (y_day v).
Proof.
  intros H Hc. apply ymd_spells in H. destruct H as (Hs & Hy & Hm & Hd & Hn). split; [exact Hs|]. split; [exact Hy|].
  destruct Hs as (_ & _ & Hs). pose proof (month_len_range (y_year v) (y_month v)).
  split; [exact Hm|]. split; [|exact Hd]. eapply spells_positive; [exact Hs|lia|exact Hn|exact Hc].
Qed.
Theorem ymd_strings_all a b c v : YMDFromStrings a b c = OK v ->
  spells a b c v /\ -9999 <= y_year v <= 9999 /\ 1 <= y_month v <= 12 /\
  (1 <= y_day v \/ y_day v < 0 /\ exists r, c = "-"%char :: r) /\ y_day v <= month_len (y_year v) (y_month v).
Proof.
  intro H. apply ymd_spells in H. destruct H as (Hs & Hy & Hm & Hd & Hn). split; [exact Hs|]. split; [exact Hy|]. split; [exact Hm|].
  split; [|exact Hd]. destruct (Z_lt_ge_dec (y_day v) 0) as [L|L]; [|left; lia]. right. split; [exact L|].
  destruct Hs as (_ & _ & [(_ & E)|(_ & E & _)]); [pose proof (month_len_range (y_year v) (y_month v)); lia|].
  exact (integer_minus _ _ E L).
Qed.
Lemma ymd_strings_refuted : exists v, YMDFromStrings ($"1985") ($"04") ($"-5") = OK v /\ ~ real_date (y_year v) (y_month v) (y_day v).
Proof. eexists. split; [vm_compute; reflexivity|]. cbn. intros (_ & H). lia. Qed.

(** The texts YMDFromString takes apart.  With three dashes the first piece is
    ignored and the year is negative. *)
Inductive ymd_pieces : str -> str -> str -> str -> Prop :=
| yp_year a : ymd_pieces a a [] []
| yp_month a b : ymd_pieces (joined ($"-") [a; b]) a b []
| yp_day a b c : ymd_pieces (joined ($"-") [a; b; c]) a b c
| yp_bce x a b c : ymd_pieces (joined ($"-") [x; a; b; c]) ("-"%char :: a) b c.
Theorem ymd_string s v : YMDFromString s = OK v ->
  (exists a b c, ymd_pieces s a b c /\ ~ In "-"%char b /\ ~ In "-"%char c /\ spells a b c v) /\
  -9999 <= y_year v <= 9999 /\ real_date (y_year v) (y_month v) (y_day v).
Proof.
  unfold YMDFromString. change ($"-") with ["-"%char]. intro H.
  pose proof (split_joined s ["-"%char] ltac:(discriminate)) as J. pose proof (split_free s ["-"%char] ltac:(discriminate)) as F.
  destruct (split s ["-"%char]) as [|a [|b [|c [|d [|e l]]]]]; try discriminate H.
  - cbn in J. subst a. pose proof (ymd_strings_partial _ _ _ _ H ltac:(intros [])) as (Q1 & Q2 & Q3). split; [|auto].
    exists s, [], []. repeat split; try apply Q1; try (intros []). constructor.
  - subst s. pose proof (ymd_strings_partial _ _ _ _ H ltac:(intros [])) as (Q1 & Q2 & Q3). split; [|auto].
    inversion F as [|? ? F1 F']; subst. inversion F' as [|? ? F2 _]; subst. rewrite occurs_1 in *.
    exists a, b, []. split; [constructor|]. split; [exact F2|]. split; [intros []|exact Q1].
  - subst s. inversion F as [|? ? F1 F']; subst. inversion F' as [|? ? F2 F'']; subst. inversion F'' as [|? ? F3 _]; subst. rewrite occurs_1 in *.
    pose proof (ymd_strings_partial _ _ _ _ H F3) as (Q1 & Q2 & Q3). split; [|auto].
    exists a, b, c. split; [constructor|]. auto.
  - subst s. inversion F as [|? ? F1 F']; subst. inversion F' as [|? ? F2 F'']; subst. inversion F'' as [|? ? F3 F4]; subst.
    inversion F4 as [|? ? F5 _]; subst. rewrite occurs_1 in *.
    pose proof (ymd_strings_partial _ _ _ _ H F5) as (Q1 & Q2 & Q3). split; [|auto].
    exists ("-"%char :: b), c, d. split; [constructor|]. auto.
Qed.

(** ** C44 *)
Definition quotes (n : nat) : str := repeat """"%char n.
Lemma trim_left_spec c s : exists n, s = repeat c n ++ trim_left c s /\ (forall r, trim_left c s <> c :: r).
Proof.
  induction s as [|d s (n & IH & Hn)]; [exists 0%nat; split; [reflexivity|discriminate]|]. cbn [trim_left].
  destruct (Ascii.eqb c d) eqn:E.
  - apply Ascii.eqb_eq in E. subst d. exists (S n). split; [cbn; f_equal; exact IH|exact Hn].
  - exists 0%nat. split; [reflexivity|]. intros r Q. injection Q as -> ->. rewrite Ascii.eqb_refl in E. discriminate.
Qed.
Lemma trim_left_repeat c n s : trim_left c (repeat c n ++ s) = trim_left c s.
Proof. induction n as [|n IH]; [reflexivity|]. cbn. rewrite Ascii.eqb_refl. exact IH. Qed.
Lemma trim_left_none c s : ~ In c s -> trim_left c s = s.
Proof.
  intro H. destruct s as [|d s]; [reflexivity|]. cbn. destruct (Ascii.eqb c d) eqn:E; [|reflexivity].
  apply Ascii.eqb_eq in E. exfalso. apply H. left. congruence.
Qed.
Lemma rev_repeat {A} (c : A) n : rev (repeat c n) = repeat c n.
Proof.
  induction n as [|n IH]; [reflexivity|]. cbn. rewrite IH. clear IH. induction n as [|n IH]; [reflexivity|]. cbn. f_equal. exact IH.
Qed.
Lemma trim_spec c s : exists n k, s = repeat c n ++ trim c s ++ repeat c k.
Proof.
  unfold trim. destruct (trim_left_spec c s) as (n & E & _). destruct (trim_left_spec c (rev (trim_left c s))) as (k & E' & _).
  exists n, k. rewrite E at 1. f_equal. apply (f_equal (@rev ascii)) in E'. rewrite rev_involutive, rev_app_distr, rev_repeat in E'. exact E'.
Qed.
Lemma trim_around c n k s : ~ In c s -> trim c (repeat c n ++ s ++ repeat c k) = s.
Proof.
  intro H. unfold trim. rewrite trim_left_repeat. destruct s as [|d s].
  - cbn [app]. rewrite <- (app_nil_r (repeat c k)), trim_left_repeat. reflexivity.
  - assert (E : trim_left c ((d :: s) ++ repeat c k) = (d :: s) ++ repeat c k).
    { cbn [app trim_left]. destruct (Ascii.eqb c d) eqn:E; [|reflexivity]. apply Ascii.eqb_eq in E. exfalso. apply H. left. congruence. }
    rewrite E, rev_app_distr, rev_repeat, trim_left_repeat, trim_left_none by (rewrite <- in_rev; exact H). apply rev_involutive.
Qed.
Lemma integer_bytes s z c : integer_text s z -> In c s -> is_digit c = true \/ c = "+"%char \/ c = "-"%char.
Proof.
  assert (D : forall t v, dec_digits t v -> forall c, In c t -> is_digit c = true).
  { intros t v Hd. induction Hd as [n Hn|t v n Hd IH Hn]; intros x Hx.
    - destruct Hx as [<-|[]]. apply is_digit_char. lia.
    - apply in_app_or in Hx. destruct Hx as [Hx|[<-|[]]]; [auto|]. apply is_digit_char. lia. }
  intros [t v Hd|t v Hd|t v Hd] Hc; [left; eapply D; eassumption| |]; (destruct Hc as [<-|Hc]; [auto|left; eapply D; eassumption]).
Qed.
Lemma integer_no_quote s z : integer_text s z -> ~ In """"%char s.
Proof. intros H Hi. destruct (integer_bytes _ _ _ H Hi) as [E|[E|E]]; discriminate E. Qed.
Theorem timestamp_decode b z : ts_unmarshal b = OK z <->
  exists n k t, b = quotes n ++ t ++ quotes k /\ integer_text t z /\ min_int64 <= z <= max_int64.
Proof.
  unfold ts_unmarshal. split.
  - intro H. apply parse_int_ok, atoi_spec in H. destruct (trim_spec """" b) as (n & k & E). exists n, k, (trim """" b). auto.
  - intros (n & k & t & -> & Ht & Hz). unfold quotes. rewrite trim_around by (eapply integer_no_quote; exact Ht). apply parse_int_ok, atoi_spec. auto.
Qed.
Theorem timestamp_error b : (forall n k t z, b = quotes n ++ t ++ quotes k -> integer_text t z -> ~ min_int64 <= z <= max_int64) ->
  exists err, ts_unmarshal b = Err err.
Proof.
  intro H. unfold ts_unmarshal, parse_int. assert (Q : exists err, atoi (trim """" b) = Err err).
  { apply atoi_err. intros z (Hz & Hr). destruct (trim_spec """" b) as (n & k & E). exact (H n k _ z E Hz Hr). }
  destruct Q as (x & ->). eexists. reflexivity.
Qed.
Theorem timestamp_roundtrip ts : min_int64 <= ts <= max_int64 ->
  canonical_text (ts_marshal ts) ts /\ ts_unmarshal (ts_marshal ts) = OK ts /\ ts_unmarshal ($"""" ++ ts_marshal ts ++ $"""") = OK ts.
Proof.
  intro H. split; [apply itoa_canonical|]. pose proof (proj1 (atoi_spec _ _) (atoi_itoa ts H)) as (Ht & _).
  split; apply timestamp_decode.
  - exists 0%nat, 0%nat, (itoa ts). split; [cbn; rewrite app_nil_r; reflexivity|auto].
  - exists 1%nat, 1%nat, (itoa ts). auto.
Qed.
