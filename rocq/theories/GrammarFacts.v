(** The date sub-expression of re/re.go:29 as a grammar. *)
From Coq Require Import Ascii String ZArith NArith Bool Lia ZifyBool List.
From Verif Require Import GoStr Regex Patterns RegexSym RegexRel RegexGen SpecCal SpecGrammar StrFacts.
Import ListNotations.
Open Scope Z_scope.
Ltac Zify.zify_post_hook ::= Z.div_mod_to_equations.

Definition rc (z : Z) : re := RSet [(z, z)].
Definition rd : re := RSet [(48, 57)].
Definition yr : re := RSeq (ROpt (rc 45)) (RSeq rd (RSeq rd (RSeq rd rd))).
Definition mo : re := RAlt (RSeq (rc 48) (RSet [(49, 57)])) (RSeq (rc 49) (RSet [(48, 50)])).
Definition da : re := RAlt (RSeq (rc 48) (RSet [(49, 57)])) (RAlt (RSeq (RSet [(49, 49); (50, 50)]) rd) (RSeq (rc 51) (RSet [(48, 48); (49, 49)]))).
Definition dtail (j l : nat) : re := ROpt (RSeq (rc 45) (RSeq (RCap j mo) (ROpt (RSeq (rc 45) (RCap l da))))).
Lemma Date_re_eq : Date_re = mkre (RSeq RBegin (RSeq (RCap 1 yr) (RSeq (dtail 2 3) REnd))) 3.
Proof. reflexivity. Qed.

Lemma in_rc z c : 0 <= z < 256 -> in_set [(z, z)] c = true <-> c = chr z.
Proof.
  intro H. unfold in_set. cbn [existsb fst snd]. split.
  - intro E. apply code_inj. rewrite code_chr by lia. lia.
  - intros ->. rewrite code_chr by lia. lia.
Qed.
Lemma in_rd c : in_set [(48, 57)] c = is_digit c.
Proof. unfold in_set, is_digit. cbn [existsb fst snd]. apply orb_false_r. Qed.
Lemma gen_rc z u k : 0 <= z < 256 -> gen (rc z) u k <-> u = [chr z] /\ k = [].
Proof.
  intro H. unfold rc. rewrite gen_set. split.
  - intros (c & -> & Hc & ->). apply in_rc in Hc; [|exact H]. subst. auto.
  - intros (-> & ->). exists (chr z). split; [reflexivity|]. split; [apply in_rc; auto|reflexivity].
Qed.
Lemma gen_rd u k : gen rd u k <-> exists c, u = [c] /\ is_digit c = true /\ k = [].
Proof. unfold rd. rewrite gen_set. split; intros (c & H1 & H2 & H3); exists c; rewrite in_rd in *; auto. Qed.

Lemma gen_4 u k : gen (RSeq rd (RSeq rd (RSeq rd rd))) u k <-> k = [] /\ exists n, 0 <= n <= 9999 /\ u = four n.
Proof.
  split.
  - intros (u1 & k1 & v1 & l1 & H1 & (u2 & k2 & v2 & l2 & H2 & (u3 & k3 & u4 & k4 & H3 & H4 & -> & ->) & -> & ->) & -> & ->).
    apply gen_rd in H1, H2, H3, H4. destruct H1 as (a & -> & Ha & ->). destruct H2 as (b & -> & Hb & ->).
    destruct H3 as (c & -> & Hc & ->). destruct H4 as (d & -> & Hd & ->). split; [reflexivity|]. cbn [app].
    exact (four_of a b c d Ha Hb Hc Hd).
  - intros (-> & n & Hn & ->). unfold four.
    pose proof (is_digit_char (n / 1000)). pose proof (is_digit_char (n / 100 mod 10)).
    pose proof (is_digit_char (n / 10 mod 10)). pose proof (is_digit_char (n mod 10)).
    exists [digit_char (n / 1000)], [], [digit_char (n / 100 mod 10); digit_char (n / 10 mod 10); digit_char (n mod 10)], [].
    split; [apply gen_rd; eexists; split; [reflexivity|]; split; [apply H; lia|reflexivity]|]. split; [|split; reflexivity].
    exists [digit_char (n / 100 mod 10)], [], [digit_char (n / 10 mod 10); digit_char (n mod 10)], [].
    split; [apply gen_rd; eexists; split; [reflexivity|]; split; [apply H0; lia|reflexivity]|]. split; [|split; reflexivity].
    exists [digit_char (n / 10 mod 10)], [], [digit_char (n mod 10)], [].
    split; [apply gen_rd; eexists; split; [reflexivity|]; split; [apply H1; lia|reflexivity]|]. split; [|split; reflexivity].
    apply gen_rd; eexists; split; [reflexivity|]; split; [apply H2; lia|reflexivity].
Qed.
Lemma gen_yr u k : gen yr u k <-> k = [] /\ exists y, year4 u y.
Proof.
  split.
  - intros (u1 & k1 & u2 & k2 & H1 & H2 & -> & ->). apply gen_4 in H2. destruct H2 as (-> & n & Hn & ->).
    destruct H1 as [H1|(-> & ->)].
    + apply gen_rc in H1; [|lia]. destruct H1 as (-> & ->). split; [reflexivity|]. exists (- n). exact (year4_neg n Hn).
    + split; [reflexivity|]. exists n. exact (year4_pos n Hn).
  - intros (-> & y & H). destruct H as [n Hn|n Hn].
    + exists [], [], (four n), []. split; [right; auto|]. split; [apply gen_4; eauto|auto].
    + exists ["-"%char], [], (four n), []. split; [left; apply gen_rc; [lia|]; auto|]. split; [apply gen_4; eauto|auto].
Qed.
Lemma gen_alt a b u k : gen (RAlt a b) u k <-> gen a u k \/ gen b u k.
Proof. reflexivity. Qed.
(** Two bytes of given classes. *)
Lemma gen_2 cs cs' u k : gen (RSeq (RSet cs) (RSet cs')) u k <-> k = [] /\ exists a b, u = [a; b] /\ in_set cs a = true /\ in_set cs' b = true.
Proof.
  split.
  - intros (u1 & k1 & u2 & k2 & (a & -> & Ha & ->) & (b & -> & Hb & ->) & -> & ->). split; [reflexivity|]. exists a, b. auto.
  - intros (-> & a & b & -> & Ha & Hb). exists [a], [], [b], []. cbn [gen]. eauto 10.
Qed.
Ltac codes a b := assert (digit_val a = code a - 48) by reflexivity; assert (digit_val b = code b - 48) by reflexivity.
Lemma two_class lo hi lo' hi' a b : 48 <= lo -> hi <= 57 -> 48 <= lo' -> hi' <= 57 ->
  in_set [(lo, hi)] a = true -> in_set [(lo', hi')] b = true ->
  exists n, [a; b] = two n /\ 0 <= n <= 99 /\ lo <= 48 + n / 10 <= hi /\ lo' <= 48 + n mod 10 <= hi'.
Proof.
  unfold in_set. cbn [existsb fst snd]. intros H1 H2 H3 H4 Ha Hb.
  assert (Da : is_digit a = true) by (unfold is_digit; lia). assert (Db : is_digit b = true) by (unfold is_digit; lia).
  destruct (two_of a b Da Db) as (n & Hn & E). exists n. split; [exact E|]. split; [exact Hn|].
  unfold two in E. injection E as -> ->. rewrite !code_digit_char in * by lia. lia.
Qed.
Lemma class_two lo hi lo' hi' n : 0 <= n <= 99 -> lo <= 48 + n / 10 <= hi -> lo' <= 48 + n mod 10 <= hi' ->
  exists a b, two n = [a; b] /\ in_set [(lo, hi)] a = true /\ in_set [(lo', hi')] b = true.
Proof.
  intros Hn H1 H2. exists (digit_char (n / 10)), (digit_char (n mod 10)). split; [reflexivity|].
  unfold in_set. cbn [existsb fst snd]. rewrite !code_digit_char by lia. lia.
Qed.
Lemma gen_mo u k : gen mo u k <-> k = [] /\ exists m, 1 <= m <= 12 /\ u = two m.
Proof.
  unfold mo, rc. rewrite !gen_alt, !gen_2. split.
  - intros [(-> & a & b & -> & Ha & Hb)|(-> & a & b & -> & Ha & Hb)]; (split; [reflexivity|]);
      (edestruct (fun h1 h2 h3 h4 => two_class _ _ _ _ a b h1 h2 h3 h4 Ha Hb) as (n & E & Hn & R1 & R2); [lia|lia|lia|lia|]);
      exists n; (split; [lia|exact E]).
  - intros (-> & m & Hm & ->). destruct (Z_le_gt_dec m 9) as [L|L]; [left|right]; (split; [reflexivity|]); apply class_two; lia.
Qed.
Lemma gen_da u k : gen da u k <-> k = [] /\ exists d, 1 <= d <= 31 /\ u = two d.
Proof.
  unfold da, rc, rd. rewrite !gen_alt, !gen_2.
  assert (S1 : forall c, in_set [(49, 49); (50, 50)] c = in_set [(49, 50)] c) by (intro; unfold in_set; cbn [existsb fst snd]; lia).
  assert (S2 : forall c, in_set [(48, 48); (49, 49)] c = in_set [(48, 49)] c) by (intro; unfold in_set; cbn [existsb fst snd]; lia).
  split.
  - intros [(-> & a & b & -> & Ha & Hb)|[(-> & a & b & -> & Ha & Hb)|(-> & a & b & -> & Ha & Hb)]]; (split; [reflexivity|]);
      rewrite ?S1, ?S2 in *;
      (edestruct (fun h1 h2 h3 h4 => two_class _ _ _ _ a b h1 h2 h3 h4 Ha Hb) as (n & E & Hn & R1 & R2); [lia|lia|lia|lia|]);
      exists n; (split; [lia|exact E]).
  - intros (-> & m & Hm & ->). destruct (Z_le_gt_dec m 9) as [L|L]; [left|right; destruct (Z_le_gt_dec m 29) as [L'|L']; [left|right]];
      (split; [reflexivity|]).
    + apply class_two; lia.
    + destruct (class_two 49 50 48 57 m) as (a & b & E & Ha & Hb); try lia. exists a, b. rewrite S1. auto.
    + destruct (class_two 51 51 48 49 m) as (a & b & E & Ha & Hb); try lia. exists a, b. rewrite S2. auto.
Qed.
(** captures of the month and day groups *)
Definition mmdd_caps (j l : nat) (m d : option Z) : captures :=
  match m, d with
  | Some m, Some d => [(l, two d); (j, two m)]
  | Some m, None => [(j, two m)]
  | _, _ => []
  end.
Lemma gen_dtail j l u k : gen (dtail j l) u k <-> exists m d, mmdd u m d /\ k = mmdd_caps j l m d.
Proof.
  unfold dtail. split.
  - intros [(u1 & k1 & v1 & l1 & H1 & (u2 & k2 & v2 & l2 & (k3 & H2 & ->) & H3 & -> & ->) & -> & ->)|(-> & ->)].
    2: { exists None, None. split; [constructor|reflexivity]. }
    apply gen_rc in H1; [|lia]. destruct H1 as (-> & ->). apply gen_mo in H2. destruct H2 as (-> & m & Hm & ->).
    destruct H3 as [(u4 & k4 & u5 & k5 & H4 & (k6 & H5 & ->) & -> & ->)|(-> & ->)].
    + apply gen_rc in H4; [|lia]. destruct H4 as (-> & ->). apply gen_da in H5. destruct H5 as (-> & d & Hd & ->).
      exists (Some m), (Some d). split; [exact (mmdd_md m d Hm Hd)|reflexivity].
    + exists (Some m), None. rewrite app_nil_r. split; [exact (mmdd_m m Hm)|reflexivity].
  - intros (m & d & H & ->). destruct H as [|m Hm|m d Hm Hd].
    + right. auto.
    + left. exists ["-"%char], [], (two m), [(j, two m)]. split; [apply gen_rc; [lia|auto]|]. split; [|split; reflexivity].
      exists (two m), [(j, two m)], [], []. split; [exists []; split; [apply gen_mo; eauto|reflexivity]|].
      split; [right; auto|]. rewrite app_nil_r. auto.
    + left. exists ["-"%char], [], (two m ++ "-"%char :: two d), [(l, two d); (j, two m)]. split; [apply gen_rc; [lia|auto]|]. split; [|split; reflexivity].
      exists (two m), [(j, two m)], ("-"%char :: two d), [(l, two d)]. split; [exists []; split; [apply gen_mo; eauto|reflexivity]|].
      split; [left|auto]. exists ["-"%char], [], (two d), [(l, two d)]. split; [apply gen_rc; [lia|auto]|].
      split; [exists []; split; [apply gen_da; eauto|reflexivity]|auto].
Qed.

(** A whole date. *)
Definition dre (i j l : nat) : re := RSeq (RCap i yr) (dtail j l).
Definition date_caps (i j l : nat) (t : str) (m d : option Z) : captures := mmdd_caps j l m d ++ [(i, t)].
Lemma gen_dre i j l u k : gen (dre i j l) u k <->
  exists t y r m d, u = t ++ r /\ year4 t y /\ mmdd r m d /\ k = date_caps i j l t m d.
Proof.
  unfold dre. split.
  - intros (u1 & k1 & u2 & k2 & (k3 & H1 & ->) & H2 & -> & ->). apply gen_yr in H1. destruct H1 as (-> & y & Hy).
    apply gen_dtail in H2. destruct H2 as (m & d & Hm & ->). exists u1, y, u2, m, d. auto.
  - intros (t & y & r & m & d & -> & Hy & Hm & ->). exists t, [(i, t)], r, (mmdd_caps j l m d).
    split; [exists []; split; [apply gen_yr; eauto|reflexivity]|]. split; [apply gen_dtail; eauto|]. auto.
Qed.
(** A date followed by [b], as the compiler nests it. *)
Lemma gen_dre_seq i j l b u k : gen (RSeq (RCap i yr) (RSeq (dtail j l) b)) u k <->
  gen (RSeq (dre i j l) b) u k.
Proof.
  split.
  - intros (u1 & k1 & v1 & l1 & H1 & (u2 & k2 & u3 & k3 & H2 & H3 & -> & ->) & -> & ->).
    exists (u1 ++ u2), (k2 ++ k1), u3, k3. split; [exists u1, k1, u2, k2; auto|]. rewrite !app_assoc. auto.
  - intros (v1 & l1 & u3 & k3 & (u1 & k1 & u2 & k2 & H1 & H2 & -> & ->) & H3 & -> & ->).
    exists u1, k1, (u2 ++ u3), (k3 ++ k2). split; [exact H1|]. split; [exists u2, k2, u3, k3; auto|]. rewrite !app_assoc. auto.
Qed.
Lemma level0_iff s : (exists y m d, level0_date s y m d) <-> exists t y r m d, s = t ++ r /\ year4 t y /\ mmdd r m d.
Proof.
  split.
  - intros (y & m & d & [t y' r m' d' H1 H2]). eauto 10.
  - intros (t & y & r & m & d & -> & H1 & H2). exists y, m, d. constructor; assumption.
Qed.

(** The level 0 date expression. *)
Theorem IsDate_spec s : match_string Date_re s = true <-> exists y m d, level0_date s y m d.
Proof.
  rewrite (anchored_match Date_re (dre 1 2 3)) by reflexivity. rewrite level0_iff. split.
  - intros (k & H). apply gen_dre in H. destruct H as (t & y & r & m & d & H & Hy & Hm & _). eauto 10.
  - intros (t & y & r & m & d & H & Hy & Hm). eexists. apply gen_dre. eauto 10.
Qed.
