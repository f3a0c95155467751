(** The language of an expression without its captures. *)
From Coq Require Import Ascii String ZArith NArith Bool Lia ZifyBool List.
From Verif Require Import GoStr Regex Patterns RegexSym RegexRel RegexGen SpecCal SpecGrammar StrFacts GrammarFacts.
Import ListNotations.
Open Scope Z_scope.

Definition lg (r : re) (s : str) : Prop := exists k, gen r s k.

Lemma lg_seq a b s : lg (RSeq a b) s <-> exists u v, lg a u /\ lg b v /\ s = u ++ v.
Proof.
  split.
  - intros (k & u1 & k1 & u2 & k2 & H1 & H2 & -> & _). exists u1, u2. split; [eexists; eauto|]. split; [eexists; eauto|reflexivity].
  - intros (u & v & (k1 & H1) & (k2 & H2) & ->). eexists. do 4 eexists. eauto.
Qed.
Lemma lg_alt a b s : lg (RAlt a b) s <-> lg a s \/ lg b s.
Proof.
  split; [intros (k & [H|H]); [left|right]; eexists; eauto|intros [(k & H)|(k & H)]; exists k; [left|right]; exact H].
Qed.
Lemma lg_opt a s : lg (ROpt a) s <-> lg a s \/ s = [].
Proof.
  split; [intros (k & [H|(H & _)]); [left; eexists; eauto|right; exact H]|].
  intros [(k & H)| ->]; [exists k; left; exact H|exists []; right; auto].
Qed.
Lemma lg_cap i a s : lg (RCap i a) s <-> lg a s.
Proof. split; [intros (k & k' & H & _); eexists; eauto|intros (k & H); eexists; eexists; eauto]. Qed.
Lemma lg_set cs s : lg (RSet cs) s <-> exists c, s = [c] /\ in_set cs c = true.
Proof. split; [intros (k & c & H1 & H2 & _); eauto|intros (c & H1 & H2); exists [], c; auto]. Qed.
Lemma lg_eps s : lg REps s <-> s = [].
Proof. split; [intros (k & H & _); exact H|intros ->; exists []; split; reflexivity]. Qed.
Lemma lg_rc z s : 0 <= z < 256 -> lg (rc z) s <-> s = [chr z].
Proof. intro H. split; [intros (k & G); apply gen_rc in G; tauto|intros ->; exists []; apply gen_rc; auto]. Qed.
Lemma lg_rd s : lg rd s <-> exists c, s = [c] /\ is_digit c = true.
Proof. unfold lg. split; [intros (k & G); apply gen_rd in G; destruct G as (c & H1 & H2 & _); eauto|intros (c & H1 & H2); exists []; apply gen_rd; eauto]. Qed.
Inductive lstar (R : str -> Prop) : str -> Prop :=
| ls_nil : lstar R []
| ls_cons u v : R u -> u <> [] -> lstar R v -> lstar R (u ++ v).
Lemma lg_star a s : lg (RStar a) s <-> lstar (lg a) s.
Proof.
  split.
  - intros (k & H). cbn [gen] in H. induction H as [|u k v l Hu Hn _ IH]; constructor; auto. eexists; eauto.
  - intro H. induction H as [|u v (k & Hu) Hn _ (l & IH)]; [exists []; constructor|]. exists (l ++ k). constructor; assumption.
Qed.
Lemma lg_assoc a b c s : lg (RSeq a (RSeq b c)) s <-> lg (RSeq (RSeq a b) c) s.
Proof.
  rewrite !lg_seq. split.
  - intros (u & v & Hu & Hv & ->). apply lg_seq in Hv. destruct Hv as (v1 & v2 & H1 & H2 & ->).
    exists (u ++ v1), v2. split; [apply lg_seq; eauto|]. split; [exact H2|apply app_assoc].
  - intros (u & v & Hu & Hv & ->). apply lg_seq in Hu. destruct Hu as (v1 & v2 & H1 & H2 & ->).
    exists v1, (v2 ++ v). split; [exact H1|]. split; [apply lg_seq; eauto|symmetry; apply app_assoc].
Qed.

(** Removing the captures. *)
Fixpoint strip (r : re) : re :=
  match r with
  | RSeq a b => RSeq (strip a) (strip b)
  | RAlt a b => RAlt (strip a) (strip b)
  | ROpt a => ROpt (strip a)
  | RStar a => RStar (strip a)
  | RCap _ a => strip a
  | _ => r
  end.
Lemma lstar_iff R Q s : (forall u, R u <-> Q u) -> lstar R s <-> lstar Q s.
Proof. intro E. split; intro H; induction H; constructor; auto; apply E; assumption. Qed.
Lemma lg_strip r : forall s, lg (strip r) s <-> lg r s.
Proof.
  induction r as [|cs|a IHa b IHb|a IHa b IHb|a IHa|a IHa|i a IHa| |]; intro s; cbn [strip]; try reflexivity.
  - rewrite !lg_seq. split; intros (u & v & H1 & H2 & H3); exists u, v; [rewrite <- IHa, <- IHb|rewrite IHa, IHb]; auto.
  - rewrite !lg_alt, IHa, IHb. reflexivity.
  - rewrite !lg_opt, IHa. reflexivity.
  - rewrite !lg_star. apply lstar_iff. exact IHa.
  - rewrite lg_cap. apply IHa.
Qed.
Lemma anchored_lg R r : anchored R = Some r -> plain r = true -> forall s, match_string R s = true <-> lg r s.
Proof. intros HR Hp s. exact (anchored_match R r HR Hp s). Qed.

(** ** Dates *)
Definition D : re := RSeq yr (strip (dtail 0 0)).
Lemma lg_yr s : lg yr s <-> exists y, year4 s y.
Proof. unfold lg. split; [intros (k & H); apply gen_yr in H; tauto|intros H; exists []; apply gen_yr; auto]. Qed.
Lemma lg_tail s : lg (strip (dtail 0 0)) s <-> exists m d, mmdd s m d.
Proof.
  rewrite lg_strip. unfold lg. split; [intros (k & H); apply gen_dtail in H; destruct H as (m & d & H & _); eauto|].
  intros (m & d & H). eexists. apply gen_dtail. eauto.
Qed.
Lemma lg_D s : lg D s <-> is_level0_date s.
Proof.
  unfold D, is_level0_date. rewrite lg_seq, level0_iff. split.
  - intros (u & v & H1 & H2 & ->). apply lg_yr in H1. apply lg_tail in H2. destruct H1 as (y & H1), H2 as (m & d & H2). eauto 10.
  - intros (t & y & r & m & d & -> & H1 & H2). exists t, r. split; [apply lg_yr; eauto|]. split; [apply lg_tail; eauto|reflexivity].
Qed.
(** A date followed by something, as the compiler nests it. *)
Lemma lg_D_seq b s : lg (RSeq yr (RSeq (strip (dtail 0 0)) b)) s <-> exists u v, is_level0_date u /\ lg b v /\ s = u ++ v.
Proof.
  rewrite lg_assoc, lg_seq. split; intros (u & v & H1 & H2 & H3); exists u, v; [rewrite <- lg_D|rewrite <- lg_D in H1]; auto.
Qed.

(** ** Building blocks *)
Lemma lg_pre z b s : 0 <= z < 256 -> lg (RSeq (rc z) b) s <-> exists v, lg b v /\ s = chr z :: v.
Proof.
  intro Hz. rewrite lg_seq. split.
  - intros (u & v & H1 & H2 & ->). apply lg_rc in H1; [|exact Hz]. subst u. exists v. auto.
  - intros (v & H & ->). exists [chr z], v. split; [apply lg_rc; auto|auto].
Qed.
Definition d2 : re := RSeq rd rd.
Definition d4 : re := RSeq rd (RSeq rd (RSeq rd rd)).
Lemma lg_d2 s : lg d2 s <-> exists n, 0 <= n <= 99 /\ s = two n.
Proof.
  unfold d2. rewrite lg_seq. split.
  - intros (u & v & H1 & H2 & ->). apply lg_rd in H1, H2. destruct H1 as (a & -> & Ha), H2 as (b & -> & Hb).
    destruct (two_of a b Ha Hb) as (n & Hn & E). exists n. auto.
  - intros (n & Hn & ->). exists [digit_char (n / 10)], [digit_char (n mod 10)].
    pose proof (Z.div_mod n 10). pose proof (Z.mod_pos_bound n 10).
    split; [apply lg_rd; eexists; split; [reflexivity|apply is_digit_char; lia]|].
    split; [apply lg_rd; eexists; split; [reflexivity|apply is_digit_char; lia]|reflexivity].
Qed.
Lemma lg_d4 s : lg d4 s <-> exists n, 0 <= n <= 9999 /\ s = four n.
Proof. unfold lg, d4. split; [intros (k & H); apply gen_4 in H; tauto|intros H; exists []; apply gen_4; auto]. Qed.
Lemma lg_opt_seq a b s : lg (RSeq (ROpt a) b) s <-> lg b s \/ lg (RSeq a b) s.
Proof.
  rewrite !lg_seq. split.
  - intros (u & v & H1 & H2 & ->). apply lg_opt in H1. destruct H1 as [H1| ->]; [right; eauto|left; exact H2].
  - intros [H|(u & v & H1 & H2 & ->)]; [exists [], s|exists u, v]; (split; [apply lg_opt; auto|auto]).
Qed.

(** ** Level 0 *)
Definition zone_re : re := ROpt (RAlt (rc 90) (RSeq (RAlt (rc 43) (rc 45)) (RSeq d2 (ROpt (RSeq (rc 58) d2))))).
Definition clock_re : re := RSeq (rc 84) (RSeq d2 (RSeq (rc 58) (RSeq d2 (RSeq (rc 58) (RSeq d2 zone_re))))).
Lemma lg_zone s : lg zone_re s <-> zone_text s.
Proof.
  unfold zone_re. rewrite lg_opt, lg_alt, lg_rc by lia. split.
  - intros [[-> |H]| ->]; [constructor| |constructor]. apply lg_seq in H. destruct H as (u & v & H1 & H2 & ->).
    assert (Hu : u = ["+"%char] \/ u = ["-"%char]).
    { apply lg_alt in H1. destruct H1 as [H1|H1]; apply lg_rc in H1; try lia; subst; auto. }
    apply lg_seq in H2. destruct H2 as (v1 & v2 & H2 & H3 & ->). apply lg_d2 in H2. destruct H2 as (h & Hh & ->).
    apply lg_opt in H3. destruct H3 as [H3| ->].
    + apply lg_pre in H3; [|lia]. destruct H3 as (v3 & H3 & ->). apply lg_d2 in H3. destruct H3 as (m & Hm & ->).
      destruct Hu as [-> | ->]; apply (zone_minutes _ h m); auto.
    + rewrite app_nil_r. destruct Hu as [-> | ->]; apply (zone_hours _ h); auto.
  - intros [| |c h Hc Hh|c h m Hc Hh Hm]; [right; reflexivity|left; left; reflexivity|left; right..].
    + apply lg_seq. exists [c], (two h). split.
      * apply lg_alt. destruct Hc as [-> | ->]; [left|right]; apply lg_rc; auto; lia.
      * split; [|reflexivity]. apply lg_seq. exists (two h), []. split; [apply lg_d2; eauto|]. split; [apply lg_opt; auto|rewrite app_nil_r; reflexivity].
    + apply lg_seq. exists [c], (two h ++ ":"%char :: two m). split.
      * apply lg_alt. destruct Hc as [-> | ->]; [left|right]; apply lg_rc; auto; lia.
      * split; [|reflexivity]. apply lg_seq. exists (two h), (":"%char :: two m). split; [apply lg_d2; eauto|].
        split; [|reflexivity]. apply lg_opt. left. apply lg_pre; [lia|]. exists (two m). split; [apply lg_d2; eauto|reflexivity].
Qed.
Lemma lg_clock s : lg clock_re s <-> exists h m sc z, 0 <= h <= 99 /\ 0 <= m <= 99 /\ 0 <= sc <= 99 /\ zone_text z /\
  s = "T"%char :: two h ++ ":"%char :: two m ++ ":"%char :: two sc ++ z.
Proof.
  unfold clock_re. rewrite lg_pre by lia. split.
  - intros (v & H & ->). apply lg_seq in H. destruct H as (a & v1 & Ha & H & ->). apply lg_d2 in Ha. destruct Ha as (h & Hh & ->).
    apply lg_pre in H; [|lia]. destruct H as (v2 & H & ->). apply lg_seq in H. destruct H as (b & v3 & Hb & H & ->).
    apply lg_d2 in Hb. destruct Hb as (m & Hm & ->). apply lg_pre in H; [|lia]. destruct H as (v4 & H & ->).
    apply lg_seq in H. destruct H as (c & z & Hc & Hz & ->). apply lg_d2 in Hc. destruct Hc as (sc & Hsc & ->). apply lg_zone in Hz.
    exists h, m, sc, z. auto 10.
  - intros (h & m & sc & z & Hh & Hm & Hs & Hz & ->). eexists. split; [|reflexivity].
    apply lg_seq. exists (two h). eexists. split; [apply lg_d2; eauto|]. split; [|reflexivity]. apply lg_pre; [lia|]. eexists. split; [|reflexivity].
    apply lg_seq. exists (two m). eexists. split; [apply lg_d2; eauto|]. split; [|reflexivity]. apply lg_pre; [lia|]. eexists. split; [|reflexivity].
    apply lg_seq. exists (two sc), z. split; [apply lg_d2; eauto|]. split; [apply lg_zone; exact Hz|reflexivity].
Qed.
Lemma anchored_strip R r : option_map strip (anchored R) = Some r -> match anchored R with Some a => plain a | None => false end = true ->
  forall s, match_string R s = true <-> lg r s.
Proof.
  destruct (anchored R) as [a|] eqn:E; [|discriminate]. intros H Hp s. injection H as <-. rewrite lg_strip. exact (anchored_lg R a E Hp s).
Qed.
Theorem DateAndTime_spec s : match_string DateAndTime s = true <-> datetime_text s.
Proof.
  rewrite (anchored_strip DateAndTime (RSeq yr (RSeq (strip (dtail 0 0)) clock_re)) eq_refl eq_refl), lg_D_seq. split.
  - intros (u & v & Hu & Hv & ->). apply lg_clock in Hv. destruct Hv as (h & m & sc & z & Hh & Hm & Hs & Hz & ->). constructor; assumption.
  - intros [t h m sc z Ht Hh Hm Hs Hz]. exists t. eexists. split; [exact Ht|]. split; [|reflexivity]. apply lg_clock. eauto 10.
Qed.
Theorem TimeInterval_spec s : match_string TimeInterval s = true <-> exists a b, is_level0_date a /\ is_level0_date b /\ s = a ++ "/"%char :: b.
Proof.
  rewrite (anchored_strip TimeInterval (RSeq yr (RSeq (strip (dtail 0 0)) (RSeq (rc 47) D))) eq_refl eq_refl), lg_D_seq. split.
  - intros (u & v & Hu & Hv & ->). apply lg_pre in Hv; [|lia]. destruct Hv as (w & Hw & ->). apply lg_D in Hw. eauto.
  - intros (a & b & Ha & Hb & ->). exists a. eexists. split; [exact Ha|]. split; [|reflexivity]. apply lg_pre; [lia|]. exists b. split; [apply lg_D; exact Hb|reflexivity].
Qed.
Theorem Level0_spec s : match_string Level0_re s = true <->
  match_string Date_re s = true \/ match_string DateAndTime s = true \/ match_string TimeInterval s = true.
Proof.
  rewrite (anchored_strip Level0_re (RAlt D (RAlt (RSeq yr (RSeq (strip (dtail 0 0)) clock_re)) (RSeq yr (RSeq (strip (dtail 0 0)) (RSeq (rc 47) D))))) eq_refl eq_refl).
  rewrite (anchored_strip Date_re D eq_refl eq_refl), (anchored_strip DateAndTime (RSeq yr (RSeq (strip (dtail 0 0)) clock_re)) eq_refl eq_refl),
    (anchored_strip TimeInterval (RSeq yr (RSeq (strip (dtail 0 0)) (RSeq (rc 47) D))) eq_refl eq_refl).
  rewrite !lg_alt. reflexivity.
Qed.
(** Bytes of the accepted strings. *)
Lemma match_bytes R : match anchored R with Some a => plain a | None => false end = true -> forall s, match_string R s = true ->
  all_in (match anchored R with Some a => bytes a | None => [] end) s.
Proof.
  destruct (anchored R) as [a|] eqn:E; [|discriminate]. intros Hp s H. apply (anchored_lg R a E Hp) in H. destruct H as (k & H).
  exact (gen_bytes a Hp s k H).
Qed.
