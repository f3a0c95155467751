(** Invariants of every parsed date. *)
From Coq Require Import Ascii String ZArith NArith Bool Lia ZifyBool List.
From Verif Require Import GoStr GoTime Regex Patterns RegexSym RegexRel SpecCal SpecText StrFacts TextFacts Edtf Calendar Common Level0 Level1 Level2 Parser CalFacts ApiFacts SpanFacts YmdShapes YmdFacts.
Import ListNotations.
Open Scope Z_scope.
Ltac Zify.zify_post_hook ::= Z.div_mod_to_equations.

Definition open_bound : date := set_open zero_date.
Definition unknown_bound : date := set_unknown zero_date.

(** ** Order of the two dates of a date text *)
Definition date_le (y m d y' m' d' : Z) : Prop := y < y' \/ (y = y' /\ (m < m' \/ (m = m' /\ d <= d'))).
Lemma instant_le y m d y' m' d' hh mi ss hh' mi' ss' : real_date y m d -> real_date y' m' d' ->
  date_le y m d y' m' d' -> clock hh mi ss -> clock hh' mi' ss' ->
  (y = y' -> m = m' -> d = d' -> hh * 3600 + mi * 60 + ss <= hh' * 3600 + mi' * 60 + ss') ->
  instant y m d hh mi ss <= instant y' m' d' hh' mi' ss'.
Proof.
  intros Hr Hr' Hle Hc Hc' Heq. unfold instant, clock in *.
  destruct (Z.eq_dec (epoch_day y m d) (epoch_day y' m' d')) as [E|E].
  - rewrite E. injection (epoch_inj _ _ _ _ _ _ Hr Hr' E) as Ey Em Ed. specialize (Heq Ey Em Ed). lia.
  - assert (epoch_day y m d < epoch_day y' m' d').
    { assert (G : ~ (y = y' /\ m = m' /\ d = d')) by (intros (-> & -> & ->); congruence).
      apply (epoch_lt _ _ _ _ _ _ Hr Hr'). unfold date_lt, date_le in *. lia. }
    lia.
Qed.
Lemma den_ordered s y m d y' m' d' u a p sg : date_den s y m d y' m' d' u a p sg -> real_date y m d -> date_le y m d y' m' d'.
Proof.
  intros [(yt & yc & yq & mt & mc & mq & dt & dc & dq & py & sy & sm & sd & Ht & Hp & Hy & Hm & Hd & _)] (_ & Hr).
  destruct (year_den_range s _ _ _ _ _ Hy) as (ys & ye & _ & _ & _ & _ & Hb2 & _ & Hsy & _ & Hpy).
  destruct (month_den_range _ _ _ _ py Hpy Hm) as (ms & me & _ & _ & _ & _ & Hc2 & _ & Hsm & Hsm' & _).
  unfold date_le. destruct (Z.eq_dec y y') as [->|]; [|lia]. right. split; [reflexivity|].
  destruct (Z.eq_dec m m') as [->|]; [|lia]. right. split; [reflexivity|].
  pose proof (month_len_range y' m'). inversion Hd; subst; lia.
Qed.

(** ** DateSpanFromEDTF *)
Inductive half : str -> date -> date -> Prop :=
| half_unknown : half [] unknown_bound unknown_bound
| half_open : half ($"..") open_bound open_bound
| half_date t y m d y' m' d' u a p sg : date_den t y m d y' m' d' u a p sg -> real_date y m d -> real_date y' m' d' ->
    -9999 <= y <= 9999 -> -9999 <= y' <= 9999 ->
    half t (day_start y m d u a p) (day_end y' m' d' u a p).

Lemma dateSpanFromEDTF_inv t sp : dateSpanFromEDTF t = OK sp ->
  half t (r_lower (s_start sp)) (r_upper (s_end sp)) /\ r_edtf (s_start sp) = t /\ r_edtf (s_end sp) = t.
Proof.
  unfold dateSpanFromEDTF. intro H.
  destruct (seqb t UNKNOWN) eqn:E1; [apply seqb_eq in E1; subst; injection H as <-; split; [constructor|split; reflexivity]|].
  destruct (seqb t OPEN) eqn:E2; [apply seqb_eq in E2; subst; injection H as <-; split; [constructor|split; reflexivity]|].
  destruct (span_inv _ _ H) as (y & m & d & y' & m' & d' & u & a & p & sg & HD & Hr & Hr' & Hy & Hy' & ->).
  cbn. split; [|auto]. econstructor; eassumption.
Qed.
Theorem DateSpan_inv s sp : DateSpanFromEDTF s = OK sp ->
  (~ In "/"%char s /\ dateSpanFromYMD s = OK sp) \/
  (exists l r lo hi lo' hi', s = l ++ "/"%char :: r /\ ~ In "/"%char l /\ ~ In "/"%char r /\
     half l lo hi /\ half r lo' hi' /\ sp = mkSpan (mkRange l lo hi) (mkRange r lo' hi')).
Proof.
  unfold DateSpanFromEDTF. intro H. change ($"/") with ["/"%char] in H.
  destruct (split s ["/"%char]) as [|l [|r [|]]] eqn:E; try discriminate.
  - left. apply split_inv1 in E. destruct E as (-> & E). auto.
  - right. apply split_inv2 in E. destruct E as (E & E1 & E2).
    apply bind_OK in H. destruct H as (sl & Hl & H). apply bind_OK in H. destruct H as (sr & Hr & H). injection H as <-.
    apply dateSpanFromEDTF_inv in Hl. destruct Hl as (Hl & El & _). apply dateSpanFromEDTF_inv in Hr. destruct Hr as (Hr & _ & Er).
    exists l, r, (r_lower (s_start sl)), (r_upper (s_end sl)), (r_lower (s_start sr)), (r_upper (s_end sr)).
    rewrite El, Er. auto 10.
Qed.

Lemma half_fwd t lo hi : half t lo hi -> exists sp, dateSpanFromEDTF t = OK sp /\
  r_lower (s_start sp) = lo /\ r_upper (s_end sp) = hi /\ r_edtf (s_start sp) = t /\ r_edtf (s_end sp) = t.
Proof.
  intros [| |t0 y m d y' m' d' u a p sg HD Hr Hr' _ _]; [eexists; split; [reflexivity|]; repeat split..|].
  destruct (span_fwd _ _ _ _ _ _ _ _ _ _ _ HD Hr Hr') as (E & _).
  exists (span6 t0 u a p sg y m d y' m' d'). split; [|repeat split].
  unfold dateSpanFromEDTF. destruct HD as [(yt & yc & yq & mt & mc & mq & dt & dc & dq & py & sy & sm & sd & Ht & Hp & _)].
  assert (G : exists a b c w, (t0 = a :: b :: c :: w)).
  { destruct Hp as [Hq Hy _ _ _ _]. apply year_core in Hy. destruct Hy as (a1 & b1 & c1 & d1 & Hy & _).
    assert (exists a b c w, yt = a :: b :: c :: w).
    { destruct Hy as [-> | ->]; inversion Hq; subst; cbn; eauto 10. }
    destruct H as (a2 & b2 & c2 & w2 & ->). inversion Ht; subst; cbn; eauto 10. }
  destruct G as (a1 & b1 & c1 & w1 & ->). replace (seqb (a1 :: b1 :: c1 :: w1) UNKNOWN) with false by reflexivity.
  replace (seqb (a1 :: b1 :: c1 :: w1) OPEN) with false; [exact E|].
  symmetry. apply seqb_neq. discriminate.
Qed.
Theorem interval_fwd l r lo hi lo' hi' : ~ In "/"%char l -> ~ In "/"%char r -> half l lo hi -> half r lo' hi' ->
  DateSpanFromEDTF (l ++ "/"%char :: r) = OK (mkSpan (mkRange l lo hi) (mkRange r lo' hi')).
Proof.
  intros Hl Hr H H'. unfold DateSpanFromEDTF. change ($"/") with ["/"%char]. rewrite split_two by assumption.
  destruct (half_fwd _ _ _ H) as (sl & -> & E1 & E2 & E3 & _). destruct (half_fwd _ _ _ H') as (sr & -> & F1 & F2 & _ & F4).
  cbn [bind]. rewrite E1, E2, E3, F1, F2, F4. reflexivity.
Qed.
Lemma single_fwd s : ~ In "/"%char s -> DateSpanFromEDTF s = dateSpanFromYMD s.
Proof. intro H. unfold DateSpanFromEDTF. change ($"/") with ["/"%char]. rewrite split_none by exact H. reflexivity. Qed.

(** ** Kinds of bounds *)
Definition any_clock (hh mi ss : Z) : Prop := clock hh mi ss.
Definition midnight (hh mi ss : Z) : Prop := hh = 0 /\ mi = 0 /\ ss = 0.
Definition last_second (hh mi ss : Z) : Prop := hh = 23 /\ mi = 59 /\ ss = 59.
Inductive gbound (P : Z -> Z -> Z -> Prop) (i : N) : date -> Prop :=
| gb_open : gbound P i (set_inclusivity open_bound i)
| gb_unknown : gbound P i (set_inclusivity unknown_bound i)
| gb_dated y m d hh mi ss u a p : -9999 <= y <= 9999 -> real_date y m d -> clock hh mi ss -> P hh mi ss ->
    gbound P i (set_inclusivity (bound y m d hh mi ss u a p) i).
Lemma gbound_any P i b : gbound P i b -> gbound any_clock i b.
Proof. intros [| |]; constructor; assumption. Qed.
Definition bound_le (b c : date) : Prop := forall t t', d_timestamp b = Some t -> d_timestamp c = Some t' -> t <= t'.

Lemma half_bounds t lo hi : half t lo hi -> gbound midnight 0 lo /\ gbound last_second 0 hi /\ bound_le lo hi /\
  (d_open lo = true <-> t = $"..") /\ (d_open hi = true <-> t = $"..").
Proof.
  intros [| |t0 y m d y' m' d' u a p sg HD Hr Hr' Hy Hy'].
  - split; [apply (gb_unknown midnight 0)|]. split; [apply (gb_unknown last_second 0)|]. split; [intros ? ? E; discriminate E|].
    split; split; discriminate.
  - split; [apply (gb_open midnight 0)|]. split; [apply (gb_open last_second 0)|]. split; [intros ? ? E; discriminate E|].
    split; split; reflexivity.
  - split; [apply (gb_dated midnight 0); auto; repeat split|]. split; [apply (gb_dated last_second 0); auto; repeat split|].
    split.
    + intros t1 t' E E'. injection E as <-. injection E' as <-.
      apply instant_le; auto; [exact (den_ordered _ _ _ _ _ _ _ _ _ _ _ HD Hr)|intros; lia].
    + assert (G : t0 <> $"..").
      { intros ->. destruct HD as [(yt & yc & yq & mt & mc & mq & dt & dc & dq & py & sy & sm & sd & Ht & Hp & _)].
        pose proof (ymd_sub _ _ _ _ _ _ _ _ _ _ Ht Hp) as Q. vm_compute in Q. discriminate. }
      split; split; intro Q; try discriminate; contradiction.
Qed.
Lemma span6_bounds s u a p sg y m d y' m' d' : date_den s y m d y' m' d' u a p sg -> real_date y m d -> real_date y' m' d' ->
  -9999 <= y <= 9999 -> -9999 <= y' <= 9999 -> forall sp, sp = span6 s u a p sg y m d y' m' d' ->
  gbound midnight 0 (r_lower (s_start sp)) /\ gbound any_clock 0 (r_upper (s_start sp)) /\
  gbound any_clock 0 (r_lower (s_end sp)) /\ gbound last_second 0 (r_upper (s_end sp)) /\
  bound_le (r_lower (s_start sp)) (r_upper (s_start sp)) /\ bound_le (r_lower (s_end sp)) (r_upper (s_end sp)) /\
  bound_le (r_lower (s_start sp)) (r_upper (s_end sp)) /\
  d_open (r_lower (s_start sp)) = false /\ d_open (r_upper (s_start sp)) = false /\ d_open (r_lower (s_end sp)) = false /\ d_open (r_upper (s_end sp)) = false.
Proof.
  intros HD Hr Hr' Hy Hy' sp ->. unfold span6. cbn [s_start s_end r_lower r_upper].
  split; [apply (gb_dated midnight 0); auto; repeat split|].
  split; [destruct sg; apply (gb_dated any_clock 0); auto; unfold any_clock; auto|].
  split; [destruct sg; apply (gb_dated any_clock 0); auto; unfold any_clock; auto|].
  split; [apply (gb_dated last_second 0); auto; repeat split|].
  assert (I1 : forall y m d, real_date y m d -> instant y m d 0 0 0 <= instant y m d 23 59 59) by (intros; unfold instant; lia).
  split; [destruct sg; intros t t' E E'; injection E as <-; injection E' as <-; [lia|auto]|].
  split; [destruct sg; intros t t' E E'; injection E as <-; injection E' as <-; [lia|auto]|].
  split; [|destruct sg; repeat split].
  intros t t' E E'. injection E as <-. injection E' as <-.
  apply instant_le; auto; [exact (den_ordered _ _ _ _ _ _ _ _ _ _ _ HD Hr)|intros; lia].
Qed.

(** A span as DateSpanFromEDTF returns it. *)
Record good_span (sp : datespan) : Prop := mkgs {
  gs_sl : gbound midnight 0 (r_lower (s_start sp));
  gs_su : gbound any_clock 0 (r_upper (s_start sp));
  gs_el : gbound any_clock 0 (r_lower (s_end sp));
  gs_eu : gbound last_second 0 (r_upper (s_end sp));
  gs_s : bound_le (r_lower (s_start sp)) (r_upper (s_start sp));
  gs_e : bound_le (r_lower (s_end sp)) (r_upper (s_end sp)) }.
Lemma DateSpan_good s sp : DateSpanFromEDTF s = OK sp -> good_span sp.
Proof.
  intro H. destruct (DateSpan_inv _ _ H) as [(_ & H1)|(l & r & lo & hi & lo' & hi' & _ & _ & _ & Hl & Hr & ->)].
  - destruct (span_inv _ _ H1) as (y & m & d & y' & m' & d' & u & a & p & sg & HD & Hr & Hr' & Hy & Hy' & E).
    pose proof (span6_bounds _ _ _ _ _ _ _ _ _ _ _ HD Hr Hr' Hy Hy' _ E) as G. constructor; apply G.
  - apply half_bounds in Hl, Hr. destruct Hl as (L1 & L2 & L3 & _). destruct Hr as (R1 & R2 & R3 & _).
    constructor; cbn [s_start s_end r_lower r_upper]; auto; eapply gbound_any; eassumption.
Qed.
(** A text without a slash: four dated bounds in order. *)
Lemma DateSpan_plain s sp : ~ In "/"%char s -> DateSpanFromEDTF s = OK sp ->
  bound_le (r_lower (s_start sp)) (r_upper (s_end sp)).
Proof.
  intros Hs H. rewrite single_fwd in H by exact Hs.
  destruct (span_inv _ _ H) as (y & m & d & y' & m' & d' & u & a & p & sg & HD & Hr & Hr' & Hy & Hy' & E).
  exact (proj1 (proj2 (proj2 (proj2 (proj2 (proj2 (proj2 (span6_bounds _ _ _ _ _ _ _ _ _ _ _ HD Hr Hr' Hy Hy' _ E)))))))).
Qed.
