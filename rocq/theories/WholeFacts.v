(** The whole span of a date text or of a pair of them. *)
From Coq Require Import Ascii String ZArith NArith Bool Lia ZifyBool List.
From Verif Require Import GoStr GoTime Regex Patterns RegexSym RegexRel RegexGen SpecCal SpecText SpecZone SpecGrammar SpecForms SpecSpan SpecReads SpecWhole StrFacts TextFacts Edtf Calendar Common Level0 Level1 Level2 Parser CalFacts ApiFacts SpanFacts YmdShapes YmdFacts InvFacts GrammarFacts SetGrammar LangFacts LangNorm LangForms LangForms2 DateFacts ParseFacts SplitFacts Level0Facts Level0Proofs FormFacts SeasonFacts Level1Proofs XProofs FormProofs ReadsFacts.
Import ListNotations.
Open Scope Z_scope.
Ltac Zify.zify_post_hook ::= Z.div_mod_to_equations.

(** ** Marks *)
Definition as_qualifier (w : mark_at) : option qualifier :=
  match w with NoMark => None | Front q => Some (mkQual [q] Individual) | Back q => Some (mkQual [q] Group) end.
Definition proper (w : mark_at) : Prop := match w with NoMark => True | Front q | Back q => a_mark q end.
Lemma marks_qualified c t w : marks c t w -> qualified t c (as_qualifier w) /\ proper w.
Proof.
  intros [|q Hq|q Hq]; (split; [|assumption || exact I]); [apply q_none|apply q_pre; apply in_mark; exact Hq|apply q_suf; apply in_mark; exact Hq].
Qed.
Lemma qualified_marks c t q : qualified t c q -> exists w, marks c t w /\ q = as_qualifier w.
Proof.
  intros [core|k core Hk|k core Hk]; [exists NoMark|exists (Front k)|exists (Back k)]; (split; [|reflexivity]); constructor; apply in_mark; exact Hk.
Qed.
Lemma flags_concerned yw mw dw : proper yw -> proper mw -> proper dw ->
  qualifier_flags (as_qualifier yw) (as_qualifier mw) (as_qualifier dw) = (concerned marks_uncertain yw mw dw, concerned marks_approximate yw mw dw).
Proof.
  intros Hy Hm Hd.
  destruct yw as [|q|q]; cbn [proper] in Hy; [clear Hy|destruct Hy as [->|[->| ->]]..];
  (destruct mw as [|q'|q']; cbn [proper] in Hm; [clear Hm|destruct Hm as [->|[->| ->]]..]);
  (destruct dw as [|q''|q'']; cbn [proper] in Hd; [clear Hd|destruct Hd as [->|[->| ->]]..]); vm_compute; reflexivity.
Qed.

(** ** Precision *)
Lemma digit_x c : is_digit c = true -> is_x c = false.
Proof. intro H. apply Ascii.eqb_neq. intros ->. discriminate. Qed.
Lemma year_prec_of t y y' p sy : year_den t y y' p sy -> year_precision t = p.
Proof.
  intros [t0 y0 Hc Ha|a b c Ha Hb Hc].
  - pose proof (year4_of _ _ Hc Ha) as H. destruct H as [n Hn|n Hn].
    + unfold four, year_precision. rewrite (digit_x (digit_char (n mod 10))); [reflexivity|]. apply is_digit_char. lia.
    + reflexivity.
  - unfold year_precision, xprec, is_x. rewrite Ascii.eqb_refl. change X with "X"%char. destruct (Ascii.eqb c "X"), (Ascii.eqb b "X"); reflexivity.
Qed.
Lemma two_x n : 0 <= n <= 99 -> is_x (digit_char (n / 10)) = false /\ is_x (digit_char (n mod 10)) = false.
Proof. intro H. split; apply digit_x, is_digit_char; lia. Qed.
Lemma month_prec_of mc m m' sm p : mc = [] \/ core_in month_shapes mc -> month_den mc m m' sm -> month_prec mc p = with_month mc p.
Proof.
  intros _ H. destruct H as [|t n Hc Ha| |a Ha]; [reflexivity| |reflexivity|destruct Ha as [->| ->]; reflexivity].
  pose proof (month_core_bound _ _ Hc Ha) as B. pose proof Hc as Hc'. apply month_core in Hc. destruct Hc as (a & b & -> & Hc).
  assert (E : [a; b] = two n).
  { apply two_atoi_inv in Ha; [apply Ha|..]; intros ->; destruct Hc as [([Q|Q] & _)|([Q|Q] & _)]; discriminate. }
  rewrite E. unfold month_prec. change (two n) with ([digit_char (n / 10)] ++ [digit_char (n mod 10)]). rewrite suffix_X_snoc.
  destruct (two_x n ltac:(lia)) as (_ & X2). unfold is_x in X2. rewrite Ascii.eqb_sym in X2. rewrite X2. cbn [negb app with_month].
  unfold is_x at 1. rewrite Ascii.eqb_sym, X2. reflexivity.
Qed.
Lemma seqb_xx a b : seqb [a; b] ($"XX") = is_x a && is_x b.
Proof. cbn [seqb lit list_ascii_of_string]. unfold is_x. rewrite andb_true_r. reflexivity. Qed.
Lemma month_two mc : mc = [] \/ core_in month_shapes mc -> mc = [] \/ exists a b, mc = [a; b].
Proof. intros [->|H]; [auto|]. apply month_core in H. destruct H as (a & b & -> & _). right. eauto. Qed.
Lemma day_two dc : dc = [] \/ core_in day_shapes dc -> dc = [] \/ exists a b, dc = [a; b].
Proof. intros [->|H]; [auto|]. apply day_core in H. destruct H as (a & b & -> & _). right. eauto. Qed.
Lemma date_prec_of mc dc m m' sm p : mc = [] \/ core_in month_shapes mc -> dc = [] \/ core_in day_shapes dc -> month_den mc m m' sm ->
  date_prec mc dc p = with_day mc dc (with_month mc p).
Proof.
  intros Cm Cd H. unfold date_prec. rewrite (month_prec_of _ _ _ _ p Cm H).
  destruct (day_two _ Cd) as [->|(a & b & ->)]; [reflexivity|]. rewrite seqb_xx. cbn [with_day].
  destruct (is_x a && is_x b); cbn [andb]; [|reflexivity].
  destruct (month_two _ Cm) as [->|(a' & b' & ->)]; [reflexivity|]. rewrite seqb_xx. destruct (is_x a' && is_x b'); reflexivity.
Qed.

(** ** Dates *)
Lemma day_whole_none dc n n' d d' sd : day_den n n' dc d d' sd -> dc = [] -> d = 1 /\ d' = n'.
Proof. intros H E. inversion H as [|t0 k Hc Ha Hz| | | | |]; subst; try discriminate; auto. Qed.
Lemma month_whole_none mc m m' sm : month_den mc m m' sm -> mc = [] -> m = 1 /\ m' = 12.
Proof. intros H E. inversion H as [|t0 n Hc Ha| |]; subst; try discriminate; auto. Qed.
Lemma core_of_nil (t c : str) q l : qualified t c q -> t = [] \/ core_in l c -> c = [] \/ core_in l c.
Proof. intros Q [->|H]; [|auto]. apply qualified_nil in Q. left. apply Q. Qed.
Lemma date_whole_iff s y m d y' m' d' u a p : date_whole s y m d y' m' d' u a p <-> exists sg, date_den s y m d y' m' d' u a p sg.
Proof.
  split.
  - intros [yt yc yw y0 y0' Hm Hy|yt yc yw y0 y0' mt mc mw m0 m0' Hm Hy Hmm Hmr|yt yc yw y0 y0' mt mc mw m0 m0' dt dc dw d0 d0' Hm Hy Hmm Hmr Hmd Hdr].
    + pose proof (year_reads_core _ _ _ Hy) as Cy. destruct (marks_qualified _ _ _ Hm) as (Hq & Pq). apply year_bridge in Hy. destruct Hy as (py & sy & Hy).
      eexists. constructor.
      exists yt, yc, (as_qualifier yw), [], [], None, [], [], None, py, sy, false, false.
      split; [constructor|]. split; [constructor; auto; constructor|]. split; [exact Hy|]. split; [constructor|].
      split; [apply (dd_none (month_len y0 1) (month_len y0' 12))|]. split; [exact (flags_concerned yw NoMark NoMark Pq I I)|].
      split; [rewrite (year_prec_of _ _ _ _ _ Hy); reflexivity|reflexivity].
    + pose proof (year_reads_core _ _ _ Hy) as Cy. destruct (marks_qualified _ _ _ Hm) as (Hq & Pq). apply year_bridge in Hy. destruct Hy as (py & sy & Hy).
      pose proof (month_reads_core _ _ _ Hmr) as Cm. destruct (marks_qualified _ _ _ Hmm) as (Hqm & Pm).
      apply month_bridge in Hmr. destruct Hmr as (Nc & sm & Hmr).
      assert (Nm : mt <> []) by (intros ->; apply qualified_nil in Hqm; destruct Hqm as (-> & _); contradiction).
      eexists. constructor.
      exists yt, yc, (as_qualifier yw), mt, mc, (as_qualifier mw), [], [], None, py, sy, sm, false.
      split; [apply yt_ym; exact Nm|]. split; [constructor; auto; constructor|]. split; [exact Hy|]. split; [exact Hmr|].
      split; [apply (dd_none (month_len y0 m0) (month_len y0' m0'))|]. split; [exact (flags_concerned yw mw NoMark Pq Pm I)|].
      split; [|reflexivity]. rewrite (year_prec_of _ _ _ _ _ Hy). rewrite (date_prec_of mc [] _ _ _ py (or_intror Cm) (or_introl eq_refl) Hmr). reflexivity.
    + pose proof (year_reads_core _ _ _ Hy) as Cy. destruct (marks_qualified _ _ _ Hm) as (Hq & Pq). apply year_bridge in Hy. destruct Hy as (py & sy & Hy).
      pose proof (month_reads_core _ _ _ Hmr) as Cm. destruct (marks_qualified _ _ _ Hmm) as (Hqm & Pm).
      apply month_bridge in Hmr. destruct Hmr as (Nc & sm & Hmr).
      assert (Nm : mt <> []) by (intros ->; apply qualified_nil in Hqm; destruct Hqm as (-> & _); contradiction).
      pose proof (day_reads_core _ _ _ _ _ Hdr) as Cd. destruct (marks_qualified _ _ _ Hmd) as (Hqd & Pd).
      apply day_bridge in Hdr. destruct Hdr as (Ncd & sd & Hdr).
      assert (Nd : dt <> []) by (intros ->; apply qualified_nil in Hqd; destruct Hqd as (-> & _); contradiction).
      eexists. constructor.
      exists yt, yc, (as_qualifier yw), mt, mc, (as_qualifier mw), dt, dc, (as_qualifier dw), py, sy, sm, sd.
      split; [apply yt_ymd; assumption|]. split; [constructor; auto|]. split; [exact Hy|]. split; [exact Hmr|].
      split; [exact Hdr|]. split; [exact (flags_concerned yw mw dw Pq Pm Pd)|].
      split; [|reflexivity]. rewrite (year_prec_of _ _ _ _ _ Hy). symmetry. exact (date_prec_of mc dc _ _ _ py (or_intror Cm) (or_intror Cd) Hmr).
  - intros (sg & [(yt & yc & yq & mt & mc & mq & dt & dc & dq & py & sy & sm & sd & Ht & Hp & Hy & Hm & Hd & Hf & Hpr & _)]).
    destruct Hp as [Qy Cy Qm Cm Qd Cd].
    destruct (qualified_marks _ _ _ Qy) as (yw & My & ->). destruct (qualified_marks _ _ _ Qm) as (mw & Mm & ->). destruct (qualified_marks _ _ _ Qd) as (dw & Md & ->).
    rewrite flags_concerned in Hf by (eapply marks_qualified; eassumption). injection Hf as <- <-.
    rewrite (date_prec_of _ _ _ _ _ py (core_of_nil _ _ _ _ Qm Cm) (core_of_nil _ _ _ _ Qd Cd) Hm), <- (year_prec_of _ _ _ _ _ Hy) in Hpr. subst p.
    assert (Ry : year_reads yc y y') by (apply year_bridge; eauto).
    destruct Ht as [yt|yt mt Nm|yt mt dt Nm Nd].
    + apply qualified_nil in Qm. destruct Qm as (-> & Em). apply qualified_nil in Qd. destruct Qd as (-> & Ed).
      destruct mw; try discriminate Em. destruct dw; try discriminate Ed.
      destruct (month_whole_none _ _ _ _ Hm eq_refl) as (-> & ->). destruct (day_whole_none _ _ _ _ _ _ Hd eq_refl) as (-> & ->). exact (dw_y _ _ _ _ _ My Ry).
    + apply qualified_nil in Qd. destruct Qd as (-> & Ed). destruct dw; try discriminate Ed. destruct Cm as [Cm|Cm]; [contradiction|].
      assert (Rm : month_reads mc m m').
      { apply month_bridge. split; [exact (qualified_ne _ _ _ Qm Nm (core_all_month _ Cm))|eauto]. }
      destruct (day_whole_none _ _ _ _ _ _ Hd eq_refl) as (-> & ->). exact (dw_ym _ _ _ _ _ _ _ _ _ _ My Ry Mm Rm).
    + destruct Cm as [Cm|Cm]; [contradiction|]. destruct Cd as [Cd|Cd]; [contradiction|].
      assert (Rm : month_reads mc m m').
      { apply month_bridge. split; [exact (qualified_ne _ _ _ Qm Nm (core_all_month _ Cm))|eauto]. }
      assert (Rd : day_reads (month_len y m) (month_len y' m') dc d d').
      { apply day_bridge. split; [exact (qualified_ne _ _ _ Qd Nd (core_all_day _ Cd))|eauto]. }
      exact (dw_ymd _ _ _ _ _ _ _ _ _ _ _ _ _ _ _ My Ry Mm Rm Md Rd).
Qed.
(** The two texts are equal exactly when the two days are. *)
Lemma single_same s y m d y' m' d' u a p sg : date_den s y m d y' m' d' u a p sg -> sg = true <-> (y, m, d) = (y', m', d').
Proof.
  intros [(yt & yc & yq & mt & mc & mq & dt & dc & dq & py & sy & sm & sd & _ & _ & Hy & Hm & Hd & _ & _ & ->)].
  rewrite !andb_true_iff. split.
  - intros ((-> & ->) & ->). assert (y = y') by (inversion Hy; subst; reflexivity). subst y'.
    assert (m = m') by (inversion Hm; subst; reflexivity). subst m'.
    inversion Hd; subst; try reflexivity; [discriminate..|]. assert (month_len y m = 30) by lia. congruence.
  - intro E. injection E as <- <- <-. split; [split|].
    + inversion Hy as [|a0 b0 c0 H1 H2 H3 E1 E2 E3]; subst; [reflexivity|]. exfalso. unfold year_lo, year_hi, xlo, xhi in *.
      destruct (Ascii.eqb b0 X), (Ascii.eqb c0 X); lia.
    + inversion Hm; subst; try reflexivity; try discriminate; lia.
    + pose proof (month_len_range y m). inversion Hd; subst; try reflexivity; try discriminate; lia.
Qed.

(** ** Spans *)
Lemma dawn_start : dawn = day_start. Proof. reflexivity. Qed.
Lemma dusk_end : dusk = day_end. Proof. reflexivity. Qed.
Theorem date_span_iff s sp : date_span s sp <-> dateSpanFromYMD s = OK sp.
Proof.
  split.
  - intros [y m d u a p H Hr|y m d y' m' d' u a p H Hr Hr' N]; apply date_whole_iff in H; destruct H as (sg & H); pose proof (single_same _ _ _ _ _ _ _ _ _ _ _ H) as S.
    + destruct sg; [|exfalso; intuition discriminate]. exact (proj1 (span_fwd _ _ _ _ _ _ _ _ _ _ _ H Hr Hr)).
    + destruct sg; [exfalso; tauto|]. exact (proj1 (span_fwd _ _ _ _ _ _ _ _ _ _ _ H Hr Hr')).
  - intro E. destruct (span_inv _ _ E) as (y & m & d & y' & m' & d' & u & a & p & sg & HD & Hr & Hr' & _ & _ & ->).
    pose proof (single_same _ _ _ _ _ _ _ _ _ _ _ HD) as S. assert (W : date_whole s y m d y' m' d' u a p) by (apply date_whole_iff; eauto). destruct sg.
    + destruct S as (S & _). specialize (S eq_refl). injection S as <- <- <-. exact (ds_one s y m d u a p W Hr).
    + apply (ds_more s y m d y' m' d' u a p W Hr Hr'). intro E1. apply S in E1. discriminate.
Qed.
Lemma side_iff t lo hi : side t lo hi <-> half t lo hi.
Proof.
  split.
  - intros [| |s y m d y' m' d' u a p H Hr Hr']; [constructor|constructor|]. apply date_whole_iff in H. destruct H as (sg & H).
    destruct (span_fwd _ _ _ _ _ _ _ _ _ _ _ H Hr Hr') as (_ & B & B'). econstructor; eassumption.
  - intros [| |t0 y m d y' m' d' u a p sg HD Hr Hr' _ _]; [constructor|constructor|]. apply sd_date; [apply date_whole_iff; eauto|assumption..].
Qed.
Lemma side_no_slash t lo hi : side t lo hi -> ~ In "/"%char t.
Proof.
  intro H. apply side_iff in H. destruct (half_fwd _ _ _ H) as (sp & E & E1 & E2 & _). destruct H as [| |t0 y m d y' m' d' u a p sg HD Hr Hr' _ _]; [intros []|intros [Q|[Q|[]]]; discriminate|].
  exact (ymd_no_slash _ _ (proj1 (span_fwd _ _ _ _ _ _ _ _ _ _ _ HD Hr Hr'))).
Qed.
Theorem whole_span_iff s sp : whole_span s sp <-> DateSpanFromEDTF s = OK sp.
Proof.
  split.
  - intros [s0 sp0 H|a b lo x x' hi Ha Hb].
    + apply date_span_iff in H. rewrite single_fwd; [exact H|exact (ymd_no_slash _ _ H)].
    + pose proof (side_no_slash _ _ _ Ha) as Na. pose proof (side_no_slash _ _ _ Hb) as Nb. apply side_iff in Ha, Hb. exact (interval_fwd _ _ _ _ _ _ Na Nb Ha Hb).
  - intro E. destruct (DateSpan_inv _ _ E) as [(N & E')|(a & b & b1 & b2 & b3 & b4 & -> & Na & Nb & Ha & Hb & ->)].
    + apply ws_date. apply date_span_iff. exact E'.
    + apply side_iff in Ha, Hb. exact (ws_pair a b _ _ _ _ Ha Hb).
Qed.
