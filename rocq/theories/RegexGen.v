(** Expressions without anchors as grammars: [gen r u k] holds when [r] can match
    exactly the text [u], capturing [k] (newest first). *)
From Coq Require Import Ascii String ZArith NArith Bool Lia List.
From Verif Require Import GoStr Regex RegexSym RegexRel.
Import ListNotations.
Open Scope Z_scope.

Definition captures := list (nat * str).
Inductive gstar (R : str -> captures -> Prop) : str -> captures -> Prop :=
| gs_nil : gstar R [] []
| gs_cons u k v l : R u k -> u <> [] -> gstar R v l -> gstar R (u ++ v) (l ++ k).

Fixpoint gen (r : re) (u : str) (k : captures) : Prop :=
  match r with
  | REps => u = [] /\ k = []
  | RSet cs => exists c, u = [c] /\ in_set cs c = true /\ k = []
  | RSeq a b => exists u1 k1 u2 k2, gen a u1 k1 /\ gen b u2 k2 /\ u = u1 ++ u2 /\ k = k2 ++ k1
  | RAlt a b => gen a u k \/ gen b u k
  | ROpt a => gen a u k \/ (u = [] /\ k = [])
  | RStar a => gstar (gen a) u k
  | RCap i a => exists k1, gen a u k1 /\ k = (i, u) :: k1
  | RBegin | REnd => False
  end.

Fixpoint plain (r : re) : bool :=
  match r with
  | REps | RSet _ => true
  | RSeq a b | RAlt a b => plain a && plain b
  | ROpt a | RStar a | RCap _ a => plain a
  | RBegin | REnd => false
  end.

Definition nonempty (u : str) : bool := match u with [] => false | _ => true end.
Lemma app_length_lt (u v : str) : (length v < length (u ++ v))%nat <-> u <> [].
Proof. rewrite app_length. destruct u; cbn [length]; split; intro H; try congruence; try discriminate; lia. Qed.

Theorem run_gen r : plain r = true -> forall st st', run r st st' <->
  exists u k, gen r u k /\ m_rest st = u ++ m_rest st' /\ m_caps st' = k ++ m_caps st /\
    m_bot st' = (if nonempty u then false else m_bot st).
Proof.
  assert (E : forall st st', m_rest st = m_rest st' -> m_caps st' = m_caps st -> m_bot st' = m_bot st -> st' = st).
  { intros [a b c] [a' b' c']. cbn. congruence. }
  induction r as [|cs|a IHa b IHb|a IHa b IHb|a IHa|a IHa|i a IHa| |]; intros Hp st st'; cbn [plain] in Hp; cbn [run gen]; try discriminate.
  - split.
    + intros ->. exists [], []. auto.
    + intros (u & k & (-> & ->) & H1 & H2 & H3). auto.
  - split.
    + intros (c & t & H1 & H2 & ->). exists [c], []. cbn. split; [eauto|auto].
    + intros (u & k & (c & -> & Hc & ->) & H1 & H2 & H3). exists c, (m_rest st'). split; [exact H1|]. split; [exact Hc|].
      destruct st'. cbn in *. congruence.
  - apply andb_prop in Hp. destruct Hp as (Pa & Pb). split.
    + intros (m & Ha & Hb). apply IHa in Ha; [|exact Pa]. apply IHb in Hb; [|exact Pb].
      destruct Ha as (u1 & k1 & Ga & A1 & A2 & A3). destruct Hb as (u2 & k2 & Gb & B1 & B2 & B3).
      exists (u1 ++ u2), (k2 ++ k1). split; [exists u1, k1, u2, k2; auto|]. rewrite A1, B1, B2, A2, B3, A3, !app_assoc.
      split; [reflexivity|]. split; [reflexivity|]. destruct u1, u2; reflexivity.
    + intros (u & k & (u1 & k1 & u2 & k2 & Ga & Gb & -> & ->) & H1 & H2 & H3).
      exists (mkm (if nonempty u1 then false else m_bot st) (u2 ++ m_rest st') (k1 ++ m_caps st)).
      split; [apply IHa|apply IHb]; auto.
      * exists u1, k1. cbn. rewrite app_assoc. auto.
      * exists u2, k2. cbn. rewrite app_assoc. split; [exact Gb|]. split; [reflexivity|]. split; [exact H2|].
        rewrite H3. destruct u1, u2; reflexivity.
  - apply andb_prop in Hp. destruct Hp as (Pa & Pb). rewrite IHa, IHb by assumption. split.
    + intros [(u & k & G & H)|(u & k & G & H)]; exists u, k; auto.
    + intros (u & k & [G|G] & H); [left|right]; exists u, k; auto.
  - rewrite IHa by assumption. split.
    + intros [(u & k & G & H)| ->]; [exists u, k; auto|]. exists [], []. auto.
    + intros (u & k & [G|(-> & ->)] & H); [left; exists u, k; auto|right]. destruct H as (H1 & H2 & H3). auto.
  - split.
    + intro H. induction H as [st|st m st' (H1 & Hl) _ (v & l & G & E1 & E2 & E3)].
      * exists [], []. repeat split. constructor.
      * apply IHa in H1; [|exact Hp]. destruct H1 as (u & k & Gu & A1 & A2 & A3).
        exists (u ++ v), (l ++ k). rewrite A1 in Hl. apply app_length_lt in Hl.
        split; [constructor; assumption|]. rewrite A1, E1, E2, A2, E3, A3, !app_assoc.
        split; [reflexivity|]. split; [reflexivity|]. destruct u, v; reflexivity.
    + intros (u & k & G & H1 & H2 & H3). revert st H1 H2 H3. induction G as [|u k v l Gu Hne Gv IH]; intros st H1 H2 H3.
      * rewrite (E st st') by assumption. constructor.
      * apply st_step with (m := mkm false (v ++ m_rest st') (k ++ m_caps st)).
        -- split.
           ++ apply IHa; [exact Hp|]. exists u, k. cbn. rewrite H1, app_assoc. destruct u; [congruence|]. auto.
           ++ cbn [m_rest]. rewrite H1, <- app_assoc. apply app_length_lt. exact Hne.
        -- apply IH; cbn [m_rest m_caps m_bot]; [reflexivity|rewrite app_assoc; exact H2|].
           rewrite H3. destruct u; [congruence|]. destruct v; reflexivity.
  - split.
    + intros (m & H & ->). apply IHa in H; [|exact Hp]. destruct H as (u & k & G & A1 & A2 & A3).
      exists u, ((i, u) :: k). cbn [m_rest m_caps m_bot]. split; [eauto|]. rewrite A1, taken_app, A2. auto.
    + intros (u & k & (k1 & G & ->) & H1 & H2 & H3).
      exists (mkm (m_bot st') (m_rest st') (k1 ++ m_caps st)). split.
      * apply IHa; [exact Hp|]. exists u, k1. auto.
      * cbn [m_bot m_rest m_caps]. rewrite H1, taken_app. destruct st'. cbn in *. congruence.
Qed.

(** ** Anchored expressions: [^r$] *)
Fixpoint unend (r : re) : option re :=
  match r with
  | REnd => Some REps
  | RSeq a REnd => Some a
  | RSeq a b => option_map (RSeq a) (unend b)
  | _ => None
  end.
Lemma unend_run r : forall r', unend r = Some r' -> forall st st', run r st st' <-> run r' st st' /\ m_rest st' = [].
Proof.
  induction r as [|cs|a _ b IHb|a _ b _|a _|a _|i a _| |]; intros r' H st st'; cbn [unend] in H; try discriminate.
  - destruct b; try discriminate H.
    + cbn [option_map] in H. destruct (unend (RSeq b1 b2)) as [b'|] eqn:E; [|discriminate H]. injection H as <-.
      cbn [run] in *. split.
      * intros (m & H1 & H2). apply (IHb _ eq_refl) in H2. destruct H2 as (H2 & H3). eauto.
      * intros ((m & H1 & H2) & H3). exists m. split; [exact H1|]. apply (IHb _ eq_refl). auto.
    + injection H as <-. cbn [run]. split.
      * intros (m & H1 & H2 & ->). auto.
      * intros (H1 & H2). exists st'. auto.
  - injection H as <-. cbn [run]. split; [intros (H1 & ->); auto|intros (-> & H1); auto].
Qed.

Definition anchored (R : regexp) : option re :=
  match re_body R with RSeq RBegin r => unend r | _ => None end.
Definition caps_out (R : regexp) (s : str) (k : captures) : list str := s :: map (fun i => cap_get i k) (seq 1 (re_ncap R)).

Section Anchored.
Variables (R : regexp) (r : re).
Hypothesis HR : anchored R = Some r.
Hypothesis Hp : plain r = true.

Lemma anchored_run s st : run (re_body R) (mkm true s []) st <-> exists k, gen r s k /\ st = mkm (negb (nonempty s)) [] k.
Proof.
  unfold anchored in HR. destruct (re_body R) as [| |a b| | | | | |]; try discriminate HR. destruct a; try discriminate HR.
  cbn [run]. split.
  - intros (m & (_ & ->) & H). apply (unend_run _ _ HR) in H. destruct H as (H & He). apply (run_gen _ Hp) in H.
    destruct H as (u & k & G & H1 & H2 & H3). cbn [m_rest m_caps m_bot] in *. rewrite He, app_nil_r in H1. subst u.
    rewrite app_nil_r in H2. exists k. split; [exact G|]. destruct st. cbn in *. subst. destruct s; reflexivity.
  - intros (k & G & ->). exists (mkm true s []). split; [auto|]. apply (unend_run _ _ HR). split; [|reflexivity].
    apply (run_gen _ Hp). exists s, k. cbn. rewrite !app_nil_r. split; [exact G|]. split; [reflexivity|]. split; [reflexivity|].
    destruct s; reflexivity.
Qed.
Lemma anchored_begins : begins (re_body R) = true.
Proof.
  unfold anchored in HR. destruct (re_body R) as [| |a b| | | | | |]; try discriminate HR. destruct a; try discriminate HR. reflexivity.
Qed.
Theorem anchored_match s : match_string R s = true <-> exists k, gen r s k.
Proof.
  rewrite (match_begins _ _ anchored_begins). split.
  - intros (st & H). apply anchored_run in H. destruct H as (k & G & _). eauto.
  - intros (k & G). eexists. apply anchored_run. eauto.
Qed.
Lemma anchored_outcome s k : outcome R s (mkm (negb (nonempty s)) [] k) = caps_out R s k.
Proof.
  unfold outcome, caps_out. cbn [m_rest m_caps]. f_equal. unfold taken. cbn [length]. rewrite Nat.sub_0_r. apply firstn_all.
Qed.
Theorem anchored_submatch s : find_submatch R s <> [] -> exists k, gen r s k /\ find_submatch R s = caps_out R s k.
Proof.
  intro H. destruct (submatch_begins _ _ anchored_begins H) as (st & Hr & E). apply anchored_run in Hr.
  destruct Hr as (k & G & ->). exists k. split; [exact G|]. rewrite E. apply anchored_outcome.
Qed.
Theorem anchored_unique s out : (exists k, gen r s k) -> (forall k, gen r s k -> caps_out R s k = out) -> find_submatch R s = out.
Proof.
  intros (k & G) Hu. apply submatch_unique; [exact anchored_begins| |].
  - eexists. apply anchored_run. eauto.
  - intros st H. apply anchored_run in H. destruct H as (k' & G' & ->). rewrite anchored_outcome. auto.
Qed.
End Anchored.

(** ** Small grammars *)
Lemma gen_seq a b u k : gen (RSeq a b) u k <-> exists u1 k1 u2 k2, gen a u1 k1 /\ gen b u2 k2 /\ u = u1 ++ u2 /\ k = k2 ++ k1.
Proof. reflexivity. Qed.
Lemma gen_set cs u k : gen (RSet cs) u k <-> exists c, u = [c] /\ in_set cs c = true /\ k = [].
Proof. reflexivity. Qed.
(** Captured keys. *)
Fixpoint cap_keys (r : re) : list nat :=
  match r with
  | REps | RSet _ | RBegin | REnd => []
  | RSeq a b | RAlt a b => cap_keys a ++ cap_keys b
  | ROpt a | RStar a => cap_keys a
  | RCap i a => i :: cap_keys a
  end.
Lemma gen_keys r : forall u k, gen r u k -> Forall (fun p => In (fst p) (cap_keys r)) k.
Proof.
  assert (W : forall a b (l : captures), Forall (fun p => In (fst p) a) l -> Forall (fun p => In (fst p) (a ++ b)) l).
  { intros a b l H. eapply Forall_impl; [|exact H]. intros p Hp. apply in_or_app. auto. }
  assert (W' : forall a b (l : captures), Forall (fun p => In (fst p) b) l -> Forall (fun p => In (fst p) (a ++ b)) l).
  { intros a b l H. eapply Forall_impl; [|exact H]. intros p Hp. apply in_or_app. auto. }
  induction r as [|cs|a IHa b IHb|a IHa b IHb|a IHa|a IHa|i a IHa| |]; intros u k H; cbn [gen cap_keys] in *; try contradiction.
  - destruct H as (_ & ->). constructor.
  - destruct H as (c & _ & _ & ->). constructor.
  - destruct H as (u1 & k1 & u2 & k2 & Ga & Gb & _ & ->). apply Forall_app. split; [apply W'|apply W]; eauto.
  - destruct H as [H|H]; [apply W|apply W']; eauto.
  - destruct H as [H|(_ & ->)]; [eauto|constructor].
  - induction H as [|u k v l Gu _ _ IH]; [constructor|]. apply Forall_app. split; [assumption|eauto].
  - destruct H as (k1 & G & ->). constructor; [left; reflexivity|]. eapply Forall_impl; [|eapply IHa; exact G]. intros p Hp. right. exact Hp.
Qed.
Lemma cap_get_none i (k l : captures) : Forall (fun p => fst p <> i) k -> cap_get i (k ++ l) = cap_get i l.
Proof.
  intro H. induction H as [|(j & s) k Hj _ IH]; [reflexivity|]. cbn [app cap_get]. cbn [fst] in Hj.
  replace (Nat.eqb i j) with false; [exact IH|]. symmetry. apply Nat.eqb_neq. congruence.
Qed.
Lemma cap_get_skip r u k i l : gen r u k -> existsb (Nat.eqb i) (cap_keys r) = false -> cap_get i (k ++ l) = cap_get i l.
Proof.
  intros G Hi. apply cap_get_none. eapply Forall_impl; [|exact (gen_keys _ _ _ G)]. intros p Hp E. subst i.
  assert (Q : existsb (Nat.eqb (fst p)) (cap_keys r) = true) by (apply existsb_exists; exists (fst p); split; [exact Hp|apply Nat.eqb_refl]).
  congruence.
Qed.
(** Bytes. *)
Lemma gen_bytes r : plain r = true -> forall u k, gen r u k -> all_in (bytes r) u.
Proof.
  intros Hp u k H. assert (R : run r (mkm false u []) (mkm false [] (k ++ []))).
  { apply (run_gen _ Hp). exists u, k. cbn. rewrite app_nil_r. destruct u; auto. }
  destruct (run_consumes _ _ _ R) as (v & E & A). cbn in E. rewrite app_nil_r in E. subst. exact A.
Qed.
(** Repetitions of a class. *)
Lemma gen_star_set cs u k : gen (RStar (RSet cs)) u k <-> all_in cs u /\ k = [].
Proof.
  cbn [gen]. split.
  - intro H. induction H as [|u k v l (c & -> & Hc & ->) _ _ (A & ->)]; [split; [constructor|reflexivity]|].
    split; [constructor; assumption|reflexivity].
  - intros (A & ->). induction A as [|c u Hc _ IH]; [constructor|]. change (c :: u) with ([c] ++ u). change (@nil (nat * str)) with (@nil (nat * str) ++ []).
    constructor; [eauto|discriminate|exact IH].
Qed.
