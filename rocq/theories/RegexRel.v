(** The matcher as a relation: [run r st st'] holds when matching [r] from [st]
    can end in [st'].  Used for the expressions with repetitions. *)
From Coq Require Import Ascii String ZArith NArith Bool Lia List.
From Verif Require Import GoStr Regex RegexSym.
Import ListNotations.
Open Scope Z_scope.

Inductive stars (R : mst -> mst -> Prop) : mst -> mst -> Prop :=
| st_refl st : stars R st st
| st_step st m st' : R st m -> stars R m st' -> stars R st st'.

Fixpoint run (r : re) (st st' : mst) : Prop :=
  match r with
  | REps => st' = st
  | RSet cs => exists c t, m_rest st = c :: t /\ in_set cs c = true /\ st' = mkm false t (m_caps st)
  | RSeq a b => exists m, run a st m /\ run b m st'
  | RAlt a b => run a st st' \/ run b st st'
  | ROpt a => run a st st' \/ st' = st
  | RStar a => stars (fun x y => run a x y /\ (length (m_rest y) < length (m_rest x))%nat) st st'
  | RCap i a => exists m, run a st m /\ st' = mkm (m_bot m) (m_rest m) ((i, taken (m_rest st) (m_rest m)) :: m_caps m)
  | RBegin => m_bot st = true /\ st' = st
  | REnd => m_rest st = [] /\ st' = st
  end.

Theorem in_mt r : forall st st', In st' (mt r st) <-> run r st st'.
Proof.
  induction r as [|cs|a IHa b IHb|a IHa b IHb|a IHa|a IHa|i a IHa| |]; intros st st'; cbn [run].
  - cbn. split; [intros [->|[]]; reflexivity|auto].
  - cbn [mt]. destruct (m_rest st) as [|c t] eqn:E.
    + split; [intros []|intros (c & t & H & _); discriminate].
    + destruct (in_set cs c) eqn:Ec; split.
      * intros [<-|[]]. exists c, t. auto.
      * intros (c' & t' & H & _ & ->). injection H as -> ->. left. reflexivity.
      * intros [].
      * intros (c' & t' & H & H1 & ->). injection H as -> ->. congruence.
  - cbn [mt]. rewrite in_flat_map. split; intros (m & H1 & H2); exists m; rewrite IHa, IHb in *; auto.
  - cbn [mt]. rewrite in_app_iff, IHa, IHb. reflexivity.
  - cbn [mt]. rewrite in_app_iff, IHa. cbn [In]. split; [intros [H|[->|[]]]; auto|intros [H| ->]; auto].
  - change (mt (RStar a) st) with ((fix star (n : nat) (st : mst) {struct n} : list mst :=
         match n with
         | O => [st]
         | S k => flat_map (fun st' => if Nat.ltb (length (m_rest st')) (length (m_rest st))
                                       then star k st' else []) (mt a st) ++ [st]
         end) (length (m_rest st)) st).
    set (star := fix star (n : nat) (st : mst) {struct n} : list mst := _).
    assert (G : forall n st st', (length (m_rest st) <= n)%nat -> In st' (star n st) <->
       stars (fun x y => run a x y /\ (length (m_rest y) < length (m_rest x))%nat) st st').
    { induction n as [|n IH]; intros x y Hn; cbn [star].
      - split.
        + intros [<-|[]]. constructor.
        + intro H. inversion H as [|? m ? (Hr & Hl) Hs]; subst; [left; reflexivity|lia].
      - rewrite in_app_iff, in_flat_map. split.
        + intros [(m & Hm & H)|[<-|[]]]; [|constructor].
          destruct (Nat.ltb _ _) eqn:E; [|destruct H]. apply Nat.ltb_lt in E.
          apply IH in H; [|lia]. econstructor; [|exact H]. split; [apply IHa; exact Hm|exact E].
        + intro H. inversion H as [|? m ? (Hr & Hl) Hs]; subst; [right; left; reflexivity|].
          left. exists m. split; [apply IHa; exact Hr|]. replace (Nat.ltb _ _) with true by (symmetry; apply Nat.ltb_lt; exact Hl).
          apply IH; [lia|exact Hs]. }
    apply G. lia.
  - cbn [mt]. rewrite in_map_iff. split; intros (m & H1 & H2); exists m; rewrite IHa in *; auto.
  - cbn [mt]. destruct (m_bot st); cbn [In]; split.
    + intros [<-|[]]; auto.
    + intros (_ & ->); auto.
    + intros [].
    + intros (H & _); discriminate.
  - cbn [mt]. destruct (m_rest st); cbn [In]; split.
    + intros [<-|[]]; auto.
    + intros (_ & ->); auto.
    + intros [].
    + intros (H & _); discriminate.
Qed.

(** ** What a match consumes and captures *)
Lemma taken_app (u v : str) : taken (u ++ v) v = u.
Proof.
  unfold taken. rewrite app_length. replace (length u + length v - length v)%nat with (length u) by lia.
  rewrite firstn_app, Nat.sub_diag, firstn_all. apply app_nil_r.
Qed.

Fixpoint bytes (r : re) : cset :=
  match r with
  | RSet cs => cs
  | RSeq a b | RAlt a b => bytes a ++ bytes b
  | ROpt a | RStar a | RCap _ a => bytes a
  | _ => []
  end.
Definition all_in (cs : cset) (u : str) : Prop := Forall (fun c => in_set cs c = true) u.
Lemma all_in_app cs u v : all_in cs (u ++ v) <-> all_in cs u /\ all_in cs v.
Proof. apply Forall_app. Qed.
Lemma all_in_l a b u : all_in a u -> all_in (a ++ b) u.
Proof. intro H. eapply Forall_impl; [|exact H]. intros c Hc. cbn in Hc. rewrite in_set_app, Hc. reflexivity. Qed.
Lemma all_in_r a b u : all_in b u -> all_in (a ++ b) u.
Proof. intro H. eapply Forall_impl; [|exact H]. intros c Hc. cbn in Hc. rewrite in_set_app, Hc. apply orb_true_r. Qed.

Lemma run_consumes r : forall st st', run r st st' -> exists u, m_rest st = u ++ m_rest st' /\ all_in (bytes r) u.
Proof.
  induction r as [|cs|a IHa b IHb|a IHa b IHb|a IHa|a IHa|i a IHa| |]; intros st st' H; cbn [run bytes] in *.
  - subst. exists []. split; [reflexivity|constructor].
  - destruct H as (c & t & E & Hc & ->). exists [c]. split; [exact E|]. constructor; [exact Hc|constructor].
  - destruct H as (m & H1 & H2). destruct (IHa _ _ H1) as (u & E1 & A1). destruct (IHb _ _ H2) as (v & E2 & A2).
    exists (u ++ v). rewrite E1, E2, app_assoc. split; [reflexivity|]. apply all_in_app. split; [apply all_in_l|apply all_in_r]; assumption.
  - destruct H as [H|H].
    + destruct (IHa _ _ H) as (u & E & A). exists u. split; [exact E|apply all_in_l; exact A].
    + destruct (IHb _ _ H) as (u & E & A). exists u. split; [exact E|apply all_in_r; exact A].
  - destruct H as [H| ->]; [exact (IHa _ _ H)|]. exists []. split; [reflexivity|constructor].
  - induction H as [st|st m st' (H1 & _) _ (v & E2 & A2)].
    + exists []. split; [reflexivity|constructor].
    + destruct (IHa _ _ H1) as (u & E1 & A1). exists (u ++ v). rewrite E1, E2, app_assoc.
      split; [reflexivity|]. apply all_in_app. auto.
  - destruct H as (m & H1 & ->). exact (IHa _ _ H1).
  - destruct H as (_ & ->). exists []. split; [reflexivity|constructor].
  - destruct H as (_ & ->). exists []. split; [reflexivity|constructor].
Qed.

(** Every capture set during a match is a string over the bytes of the expression. *)
Lemma run_captures r : forall st st', run r st st' -> exists l, m_caps st' = l ++ m_caps st /\
  Forall (fun p => all_in (bytes r) (snd p)) l.
Proof.
  assert (W : forall a b (l : list (nat * str)), Forall (fun p => all_in a (snd p)) l -> Forall (fun p => all_in (a ++ b) (snd p)) l).
  { intros a b l H. eapply Forall_impl; [|exact H]. intros p Hp. apply all_in_l. exact Hp. }
  assert (W' : forall a b (l : list (nat * str)), Forall (fun p => all_in b (snd p)) l -> Forall (fun p => all_in (a ++ b) (snd p)) l).
  { intros a b l H. eapply Forall_impl; [|exact H]. intros p Hp. apply all_in_r. exact Hp. }
  induction r as [|cs|a IHa b IHb|a IHa b IHb|a IHa|a IHa|i a IHa| |]; intros st st' H; pose proof H as H0; cbn [run bytes] in *.
  - subst. exists []. split; [reflexivity|constructor].
  - destruct H as (c & t & E & Hc & ->). exists []. split; [reflexivity|constructor].
  - destruct H as (m & H1 & H2). destruct (IHa _ _ H1) as (u & E1 & A1). destruct (IHb _ _ H2) as (v & E2 & A2).
    exists (v ++ u). rewrite E2, E1, app_assoc. split; [reflexivity|]. apply Forall_app. auto.
  - destruct H as [H|H].
    + destruct (IHa _ _ H) as (u & E & A). exists u. auto.
    + destruct (IHb _ _ H) as (u & E & A). exists u. auto.
  - destruct H as [H| ->]; [exact (IHa _ _ H)|]. exists []. split; [reflexivity|constructor].
  - clear H0. induction H as [st|st m st' (H1 & _) _ (v & E2 & A2)].
    + exists []. split; [reflexivity|constructor].
    + destruct (IHa _ _ H1) as (u & E1 & A1). exists (v ++ u). rewrite E2, E1, app_assoc.
      split; [reflexivity|]. apply Forall_app. auto.
  - destruct H as (m & H1 & ->). destruct (IHa _ _ H1) as (u & E & A). cbn [m_caps].
    exists ((i, taken (m_rest st) (m_rest m)) :: u). rewrite E. split; [reflexivity|]. constructor; [|exact A].
    destruct (run_consumes _ _ _ H1) as (v & Ev & Av). cbn [snd]. rewrite Ev, taken_app. exact Av.
  - destruct H as (_ & ->). exists []. split; [reflexivity|constructor].
  - destruct H as (_ & ->). exists []. split; [reflexivity|constructor].
Qed.

(** ** Results of the search *)
Definition outcome (r : regexp) (s : str) (st : mst) : list str :=
  taken s (m_rest st) :: map (fun i => cap_get i (m_caps st)) (seq 1 (re_ncap r)).

Lemma find_run r : forall bot s m caps, find_from r bot s = Some (m, caps) ->
  exists p q st, s = p ++ q /\ run r (mkm (match p with [] => bot | _ => false end) q []) st /\ m = taken q (m_rest st) /\ caps = m_caps st.
Proof.
  intros bot s. revert bot. induction s as [|c s IH]; intros bot m caps H; cbn [find_from] in H.
  - destruct (mt r (mkm bot [] [])) as [|st l] eqn:E; [discriminate|]. injection H as <- <-.
    exists [], [], st. split; [reflexivity|]. split; [apply in_mt; rewrite E; left; reflexivity|]. auto.
  - destruct (mt r (mkm bot (c :: s) [])) as [|st l] eqn:E.
    + destruct (IH _ _ _ H) as (p & q & st & -> & Hr & Hm & Hc). exists (c :: p), q, st.
      split; [reflexivity|]. split; [|auto]. destruct p; exact Hr.
    + injection H as <- <-. exists [], (c :: s), st.
      split; [reflexivity|]. split; [apply in_mt; rewrite E; left; reflexivity|]. auto.
Qed.
Lemma submatch_run r s : find_submatch r s <> [] -> exists p q st, s = p ++ q /\
  run (re_body r) (mkm (match p with [] => true | _ => false end) q []) st /\ find_submatch r s = outcome r q st.
Proof.
  unfold find_submatch. intro H. destruct (find_from (re_body r) true s) as [(m & caps)|] eqn:E; [|congruence].
  destruct (find_run _ _ _ _ _ E) as (p & q & st & -> & Hr & -> & ->). exists p, q, st. auto.
Qed.
Lemma begins_run r st st' : begins r = true -> run r st st' -> m_bot st = true.
Proof.
  intros Hb H. destruct st as [bot rest caps]. destruct bot; [reflexivity|].
  apply in_mt in H. rewrite begins_mt in H by exact Hb. destruct H.
Qed.
Lemma submatch_begins r s : begins (re_body r) = true -> find_submatch r s <> [] ->
  exists st, run (re_body r) (mkm true s []) st /\ find_submatch r s = outcome r s st.
Proof.
  intros Hb H. destruct (submatch_run _ _ H) as (p & q & st & -> & Hr & E). pose proof (begins_run _ _ _ Hb Hr) as B.
  destruct p; [|discriminate]. exists st. auto.
Qed.
Lemma begins_submatch r s st : begins (re_body r) = true -> run (re_body r) (mkm true s []) st -> find_submatch r s <> [].
Proof.
  intros Hb H. unfold find_submatch. rewrite begins_find_true by exact Hb. apply in_mt in H.
  destruct (mt (re_body r) (mkm true s [])); [destruct H|]. discriminate.
Qed.
Lemma match_iff r s : match_string r s = true <-> find_submatch r s <> [].
Proof. unfold match_string, find_submatch. destruct (find_from _ _ _) as [(m & caps)|]; split; congruence. Qed.
Lemma match_begins r s : begins (re_body r) = true ->
  (match_string r s = true <-> exists st, run (re_body r) (mkm true s []) st).
Proof.
  intro Hb. rewrite match_iff. split.
  - intro H. destruct (submatch_begins _ _ Hb H) as (st & Hr & _). eauto.
  - intros (st & H). eapply begins_submatch; eassumption.
Qed.
(** If all runs capture the same, that is the answer. *)
Lemma submatch_unique r s out : begins (re_body r) = true -> (exists st, run (re_body r) (mkm true s []) st) ->
  (forall st, run (re_body r) (mkm true s []) st -> outcome r s st = out) -> find_submatch r s = out.
Proof.
  intros Hb (st & H) Hu. destruct (submatch_begins _ _ Hb (begins_submatch _ _ _ Hb H)) as (st' & H' & ->). auto.
Qed.
Lemma submatch_length r s : find_submatch r s <> [] -> length (find_submatch r s) = S (re_ncap r).
Proof.
  unfold find_submatch. destruct (find_from _ _ _) as [(m & caps)|]; [|congruence]. intros _.
  cbn [length]. rewrite map_length, seq_length. reflexivity.
Qed.
Lemma cap_get_in i l : cap_get i l = [] \/ exists s, In (i, s) l /\ cap_get i l = s.
Proof.
  induction l as [|(j & s) l IH]; cbn [cap_get]; [auto|]. destruct (Nat.eqb i j) eqn:E.
  - right. apply Nat.eqb_eq in E. subst. exists s. split; [left; reflexivity|reflexivity].
  - destruct IH as [IH|(s' & H & IH)]; [auto|]. right. exists s'. split; [right; exact H|exact IH].
Qed.
(** Submatches only contain bytes of the expression. *)
Lemma submatch_bytes r s t : In t (find_submatch r s) -> all_in (bytes (re_body r)) t.
Proof.
  intro H. destruct (submatch_run r s) as (p & q & st & -> & Hr & E); [intro E; rewrite E in H; destruct H|].
  rewrite E in H. destruct H as [<-|H].
  - destruct (run_consumes _ _ _ Hr) as (u & Eu & Au). cbn [m_rest] in Eu. rewrite Eu, taken_app. exact Au.
  - apply in_map_iff in H. destruct H as (i & <- & _).
    destruct (run_captures _ _ _ Hr) as (l & El & Al). cbn [m_caps] in El. rewrite app_nil_r in El.
    destruct (cap_get_in i (m_caps st)) as [->|(s' & Hin & ->)]; [constructor|].
    rewrite El in Hin. rewrite Forall_forall in Al. exact (Al _ Hin).
Qed.

(** ** Repetition of one class *)
Lemma stars_set cs st st' : run (RStar (RSet cs)) st st' <->
  exists u, all_in cs u /\ m_rest st = u ++ m_rest st' /\ m_caps st' = m_caps st /\
    m_bot st' = match u with [] => m_bot st | _ => false end.
Proof.
  cbn [run]. split.
  - intro H. induction H as [st|st m st' ((c & t & E & Hc & ->) & _) _ (u & Au & Eu & Ec & Eb)].
    + exists []. repeat split; constructor.
    + exists (c :: u). split; [constructor; assumption|]. cbn [m_rest m_caps m_bot] in *. rewrite E, Eu.
      split; [reflexivity|]. split; [exact Ec|]. rewrite Eb. destruct u; reflexivity.
  - intros (u & Au & Eu & Ec & Eb). revert st Au Eu Ec Eb. induction u as [|c u IH]; intros st Au Eu Ec Eb.
    + destruct st as [b r k], st' as [b' r' k']. cbn in *. subst. constructor.
    + inversion Au as [|? ? Hc Au']; subst. apply st_step with (m := mkm false (u ++ m_rest st') (m_caps st)).
      * split; [exists c, (u ++ m_rest st'); auto|]. cbn [m_rest]. rewrite Eu. cbn [app length]. lia.
      * apply IH; [exact Au'|reflexivity|exact Ec|]. cbn [m_bot]. rewrite Eb. destruct u; reflexivity.
Qed.
