(** strings.Split in general. *)
From Coq Require Import Ascii String ZArith NArith Bool Lia ZifyBool List.
From Verif Require Import GoStr SpecCal SpecText StrFacts.
Import ListNotations.

Lemma has_prefix_spec s p : has_prefix s p = true <-> exists r, s = p ++ r.
Proof.
  revert s. induction p as [|c p IH]; intro s; cbn [has_prefix app].
  - split; [eauto|destruct s; reflexivity].
  - destruct s as [|d s]; [split; [discriminate|intros (r & H); discriminate]|].
    cbn [has_prefix]. rewrite andb_true_iff, Ascii.eqb_eq, IH. split.
    + intros (-> & r & ->). eauto.
    + intros (r & H). injection H as -> ->. eauto.
Qed.
Lemma split_skip sep : forall n s cur, split_aux sep s cur n = split_aux sep (skipn n s) cur 0.
Proof.
  induction n as [|n IH]; intros [|c s] cur; cbn [split_aux skipn]; try reflexivity. apply IH.
Qed.
Lemma split_step sep s cur : sep <> [] -> has_prefix s sep = true ->
  split_aux sep s cur 0 = rev cur :: split_aux sep (skipn (length sep) s) [] 0.
Proof.
  intros Hs Hp. destruct s as [|c s]; [destruct sep; [congruence|discriminate]|].
  cbn [split_aux]. rewrite Hp. f_equal. destruct sep as [|e sep]; [congruence|]. cbn [length pred skipn]. apply split_skip.
Qed.
Lemma joined_cons sep x l : l <> [] -> joined sep (x :: l) = x ++ sep ++ joined sep l.
Proof. destruct l; [congruence|reflexivity]. Qed.
Lemma split_aux_nonempty sep : forall s cur n, split_aux sep s cur n <> [].
Proof.
  induction s as [|c s IH]; intros cur n; cbn [split_aux]; [discriminate|].
  destruct n; [|apply IH]. destruct (has_prefix _ _); [discriminate|apply IH].
Qed.
Lemma split_aux_joined sep : sep <> [] -> forall n s cur, (length s <= n)%nat -> joined sep (split_aux sep s cur 0) = rev cur ++ s.
Proof.
  intro Hs. induction n as [|n IH]; intros s cur Hn.
  - destruct s; [|cbn in Hn; lia]. cbn. rewrite app_nil_r. reflexivity.
  - destruct (has_prefix s sep) eqn:E.
    + rewrite split_step by assumption. rewrite joined_cons by apply split_aux_nonempty.
      apply has_prefix_spec in E. destruct E as (r & ->).
      rewrite skipn_app, skipn_all, Nat.sub_diag. cbn [skipn app]. rewrite IH; [reflexivity|].
      rewrite app_length in Hn. destruct sep; [congruence|]. cbn [length] in Hn. lia.
    + destruct s as [|c s]; [cbn; rewrite app_nil_r; reflexivity|]. cbn [split_aux]. rewrite E.
      rewrite IH by (cbn [length] in Hn; lia). cbn [rev]. rewrite <- app_assoc. reflexivity.
Qed.
Lemma split_joined s sep : sep <> [] -> joined sep (split s sep) = s.
Proof. intro H. unfold split. rewrite (split_aux_joined sep H (length s)) by lia. reflexivity. Qed.

(** No piece contains the separator. *)
Lemma split_aux_free sep : sep <> [] -> forall n s cur, (length s <= n)%nat ->
  (forall u v, rev cur = u ++ v -> v <> [] -> has_prefix (v ++ s) sep = false) ->
  Forall (fun p => ~ occurs sep p) (split_aux sep s cur 0).
Proof.
  intro Hs.
  assert (C : forall cur s, (forall u v, rev cur = u ++ v -> v <> [] -> has_prefix (v ++ s) sep = false) -> ~ occurs sep (rev cur)).
  { intros cur s H (a & b & E). specialize (H a (sep ++ b) E). assert (sep ++ b <> []) as N by (destruct sep; [congruence|discriminate]).
    specialize (H N). assert (has_prefix ((sep ++ b) ++ s) sep = true) as Q; [|congruence].
    apply has_prefix_spec. exists (b ++ s). rewrite app_assoc. reflexivity. }
  induction n as [|n IH]; intros s cur Hn Hc.
  - destruct s; [|cbn in Hn; lia]. cbn. constructor; [exact (C _ _ Hc)|constructor].
  - destruct (has_prefix s sep) eqn:E.
    + rewrite split_step by assumption. constructor; [exact (C _ _ Hc)|].
      apply IH.
      * rewrite skipn_length. destruct sep; [congruence|]. destruct s; [discriminate E|]. cbn [length] in *. lia.
      * intros u v H. cbn in H. destruct u, v; try discriminate. congruence.
    + destruct s as [|c s]; [cbn; constructor; [exact (C _ _ Hc)|constructor]|]. cbn [split_aux]. rewrite E.
      apply IH; [cbn [length] in Hn; lia|]. intros u v H Hv. cbn [rev] in H.
      destruct (exists_last Hv) as (w & e & ->). rewrite app_assoc in H. apply app_inj_tail in H. destruct H as (H & <-).
      rewrite <- app_assoc. cbn [app]. destruct w as [|w0 w]; [exact E|]. apply (Hc u (w0 :: w)); [exact H|discriminate].
Qed.
Lemma split_free s sep : sep <> [] -> Forall (fun p => ~ occurs sep p) (split s sep).
Proof.
  intro H. unfold split. apply (split_aux_free sep H (length s)); [lia|]. intros u v E. cbn in E. destruct u, v; try discriminate. congruence.
Qed.
Lemma split_single s sep : sep <> [] -> forall x, split s sep = [x] -> x = s /\ ~ occurs sep s.
Proof.
  intros H x E. pose proof (split_joined s sep H) as J. pose proof (split_free s sep H) as F. rewrite E in J, F. cbn in J. subst x.
  inversion F; subst. auto.
Qed.
Lemma split_pair s sep : sep <> [] -> forall a b, split s sep = [a; b] -> s = a ++ sep ++ b /\ ~ occurs sep a /\ ~ occurs sep b.
Proof.
  intros H a b E. pose proof (split_joined s sep H) as J. pose proof (split_free s sep H) as F. rewrite E in J, F. cbn in J.
  inversion F as [|? ? F1 F2]; subst. inversion F2; subst. auto.
Qed.
Lemma split_not s sep : sep <> [] -> ~ occurs sep s -> split s sep = [s].
Proof.
  intros H N. pose proof (split_joined s sep H) as J. destruct (split s sep) as [|a [|b l]] eqn:E.
  - exfalso. exact (split_aux_nonempty sep s [] 0 E).
  - cbn in J. subst. reflexivity.
  - exfalso. apply N. rewrite <- J. exists a, (joined sep (b :: l)). reflexivity.
Qed.

(** One byte separators. *)
Lemma occurs_1 c s : occurs [c] s <-> In c s.
Proof.
  split.
  - intros (a & b & ->). apply in_or_app. right. left. reflexivity.
  - intro H. apply in_split in H. destruct H as (a & b & ->). exists a, b. reflexivity.
Qed.
Lemma split_of_joined c l : l <> [] -> Forall (fun p => ~ In c p) l -> split (joined [c] l) [c] = l.
Proof.
  intros Hl H. induction H as [|x l Hx H IH]; [congruence|]. destruct l as [|y l].
  - cbn [joined]. apply split_none. exact Hx.
  - rewrite joined_cons by discriminate. cbn [app]. rewrite split_one by exact Hx. rewrite IH by discriminate. reflexivity.
Qed.
