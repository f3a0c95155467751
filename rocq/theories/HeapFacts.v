(** Lists as memories, and running the two models side by side. *)
From Coq Require Import Ascii String ZArith NArith Bool Lia List.
From Verif Require Import GoStr GoTime Edtf Common Heap SpecHeap.
Import ListNotations.

Lemma nth_app_k {A} (l l2 : list A) k : nth_error (l ++ l2) (length l + k) = nth_error l2 k.
Proof. rewrite nth_error_app2 by lia. f_equal. lia. Qed.
Lemma nth_app_0 {A} (l l2 : list A) : nth_error (l ++ l2) (length l) = nth_error l2 0.
Proof. rewrite nth_error_app2 by lia. f_equal. lia. Qed.
Lemma update_app_k {A} (l l2 : list A) k c : update (l ++ l2) (length l + k) c = l ++ update l2 k c.
Proof. induction l as [|x l IH]; [reflexivity|]. cbn [app length Nat.add update]. now rewrite IH. Qed.
Lemma update_app_0 {A} (l l2 : list A) c : update (l ++ l2) (length l) c = l ++ update l2 0 c.
Proof. rewrite <- (update_app_k l l2 0 c). f_equal. lia. Qed.
Lemma update_other {A} (l : list A) : forall a b c, a <> b -> nth_error (update l a c) b = nth_error l b.
Proof.
  induction l as [|x l IH]; intros a b c N; [reflexivity|].
  destruct a as [|a], b as [|b]; cbn [update nth_error]; try reflexivity; [lia|]. apply IH. lia.
Qed.
Lemma update_here {A} (l : list A) : forall a c v, nth_error l a = Some v -> nth_error (update l a c) a = Some c.
Proof.
  induction l as [|x l IH]; intros [|a] c v E; cbn [update nth_error] in *; try discriminate; [reflexivity|]. exact (IH a c v E).
Qed.

Lemma keeps_refl {A} (l : list A) : keeps l l.
Proof. intros a v E. exact E. Qed.
Lemma keeps_trans {A} (l1 l2 l3 : list A) : keeps l1 l2 -> keeps l2 l3 -> keeps l1 l3.
Proof. intros H K a v E. apply K, H, E. Qed.
Lemma keeps_app {A} (l l2 : list A) : keeps l (l ++ l2).
Proof. intros a v E. rewrite nth_error_app1; [exact E|]. apply nth_error_Some. congruence. Qed.
Lemma keeps_length {A} (l l' : list A) : keeps l l' -> (length l <= length l')%nat.
Proof.
  intro K. destruct (Compare_dec.le_lt_dec (length l) (length l')) as [|L]; [assumption|].
  destruct (nth_error l (length l')) as [v|] eqn:E.
  - apply K in E. assert (nth_error l' (length l') = None) by (apply nth_error_None; lia). congruence.
  - apply nth_error_None in E. lia.
Qed.
Lemma keeps_update {A} (l l' : list A) a c : keeps l l' -> (length l <= a)%nat -> keeps l (update l' a c).
Proof.
  intros K L b v E. assert (b < length l)%nat by (apply nth_error_Some; congruence).
  rewrite update_other by lia. exact (K b v E).
Qed.

Lemma extends_refl h : extends h h.
Proof. repeat split; apply keeps_refl. Qed.
Lemma extends_trans h1 h2 h3 : extends h1 h2 -> extends h2 h3 -> extends h1 h3.
Proof. intros (A & B & C) (D & E & F). repeat split; eapply keeps_trans; eassumption. Qed.
Lemma extends_app h ys ds rs : extends h (mkHeap (h_ymds h ++ ys) (h_dates h ++ ds) (h_ranges h ++ rs)).
Proof. repeat split; apply keeps_app. Qed.
Lemma extends_app_y h ys : extends h (mkHeap (h_ymds h ++ ys) (h_dates h) (h_ranges h)).
Proof. repeat split; [apply keeps_app|apply keeps_refl|apply keeps_refl]. Qed.

(** Reading is kept. *)
Lemma read_date_keeps h h' a d : keeps (h_ymds h) (h_ymds h') -> keeps (h_dates h) (h_dates h') -> read_date h a = Some d -> read_date h' a = Some d.
Proof.
  intros Y D. unfold read_date. destruct (nth_error (h_dates h) a) as [c|] eqn:E; [|discriminate]. rewrite (D a c E).
  destruct (hd_ymd c) as [y|]; cbn [read_ymd]; [|tauto].
  destruct (nth_error (h_ymds h) y) as [v|] eqn:F; [|discriminate]. now rewrite (Y y v F).
Qed.
Lemma read_range_keeps h h' r v : extends h h' -> read_range h r = Some v -> read_range h' r = Some v.
Proof.
  intros (Y & D & R). unfold read_range. destruct (nth_error (h_ranges h) r) as [c|] eqn:E; [|discriminate]. rewrite (R r c E).
  destruct (read_date h (hr_lower c)) as [l|] eqn:F; [|discriminate]. destruct (read_date h (hr_upper c)) as [u|] eqn:G; [|discriminate].
  now rewrite (read_date_keeps h h' _ _ Y D F), (read_date_keeps h h' _ _ Y D G).
Qed.
Lemma read_edtf_keeps h h' x d : extends h h' -> read_edtf h x = Some d -> read_edtf h' x = Some d.
Proof.
  intros X. unfold read_edtf. destruct (read_range h (he_start x)) as [s|] eqn:E; [|discriminate].
  destruct (read_range h (he_end x)) as [e|] eqn:F; [|discriminate].
  now rewrite (read_range_keeps _ _ _ _ X E), (read_range_keeps _ _ _ _ X F).
Qed.

(** [m], started in [h], does what [p] says, keeps [h0], and a value of it is as [Q] says. *)
Definition sim {A V} (h0 h : heap) (m : M A) (p : res V) (Q : A -> heap -> V -> Prop) : Prop :=
  let (r, h') := m h in
  extends h0 h' /\
  match r with
  | OK a => exists v, p = OK v /\ Q a h' v
  | Err e => p = Err e
  | Panic => p = Panic
  end.

Lemma sim_ret {A V} h0 h (a : A) (v : V) (Q : A -> heap -> V -> Prop) : extends h0 h -> Q a h v -> sim h0 h (ret a) (OK v) Q.
Proof. intros X q. split; [exact X|]. exists v. split; [reflexivity|exact q]. Qed.
Lemma sim_err {A V} h0 h e (Q : A -> heap -> V -> Prop) : extends h0 h -> sim h0 h (lift (Err e)) (Err e) Q.
Proof. intro X. split; [exact X|reflexivity]. Qed.
Lemma sim_panic {A V} h0 h (Q : A -> heap -> V -> Prop) : extends h0 h -> sim h0 h (lift Panic) (@Panic V) Q.
Proof. intro X. split; [exact X|reflexivity]. Qed.
Lemma sim_bind {A B V W} h0 h (m : M A) (k : A -> M B) (p : res V) (q : V -> res W) Q R :
  sim h0 h m p Q -> (forall a h' v, extends h0 h' -> Q a h' v -> sim h0 h' (k a) (q v) R) -> sim h0 h (mbind m k) (bind p q) R.
Proof.
  unfold sim, mbind. destruct (m h) as ([a|e|], h'); intros (X & H) K.
  - destruct H as (v & -> & q'). exact (K a h' v X q').
  - subst p. split; [exact X|reflexivity].
  - subst p. split; [exact X|reflexivity].
Qed.
Lemma sim_lift {A B W} h0 h (x : res A) (k : A -> M B) (q : A -> res W) R :
  extends h0 h -> (forall a, sim h0 h (k a) (q a) R) -> sim h0 h (mbind (lift x) k) (bind x q) R.
Proof. intros X K. destruct x as [a|e|]; [exact (K a)|split; [exact X|reflexivity]|split; [exact X|reflexivity]]. Qed.
Lemma sim_imp {A V} h0 h (m : M A) (p : res V) (Q R : A -> heap -> V -> Prop) :
  sim h0 h m p Q -> (forall a h' v, extends h0 h' -> Q a h' v -> R a h' v) -> sim h0 h m p R.
Proof.
  unfold sim. destruct (m h) as ([a|e|], h'); intros (X & H) K; (split; [exact X|]); [|exact H|exact H].
  destruct H as (v & E & q). exists v. split; [exact E|exact (K a h' v X q)].
Qed.
Lemma sim_base {A V} h0 h (m : M A) (p : res V) (Q : A -> heap -> V -> Prop) :
  extends h0 h -> sim h h m p Q -> sim h0 h m p (fun a h' v => extends h h' /\ Q a h' v).
Proof.
  unfold sim. intro X. destruct (m h) as ([a|e|], h'); intros (Y & H); (split; [exact (extends_trans _ _ _ X Y)|]); [|exact H|exact H].
  destruct H as (v & E & q). exists v. split; [exact E|split; [exact Y|exact q]].
Qed.
Lemma sim_step {A B W} h0 h (m : M A) (k : A -> M B) a h' (p : res W) R :
  m h = (OK a, h') -> sim h0 h' (k a) p R -> sim h0 h (mbind m k) p R.
Proof. intros E H. unfold sim, mbind. rewrite E. exact H. Qed.
