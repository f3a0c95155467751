(** C77 for sets: the assignments that open a set, and those of Inclusivity. *)
From Coq Require Import Ascii String ZArith NArith Bool Lia List.
From Verif Require Import GoStr GoTime Regex Patterns Edtf Calendar Common Level0 Level1 Level2 Parser Heap SpecHeap HeapFacts HeapProofs.
Import ListNotations.
Open Scope Z_scope.

(** ** Inclusivity *)
Definition incl_cell (c : hdate) (i : N) : hdate :=
  mkHDate (hd_datetime c) (hd_timestamp c) (hd_ymd c) (hd_uncertain c) (hd_approximate c) (hd_unspecified c) (hd_precision c) (hd_open c) (hd_unknown c) i.
Definition incl_at (h : heap) (a : nat) (i : N) : heap :=
  match nth_error (h_dates h) a with
  | Some c => mkHeap (h_ymds h) (update (h_dates h) a (incl_cell c i)) (h_ranges h)
  | None => h
  end.
Lemma incl_run h a i d : read_date h a = Some d -> assign_inclusivity a i h = (OK tt, incl_at h a i).
Proof.
  intro R. destruct (read_date_cell _ _ _ R) as (c & E & _). unfold assign_inclusivity, mbind, get_date, put_date, incl_at. rewrite E. reflexivity.
Qed.
Lemma incl_ranges h a i : h_ranges (incl_at h a i) = h_ranges h.
Proof. unfold incl_at. destruct (nth_error (h_dates h) a); reflexivity. Qed.
Lemma incl_ymds h a i : h_ymds (incl_at h a i) = h_ymds h.
Proof. unfold incl_at. destruct (nth_error (h_dates h) a); reflexivity. Qed.
Lemma incl_cells h a i b c : nth_error (h_dates (incl_at h a i)) b = Some c -> exists c0, nth_error (h_dates h) b = Some c0 /\ hd_ymd c = hd_ymd c0.
Proof.
  unfold incl_at. destruct (nth_error (h_dates h) a) as [c1|] eqn:E; [|intro F; eauto]. cbn [h_dates].
  destruct (Nat.eq_dec a b) as [<-|N]; [|rewrite update_other by exact N; eauto].
  rewrite (update_here _ _ _ _ E). intros [= <-]. exists c1. split; [exact E|reflexivity].
Qed.
Lemma incl_other h a i b : a <> b -> read_date (incl_at h a i) b = read_date h b.
Proof. intro N. unfold read_date, incl_at. destruct (nth_error (h_dates h) a); [|reflexivity]. cbn [h_dates]. now rewrite update_other by exact N. Qed.
Lemma incl_here h a i d : read_date h a = Some d -> read_date (incl_at h a i) a = Some (set_inclusivity d i).
Proof.
  unfold read_date, incl_at. destruct (nth_error (h_dates h) a) as [c|] eqn:E; [|discriminate]. cbn [h_dates].
  rewrite (update_here _ _ _ _ E). cbn [incl_cell hd_ymd]. change (read_ymd (mkHeap (h_ymds h) (update (h_dates h) a (incl_cell c i)) (h_ranges h)) (hd_ymd c)) with (read_ymd h (hd_ymd c)).
  destruct (read_ymd h (hd_ymd c)) as [y|]; [|discriminate]. intros [= <-]. reflexivity.
Qed.
Lemma incl_new h h' a i : new_ymds h h' -> new_ymds h (incl_at h' a i).
Proof. intros N b c y L E Y. destruct (incl_cells _ _ _ _ _ E) as (c0 & E0 & F). rewrite F in Y. exact (N b c0 y L E0 Y). Qed.
Lemma incl_apart h a i b c : apart h b c -> apart (incl_at h a i) b c.
Proof.
  intros A x z y E F Y Z. destruct (incl_cells _ _ _ _ _ E) as (x0 & E0 & Ex). destruct (incl_cells _ _ _ _ _ F) as (z0 & F0 & Ez).
  rewrite Ex in Y. rewrite Ez in Z. exact (A x0 z0 y E0 F0 Y Z).
Qed.
Lemma incl_extends h h' a i : extends h h' -> (length (h_dates h) <= a)%nat -> extends h (incl_at h' a i).
Proof.
  intros (A & B & C) L. unfold incl_at. destruct (nth_error (h_dates h') a); [|repeat split; assumption].
  repeat split; [exact A| |exact C]. apply keeps_update; assumption.
Qed.

Definition incl_range (r : daterange) (i : N) : daterange := mkRange (r_edtf r) (set_inclusivity (r_lower r) i) (set_inclusivity (r_upper r) i).
Lemma include_run h r e a b i da db : a <> b -> nth_error (h_ranges h) r = Some (mkHRange e a b) -> read_date h a = Some da -> read_date h b = Some db ->
  include r i h = (OK tt, incl_at (incl_at h a i) b i).
Proof.
  intros N R A B. unfold include, mbind. rewrite (get_range_run _ _ _ R). cbn [hr_lower hr_upper].
  rewrite (incl_run _ _ _ _ A). rewrite (get_range_run _ _ (mkHRange e a b)) by (rewrite incl_ranges; exact R). cbn [hr_upper].
  rewrite (incl_run _ _ _ db) by (rewrite incl_other by exact N; exact B). reflexivity.
Qed.

Local Ltac four F Fa Fb Fc Fd := pose proof (Forall_inv F) as Fa; apply Forall_inv_tail in F; pose proof (Forall_inv F) as Fb; apply Forall_inv_tail in F;
  pose proof (Forall_inv F) as Fc; apply Forall_inv_tail in F; pose proof (Forall_inv F) as Fd; clear F; cbn beta in Fa, Fb, Fc, Fd.
Lemma distinct4 (a b c d : nat) : NoDup [a; b; c; d] -> a <> b /\ a <> c /\ a <> d /\ b <> c /\ b <> d /\ c <> d.
Proof.
  intro N. inversion N as [|? ? A N1]; subst. inversion N1 as [|? ? B N2]; subst. inversion N2 as [|? ? C _]; subst. cbn [In] in *.
  repeat split; intros ->; tauto.
Qed.

(* the assignments at set_representation.go:224-227 *)
Lemma include_start h sp h' v i : extends h h' -> made h sp h' v ->
  exists h2, include (hs_start sp) i h' = (OK tt, h2) /\ extends h h2 /\ made h sp h2 (mkSpan (incl_range (s_start v) i) (s_end v)).
Proof.
  intros X [a b c d S E Sn En Ne F D La Lb Lc Ld Y A1 A2 A3 A4]. four F Fa Fb Fc Fd. destruct (distinct4 _ _ _ _ D) as (ab & ac & ad & bc & bd & cd).
  eexists. split; [exact (include_run _ _ _ _ _ i _ _ ab S La Lb)|]. split; [apply incl_extends; [apply incl_extends; assumption|assumption]|].
  apply (made_intro h _ _ _ a b c d); rewrite ?incl_ranges; cbn [s_start s_end incl_range r_edtf r_lower r_upper]; try assumption.
  - repeat constructor; assumption.
  - rewrite incl_other by congruence. apply incl_here, La.
  - apply incl_here. rewrite incl_other by exact ab. exact Lb.
  - rewrite !incl_other by assumption. exact Lc.
  - rewrite !incl_other by assumption. exact Ld.
  - apply incl_new, incl_new, Y.
  - apply incl_apart, incl_apart, A1.
  - apply incl_apart, incl_apart, A2.
  - apply incl_apart, incl_apart, A3.
  - apply incl_apart, incl_apart, A4.
Qed.
(* the assignments at set_representation.go:229-232 *)
Lemma include_end h sp h' v i : extends h h' -> made h sp h' v ->
  exists h2, include (hs_end sp) i h' = (OK tt, h2) /\ extends h h2 /\ made h sp h2 (mkSpan (s_start v) (incl_range (s_end v) i)).
Proof.
  intros X [a b c d S E Sn En Ne F D La Lb Lc Ld Y A1 A2 A3 A4]. four F Fa Fb Fc Fd. destruct (distinct4 _ _ _ _ D) as (ab & ac & ad & bc & bd & cd).
  eexists. split; [exact (include_run _ _ _ _ _ i _ _ cd E Lc Ld)|]. split; [apply incl_extends; [apply incl_extends; assumption|assumption]|].
  apply (made_intro h _ _ _ a b c d); rewrite ?incl_ranges; cbn [s_start s_end incl_range r_edtf r_lower r_upper]; try assumption.
  - repeat constructor; assumption.
  - rewrite !incl_other by congruence. exact La.
  - rewrite !incl_other by congruence. exact Lb.
  - rewrite incl_other by congruence. apply incl_here, Lc.
  - apply incl_here. rewrite incl_other by exact cd. exact Ld.
  - apply incl_new, incl_new, Y.
  - apply incl_apart, incl_apart, A1.
  - apply incl_apart, incl_apart, A2.
  - apply incl_apart, incl_apart, A3.
  - apply incl_apart, incl_apart, A4.
Qed.

(** ** Opening *)
(* start and end are one range *)
Inductive one_range (h : heap) (sp : hspan) (h' : heap) (v : datespan) : Prop :=
  one_range_intro a b :
    hs_start sp = hs_end sp -> s_start v = s_end v ->
    nth_error (h_ranges h') (hs_start sp) = Some (mkHRange (r_edtf (s_start v)) a b) ->
    (length (h_ranges h) <= hs_start sp)%nat -> (length (h_dates h) <= a)%nat -> (length (h_dates h) <= b)%nat -> a <> b ->
    read_date h' a = Some (r_lower (s_start v)) -> read_date h' b = Some (r_upper (s_start v)) -> new_ymds h h' ->
    d_open (r_lower (s_start v)) = true -> one_range h sp h' v.

Definition reopened (so eo : bool) (v : datespan) : datespan :=
  let v := if so then mkSpan OpenDateRange (mkRange (r_edtf (s_end v)) (r_lower (s_start v)) (r_upper (s_end v))) else v in
  if eo then
    let start := mkRange (r_edtf (s_start v)) (r_lower (s_start v)) (r_upper (s_end v)) in
    if so then mkSpan start start else mkSpan start OpenDateRange
  else v.

Lemma pair_facts h h' : extends h h' -> extends h (with_pair h' open_cell).
Proof. intros (A & B & C). repeat split; [exact A|exact (keeps_trans _ _ _ B (keeps_app _ _))|exact (keeps_trans _ _ _ C (keeps_app _ _))]. Qed.
Lemma pair_new h h' : extends h h' -> new_ymds h h' -> new_ymds h (with_pair h' open_cell).
Proof.
  intros X N a c y L E Y. cbn [with_pair h_dates] in E. destruct (Compare_dec.le_lt_dec (length (h_dates h')) a) as [G|G].
  - rewrite nth_error_app2 in E by exact G. apply nth_error_In in E. destruct E as [<-|[<-|[]]]; discriminate Y.
  - rewrite nth_error_app1 in E by exact G. exact (N a c y L E Y).
Qed.
Lemma pair_read h a d : read_date h a = Some d -> read_date (with_pair h open_cell) a = Some d.
Proof. apply read_date_keeps; [apply keeps_refl|apply keeps_app]. Qed.
Lemma pair_open h r : read_date (mkHeap (h_ymds h) (h_dates h ++ [open_cell; open_cell]) r) (length (h_dates h)) = Some (set_open zero_date) /\
  read_date (mkHeap (h_ymds h) (h_dates h ++ [open_cell; open_cell]) r) (length (h_dates h) + 1) = Some (set_open zero_date).
Proof. unfold read_date. cbn [h_dates]. rewrite nth_app_0, nth_app_k. split; reflexivity. Qed.
Lemma pair_apart h a b : (length (h_dates h) <= b)%nat -> apart (with_pair h open_cell) a b /\ apart (with_pair h open_cell) b a.
Proof.
  intro L. assert (A : apart (with_pair h open_cell) a b).
  { intros c d y E F Y Z. cbn [with_pair h_dates] in F. rewrite nth_error_app2 in F by exact L. apply nth_error_In in F. destruct F as [<-|[<-|[]]]; discriminate Z. }
  split; [exact A|apply apart_sym, A].
Qed.
Lemma read_bound h a d : read_date h a = Some d -> (a < length (h_dates h))%nat.
Proof. intro R. destruct (read_date_cell _ _ _ R) as (c & E & _). apply nth_error_Some. congruence. Qed.

Lemma reopen_sim so eo h sp h' v : so || eo = true -> extends h h' -> made h sp h' v ->
  sim h h' (reopen so eo sp) (OK (reopened so eo v)) (fun sp' h2 v' => (if so && eo then one_range h else made h) sp' h2 v').
Proof.
  intros O X [a b c d S E Sn En Ne F D La Lb Lc Ld Y A1 A2 A3 A4]. four F Fa Fb Fc Fd. destruct (distinct4 _ _ _ _ D) as (ab & ac & ad & bc & bd & cd).
  pose proof (pair_facts _ _ X) as XP. pose proof (pair_new _ _ X Y) as YP.
  assert (R : forall r w, nth_error (h_ranges h') r = Some w -> nth_error (h_ranges (with_pair h' open_cell)) r = Some w) by apply keeps_app.
  assert (Is : (hs_start sp < length (h_ranges h'))%nat) by (apply nth_error_Some; congruence).
  assert (Ie : (hs_end sp < length (h_ranges h'))%nat) by (apply nth_error_Some; congruence).
  pose proof X as (X1 & X2 & X3). apply keeps_length in X2, X3.
  pose proof (read_bound _ _ _ La) as Ba. pose proof (read_bound _ _ _ Lb) as Bb. pose proof (read_bound _ _ _ Lc) as Bc. pose proof (read_bound _ _ _ Ld) as Bd.
  assert (N : nth_error (h_ranges (with_pair h' open_cell)) (length (h_ranges h')) = Some (mkHRange [] (length (h_dates h')) (length (h_dates h') + 1)))
    by (cbn [with_pair h_ranges]; now rewrite nth_app_0).
  unfold reopen. eapply sim_step; [exact (open_run h')|].
  destruct so.
  - eapply sim_step.
    + unfold mbind at 1. rewrite (get_range_run _ _ _ (R _ _ S)). cbn [hr_lower]. unfold mbind.
      rewrite (lower_run _ _ _ _ _ a (R _ _ E)). unfold ret. reflexivity.
    + pose proof (extends_ranges h _ (hs_end sp) (mkHRange (r_edtf (s_end v)) a d) XP En) as XU.
      cbn [hs_start hs_end]. destruct eo.
      * (* both *)
        eapply sim_step; [apply get_range_run; cbn [h_ranges]; exact (update_here _ _ _ _ (R _ _ E))|]. cbn [hr_upper].
        eapply sim_step; [eapply upper_run; cbn [h_ranges]; rewrite update_other by lia; exact N|].
        apply sim_ret; [apply extends_ranges; [exact XU|exact X3]|].
        cbn [h_ymds h_dates h_ranges with_pair andb].
        apply (one_range_intro h _ _ _ (length (h_dates h')) d); cbn [reopened hs_start hs_end s_start s_end OpenDateRange r_edtf r_lower r_upper h_ranges]; try reflexivity; try lia.
        -- eapply update_here. rewrite update_other by lia. exact N.
        -- apply pair_open.
        -- exact (pair_read _ _ _ Ld).
        -- exact YP.
      * apply sim_ret; [exact XU|]. cbn [h_ymds h_dates h_ranges with_pair andb].
        apply (made_intro h _ _ _ (length (h_dates h')) (length (h_dates h') + 1)%nat a d); cbn [reopened hs_start hs_end s_start s_end OpenDateRange r_edtf r_lower r_upper h_ranges]; try lia.
        -- rewrite update_other by lia. exact N.
        -- exact (update_here _ _ _ _ (R _ _ E)).
        -- repeat constructor; lia.
        -- repeat constructor; cbn [In]; lia.
        -- apply pair_open.
        -- apply pair_open.
        -- exact (pair_read _ _ _ La).
        -- exact (pair_read _ _ _ Ld).
        -- exact YP.
        -- apply (pair_apart h' a). lia.
        -- apply (pair_apart h' d). lia.
        -- apply (pair_apart h' a). lia.
        -- apply (pair_apart h' d). lia.
  - destruct eo; [|discriminate O].
    eapply sim_step; [reflexivity|].
    eapply sim_step; [apply get_range_run; exact (R _ _ E)|]. cbn [hr_upper].
    eapply sim_step; [exact (upper_run _ _ _ _ _ d (R _ _ S))|].
    apply sim_ret; [exact (extends_ranges h _ (hs_start sp) _ XP Sn)|]. cbn [h_ymds h_dates h_ranges with_pair andb].
    apply (made_intro h _ _ _ a d (length (h_dates h')) (length (h_dates h') + 1)%nat); cbn [reopened hs_start hs_end s_start s_end OpenDateRange r_edtf r_lower r_upper h_ranges]; try lia.
    + exact (update_here _ _ _ _ (R _ _ S)).
    + rewrite update_other by lia. exact N.
    + repeat constructor; lia.
    + repeat constructor; cbn [In]; lia.
    + exact (pair_read _ _ _ La).
    + exact (pair_read _ _ _ Ld).
    + apply pair_open.
    + apply pair_open.
    + exact YP.
    + apply (pair_apart h' a). lia.
    + apply (pair_apart h' a). lia.
    + apply (pair_apart h' d). lia.
    + apply (pair_apart h' d). lia.
Qed.
