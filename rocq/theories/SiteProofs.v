(** Lemmas for C91. *)
From Coq Require Import Ascii String ZArith NArith Bool Lia ZifyBool Permutation Sorting.Sorted List.
From Verif Require Import GoStr SpecText SpecReads StrFacts SplitFacts SetGrammar SetProofs ReadsSet MembersProofs Site SpecSite.
Import ListNotations.
Open Scope Z_scope.

(** ** Parts *)
Definition part (x : str) : Prop := ~ In "/"%char x.
Definition solid (x : str) : Prop := part x /\ x <> [] /\ x <> $"." /\ x <> $"..".
Definition one_dot (x : str) : bool := seqb x [] || seqb x ($".").
Fixpoint walk (at_ l : list str) : list str :=
  match l with
  | [] => at_
  | x :: r => if one_dot x then walk at_ r else if seqb x ($"..") then walk (removelast at_) r else walk (at_ ++ [x]) r
  end.
Lemma one_dot_iff x : one_dot x = true <-> x = [] \/ x = $".".
Proof. unfold one_dot. rewrite orb_true_iff, !seqb_eq. reflexivity. Qed.
Lemma leads_walk a l t : leads a l t -> t = walk a l.
Proof.
  intro H. induction H as [a|a x l t X _ IH|l t _ IH|a y l t _ IH|a x l t X1 X2 X3 _ IH]; cbn [walk].
  - reflexivity.
  - rewrite (proj2 (one_dot_iff x) X). exact IH.
  - exact IH.
  - change (one_dot ($"..")) with false. change (seqb ($"..") ($"..")) with true. rewrite removelast_last. exact IH.
  - replace (one_dot x) with false by (symmetry; apply not_true_iff_false; rewrite one_dot_iff; tauto). rewrite (proj2 (seqb_neq _ _) X3). exact IH.
Qed.
Lemma joined_snoc a y : a <> [] -> joined ($"/") (a ++ [y]) = joined ($"/") a ++ "/"%char :: y.
Proof.
  induction a as [|x a IH]; [congruence|]. intros _. destruct a as [|z a]; [reflexivity|].
  change ((x :: z :: a) ++ [y]) with (x :: (z :: a) ++ [y]). rewrite (joined_cons _ x ((z :: a) ++ [y])) by discriminate. rewrite IH by discriminate.
  rewrite (joined_cons _ x (z :: a)) by discriminate. rewrite <- !app_assoc. reflexivity.
Qed.
Lemma joined_nil a : Forall solid a -> joined ($"/") a = [] -> a = [].
Proof.
  intros F E. destruct a as [|x a]; [reflexivity|]. exfalso. inversion F as [|? ? (_ & X & _) _]; subst. destruct a; [exact (X E)|]. rewrite joined_cons in E by discriminate. apply app_eq_nil in E. tauto.
Qed.
Lemma slash_part c x : part (c :: x) -> is_slash c = false /\ part x.
Proof. intro H. split; [apply Ascii.eqb_neq; intros ->; apply H; left; reflexivity|intro I; apply H; right; exact I]. Qed.
Lemma to_slash_part x r : part x -> at_end r = true -> to_slash (x ++ r) = (x, r).
Proof.
  intros X R. induction x as [|c x IH]; cbn [app].
  - destruct r as [|c r]; [reflexivity|]. cbn [to_slash at_end] in *. rewrite R. reflexivity.
  - apply slash_part in X. destruct X as (C & X). cbn [to_slash]. rewrite C, (IH X). reflexivity.
Qed.
Lemma step_back_part x r : part x -> step_back (x ++ "/"%char :: r) = r.
Proof. intro X. induction x as [|c x IH]; [reflexivity|]. apply slash_part in X. destruct X as (C & X). cbn [app step_back]. rewrite C. exact (IH X). Qed.
Lemma step_back_last x : part x -> step_back x = [].
Proof. intro X. induction x as [|c x IH]; [reflexivity|]. apply slash_part in X. destruct X as (C & X). cbn [step_back]. rewrite C. exact (IH X). Qed.
Lemma part_rev x : part x -> part (rev x).
Proof. intros H I. apply H. apply in_rev. exact I. Qed.
Lemma step_back_walk a : Forall solid a -> step_back (rev (joined ($"/") a)) = rev (joined ($"/") (removelast a)).
Proof.
  intro F. destruct a as [|y a _] using rev_ind; [reflexivity|]. rewrite removelast_last. apply Forall_app in F. destruct F as (Fa & Fy). inversion Fy as [|? ? (Y & _) _]; subst.
  destruct a as [|x a]; [exact (step_back_last _ (part_rev _ Y))|]. rewrite joined_snoc by discriminate. rewrite rev_app_distr. cbn [rev]. rewrite <- app_assoc. exact (step_back_part _ _ (part_rev _ Y)).
Qed.
(** One part of a path. *)
Definition grown (out x : str) : str := rev x ++ match out with [] => [] | _ => "/"%char :: out end.
Definition after_part (out x : str) : str := if one_dot x then out else if seqb x ($"..") then step_back out else grown out x.
Lemma dot_end r : (exists k, k = length r) -> at_end r = true -> forall x, part x -> x <> [] ->
  at_end (x ++ r) = false.
Proof. intros _ R x X N. destruct x as [|c x]; [congruence|]. apply slash_part in X. exact (proj1 X). Qed.
Lemma clean_part fuel out x r : part x -> at_end r = true -> (length (x ++ r) <= fuel)%nat ->
  exists fuel', (length r <= fuel')%nat /\ clean_loop fuel out (x ++ r) = clean_loop fuel' (after_part out x) r.
Proof.
  intros X R L. destruct x as [|c x]; [exists fuel; split; [exact L|reflexivity]|].
  destruct fuel as [|k]; [cbn in L; lia|]. cbn [app length] in L. pose proof (slash_part _ _ X) as (C & X').
  cbn [app clean_loop]. rewrite C. rewrite app_length in L.
  destruct (Ascii.eqb c ".") eqn:D; cbn [andb].
  - apply Ascii.eqb_eq in D. subst c. destruct x as [|d x].
    + cbn [app]. rewrite R. exists k. split; [cbn in L; lia|reflexivity].
    + pose proof (slash_part _ _ X') as (C' & X''). cbn [app at_end]. rewrite C'. cbn [length] in L.
      destruct (Ascii.eqb d ".") eqn:D; cbn [andb].
      * apply Ascii.eqb_eq in D. subst d. destruct x as [|e x].
        { cbn [app]. rewrite R. cbn [skipn]. exists k. split; [cbn in L; lia|reflexivity]. }
        { pose proof (slash_part _ _ X'') as (C'' & _). cbn [app at_end]. rewrite C''. change ("."%char :: "."%char :: e :: x ++ r) with (("."%char :: "."%char :: e :: x) ++ r).
          rewrite (to_slash_part _ _ X R). exists k. split; [lia|]. unfold after_part. reflexivity. }
      * change ("."%char :: d :: x ++ r) with (("."%char :: d :: x) ++ r). rewrite (to_slash_part _ _ X R). exists k. split; [lia|]. unfold after_part, one_dot. cbn [seqb lit list_ascii_of_string].
        change (seqb ("."%char :: d :: x) ($".")) with false. cbn [orb]. change (seqb ("."%char :: d :: x) ($"..")) with (Ascii.eqb d "." && seqb x []). rewrite D. reflexivity.
  - change (c :: x ++ r) with ((c :: x) ++ r). rewrite (to_slash_part _ _ X R). exists k. split; [lia|]. unfold after_part, one_dot.
    change (seqb (c :: x) []) with false. change (seqb (c :: x) ($".")) with (Ascii.eqb c "." && seqb x []). change (seqb (c :: x) ($"..")) with (Ascii.eqb c "." && seqb x ($".")). rewrite D. reflexivity.
Qed.
Lemma after_walk a x : Forall solid a -> part x -> Forall solid (walk a [x]) /\ after_part (rev (joined ($"/") a)) x = rev (joined ($"/") (walk a [x])).
Proof.
  intros F X. unfold after_part. cbn [walk]. destruct (one_dot x) eqn:D; [split; [exact F|reflexivity]|]. destruct (seqb x ($"..")) eqn:E.
  - split; [|exact (step_back_walk a F)]. destruct a as [|y a _] using rev_ind; [constructor|]. rewrite removelast_last. apply Forall_app in F. apply F.
  - apply not_true_iff_false in D. rewrite one_dot_iff in D. apply seqb_neq in E. split; [apply Forall_app; split; [exact F|repeat constructor; tauto]|].
    unfold grown. destruct a as [|y a]; [cbn [app joined]; change (rev (joined ($"/") [])) with (@nil ascii); rewrite app_nil_r; reflexivity|].
    rewrite joined_snoc by discriminate. rewrite rev_app_distr. cbn [rev]. rewrite <- app_assoc. cbn [app]. f_equal.
    destruct (rev (joined ($"/") (y :: a))) eqn:Q; [|reflexivity]. exfalso. apply (f_equal (@rev ascii)) in Q. rewrite rev_involutive in Q. apply (joined_nil _ F) in Q. discriminate Q.
Qed.
Lemma walk_cons a x l : walk a (x :: l) = walk (walk a [x]) l.
Proof. cbn [walk]. destruct (one_dot x); [reflexivity|]. destruct (seqb x ($"..")); reflexivity. Qed.
Lemma clean_walk l : Forall part l -> forall fuel a, Forall solid a -> (length (joined ($"/") l) <= fuel)%nat ->
  Forall solid (walk a l) /\ clean_loop fuel (rev (joined ($"/") a)) (joined ($"/") l) = rev (joined ($"/") (walk a l)).
Proof.
  intro F. induction F as [|x l X F IH]; intros fuel a A L.
  - split; [exact A|]. cbn [joined walk]. destruct fuel; reflexivity.
  - destruct (after_walk a x A X) as (W & E). rewrite walk_cons. destruct l as [|y l].
    + split; [exact W|]. cbn [joined] in *. rewrite <- (app_nil_r x) in L |- *. destruct (clean_part fuel (rev (joined ($"/") a)) x [] X eq_refl L) as (k & _ & ->).
      rewrite E. destruct k; rewrite ?app_nil_r; reflexivity.
    + rewrite joined_cons in L |- * by discriminate. destruct (clean_part fuel (rev (joined ($"/") a)) x ("/"%char :: joined ($"/") (y :: l)) X eq_refl L) as (k & K & Ec).
      change ($"/" ++ joined ($"/") (y :: l)) with ("/"%char :: joined ($"/") (y :: l)). rewrite Ec, E. destruct k as [|k]; [cbn in K; lia|]. cbn [clean_loop].
      change (is_slash "/") with true. cbv iota. apply IH; [exact W|]. cbn [length] in K. lia.
Qed.

(** ** Clean paths *)
Definition render (l : list str) (b : bool) : str := "/"%char :: joined ($"/") l ++ (if b then match l with [] => [] | _ => $"/" end else []).
Lemma path_clean_walk l : Forall part l -> Forall solid (walk [] l) /\ path_clean (joined ($"/") l) = "/"%char :: joined ($"/") (walk [] l).
Proof.
  intro F. destruct (clean_walk l F (length (joined ($"/") l)) [] (Forall_nil _) (le_n _)) as (W & E). split; [exact W|].
  unfold path_clean. change (rev (joined ($"/") [])) with (@nil ascii) in E. rewrite E, rev_involutive. reflexivity.
Qed.
Lemma ends_in_slash_iff p : ends_in_slash p = true <-> slash_last p.
Proof.
  unfold ends_in_slash, slash_last. split.
  - destruct (rev p) as [|c r] eqn:E; [discriminate|]. intro H. apply Ascii.eqb_eq in H. subst c. exists (rev r). apply (f_equal (@rev ascii)) in E. rewrite rev_involutive in E. exact E.
  - intros (q & ->). rewrite rev_app_distr. reflexivity.
Qed.
Lemma rooted_parts p l : parts_of p l -> exists l', Forall part l' /\ tl (rooted p) = joined ($"/") l' /\ walk [] l' = walk [] l /\ rooted p = "/"%char :: joined ($"/") l'.
Proof.
  intros (E0 & N & F). destruct l as [|x l]; [congruence|]. destruct x as [|c x].
  - destruct l as [|y l].
    + subst p. exists []. repeat split. constructor.
    + inversion F; subst. exists (y :: l). rewrite joined_cons by discriminate. repeat split; assumption.
  - exists ((c :: x) :: l). inversion F as [|? ? X _]; subst x0. pose proof (proj1 (slash_part _ _ X)) as C.
    assert (E : rooted p = "/"%char :: p) by (rewrite E0; destruct l as [|y l]; [|rewrite joined_cons by discriminate]; cbn [app joined rooted]; rewrite C; reflexivity).
    rewrite E. cbn [tl]. split; [exact F|]. split; [exact E0|]. split; [reflexivity|]. f_equal. exact E0.
Qed.
Lemma rooted_slash p : ends_in_slash (rooted p) = ends_in_slash p || match p with [] => true | _ => false end.
Proof.
  destruct p as [|c p]; [reflexivity|]. rewrite orb_false_r. cbn [rooted]. destruct (is_slash c); [reflexivity|]. unfold ends_in_slash. cbn [rev]. destruct (rev p); reflexivity.
Qed.
Lemma clean_parts p l : parts_of p l -> Forall solid (walk [] l) /\ clean_url p = render (walk [] l) (ends_in_slash p).
Proof.
  intro P. destruct (rooted_parts p l P) as (l' & F & T & W & R). destruct (path_clean_walk l' F) as (S & E). rewrite W in S, E. split; [exact S|].
  unfold clean_url. rewrite T, E, rooted_slash. unfold render.
  destruct (walk [] l) as [|x r] eqn:Q.
  - cbn [joined app]. change (seqb ["/"%char] ($"/")) with true. rewrite andb_false_r. destruct (ends_in_slash p); reflexivity.
  - assert (J : seqb ("/"%char :: joined ($"/") (x :: r)) ($"/") = false).
    { apply seqb_neq. intro H. injection H as H. apply (joined_nil _ S) in H. discriminate H. }
    rewrite J, andb_true_r. destruct p as [|c p]; [|rewrite orb_false_r; destruct (ends_in_slash (c :: p)); [reflexivity|rewrite app_nil_r; reflexivity]].
    exfalso. destruct P as (P & N & Fl). destruct l as [|y l]; [congruence|]. destruct l as [|z l]; [cbn in P; subst y; discriminate Q|]. rewrite joined_cons in P by discriminate. destruct y; discriminate P.
Qed.
(** The parts of a clean path. *)
Definition tail_part (l : list str) (b : bool) : list str := if b then match l with [] => [] | _ => [[]] end else [].
Lemma render_joined l b : render l b = "/"%char :: joined ($"/") (l ++ tail_part l b).
Proof.
  unfold render, tail_part. destruct b; [|rewrite !app_nil_r; reflexivity]. destruct l as [|x l]; [reflexivity|]. rewrite joined_snoc by discriminate. reflexivity.
Qed.
Lemma solid_parts l b : Forall solid l -> Forall part (l ++ tail_part l b).
Proof.
  intro H. apply Forall_app. split; [revert H; apply Forall_impl; intros x X; apply X|]. unfold tail_part. destruct b; [destruct l|]; repeat constructor. intros [].
Qed.
Lemma render_parts l b : Forall solid l -> parts_of (render l b) ([] :: match l ++ tail_part l b with [] => [[]] | m => m end).
Proof.
  intro H. pose proof (solid_parts l b H) as P. rewrite render_joined. split; [|split; [discriminate|]].
  - destruct (l ++ tail_part l b) as [|x m]; [reflexivity|]. rewrite (joined_cons _ [] (x :: m)) by discriminate. reflexivity.
  - constructor; [intros []|]. destruct (l ++ tail_part l b); [repeat constructor; intros []|exact P].
Qed.
Lemma walk_app a l m : walk a (l ++ m) = walk (walk a l) m.
Proof. revert a. induction l as [|x l IH]; intro a; [reflexivity|]. cbn [app]. rewrite walk_cons, IH, (walk_cons a x l). reflexivity. Qed.
Lemma walk_solid a l : Forall solid l -> walk a l = a ++ l.
Proof.
  intro H. revert a. induction H as [|x l (X & X0 & X1 & X2) _ IH]; intro a; [rewrite app_nil_r; reflexivity|]. cbn [walk].
  replace (one_dot x) with false by (symmetry; apply not_true_iff_false; rewrite one_dot_iff; tauto). rewrite (proj2 (seqb_neq _ _) X2), IH, <- app_assoc. reflexivity.
Qed.
Lemma walk_render l b : Forall solid l -> walk [] ([] :: match l ++ tail_part l b with [] => [[]] | m => m end) = l.
Proof.
  intro H. rewrite walk_cons. change (walk [] [[]]) with (@nil str). destruct (l ++ tail_part l b) as [|x m] eqn:E.
  - apply app_eq_nil in E. destruct E as (-> & _). reflexivity.
  - rewrite <- E, walk_app, (walk_solid [] l H). unfold tail_part. destruct b; [destruct l|]; reflexivity.
Qed.
Lemma render_slash l b : Forall solid l -> ends_in_slash (render l b) = match l with [] => true | _ => b end.
Proof.
  intro H. destruct l as [|x l]; [destruct b; reflexivity|]. unfold render. destruct b.
  - apply ends_in_slash_iff. exists ("/"%char :: joined ($"/") (x :: l)). reflexivity.
  - rewrite app_nil_r. apply not_true_iff_false. rewrite ends_in_slash_iff. intros (q & E). destruct l as [|y l] using rev_ind; [|clear IHl].
    + cbn [joined] in E. inversion H as [|? ? (X & N & _) _]; subst. destruct q as [|c q]; [injection E as E; contradiction|]. injection E as _ E. apply X. rewrite E. apply in_or_app. right. left. reflexivity.
    + change (x :: l ++ [y]) with ((x :: l) ++ [y]) in *. rewrite joined_snoc in E by discriminate. apply Forall_app in H. destruct H as (_ & H). inversion H as [|? ? (Y & N & _) _]; subst.
      destruct y as [|c y _] using rev_ind; [congruence|]. rewrite app_comm_cons in E. change ("/"%char :: y ++ [c]) with (("/"%char :: y) ++ [c]) in E. rewrite app_assoc in E. apply app_inj_tail in E. destruct E as (_ & ->).
      apply Y. apply in_or_app. right. left. reflexivity.
Qed.
Lemma render_any l b : Forall solid l -> render l b = render l (ends_in_slash (render l b)).
Proof. intro H. rewrite (render_slash l b H). destruct l; [destruct b; reflexivity|reflexivity]. Qed.
Lemma clean_render l b : Forall solid l -> clean_url (render l b) = render l b.
Proof. intro H. destruct (clean_parts _ _ (render_parts l b H)) as (_ & ->). rewrite (walk_render l b H). symmetry. exact (render_any l b H). Qed.

(** ** Ends of clean paths *)
Lemma solid_snoc q x : Forall solid (q ++ [x]) -> Forall solid q /\ solid x.
Proof. intro H. apply Forall_app in H. destruct H as (H & K). inversion K; subst. auto. Qed.
(** A path before its last part. *)
Definition before (q : list str) : str := match q with [] => [] | _ => "/"%char :: joined ($"/") q end.
Lemma render_snoc q x b : render (q ++ [x]) b = before q ++ "/"%char :: x ++ (if b then $"/" else []).
Proof.
  unfold render, before. replace (match q ++ [x] with [] => [] | _ => $"/" end) with ($"/") by (destruct q; reflexivity).
  destruct q as [|y q]; [reflexivity|]. rewrite joined_snoc by discriminate. cbn [app]. rewrite <- app_assoc. reflexivity.
Qed.
Lemma rev_snoc q x b : rev (render (q ++ [x]) b) = (if b then $"/" else []) ++ rev x ++ "/"%char :: rev (before q).
Proof. rewrite render_snoc, rev_app_distr. cbn [rev]. rewrite rev_app_distr, <- !app_assoc. destruct b; reflexivity. Qed.
Lemma same_tail a b x y : part x -> part y -> a ++ "/"%char :: x = b ++ "/"%char :: y -> a = b /\ x = y.
Proof.
  intros X Y E. apply (f_equal (@rev ascii)) in E. rewrite !rev_app_distr in E. cbn [rev] in E. rewrite <- !app_assoc in E. cbn [app] in E.
  assert (G : forall u v r s, part u -> part v -> u ++ "/"%char :: r = v ++ "/"%char :: s -> u = v /\ r = s).
  { induction u as [|c u IH]; intros v r s U V G; destruct v as [|d v]; cbn [app] in G.
    - injection G as <-. auto.
    - injection G as <- _. exfalso. apply V. left. reflexivity.
    - injection G as -> _. exfalso. apply U. left. reflexivity.
    - injection G as <- G. apply slash_part in U, V. destruct (IH v r s (proj2 U) (proj2 V) G) as (-> & ->). auto. }
  destruct (G _ _ _ _ (part_rev _ X) (part_rev _ Y) E) as (Ex & Ea). apply (f_equal (@rev ascii)) in Ex, Ea. rewrite !rev_involutive in *. auto.
Qed.
Lemma index_part : part ($"index.html").
Proof. intro H. assert (E : existsb is_slash ($"index.html") = true) by (apply existsb_exists; exists "/"%char; auto). discriminate E. Qed.
Lemma suffix_iff s p : has_suffix s p = true <-> exists r, s = r ++ p.
Proof.
  unfold has_suffix. rewrite has_prefix_spec. split; intros (r & E).
  - exists (rev r). apply (f_equal (@rev ascii)) in E. rewrite rev_involutive, rev_app_distr, rev_involutive in E. exact E.
  - exists (rev r). rewrite E. apply rev_app_distr.
Qed.
Lemma index_suffix l b : Forall solid l -> (has_suffix (render l b) ($"/index.html") = true <-> b = false /\ exists q, l = q ++ [$"index.html"]).
Proof.
  intro H. rewrite suffix_iff. destruct l as [|x q _] using rev_ind.
  - split; [|intros (_ & q & E); destruct q; discriminate E]. intros (r & E). exfalso. apply (f_equal (@length ascii)) in E. rewrite app_length in E. change (length ($"/index.html")) with 11%nat in E. destruct b; cbn in E; lia.
  - apply solid_snoc in H. destruct H as (_ & X & _). split.
    + intros (r & E). rewrite render_snoc in E. destruct b.
      * exfalso. apply (f_equal (@rev ascii)) in E. rewrite !rev_app_distr in E. cbn [rev] in E. rewrite rev_app_distr in E. discriminate E.
      * rewrite app_nil_r in E. change ($"/index.html") with ("/"%char :: $"index.html") in E. apply same_tail in E; [|exact X|exact index_part]. destruct E as (_ & ->). eauto.
    + intros (-> & q' & E). apply app_inj_tail in E. destruct E as (<- & ->). exists (before q). rewrite render_snoc, app_nil_r. reflexivity.
Qed.
Lemma base_snoc q x b : solid x -> path_base (render (q ++ [x]) b) = x.
Proof.
  intros (X & N & _). unfold path_base. rewrite rev_snoc.
  assert (T : trim_left "/" ((if b then $"/" else []) ++ rev x ++ "/"%char :: rev (before q)) = rev x ++ "/"%char :: rev (before q)).
  { assert (T : trim_left "/" (rev x ++ "/"%char :: rev (before q)) = rev x ++ "/"%char :: rev (before q)).
    { destruct (rev x) as [|c r] eqn:E; [apply (f_equal (@rev ascii)) in E; rewrite rev_involutive in E; contradiction|]. cbn [app trim_left].
      assert (C : part (c :: r)) by (rewrite <- E; exact (part_rev _ X)). apply slash_part in C. destruct C as (C & _). unfold is_slash in C. rewrite Ascii.eqb_sym in C. first [rewrite C|rewrite Ascii.eqb_sym, C]; reflexivity. }
    destruct b; [|exact T]. exact T. }
  rewrite T, (to_slash_part (rev x) ("/"%char :: rev (before q)) (part_rev _ X) eq_refl). cbn [fst]. destruct (render (q ++ [x]) b) eqn:R; [discriminate R|].
  destruct (rev x) as [|c r] eqn:E; [apply (f_equal (@rev ascii)) in E; rewrite rev_involutive in E; contradiction|]. rewrite <- E. apply rev_involutive.
Qed.
Lemma folder_snoc q x : part x -> base_folder (render (q ++ [x]) false) = before q ++ $"/".
Proof.
  intro X. unfold base_folder. rewrite rev_snoc. cbn [app]. rewrite (to_slash_part (rev x) ("/"%char :: rev (before q)) (part_rev _ X) eq_refl). cbn [snd rev]. rewrite rev_involutive. reflexivity.
Qed.
Lemma folder_slash q x : base_folder (render (q ++ [x]) true) = render (q ++ [x]) true.
Proof. unfold base_folder. rewrite rev_snoc. cbn [app lit list_ascii_of_string]. change (to_slash ("/"%char :: rev x ++ "/"%char :: rev (before q))) with (@nil ascii, "/"%char :: rev x ++ "/"%char :: rev (before q)). cbn [snd].
  rewrite <- (rev_involutive (render (q ++ [x]) true)). rewrite rev_snoc. reflexivity. Qed.

(** ** Following redirects *)
Lemma split_parts l : l <> [] -> Forall part l -> split (joined ($"/") l) ($"/") = l.
Proof. exact (split_of_joined "/" l). Qed.
Lemma no_dots_solid k l m : Forall solid l -> m <> [] -> no_dots k (l ++ m) = no_dots (rev l ++ k) m.
Proof.
  intros H M. revert k. induction H as [|x l (_ & _ & X1 & X2) _ IH]; intro k; [reflexivity|].
  cbn [app no_dots]. destruct (l ++ m) as [|y r] eqn:E; [apply app_eq_nil in E; tauto|]. rewrite (proj2 (seqb_neq _ _) X1), (proj2 (seqb_neq _ _) X2), IH.
  cbn [rev]. rewrite <- app_assoc. reflexivity.
Qed.
Lemma with_slashes_joined l : l <> [] -> with_slashes l = "/"%char :: joined ($"/") l.
Proof.
  induction l as [|x l IH]; [congruence|]. intros _. destruct l as [|y l]; [cbn [with_slashes joined]; rewrite app_nil_r; reflexivity|].
  rewrite joined_cons by discriminate. change (with_slashes (x :: y :: l)) with ("/"%char :: x ++ with_slashes (y :: l)). rewrite IH by discriminate. reflexivity.
Qed.
Lemma resolve_text base ref u l : (exists c r, ref = c :: r /\ is_slash c = false) -> base_folder base ++ ref = "/"%char :: u -> u = joined ($"/") l -> l <> [] -> Forall part l ->
  resolve base ref = with_slashes (rev (no_dots [] l)).
Proof.
  intros (c & r & -> & C) E -> N F. unfold resolve. rewrite C, E. cbn [tl]. rewrite (split_parts l N F). reflexivity.
Qed.
Lemma resolve_absolute base l b : Forall solid l -> resolve base (render l b) = render l b.
Proof.
  intro H. unfold resolve. rewrite render_joined. change (is_slash "/") with true. cbv iota. cbn [tl]. destruct (l ++ tail_part l b) as [|x m] eqn:E.
  - reflexivity.
  - rewrite (split_parts (x :: m)) by (try discriminate; rewrite <- E; exact (solid_parts l b H)). rewrite <- E.
    unfold tail_part in *. destruct b; [destruct l as [|z l]; [discriminate E|]|].
    + rewrite no_dots_solid by (assumption || discriminate). cbn [no_dots]. change (seqb [] ($".")) with false. change (seqb [] ($"..")) with false. cbv iota.
      rewrite app_nil_r. change (rev ([] :: rev (z :: l))) with (rev (rev (z :: l)) ++ [[]]). rewrite rev_involutive, with_slashes_joined by discriminate. reflexivity.
    + rewrite app_nil_r in *. destruct l as [|z q _] using rev_ind; [discriminate E|]. apply solid_snoc in H. destruct H as (Hq & _ & _ & Z1 & Z2).
      rewrite no_dots_solid by (assumption || discriminate). cbn [no_dots]. rewrite (proj2 (seqb_neq _ _) Z1), (proj2 (seqb_neq _ _) Z2), app_nil_r. cbn [rev]. rewrite rev_involutive.
      rewrite with_slashes_joined by (destruct q; discriminate). reflexivity.
Qed.
Lemma before_joined q m : m <> [] -> before q ++ "/"%char :: joined ($"/") m = "/"%char :: joined ($"/") (q ++ m).
Proof.
  intro M. unfold before. destruct q as [|x q]; [reflexivity|]. cbn [app]. f_equal. revert x. induction q as [|y q IH]; intro x.
  - cbn [app]. rewrite (joined_cons _ x m) by exact M. reflexivity.
  - change (x :: (y :: q) ++ m) with (x :: (y :: q ++ m)). rewrite (joined_cons _ x (y :: q ++ m)), (joined_cons _ x (y :: q)) by discriminate. rewrite <- IH, <- !app_assoc. reflexivity.
Qed.
Lemma dot_part : part ($".") /\ part ($"..").
Proof. split; intro H; [destruct H as [H|[]]; discriminate H|destruct H as [H|[H|[]]]; discriminate H]. Qed.
Lemma solid_part l : Forall solid l -> Forall part l.
Proof. apply Forall_impl. intros x X. apply X. Qed.
Lemma resolve_here q x : Forall solid (q ++ [x]) -> resolve (render (q ++ [x]) false) ($"./") = render q true.
Proof.
  intro H. apply solid_snoc in H. destruct H as (Q & X & _). rewrite (resolve_text _ _ (joined ($"/") (q ++ [$"."; []])) (q ++ [$"."; []])).
  - rewrite no_dots_solid by (assumption || discriminate). cbn [no_dots]. change (seqb ($".") ($".")) with true. cbv iota. change (seqb [] ($".")) with false. change (seqb [] ($"..")) with false. cbv iota.
    rewrite app_nil_r. cbn [rev]. rewrite rev_involutive, with_slashes_joined by (destruct q; discriminate). rewrite render_joined. destruct q; reflexivity.
  - exists "."%char, ($"/"). split; reflexivity.
  - rewrite (folder_snoc q x X), <- app_assoc. change ($"/" ++ $"./") with ("/"%char :: joined ($"/") [$"."; []]). apply before_joined. discriminate.
  - reflexivity.
  - destruct q; discriminate.
  - apply Forall_app. split; [exact (solid_part _ Q)|]. constructor; [apply dot_part|]. constructor; [intros []|constructor].
Qed.
Lemma resolve_up q x : Forall solid (q ++ [x]) -> resolve (render (q ++ [x]) true) ($"../" ++ x) = render (q ++ [x]) false.
Proof.
  intro H. apply solid_snoc in H. destruct H as (Q & S). pose proof S as (X & X0 & X1 & X2). rewrite (resolve_text _ _ (joined ($"/") (q ++ [x; $".."; x])) (q ++ [x; $".."; x])).
  - change [x; $".."; x] with ([x] ++ [$".."; x]). rewrite app_assoc. rewrite no_dots_solid; [|apply Forall_app; split; [exact Q|constructor; [exact S|constructor]]|discriminate].
    rewrite rev_app_distr. cbn [rev app no_dots]. change (seqb ($"..") ($".")) with false. change (seqb ($"..") ($"..")) with true. cbv iota. cbn [tl].
    rewrite (proj2 (seqb_neq _ _) X1), (proj2 (seqb_neq _ _) X2), app_nil_r. cbn [rev]. rewrite rev_involutive, with_slashes_joined by (destruct q; discriminate). rewrite render_joined. cbn [tail_part]. rewrite app_nil_r. reflexivity.
  - exists "."%char, ($"./" ++ x). split; reflexivity.
  - rewrite folder_slash, render_snoc, <- app_assoc. cbn [app]. rewrite <- before_joined by discriminate. f_equal. f_equal. rewrite (joined_cons _ x [$".."; x]) by discriminate. rewrite <- app_assoc. reflexivity.
  - reflexivity.
  - destruct q; discriminate.
  - apply Forall_app. split; [exact (solid_part _ Q)|]. constructor; [exact X|]. constructor; [apply dot_part|]. constructor; [exact X|constructor].
Qed.

(** ** Answers for clean paths *)
Lemma serve_render ws l b : Forall solid l -> render l b <> $"/wasm" ->
  serve ws (render l b) = if has_prefix (render l b) ($"/wasm/") then serve_file Programs (wasm ws) (skipn 6 (render l b)) else serve_file Pages www (render l b).
Proof. intros H N. unfold serve. rewrite (clean_render l b H), (proj2 (seqb_neq _ _) N), seqb_refl. reflexivity. Qed.
Lemma serve_clean ws p l : parts_of p l -> p = render (walk [] l) (ends_in_slash p) \/ serve ws p = Moved (render (walk [] l) (ends_in_slash p)) \/
  render (walk [] l) (ends_in_slash p) = $"/wasm" /\ serve ws p = Moved ($"/wasm/").
Proof.
  intro P. destruct (clean_parts p l P) as (_ & E). unfold serve. rewrite E. destruct (seqb (render (walk [] l) (ends_in_slash p)) ($"/wasm")) eqn:W.
  - right. right. apply seqb_eq in W. auto.
  - destruct (seqb (render (walk [] l) (ends_in_slash p)) p) eqn:S; [left; apply seqb_eq in S; auto|right; left; reflexivity].
Qed.
Lemma tl_clean l b : Forall solid l -> tl (path_clean (tl (render l b))) = joined ($"/") l.
Proof.
  intro H. rewrite render_joined. cbn [tl]. destruct (path_clean_walk _ (solid_parts l b H)) as (_ & ->). cbn [tl]. f_equal.
  rewrite walk_app, (walk_solid [] l H). unfold tail_part. destruct b; [destruct l|]; reflexivity.
Qed.
Lemma rooted_render l b : rooted (render l b) = render l b.
Proof. reflexivity. Qed.
Lemma bool_off (b : bool) (P : Prop) : (b = true <-> P) -> ~ P -> b = false.
Proof. intros H N. apply not_true_iff_false. rewrite H. exact N. Qed.
Section Answers.
  Context (w : place) (t : tree) (path : str) (l : list str) (b : bool) (H : Forall solid l) (R : rooted path = render l b).
  Lemma answer_index q : b = false -> l = q ++ [$"index.html"] -> serve_file w t path = Moved ($"./").
  Proof. intros B Q. unfold serve_file. rewrite R, (proj2 (index_suffix l b H)); [reflexivity|eauto]. Qed.
  Context (N : b = true \/ forall q, l <> q ++ [$"index.html"]).
  Lemma not_index : has_suffix (render l b) ($"/index.html") = false.
  Proof. apply (bool_off _ _ (index_suffix l b H)). intros (B & q & Q). destruct N as [K|K]; [congruence|exact (K q Q)]. Qed.
  Lemma answer_nothing : open t (joined ($"/") l) = Nothing -> serve_file w t path = Missing.
  Proof. intro O. unfold serve_file. rewrite R, not_index, (tl_clean l b H), O. reflexivity. Qed.
  Lemma answer_file : open t (joined ($"/") l) = File -> l <> [] -> b = false -> serve_file w t path = Sent w (joined ($"/") l).
  Proof. intros O L B. unfold serve_file. rewrite R, not_index, (tl_clean l b H), O, (render_slash l b H), B. destruct l; [congruence|reflexivity]. Qed.
  Lemma answer_file_slash q x : open t (joined ($"/") l) = File -> l = q ++ [x] -> b = true -> serve_file w t path = Moved ($"../" ++ x).
  Proof.
    intros O L B. pose proof H as H'. rewrite L in H'. apply solid_snoc in H'. destruct H' as (_ & S). unfold serve_file. rewrite R, not_index, (tl_clean l b H), O, (render_slash l b H).
    replace (match l with [] => true | _ => b end) with true by (rewrite B; destruct l; reflexivity). cbv iota zeta. rewrite L, (base_snoc q x b S).
    destruct S as (X & _ & X1 & _). rewrite (proj2 (seqb_neq x ($"/"))), (proj2 (seqb_neq _ _) X1); [reflexivity|]. intros ->. apply X. left. reflexivity.
  Qed.
End Answers.

(** ** Things *)
Lemma sorted_text l : StronglySorted text_le l <-> StronglySorted sle l.
Proof.
  split; intro H; induction H as [|x l _ IH F]; constructor; try exact IH; revert F; apply Forall_impl; intros y Y; apply sle_text; exact Y.
Qed.
Lemma sort_order ws l : in_order ws l <-> l = sort_strs ws.
Proof.
  unfold in_order. rewrite sorted_text. split; [|intros ->; split; [apply sort_perm|apply sort_sorted]].
  intros (Q & S). apply sorted_unique; [exact S|apply sort_sorted|]. apply (perm_trans Q). apply Permutation_sym, sort_perm.
Qed.
Lemma sorted_order ws : in_order ws (sort_strs ws).
Proof. apply sort_order. reflexivity. Qed.
Lemma program_solid n : program n -> solid n.
Proof.
  intros (F & b & E). split; [|split; [|split]].
  - intro I. rewrite Forall_forall in F. specialize (F _ I). unfold name_byte in F. change (code "/") with 47 in F. decompose [or] F; try lia; discriminate.
  - intros ->. destruct b; discriminate E.
  - intros ->. apply (f_equal (@length ascii)) in E. rewrite app_length in E. change (length ($".wasm")) with 5%nat in E. cbn in E. lia.
  - intros ->. apply (f_equal (@length ascii)) in E. rewrite app_length in E. change (length ($".wasm")) with 5%nat in E. cbn in E. lia.
Qed.
Definition solid_b (x : str) : bool := negb (existsb is_slash x) && negb (seqb x []) && negb (seqb x ($".")) && negb (seqb x ($"..")).
Lemma solid_by x : solid_b x = true -> solid x.
Proof.
  unfold solid_b. rewrite !andb_true_iff, !negb_true_iff, !seqb_neq. intros (((A & B) & C) & D). repeat split; try assumption.
  intro I. apply not_true_iff_false in A. apply A. apply existsb_exists. exists "/"%char. auto.
Qed.
Lemma all_solid l : forallb solid_b l = true -> Forall solid l.
Proof. rewrite forallb_forall, Forall_forall. intros H x I. exact (solid_by x (H x I)). Qed.
Lemma thing_solid ws l a : Forall program ws -> thing ws l a -> Forall solid l.
Proof.
  intros P T. destruct T as [| |n [->| ->]|n [->| ->]|n I| | |m _]; try (apply all_solid; reflexivity).
  constructor; [apply solid_by; reflexivity|]. constructor; [|constructor]. apply program_solid. rewrite Forall_forall in P. exact (P n I).
Qed.
Definition paths (ws : list str) : list (list str) :=
  [[]; [$"index.html"]; [$"css"; $"bootstrap.min.css"]; [$"css"; $"index.css"]; [$"javascript"; $"index.js"]; [$"javascript"; $"sfomuseum.golang.wasm.bundle.js"];
   [$"css"]; [$"javascript"]; [$"wasm"]] ++ map (fun n => [$"wasm"; n]) ws.
Lemma thing_paths ws l : (exists a, thing ws l a) <-> In l (paths ws).
Proof.
  split.
  - intros (a & T). apply in_or_app. destruct T as [| |n [->| ->]|n [->| ->]|n I| | |m _]; try (left; cbn; tauto). right. apply in_map_iff. eauto.
  - intro I. apply in_app_or in I. destruct I as [I|I].
    + cbn [In] in I. decompose [or] I; try contradiction; subst l; eexists; [apply th_root|apply th_index|apply th_style; auto|apply th_style; auto|apply th_script; auto|apply th_script; auto|apply th_styles|apply th_scripts|apply th_programs; apply sorted_order].
    + apply in_map_iff in I. destruct I as (n & <- & I). eexists. apply th_program. exact I.
Qed.
Lemma thing_dec ws l : (exists a, thing ws l a) \/ forall a, ~ thing ws l a.
Proof.
  destruct (in_dec (list_eq_dec (list_eq_dec ascii_dec)) l (paths ws)) as [I|I]; [left; apply thing_paths; exact I|right]. intros a T. apply I. apply thing_paths. eauto.
Qed.
Lemma index_dec (l : list str) : (exists q, l = q ++ [$"index.html"]) \/ forall q, l <> q ++ [$"index.html"].
Proof.
  destruct l as [|x q _] using rev_ind; [right; intros q E; destruct q; discriminate E|]. destruct (list_eq_dec ascii_dec x ($"index.html")) as [->|N]; [left; eauto|right].
  intros q' E. apply app_inj_tail in E. tauto.
Qed.
Lemma ends_here ws p a : serve ws p = a -> (forall l, a <> Moved l) -> ends ws 0 p a.
Proof. apply en_here. Qed.

(** ** Programs *)
Lemma wasm_url l b : Forall solid l -> render l b <> $"/wasm" -> (exists l', l = $"wasm" :: l' /\ has_prefix (render l b) ($"/wasm/") = true /\ rooted (skipn 6 (render l b)) = render l' b) \/
  (forall l', l <> $"wasm" :: l') /\ has_prefix (render l b) ($"/wasm/") = false.
Proof.
  intros H N. rewrite render_joined in *. pose proof (solid_parts l b H) as P.
  destruct l as [|x l]; [right; split; [discriminate|destruct b; reflexivity]|].
  destruct (list_eq_dec ascii_dec x ($"wasm")) as [->|X].
  - left. exists l. split; [reflexivity|]. cbn [app] in *. destruct (l ++ tail_part ($"wasm" :: l) b) as [|y m] eqn:E; [exfalso; apply N; reflexivity|].
    rewrite joined_cons by discriminate. split; [apply has_prefix_spec; exists (joined ($"/") (y :: m)); reflexivity|].
    change (skipn 6 ("/"%char :: $"wasm" ++ $"/" ++ joined ($"/") (y :: m))) with (joined ($"/") (y :: m)).
    destruct l as [|z l].
    + destruct b; [|discriminate E]. injection E as <- <-. reflexivity.
    + inversion H as [|? ? _ H']; subst. inversion H' as [|? ? (Z & Z0 & _) _]; subst. cbn [app] in E. injection E as <- E. rewrite render_joined. cbn [app]. unfold tail_part in E. fold (tail_part (z :: l) b) in E. rewrite E.
      destruct z as [|c z]; [congruence|]. apply slash_part in Z. destruct m as [|u m]; [|rewrite joined_cons by discriminate]; cbn [joined app rooted]; rewrite (proj1 Z); reflexivity.
  - right. split; [congruence|]. apply not_true_iff_false. intro F. apply has_prefix_spec in F. destruct F as (r & F). cbn [app] in F. inversion P as [|? ? Px _]; subst.
    change ($"/wasm/" ++ r) with ("/"%char :: $"wasm" ++ "/"%char :: r) in F. injection F as F. change ("w"%char :: "a"%char :: "s"%char :: "m"%char :: "/"%char :: r) with ($"wasm" ++ "/"%char :: r) in F.
    destruct (l ++ tail_part (x :: l) b) as [|y m].
    + cbn [joined] in F. apply Px. rewrite F. apply in_or_app. right. left. reflexivity.
    + apply X. clear - F Px.
      assert (Q : part ($"wasm")) by apply (solid_by ($"wasm") eq_refl).
      assert (F' : x ++ "/"%char :: joined ($"/") (y :: m) = $"wasm" ++ "/"%char :: r) by exact F. clear F. rename F' into F.
      apply (f_equal (fun s => fst (to_slash s))) in F. rewrite (to_slash_part x ("/"%char :: joined ($"/") (y :: m)) Px eq_refl), (to_slash_part ($"wasm") ("/"%char :: r) Q eq_refl) in F. exact F.
Qed.

Section Site.
  Context (ws : list str) (P : Forall program ws).
  Lemma one_of_iff l x : one_of l x = true <-> In x l.
  Proof. unfold one_of. rewrite existsb_exists. split; [intros (y & I & E); apply seqb_eq in E; subst y; exact I|intro I; exists x; split; [exact I|apply seqb_refl]]. Qed.
  Lemma single (l : list str) n : Forall solid l -> part n -> l <> [] -> joined ($"/") l = n -> l = [n].
  Proof. intros H N L E. pose proof (split_parts l L (solid_part _ H)) as S. rewrite E in S. rewrite <- S. rewrite <- (split_parts [n]); [reflexivity|discriminate|constructor; [exact N|constructor]]. Qed.
  Lemma ws_part n : In n ws -> solid n.
  Proof. intro I. apply program_solid. rewrite Forall_forall in P. exact (P n I). Qed.
  Lemma open_program n : In n ws -> open (wasm ws) n = File.
  Proof. intro I. pose proof (ws_part n I) as (_ & N & _). unfold open. cbn [files wasm]. rewrite (proj2 (one_of_iff ws n) I). destruct n; [congruence|reflexivity]. Qed.
  Lemma open_wasm l : Forall solid l -> l <> [] -> (forall n, In n ws -> l <> [n]) -> open (wasm ws) (joined ($"/") l) = Nothing.
  Proof.
    intros H L N. unfold open. cbn [files folders wasm]. destruct (joined ($"/") l) eqn:E; [apply (joined_nil _ H) in E; contradiction|]. rewrite <- E.
    replace (one_of ws (joined ($"/") l)) with false; [reflexivity|]. symmetry. apply not_true_iff_false. rewrite one_of_iff. intro I. pose proof (ws_part _ I) as (S & _).
    exact (N _ I (single l _ H S L eq_refl)).
  Qed.
  Lemma open_www l : Forall solid l -> ~ In l [[]; [$"index.html"]; [$"css"; $"bootstrap.min.css"]; [$"css"; $"index.css"]; [$"javascript"; $"index.js"]; [$"javascript"; $"sfomuseum.golang.wasm.bundle.js"]; [$"css"]; [$"javascript"]] ->
    open www (joined ($"/") l) = Nothing.
  Proof.
    intros H N. unfold open. cbn [files folders www]. destruct (joined ($"/") l) eqn:E; [apply (joined_nil _ H) in E; exfalso; apply N; left; auto|]. rewrite <- E.
    assert (L : l <> []) by (intros ->; discriminate E).
    assert (K : forall m, m <> [] -> Forall part m -> joined ($"/") l = joined ($"/") m -> l = m)
      by (intros m M F Q; pose proof (split_parts l L (solid_part _ H)) as S1; rewrite Q, (split_parts m M F) in S1; auto).
    assert (F : forall m, forallb (fun x => negb (existsb is_slash x)) m = true -> Forall part m).
    { intro m. rewrite forallb_forall, Forall_forall. intros G x I J. specialize (G x I). apply negb_true_iff, not_true_iff_false in G. apply G. apply existsb_exists. exists "/"%char. auto. }
    assert (O : forall fs, In (joined ($"/") l) fs -> (forall x, In x fs -> exists m, m <> [] /\ forallb (fun x => negb (existsb is_slash x)) m = true /\ x = joined ($"/") m /\
      In m [[]; [$"index.html"]; [$"css"; $"bootstrap.min.css"]; [$"css"; $"index.css"]; [$"javascript"; $"index.js"]; [$"javascript"; $"sfomuseum.golang.wasm.bundle.js"]; [$"css"]; [$"javascript"]]) -> False).
    { intros fs I G. destruct (G _ I) as (m & M & Fm & Em & Im). apply N. rewrite (K m M (F m Fm) Em). exact Im. }
    replace (one_of _ (joined ($"/") l)) with false.
    - replace (one_of _ (joined ($"/") l)) with false; [reflexivity|]. symmetry. apply not_true_iff_false. rewrite one_of_iff. intro I. apply (O _ I). intros x [<-|[<-|[]]].
      + exists [$"css"]. repeat split; [discriminate|]. cbn. tauto.
      + exists [$"javascript"]. repeat split; [discriminate|]. cbn. tauto.
    - symmetry. apply not_true_iff_false. rewrite one_of_iff. intro I. apply (O _ I). intros x [<-|[<-|[<-|[<-|[<-|[]]]]]].
      + exists [$"index.html"]. repeat split; [discriminate|]. cbn. tauto.
      + exists [$"css"; $"bootstrap.min.css"]. repeat split; [discriminate|]. cbn. tauto.
      + exists [$"css"; $"index.css"]. repeat split; [discriminate|]. cbn. tauto.
      + exists [$"javascript"; $"index.js"]. repeat split; [discriminate|]. cbn. tauto.
      + exists [$"javascript"; $"sfomuseum.golang.wasm.bundle.js"]. repeat split; [discriminate|]. cbn. tauto.
  Qed.
  Lemma render_wasm l b : Forall solid l -> render l b = $"/wasm" -> l = [$"wasm"] /\ b = false.
  Proof.
    intros H E. pose proof (render_slash l b H) as S. rewrite E in S. change (ends_in_slash ($"/wasm")) with false in S. destruct l as [|x l]; [discriminate S|]. subst b. split; [|reflexivity].
    unfold render in E. rewrite app_nil_r in E. change ($"/wasm") with ("/"%char :: $"wasm") in E. injection E as E. apply (single _ ($"wasm") H); [apply (solid_by ($"wasm") eq_refl)|discriminate|exact E].
  Qed.
  (** What is not there. *)
  Lemma serve_missing l b : Forall solid l -> (forall a, ~ thing ws l a) -> (b = true \/ forall q, l <> q ++ [$"index.html"]) -> serve ws (render l b) = Missing.
  Proof.
    intros H N I. assert (W : render l b <> $"/wasm").
    { intro E. destruct (render_wasm l b H E) as (-> & _). apply (N (Listed (sort_strs ws))). apply th_programs. apply sorted_order. }
    rewrite (serve_render ws l b H W). destruct (wasm_url l b H W) as [(l' & -> & -> & R)|(L & ->)].
    - inversion H as [|? ? _ H']; subst. assert (L' : l' <> []) by (intros ->; apply (N (Listed (sort_strs ws))); apply th_programs; apply sorted_order).
      apply (answer_nothing Programs (wasm ws) _ l' b H' R).
      + destruct I as [I|I]; [left; exact I|right]. intros q Q. apply (I ($"wasm" :: q)). rewrite Q. reflexivity.
      + apply (open_wasm l' H' L'). intros n J ->. apply (N (Sent Programs n)). apply th_program. exact J.
    - apply (answer_nothing Pages www _ l b H (rooted_render l b) I). apply (open_www l H). intro J. assert (T : exists a, thing ws l a) by (apply thing_paths; apply in_or_app; left; cbn [In] in *; tauto).
      destruct T as (a & T). exact (N a T).
  Qed.
  Lemma serve_index q : Forall solid (q ++ [$"index.html"]) -> serve ws (render (q ++ [$"index.html"]) false) = Moved ($"./").
  Proof.
    intro H. assert (W : render (q ++ [$"index.html"]) false <> $"/wasm") by (intro E; destruct (render_wasm _ _ H E) as (Q & _); destruct q as [|x [|]]; discriminate Q).
    rewrite (serve_render ws _ false H W). destruct (wasm_url _ false H W) as [(l' & E & -> & R)|(L & ->)].
    - rewrite E in H. inversion H as [|? ? _ H']; subst. destruct q as [|x q]; [discriminate E|]. injection E as _ E. exact (answer_index Programs (wasm ws) _ l' false H' R q eq_refl (eq_sym E)).
    - exact (answer_index Pages www _ _ false H (rooted_render _ _) q eq_refl eq_refl).
  Qed.
  (** Programs. *)
  Lemma program_not_index n : In n ws -> n <> $"index.html".
  Proof.
    intros I ->. rewrite Forall_forall in P. destruct (P _ I) as (_ & b & E). apply (f_equal (@rev ascii)) in E. rewrite rev_app_distr in E. discriminate E.
  Qed.
  Lemma program_render n b : render [$"wasm"; n] b = $"/wasm/" ++ n ++ (if b then $"/" else []).
  Proof. unfold render. cbn [joined app]. destruct b; reflexivity. Qed.
  Lemma program_paths n : In n ws -> serve ws (render [$"wasm"; n] false) = Sent Programs n /\ serve ws (render [$"wasm"; n] true) = Moved ($"../" ++ n).
  Proof.
    intro I. pose proof (ws_part n I) as S. assert (H : Forall solid [$"wasm"; n]) by (constructor; [apply solid_by; reflexivity|repeat constructor; apply S]).
    assert (Q : forall b q, b = true \/ [n] <> q ++ [$"index.html"]) by (intros b q; right; intro E; destruct q as [|x [|]]; try discriminate E; injection E as E; exact (program_not_index n I E)).
    assert (W : forall b, render [$"wasm"; n] b <> $"/wasm") by (intros b E; destruct (render_wasm _ b H E) as (D & _); discriminate D).
    assert (K : forall b, serve ws (render [$"wasm"; n] b) = serve_file Programs (wasm ws) (skipn 6 (render [$"wasm"; n] b)) /\ rooted (skipn 6 (render [$"wasm"; n] b)) = render [n] b).
    { intro b. rewrite (serve_render ws _ b H (W b)). destruct (wasm_url _ b H (W b)) as [(l' & E & -> & R)|(L & _)]; [injection E as <-; auto|exfalso; exact (L [n] eq_refl)]. }
    assert (Hn : Forall solid [n]) by (repeat constructor; apply S).
    split.
    - destruct (K false) as (-> & R). apply (answer_file Programs (wasm ws) _ [n] false Hn R); [right; intros q E; destruct (Q false q) as [D|D]; [discriminate D|exact (D E)]|exact (open_program n I)|discriminate|reflexivity].
    - destruct (K true) as (-> & R). apply (answer_file_slash Programs (wasm ws) _ [n] true Hn R (or_introl eq_refl) [] n); [exact (open_program n I)|reflexivity|reflexivity].
  Qed.
  Lemma listed_programs : serve ws ($"/wasm/") = Listed (sort_strs ws).
  Proof.
    change (serve ws ($"/wasm/")) with (match open (wasm ws) ($"index.html") with File => Sent Programs ($"index.html") | _ => Listed (entries (wasm ws) []) end).
    assert (O : open (wasm ws) ($"index.html") = Nothing).
    { apply (open_wasm [$"index.html"]); [apply all_solid; reflexivity|discriminate|intros n I E]. assert (E' : $"index.html" = n) by (inversion E; reflexivity). exact (program_not_index n I (eq_sym E')). }
    rewrite O.
    f_equal. unfold entries. cbn [files folders wasm flat_map]. rewrite app_nil_r.
    assert (F : flat_map (inside_of []) ws = ws).
    { assert (G : forall l, (forall n, In n l -> solid n) -> flat_map (inside_of []) l = l).
      { induction l as [|n l IH]; intro G; [reflexivity|]. cbn [flat_map]. rewrite IH by (intros m I; apply G; right; exact I).
        unfold inside_of. rewrite has_prefix_nil. cbn [length skipn]. pose proof (G n (or_introl eq_refl)) as (S & _).
        replace (existsb is_slash n) with false; [reflexivity|]. symmetry. apply not_true_iff_false. rewrite existsb_exists. intros (c & J & C). apply Ascii.eqb_eq in C. subst c. exact (S J). }
      apply G. exact ws_part. }
    rewrite F. cbn [one_of existsb]. apply map_id.
  Qed.

  (** ** Where paths end *)
  Ltac here := apply en_here; [reflexivity|discriminate].
  Lemma thing_ends l a (b : bool) : thing ws l a -> exists n : nat, (n <= (if b then 2 else 1))%nat /\ ends ws n (render l b) a.
  Proof.
    intro T. assert (R : ends ws 0 (render [] b) (Sent Pages ($"index.html"))) by (destruct b; here).
    assert (X : ends ws 1 (render [$"index.html"] false) (Sent Pages ($"index.html"))) by (eapply en_moved; [reflexivity|]; here).
    destruct T as [| |n [->| ->]|n [->| ->]|n I| | |m O]; [..|apply sort_order in O; subst m].
    - exists 0%nat. split; [lia|exact R].
    - destruct b; [exists 2%nat; split; [lia|]; eapply en_moved; [reflexivity|exact X]|exists 1%nat; split; [lia|exact X]].
    - destruct b; [exists 1%nat; split; [lia|]; eapply en_moved; [reflexivity|here]|exists 0%nat; split; [lia|here]].
    - destruct b; [exists 1%nat; split; [lia|]; eapply en_moved; [reflexivity|here]|exists 0%nat; split; [lia|here]].
    - destruct b; [exists 1%nat; split; [lia|]; eapply en_moved; [reflexivity|here]|exists 0%nat; split; [lia|here]].
    - destruct b; [exists 1%nat; split; [lia|]; eapply en_moved; [reflexivity|here]|exists 0%nat; split; [lia|here]].
    - destruct (program_paths n I) as (E0 & E1). assert (H : Forall solid ([$"wasm"] ++ [n])) by (apply Forall_app; split; [apply all_solid; reflexivity|repeat constructor; apply (ws_part n I)]).
      destruct b.
      + exists 1%nat. split; [lia|]. apply (en_moved ws 0 _ _ _ E1). change [$"wasm"; n] with ([$"wasm"] ++ [n]). rewrite (resolve_up [$"wasm"] n H). apply en_here; [exact E0|discriminate].
      + exists 0%nat. split; [lia|]. apply en_here; [exact E0|discriminate].
    - destruct b; [exists 0%nat; split; [lia|here]|exists 1%nat; split; [lia|]; eapply en_moved; [reflexivity|here]].
    - destruct b; [exists 0%nat; split; [lia|here]|exists 1%nat; split; [lia|]; eapply en_moved; [reflexivity|here]].
    - assert (E : ends ws 0 ($"/wasm/") (Listed (sort_strs ws))) by (apply en_here; [exact listed_programs|discriminate]).
      destruct b; [exists 0%nat; split; [lia|exact E]|exists 1%nat; split; [lia|]; eapply en_moved; [reflexivity|exact E]].
  Qed.
  Lemma clean_ends l b : Forall solid l -> exists n a, (n <= 3)%nat /\ ends ws n (render l b) a /\ (forall slash : Prop, (l = [] \/ (slash <-> b = true)) -> arrives ws l slash a).
  Proof.
    intro H. destruct (thing_dec ws l) as [(a & T)|N].
    - destruct (thing_ends l a b T) as (n & Hn & E). exists n, a. split; [destruct b; lia|]. split; [exact E|]. intros slash _. exact (ar_there ws l slash a T).
    - destruct (index_dec l) as [(q & ->)|I].
      + pose proof (solid_snoc _ _ H) as (Hq & _). destruct b.
        * exists 0%nat, Missing. split; [lia|]. split; [apply en_here; [exact (serve_missing _ true H N (or_introl eq_refl))|discriminate]|].
          intros slash [S|S]; [destruct q; discriminate S|]. apply ar_none; [exact N|]. intros q' a Q T. apply S. reflexivity.
        * destruct (thing_dec ws q) as [(a & T)|Nq].
          { destruct (thing_ends q a true T) as (n & Hn & E). exists (S n), a. split; [lia|]. split; [apply (en_moved ws n _ _ _ (serve_index q H)); rewrite (resolve_here q _ H); exact E|].
            intros slash [S|S]; [destruct q; discriminate S|]. apply ar_index; [exact T|]. intro K. apply S in K. discriminate K. }
          { exists 1%nat, Missing. split; [lia|]. split.
            - apply (en_moved ws 0 _ _ _ (serve_index q H)). rewrite (resolve_here q _ H). apply en_here; [|discriminate]. exact (serve_missing q true Hq Nq (or_introl eq_refl)).
            - intros slash _. apply ar_none; [exact N|]. intros q' a Q T. apply app_inj_tail in Q. destruct Q as (<- & _). destruct (Nq a T). }
      + exists 0%nat, Missing. split; [lia|]. split; [apply en_here; [exact (serve_missing l b H N (or_intror I))|discriminate]|].
        intros slash _. apply ar_none; [exact N|]. intros q a Q _. destruct (I q Q).
  Qed.
End Site.

Section Any.
  Context (ws : list str) (P : Forall program ws).
  Lemma parts_exist p : exists l, parts_of p l.
  Proof.
    induction p as [|c p (l & E & N & F)]; [exists [[]]; repeat split; [discriminate|repeat constructor; intros []]|].
    destruct l as [|x l]; [congruence|]. inversion F as [|? ? X F']; subst. destruct (is_slash c) eqn:C.
    - apply Ascii.eqb_eq in C. subst c. exists ([] :: x :: l). split; [exact (eq_sym (joined_cons ($"/") [] (x :: l) ltac:(discriminate)))|]. split; [discriminate|constructor; [intros []|exact F]].
    - exists ((c :: x) :: l). apply Ascii.eqb_neq in C. split; [destruct l as [|y l]; [reflexivity|reflexivity]|]. split; [discriminate|].
      constructor; [intros [D|D]; [congruence|exact (X D)]|exact F'].
  Qed.
  Lemma leads_exist l : exists to, leads [] l to.
  Proof.
    assert (G : forall l a, exists to, leads a l to); [|apply G]. clear l. induction l as [|x l IH]; intro a; [exists a; constructor|].
    destruct (one_dot x) eqn:D; [apply one_dot_iff in D; destruct (IH a) as (t & T); exists t; constructor; assumption|].
    apply not_true_iff_false in D. rewrite one_dot_iff in D. destruct (list_eq_dec ascii_dec x ($"..")) as [->|N].
    - destruct a as [|y a _] using rev_ind; [destruct (IH []) as (t & T); exists t; apply ld_top; exact T|destruct (IH a) as (t & T); exists t; apply ld_up; exact T].
    - destruct (IH (a ++ [x])) as (t & T). exists t. apply ld_down; tauto.
  Qed.
  Lemma ends_unique n p a : ends ws n p a -> forall n' a', ends ws n' p a' -> n = n' /\ a = a'.
  Proof.
    intro H. induction H as [p a E N|n p l a E _ IH]; intros n' a' H'; destruct H' as [p a' E' N'|n' p l' a' E' H'].
    - split; congruence.
    - destruct (N l'). congruence.
    - destruct (N' l). congruence.
    - rewrite E in E'. injection E' as <-. destruct (IH _ _ H') as (-> & ->). auto.
  Qed.
  Lemma ends_follow n p a : ends ws n p a -> forall k, (n <= k)%nat -> follow k ws p = a.
  Proof.
    intro H. induction H as [p a E N|n p l a E _ IH]; intros k K.
    - destruct k; cbn [follow]; rewrite E; destruct a; try reflexivity; destruct (N location); reflexivity.
    - destruct k as [|k]; [lia|]. cbn [follow]. rewrite E. apply IH. lia.
  Qed.
  Lemma any_ends p l to : parts_of p l -> leads [] l to -> exists n a, (n <= 4)%nat /\ ends ws n p a /\ arrives ws to (slash_last p) a.
  Proof.
    intros Q L. apply leads_walk in L. subst to. destruct (clean_parts p l Q) as (S & _).
    destruct (clean_ends ws P _ (ends_in_slash p) S) as (n & a & Hn & E & A). specialize (A (slash_last p) (or_intror (iff_sym (ends_in_slash_iff p)))).
    destruct (serve_clean ws p l Q) as [C|[C|(W & C)]].
    - exists n, a. split; [lia|]. split; [rewrite C; exact E|exact A].
    - exists (Datatypes.S n), a. split; [lia|]. split; [apply (en_moved ws n _ _ _ C); rewrite (resolve_absolute p _ _ S); exact E|exact A].
    - destruct (render_wasm _ _ S W) as (V & B). exists 1%nat, (Listed (sort_strs ws)). split; [lia|]. split.
      + apply (en_moved ws 0 _ _ _ C). apply en_here; [|discriminate]. exact (listed_programs ws P).
      + rewrite V. apply ar_there. apply th_programs. apply sorted_order.
  Qed.
  Lemma any_arrives p l to : parts_of p l -> leads [] l to ->
    exists n a, (n <= 4)%nat /\ ends ws n p a /\ arrives ws to (slash_last p) a /\ (forall n' a', ends ws n' p a' -> n' = n /\ a' = a) /\ forall k, (4 <= k)%nat -> follow k ws p = a.
  Proof.
    intros Q L. destruct (any_ends p l to Q L) as (n & a & N & E & A). exists n, a. repeat split; try assumption; try (eapply ends_unique; eassumption).
    intros k K. apply (ends_follow n p a E). lia.
  Qed.
  Lemma thing_moved l a : thing ws l a -> forall l', a <> Moved l'.
  Proof. intros T l'. destruct T; discriminate. Qed.
  (** Answers at once. *)
  Lemma at_once p a : serve ws p = a -> (forall l, a <> Moved l) -> a <> Missing -> exists l b, p = render l b /\ thing ws l a.
  Proof.
    intros E N M. destruct (parts_exist p) as (l & Q). destruct (clean_parts p l Q) as (S & _). destruct (serve_clean ws p l Q) as [C|[C|(_ & C)]]; [|rewrite C in E; destruct (N _ (eq_sym E))|rewrite C in E; destruct (N _ (eq_sym E))].
    exists (walk [] l), (ends_in_slash p). split; [exact C|]. rewrite C in E. set (m := walk [] l) in *. set (b := ends_in_slash p) in *. clearbody m b.
    destruct (clean_ends ws P m b S) as (n & a' & _ & E' & A). assert (H : ends ws 0 (render m b) a) by (apply en_here; assumption).
    destruct (ends_unique _ _ _ H _ _ E') as (<- & <-). specialize (A (b = true) (or_intror (iff_refl _))). inversion A as [? ? ? T|q ? ? T B|? ? ? ?]; subst; [exact T| |congruence].
    exfalso. assert (B' : b = false) by (destruct b; [contradiction B; reflexivity|reflexivity]). rewrite B', (serve_index ws q S) in H. inversion H as [? ? X Y|]; subst. exact (Y _ eq_refl).
  Qed.
  Lemma sent_exactly w f p : serve ws p = Sent w f <-> sent_at ws w f p.
  Proof.
    split.
    - intro E. destruct (at_once p _ E ltac:(discriminate) ltac:(discriminate)) as (l & b & -> & T). destruct b.
      + inversion T as [| |n H|n H|n H| | |]; subst; try (destruct H as [->| ->]); try (vm_compute in E; discriminate E).
        * apply sa_index.
        * destruct (program_paths ws P f H) as (_ & E1). rewrite E1 in E. discriminate E.
      + inversion T as [| |n H|n H|n H| | |]; subst; try (destruct H as [->| ->]); try (vm_compute in E; discriminate E).
        * apply sa_index.
        * exact (sa_page ws ($"css/bootstrap.min.css") (or_introl eq_refl)).
        * exact (sa_page ws ($"css/index.css") (or_intror (or_introl eq_refl))).
        * exact (sa_page ws ($"javascript/index.js") (or_intror (or_intror (or_introl eq_refl)))).
        * exact (sa_page ws ($"javascript/sfomuseum.golang.wasm.bundle.js") (or_intror (or_intror (or_intror (or_introl eq_refl))))).
        * rewrite program_render, app_nil_r. apply sa_program. exact H.
    - intro H. destruct H as [|f [<-|[<-|[<-|[<-|[]]]]]|f I]; try reflexivity. destruct (program_paths ws P f I) as (E & _). rewrite program_render, app_nil_r in E. exact E.
  Qed.
  Lemma listed_exactly p x : serve ws p = Listed x <->
    p = $"/css/" /\ x = [$"bootstrap.min.css"; $"index.css"] \/ p = $"/javascript/" /\ x = [$"index.js"; $"sfomuseum.golang.wasm.bundle.js"] \/ p = $"/wasm/" /\ in_order ws x.
  Proof.
    split.
    - intro E. destruct (at_once p _ E ltac:(discriminate) ltac:(discriminate)) as (l & b & -> & T). inversion T as [| | | | | | |m M]; subst; destruct b; try (vm_compute in E; discriminate E); auto.
    - intros [(-> & ->)|[(-> & ->)|(-> & O)]]; [reflexivity|reflexivity|apply sort_order in O; subst x; exact (listed_programs ws P)].
  Qed.
  Lemma no_fault p : serve ws p <> Fault.
  Proof. intro E. destruct (at_once p _ E ltac:(discriminate) ltac:(discriminate)) as (l & b & -> & T). inversion T. Qed.
End Any.
Lemma page_refs ws p : Forall program ws -> In ($"parse-js.wasm") ws -> serve ws p = Sent Pages ($"index.html") ->
  (forall r, In r [$"css/bootstrap.min.css"; $"css/index.css"; $"javascript/sfomuseum.golang.wasm.bundle.js"; $"javascript/index.js"] -> serve ws (resolve p r) = Sent Pages r) /\
  serve ws (resolve p ($"wasm/parse-js.wasm")) = Sent Programs ($"parse-js.wasm").
Proof.
  intros P I E. apply (sent_exactly ws P) in E. assert (p = $"/") as ->.
  { inversion E as [|f [<-|[<-|[<-|[<-|[]]]]]|]; subst; try discriminate; reflexivity. }
  split; [intros r [<-|[<-|[<-|[<-|[]]]]]; reflexivity|]. change (resolve ($"/") ($"wasm/parse-js.wasm")) with ($"/wasm/" ++ $"parse-js.wasm"). apply (sent_exactly ws P). apply sa_program. exact I.
Qed.
