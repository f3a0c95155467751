(** How a client reads a reference (C91). *)
From Coq Require Import Ascii String ZArith NArith Bool Lia ZifyBool List.
From Verif Require Import GoStr SpecText StrFacts SplitFacts Site SpecSite SiteProofs Target SpecTarget TargetProofs.
Import ListNotations.
Open Scope Z_scope.

Lemma with_slashes_flat l : with_slashes l = flat_map (fun x => "/"%char :: x) l.
Proof. induction l as [|x l IH]; [reflexivity|]. cbn [with_slashes flat_map app]. rewrite IH. reflexivity. Qed.
Lemma folder_joined q m : m <> [] -> folder_path q ++ joined ($"/") m = "/"%char :: joined ($"/") (q ++ m).
Proof.
  intro M. induction q as [|x q IH]; [reflexivity|]. unfold folder_path in *. cbn [flat_map app]. rewrite joined_cons by (destruct q; [exact M|discriminate]).
  f_equal. rewrite <- !app_assoc. f_equal. rewrite <- app_assoc in IH. exact IH.
Qed.
Definition ends_dir (x : str) : bool := one_dot x || seqb x ($"..").
Lemma no_dots_leads q m to : leads q m to -> m <> [] -> Forall (fun x => x <> []) (removelast m) ->
  rev (no_dots (rev q) m) = to ++ (if ends_dir (last m []) then [[]] else []).
Proof.
  intro L. apply leads_walk in L. subst to. revert q. induction m as [|x m IH]; intros q N F; [congruence|].
  assert (RT : tl (rev q) = rev (removelast q)) by (destruct q as [|y q _] using rev_ind; [reflexivity|rewrite rev_app_distr, removelast_last; reflexivity]).
  destruct m as [|y m].
  - cbn [no_dots walk last]. unfold ends_dir, one_dot. destruct (seqb x []) eqn:E0; [apply seqb_eq in E0; subst x; cbn [orb]; change (seqb [] ($".")) with false; change (seqb [] ($"..")) with false; cbv iota; cbn [rev]; rewrite rev_involutive; reflexivity|].
    cbn [orb]. destruct (seqb x ($".")) eqn:E1; cbn [orb]; [cbn [rev]; rewrite rev_involutive; reflexivity|]. destruct (seqb x ($"..")) eqn:E2; cbn [rev].
    + rewrite RT, rev_involutive. reflexivity.
    + rewrite rev_involutive, app_nil_r. reflexivity.
  - change (removelast (x :: y :: m)) with (x :: removelast (y :: m)) in F. inversion F as [|? ? X F']; subst. change (last (x :: y :: m) []) with (last (y :: m) (@nil ascii)).
    change (no_dots (rev q) (x :: y :: m)) with (if seqb x ($".") then no_dots (rev q) (y :: m) else if seqb x ($"..") then no_dots (tl (rev q)) (y :: m) else no_dots (x :: rev q) (y :: m)).
    rewrite walk_cons. cbn [walk]. unfold one_dot. rewrite (proj2 (seqb_neq x []) X). cbn [orb]. destruct (seqb x ($".")); [exact (IH q ltac:(discriminate) F')|]. destruct (seqb x ($"..")).
    + rewrite RT. exact (IH (removelast q) ltac:(discriminate) F').
    + replace (x :: rev q) with (rev (q ++ [x])) by (rewrite rev_app_distr; reflexivity). exact (IH (q ++ [x]) ltac:(discriminate) F').
Qed.
Lemma reference_read q x ref m to : Forall (fun y => ~ In "/"%char y /\ y <> [] /\ y <> $"." /\ y <> $"..") q -> ~ In "/"%char x -> ref <> [] -> parts_of ref m -> Forall (fun y => y <> []) (removelast m) -> leads q m to ->
  (In (last m []) [[]; $"."; $".."] -> resolve (folder_path q ++ x) ref = folder_path to) /\
  (~ In (last m []) [[]; $"."; $".."] -> resolve (folder_path q ++ x) ref ++ $"/" = folder_path to).
Proof.
  intros Q X R (E & M & P) F L.
  assert (HD : exists c r, ref = c :: r /\ is_slash c = false).
  { destruct ref as [|c r]; [congruence|]. exists c, r. split; [reflexivity|]. apply Ascii.eqb_neq. intros ->. destruct m as [|y m]; [congruence|]. inversion P as [|? ? Y _]; subst. destruct m as [|z m].
    - cbn [joined] in E. apply Y. rewrite <- E. left. reflexivity.
    - rewrite joined_cons in E by discriminate. change (removelast (y :: z :: m)) with (y :: removelast (z :: m)) in F. inversion F as [|? ? Y0 _]; subst. destruct y as [|d y]; [congruence|]. injection E as <- _. apply Y. left. reflexivity. }
  assert (B : base_folder (folder_path q ++ x) = folder_path q).
  { unfold folder_path. rewrite <- app_assoc. change ($"/" ++ x) with ("/"%char :: x). exact (folder_last _ x X). }
  assert (G : resolve (folder_path q ++ x) ref = flat_map (fun y => "/"%char :: y) (to ++ (if ends_dir (last m []) then [[]] else []))).
  { rewrite (resolve_text _ _ (joined ($"/") (q ++ m)) (q ++ m) HD).
    - assert (K : no_dots [] (q ++ m) = no_dots (rev q) m) by (etransitivity; [exact (no_dots_solid [] q m Q M)|]; f_equal; apply app_nil_r).
      etransitivity; [exact (f_equal (fun z => with_slashes (rev z)) K)|]. etransitivity; [exact (f_equal with_slashes (no_dots_leads q m to L M F))|]. apply with_slashes_flat.
    - rewrite B, E. apply folder_joined. exact M.
    - reflexivity.
    - destruct q; [exact M|discriminate].
    - apply Forall_app. split; [exact (solid_part _ Q)|exact P]. }
  assert (D : ends_dir (last m []) = true <-> In (last m []) [[]; $"."; $".."]).
  { unfold ends_dir. rewrite orb_true_iff, one_dot_iff, seqb_eq. cbn [In]. split; [intros [[H|H]|H]|intros [H|[H|[H|[]]]]]; auto. }
  rewrite G, flat_map_app. split; intro I.
  - apply D in I. rewrite I. reflexivity.
  - destruct (ends_dir (last m [])) eqn:ED; [exfalso; apply I, D; reflexivity|]. cbn [flat_map]. rewrite app_nil_r. reflexivity.
Qed.
