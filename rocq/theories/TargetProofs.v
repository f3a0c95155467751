(** Lemmas for C93. *)
From Coq Require Import Ascii String ZArith NArith Bool Lia ZifyBool List.
From Verif Require Import GoStr SpecText SpecReads StrFacts SplitFacts SetGrammar SetProofs ReadsSet MembersProofs Site SpecSite SiteProofs Target SpecTarget.
Import ListNotations.
Open Scope Z_scope.
Ltac Zify.zify_post_hook ::= Z.div_mod_to_equations.

(** ** Bytes *)
Lemma each_byte (f : ascii -> bool) : forallb f (map (fun n => chr (Z.of_nat n)) (seq 0 256)) = true -> forall c, f c = true.
Proof.
  intros H c. rewrite forallb_forall in H. apply H. apply in_map_iff. exists (Z.to_nat (code c)). pose proof (code_range c) as R.
  split; [rewrite Z2Nat.id by lia; apply chr_code|]. apply in_seq. lia.
Qed.
Lemma stays_iff c : stays c = true <-> usual_byte c.
Proof.
  unfold stays, usual_byte. rewrite !orb_true_iff, !andb_true_iff, !Z.leb_le, existsb_exists. split.
  - intros [[[H|H]|H]|(x & I & E)]; [tauto..|]. apply Ascii.eqb_eq in E. subst x. tauto.
  - intros [H|[H|[H|H]]]; [tauto..|]. right. exists c. split; [exact H|apply Ascii.eqb_refl].
Qed.
Lemma hex_value_iff c x : hex_value c = Some x <-> hexit c x.
Proof.
  split.
  - intro H. assert (Q : match hex_value c with Some x => (0 <=? x) && (match nth_error ($"0123456789abcdef") (Z.to_nat x) with Some d => Ascii.eqb d c | None => false end ||
      match nth_error ($"0123456789ABCDEF") (Z.to_nat x) with Some d => Ascii.eqb d c | None => false end) | None => true end = true).
    { revert c H. refine (fun c _ => each_byte (fun c => match hex_value c with Some x => (0 <=? x) && (match nth_error ($"0123456789abcdef") (Z.to_nat x) with Some d => Ascii.eqb d c | None => false end ||
        match nth_error ($"0123456789ABCDEF") (Z.to_nat x) with Some d => Ascii.eqb d c | None => false end) | None => true end) _ c). vm_compute. reflexivity. }
    rewrite H in Q. apply andb_true_iff in Q. destruct Q as (N & Q). split; [lia|]. apply orb_true_iff in Q. destruct Q as [Q|Q]; [left|right];
    destruct (nth_error _ _); try discriminate Q; apply Ascii.eqb_eq in Q; subst; reflexivity.
  - intros (N & H). assert (L : (Z.to_nat x < 16)%nat).
    { destruct H as [H|H]; apply (nth_error_Some _ _ : _ -> _) in H || (assert (G : nth_error ($"0123456789abcdef") (Z.to_nat x) <> None \/ nth_error ($"0123456789ABCDEF") (Z.to_nat x) <> None) by (rewrite H; first [left; discriminate|right; discriminate]); destruct G as [G|G]; apply nth_error_Some in G; exact G). }
    remember (Z.to_nat x) as k eqn:K. assert (x = Z.of_nat k) as -> by lia. clear K N.
    do 16 (destruct k as [|k]; [destruct H as [H|H]; injection H as <-; reflexivity|]). lia.
Qed.
Lemma stays_not c : stays c = true -> c <> "%"%char /\ c <> "?"%char /\ c <> "#"%char /\ control c = false /\ code c < 128.
Proof.
  intro H. assert (Q : implb (stays c) (negb (Ascii.eqb c "%") && negb (Ascii.eqb c "?") && negb (Ascii.eqb c "#") && negb (control c) && (code c <? 128)) = true).
  { apply (each_byte (fun c => implb (stays c) (negb (Ascii.eqb c "%") && negb (Ascii.eqb c "?") && negb (Ascii.eqb c "#") && negb (control c) && (code c <? 128)))). vm_compute. reflexivity. }
  rewrite H in Q. cbn [implb] in Q. rewrite !andb_true_iff, !negb_true_iff, !Ascii.eqb_neq, Z.ltb_lt in Q. tauto.
Qed.
Definition fine (d : ascii) : bool := negb (Ascii.eqb d "?") && negb (Ascii.eqb d "#") && negb (control d) && (code d <? 128).
Lemma byte_fine c : Forall (fun d => fine d = true) (escape_byte c).
Proof.
  apply Forall_forall. apply forallb_forall. apply (each_byte (fun c => forallb fine (escape_byte c))). vm_compute. reflexivity.
Qed.
Lemma byte_slash c : In "/"%char (escape_byte c) -> c = "/"%char.
Proof.
  intro I. assert (Q : implb (existsb (Ascii.eqb "/") (escape_byte c)) (Ascii.eqb c "/") = true).
  { apply (each_byte (fun c => implb (existsb (Ascii.eqb "/") (escape_byte c)) (Ascii.eqb c "/"))). vm_compute. reflexivity. }
  replace (existsb (Ascii.eqb "/") (escape_byte c)) with true in Q; [apply Ascii.eqb_eq; exact Q|].
  symmetry. apply existsb_exists. exists "/"%char. split; [exact I|reflexivity].
Qed.
Lemma byte_unescaped c r : unescape (escape_byte c ++ r) = option_map (cons c) (unescape r).
Proof.
  unfold escape_byte. destruct (stays c) eqn:E.
  - destruct (stays_not c E) as (N & _). cbn [app unescape]. rewrite (proj2 (Ascii.eqb_neq _ _) N). reflexivity.
  - assert (Q : match hex_value (high_digit (code c / 16)), hex_value (high_digit (code c mod 16)) with Some x, Some y => Ascii.eqb (chr (16 * x + y)) c | _, _ => false end = true).
    { apply (each_byte (fun c => match hex_value (high_digit (code c / 16)), hex_value (high_digit (code c mod 16)) with Some x, Some y => Ascii.eqb (chr (16 * x + y)) c | _, _ => false end)). vm_compute. reflexivity. }
    cbn [app unescape]. change (Ascii.eqb "%" "%") with true. cbv iota.
    destruct (hex_value (high_digit (code c / 16))) as [x|]; [|discriminate Q]. destruct (hex_value (high_digit (code c mod 16))) as [y|]; [|discriminate Q].
    apply Ascii.eqb_eq in Q. rewrite Q. reflexivity.
Qed.
Lemma unescape_escape p : unescape (escape p) = Some p.
Proof.
  induction p as [|c p IH]; [reflexivity|]. change (escape (c :: p)) with (escape_byte c ++ escape p). rewrite byte_unescaped, IH. reflexivity.
Qed.
Lemma escape_inj p q : escape p = escape q -> p = q.
Proof. intro E. pose proof (unescape_escape p) as A. rewrite E, unescape_escape in A. congruence. Qed.
Lemma escape_app p q : escape (p ++ q) = escape p ++ escape q.
Proof. apply flat_map_app. Qed.
Lemma escape_fine p : Forall (fun d => fine d = true) (escape p).
Proof. induction p as [|c p IH]; [constructor|]. apply Forall_app. split; [apply byte_fine|exact IH]. Qed.
Lemma escape_stays l : Forall (fun c => stays c = true) l -> escape l = l.
Proof. intro H. induction H as [|c l C _ IH]; [reflexivity|]. cbn [escape flat_map]. unfold escape_byte at 1. rewrite C. cbn [app]. f_equal. exact IH. Qed.
Lemma unescape_iff r p : unescape r = Some p <-> encodes r p.
Proof.
  split.
  - assert (G : forall n r p, (length r <= n)%nat -> unescape r = Some p -> encodes r p); [|apply (G (length r)); lia].
    clear r p. induction n as [|n IH]; intros r p L H.
    + destruct r; [injection H as <-; constructor|cbn in L; lia].
    + destruct r as [|c r]; [injection H as <-; constructor|]. cbn [unescape] in H. cbn [length] in L. destruct (Ascii.eqb c "%") eqn:C.
      * apply Ascii.eqb_eq in C. subst c. destruct r as [|a [|b r]]; try discriminate H. destruct (hex_value a) as [x|] eqn:X; [|discriminate H]. destruct (hex_value b) as [y|] eqn:Y; [|discriminate H].
        destruct (unescape r) as [q|] eqn:U; [|discriminate H]. injection H as <-. apply ec_hex; [apply hex_value_iff; exact X|apply hex_value_iff; exact Y|]. apply IH; [cbn [length] in L; lia|exact U].
      * apply Ascii.eqb_neq in C. destruct (unescape r) as [q|] eqn:U; [|discriminate H]. injection H as <-. constructor; [exact C|]. apply IH; [lia|exact U].
  - intro H. induction H as [|c r p C _ IH|a b x y r p X Y _ IH].
    + reflexivity.
    + cbn [unescape]. rewrite (proj2 (Ascii.eqb_neq _ _) C), IH. reflexivity.
    + cbn [unescape]. change (Ascii.eqb "%" "%") with true. cbv iota. rewrite (proj2 (hex_value_iff a x) X), (proj2 (hex_value_iff b y) Y), IH. reflexivity.
Qed.
Lemma high_digit_nth x : 0 <= x < 16 -> nth_error ($"0123456789ABCDEF") (Z.to_nat x) = Some (high_digit x).
Proof.
  intro H. assert (Q : forallb (fun k => match nth_error ($"0123456789ABCDEF") k with Some d => Ascii.eqb d (high_digit (Z.of_nat k)) | None => false end) (seq 0 16) = true) by (vm_compute; reflexivity).
  rewrite forallb_forall in Q. specialize (Q (Z.to_nat x)). rewrite in_seq in Q. specialize (Q ltac:(lia)). rewrite Z2Nat.id in Q by lia.
  destruct (nth_error _ _) as [d|]; [|discriminate Q]. apply Ascii.eqb_eq in Q. subst d. reflexivity.
Qed.
Lemma usual_escape r p : usual r p <-> r = escape p.
Proof.
  split.
  - intro H. induction H as [|c r p C _ IH|c a b x y r p C E X Y A B _ IH].
    + reflexivity.
    + apply stays_iff in C. cbn [escape flat_map]. unfold escape_byte at 1. rewrite C. cbn [app]. f_equal. exact IH.
    + assert (S : stays c = false) by (apply not_true_iff_false; rewrite stays_iff; exact C).
      assert (LX : (Z.to_nat x < 16)%nat) by (change 16%nat with (length ($"0123456789ABCDEF")); apply nth_error_Some; rewrite A; discriminate).
      assert (LY : (Z.to_nat y < 16)%nat) by (change 16%nat with (length ($"0123456789ABCDEF")); apply nth_error_Some; rewrite B; discriminate).
      rewrite (high_digit_nth x) in A by lia. rewrite (high_digit_nth y) in B by lia. injection A as <-. injection B as <-.
      cbn [escape flat_map]. unfold escape_byte at 1. rewrite S. cbn [app]. replace (code c / 16) with x by lia. replace (code c mod 16) with y by lia. rewrite IH. reflexivity.
  - intros ->. induction p as [|c p IH]; [constructor|]. cbn [escape flat_map]. unfold escape_byte at 1. destruct (stays c) eqn:S.
    + cbn [app]. constructor; [apply stays_iff; exact S|exact IH].
    + cbn [app]. pose proof (code_range c). apply (us_hex c _ _ (code c / 16) (code c mod 16)); try lia.
      * rewrite <- stays_iff. congruence.
      * apply high_digit_nth. lia.
      * apply high_digit_nth. lia.
      * exact IH.
Qed.

Lemma small_digit_nth x : 0 <= x < 16 -> nth_error ($"0123456789abcdef") (Z.to_nat x) = Some (small_digit x).
Proof.
  intro H. assert (Q : forallb (fun k => match nth_error ($"0123456789abcdef") k with Some d => Ascii.eqb d (small_digit (Z.of_nat k)) | None => false end) (seq 0 16) = true) by (vm_compute; reflexivity).
  rewrite forallb_forall in Q. specialize (Q (Z.to_nat x)). rewrite in_seq in Q. specialize (Q ltac:(lia)). rewrite Z2Nat.id in Q by lia.
  destruct (nth_error _ _) as [d|]; [|discriminate Q]. apply Ascii.eqb_eq in Q. subst d. reflexivity.
Qed.
Lemma ascii_only_in s : in_ascii s (ascii_only s).
Proof.
  induction s as [|c s IH]; [constructor|]. cbn [ascii_only flat_map]. pose proof (code_range c). destruct (code c <? 128) eqn:C.
  - cbn [app]. constructor; [lia|exact IH].
  - cbn [app]. apply (ia_hex c _ _ (code c / 16) (code c mod 16)); try lia; [apply small_digit_nth; lia..|exact IH].
Qed.

(** ** Targets *)
Lemma cut_none x s : ~ In x s -> cut_at x s = (s, None).
Proof.
  induction s as [|c s IH]; intro N; [reflexivity|]. cbn [cut_at]. replace (Ascii.eqb c x) with false by (symmetry; apply Ascii.eqb_neq; intros ->; apply N; left; reflexivity).
  rewrite IH by (intro I; apply N; right; exact I). reflexivity.
Qed.
Lemma cut_some x s t : ~ In x s -> cut_at x (s ++ x :: t) = (s, Some t).
Proof.
  induction s as [|c s IH]; intro N; cbn [app cut_at]; [rewrite Ascii.eqb_refl; reflexivity|]. replace (Ascii.eqb c x) with false by (symmetry; apply Ascii.eqb_neq; intros ->; apply N; left; reflexivity).
  rewrite IH by (intro I; apply N; right; exact I). reflexivity.
Qed.
Definition tail_query (t : str) : str := match t with [] => [] | _ :: q => q end.
Lemma cut_target s raw t : target s raw t -> cut_at "?" s = (raw, match t with [] => None | _ :: q => Some q end).
Proof.
  intros (-> & N & [->|(q & ->)]); [rewrite app_nil_r; apply cut_none; exact N|apply cut_some; exact N].
Qed.
Lemma target_exists s : exists raw t, target s raw t.
Proof.
  induction s as [|c s (raw & t & E & N & T)]; [exists [], []; repeat split; [intros []|left; reflexivity]|].
  destruct (ascii_dec c "?") as [->|C].
  - exists [], ("?"%char :: s). split; [reflexivity|]. split; [intros []|right; eauto].
  - exists (c :: raw), t. split; [rewrite E; reflexivity|]. split; [|exact T]. intros [I|I]; [congruence|contradiction].
Qed.
Lemma control_iff c : control c = true <-> control_byte c.
Proof. unfold control, control_byte. lia. Qed.
Lemma controls s : existsb control s = false <-> Forall (fun c => ~ control_byte c) s.
Proof.
  rewrite <- not_true_iff_false, existsb_exists, Forall_forall. split.
  - intros H c I B. apply H. exists c. rewrite control_iff. auto.
  - intros H (c & I & B). apply control_iff in B. exact (H c I B).
Qed.
Lemma read_exactly s raw t p : target s raw t -> Forall (fun c => ~ control_byte c) s -> encodes raw p ->
  read_target s = Some (mkRequest p (if seqb raw (escape p) then [] else raw) (tail_query t)).
Proof.
  intros T C E. unfold read_target. rewrite (proj2 (controls s) C), (cut_target s raw t T), (proj2 (unescape_iff raw p) E). destruct t; reflexivity.
Qed.
Lemma refused_exactly ws s : serve_target ws s = None <->
  Exists control_byte s \/ forall raw t p, target s raw t -> ~ encodes raw p.
Proof.
  unfold serve_target. destruct (existsb control s) eqn:C.
  - unfold read_target. rewrite C. split; [intros _; left|reflexivity]. apply Exists_exists. apply existsb_exists in C. destruct C as (c & I & B). exists c. split; [exact I|apply control_iff; exact B].
  - apply controls in C. destruct (target_exists s) as (raw & t & T). destruct (unescape raw) as [p|] eqn:U.
    + apply unescape_iff in U. rewrite (read_exactly s raw t p T C U). split; [discriminate|]. intros [X|X]; [|destruct (X _ _ _ T U)].
      apply Exists_exists in X. destruct X as (c & I & B). rewrite Forall_forall in C. destruct (C c I B).
    + unfold read_target. rewrite (proj2 (controls s) C), (cut_target s raw t T), U. split; [intros _; right|reflexivity].
      intros raw' t' p T' E. pose proof (cut_target s raw t T) as A. rewrite (cut_target s raw' t' T') in A. injection A as -> _. apply unescape_iff in E. congruence.
Qed.

(** ** Answers *)
Lemma escape_part x : part x -> part (escape x).
Proof. intros P I. apply in_flat_map in I. destruct I as (c & I & J). apply byte_slash in J. subst c. exact (P I). Qed.
Lemma escape_solid x : solid x -> solid (escape x).
Proof.
  intros (P & X0 & X1 & X2). split; [exact (escape_part x P)|]. split; [|split]; intro E.
  - apply X0. apply escape_inj. exact E.
  - apply X1. apply escape_inj. exact E.
  - apply X2. apply escape_inj. exact E.
Qed.
Lemma escape_joined l : escape (joined ($"/") l) = joined ($"/") (map escape l).
Proof.
  induction l as [|x l IH]; [reflexivity|]. destruct l as [|y l]; [reflexivity|]. rewrite joined_cons by discriminate. change (map escape (x :: y :: l)) with (escape x :: map escape (y :: l)).
  rewrite (joined_cons _ (escape x) (map escape (y :: l))) by discriminate. rewrite !escape_app, IH. reflexivity.
Qed.
Lemma escape_render l b : escape (render l b) = render (map escape l) b.
Proof.
  unfold render. change ("/"%char :: joined ($"/") l ++ (if b then match l with [] => [] | _ => $"/" end else [])) with ($"/" ++ joined ($"/") l ++ (if b then match l with [] => [] | _ => $"/" end else [])).
  rewrite !escape_app, escape_joined. change (escape ($"/")) with ($"/"). cbn [app]. f_equal. f_equal. destruct b; [|reflexivity]. destruct l; reflexivity.
Qed.
Lemma solids_escape l : Forall solid l -> Forall solid (map escape l).
Proof. intro H. induction H; constructor; [apply escape_solid; assumption|assumption]. Qed.
Lemma fine_not l : Forall (fun d => fine d = true) l -> ~ In "?"%char l /\ ~ In "#"%char l /\ Forall (fun c => ~ control_byte c) l /\ Forall (fun c => code c < 128) l.
Proof.
  intro H. rewrite Forall_forall in H. assert (G : forall d, In d l -> d <> "?"%char /\ d <> "#"%char /\ ~ control_byte d /\ code d < 128).
  { intros d I. specialize (H d I). unfold fine in H. rewrite !andb_true_iff, !negb_true_iff, !Ascii.eqb_neq, Z.ltb_lt in H. rewrite <- control_iff. destruct H as (((A & B) & C) & D). repeat split; congruence || assumption. }
  split; [intro I; destruct (G _ I) as (E & _); congruence|]. split; [intro I; destruct (G _ I) as (_ & E & _); congruence|]. split; apply Forall_forall; intros d I; apply (G d I).
Qed.
Lemma escape_clean p : ~ In "?"%char (escape p) /\ ~ In "#"%char (escape p) /\ Forall (fun c => ~ control_byte c) (escape p) /\ Forall (fun c => code c < 128) (escape p).
Proof. apply fine_not, escape_fine. Qed.
Lemma ascii_only_app a b : ascii_only (a ++ b) = ascii_only a ++ ascii_only b.
Proof. apply flat_map_app. Qed.
Lemma ascii_only_id a : Forall (fun c => code c < 128) a -> ascii_only a = a.
Proof. intro H. induction H as [|c a C _ IH]; [reflexivity|]. cbn [ascii_only flat_map]. rewrite (proj2 (Z.ltb_lt _ _) C). cbn [app]. f_equal. exact IH. Qed.
Lemma with_tail t p : a_tail t -> with_query p (tail_query t) = p ++ kept_tail t.
Proof. intros [->|(q & ->)]; [cbn; rewrite app_nil_r; reflexivity|]. destruct q as [|c q]; [cbn; rewrite app_nil_r; reflexivity|reflexivity]. Qed.
Lemma redirect_render l b t : Forall solid l -> a_tail t -> redirect (render l b) (tail_query t) = Moved (escape (render l b) ++ ascii_only (kept_tail t)).
Proof.
  intros H T. unfold redirect. destruct (escape_clean (render l b)) as (Q & _ & _ & A). rewrite (with_tail t _ T).
  assert (K : kept_tail t = [] \/ exists q, kept_tail t = "?"%char :: q) by (destruct T as [->|([|c q] & ->)]; [left; reflexivity|left; reflexivity|right; exists (c :: q); reflexivity]).
  assert (C : clean_url (escape (render l b)) = escape (render l b)) by (rewrite escape_render; apply clean_render, solids_escape, H).
  destruct K as [->|(q & ->)].
  - rewrite app_nil_r, (cut_none _ _ Q), C, !app_nil_r, (ascii_only_id _ A). reflexivity.
  - rewrite (cut_some _ _ q Q), C, ascii_only_app, (ascii_only_id _ A). reflexivity.
Qed.

Lemma joined_in x l : In x l -> forall c, In c x -> In c (joined ($"/") l).
Proof.
  induction l as [|y l IH]; intros I c C; [destruct I|]. destruct l as [|z l]; [destruct I as [->|[]]; exact C|]. rewrite joined_cons by discriminate.
  apply in_or_app. destruct I as [->|I]; [left; exact C|right]. apply in_or_app. right. exact (IH I c C).
Qed.
Lemma near w t path L b l : Forall solid L -> rooted path = render L b -> (forall f, In f (files t) \/ In f (folders t) -> Forall (fun c => stays c = true) f) ->
  serve_file w t path = Moved l -> ~ absolute l /\ Forall (fun c => stays c = true) l.
Proof.
  intros H R S E. unfold serve_file in E. rewrite R in E. destruct (has_suffix (render L b) ($"/index.html")).
  { injection E as <-. split; [intros (x & X); discriminate X|]. repeat constructor. }
  rewrite (tl_clean L b H) in E. cbv zeta in E.
  assert (G : forall q x, L = q ++ [x] -> In (joined ($"/") L) (files t) \/ In (joined ($"/") L) (folders t) -> Forall (fun c => stays c = true) x).
  { intros q x -> I. specialize (S _ I). rewrite Forall_forall in *. intros c C. apply S. apply (joined_in x); [apply in_or_app; right; left; reflexivity|exact C]. }
  destruct L as [|x0 L0] eqn:EL.
  - change (joined ($"/") []) with (@nil ascii) in E. unfold open at 1 in E. rewrite (render_slash [] b H) in E. cbn [negb] in E. destruct (open t ($"index.html")); discriminate E.
  - rewrite <- EL in *. assert (N : L <> []) by (rewrite EL; discriminate). clear EL x0 L0. destruct (exists_last N) as (q & x & EL).
    assert (SX : solid x) by (rewrite EL in H; apply solid_snoc in H; apply H). assert (B : path_base (render L b) = x) by (rewrite EL; apply base_snoc; exact SX).
    rewrite B in E. assert (O : forall k, open t (joined ($"/") L) = k -> k = File \/ k = Folder -> Forall (fun c => stays c = true) x).
    { intros k K D. apply (G q x EL). unfold open in K. destruct (joined ($"/") L) as [|c0 s0] eqn:J; [apply (joined_nil L H) in J; contradiction|].
      destruct (one_of (files t) (c0 :: s0)) eqn:F1; [left|right; destruct (one_of (folders t) (c0 :: s0)) eqn:F2; [|subst k; destruct D; discriminate]];
      [unfold one_of in F1; apply existsb_exists in F1; destruct F1 as (f & I & Q)|unfold one_of in F2; apply existsb_exists in F2; destruct F2 as (f & I & Q)];
      apply seqb_eq in Q; subst f; exact I. }
    destruct (open t (joined ($"/") L)) eqn:K.
    + specialize (O File eq_refl (or_introl eq_refl)). destruct (ends_in_slash (render L b)); [|discriminate E]. destruct (seqb x ($"/") || seqb x ($".")); [discriminate E|].
      injection E as <-. split; [intros (z & Z); discriminate Z|]. repeat (constructor; [reflexivity|]). exact O.
    + specialize (O Folder eq_refl (or_intror eq_refl)). destruct (ends_in_slash (render L b)); cbn [negb] in E.
      * match type of E with context [open t ?n] => destruct (open t n) end; discriminate E.
      * injection E as <-. split; [|apply Forall_app; split; [exact O|repeat constructor]]. intros (z & Z). destruct SX as (P & X & _). destruct x as [|c x]; [congruence|]. injection Z as -> _. apply P. left. reflexivity.
    + discriminate E.
Qed.
Lemma www_stays f : In f (files www) \/ In f (folders www) -> Forall (fun c => stays c = true) f.
Proof.
  intro I. apply in_or_app in I. apply Forall_forall, forallb_forall. revert f I. apply forallb_forall. vm_compute. reflexivity.
Qed.
Lemma wasm_stays ws f : Forall program ws -> In f (files (wasm ws)) \/ In f (folders (wasm ws)) -> Forall (fun c => stays c = true) f.
Proof.
  intros P [I|[]]. cbn [files wasm] in I. rewrite Forall_forall in P. destruct (P f I) as (N & _). revert N. apply Forall_impl. intros c C. apply stays_iff. unfold usual_byte, name_byte in *.
  destruct C as [C|[C|[C|[->|[->| ->]]]]]; [tauto..| | |]; right; right; right; vm_compute; tauto.
Qed.
Lemma rooted_absolute p x : p = "/"%char :: x -> rooted p = p.
Proof. intros ->. reflexivity. Qed.
Lemma local_like w t path q l b : Forall solid l -> rooted path = render l b -> (forall f, In f (files t) \/ In f (folders t) -> Forall (fun c => stays c = true) f) -> a_tail q ->
  like q (serve_file w t path) (local (serve_file w t path) (tail_query q)).
Proof.
  intros H R S T. destruct (serve_file w t path) as [m| | | |] eqn:E; try (apply lk_same; discriminate).
  cbn [local]. rewrite (with_tail q m T). apply lk_near. exact (proj1 (near w t path l b m H R S E)).
Qed.
Lemma answer_like ws p rp t : Forall program ws -> a_tail t ->
  (has_prefix p ($"/wasm/") = true -> rp = [] \/ has_prefix rp ($"/wasm/") = true) \/ (exists x, serve ws p = Moved ("/"%char :: x)) ->
  like t (serve ws p) (serve_request ws (mkRequest p rp (tail_query t))).
Proof.
  intros P T W. destruct (parts_exist p) as (l0 & Q). destruct (clean_parts p l0 Q) as (H & C). set (L := walk [] l0) in *. set (b := ends_in_slash p) in *. clearbody L b.
  unfold serve in *. unfold serve_request. cbn [path raw_path query]. rewrite C in *. destruct (seqb (render L b) ($"/wasm")) eqn:E1.
  { assert (S : Forall solid [$"wasm"]) by (apply all_solid; reflexivity). change ($"/wasm/") with (render [$"wasm"] true) at 1 2. rewrite (redirect_render _ _ t S T).
    apply lk_far; [eexists; reflexivity|apply usual_escape; reflexivity|apply ascii_only_in]. }
  destruct (seqb (render L b) p) eqn:E2; cbn [negb] in *.
  2:{ rewrite (redirect_render _ _ t H T). apply lk_far; [eexists; reflexivity|apply usual_escape; reflexivity|apply ascii_only_in]. }
  apply seqb_eq in E2. apply seqb_neq in E1. subst p. destruct (wasm_url L b H E1) as [(l' & E & PX & R)|(N & PX)]; rewrite PX in *.
  - assert (H' : Forall solid l') by (rewrite E in H; inversion H; assumption).
    assert (D : (seqb rp [] || has_prefix rp ($"/wasm/")) = true).
    { destruct W as [W|(x & X)]; [destruct (W eq_refl) as [->|W']; [reflexivity|rewrite W'; apply orb_true_r]|].
      exfalso. apply (proj1 (near _ _ _ l' b _ H' R (fun f => wasm_stays ws f P) X)). eexists. reflexivity. }
    rewrite D. exact (local_like _ _ _ t l' b H' R (fun f => wasm_stays ws f P) T).
  - exact (local_like _ _ _ t L b H (rooted_render L b) www_stays T).
Qed.

Lemma prefix_iff s x : has_prefix s x = true <-> exists y, s = x ++ y.
Proof. apply has_prefix_spec. Qed.
Lemma target_answer ws s raw t p : Forall program ws -> target s raw t -> Forall (fun c => ~ control_byte c) s -> encodes raw p ->
  ((forall x, p = $"/wasm/" ++ x -> exists y, raw = $"/wasm/" ++ y) \/ exists x, serve ws p = Moved ("/"%char :: x)) ->
  exists a, serve_target ws s = Some a /\ like t (serve ws p) a.
Proof.
  intros P T C E W. unfold serve_target. rewrite (read_exactly s raw t p T C E). eexists. split; [reflexivity|]. apply answer_like; [exact P|apply T|].
  destruct W as [W|W]; [left|right; exact W]. intro X. destruct (seqb raw (escape p)); [left; reflexivity|right]. apply prefix_iff in X. destruct X as (x & X). apply prefix_iff. exact (W x X).
Qed.
Lemma target_hidden ws s raw t p x : Forall program ws -> target s raw t -> Forall (fun c => ~ control_byte c) s -> encodes raw p -> p = $"/wasm/" ++ x ->
  ~ (exists y, raw = $"/wasm/" ++ y) -> ~ (exists y, serve ws p = Moved ("/"%char :: y)) -> serve_target ws s = Some Missing.
Proof.
  intros P T C E X R M. unfold serve_target. rewrite (read_exactly s raw t p T C E). cbn [option_map]. f_equal. unfold serve_request. cbn [path raw_path query].
  unfold serve in M. destruct (seqb (clean_url p) ($"/wasm")); [destruct M; eexists; reflexivity|]. destruct (seqb (clean_url p) p) eqn:Q; cbn [negb] in *.
  2:{ destruct M. destruct (parts_exist p) as (l0 & K). destruct (clean_parts p l0 K) as (_ & ->). eexists. reflexivity. }
  assert (XP : has_prefix p ($"/wasm/") = true) by (apply prefix_iff; exists x; exact X). rewrite XP.
  assert (S : seqb raw (escape p) = false). { apply seqb_neq. intro U. apply R. rewrite U, X. exists (escape x). rewrite escape_app. reflexivity. }
  rewrite S. assert (raw <> []) by (intros ->; apply unescape_iff in E; injection E as E; rewrite <- E in X; discriminate X).
  rewrite (proj2 (seqb_neq raw []) H). replace (has_prefix raw ($"/wasm/")) with false; [reflexivity|]. symmetry. apply not_true_iff_false. rewrite prefix_iff. exact R.
Qed.

(** ** Redirects *)
Lemma escape_eqb x y : seqb (escape x) (escape y) = seqb x y.
Proof.
  destruct (seqb x y) eqn:E; [apply seqb_eq in E; subst; apply seqb_eq; reflexivity|]. apply seqb_neq in E. apply seqb_neq. intro Q. apply E. apply escape_inj. exact Q.
Qed.
Lemma no_dots_escape l : forall k, no_dots (map escape k) (map escape l) = map escape (no_dots k l).
Proof.
  induction l as [|x l IH]; intro k; [reflexivity|].
  assert (D1 : seqb (escape x) ($".") = seqb x ($".")) by exact (escape_eqb x ($".")). assert (D2 : seqb (escape x) ($"..") = seqb x ($"..")) by exact (escape_eqb x ($"..")).
  assert (TK : map escape (tl k) = tl (map escape k)) by (destruct k; reflexivity).
  destruct l as [|y l].
  - cbn [map no_dots]. rewrite D1, D2. destruct (seqb x ($".")); [reflexivity|]. destruct (seqb x ($"..")); [cbn [map]; rewrite TK; reflexivity|reflexivity].
  - change (map escape (x :: y :: l)) with (escape x :: map escape (y :: l)). 
    change (no_dots (map escape k) (escape x :: map escape (y :: l))) with (if seqb (escape x) ($".") then no_dots (map escape k) (map escape (y :: l)) else if seqb (escape x) ($"..") then no_dots (tl (map escape k)) (map escape (y :: l)) else no_dots (escape x :: map escape k) (map escape (y :: l))).
    change (no_dots k (x :: y :: l)) with (if seqb x ($".") then no_dots k (y :: l) else if seqb x ($"..") then no_dots (tl k) (y :: l) else no_dots (x :: k) (y :: l)).
    rewrite D1, D2. destruct (seqb x ($".")); [apply IH|]. destruct (seqb x ($"..")); [rewrite <- TK; apply IH|]. exact (IH (x :: k)).
Qed.
Lemma with_slashes_escape l : with_slashes (map escape l) = escape (with_slashes l).
Proof. induction l as [|x l IH]; [reflexivity|]. cbn [map with_slashes]. change ("/"%char :: x ++ with_slashes l) with ($"/" ++ x ++ with_slashes l). rewrite !escape_app, IH. reflexivity. Qed.
Lemma last_slash p : absolute p -> exists u x, p = u ++ "/"%char :: x /\ part x.
Proof.
  intros (z & ->). revert z. assert (G : forall z, exists u x, "/"%char :: z = u ++ "/"%char :: x /\ part x); [|exact G].
  induction z as [|c z IH] using rev_ind; [exists [], []; split; [reflexivity|intros []]|]. destruct (ascii_dec c "/") as [->|N].
  - exists ("/"%char :: z), []. split; [reflexivity|intros []].
  - destruct IH as (u & x & E & X). exists u, (x ++ [c]). split; [change ("/"%char :: z ++ [c]) with (("/"%char :: z) ++ [c]); rewrite E, <- app_assoc; reflexivity|].
    intro I. apply in_app_or in I. destruct I as [I|[I|[]]]; [exact (X I)|congruence].
Qed.
Lemma folder_last u x : part x -> base_folder (u ++ "/"%char :: x) = u ++ $"/".
Proof.
  intro X. unfold base_folder. rewrite rev_app_distr. cbn [rev]. rewrite <- app_assoc. cbn [app].
  rewrite (to_slash_part (rev x) ("/"%char :: rev u) (part_rev _ X) eq_refl). cbn [snd rev]. rewrite rev_involutive. reflexivity.
Qed.
Lemma resolve_escape p l : absolute p -> l <> [] -> ~ absolute l -> Forall (fun c => stays c = true) l -> resolve (escape p) l = escape (resolve p l) /\ absolute (resolve p l).
Proof.
  intros A N R S. destruct (last_slash p A) as (u & x & -> & X).
  assert (E : escape (u ++ "/"%char :: x) = escape u ++ "/"%char :: escape x) by (change (u ++ "/"%char :: x) with (u ++ $"/" ++ x); rewrite !escape_app; reflexivity).
  destruct l as [|c l]; [congruence|]. assert (C : is_slash c = false) by (apply Ascii.eqb_neq; intros ->; apply R; eexists; reflexivity).
  unfold resolve. rewrite C, E, (folder_last u x X), (folder_last _ _ (escape_part x X)).
  assert (W : exists w, (u ++ $"/") ++ c :: l = "/"%char :: w).
  { destruct u as [|d u]; [exists (c :: l); reflexivity|]. destruct A as (z & Z). injection Z as -> _. eexists. reflexivity. }
  destruct W as (w & W). rewrite W. cbn [tl].
  assert (W' : (escape u ++ $"/") ++ c :: l = "/"%char :: escape w).
  { rewrite <- (escape_stays _ S) at 1. change ($"/") with (escape ($"/")). rewrite <- !escape_app. rewrite W. reflexivity. }
  rewrite W'. cbn [tl]. destruct (parts_exist w) as (m & -> & M & F). rewrite escape_joined, (split_parts m M F), split_parts; [|destruct m; [congruence|discriminate]|apply Forall_map; revert F; apply Forall_impl; intros y Y; exact (escape_part y Y)].
  rewrite (no_dots_escape m [] : no_dots [] (map escape m) = map escape (no_dots [] m)), <- map_rev, with_slashes_escape. split; [reflexivity|].
  assert (G : forall m k, m <> [] -> no_dots k m <> []).
  { clear. induction m as [|y m IH]; intros k M; [congruence|]. destruct m as [|z m].
    - cbn [no_dots]. destruct (seqb y ($".")); [discriminate|]. destruct (seqb y ($"..")); discriminate.
    - change (no_dots k (y :: z :: m)) with (if seqb y ($".") then no_dots k (z :: m) else if seqb y ($"..") then no_dots (tl k) (z :: m) else no_dots (y :: k) (z :: m)).
      destruct (seqb y ($".")); [apply IH; discriminate|]. destruct (seqb y ($"..")); apply IH; discriminate. }
  destruct (rev (no_dots [] m)) as [|y r] eqn:RV; [|eexists; reflexivity].
  exfalso. apply (G m [] M). apply (f_equal (@rev str)) in RV. rewrite rev_involutive in RV. exact RV.
Qed.
Lemma absolute_escape p : absolute p -> absolute (escape p).
Proof. intros (x & ->). exists (escape x). reflexivity. Qed.
(** A location made of a path and a tail, as the client reads it. *)
Lemma next_of base raw u : ~ In "?"%char raw -> ~ In "#"%char raw -> a_tail u -> Forall (fun c => ~ control_byte c) u ->
  exists u', next_target base (raw ++ u) = resolve (fst (cut_at "?" base)) raw ++ u' /\ a_tail u' /\ Forall (fun c => ~ control_byte c) u'.
Proof.
  intros Q H T C. unfold next_target. assert (G : exists v, fst (cut_at "#" (raw ++ u)) = raw ++ v /\ a_tail v /\ Forall (fun c => ~ control_byte c) v).
  { destruct T as [->|(q & ->)]; [exists []; rewrite app_nil_r, (cut_none _ _ H); split; [reflexivity|split; [left; reflexivity|constructor]]|].
    assert (K : exists v w, q = v ++ w /\ ~ In "#"%char v /\ (w = [] \/ exists z, w = "#"%char :: z)).
    { clear. induction q as [|c q (v & w & E & N & W)]; [exists [], []; repeat split; [intros []|auto]|]. destruct (ascii_dec c "#") as [->|D].
      - exists [], ("#"%char :: q). repeat split; [intros []|eauto].
      - exists (c :: v), w. split; [rewrite E; reflexivity|]. split; [intros [I|I]; [congruence|contradiction]|exact W]. }
    destruct K as (v & w & -> & N & W). exists ("?"%char :: v).
    assert (NH : ~ In "#"%char (raw ++ "?"%char :: v)) by (intro I; apply in_app_or in I; destruct I as [I|[I|I]]; [exact (H I)|discriminate I|exact (N I)]).
    split; [|split; [right; eauto|]].
    - change ("?"%char :: v ++ w) with (("?"%char :: v) ++ w). rewrite app_assoc. destruct W as [->|(z & ->)]; [rewrite app_nil_r, (cut_none _ _ NH); reflexivity|rewrite (cut_some _ _ z NH); reflexivity].
    - change ("?"%char :: v ++ w) with (("?"%char :: v) ++ w) in C. apply Forall_app in C. apply C. }
  destruct G as (v & -> & V & CV). destruct V as [->|(q & ->)].
  - rewrite app_nil_r, (cut_none _ _ Q). exists []. split; [reflexivity|]. split; [left; reflexivity|constructor].
  - rewrite (cut_some _ _ q Q). exists ("?"%char :: q). split; [reflexivity|]. split; [right; eauto|exact CV].
Qed.
Lemma kept_sub t : a_tail t -> Forall (fun c => ~ control_byte c) t -> a_tail (kept_tail t) /\ Forall (fun c => ~ control_byte c) (kept_tail t).
Proof. intros [->|([|c q] & ->)] C; cbn [kept_tail]; [split; [left; reflexivity|constructor]..|]. split; [right; eauto|exact C]. Qed.
Lemma in_ascii_tail s u : in_ascii s u -> a_tail s -> Forall (fun c => ~ control_byte c) s -> a_tail u /\ Forall (fun c => ~ control_byte c) u.
Proof.
  intros H T C. split.
  - destruct T as [->|(q & ->)]; [inversion H; left; reflexivity|]. inversion H as [|c s' u' L R|c a b x y s' u' L]; subst; [right; eauto|]. change (code "?") with 63 in L. lia.
  - clear T. induction H as [|c s u L _ IH|c a b x y s u L E X Y A B _ IH]; [constructor|inversion C; subst; constructor; [assumption|apply IH; assumption]|].
    inversion C; subst. assert (G : forall d z, nth_error ($"0123456789abcdef") z = Some d -> ~ control_byte d).
    { intros d z N. apply nth_error_In in N. rewrite <- control_iff. apply not_true_iff_false, negb_true_iff. revert d N. apply forallb_forall. vm_compute. reflexivity. }
    constructor; [unfold control_byte; change (code "%") with 37; lia|]. constructor; [exact (G _ _ A)|]. constructor; [exact (G _ _ B)|]. apply IH. assumption.
Qed.
Lemma usual_target p t : a_tail t -> target (escape p ++ t) (escape p) t.
Proof. intro T. split; [reflexivity|]. split; [apply escape_clean|exact T]. Qed.
Lemma moved_shape ws p l : Forall program ws -> absolute p -> serve ws p = Moved l -> absolute l /\ (exists m b, Forall solid m /\ l = render m b) \/ ~ absolute l /\ l <> [] /\ Forall (fun c => stays c = true) l.
Proof.
  intros P A E. destruct (parts_exist p) as (l0 & Q). destruct (clean_parts p l0 Q) as (H & C). set (L := walk [] l0) in *. set (b := ends_in_slash p) in *. clearbody L b.
  unfold serve in E. rewrite C in E. destruct (seqb (render L b) ($"/wasm")) eqn:E1.
  { injection E as <-. left. split; [eexists; reflexivity|]. exists [$"wasm"], true. split; [apply all_solid; reflexivity|reflexivity]. }
  destruct (seqb (render L b) p) eqn:E2; cbn [negb] in E; [|injection E as <-; left; split; [eexists; reflexivity|exists L, b; split; [exact H|reflexivity]]].
  apply seqb_eq in E2. apply seqb_neq in E1. subst p. right.
  assert (G : ~ absolute l /\ Forall (fun c => stays c = true) l /\ l <> []).
  { assert (NE : forall w t path, serve_file w t path = Moved [] -> False).
    { intros w t path X. unfold serve_file in X. destruct (has_suffix _ _); [discriminate X|]. cbv zeta in X. destruct (open t _); [|destruct (negb _); [|destruct (open t _); discriminate X]|discriminate X].
      - destruct (ends_in_slash _); [|discriminate X]. destruct (_ || _); discriminate X.
      - injection X as X. apply app_eq_nil in X. destruct X as (_ & X). discriminate X. }
    destruct (wasm_url L b H E1) as [(l' & EE & PX & R)|(N & PX)]; rewrite PX in E.
    - assert (H' : Forall solid l') by (rewrite EE in H; inversion H; assumption). destruct (near _ _ _ l' b l H' R (fun f => wasm_stays ws f P) E) as (X & Y). split; [exact X|]. split; [exact Y|]. intros ->. exact (NE _ _ _ E).
    - destruct (near _ _ _ L b l H (rooted_render L b) www_stays E) as (X & Y). split; [exact X|]. split; [exact Y|]. intros ->. exact (NE _ _ _ E). }
  tauto.
Qed.
Lemma usual_ends ws n p a : Forall program ws -> ends ws n p a -> forall t, absolute p -> a_tail t -> Forall (fun c => ~ control_byte c) t -> ends_target ws n (escape p ++ t) a.
Proof.
  intros P H. induction H as [p a E N|n p l a E _ IH]; intros t A T C.
  - assert (CT : Forall (fun c => ~ control_byte c) (escape p ++ t)) by (apply Forall_app; split; [apply escape_clean|exact C]).
    destruct (target_answer ws _ _ t p P (usual_target p t T) CT (proj1 (unescape_iff _ _) (unescape_escape p))) as (a' & S & K).
    { left. intros x ->. exists (escape x). rewrite escape_app. reflexivity. }
    rewrite E in K. inversion K as [b N' E'|l R E'|l raw u R U I E']; subst; [|destruct (N _ (eq_sym E'))|destruct (N _ (eq_sym E'))]. apply et_here; [exact S|exact N].
  - assert (CT : Forall (fun c => ~ control_byte c) (escape p ++ t)) by (apply Forall_app; split; [apply escape_clean|exact C]).
    destruct (target_answer ws _ _ t p P (usual_target p t T) CT (proj1 (unescape_iff _ _) (unescape_escape p))) as (a' & S & K).
    { left. intros x ->. exists (escape x). rewrite escape_app. reflexivity. }
    rewrite E in K. pose proof (kept_sub t T C) as (KT & KC).
    assert (B : fst (cut_at "?" (escape p ++ t)) = escape p) by (rewrite (cut_target _ _ _ (usual_target p t T)); reflexivity).
    destruct (moved_shape ws p l P A E) as [(AL & m & b & SM & RE)|(NL & NN & SL)].
    + inversion K as [b' N' E'|l' R E'|l' raw u R U I E']; subst; [destruct (N' _ eq_refl)|contradiction|]. apply usual_escape in U. subst raw.
      destruct (in_ascii_tail _ _ I KT KC) as (UT & UC). destruct (escape_clean (render m b)) as (Q1 & Q2 & _).
      destruct (next_of (escape p ++ t) _ _ Q1 Q2 UT UC) as (u' & X & XT & XC). eapply et_moved; [exact S|]. rewrite X, B.
      rewrite escape_render, (resolve_absolute _ _ _ (solids_escape m SM)), <- escape_render. rewrite (resolve_absolute p m b SM) in IH. apply IH; [exact AL|exact XT|exact XC].
    + inversion K as [b' N' E'|l' R E'|l' raw u R U I E']; subst; [destruct (N' _ eq_refl)| |contradiction].
      assert (Q : ~ In "?"%char l /\ ~ In "#"%char l). { rewrite <- (escape_stays l SL). split; apply escape_clean. }
      destruct (next_of (escape p ++ t) _ _ (proj1 Q) (proj2 Q) KT KC) as (u' & X & XT & XC). eapply et_moved; [exact S|]. rewrite X, B.
      destruct (resolve_escape p l A NN NL SL) as (RE & RA). rewrite RE. apply IH; [exact RA|exact XT|exact XC].
Qed.
Lemma ends_target_unique ws n s a : ends_target ws n s a -> forall n' a', ends_target ws n' s a' -> n = n' /\ a = a'.
Proof.
  intro H. induction H as [s a E N|n s l a E _ IH]; intros n' a' H'; destruct H' as [s a' E' N'|n' s l' a' E' H'].
  - split; congruence.
  - rewrite E in E'. injection E' as E'. destruct (N _ E').
  - rewrite E in E'. injection E' as E'. destruct (N' _ (eq_sym E')).
  - rewrite E in E'. injection E' as <-. destruct (IH _ _ H') as (-> & ->). split; reflexivity.
Qed.
Lemma usual_follow ws p raw t n a : Forall program ws -> absolute p -> usual raw p -> a_tail t -> Forall (fun c => ~ control_byte c) t ->
  (ends_target ws n (raw ++ t) a <-> ends ws n p a).
Proof.
  intros P A U T C. apply usual_escape in U. subst raw. split; [|intro H; exact (usual_ends ws n p a P H t A T C)]. intro H.
  destruct (parts_exist p) as (l & L). destruct (leads_exist l) as (to & LT). destruct (any_ends ws P p l to L LT) as (n' & a' & _ & E & _).
  destruct (ends_target_unique ws n _ a H n' a' (usual_ends ws n' p a' P E t A T C)) as (-> & ->). exact E.
Qed.
Lemma usual_exists p : exists raw, usual raw p /\ forall raw', usual raw' p -> raw' = raw /\ encodes raw' p.
Proof.
  exists (escape p). split; [apply usual_escape; reflexivity|]. intros raw' U. apply usual_escape in U. subst raw'. split; [reflexivity|apply unescape_iff, unescape_escape].
Qed.
Lemma encodes_one raw p q : encodes raw p -> encodes raw q -> p = q.
Proof. intros P Q. apply unescape_iff in P. apply unescape_iff in Q. congruence. Qed.
Lemma target_only s : exists raw t, target s raw t /\ forall raw' t', target s raw' t' -> raw' = raw /\ t' = t.
Proof.
  destruct (target_exists s) as (raw & t & T). exists raw, t. split; [exact T|]. intros raw' t' T'.
  pose proof (cut_target _ _ _ T) as E. rewrite (cut_target _ _ _ T') in E. injection E as E _. subst raw'. split; [reflexivity|].
  destruct T as (-> & _ & _). destruct T' as (T' & _ & _). apply app_inv_head in T'. symmetry. exact T'.
Qed.
Lemma spelling_differs : exists ws s p f, Forall program ws /\ encodes s p /\ ~ In "?"%char s /\ serve ws p = Sent Programs f /\ ends_target ws 0 s Missing.
Proof.
  exists [$"parse-js.wasm"], ($"/%77asm/parse-js.wasm"), ($"/wasm/parse-js.wasm"), ($"parse-js.wasm").
  split.
  { constructor; [|constructor]. split; [|exists ($"parse-js"); reflexivity]. apply Forall_forall. intros c I.
    assert (H : forallb (fun c => ((48 <=? code c) && (code c <=? 57)) || ((97 <=? code c) && (code c <=? 122)) || Ascii.eqb c "." || Ascii.eqb c "-") ($"parse-js.wasm") = true) by reflexivity.
    rewrite forallb_forall in H. specialize (H c I). unfold name_byte. rewrite !orb_true_iff, !andb_true_iff, !Ascii.eqb_eq, !Z.leb_le in H. tauto. }
  split; [apply unescape_iff; reflexivity|]. split; [intro I; apply (in_map code) in I; revert I; vm_compute; intuition discriminate|].
  split; [reflexivity|]. apply et_here; [reflexivity|discriminate].
Qed.
Lemma slash_differs : exists s p l, encodes s p /\ ~ In "?"%char s /\ ends [] 1 p (Listed l) /\ ends_target [] 1 s (Sent Pages ($"index.html")).
Proof.
  exists ($"/css%2Findex.html"), ($"/css/index.html"), [$"bootstrap.min.css"; $"index.css"].
  split; [apply unescape_iff; reflexivity|]. split; [intro I; apply (in_map code) in I; revert I; vm_compute; intuition discriminate|].
  split; [eapply en_moved; [reflexivity|]; apply en_here; [reflexivity|discriminate]|eapply et_moved; [reflexivity|]; apply et_here; [reflexivity|discriminate]].
Qed.
