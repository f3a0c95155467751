(** Requests whose paths are written with escapes (C93). *)
From Coq Require Import Ascii String ZArith NArith Bool Lia ZifyBool List.
From Verif Require Import GoStr SpecText StrFacts SplitFacts Site SpecSite SiteProofs Target SpecTarget TargetProofs.
Import ListNotations.
Open Scope Z_scope.

Lemma hexit_fine c x : hexit c x -> c <> "/"%char /\ c <> "?"%char /\ ~ control_byte c.
Proof.
  intro H. assert (I : In c ($"0123456789abcdef0123456789ABCDEF")).
  { change ($"0123456789abcdef0123456789ABCDEF") with ($"0123456789abcdef" ++ $"0123456789ABCDEF"). apply in_or_app. destruct H as (_ & [H|H]); apply nth_error_In in H; [left|right]; exact H. }
  assert (G : forallb (fun c => negb (Ascii.eqb c "/") && negb (Ascii.eqb c "?") && negb (control c)) ($"0123456789abcdef0123456789ABCDEF") = true) by (vm_compute; reflexivity).
  rewrite forallb_forall in G. specialize (G c I). rewrite !andb_true_iff, !negb_true_iff, !Ascii.eqb_neq in G. destruct G as ((A & B) & C).
  split; [exact A|]. split; [exact B|]. rewrite <- control_iff. congruence.
Qed.
Lemma spells_encodes r p : spells r p -> encodes r p.
Proof. intro H. induction H; constructor; assumption. Qed.
Lemma spells_clean r p : spells r p -> ~ In "?"%char r /\ Forall (fun c => ~ control_byte c) r.
Proof.
  intro H. induction H as [|c r p A B C _ (I & F)|a b x y r p A B _ _ (I & F)]; [split; [intros []|constructor]| |].
  - split; [intros [E|E]; [congruence|exact (I E)]|constructor; assumption].
  - apply hexit_fine in A. apply hexit_fine in B. split; [intros [E|[E|[E|E]]]; [discriminate E|exact (proj1 (proj2 A) E)|exact (proj1 (proj2 B) E)|exact (I E)]|].
    constructor; [unfold control_byte; change (code "%") with 37; lia|]. constructor; [exact (proj2 (proj2 A))|]. constructor; [exact (proj2 (proj2 B))|exact F].
Qed.
Lemma spells_part r p : spells r p -> part p -> part r.
Proof.
  intro H. induction H as [|c r p A B C _ IH|a b x y r p A B N _ IH]; intro P; [exact P| |].
  - intros [E|E]; [apply P; left; exact E|apply IH; [intro I; apply P; right; exact I|exact E]].
  - apply hexit_fine in A. apply hexit_fine in B. intros [E|[E|[E|E]]]; [discriminate E|exact (proj1 A E)|exact (proj1 B E)|apply IH; [intro I; apply P; right; exact I|exact E]].
Qed.
Lemma spells_app r p r' p' : spells r p -> spells r' p' -> spells (r ++ r') (p ++ p').
Proof. intros H G. induction H; [exact G|cbn [app]; constructor; assumption|cbn [app]; constructor; assumption]. Qed.
Lemma spells_split a b : forall r, spells r (a ++ b) -> exists ra rb, r = ra ++ rb /\ spells ra a /\ spells rb b.
Proof.
  induction a as [|c a IH]; intros r H; [exists [], r; split; [reflexivity|split; [constructor|exact H]]|]. cbn [app] in H. inversion H as [|c' r' p' A B C G|u v x y r' p' A B N G]; subst.
  - destruct (IH _ G) as (ra & rb & -> & X & Y). exists (c :: ra), rb. split; [reflexivity|]. split; [constructor; assumption|exact Y].
  - destruct (IH _ G) as (ra & rb & -> & X & Y). exists ("%"%char :: u :: v :: ra), rb. split; [reflexivity|]. split; [constructor; assumption|exact Y].
Qed.
Lemma spells_slash r p : spells r ("/"%char :: p) -> exists r', r = "/"%char :: r' /\ spells r' p.
Proof.
  intro H. remember ("/"%char :: p) as s eqn:E. destruct H as [|c r' p' A B C G|u v x y r' p' A B N G]; [discriminate E| |].
  - injection E as -> ->. exists r'. split; [reflexivity|exact G].
  - exfalso. apply N. exact (f_equal (fun l => match l with c :: _ => c | [] => "/"%char end) E).
Qed.
Lemma slash_spells r p : spells r p -> spells ("/"%char :: r) ("/"%char :: p).
Proof. constructor; [discriminate|discriminate|unfold control_byte; change (code "/") with 47; lia|assumption]. Qed.
Lemma spells_nil r : spells r [] -> r = [].
Proof. intro H. inversion H. reflexivity. Qed.
Lemma spells_joined m : forall r, m <> [] -> spells r (joined ($"/") m) -> exists rm, r = joined ($"/") rm /\ Forall2 spells rm m.
Proof.
  induction m as [|x m IH]; intros r N H; [congruence|]. destruct m as [|y m].
  - exists [r]. split; [reflexivity|]. constructor; [exact H|constructor].
  - rewrite joined_cons in H by discriminate. apply spells_split in H. destruct H as (rx & s & -> & X & S). apply spells_slash in S. destruct S as (s' & -> & S).
    destruct (IH s' ltac:(discriminate) S) as (rm & -> & F). exists (rx :: rm). split; [|constructor; assumption]. rewrite joined_cons; [reflexivity|]. intros ->. inversion F.
Qed.
Lemma joined_spells rm m : Forall2 spells rm m -> spells (joined ($"/") rm) (joined ($"/") m).
Proof.
  intro H. induction H as [|r x rm m X F IH]; [constructor|]. destruct F as [|r' x' rm m X' F]; [exact X|]. rewrite !joined_cons by discriminate.
  apply spells_app; [exact X|]. exact (slash_spells _ _ IH).
Qed.
Lemma spells_solid r x : spells r x -> solid x -> solid r.
Proof.
  intros H (P & N & D1 & D2). split; [exact (spells_part r x H P)|]. apply spells_encodes, unescape_iff in H.
  split; [intros ->; injection H as H; congruence|]. split; intros ->; [change (unescape ($".")) with (Some ($".")) in H|change (unescape ($"..")) with (Some ($"..")) in H]; congruence.
Qed.
Lemma tail_snoc q (x : str) b : tail_part (q ++ [x]) b = if b then [[]] else [].
Proof. unfold tail_part. destruct q; reflexivity. Qed.
Lemma spells_render q x b r : Forall solid (q ++ [x]) -> spells r (render (q ++ [x]) b) ->
  exists rq rx, r = render (rq ++ [rx]) b /\ Forall2 spells rq q /\ spells rx x /\ Forall solid (rq ++ [rx]).
Proof.
  intros S H. rewrite render_joined in H. apply spells_slash in H. destruct H as (s & -> & H). apply spells_joined in H; [|destruct q; discriminate]. destruct H as (rm & -> & F).
  apply Forall2_app_inv_r in F. destruct F as (r1 & r2 & F & T & ->). apply Forall2_app_inv_r in F. destruct F as (rq & r3 & Q & X & ->).
  inversion X as [|rx x' l1 l2 X' X'' E1 E2]; subst. inversion X''; subst. exists rq, rx. split; [|split; [exact Q|split; [exact X'|]]].
  - rewrite render_joined. f_equal. f_equal. f_equal. rewrite tail_snoc in *. destruct b; [|inversion T; reflexivity].
    inversion T as [|y y' l1 l2 Y Z E1 E2]; subst. inversion Z; subst. apply spells_nil in Y. subst y. reflexivity.
  - apply Forall_app in S. destruct S as (SQ & SX). apply Forall_app. split.
    + clear - Q SQ. induction Q as [|r y rq q Y Q IH]; [constructor|]. inversion SQ; subst. constructor; [exact (spells_solid r y Y ltac:(assumption))|apply IH; assumption].
    + inversion SX; subst. constructor; [exact (spells_solid rx x X' ltac:(assumption))|constructor].
Qed.
Lemma render_spells rl l b : Forall2 spells rl l -> spells (render rl b) (render l b).
Proof.
  intro F. rewrite !render_joined. apply slash_spells, joined_spells. apply Forall2_app; [exact F|]. unfold tail_part. destruct b; [|constructor]. destruct F; [constructor|]. constructor; [constructor|constructor].
Qed.
Lemma stays_spells x : Forall (fun c => stays c = true) x -> spells x x.
Proof.
  intro H. induction H as [|c x C _ IH]; [constructor|]. assert (G : c <> "%"%char /\ c <> "?"%char /\ ~ control_byte c).
  { repeat split; [intros ->; discriminate C|intros ->; discriminate C|]. apply stays_iff in C. unfold control_byte. destruct C as [C|[C|[C|C]]]; [lia..|].
    revert c C. apply Forall_forall. vm_compute. repeat (constructor; [intuition discriminate|]). constructor. }
  constructor; [apply G|apply G|apply G|exact IH].
Qed.

(** ** Redirects nearby *)
Definition hint (q : list str) (x : str) (b : bool) (l : str) : Prop := l = $"./" /\ b = false \/ l = $"../" ++ x /\ b = true \/ l = x ++ $"/" /\ b = false.
Lemma file_hint w t path L b l : Forall solid L -> rooted path = render L b -> serve_file w t path = Moved l -> exists q x, L = q ++ [x] /\ hint q x b l.
Proof.
  intros H R E. destruct L as [|x0 L0] eqn:EL.
  - exfalso. unfold serve_file in E. rewrite R in E. replace (has_suffix (render [] b) ($"/index.html")) with false in E by (destruct b; reflexivity).
    rewrite (tl_clean [] b H) in E. cbv zeta in E. change (joined ($"/") []) with (@nil ascii) in E. unfold open at 1 in E. rewrite (render_slash [] b H) in E. cbn [negb] in E. destruct (open t ($"index.html")); discriminate E.
  - rewrite <- EL in *. assert (N : L <> []) by (rewrite EL; discriminate). clear EL x0 L0. destruct (exists_last N) as (q & x & EL). exists q, x. split; [exact EL|].
    assert (SX : solid x) by (rewrite EL in H; apply solid_snoc in H; apply H). assert (B : path_base (render L b) = x) by (rewrite EL; apply base_snoc; exact SX).
    assert (ES : ends_in_slash (render L b) = b) by (rewrite (render_slash L b H); destruct L; [congruence|reflexivity]).
    unfold serve_file in E. rewrite R in E. destruct (has_suffix (render L b) ($"/index.html")) eqn:I.
    { apply (index_suffix L b H) in I. injection E as <-. left. split; [reflexivity|apply I]. }
    rewrite (tl_clean L b H), B, ES in E. cbv zeta in E. destruct (open t (joined ($"/") L)).
    + destruct b; [|discriminate E]. destruct (seqb x ($"/") || seqb x ($".")); [discriminate E|]. injection E as <-. right. left. split; reflexivity.
    + destruct b; cbn [negb] in E; [match type of E with context [open t ?n] => destruct (open t n) end; discriminate E|]. injection E as <-. right. right. split; reflexivity.
    + discriminate E.
Qed.
Lemma serve_hint ws p l : Forall program ws -> serve ws p = Moved l -> ~ absolute l -> exists q x b, p = render (q ++ [x]) b /\ Forall solid (q ++ [x]) /\ hint q x b l.
Proof.
  intros P E N. destruct (parts_exist p) as (l0 & Q). destruct (clean_parts p l0 Q) as (H & C). set (L := walk [] l0) in *. set (b := ends_in_slash p) in *. clearbody L b.
  unfold serve in E. rewrite C in E. destruct (seqb (render L b) ($"/wasm")) eqn:E1; [injection E as <-; destruct N; eexists; reflexivity|].
  destruct (seqb (render L b) p) eqn:E2; cbn [negb] in E; [|injection E as <-; destruct N; eexists; reflexivity].
  apply seqb_eq in E2. apply seqb_neq in E1. subst p. destruct (wasm_url L b H E1) as [(l' & EE & PX & R)|(W & PX)]; rewrite PX in E.
  - assert (H' : Forall solid l') by (rewrite EE in H; inversion H; assumption). destruct (file_hint _ _ _ l' b l H' R E) as (q & x & -> & I).
    exists ($"wasm" :: q), x, b. rewrite EE in *. split; [reflexivity|]. split; [exact H|exact I].
  - destruct (file_hint _ _ _ L b l H (rooted_render L b) E) as (q & x & -> & I). exists q, x, b. split; [reflexivity|]. split; [exact H|exact I].
Qed.
Lemma up_other q y x : Forall solid (q ++ [y]) -> solid x -> resolve (render (q ++ [y]) true) ($"../" ++ x) = render (q ++ [x]) false.
Proof.
  intros H (X & X0 & X1 & X2). apply solid_snoc in H. destruct H as (Q & S). pose proof S as (Y & Y0 & Y1 & Y2). rewrite (resolve_text _ _ (joined ($"/") (q ++ [y; $".."; x])) (q ++ [y; $".."; x])).
  - change [y; $".."; x] with ([y] ++ [$".."; x]). rewrite app_assoc. rewrite no_dots_solid; [|apply Forall_app; split; [exact Q|constructor; [exact S|constructor]]|discriminate].
    rewrite rev_app_distr. cbn [rev app no_dots]. change (seqb ($"..") ($".")) with false. change (seqb ($"..") ($"..")) with true. cbv iota. cbn [tl].
    rewrite (proj2 (seqb_neq _ _) X1), (proj2 (seqb_neq _ _) X2), app_nil_r. cbn [rev]. rewrite rev_involutive, with_slashes_joined by (destruct q; discriminate). rewrite render_joined. cbn [tail_part]. rewrite app_nil_r. reflexivity.
  - exists "."%char, ($"./" ++ x). split; reflexivity.
  - rewrite folder_slash, render_snoc, <- app_assoc. cbn [app]. rewrite <- before_joined by discriminate. f_equal. f_equal. rewrite (joined_cons _ y [$".."; x]) by discriminate. rewrite <- app_assoc. reflexivity.
  - reflexivity.
  - destruct q; discriminate.
  - apply Forall_app. split; [exact (solid_part _ Q)|]. constructor; [exact Y|]. constructor; [apply dot_part|]. constructor; [exact X|constructor].
Qed.
Lemma down_other q y x : Forall solid (q ++ [y]) -> solid x -> resolve (render (q ++ [y]) false) (x ++ $"/") = render (q ++ [x]) true.
Proof.
  intros H S. pose proof S as (X & X0 & X1 & X2). apply solid_snoc in H. destruct H as (Q & Y & _). rewrite (resolve_text _ _ (joined ($"/") (q ++ [x; []])) (q ++ [x; []])).
  - change [x; []] with ([x] ++ [@nil ascii]). rewrite app_assoc, no_dots_solid; [|apply Forall_app; split; [exact Q|constructor; [exact S|constructor]]|discriminate].
    rewrite rev_app_distr. cbn [rev app no_dots]. change (seqb [] ($".")) with false. change (seqb [] ($"..")) with false. cbv iota.
    rewrite app_nil_r. cbn [rev]. rewrite rev_involutive, with_slashes_joined by (destruct q; discriminate). rewrite render_joined, tail_snoc. reflexivity.
  - destruct x as [|c x]; [congruence|]. exists c, (x ++ $"/"). split; [reflexivity|]. apply Ascii.eqb_neq. intros ->. apply X. left. reflexivity.
  - rewrite (folder_snoc q y Y), <- app_assoc. rewrite <- before_joined by discriminate. f_equal.
  - reflexivity.
  - destruct q; discriminate.
  - apply Forall_app. split; [exact (solid_part _ Q)|]. constructor; [exact X|]. constructor; [intros []|constructor].
Qed.
Definition in_wasm (raw p : str) : Prop := forall x, p = $"/wasm/" ++ x -> exists y, raw = $"/wasm/" ++ y.
Lemma wasm_head L b x : Forall solid L -> render L b = $"/wasm/" ++ x -> exists l, L = $"wasm" :: l.
Proof.
  intros H E. assert (N : render L b <> $"/wasm") by (rewrite E; intro X; apply (f_equal (@length ascii)) in X; rewrite app_length in X; cbn in X; lia).
  destruct (wasm_url L b H N) as [(l & -> & _)|(_ & F)]; [eauto|]. exfalso. assert (T : has_prefix (render L b) ($"/wasm/") = true) by (apply has_prefix_spec; eauto). congruence.
Qed.
Lemma head_wasm l b : Forall solid ($"wasm" :: l) -> l <> [] \/ b = true -> exists y, render ($"wasm" :: l) b = $"/wasm/" ++ y.
Proof.
  intros H N. assert (K : render ($"wasm" :: l) b <> $"/wasm") by (intro E; destruct (render_wasm _ _ H E) as (E1 & E2); destruct N as [N|N]; [apply N; injection E1; auto|congruence]).
  destruct (wasm_url _ b H K) as [(l' & _ & F & _)|(F & _)]; [apply has_prefix_spec in F; exact F|destruct (F l eq_refl)].
Qed.
Lemma solid_two q (x : str) (y : str) : Forall solid (q ++ [x]) -> solid y -> Forall solid (q ++ [y]).
Proof. intros H Y. apply Forall_app in H. apply Forall_app. split; [apply H|constructor; [exact Y|constructor]]. Qed.
Lemma spelled_hint raw q x b l : Forall solid (q ++ [x]) -> hint q x b l -> Forall (fun c => stays c = true) l -> spells raw (render (q ++ [x]) b) -> in_wasm raw (render (q ++ [x]) b) ->
  spells (resolve raw l) (resolve (render (q ++ [x]) b) l) /\ in_wasm (resolve raw l) (resolve (render (q ++ [x]) b) l) /\ absolute (resolve (render (q ++ [x]) b) l).
Proof.
  intros H I SL S W. destruct (spells_render q x b raw H S) as (rq & rx & -> & FQ & FX & RS). pose proof (solid_snoc _ _ H) as (Hq & Hx). pose proof (solid_snoc _ _ RS) as (Hrq & _).
  assert (SAME : forall q', q = $"wasm" :: q' -> exists rq', rq = $"wasm" :: rq').
  { intros q' ->. destruct (head_wasm (q' ++ [x]) b H) as (y & Y); [left; destruct q'; discriminate|]. destruct (W y Y) as (z & Z). destruct (wasm_head _ _ z RS Z) as (l' & E).
    inversion FQ as [|r0 y0 rq' q0 _ _ E1 E2]; subst. injection E as -> _. eauto. }
  destruct I as [(-> & ->)|[(-> & ->)|(-> & ->)]].
  - rewrite (resolve_here rq rx RS), (resolve_here q x H). split; [exact (render_spells rq q true FQ)|]. split; [|eexists; reflexivity].
    intros y Y. destruct (wasm_head q true y Hq Y) as (q' & E). destruct (SAME q' E) as (rq' & ->). apply (head_wasm rq' true Hrq). right. reflexivity.
  - assert (SX : spells x x) by (apply stays_spells; apply Forall_app in SL; apply SL). rewrite (up_other rq rx x RS Hx), (up_other q x x H Hx).
    split; [apply render_spells, Forall2_app; [exact FQ|constructor; [exact SX|constructor]]|]. split; [|eexists; reflexivity].
    intros y Y. destruct q as [|q0 q].
    + inversion FQ; subst. exists y. exact Y.
    + destruct (wasm_head _ false y H Y) as (q' & E). injection E as -> _. destruct (SAME q eq_refl) as (rq' & ->). apply (head_wasm (rq' ++ [x]) false (solid_two ($"wasm" :: rq') rx x RS Hx)). left. destruct rq'; discriminate.
  - assert (SX : spells x x) by (apply stays_spells; apply Forall_app in SL; apply SL). rewrite (down_other rq rx x RS Hx), (down_other q x x H Hx).
    split; [apply render_spells, Forall2_app; [exact FQ|constructor; [exact SX|constructor]]|]. split; [|eexists; reflexivity].
    intros y Y. destruct q as [|q0 q].
    + inversion FQ; subst. exists y. exact Y.
    + destruct (wasm_head _ true y H Y) as (q' & E). injection E as -> _. destruct (SAME q eq_refl) as (rq' & ->). apply (head_wasm (rq' ++ [x]) true (solid_two ($"wasm" :: rq') rx x RS Hx)). right. reflexivity.
Qed.
Lemma spelled_ends ws n p a : Forall program ws -> ends ws n p a -> forall raw t, absolute p -> spells raw p -> in_wasm raw p -> a_tail t -> Forall (fun c => ~ control_byte c) t -> ends_target ws n (raw ++ t) a.
Proof.
  intros P H. induction H as [p a E N|n p l a E H IH]; intros raw t A S W T C.
  - destruct (spells_clean raw p S) as (Q & CR). assert (CT : Forall (fun c => ~ control_byte c) (raw ++ t)) by (apply Forall_app; split; assumption).
    destruct (target_answer ws (raw ++ t) raw t p P (conj eq_refl (conj Q T)) CT (spells_encodes _ _ S) (or_introl W)) as (a' & SE & K).
    rewrite E in K. inversion K as [b N' E'|l R E'|l raw' u R U I E']; subst; [|destruct (N _ (eq_sym E'))|destruct (N _ (eq_sym E'))]. apply et_here; [exact SE|exact N].
  - destruct (spells_clean raw p S) as (Q & CR). assert (CT : Forall (fun c => ~ control_byte c) (raw ++ t)) by (apply Forall_app; split; assumption).
    assert (TG : target (raw ++ t) raw t) by exact (conj eq_refl (conj Q T)).
    destruct (target_answer ws (raw ++ t) raw t p P TG CT (spells_encodes _ _ S) (or_introl W)) as (a' & SE & K).
    rewrite E in K. pose proof (kept_sub t T C) as (KT & KC).
    assert (B : fst (cut_at "?" (raw ++ t)) = raw) by (rewrite (cut_target _ _ _ TG); reflexivity).
    destruct (moved_shape ws p l P A E) as [(AL & m & b & SM & RE)|(NL & NN & SL)].
    + inversion K as [b' N' E'|l' R E'|l' raw' u R U I E']; subst; [destruct (N' _ eq_refl)|contradiction|]. apply usual_escape in U. subst raw'.
      destruct (in_ascii_tail _ _ I KT KC) as (UT & UC). destruct (escape_clean (render m b)) as (Q1 & Q2 & _).
      destruct (next_of (raw ++ t) _ _ Q1 Q2 UT UC) as (u' & X & XT & XC). eapply et_moved; [exact SE|]. rewrite X, B.
      rewrite escape_render, (resolve_absolute _ _ _ (solids_escape m SM)), <- escape_render. rewrite (resolve_absolute p m b SM) in H. exact (usual_ends ws n _ a P H u' AL XT XC).
    + inversion K as [b' N' E'|l' R E'|l' raw' u R U I E']; subst; [destruct (N' _ eq_refl)| |contradiction].
      assert (Q' : ~ In "?"%char l /\ ~ In "#"%char l). { rewrite <- (escape_stays l SL). split; apply escape_clean. }
      destruct (next_of (raw ++ t) _ _ (proj1 Q') (proj2 Q') KT KC) as (u' & X & XT & XC). eapply et_moved; [exact SE|]. rewrite X, B.
      destruct (serve_hint ws p l P E NL) as (q & x & b & -> & SQ & HI). destruct (spelled_hint raw q x b l SQ HI SL S W) as (G1 & G2 & G3). exact (IH _ u' G3 G1 G2 XT XC).
Qed.
Lemma spelled_follow ws p raw t n a : Forall program ws -> absolute p -> spells raw p -> (forall x, p = $"/wasm/" ++ x -> exists y, raw = $"/wasm/" ++ y) -> a_tail t -> Forall (fun c => ~ control_byte c) t ->
  (ends_target ws n (raw ++ t) a <-> ends ws n p a).
Proof.
  intros P A U W T C. split; [|intro H; exact (spelled_ends ws n p a P H raw t A U W T C)]. intro H.
  destruct (parts_exist p) as (l & L). destruct (leads_exist l) as (to & LT). destruct (any_ends ws P p l to L LT) as (n' & a' & _ & E & _).
  destruct (ends_target_unique ws n _ a H n' a' (spelled_ends ws n' p a' P E raw t A U W T C)) as (-> & ->). exact E.
Qed.
Lemma usual_spells raw p : usual raw p -> spells raw p.
Proof.
  intro H. induction H as [|c r p U _ IH|c a b x y r p U E X Y A B _ IH]; [constructor| |].
  - change (spells ([c] ++ r) ([c] ++ p)). apply spells_app; [apply stays_spells; constructor; [apply stays_iff; exact U|constructor]|exact IH].
  - rewrite <- (chr_code c), E. constructor; [split; auto|split; auto| |exact IH]. rewrite <- E, chr_code. intros ->. apply U. apply stays_iff. reflexivity.
Qed.

(** ** Files *)
Lemma target_sent ws s w f : Forall program ws -> (serve_target ws s = Some (Sent w f) <->
  exists raw t p, target s raw t /\ Forall (fun c => ~ control_byte c) s /\ encodes raw p /\ sent_at ws w f p /\ (w = Programs -> exists y, raw = $"/wasm/" ++ y)).
Proof.
  intro P. split.
  - intro E. destruct (target_exists s) as (raw & t & T).
    assert (C : Forall (fun c => ~ control_byte c) s). { apply controls. unfold serve_target, read_target in E. destruct (existsb control s); [discriminate E|reflexivity]. }
    destruct (unescape raw) as [p|] eqn:U.
    2:{ exfalso. unfold serve_target, read_target in E. rewrite (proj2 (controls s) C), (cut_target s raw t T), U in E. discriminate E. }
    apply unescape_iff in U. exists raw, t, p. split; [exact T|]. split; [exact C|]. split; [exact U|].
    assert (D : (forall x, p = $"/wasm/" ++ x -> exists y, raw = $"/wasm/" ++ y) \/ (exists x, p = $"/wasm/" ++ x) /\ ~ exists y, raw = $"/wasm/" ++ y).
    { destruct (has_prefix raw ($"/wasm/")) eqn:R; [left; intros x _; apply prefix_iff; exact R|]. assert (NR : ~ exists y, raw = $"/wasm/" ++ y) by (intro Y; apply prefix_iff in Y; congruence).
      destruct (has_prefix p ($"/wasm/")) eqn:X; [right; split; [apply prefix_iff; exact X|exact NR]|]. left. intros x ->. assert (K : has_prefix ($"/wasm/" ++ x) ($"/wasm/") = true) by (apply prefix_iff; eauto). congruence. }
    destruct D as [D|((x & X) & NR)].
    + destruct (target_answer ws s raw t p P T C U (or_introl D)) as (a & A & K). rewrite E in A. injection A as <-.
      assert (S : serve ws p = Sent w f) by (inversion K; reflexivity). apply (sent_exactly ws P) in S. split; [exact S|]. intros ->. inversion S; subst. exact (D _ eq_refl).
    + exfalso. assert (M : (exists y, serve ws p = Moved ("/"%char :: y)) \/ ~ exists y, serve ws p = Moved ("/"%char :: y)).
      { destruct (serve ws p) as [[|c l]| | | |]; try (right; intros (y & Y); discriminate Y). destruct (ascii_dec c "/") as [->|NC]; [left; eauto|right; intros (y & Y); injection Y as Y _; exact (NC Y)]. }
      destruct M as [(y & M)|M].
      * destruct (target_answer ws s raw t p P T C U (or_intror (ex_intro _ y M))) as (a & A & K). rewrite E in A. injection A as <-. rewrite M in K. inversion K.
      * rewrite (target_hidden ws s raw t p x P T C U X NR M) in E. discriminate E.
  - intros (raw & t & p & T & C & U & S & W).
    assert (D : forall x, p = $"/wasm/" ++ x -> exists y, raw = $"/wasm/" ++ y).
    { intros x X. destruct w; [|exact (W eq_refl)]. exfalso. inversion S as [EP|f' [I|[I|[I|[I|[]]]]]|]; subst; discriminate. }
    destruct (target_answer ws s raw t p P T C U (or_introl D)) as (a & A & K). apply (sent_exactly ws P) in S. rewrite S in K. inversion K; subst; exact A.
Qed.
Lemma target_page ws s : Forall program ws -> In ($"parse-js.wasm") ws -> absolute s -> serve_target ws s = Some (Sent Pages ($"index.html")) ->
  (forall r, In r [$"css/bootstrap.min.css"; $"css/index.css"; $"javascript/sfomuseum.golang.wasm.bundle.js"; $"javascript/index.js"] -> serve_target ws (next_target s r) = Some (Sent Pages r)) /\
  serve_target ws (next_target s ($"wasm/parse-js.wasm")) = Some (Sent Programs ($"parse-js.wasm")).
Proof.
  intros P I (z & Z) E. apply (target_sent ws s _ _ P) in E. destruct E as (raw & t & p & T & C & U & S & _).
  assert (p = $"/") as -> by (inversion S as [|f [J|[J|[J|[J|[]]]]]|]; subst; try discriminate; reflexivity).
  assert (raw = $"/") as ->.
  { destruct T as (T & N & TT). destruct raw as [|c raw]; [inversion U|]. rewrite T in Z. injection Z as -> _. inversion U as [|c r q _ G|]; subst. inversion G. reflexivity. }
  assert (B : fst (cut_at "?" s) = $"/") by (rewrite (cut_target s _ t T); reflexivity). unfold next_target. rewrite B.
  split; [intros r [<-|[<-|[<-|[<-|[]]]]]; reflexivity|].
  change (serve_target ws ($"/wasm/parse-js.wasm") = Some (Sent Programs ($"parse-js.wasm"))). apply (target_sent ws _ _ _ P). exists ($"/wasm/parse-js.wasm"), [], ($"/wasm/parse-js.wasm").
  split; [split; [reflexivity|split; [intro J; apply (in_map code) in J; revert J; vm_compute; intuition discriminate|left; reflexivity]]|].
  split; [apply controls; reflexivity|]. split; [apply unescape_iff; reflexivity|]. split; [exact (sa_program ws ($"parse-js.wasm") I)|]. intros _. exists ($"parse-js.wasm"). reflexivity.
Qed.
