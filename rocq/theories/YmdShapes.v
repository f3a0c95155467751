(** The qualified date expressions re.YMD, re.QualifiedIndividual and
    re.QualifiedGroup, evaluated symbolically on every string they can match. *)
From Coq Require Import Ascii String ZArith NArith Bool Lia ZifyBool List.
From Verif Require Import GoStr Regex Patterns RegexSym Edtf Common StrFacts.
Import ListNotations.
Open Scope Z_scope.

Lemma fits_app_inv a : forall b s, fits (a ++ b) s -> exists u v, s = u ++ v /\ fits a u /\ fits b v.
Proof.
  unfold fits. intros b s H. apply Forall2_app_inv_l in H. destruct H as (u & v & H1 & H2 & ->). eauto.
Qed.
Lemma fits_app a b u v : fits a u -> fits b v -> fits (a ++ b) (u ++ v).
Proof. apply Forall2_app. Qed.
Lemma fits_one k s : fits [k] s -> exists c, s = [c] /\ in_set k c = true.
Proof.
  intro H. inversion H as [|? c ? l Hc Hl]; subst. inversion Hl; subst. eauto.
Qed.
Lemma fits_nil s : fits [] s -> s = [].
Proof. intro H. inversion H. reflexivity. Qed.

Fixpoint shape_sub (a b : shape) : bool :=
  match a, b with
  | [], [] => true
  | k :: a', l :: b' => if subset k l then shape_sub a' b' else false
  | _, _ => false
  end.
Lemma shape_sub_fits a : forall b s, shape_sub a b = true -> fits a s -> fits b s.
Proof.
  induction a as [|k a IH]; intros [|l b] s H Hf; cbn [shape_sub] in H; try discriminate.
  - exact Hf.
  - inversion Hf as [|? c ? t Hc Ht]; subst. destruct (subset k l) eqn:E; [|discriminate]. constructor.
    + eapply subset_ok; eassumption.
    + apply IH; assumption.
Qed.

(** Components: an optional qualifier on either side of a core. *)
Definition qset : cset := [(63, 63); (126, 126); (37, 37)].
Definition c0 (z : Z) : cset := [(z, z)].
Definition dx : cset := [(48, 57); (88, 88)].
Definition year_shapes : list shape := [[dx; dx; dx; dx]; [c0 45; dx; dx; dx; dx]].
Definition month_shapes : list shape :=
  [[[(48, 48); (88, 88)]; [(49, 57); (88, 88)]]; [[(49, 49); (88, 88)]; [(48, 50); (88, 88)]]].
Definition day_shapes : list shape :=
  [[[(48, 50); (88, 88)]; dx]; [[(51, 51); (88, 88)]; [(48, 49); (88, 88)]]].

Inductive qpos := QNone | QPre | QSuf.
Definition comp_shape (q : qpos) (core : shape) : shape :=
  match q with QNone => core | QPre => qset :: core | QSuf => core ++ [qset] end.
(** [qualified q t core v]: [t] is [core] with a qualifier as described by [v]. *)
Inductive qualified : str -> str -> option qualifier -> Prop :=
| q_none core : qualified core core None
| q_pre c core : in_set qset c = true -> qualified (c :: core) core (Some (mkQual [c] Individual))
| q_suf c core : in_set qset c = true -> qualified (core ++ [c]) core (Some (mkQual [c] Group)).
Definition qpos_of (v : option qualifier) : qpos :=
  match v with None => QNone | Some q => match q_type q with Individual => QPre | Group => QSuf end end.
Definition core_in (shapes : list shape) (core : str) : Prop := exists sh, In sh shapes /\ fits sh core.

Lemma comp_fits q core t : fits (comp_shape q core) t -> exists u v, fits core u /\ qualified t u v /\ qpos_of v = q.
Proof.
  destruct q; cbn [comp_shape]; intro H.
  - exists t, None. split; [exact H|]. split; [constructor|reflexivity].
  - inversion H as [|? c ? u Hc Hu]; subst. exists u. eexists. split; [exact Hu|]. split; [apply q_pre; exact Hc|reflexivity].
  - apply fits_app_inv in H. destruct H as (u & w & -> & Hu & Hw). apply fits_one in Hw. destruct Hw as (c & -> & Hc).
    exists u. eexists. split; [exact Hu|]. split; [apply q_suf; exact Hc|reflexivity].
Qed.
Lemma fits_comp core t u v : fits core u -> qualified t u v -> fits (comp_shape (qpos_of v) core) t.
Proof.
  intros Hf Hq. destruct Hq as [u|c u Hc|c u Hc]; cbn [qpos_of q_type comp_shape].
  - exact Hf.
  - constructor; assumption.
  - apply fits_app; [exact Hf|]. constructor; [exact Hc|constructor].
Qed.

(** ** parseYMDComponent *)
Definition comp_groups (n : nat) (q : qpos) : list sout :=
  match q with
  | QNone => [Some [Some (n, 0%nat); None; Some (n, 0%nat)]]
  | QPre => [Some [Some (S n, 0%nat); Some (S n, n); Some (n, 0%nat)]]
  | QSuf => [None; Some [Some (S n, 0%nat); Some (S n, 1%nat); Some (1%nat, 0%nat)]]
  end.
Definition pair_eqb (a b : nat * nat) : bool := Nat.eqb (fst a) (fst b) && Nat.eqb (snd a) (snd b).
Definition opt_eqb {A} (f : A -> A -> bool) (a b : option A) : bool :=
  match a, b with Some x, Some y => f x y | None, None => true | _, _ => false end.
Fixpoint list_eqb {A} (f : A -> A -> bool) (a b : list A) : bool :=
  match a, b with [], [] => true | x :: a', y :: b' => f x y && list_eqb f a' b' | _, _ => false end.
Definition sout_eqb : sout -> sout -> bool := opt_eqb (list_eqb (opt_eqb pair_eqb)).
Lemma pair_eqb_eq a b : pair_eqb a b = true -> a = b.
Proof. destruct a, b. unfold pair_eqb. cbn [fst snd]. intro H. f_equal; lia. Qed.
Lemma opt_eqb_eq {A} (f : A -> A -> bool) : (forall a b, f a b = true -> a = b) -> forall a b, opt_eqb f a b = true -> a = b.
Proof. intros Hf [a|] [b|] H; cbn in H; try discriminate; [f_equal; auto|reflexivity]. Qed.
Lemma list_eqb_eq {A} (f : A -> A -> bool) : (forall a b, f a b = true -> a = b) -> forall a b, list_eqb f a b = true -> a = b.
Proof.
  intros Hf a. induction a as [|x a IH]; intros [|y b] H; cbn in H; try discriminate; [reflexivity|].
  apply andb_true_iff in H. destruct H. f_equal; auto.
Qed.
Lemma sout_eqb_eq a b : sout_eqb a b = true -> a = b.
Proof. apply opt_eqb_eq, list_eqb_eq, opt_eqb_eq, pair_eqb_eq. Qed.

Definition comp_rs (q : qpos) : list regexp :=
  match q with QSuf => [QualifiedIndividual; QualifiedGroup] | _ => [QualifiedIndividual] end.
Definition all_cores : list shape := year_shapes ++ month_shapes ++ day_shapes.
Lemma comp_all_ok : forallb (fun c => forallb (fun q =>
  check 40 (comp_rs q) (fun _ outs => list_eqb sout_eqb outs (comp_groups (length c) q)) (comp_shape q c))
  [QNone; QPre; QSuf]) all_cores = true.
Proof. vm_compute. reflexivity. Qed.

Lemma slice_full (s : str) n : length s = n -> slice s (n, 0%nat) = s.
Proof. intros <-. unfold slice. cbn [fst snd]. rewrite suf_all, Nat.sub_0_r. apply firstn_all. Qed.
Lemma slice_tail (a b : str) n : length b = n -> slice (a ++ b) (n, 0%nat) = b.
Proof.
  intros <-. unfold slice, suf. cbn [fst snd]. rewrite app_length.
  replace (length a + length b - length b)%nat with (length a) by lia.
  rewrite skipn_app, skipn_all, Nat.sub_diag, Nat.sub_0_r. cbn [skipn app]. apply firstn_all.
Qed.
Lemma slice_head (a b : str) n k : length b = k -> n = (length a + k)%nat -> slice (a ++ b) (n, k) = a.
Proof.
  intros <- ->. unfold slice, suf. cbn [fst snd]. rewrite app_length, Nat.sub_diag. cbn [skipn].
  replace (length a + length b - length b)%nat with (length a) by lia.
  rewrite firstn_app, Nat.sub_diag, firstn_all. apply app_nil_r.
Qed.
Lemma slice_mid (a b c : str) n k : length c = k -> n = (length b + k)%nat -> slice (a ++ b ++ c) (n, k) = b.
Proof.
  intros <- ->. unfold slice, suf. cbn [fst snd]. rewrite !app_length.
  replace (length a + (length b + length c) - (length b + length c))%nat with (length a) by lia.
  replace (length b + length c - length c)%nat with (length b) by lia.
  rewrite skipn_app, skipn_all, Nat.sub_diag. cbn [skipn app].
  rewrite firstn_app, Nat.sub_diag, firstn_all. apply app_nil_r.
Qed.

Lemma comp_answers t core v : core_in all_cores core -> qualified t core v ->
  answers t (comp_rs (qpos_of v)) (comp_groups (length core) (qpos_of v)).
Proof.
  intros (sh & Hin & Hf) Hq.
  assert (Hlen : length sh = length core) by exact (Forall2_length Hf).
  pose proof comp_all_ok as Hc. rewrite forallb_forall in Hc. specialize (Hc sh Hin). rewrite forallb_forall in Hc.
  specialize (Hc (qpos_of v)).
  assert (Hqin : In (qpos_of v) [QNone; QPre; QSuf]) by (destruct (qpos_of v); cbn; auto).
  specialize (Hc Hqin). clear Hqin Hin.
  pose proof (fits_comp _ _ _ _ Hf Hq) as Hfc. clear Hf Hq.
  destruct (check_ok _ _ _ _ _ Hc Hfc) as (sh' & outs & _ & Hans & Heq).
  apply (list_eqb_eq _ sout_eqb_eq) in Heq. subst outs. rewrite Hlen in Hans. exact Hans.
Qed.
Lemma core_nonempty core : core_in all_cores core -> is_empty core = false /\ (0 < length core)%nat.
Proof.
  intros (sh & Hin & Hf). assert (Hlen : length sh = length core) by exact (Forall2_length Hf).
  assert (Hne : (0 < length core)%nat).
  { rewrite <- Hlen. revert Hin. clear. unfold all_cores, year_shapes, month_shapes, day_shapes. cbn [app In].
    intuition (subst; cbn; lia). }
  split; [|exact Hne]. destruct core; cbn in *; [lia|reflexivity].
Qed.
Lemma answers_cons s r rs o outs : answers s (r :: rs) (o :: outs) ->
  find_submatch r s = out_subs s o /\ answers s rs outs.
Proof. intro H. inversion H as [|? ? ? ? (Hf1 & Hm1) H2]; subst. split; assumption. Qed.

Lemma component_ok t core v : core_in all_cores core -> qualified t core v -> component t = OK (core, v).
Proof.
  intros Hc Hq. pose proof (comp_answers _ _ _ Hc Hq) as Hans. apply core_nonempty in Hc. destruct Hc as (_ & Hne).
  unfold component. replace (is_empty t) with false.
  2: { symmetry. destruct Hq as [core|c core Hc|c core Hc]; destruct core; cbn in *; try reflexivity; lia. }
  unfold parseYMDComponent.
  destruct Hq as [core|c core Hc|c core Hc]; cbn [qpos_of q_type comp_groups comp_rs] in Hans;
    apply answers_cons in Hans; destruct Hans as (Hf1 & Hans); rewrite Hf1.
  - cbn [out_subs map length Nat.eqb group_str]. unfold sub. cbn [nth].
    rewrite slice_full by reflexivity. reflexivity.
  - cbn [out_subs map length Nat.eqb group_str]. unfold sub. cbn [nth].
    change (c :: core) with ([c] ++ core). rewrite slice_tail by reflexivity.
    rewrite slice_head by reflexivity. reflexivity.
  - apply answers_cons in Hans; destruct Hans as (Hf2 & _). rewrite Hf2.
    cbn [out_subs map length Nat.eqb group_str]. unfold sub. cbn [nth].
    rewrite slice_tail by reflexivity. rewrite slice_head by (cbn; lia). reflexivity.
Qed.

(** ** re.YMD *)
Definition part := (qpos * shape)%type.
Definition part_shape (p : part) : shape := comp_shape (fst p) (snd p).
Definition qs := [QNone; QPre; QSuf].
Definition parts_of (l : list shape) : list part := flat_map (fun q => map (pair q) l) qs.
(** year, and optionally month, and optionally day *)
Definition form := (part * option (part * option part))%type.
Definition ymd_forms : list form :=
  flat_map (fun y =>
    (y, None) ::
    flat_map (fun m => (y, Some (m, None)) :: map (fun d => (y, Some (m, Some d))) (parts_of day_shapes)) (parts_of month_shapes))
    (parts_of year_shapes).
Definition dash : cset := c0 45.
Definition form_shape (x : form) : shape :=
  let '(y, o) := x in
  part_shape y ++ match o with
                  | None => []
                  | Some (m, o') => dash :: part_shape m ++ match o' with None => [] | Some d => dash :: part_shape d end
                  end.
Definition form_groups (x : form) : sout :=
  let '(y, o) := x in
  let ly := length (part_shape y) in
  Some (match o with
        | None => [Some (ly, 0%nat); Some (ly, 0%nat); None; None]
        | Some (m, None) =>
            let lm := length (part_shape m) in
            [Some (ly + S lm, 0); Some (ly + S lm, S lm); Some (lm, 0); None]%nat
        | Some (m, Some d) =>
            let lm := length (part_shape m) in let ld := length (part_shape d) in
            [Some (ly + S (lm + S ld), 0); Some (ly + S (lm + S ld), S (lm + S ld)); Some (lm + S ld, S ld); Some (ld, 0)]%nat
        end).
Lemma forms_ok : forallb (fun x =>
  check 40 [YMD_re] (fun _ outs => list_eqb sout_eqb outs [form_groups x]) (form_shape x)) ymd_forms = true.
Proof. vm_compute. reflexivity. Qed.
Lemma ymd_covered :
  match regexp_lang YMD_re with
  | Some l => forallb (fun sh => existsb (fun x => shape_sub sh (form_shape x)) ymd_forms) l
  | None => false
  end = true.
Proof. vm_compute. reflexivity. Qed.

(** [s] is made of a year, a month and a day text; absent ones are empty. *)
Inductive ymd_text : str -> str -> str -> str -> Prop :=
| yt_y yt : ymd_text yt yt [] []
| yt_ym yt mt : mt <> [] -> ymd_text (yt ++ "-"%char :: mt) yt mt []
| yt_ymd yt mt dt : mt <> [] -> dt <> [] -> ymd_text (yt ++ "-"%char :: mt ++ "-"%char :: dt) yt mt dt.
Record parts_ok (yt yc : str) (yq : option qualifier) (mt mc : str) (mq : option qualifier)
                (dt dc : str) (dq : option qualifier) : Prop := mkpo {
  po_yq : qualified yt yc yq; po_y : core_in year_shapes yc;
  po_mq : qualified mt mc mq; po_m : mt = [] \/ core_in month_shapes mc;
  po_dq : qualified dt dc dq; po_d : dt = [] \/ core_in day_shapes dc }.

Lemma core_all_year c : core_in year_shapes c -> core_in all_cores c.
Proof. intros (sh & H & Hf). exists sh. split; [|exact Hf]. unfold all_cores. apply in_or_app. auto. Qed.
Lemma core_all_month c : core_in month_shapes c -> core_in all_cores c.
Proof. intros (sh & H & Hf). exists sh. split; [|exact Hf]. unfold all_cores. apply in_or_app. right. apply in_or_app. auto. Qed.
Lemma core_all_day c : core_in day_shapes c -> core_in all_cores c.
Proof. intros (sh & H & Hf). exists sh. split; [|exact Hf]. unfold all_cores. apply in_or_app. right. apply in_or_app. auto. Qed.

Lemma parts_of_in q sh l : In sh l -> In (q, sh) (parts_of l).
Proof.
  intro H. unfold parts_of. apply in_flat_map. exists q. split; [destruct q; cbn; auto|]. apply in_map. exact H.
Qed.
Lemma in_parts_of q sh l : In (q, sh) (parts_of l) -> In sh l.
Proof.
  unfold parts_of. intro H. apply in_flat_map in H. destruct H as (q' & _ & H). apply in_map_iff in H.
  destruct H as (sh' & E & H). injection E as _ ->. exact H.
Qed.
Lemma part_fits q sh t : fits (part_shape (q, sh)) t -> forall l, In (q, sh) (parts_of l) ->
  exists core v, qualified t core v /\ core_in l core /\ (length sh > 0 -> t <> [])%nat.
Proof.
  intros H l Hl. apply comp_fits in H. destruct H as (u & v & Hu & Hq & _). exists u, v. split; [exact Hq|].
  split; [exists sh; split; [exact (in_parts_of _ _ _ Hl)|exact Hu]|].
  intros Hn ->. pose proof (Forall2_length Hu) as HL. inversion Hq; subst; cbn in HL; try lia.
  match goal with H : _ ++ [_] = [] |- _ => apply app_eq_nil in H; destruct H; discriminate end.
Qed.
Lemma dash_char c : in_set dash c = true -> c = "-"%char.
Proof. unfold dash, c0, in_set. cbn [existsb fst snd]. intro H. apply code_inj. change (code "-") with 45. lia. Qed.

Lemma year_len : forallb (fun sh => Nat.ltb 0 (length sh)) (year_shapes ++ month_shapes ++ day_shapes) = true.
Proof. reflexivity. Qed.
Lemma shape_pos sh l : In l [year_shapes; month_shapes; day_shapes] -> In sh l -> (length sh > 0)%nat.
Proof.
  intros Hl H. pose proof year_len as Hp. rewrite forallb_forall in Hp. specialize (Hp sh).
  assert (In sh (year_shapes ++ month_shapes ++ day_shapes)).
  { apply in_or_app. cbn in Hl. destruct Hl as [<-|[<-|[<-|[]]]]; [left; exact H|right; apply in_or_app; left; exact H|right; apply in_or_app; right; exact H]. }
  specialize (Hp H0). apply Nat.ltb_lt in Hp. lia.
Qed.

Lemma find_match r s : find_submatch r s <> [] -> match_string r s = true.
Proof. unfold find_submatch, match_string. destruct (find_from _ _ _); [reflexivity|congruence]. Qed.

Theorem ymd_inv s : find_submatch YMD_re s <> [] -> exists yt yc yq mt mc mq dt dc dq,
  ymd_text s yt mt dt /\ parts_ok yt yc yq mt mc mq dt dc dq.
Proof.
  intro H. apply find_match in H.
  pose proof ymd_covered as Hc. destruct (regexp_lang YMD_re) as [l|] eqn:El; [|discriminate].
  destruct (regexp_lang_ok _ _ _ El H) as (sh & Hin & Hf). rewrite forallb_forall in Hc. specialize (Hc sh Hin).
  apply existsb_exists in Hc. destruct Hc as (x & Hx & Hsub). apply (shape_sub_fits _ _ _ Hsub) in Hf.
  clear Hsub Hin El H sh l. unfold ymd_forms in Hx. apply in_flat_map in Hx. destruct Hx as ((qy & shy) & Hy & Hx).
  destruct Hx as [<-|Hx].
  - unfold form_shape in Hf. rewrite app_nil_r in Hf. destruct (part_fits _ _ _ Hf _ Hy) as (yc & yq & Hq & Hcy & _).
    exists s, yc, yq, [], [], None, [], [], None. split; [constructor|]. constructor; auto using q_none.
  - apply in_flat_map in Hx. destruct Hx as ((qm & shm) & Hm & Hx). destruct Hx as [<-|Hx].
    + unfold form_shape in Hf. rewrite app_nil_r in Hf. apply fits_app_inv in Hf. destruct Hf as (yt & w & -> & Hf1 & Hf).
      inversion Hf as [|? c ? mt Hc Hf2]; subst. apply dash_char in Hc. subst c.
      destruct (part_fits _ _ _ Hf1 _ Hy) as (yc & yq & Hq & Hcy & _).
      destruct (part_fits _ _ _ Hf2 _ Hm) as (mc & mq & Hqm & Hcm & Hne).
      apply in_parts_of in Hm. specialize (Hne (shape_pos _ _ (or_intror (or_introl eq_refl)) Hm)).
      exists yt, yc, yq, mt, mc, mq, [], [], None. split; [constructor; exact Hne|]. constructor; auto using q_none.
    + apply in_map_iff in Hx. destruct Hx as ((qd & shd) & <- & Hd).
      unfold form_shape in Hf. apply fits_app_inv in Hf. destruct Hf as (yt & w & -> & Hf1 & Hf).
      inversion Hf as [|? c ? w' Hc Hf2]; subst. apply dash_char in Hc. subst c.
      apply fits_app_inv in Hf2. destruct Hf2 as (mt & w & -> & Hf2 & Hf3).
      inversion Hf3 as [|? c ? dt Hc Hf4]; subst. apply dash_char in Hc. subst c.
      destruct (part_fits _ _ _ Hf1 _ Hy) as (yc & yq & Hq & Hcy & _).
      destruct (part_fits _ _ _ Hf2 _ Hm) as (mc & mq & Hqm & Hcm & Hne).
      destruct (part_fits _ _ _ Hf4 _ Hd) as (dc & dq & Hqd & Hcd & Hned).
      apply in_parts_of in Hm. specialize (Hne (shape_pos _ _ (or_intror (or_introl eq_refl)) Hm)).
      apply in_parts_of in Hd. specialize (Hned (shape_pos _ _ (or_intror (or_intror (or_introl eq_refl))) Hd)).
      exists yt, yc, yq, mt, mc, mq, dt, dc, dq. split; [constructor; assumption|]. constructor; auto.
Qed.

Lemma form_answer x s : In x ymd_forms -> fits (form_shape x) s -> find_submatch YMD_re s = out_subs s (form_groups x).
Proof.
  intros Hx Hf. pose proof forms_ok as Hc. rewrite forallb_forall in Hc. specialize (Hc x Hx).
  destruct (check_ok _ _ _ _ _ Hc Hf) as (sh' & outs & _ & Hans & Heq).
  apply (list_eqb_eq _ sout_eqb_eq) in Heq. subst outs. apply answers_cons in Hans. apply Hans.
Qed.

Theorem ymd_sub s yt yc yq mt mc mq dt dc dq : ymd_text s yt mt dt -> parts_ok yt yc yq mt mc mq dt dc dq ->
  find_submatch YMD_re s = [s; yt; mt; dt].
Proof.
  intros Ht [Hyq (shy & Hiny & Hfy) Hmq Hm Hdq Hd].
  pose proof (fits_comp _ _ _ _ Hfy Hyq) as Gy. pose proof (Forall2_length Gy) as Ly.
  inversion Ht as [y|y m Hne|y m d Hne Hned]; subst; clear Ht.
  - rewrite (form_answer ((qpos_of yq, shy), None)).
    + unfold form_groups, part_shape. cbn [fst snd]. rewrite Ly. cbn [out_subs map group_str].
      rewrite slice_full by reflexivity. reflexivity.
    + unfold ymd_forms. apply in_flat_map. exists (qpos_of yq, shy). split; [apply parts_of_in; exact Hiny|]. left. reflexivity.
    + unfold form_shape, part_shape. cbn [fst snd]. rewrite app_nil_r. exact Gy.
  - destruct Hm as [->|(shm & Hinm & Hfm)]; [congruence|].
    pose proof (fits_comp _ _ _ _ Hfm Hmq) as Gm. pose proof (Forall2_length Gm) as Lm.
    rewrite (form_answer ((qpos_of yq, shy), Some ((qpos_of mq, shm), None))).
    + unfold form_groups, part_shape. cbn [fst snd]. rewrite Ly, Lm. cbn [out_subs map group_str].
      change ("-"%char :: mt) with (["-"%char] ++ mt). rewrite app_assoc.
      rewrite slice_full by (rewrite !app_length; cbn; lia).
      rewrite slice_tail by reflexivity. rewrite <- app_assoc. rewrite slice_head by (cbn; lia). reflexivity.
    + unfold ymd_forms. apply in_flat_map. exists (qpos_of yq, shy). split; [apply parts_of_in; exact Hiny|]. right.
      apply in_flat_map. exists (qpos_of mq, shm). split; [apply parts_of_in; exact Hinm|]. left. reflexivity.
    + unfold form_shape, part_shape. cbn [fst snd]. rewrite app_nil_r. apply fits_app; [exact Gy|]. constructor; [reflexivity|exact Gm].
  - destruct Hm as [->|(shm & Hinm & Hfm)]; [congruence|]. destruct Hd as [->|(shd & Hind & Hfd)]; [congruence|].
    pose proof (fits_comp _ _ _ _ Hfm Hmq) as Gm. pose proof (Forall2_length Gm) as Lm.
    pose proof (fits_comp _ _ _ _ Hfd Hdq) as Gd. pose proof (Forall2_length Gd) as Ld.
    rewrite (form_answer ((qpos_of yq, shy), Some ((qpos_of mq, shm), Some (qpos_of dq, shd)))).
    + unfold form_groups, part_shape. cbn [fst snd]. rewrite Ly, Lm, Ld. cbn [out_subs map group_str].
      rewrite slice_full by (rewrite app_length; cbn [length]; rewrite app_length; cbn [length]; lia).
      rewrite slice_head by (cbn [length]; rewrite ?app_length; cbn [length]; lia).
      change (yt ++ "-"%char :: mt ++ "-"%char :: dt) with (yt ++ ["-"%char] ++ mt ++ ["-"%char] ++ dt).
      rewrite (app_assoc yt). rewrite slice_mid by (cbn [length app]; lia).
      rewrite (app_assoc mt), (app_assoc (yt ++ _)). rewrite slice_tail by reflexivity. reflexivity.
    + unfold ymd_forms. apply in_flat_map. exists (qpos_of yq, shy). split; [apply parts_of_in; exact Hiny|]. right.
      apply in_flat_map. exists (qpos_of mq, shm). split; [apply parts_of_in; exact Hinm|]. right.
      apply in_map_iff. exists (qpos_of dq, shd). split; [reflexivity|apply parts_of_in; exact Hind].
    + unfold form_shape, part_shape. cbn [fst snd]. apply fits_app; [exact Gy|]. constructor; [reflexivity|].
      apply fits_app; [exact Gm|]. constructor; [reflexivity|exact Gd].
Qed.
