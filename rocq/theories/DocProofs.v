(** JsonDoc.v reads exactly the JSON texts of SpecUnmarshal.v, and its strings. *)
From Coq Require Import Ascii String ZArith NArith Bool Lia ZifyBool List.
From Verif Require Import GoStr GoTime SpecText StrFacts TextFacts Edtf Json JsonText SpecJson SpecJsonText JsonTextProofs JsonReadProofs JsonDoc Unmarshal SpecUnmarshal.
Import ListNotations.
Open Scope Z_scope.
Ltac Zify.zify_post_hook ::= Z.div_mod_to_equations.

(** ** Strings *)
Lemma raw_of u r : firstn (length (u ++ """"%char :: r) - S (length r)) (u ++ """"%char :: r) = u.
Proof. rewrite app_length. cbn [length]. replace (length u + S (length r) - S (length r))%nat with (length u) by lia. rewrite firstn_app, Nat.sub_diag, firstn_all. cbn [firstn]. apply app_nil_r. Qed.
Lemma raw_body t r : string_text t -> raw_string (t ++ """"%char :: r) = Some (t, r).
Proof. intros (b & H). unfold raw_string. rewrite (read_body _ _ r H), raw_of. reflexivity. Qed.
Lemma raw_read s t r : raw_string s = Some (t, r) -> string_text t /\ s = t ++ """"%char :: r.
Proof.
  unfold raw_string. destruct (read_string s) as [[b q]|] eqn:E; [|discriminate]. intro H. destruct (body_read _ _ _ _ (le_n _) E) as (u & Hu & ->).
  rewrite raw_of in H. apply some_pair in H. destruct H as (<- & <-). split; [exists b; exact Hu|reflexivity].
Qed.

(** ** Values *)
Scheme dvalue_mut := Minimality for dvalue_text Sort Prop
  with ditems_text_mut := Minimality for ditems_text Sort Prop
  with dmembers_text_mut := Minimality for dmembers_text Sort Prop.
Combined Scheme dvalue_all from dvalue_mut, ditems_text_mut, dmembers_text_mut.
Definition dvalue_ok (v : doc) (t : str) : Prop := value_start t /\
  forall w r k, blanks w -> ends_number r -> (2 * length (w ++ t ++ r) < k)%nat -> read_dvalue k (w ++ t ++ r) = Some (v, r).
Definition ditems_ok (l : list doc) (t : str) : Prop := (exists w u, blanks w /\ t = w ++ u /\ value_start u) /\
  forall r k, (2 * length (t ++ "]"%char :: r) + 1 < k)%nat -> read_ditems k (t ++ "]"%char :: r) = Some (l, r).
Definition dmembers_ok (l : list (str * doc)) (t : str) : Prop := (exists w u, blanks w /\ t = w ++ """"%char :: u) /\
  forall r k, (2 * length (t ++ "}"%char :: r) < k)%nat -> read_dmembers k (t ++ "}"%char :: r) = Some (l, r).
Ltac start_now := do 2 eexists; repeat split; discriminate.
Lemma doc_reads :
  (forall v t, dvalue_text v t -> dvalue_ok v t) /\ (forall l t, ditems_text l t -> ditems_ok l t) /\ (forall l t, dmembers_text l t -> dmembers_ok l t).
Proof.
  apply dvalue_all.
  - split; [start_now|]. intros w r [|k] W E L; [lia|]. cbn [read_dvalue]. change ($"null" ++ r) with ("n"%char :: $"ull" ++ r). rewrite (skip_blank w _ _ W) by reflexivity. reflexivity.
  - split; [start_now|]. intros w r [|k] W E L; [lia|]. cbn [read_dvalue]. change ($"true" ++ r) with ("t"%char :: $"rue" ++ r). rewrite (skip_blank w _ _ W) by reflexivity. reflexivity.
  - split; [start_now|]. intros w r [|k] W E L; [lia|]. cbn [read_dvalue]. change ($"false" ++ r) with ("f"%char :: $"alse" ++ r). rewrite (skip_blank w _ _ W) by reflexivity. reflexivity.
  - intros t H. pose proof (fun r => read_number_text t r H) as R. destruct (number_first _ H) as (c & u & -> & Hc).
    assert (F : is_space c = false /\ code c <> 93 /\ code c <> 125 /\ code c <> 123 /\ code c <> 91 /\ code c <> 34 /\ code c <> 110 /\ code c <> 116 /\ code c <> 102).
    { destruct Hc as [Hc| ->]; [unfold json_digit in Hc; unfold is_space; repeat split; lia|]. repeat split; discriminate. }
    destruct F as (F & F1 & F2 & F3 & F4 & F5 & F6 & F7 & F8). split; [exists c, u; auto|]. intros w r [|k] W E L; [lia|].
    specialize (R r E). cbn [app] in *. cbn [read_dvalue]. rewrite (skip_blank w _ _ W F).
    replace (code c =? 123) with false by lia. replace (code c =? 91) with false by lia. replace (code c =? 34) with false by lia.
    replace (code c =? 110) with false by lia. replace (code c =? 116) with false by lia. replace (code c =? 102) with false by lia.
    rewrite R. reflexivity.
  - intros t H. split; [start_now|]. intros w r [|k] W E L; [lia|]. cbn [read_dvalue].
    assert (X : w ++ ($"""" ++ t ++ $"""") ++ r = w ++ """"%char :: t ++ """"%char :: r) by (rewrite <- !app_assoc; reflexivity).
    rewrite X, (skip_blank w _ _ W) by reflexivity.
    change (code """" =? 123) with false. change (code """" =? 91) with false. change (code """" =? 34) with true. cbv iota. rewrite (raw_body _ r H). reflexivity.
  - intros w0 W0. split; [start_now|]. intros w r [|k] W E L; [lia|]. cbn [read_dvalue].
    assert (X : w ++ ($"[" ++ w0 ++ $"]") ++ r = w ++ "["%char :: w0 ++ "]"%char :: r) by (rewrite <- !app_assoc; reflexivity).
    rewrite X, (skip_blank w _ _ W) by reflexivity. change (code "[" =? 123) with false. change (code "[" =? 91) with true. cbv iota.
    rewrite (skip_blank w0 _ _ W0) by reflexivity. reflexivity.
  - intros l t H ((w1 & u & W1 & -> & c & u' & -> & F & F' & _) & IH). split; [start_now|]. intros w r [|k] W E L; [lia|]. cbn [read_dvalue].
    assert (X : w ++ ($"[" ++ (w1 ++ c :: u') ++ $"]") ++ r = w ++ "["%char :: (w1 ++ c :: u') ++ "]"%char :: r) by (rewrite <- !app_assoc; reflexivity).
    rewrite X in *. rewrite (skip_blank w _ _ W) by reflexivity. change (code "[" =? 123) with false. change (code "[" =? 91) with true. cbv iota.
    rewrite (app_length w) in L. cbn [length] in L. rewrite IH by lia.
    rewrite <- app_assoc. cbn [app]. rewrite (skip_blank w1 _ _ W1 F). cbn [starts_with]. replace (code c =? 93) with false by lia. reflexivity.
  - intros w0 W0. split; [start_now|]. intros w r [|k] W E L; [lia|]. cbn [read_dvalue].
    assert (X : w ++ ($"{" ++ w0 ++ $"}") ++ r = w ++ "{"%char :: w0 ++ "}"%char :: r) by (rewrite <- !app_assoc; reflexivity).
    rewrite X, (skip_blank w _ _ W) by reflexivity. change (code "{" =? 123) with true. cbv iota.
    rewrite (skip_blank w0 _ _ W0) by reflexivity. reflexivity.
  - intros l t H ((w1 & u & W1 & ->) & IH). split; [start_now|]. intros w r [|k] W E L; [lia|]. cbn [read_dvalue].
    assert (X : w ++ ($"{" ++ (w1 ++ """"%char :: u) ++ $"}") ++ r = w ++ "{"%char :: (w1 ++ """"%char :: u) ++ "}"%char :: r) by (rewrite <- !app_assoc; reflexivity).
    rewrite X in *. rewrite (skip_blank w _ _ W) by reflexivity. change (code "{" =? 123) with true. cbv iota.
    rewrite (app_length w) in L. cbn [length] in L. rewrite IH by lia.
    rewrite <- app_assoc. cbn [app]. rewrite (skip_blank w1 _ _ W1) by reflexivity. reflexivity.
  - intros w v t w' W H (S & IH) W'. split; [destruct S as (c & u & -> & S); exists w, (c :: u ++ w'); split; [exact W|]; split; [reflexivity|]; exists c, (u ++ w'); auto|].
    intros r [|k] L; [lia|]. cbn [read_ditems].
    assert (X : (w ++ t ++ w') ++ "]"%char :: r = w ++ t ++ w' ++ "]"%char :: r) by (rewrite <- !app_assoc; reflexivity).
    rewrite X in *. rewrite IH; [|exact W|apply blanks_end; [exact W'|reflexivity|discriminate..]|lia]. rewrite (skip_blank w' _ _ W') by reflexivity. reflexivity.
  - intros w v t w' l u W H (S & IH) W' H2 (_ & IH2). split; [destruct S as (c & u' & -> & S); exists w, (c :: u' ++ w' ++ $"," ++ u); split; [exact W|]; split; [reflexivity|]; exists c, (u' ++ w' ++ $"," ++ u); auto|].
    intros r [|k] L; [lia|]. cbn [read_ditems].
    assert (X : (w ++ t ++ w' ++ $"," ++ u) ++ "]"%char :: r = w ++ t ++ w' ++ ","%char :: u ++ "]"%char :: r) by (rewrite <- !app_assoc; reflexivity).
    rewrite X in *. rewrite IH; [|exact W|apply blanks_end; [exact W'|reflexivity|discriminate..]|lia]. rewrite (skip_blank w' _ _ W') by reflexivity.
    change (code "," =? 93) with false. change (code "," =? 44) with true. cbv iota.
    destruct S as (c & u' & -> & _). rewrite !app_length in L. cbn [length] in L. rewrite !app_length in L. cbn [length] in L. rewrite IH2; [reflexivity|]. rewrite app_length. cbn [length]. lia.
  - intros w kt w1 w2 v t w' W Hk W1 W2 H (S & IH) W'. split; [exists w; eexists; split; [exact W|]; reflexivity|].
    intros r [|k] L; [lia|]. cbn [read_dmembers].
    assert (X : (w ++ $"""" ++ kt ++ $"""" ++ w1 ++ $":" ++ w2 ++ t ++ w') ++ "}"%char :: r = w ++ """"%char :: kt ++ """"%char :: w1 ++ ":"%char :: w2 ++ t ++ w' ++ "}"%char :: r)
      by (rewrite <- !app_assoc; reflexivity).
    rewrite X in *. rewrite (skip_blank w _ _ W) by reflexivity. cbn [starts_with]. change (code """" =? 34) with true. cbv iota.
    rewrite (raw_body _ _ Hk), (skip_blank w1 _ _ W1) by reflexivity. cbn [starts_with]. change (code ":" =? 58) with true. cbv iota.
    rewrite (app_length w) in L. cbn [length] in L. rewrite (app_length kt) in L. cbn [length] in L. rewrite (app_length w1) in L. cbn [length] in L.
    rewrite IH; [|exact W2|apply blanks_end; [exact W'|reflexivity|discriminate..]|lia]. rewrite (skip_blank w' _ _ W') by reflexivity. reflexivity.
  - intros w kt w1 w2 v t w' l u W Hk W1 W2 H (S & IH) W' H2 (_ & IH2). split; [exists w; eexists; split; [exact W|]; reflexivity|].
    intros r [|k] L; [lia|]. cbn [read_dmembers].
    assert (X : (w ++ $"""" ++ kt ++ $"""" ++ w1 ++ $":" ++ w2 ++ t ++ w' ++ $"," ++ u) ++ "}"%char :: r = w ++ """"%char :: kt ++ """"%char :: w1 ++ ":"%char :: w2 ++ t ++ w' ++ ","%char :: u ++ "}"%char :: r)
      by (rewrite <- !app_assoc; reflexivity).
    rewrite X in *. rewrite (skip_blank w _ _ W) by reflexivity. cbn [starts_with]. change (code """" =? 34) with true. cbv iota.
    rewrite (raw_body _ _ Hk), (skip_blank w1 _ _ W1) by reflexivity. cbn [starts_with]. change (code ":" =? 58) with true. cbv iota.
    rewrite (app_length w) in L. cbn [length] in L. rewrite (app_length kt) in L. cbn [length] in L. rewrite (app_length w1) in L. cbn [length] in L.
    rewrite IH; [|exact W2|apply blanks_end; [exact W'|reflexivity|discriminate..]|lia]. rewrite (skip_blank w' _ _ W') by reflexivity.
    change (code "," =? 125) with false. change (code "," =? 44) with true. cbv iota.
    rewrite !app_length in L. cbn [length] in L. rewrite !app_length in L. cbn [length] in L. rewrite IH2; [reflexivity|]. rewrite app_length. cbn [length]. lia.
Qed.

(** ** From the reader to the grammar *)
Lemma reads_doc k :
  (forall s v r, read_dvalue k s = Some (v, r) -> exists w t, blanks w /\ dvalue_text v t /\ s = w ++ t ++ r) /\
  (forall s l r, read_ditems k s = Some (l, r) -> exists t, ditems_text l t /\ s = t ++ "]"%char :: r) /\
  (forall s l r, read_dmembers k s = Some (l, r) -> exists t, dmembers_text l t /\ s = t ++ "}"%char :: r).
Proof.
  induction k as [|k (IHv & IHi & IHm)]; [repeat split; intros; discriminate|]. split; [|split].
  - intros s v r H. cbn [read_dvalue] in H. destruct (skip_split s) as (w & W & Es & _). destruct (skip_space s) as [|c t]; [discriminate|]. subst s. exists w.
    destruct (code c =? 123) eqn:E1.
    { apply (char_is c "{") in E1. subst c. destruct (skip_split t) as (w0 & W0 & Et & _). destruct (starts_with 125 (skip_space t)) as [[x q]|] eqn:E.
      - apply some_pair in H. destruct H as (<- & <-). rewrite (starts_char _ _ _ _ E "}"%char eq_refl) in Et. subst t. exists ($"{" ++ w0 ++ $"}").
        split; [exact W|]. split; [constructor; exact W0|]. rewrite <- !app_assoc. reflexivity.
      - destruct (read_dmembers k t) as [[l q]|] eqn:El; [|discriminate]. apply some_pair in H. destruct H as (<- & <-). destruct (IHm _ _ _ El) as (u & Hu & ->).
        exists ($"{" ++ u ++ $"}"). split; [exact W|]. split; [constructor; exact Hu|]. rewrite <- !app_assoc. reflexivity. }
    destruct (code c =? 91) eqn:E2.
    { apply (char_is c "[") in E2. subst c. destruct (skip_split t) as (w0 & W0 & Et & _). destruct (starts_with 93 (skip_space t)) as [[x q]|] eqn:E.
      - apply some_pair in H. destruct H as (<- & <-). rewrite (starts_char _ _ _ _ E "]"%char eq_refl) in Et. subst t. exists ($"[" ++ w0 ++ $"]").
        split; [exact W|]. split; [constructor; exact W0|]. rewrite <- !app_assoc. reflexivity.
      - destruct (read_ditems k t) as [[l q]|] eqn:El; [|discriminate]. apply some_pair in H. destruct H as (<- & <-). destruct (IHi _ _ _ El) as (u & Hu & ->).
        exists ($"[" ++ u ++ $"]"). split; [exact W|]. split; [constructor; exact Hu|]. rewrite <- !app_assoc. reflexivity. }
    destruct (code c =? 34) eqn:E3.
    { apply (char_is c """") in E3. subst c. destruct (raw_string t) as [[b q]|] eqn:Et; [|discriminate]. apply some_pair in H. destruct H as (<- & <-).
      destruct (raw_read _ _ _ Et) as (Hu & ->). exists ($"""" ++ b ++ $""""). split; [exact W|]. split; [constructor; exact Hu|]. rewrite <- !app_assoc. reflexivity. }
    destruct (code c =? 110) eqn:E4.
    { apply (char_is c "n") in E4. subst c. destruct (strip ($"ull") t) as [q|] eqn:Et; [|discriminate]. apply some_pair in H. destruct H as (<- & <-). apply strip_some in Et. subst t.
      exists ($"null"). split; [exact W|]. split; [constructor|reflexivity]. }
    destruct (code c =? 116) eqn:E5.
    { apply (char_is c "t") in E5. subst c. destruct (strip ($"rue") t) as [q|] eqn:Et; [|discriminate]. apply some_pair in H. destruct H as (<- & <-). apply strip_some in Et. subst t.
      exists ($"true"). split; [exact W|]. split; [constructor|reflexivity]. }
    destruct (code c =? 102) eqn:E6.
    { apply (char_is c "f") in E6. subst c. destruct (strip ($"alse") t) as [q|] eqn:Et; [|discriminate]. apply some_pair in H. destruct H as (<- & <-). apply strip_some in Et. subst t.
      exists ($"false"). split; [exact W|]. split; [constructor|reflexivity]. }
    destruct (read_number (c :: t)) as [[n q]|] eqn:En; [|discriminate]. apply some_pair in H. destruct H as (<- & <-). destruct (number_read _ _ _ En) as (Hn & ->).
    exists n. split; [exact W|]. split; [constructor; exact Hn|reflexivity].
  - intros s l r H. cbn [read_ditems] in H. destruct (read_dvalue k s) as [[x u]|] eqn:Ev; [|discriminate]. destruct (IHv _ _ _ Ev) as (w & t & W & Ht & ->).
    destruct (skip_split u) as (w' & W' & Eu & _). destruct (skip_space u) as [|c q]; [discriminate|]. subst u. destruct (code c =? 93) eqn:E1.
    + apply (char_is c "]") in E1. subst c. apply some_pair in H. destruct H as (<- & <-). exists (w ++ t ++ w'). split; [constructor; assumption|]. rewrite <- !app_assoc. reflexivity.
    + destruct (code c =? 44) eqn:E2; [|discriminate]. apply (char_is c ",") in E2. subst c. destruct (read_ditems k q) as [[l' q']|] eqn:El; [|discriminate].
      apply some_pair in H. destruct H as (<- & <-). destruct (IHi _ _ _ El) as (u & Hu & ->). exists (w ++ t ++ w' ++ $"," ++ u). split; [constructor; assumption|]. rewrite <- !app_assoc. reflexivity.
  - intros s l r H. cbn [read_dmembers] in H. destruct (skip_split s) as (w & W & Es & _). destruct (starts_with 34 (skip_space s)) as [[x t]|] eqn:E1; [|discriminate].
    rewrite (starts_char _ _ _ _ E1 """"%char eq_refl) in Es. subst s. destruct (raw_string t) as [[key u]|] eqn:Ek; [|discriminate]. destruct (raw_read _ _ _ Ek) as (Hk & ->); rename key into kt.
    destruct (skip_split u) as (w1 & W1 & Eu & _). destruct (starts_with 58 (skip_space u)) as [[y v]|] eqn:E2; [|discriminate].
    rewrite (starts_char _ _ _ _ E2 ":"%char eq_refl) in Eu. subst u. destruct (read_dvalue k v) as [[z q]|] eqn:Ev; [|discriminate]. destruct (IHv _ _ _ Ev) as (w2 & t' & W2 & Ht & ->).
    destruct (skip_split q) as (w' & W' & Eq & _). destruct (skip_space q) as [|c q']; [discriminate|]. subst q. destruct (code c =? 125) eqn:E3.
    + apply (char_is c "}") in E3. subst c. apply some_pair in H. destruct H as (<- & <-). exists (w ++ $"""" ++ kt ++ $"""" ++ w1 ++ $":" ++ w2 ++ t' ++ w'). split; [constructor; assumption|]. rewrite <- !app_assoc. reflexivity.
    + destruct (code c =? 44) eqn:E4; [|discriminate]. apply (char_is c ",") in E4. subst c. destruct (read_dmembers k q') as [[l' q2]|] eqn:El; [|discriminate].
      apply some_pair in H. destruct H as (<- & <-). destruct (IHm _ _ _ El) as (u & Hu & ->). exists (w ++ $"""" ++ kt ++ $"""" ++ w1 ++ $":" ++ w2 ++ t' ++ w' ++ $"," ++ u). split; [constructor; assumption|]. rewrite <- !app_assoc. reflexivity.
Qed.
(** ** Depth *)
Fixpoint doc_ind' (P : doc -> Prop) (Hn : P DNull) (Hb : forall b, P (DBool b)) (Hm : forall t, P (DNum t)) (Hs : forall t, P (DStr t))
  (Ha : forall l, (forall v, In v l -> P v) -> P (DArr l)) (Ho : forall l, (forall k v, In (k, v) l -> P v) -> P (DObj l)) (d : doc) : P d :=
  match d with
  | DNull => Hn | DBool b => Hb b | DNum t => Hm t | DStr t => Hs t
  | DArr l => Ha l ((fix go (l : list doc) : forall v, In v l -> P v :=
      match l with
      | [] => fun v (H : In v []) => False_ind _ H
      | x :: l' => fun v H => match H with or_introl E => eq_ind x P (doc_ind' P Hn Hb Hm Hs Ha Ho x) v E | or_intror J => go l' v J end
      end) l)
  | DObj l => Ho l ((fix go (l : list (str * doc)) : forall k v, In (k, v) l -> P v :=
      match l with
      | [] => fun k v (H : In (k, v) []) => False_ind _ H
      | x :: l' => fun k v H => match H with
          | or_introl E => eq_ind x (fun y => P (snd y)) (doc_ind' P Hn Hb Hm Hs Ha Ho (snd x)) (k, v) E
          | or_intror J => go l' k v J end
      end) l)
  end.
Lemma max_le l n : fold_right Z.max 0 l <= n <-> 0 <= n /\ forall x, In x l -> x <= n.
Proof.
  induction l as [|y l IH]; cbn [fold_right In].
  - split; [intro H; split; [exact H|intros ? []]|tauto].
  - split; [intro H; split; [lia|]; intros x [<-|I]; [lia|]; apply IH; [lia|exact I]|]. intros (H & F). apply Z.max_lub; [apply F; left; reflexivity|]. apply IH. split; [exact H|]. intros x I. apply F. right. exact I.
Qed.
Lemma depth_nested d : forall n, depth d <= Z.of_nat n <-> nested n d.
Proof.
  induction d as [| | | |l IH|l IH] using doc_ind'; intro n; try (split; [intros _; constructor|intros _; cbn [depth]; lia]).
  - cbn [depth]. split.
    + intro H. destruct n as [|n]; [pose proof (proj1 (max_le _ _) (Z.le_refl (fold_right Z.max 0 (map depth l)))); lia|].
      assert (G : fold_right Z.max 0 (map depth l) <= Z.of_nat n) by lia. apply max_le in G. constructor. intros v I. apply (IH v I). apply (proj2 G). apply in_map. exact I.
    + intro H. inversion H as [| | | |m l' F|]; subst. enough (fold_right Z.max 0 (map depth l) <= Z.of_nat m) by lia. apply max_le. split; [lia|].
      intros x I. apply in_map_iff in I. destruct I as (v & <- & I). apply (IH v I). apply F. exact I.
  - cbn [depth]. split.
    + intro H. destruct n as [|n]; [pose proof (proj1 (max_le _ _) (Z.le_refl (fold_right Z.max 0 (map (fun m => depth (snd m)) l)))); lia|].
      assert (G : fold_right Z.max 0 (map (fun m => depth (snd m)) l) <= Z.of_nat n) by lia. apply max_le in G. constructor. intros k v I. apply (IH k v I). apply (proj2 G).
      apply (in_map (fun m => depth (snd m)) l (k, v)). exact I.
    + intro H. inversion H as [| | | | |m l' F]; subst. enough (fold_right Z.max 0 (map (fun m => depth (snd m)) l) <= Z.of_nat m) by lia. apply max_le. split; [lia|].
      intros x I. apply in_map_iff in I. destruct I as ((k & v) & <- & I). apply (IH k v I). apply (F k). exact I.
Qed.
Theorem read_doc_exact v t : read_doc t = Some v <-> doc_text v t /\ nested (Z.to_nat 10000) v.
Proof.
  assert (N : depth v <=? max_depth = true <-> nested (Z.to_nat 10000) v) by (rewrite <- depth_nested, Z2Nat.id by lia; unfold max_depth; lia).
  split.
  - unfold read_doc. intro H. destruct (read_dvalue (S (length t + length t)) t) as [[x r]|] eqn:E; [|discriminate]. destruct (proj1 (reads_doc _) _ _ _ E) as (w & u & W & Hu & ->).
    destruct (skip_split r) as (w' & W' & Er & _). destruct (skip_space r) as [|c q]; [|discriminate]. destruct (depth x <=? max_depth) eqn:D; [|discriminate]. injection H as ->.
    rewrite app_nil_r in Er. subst r. split; [exists w, u, w'; auto|]. apply N. exact D.
  - intros ((w & u & w' & W & H & W' & ->) & D). unfold read_doc. destruct (proj1 doc_reads v u H) as (_ & R).
    rewrite (R w w' (S (length (w ++ u ++ w') + length (w ++ u ++ w'))) W (blanks_only w' W') ltac:(lia)).
    replace (skip_space w') with (@nil ascii); [rewrite (proj2 N D); reflexivity|]. rewrite <- (app_nil_r w'). symmetry. apply skip_blanks; [exact W'|exact I].
Qed.
(** Every text that JsonText.v reads is read here too, up to depth, as the same tree. *)
Lemma doc_once v v' t : doc_text v t -> doc_text v' t -> v = v'.
Proof.
  intros (w & u & w' & W & H & W' & ->) (y & x & y' & Y & G & Y' & E). destruct (proj1 doc_reads v u H) as (_ & R). destruct (proj1 doc_reads v' x G) as (_ & Q).
  specialize (R w w' (S (length (w ++ u ++ w') + length (w ++ u ++ w'))) W (blanks_only w' W') ltac:(lia)).
  specialize (Q y y' (S (length (w ++ u ++ w') + length (w ++ u ++ w'))) Y (blanks_only y' Y') ltac:(rewrite E; lia)). rewrite E in R. rewrite E in Q. congruence.
Qed.

(** ** Characters *)
Definition rune_at (s : str) : option (str * str) :=
  match s with
  | a :: t =>
      if code a <? 128 then Some ([a], t)
      else match t with
           | b :: t2 =>
               if two_bytes a b then Some ([a; b], t2)
               else match t2 with
                    | c :: t3 =>
                        if three_bytes a b c then Some ([a; b; c], t3)
                        else match t3 with
                             | d :: t4 => if four_bytes a b c d then Some ([a; b; c; d], t4) else None
                             | [] => None
                             end
                    | [] => None
                    end
           | [] => None
           end
  | [] => None
  end.
Lemma fix_step s : utf8_fix s = match rune_at s with
  | Some (x, r) => x ++ utf8_fix r
  | None => match s with [] => [] | _ :: t => replacement ++ utf8_fix t end
  end.
Proof.
  destruct s as [|a t]; [reflexivity|]. cbn [utf8_fix rune_at]. destruct (code a <? 128); [reflexivity|]. destruct t as [|b t2]; [reflexivity|].
  destruct (two_bytes a b); [reflexivity|]. destruct t2 as [|c t3]; [reflexivity|]. destruct (three_bytes a b c); [reflexivity|]. destruct t3 as [|d t4]; [reflexivity|].
  destruct (four_bytes a b c d); reflexivity.
Qed.
Lemma chr_off a k : 0 <= code a - k -> chr (k + (code a - k)) = a.
Proof. intro H. replace (k + (code a - k)) with (code a) by lia. apply chr_code. Qed.
Lemma rune_char s x r : rune_at s = Some (x, r) -> character x /\ s = x ++ r.
Proof.
  destruct s as [|a t]; [discriminate|]. cbn [rune_at]. pose proof (code_range a). destruct (code a <? 128) eqn:E1.
  { intro H0. apply some_pair in H0. destruct H0 as (<- & <-). split; [|reflexivity]. exists (code a). rewrite <- (chr_code a) at 2. split; [constructor; lia|lia]. }
  destruct t as [|b t2]; [discriminate|]. pose proof (code_range b). destruct (two_bytes a b) eqn:E2.
  { intro H1. apply some_pair in H1. destruct H1 as (<- & <-). split; [|reflexivity]. unfold two_bytes, between in E2.
    exists ((code a - 192) * 64 + (code b - 128)). split; [|lia].
    rewrite <- (chr_off a 192), <- (chr_off b 128) by lia. rewrite !code_chr by lia. replace (192 + (code a - 192) - 192) with (code a - 192) by lia. replace (128 + (code b - 128) - 128) with (code b - 128) by lia.
    constructor; lia. }
  destruct t2 as [|c t3]; [discriminate|]. pose proof (code_range c). destruct (three_bytes a b c) eqn:E3.
  { intro H2. apply some_pair in H2. destruct H2 as (<- & <-). split; [|reflexivity]. unfold three_bytes, between in E3.
    exists (((code a - 224) * 64 + (code b - 128)) * 64 + (code c - 128)). split; [|lia].
    pose proof (u8_three (code a - 224) (code b - 128) (code c - 128)) as U. rewrite !chr_off in U by lia. apply U; lia. }
  destruct t3 as [|d t4]; [discriminate|]. pose proof (code_range d). destruct (four_bytes a b c d) eqn:E4; [|discriminate].
  intro H3. apply some_pair in H3. destruct H3 as (<- & <-). split; [|reflexivity]. unfold four_bytes, between in E4.
  exists ((((code a - 240) * 64 + (code b - 128)) * 64 + (code c - 128)) * 64 + (code d - 128)). split; [|lia].
  pose proof (u8_four (code a - 240) (code b - 128) (code c - 128) (code d - 128)) as U. rewrite !chr_off in U by lia. apply U; lia.
Qed.
Lemma char_rune x r : character x -> rune_at (x ++ r) = Some (x, r).
Proof.
  intros (z & U & S & M). destruct U as [z H|a b H H0|a b c H H0 H1 H2|a b c d H H0 H1 H2 H3]; cbn [app rune_at]; rewrite !code_chr by lia.
  - replace (z <? 128) with true by lia. reflexivity.
  - replace (192 + a <? 128) with false by lia. unfold two_bytes, between. rewrite !code_chr by lia.
    replace (_ && _) with true by lia. reflexivity.
  - replace (224 + a <? 128) with false by lia. unfold two_bytes, three_bytes, between. rewrite !code_chr by lia.
    replace ((194 <=? 224 + a) && (224 + a <=? 223) && _) with false by lia.
    match goal with |- (if ?c then _ else _) = _ => replace c with true by lia end. reflexivity.
  - replace (240 + a <? 128) with false by lia. unfold two_bytes, three_bytes, four_bytes, between. rewrite !code_chr by lia.
    replace ((194 <=? 240 + a) && (240 + a <=? 223) && _) with false by lia.
    match goal with |- (if ?c then _ else _) = _ => replace c with false by lia end.
    match goal with |- (if ?c then _ else _) = _ => replace c with true by lia end. reflexivity.
Qed.
Lemma char_nonempty x : character x -> x <> [].
Proof. intros (z & U & _). destruct U; discriminate. Qed.
Lemma repaired_fix n : forall s, (length s <= n)%nat -> repaired s (utf8_fix s).
Proof.
  induction n as [|n IH]; intros s L.
  - destruct s; [constructor|cbn [length] in L; lia].
  - rewrite fix_step. destruct (rune_at s) as [[x r]|] eqn:E.
    + apply rune_char in E. destruct E as (C & ->). constructor; [exact C|]. apply IH. pose proof (char_nonempty x C). destruct x; [congruence|]. rewrite app_length in L. cbn [length] in L. lia.
    + destruct s as [|c t]; [constructor|]. cbn [length] in L. constructor 3; [|apply IH; lia]. intros x u C Eq. rewrite Eq, (char_rune x u C) in E. discriminate.
Qed.
Lemma fix_repaired s f : repaired s f -> utf8_fix s = f.
Proof.
  intro H. induction H as [|x b f C H IH|c b f N H IH]; [reflexivity| |].
  - rewrite fix_step, (char_rune x b C), IH. reflexivity.
  - rewrite fix_step. destruct (rune_at (c :: b)) as [[x r]|] eqn:E; [apply rune_char in E; destruct E as (C & E); destruct (N x r C E)|]. rewrite IH. reflexivity.
Qed.
Lemma repaired_iff s f : repaired s f <-> utf8_fix s = f.
Proof. split; [apply fix_repaired|]. intros <-. apply (repaired_fix (length s)). lia. Qed.
Lemma unquote_some t s : unquote t = Some s <-> string_value t s.
Proof.
  unfold unquote, string_value. split.
  - destruct (read_string (t ++ $"""")) as [[b [|? ?]]|] eqn:E; try discriminate. intro H. injection H as <-. destruct (body_read _ _ _ _ (le_n _) E) as (u & Hu & Eq).
    apply app_inj_tail in Eq. destruct Eq as (-> & _). exists b. split; [exact Hu|]. apply repaired_iff. reflexivity.
  - intros (b & Hb & R). change ($"""") with [""""%char]. rewrite (read_body _ _ [] Hb). f_equal. apply repaired_iff. exact R.
Qed.
Lemma unquote_text t : string_text t <-> exists s, unquote t = Some s.
Proof.
  split.
  - intros (b & H). exists (utf8_fix b). apply unquote_some. exists b. split; [exact H|]. apply repaired_iff. reflexivity.
  - intros (s & H). apply unquote_some in H. destruct H as (b & H & _). exists b. exact H.
Qed.
