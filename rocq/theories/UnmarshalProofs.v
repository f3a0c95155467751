(** json.Unmarshal into a *EDTFDate. *)
From Coq Require Import Ascii String ZArith NArith Bool Lia ZifyBool List.
From Verif Require Import GoStr GoTime SpecText StrFacts TextFacts CommonProofs SpecHelpers Edtf Json JsonText SpecJson SpecJsonText ApiFacts JsonTextProofs JsonReadProofs JsonDoc Unmarshal SpecUnmarshal DocProofs.
Import ListNotations.
Open Scope Z_scope.
Ltac Zify.zify_post_hook ::= Z.div_mod_to_equations.

(** ** Names *)
Definition up (a : ascii) : ascii := chr (code a - 32).
Definition lower_letters (n : str) : Prop := Forall (fun c => 97 <= code c <= 122) n.
Lemma fold_lower n : lower_letters n -> fold_name n = map up n.
Proof. intro H. induction H as [|c n H _ IH]; [reflexivity|]. cbn [fold_name map]. unfold between. replace ((97 <=? code c) && (code c <=? 122)) with true by lia. rewrite IH. reflexivity. Qed.
Lemma fold_other c k : ~ 97 <= code c <= 122 -> code c <> 197 -> code c <> 226 -> fold_name (c :: k) = c :: fold_name k.
Proof.
  intros H1 H2 H3. cbn [fold_name]. unfold between. replace ((97 <=? code c) && (code c <=? 122)) with false by lia. destruct k as [|b k2]; [reflexivity|].
  replace (code c =? 197) with false by lia. cbn [andb]. destruct k2; [reflexivity|]. replace (code c =? 226) with false by lia. reflexivity.
Qed.
Lemma fold_same n k : lower_letters n -> same_name n k -> fold_name k = map up n.
Proof.
  intros L H. induction H as [|c d n k S H IH|n k H IH|n k H IH]; [reflexivity|inversion L; subst..].
  - cbn [map]. rewrite <- IH by assumption. destruct S as [->|(S & E)].
    + cbn [fold_name]. unfold between. replace ((97 <=? code d) && (code d <=? 122)) with true by lia. reflexivity.
    + rewrite fold_other by lia. f_equal. unfold up. rewrite <- E. symmetry. apply chr_code.
  - cbn [map]. rewrite <- IH by assumption. reflexivity.
  - cbn [map]. rewrite <- IH by assumption. destruct k; reflexivity.
Qed.
Lemma up_inj a b : 97 <= code a <= 122 -> 97 <= code b <= 122 -> up a = up b -> a = b.
Proof. unfold up. intros A B H. apply (f_equal code) in H. rewrite !code_chr in H by lia. apply code_inj. lia. Qed.
Lemma same_fold n : lower_letters n -> forall k, fold_name k = map up n -> same_name n k.
Proof.
  intro L. induction L as [|c n L _ IH]; intros k H.
  - destruct k as [|a t]; [constructor|]. exfalso. cbn [fold_name map] in H. destruct (between 97 122 a); [discriminate|]. destruct t as [|b t2]; [discriminate|].
    destruct ((code a =? 197) && (code b =? 191)); [discriminate|]. destruct t2 as [|d t3]; [discriminate|]. destruct ((code a =? 226) && (code b =? 132) && (code d =? 170)); discriminate.
  - assert (P : forall a t, ~ (97 <= code a <= 122) -> a :: fold_name t = map up (c :: n) -> same_name (c :: n) (a :: t)).
    { intros a t N E. cbn [map] in E. injection E as E1 E2. constructor; [|apply IH; exact E2]. right. split; [exact L|]. subst a. unfold up. apply code_chr. lia. }
    destruct k as [|a t]; [discriminate|]. cbn [fold_name] in H. unfold between in H. destruct ((97 <=? code a) && (code a <=? 122)) eqn:E1.
    { cbn [map] in H. injection H as H1 H2. constructor; [|apply IH; exact H2]. left. symmetry. apply up_inj; [lia|exact L|exact H1]. }
    destruct t as [|b t2]; [apply P; [lia|exact H]|]. destruct ((code a =? 197) && (code b =? 191)) eqn:E2.
    { cbn [map] in H. injection H as H1 H2. apply (f_equal code) in H1. unfold up in H1. rewrite code_chr in H1 by lia.
      replace c with "s"%char by (apply code_inj; change (code "s") with 115; change (code "S") with 83 in H1; lia).
      replace a with (chr 197) by (apply code_inj; rewrite code_chr; lia). replace b with (chr 191) by (apply code_inj; rewrite code_chr; lia). apply sn_long_s. apply IH. exact H2. }
    destruct t2 as [|d t3]; [apply P; [lia|exact H]|]. destruct ((code a =? 226) && (code b =? 132) && (code d =? 170)) eqn:E3.
    { cbn [map] in H. injection H as H1 H2. apply (f_equal code) in H1. unfold up in H1. rewrite code_chr in H1 by lia.
      replace c with "k"%char by (apply code_inj; change (code "k") with 107; change (code "K") with 75 in H1; lia).
      replace a with (chr 226) by (apply code_inj; rewrite code_chr; lia). replace b with (chr 132) by (apply code_inj; rewrite code_chr; lia).
      replace d with (chr 170) by (apply code_inj; rewrite code_chr; lia). apply sn_kelvin. apply IH. exact H2. }
    apply P; [lia|exact H].
Qed.
Lemma is_name_same n k : lower_letters ($ n) -> (is_name (fold_name k) n = true <-> same_name ($ n) k).
Proof.
  intro L. unfold is_name. rewrite seqb_eq, (fold_lower _ L). split; [apply same_fold; exact L|apply fold_same; exact L].
Qed.
Lemma names_iff n kt k : lower_letters ($ n) -> unquote kt = Some k -> (names ($ n) kt <-> is_name (fold_name k) n = true).
Proof.
  intros L U. rewrite (is_name_same n k L). unfold names. split.
  - intros (k' & V & S). apply unquote_some in V. rewrite U in V. injection V as <-. exact S.
  - intro S. exists k. split; [apply unquote_some; exact U|exact S].
Qed.

(** ** The members of one field *)
Fixpoint run {A} (set : A -> doc -> res A) (vs : list doc) (cur : A) : res A :=
  match vs with [] => OK cur | v :: vs' => let* c := set cur v in run set vs' c end.
Lemma run_snoc {A} (set : A -> doc -> res A) vs v : forall c, run set (vs ++ [v]) c = let* x := run set vs c in set x v.
Proof. induction vs as [|w vs IH]; intro c; cbn [run app bind]; [destruct (set c v); reflexivity|]. destruct (set c w); cbn [bind]; [apply IH|reflexivity..]. Qed.
Definition field_run {A} (set : A -> doc -> res A) (n : string) (l : list (str * doc)) (c x : A) : Prop :=
  exists vs, called ($ n) l vs /\ run set vs c = OK x.
Lemma field_nil {A} (set : A -> doc -> res A) n c x : field_run set n [] c x <-> c = x.
Proof. split; [intros (vs & H & R); inversion H; subst; injection R as ->; reflexivity|]. intros ->. exists []. split; [constructor|reflexivity]. Qed.
Lemma field_step {A} (set : A -> doc -> res A) n kt k v l c x : lower_letters ($ n) -> unquote kt = Some k ->
  (field_run set n ((kt, v) :: l) c x <->
   if is_name (fold_name k) n then exists c', set c v = OK c' /\ field_run set n l c' x else field_run set n l c x).
Proof.
  intros L U. pose proof (names_iff n kt k L U) as N. destruct (is_name (fold_name k) n) eqn:E.
  - split.
    + intros (vs & H & R). inversion H; subst; [|tauto]. cbn [run] in R. destruct (set c v) as [c'| |]; try discriminate. exists c'. split; [reflexivity|]. eexists. split; [eassumption|exact R].
    + intros (c' & S & vs & H & R). exists (v :: vs). split; [constructor; [apply N; reflexivity|exact H]|]. cbn [run]. rewrite S. exact R.
  - split.
    + intros (vs & H & R). inversion H as [|? ? ? ? G|]; subst; [apply N in G; discriminate|]. exists vs. split; assumption.
    + intros (vs & H & R). exists vs. split; [|exact R]. constructor; [apply unquote_text; exists k; exact U|intro G; apply N in G; discriminate|exact H].
Qed.
Lemma field_bad {A} (set : A -> doc -> res A) n kt v l c x : unquote kt = None -> ~ field_run set n ((kt, v) :: l) c x.
Proof.
  intros U (vs & H & _). inversion H as [|? ? ? ? (k & V & _)|? ? ? ? S]; subst; [apply unquote_some in V; congruence|]. apply unquote_text in S. destruct S. congruence.
Qed.
Lemma step_ok {A B} (x : res A) (mk : A -> B) (f : B -> res B) r :
  (let* c := (let* y := x in OK (mk y)) in f c) = OK r <-> exists y, x = OK y /\ f (mk y) = OK r.
Proof. destruct x as [y| |]; cbn [bind]; split; [intro H; exists y; auto|intros (z & E & H); injection E as ->; exact H|discriminate|intros (? & ? & _); discriminate|discriminate|intros (? & ? & _); discriminate]. Qed.
Lemma lower_check n : forallb (fun c => (97 <=? code c) && (code c <=? 122)) n = true -> lower_letters n.
Proof. intro H. apply Forall_forall. intros c I. rewrite forallb_forall in H. specialize (H c I). cbv beta in H. lia. Qed.
Ltac lower := apply lower_check; vm_compute; reflexivity.
Ltac spread := let F := fresh "F" in let y := fresh "y" in let G := fresh "G" in
  split; [intros (y & G & F); decompose [and] F; repeat split; try assumption; eexists; split; eassumption
         |intro F; decompose [and ex] F; eexists; split; [eassumption|]; repeat split; assumption].
Lemma members_cons {A} (set : str -> doc -> A -> res A) kt k v l c : unquote kt = Some k ->
  set_members set ((kt, v) :: l) c = let* c' := set (fold_name k) v c in set_members set l c'.
Proof. intro U. cbn [set_members]. unfold unquoted. rewrite U. reflexivity. Qed.
Lemma members_bad {A} (set : str -> doc -> A -> res A) kt v l c : unquote kt = None -> set_members set ((kt, v) :: l) c = Panic.
Proof. intro U. cbn [set_members]. unfold unquoted. rewrite U. reflexivity. Qed.
Lemma members_app {A} (set : str -> doc -> A -> res A) l l' : forall c, set_members set (l ++ l') c = let* x := set_members set l c in set_members set l' x.
Proof.
  induction l as [|[kt v] l IH]; intro c; [reflexivity|]. cbn [app set_members]. destruct (unquoted kt); cbn [bind]; try reflexivity.
  destruct (set (fold_name a) v c); cbn [bind]; try reflexivity. apply IH.
Qed.
Ltac by_name E := unfold is_name in E; apply seqb_eq in E; rewrite E.
Ltac steps U := repeat match goal with |- context [field_run ?set ?n ((?kt, ?v) :: ?l) ?c ?x] => rewrite (field_step set n kt _ v l c x ltac:(lower) U) end.
Ltac pick_name k n := let E := fresh "E" in destruct (is_name (fold_name k) n) eqn:E;
  [unfold is_name in E; apply seqb_eq in E; rewrite ?E; repeat match goal with |- context [is_name (fold_name ?a) ?b] => change (is_name (fold_name a) b) with false end; cbv iota|].
Ltac fields := cbn [y_year y_month y_day d_datetime d_timestamp d_ymd d_uncertain d_approximate d_unspecified d_precision d_open d_unknown d_inclusivity
  pr_edtf pr_lower pr_upper pe_start pe_end pe_edtf pe_level pe_feature].
Ltac now_named IH := rewrite step_ok; setoid_rewrite IH; fields; spread.
Definition ymd_runs l (c r : ymd) : Prop :=
  field_run set_int "year" l (y_year c) (y_year r) /\ field_run set_int "month" l (y_month c) (y_month r) /\ field_run set_int "day" l (y_day c) (y_day r).
Lemma ymd_members l : forall c r, set_members ymd_member l c = OK r <-> ymd_runs l c r.
Proof.
  induction l as [|[kt v] l IH]; intros [cy cm cd] [ry rm rd]; unfold ymd_runs; cbn [y_year y_month y_day].
  - rewrite !field_nil. cbn [set_members]. split; [intro H; injection H as -> -> ->; auto|]. intros (-> & -> & ->). reflexivity.
  - destruct (unquote kt) as [k|] eqn:U; [|rewrite (members_bad _ _ _ _ _ U); split; [discriminate|]; intros (H & _); destruct (field_bad _ _ _ _ _ _ _ U H)].
    rewrite (members_cons _ _ _ _ _ _ U). steps U. unfold ymd_runs in IH. set (tl := set_members ymd_member l) in *. clearbody tl. unfold ymd_member. cbn [y_year y_month y_day].
    pick_name k "year"%string; [now_named IH|]. pick_name k "month"%string; [now_named IH|]. pick_name k "day"%string; [now_named IH|]. cbn [bind]. rewrite IH. fields. reflexivity.
Qed.
Definition date_runs l (c r : date) : Prop :=
  field_run set_text "datetime" l (d_datetime c) (d_datetime r) /\ field_run set_ts "timestamp" l (d_timestamp c) (d_timestamp r) /\
  field_run (set_pointer blank_ymd ymd_member) "ymd" l (d_ymd c) (d_ymd r) /\ field_run set_prec "uncertain" l (d_uncertain c) (d_uncertain r) /\
  field_run set_prec "approximate" l (d_approximate c) (d_approximate r) /\ field_run set_prec "unspecified" l (d_unspecified c) (d_unspecified r) /\
  field_run set_prec "precision" l (d_precision c) (d_precision r) /\ field_run set_bool "open" l (d_open c) (d_open r) /\
  field_run set_bool "unknown" l (d_unknown c) (d_unknown r) /\ field_run set_prec "inclusivity" l (d_inclusivity c) (d_inclusivity r).
Lemma date_members_run l : forall c r, set_members date_member l c = OK r <-> date_runs l c r.
Proof.
  induction l as [|[kt v] l IH]; intros [c1 c2 c3 c4 c5 c6 c7 c8 c9 c0] [r1 r2 r3 r4 r5 r6 r7 r8 r9 r0]; unfold date_runs; cbn [d_datetime d_timestamp d_ymd d_uncertain d_approximate d_unspecified d_precision d_open d_unknown d_inclusivity].
  - rewrite !field_nil. cbn [set_members]. split; [intro H; injection H; intros; subst; repeat split; reflexivity|]. intro H. decompose [and] H. subst. reflexivity.
  - destruct (unquote kt) as [k|] eqn:U; [|rewrite (members_bad _ _ _ _ _ U); split; [discriminate|]; intros (H & _); destruct (field_bad _ _ _ _ _ _ _ U H)].
    rewrite (members_cons _ _ _ _ _ _ U). steps U. unfold date_runs in IH. set (tl := set_members date_member l) in *. clearbody tl. unfold date_member.
    pick_name k "datetime"%string; [now_named IH|]. pick_name k "timestamp"%string; [now_named IH|]. pick_name k "ymd"%string; [now_named IH|]. pick_name k "uncertain"%string; [now_named IH|].
    pick_name k "approximate"%string; [now_named IH|]. pick_name k "unspecified"%string; [now_named IH|]. pick_name k "precision"%string; [now_named IH|]. pick_name k "open"%string; [now_named IH|].
    pick_name k "unknown"%string; [now_named IH|]. pick_name k "inclusivity"%string; [now_named IH|]. cbn [bind]. rewrite IH. fields. reflexivity.
Qed.
Definition range_runs l (c r : prange) : Prop :=
  field_run set_text "edtf" l (pr_edtf c) (pr_edtf r) /\ field_run (set_pointer blank_date date_member) "lower" l (pr_lower c) (pr_lower r) /\
  field_run (set_pointer blank_date date_member) "upper" l (pr_upper c) (pr_upper r).
Lemma range_members_run l : forall c r, set_members range_member l c = OK r <-> range_runs l c r.
Proof.
  induction l as [|[kt v] l IH]; intros [c1 c2 c3] [r1 r2 r3]; unfold range_runs; cbn [pr_edtf pr_lower pr_upper].
  - rewrite !field_nil. cbn [set_members]. split; [intro H; injection H; intros; subst; repeat split; reflexivity|]. intro H. decompose [and] H. subst. reflexivity.
  - destruct (unquote kt) as [k|] eqn:U; [|rewrite (members_bad _ _ _ _ _ U); split; [discriminate|]; intros (H & _); destruct (field_bad _ _ _ _ _ _ _ U H)].
    rewrite (members_cons _ _ _ _ _ _ U). steps U. unfold range_runs in IH. set (tl := set_members range_member l) in *. clearbody tl. unfold range_member. cbn [pr_edtf pr_lower pr_upper].
    pick_name k "edtf"%string; [now_named IH|]. pick_name k "lower"%string; [now_named IH|]. pick_name k "upper"%string; [now_named IH|]. cbn [bind]. rewrite IH. fields. reflexivity.
Qed.
Definition edtf_runs l (c r : pedtf) : Prop :=
  field_run (set_pointer blank_range range_member) "start" l (pe_start c) (pe_start r) /\ field_run (set_pointer blank_range range_member) "end" l (pe_end c) (pe_end r) /\
  field_run set_text "edtf" l (pe_edtf c) (pe_edtf r) /\ field_run set_int "level" l (pe_level c) (pe_level r) /\ field_run set_text "feature" l (pe_feature c) (pe_feature r).
Lemma edtf_members_run l : forall c r, set_members edtf_member l c = OK r <-> edtf_runs l c r.
Proof.
  induction l as [|[kt v] l IH]; intros [c1 c2 c3 c4 c5] [r1 r2 r3 r4 r5]; unfold edtf_runs; cbn [pe_start pe_end pe_edtf pe_level pe_feature].
  - rewrite !field_nil. cbn [set_members]. split; [intro H; injection H; intros; subst; repeat split; reflexivity|]. intro H. decompose [and] H. subst. reflexivity.
  - destruct (unquote kt) as [k|] eqn:U; [|rewrite (members_bad _ _ _ _ _ U); split; [discriminate|]; intros (H & _); destruct (field_bad _ _ _ _ _ _ _ U H)].
    rewrite (members_cons _ _ _ _ _ _ U). steps U. unfold edtf_runs in IH. set (tl := set_members edtf_member l) in *. clearbody tl. unfold edtf_member. cbn [pe_start pe_end pe_edtf pe_level pe_feature].
    pick_name k "start"%string; [now_named IH|]. pick_name k "end"%string; [now_named IH|]. pick_name k "edtf"%string; [now_named IH|]. pick_name k "level"%string; [now_named IH|]. pick_name k "feature"%string; [now_named IH|].
    cbn [bind]. rewrite IH. fields. reflexivity.
Qed.

(** ** One field: from the runs to the specification *)
Lemma run_last {A} (set : A -> doc -> res A) (P : doc -> A -> Prop) zero :
  (forall c v r, set c v = OK r <-> v = DNull /\ r = c \/ P v r) -> forall vs a, run set vs zero = OK a <-> last_value P zero vs a.
Proof.
  intros S vs a. split.
  - revert a. induction vs as [|v vs IH] using rev_ind; intros a H; [injection H as <-; constructor|]. rewrite run_snoc in H. apply bind_OK in H. destruct H as (c & Hc & H).
    apply IH in Hc. apply S in H. destruct H as [(-> & ->)|H]; [apply lv_null; exact Hc|exact (lv_some _ _ _ _ _ _ Hc H)].
  - intro H. induction H as [|vs a H IH|vs a v b H IH V]; [reflexivity| |]; rewrite run_snoc, IH; cbn [bind]; apply S; [left; auto|right; exact V].
Qed.
Lemma text_set c v r : set_text c v = OK r <-> v = DNull /\ r = c \/ text_value v r.
Proof.
  split.
  - destruct v; try discriminate; cbn [set_text]; [intro H; injection H as <-; auto|]. unfold unquoted. destruct (unquote raw) eqn:U; [|discriminate]. intro H. injection H as <-. right. constructor. apply unquote_some. exact U.
  - intros [(-> & ->)|H]; [reflexivity|]. destruct H as [t s H]. apply unquote_some in H. cbn [set_text]. unfold unquoted. rewrite H. reflexivity.
Qed.
Lemma truth_set c v r : set_bool c v = OK r <-> v = DNull /\ r = c \/ truth_value v r.
Proof.
  split.
  - destruct v; try discriminate; cbn [set_bool]; intro H; injection H as <-; [auto|right; constructor].
  - intros [(-> & ->)|[]]; reflexivity.
Qed.
Lemma int_set c v r : set_int c v = OK r <-> v = DNull /\ r = c \/ int_value v r.
Proof.
  split.
  - destruct v; try discriminate; cbn [set_int]; [intro H; injection H as <-; auto|]. destruct (atoi text) eqn:E; try discriminate. intro H. injection H as <-. right. constructor. apply atoi_spec. exact E.
  - intros [(-> & ->)|[t z H]]; [reflexivity|]. apply atoi_spec in H. cbn [set_int]. rewrite H. reflexivity.
Qed.
Lemma flags_set c v r : set_prec c v = OK r <-> v = DNull /\ r = c \/ flags_value v r.
Proof.
  split.
  - destruct v; try discriminate; cbn [set_prec]; [intro H; injection H as <-; auto|]. destruct text as [|x t]; [discriminate|]. destruct (dec_val 0 (x :: t)) as [z|] eqn:E; [|discriminate].
    destruct (z <=? 4294967295) eqn:Ez; [|discriminate]. intro H. injection H as <-. pose proof (dec_val_nonneg _ _ _ (Z.le_refl 0) E). right. constructor; rewrite Z2N.id by assumption; [|change (2 ^ 32) with 4294967296; lia].
    apply dec_digits_iff. split; [discriminate|exact E].
  - intros [(-> & ->)|[t z H L]]; [reflexivity|]. apply dec_digits_iff in H. destruct H as (N & H). cbn [set_prec]. destruct t as [|x t]; [congruence|]. rewrite H. change (2 ^ 32) with 4294967296 in L.
    replace (Z.of_N z <=? 4294967295) with true by lia. rewrite N2Z.id. reflexivity.
Qed.
Lemma stamp_read t z : ts_unmarshal t = OK z <-> stamp_text t z.
Proof.
  rewrite timestamp_decode. split; [intros (n & k & u & -> & H)|intros [n u k y H]; exists n, k, u; split; [reflexivity|exact H]].
  exact (st_intro n u k z H).
Qed.
Lemma repeat_snoc {A} (a : A) k : repeat a k ++ [a] = a :: repeat a k.
Proof. induction k as [|k IH]; [reflexivity|]. cbn [repeat app]. rewrite IH. reflexivity. Qed.
Lemma stamp_inside t z : ts_unmarshal ($"""" ++ t ++ $"""") = OK z <-> stamp_text t z.
Proof.
  rewrite stamp_read. split.
  - intro H. remember ($"""" ++ t ++ $"""") as s eqn:E. destruct H as [n u k y H]. pose proof (integer_no_quote _ _ (proj1 H)) as Q.
    assert (U : exists c v, u = c :: v) by (destruct H as (H & _); destruct H as [s v H| |]; [destruct H as [x _|[|y1 s] v x _ _]|..]; cbn [app]; eauto).
    assert (V : exists c v, u = v ++ [c]). { destruct U as (c & v & ->). destruct (exists_last (l := c :: v)) as (v' & c' & E'); [discriminate|]. exists c', v'. exact E'. }
    destruct n as [|n]. { destruct U as (c & v & ->). cbn [repeat app] in E. injection E as -> _. destruct Q. left. reflexivity. }
    destruct k as [|k]. { destruct V as (c & v & ->). cbn [repeat] in E. rewrite app_nil_r, app_assoc in E. change ($"""" ++ t ++ $"""") with ($"""" ++ t ++ [""""%char]) in E. rewrite (app_assoc ($"""") t) in E. apply app_inj_tail in E. destruct E as (_ & ->). destruct Q. apply in_app_iff. right. left. reflexivity. }
    cbn [repeat app] in E. rewrite <- (repeat_snoc _ k) in E. change ($"""" ++ t ++ $"""") with (""""%char :: t ++ [""""%char]) in E.
    injection E as E. rewrite !app_assoc in E. apply app_inj_tail in E. destruct E as (<- & _). rewrite <- app_assoc. constructor. exact H.
  - intros [n u k y H]. replace ($"""" ++ (repeat """"%char n ++ u ++ repeat """"%char k) ++ $"""") with (repeat """"%char (S n) ++ u ++ repeat """"%char (S k)); [constructor; exact H|].
    cbn [repeat]. rewrite <- (repeat_snoc _ k). change ($"""") with [""""%char]. cbn [app]. rewrite <- !app_assoc. reflexivity.
Qed.
Lemma stamp_set c v r : set_ts c v = OK r <-> v = DNull /\ r = None \/ exists z, r = Some z /\ stamp_value v z.
Proof.
  split.
  - destruct v as [|b|t|t| |]; cbn [set_ts]; intro H; try discriminate.
    + injection H as <-. auto.
    + destruct b; discriminate.
    + apply bind_OK in H. destruct H as (z & H & E). injection E as <-. right. exists z. split; [reflexivity|]. constructor. apply stamp_read. exact H.
    + apply bind_OK in H. destruct H as (z & H & E). injection E as <-. right. exists z. split; [reflexivity|]. constructor. apply stamp_inside. exact H.
  - intros [(-> & ->)|(z & -> & [t y H|t y H])]; [reflexivity| |]; cbn [set_ts].
    + apply stamp_read in H. rewrite H. reflexivity.
    + apply stamp_inside in H. rewrite H. reflexivity.
Qed.
Lemma run_stamp vs o : run set_ts vs None = OK o <-> last_stamp vs o.
Proof.
  split.
  - revert o. induction vs as [|v vs IH] using rev_ind; intros o H; [injection H as <-; constructor|]. rewrite run_snoc in H. apply bind_OK in H. destruct H as (c & Hc & H).
    apply IH in Hc. apply stamp_set in H. destruct H as [(-> & ->)|(z & -> & H)]; [exact (ls_null _ _ Hc)|exact (ls_some _ _ _ _ Hc H)].
  - intro H. induction H as [|vs o H IH|vs o v z H IH V]; [reflexivity| |]; rewrite run_snoc, IH; cbn [bind]; [reflexivity|]. apply stamp_set. right. exists z. auto.
Qed.

(** ** Pointers *)
Section Pointer.
  Context {A : Type} (zero : A) (set : str -> doc -> A -> res A) (R : list (str * doc) -> A -> Prop).
  Hypothesis reads : forall l a, set_members set l zero = OK a <-> R l a.
  Lemma run_merged vs o : run (set_pointer zero set) vs None = OK o ->
    exists m, merged R vs m /\ match m, o with None, None => True | Some l, Some a => set_members set l zero = OK a | _, _ => False end.
  Proof.
    revert o. induction vs as [|v vs IH] using rev_ind; intros o H; [injection H as <-; exists None; split; [constructor|exact I]|].
    rewrite run_snoc in H. apply bind_OK in H. destruct H as (c & Hc & H). destruct (IH c Hc) as (m & M & E). destruct v as [| | | | |l]; try discriminate; cbn [set_pointer] in H.
    - injection H as <-. exists None. split; [|exact I]. apply (mg_null R vs m M). intros l ->. destruct c as [a|]; [|contradiction]. exists a. apply reads. exact E.
    - apply bind_OK in H. destruct H as (a & H & Eo). injection Eo as <-. destruct m as [l0|], c as [b|]; try contradiction.
      + exists (Some (l0 ++ l)). split; [apply mg_more; exact M|]. rewrite members_app, E. exact H.
      + exists (Some l). split; [apply mg_new; exact M|exact H].
  Qed.
  Lemma merged_run vs m : merged R vs m ->
    match m with None => run (set_pointer zero set) vs None = OK None
               | Some l => forall a, set_members set l zero = OK a -> run (set_pointer zero set) vs None = OK (Some a) end.
  Proof.
    intro M. induction M as [|vs o M IH N|vs l M IH|vs l l' M IH]; [reflexivity| | |].
    - rewrite run_snoc. destruct o as [l|]; [|rewrite IH; reflexivity]. destruct (N l eq_refl) as (a & Ra). apply reads in Ra. rewrite (IH a Ra). reflexivity.
    - intros a H. rewrite run_snoc, IH. cbn [bind set_pointer]. rewrite H. reflexivity.
    - intros a H. rewrite members_app in H. apply bind_OK in H. destruct H as (b & Hb & H). rewrite run_snoc, (IH b Hb). cbn [bind set_pointer]. rewrite H. reflexivity.
  Qed.
  Lemma run_pointed vs o : run (set_pointer zero set) vs None = OK o <-> pointed R vs o.
  Proof.
    split.
    - intro H. destruct (run_merged vs o H) as (m & M & E). destruct m as [l|], o as [a|]; try contradiction; [|constructor; exact M]. apply (pt_some R vs l a M). apply reads. exact E.
    - intros [M|l a M Ra]; apply merged_run in M; [exact M|]. apply M. apply reads. exact Ra.
  Qed.
End Pointer.
Lemma field_said {A} (set : A -> doc -> res A) (P : list doc -> A -> Prop) n zero l a :
  (forall vs a, run set vs zero = OK a <-> P vs a) -> (field_run set n l zero a <-> field ($ n) P l a).
Proof. intro H. split; intros (vs & C & R); exists vs; (split; [exact C|]); apply H; exact R. Qed.
Lemma reads_ymd l a : set_members ymd_member l blank_ymd = OK a <-> says_ymd l a.
Proof. rewrite ymd_members. unfold ymd_runs, says_ymd. cbn [blank_ymd y_year y_month y_day]. rewrite !(field_said set_int (last_value int_value 0) _ 0 l _ (run_last set_int int_value 0 int_set)). reflexivity. Qed.
Lemma reads_date l a : set_members date_member l blank_date = OK a <-> says_date l a.
Proof.
  rewrite date_members_run. unfold date_runs, says_date. unfold blank_date. fields.
  rewrite (field_said set_text _ _ [] l _ (run_last set_text text_value [] text_set)), (field_said set_ts _ _ None l _ run_stamp).
  rewrite (field_said _ _ _ None l _ (run_pointed blank_ymd ymd_member says_ymd reads_ymd)).
  rewrite !(field_said set_prec (last_value flags_value 0%N) _ 0%N l _ (run_last set_prec flags_value 0%N flags_set)).
  rewrite !(field_said set_bool (last_value truth_value false) _ false l _ (run_last set_bool truth_value false truth_set)). reflexivity.
Qed.
Lemma reads_range l a : set_members range_member l blank_range = OK a <-> says_range l a.
Proof.
  rewrite range_members_run. unfold range_runs, says_range. unfold blank_range. fields.
  rewrite (field_said set_text _ _ [] l _ (run_last set_text text_value [] text_set)).
  rewrite !(field_said _ _ _ None l _ (run_pointed blank_date date_member says_date reads_date)). reflexivity.
Qed.
Lemma reads_edtf l a : set_members edtf_member l blank_edtf = OK a <-> says_edtf l a.
Proof.
  rewrite edtf_members_run. unfold edtf_runs, says_edtf. unfold blank_edtf. fields.
  rewrite !(field_said set_text (last_value text_value []) _ [] l _ (run_last set_text text_value [] text_set)).
  rewrite !(field_said _ (pointed says_range) _ None l _ (run_pointed blank_range range_member says_range reads_range)).
  rewrite !(field_said set_int (last_value int_value 0) _ 0 l _ (run_last set_int int_value 0 int_set)). reflexivity.
Qed.
Theorem unmarshal_exact t o : Unmarshal t = OK o <-> date_text t o.
Proof.
  unfold Unmarshal, date_text. split.
  - destruct (read_doc t) as [v|] eqn:E; [|discriminate]. intro H. apply read_doc_exact in E. destruct E as (D & N). exists v. split; [exact D|]. split; [exact N|].
    apply (run_pointed blank_edtf edtf_member says_edtf reads_edtf). cbn [run]. rewrite H. reflexivity.
  - intros (v & D & N & P). rewrite (proj2 (read_doc_exact v t) (conj D N)). apply (run_pointed blank_edtf edtf_member says_edtf reads_edtf) in P. cbn [run] in P. apply bind_OK in P.
    destruct P as (x & H & E). injection E as <-. exact H.
Qed.

(** ** No panic *)
Inductive all_strings : doc -> Prop :=
| as_null : all_strings DNull | as_bool b : all_strings (DBool b) | as_num t : all_strings (DNum t)
| as_str t : string_text t -> all_strings (DStr t)
| as_arr l : all_strings (DArr l)
| as_obj l : Forall (fun m => string_text (fst m) /\ all_strings (snd m)) l -> all_strings (DObj l).
Lemma strings_all : (forall v t, dvalue_text v t -> all_strings v) /\ (forall l t, ditems_text l t -> True) /\
  (forall l t, dmembers_text l t -> Forall (fun m => string_text (fst m) /\ all_strings (snd m)) l).
Proof.
  apply dvalue_all; intros; try exact I; try (constructor; auto).
Qed.
Definition safe {A} (set : A -> doc -> res A) : Prop := forall c v, all_strings v -> set c v <> Panic.
Lemma unquoted_safe t : string_text t -> exists s, unquoted t = OK s.
Proof. intro H. apply unquote_text in H. destruct H as (s & H). exists s. unfold unquoted. rewrite H. reflexivity. Qed.
Lemma text_safe : safe set_text.
Proof. intros c v H. destruct H; cbn [set_text]; try discriminate. destruct (unquoted_safe _ H) as (s & ->). discriminate. Qed.
Lemma bool_safe : safe set_bool.
Proof. intros c v H. destruct H; discriminate. Qed.
Lemma int_safe : safe set_int.
Proof. intros c v H. destruct H; cbn [set_int]; try discriminate. destruct (atoi t); discriminate. Qed.
Lemma prec_safe : safe set_prec.
Proof. intros c v H. destruct H; cbn [set_prec]; try discriminate. destruct t; [discriminate|]. destruct (dec_val 0 (a :: t)); [|discriminate]. destruct (z <=? 4294967295); discriminate. Qed.
Lemma ts_safe : safe set_ts.
Proof.
  intros c v H. destruct H as [|b|t|t H|l|l H]; cbn [set_ts]; try discriminate; [destruct b; discriminate| |]; unfold ts_unmarshal, parse_int.
  - pose proof (atoi_not_panic (trim """" t)). destruct (atoi (trim """" t)); [discriminate..|congruence].
  - pose proof (atoi_not_panic (trim """" ($"""" ++ t ++ $""""))). destruct (atoi (trim """" ($"""" ++ t ++ $""""))); [discriminate..|congruence].
Qed.
Lemma members_safe {A} (set : str -> doc -> A -> res A) l : (forall k c v, all_strings v -> set k v c <> Panic) ->
  Forall (fun m => string_text (fst m) /\ all_strings (snd m)) l -> forall c, set_members set l c <> Panic.
Proof.
  intros S F. induction F as [|[kt v] l (K & V) _ IH]; intro c; [discriminate|]. cbn [fst snd] in *. cbn [set_members]. destruct (unquoted_safe _ K) as (k & ->). cbn [bind].
  specialize (S (fold_name k) c v V). destruct (set (fold_name k) v c); cbn [bind]; [apply IH|discriminate|exact S].
Qed.
Lemma pointer_safe {A} (zero : A) set : (forall k c v, all_strings v -> set k v c <> Panic) -> safe (set_pointer zero set).
Proof.
  intros S c v H. destruct H as [|b|t|t H|l|l H]; cbn [set_pointer]; try discriminate.
  pose proof (members_safe set l S H (match c with Some a => a | None => zero end)) as M. destruct (set_members set l _); [discriminate..|congruence].
Qed.
Lemma step_safe {A B} (x : res A) (mk : A -> B) : x <> Panic -> (let* y := x in OK (mk y)) <> Panic.
Proof. destruct x; cbn [bind]; [discriminate..|congruence]. Qed.
Ltac each := repeat (match goal with |- (if ?b then _ else _) <> _ => destruct b end; [apply step_safe; first [apply text_safe|apply bool_safe|apply int_safe|apply prec_safe|apply ts_safe|match goal with P : safe _ |- _ => apply P end]; assumption|]); discriminate.
Lemma ymd_safe k c v : all_strings v -> ymd_member k v c <> Panic.
Proof. intro H. unfold ymd_member. each. Qed.
Lemma date_safe k c v : all_strings v -> date_member k v c <> Panic.
Proof. intro H. unfold date_member. destruct c. pose proof (pointer_safe blank_ymd ymd_member ymd_safe). each. Qed.
Lemma range_safe k c v : all_strings v -> range_member k v c <> Panic.
Proof. intro H. unfold range_member. pose proof (pointer_safe blank_date date_member date_safe). each. Qed.
Lemma edtf_safe k c v : all_strings v -> edtf_member k v c <> Panic.
Proof. intro H. unfold edtf_member. pose proof (pointer_safe blank_range range_member range_safe). each. Qed.
Theorem unmarshal_safe t : Unmarshal t <> Panic.
Proof.
  unfold Unmarshal. destruct (read_doc t) as [v|] eqn:E; [|discriminate]. apply read_doc_exact in E. destruct E as ((w & u & w' & _ & V & _) & _).
  apply pointer_safe; [exact edtf_safe|exact (proj1 strings_all _ _ V)].
Qed.
Theorem unmarshal_error t : (exists e, Unmarshal t = Err e) <-> forall o, ~ date_text t o.
Proof.
  split.
  - intros (e & H) o D. apply unmarshal_exact in D. congruence.
  - intro H. pose proof (unmarshal_safe t). destruct (Unmarshal t) as [o|e|] eqn:E; [apply unmarshal_exact in E; destruct (H o E)|exists e; reflexivity|congruence].
Qed.
