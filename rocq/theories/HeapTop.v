(** C77: the theorems, from the side-by-side runs. *)
From Coq Require Import Ascii String ZArith NArith Bool Lia List.
From Verif Require Import GoStr GoTime Edtf Common Level0 Level2 Parser StrFacts Heap SpecHeap HeapFacts HeapProofs HeapSet HeapParse.
Import ListNotations.
Open Scope Z_scope.

Lemma read_range_of h r e a b l u : nth_error (h_ranges h) r = Some (mkHRange e a b) -> read_date h a = Some l -> read_date h b = Some u ->
  read_range h r = Some (mkRange e l u).
Proof. intros R A B. unfold read_range. rewrite R. cbn [hr_lower hr_upper hr_edtf]. now rewrite A, B. Qed.
Lemma range_eta r : mkRange (r_edtf r) (r_lower r) (r_upper r) = r.
Proof. now destruct r. Qed.

Lemma kind_read h x h' d : kind h x h' d -> read_edtf h' x = Some d.
Proof.
  unfold read_edtf. intros [((sp & v & M & Es & Ee & ->) & _)|[(_ & T)|(_ & _ & (sp & v & M & Es & Ee & ->))]].
  - rewrite Es, Ee. destruct M as [a b c e S E _ _ _ _ _ La Lb Lc Ld _ _ _ _ _].
    now rewrite (read_range_of _ _ _ _ _ _ _ S La Lb), (read_range_of _ _ _ _ _ _ _ E Lc Ld), !range_eta.
  - destruct T as [a b v S E _ _ _ _ _ _ La Lb _ _ ->]. now rewrite (read_range_of _ _ _ _ _ _ _ S La La), (read_range_of _ _ _ _ _ _ _ E Lb Lb).
  - rewrite Es, Ee. destruct M as [a b Q V S _ _ _ _ La Lb _ _]. rewrite <- Q, <- V.
    now rewrite (read_range_of _ _ _ _ _ _ _ S La Lb), !range_eta.
Qed.

Lemma parse_run s h : match ParseString s with
  | OK d => exists x h', HParseString s h = (OK x, h') /\ read_edtf h' x = Some d
  | Err e => exists h', HParseString s h = (Err e, h')
  | Panic => exists h', HParseString s h = (Panic, h')
  end.
Proof.
  pose proof (parse_sim s h) as H. unfold sim in H. destruct (HParseString s h) as ([x|e|], h'); destruct H as (_ & H).
  - destruct H as (d & -> & K). exists x, h'. split; [reflexivity|exact (kind_read h x h' d K)].
  - rewrite H. now exists h'.
  - rewrite H. now exists h'.
Qed.
Lemma parse_keeps s h : extends h (snd (HParseString s h)).
Proof. pose proof (parse_sim s h) as H. unfold sim in H. destruct (HParseString s h) as (r, h'). exact (proj1 H). Qed.
Lemma parse_kind s h x h' : HParseString s h = (OK x, h') -> exists d, ParseString s = OK d /\ extends h h' /\ kind h x h' d.
Proof. intro E. pose proof (parse_sim s h) as H. unfold sim in H. rewrite E in H. destruct H as (X & d & P & K). eauto. Qed.
Lemma parse_later s h x d : read_edtf h x = Some d -> read_edtf (snd (HParseString s h)) x = Some d.
Proof. apply read_edtf_keeps, parse_keeps. Qed.

(** ** New objects *)
Lemma kind_ranges h x h' d : kind h x h' d -> (length (h_ranges h) <= he_start x)%nat /\ (length (h_ranges h) <= he_end x)%nat.
Proof.
  intros [((sp & v & M & Es & Ee & _) & _)|[(_ & T)|(_ & _ & (sp & v & M & Es & Ee & _))]].
  - rewrite Es, Ee. destruct M. auto.
  - destruct T. auto.
  - rewrite Es, Ee. destruct M as [a b Q V S N]. rewrite <- Q. auto.
Qed.
Lemma kind_dates h x h' d a : kind h x h' d -> date_of h' x a -> (length (h_dates h) <= a)%nat.
Proof.
  intros K (r & c & R & E & A). destruct K as [((sp & v & M & Es & Ee & _) & _)|[(_ & T)|(_ & _ & (sp & v & M & Es & Ee & _))]].
  - unfold range_of in R. rewrite Es, Ee in R. destruct M as [p q u w S E' _ _ _ F _ _ _ _ _ _ _ _ _ _]. rewrite Forall_forall in F.
    destruct R as [->| ->]; [rewrite S in E|rewrite E' in E]; injection E as <-; cbn [hr_lower hr_upper] in A; destruct A as [->| ->]; apply F; cbn [In]; tauto.
  - destruct T as [p q v S E' _ _ _ Fp Fq _ _ _ _ _ _].
    destruct R as [->| ->]; [rewrite S in E|rewrite E' in E]; injection E as <-; cbn [hr_lower hr_upper] in A; destruct A as [->| ->]; assumption.
  - unfold range_of in R. rewrite Es, Ee in R. destruct M as [p q Q V S _ Fp Fq _ _ _ _ _]. rewrite <- Q in R.
    destruct R as [->| ->]; rewrite S in E; injection E as <-; cbn [hr_lower hr_upper] in A; destruct A as [->| ->]; assumption.
Qed.
Lemma kind_new_ymds h x h' d : kind h x h' d -> new_ymds h h'.
Proof. intros [((sp & v & M & _) & _)|[(_ & T)|(_ & _ & (sp & v & M & _))]]; [now destruct M|now destruct T|now destruct M]. Qed.
Lemma parse_new s h x h' : HParseString s h = (OK x, h') -> all_new h h' x.
Proof.
  intro E. destruct (parse_kind _ _ _ _ E) as (d & _ & _ & K). destruct (kind_ranges _ _ _ _ K) as (A & B). repeat split.
  - intros r [->| ->]; apply nth_error_None; assumption.
  - intros a D. apply nth_error_None. exact (kind_dates _ _ _ _ _ K D).
  - intros y (a & c & D & C & Y). apply nth_error_None. exact (kind_new_ymds _ _ _ _ K a c y (kind_dates _ _ _ _ _ K D) C Y).
Qed.

(** ** What is shared within a result *)
Lemma parse_separate s h x h' d : HParseString s h = (OK x, h') -> read_edtf h' x = Some d -> he_feature x <> DATE_AND_TIME ->
  ~ (he_feature x = SET_REPRESENTATIONS /\ d_open (r_lower (e_start d)) = true /\ d_open (r_lower (e_end d)) = true) ->
  he_start x <> he_end x /\ exists sl su el eu, bounds h' x sl su el eu /\ NoDup [sl; su; el; eu] /\
    forall a b c c' y, In a [sl; su] -> In b [el; eu] -> nth_error (h_dates h') a = Some c -> nth_error (h_dates h') b = Some c' ->
      hd_ymd c = Some y -> hd_ymd c' <> Some y.
Proof.
  intros E R N1 N2. destruct (parse_kind _ _ _ _ E) as (d' & _ & _ & K). pose proof (kind_read _ _ _ _ K) as R'. rewrite R in R'. injection R' as <-.
  destruct K as [((sp & v & M & Es & Ee & _) & _)|[(F & _)|(F & O & _)]]; [|destruct (N1 F)|destruct N2; split; [exact F|exact O]].
  unfold bounds. rewrite Es, Ee. destruct M as [p q u w S E' _ _ Ne _ D _ _ _ _ _ A1 A2 A3 A4]. split; [exact Ne|]. exists p, q, u, w. split; [eauto|]. split; [exact D|].
  intros a b c c' y [<-|[<-|[]]] [<-|[<-|[]]] C C' Y Y'; eauto.
Qed.
Lemma parse_datetime s h x h' : HParseString s h = (OK x, h') -> he_feature x = DATE_AND_TIME ->
  he_start x <> he_end x /\ exists a b, bounds h' x a a b b /\ a <> b.
Proof.
  intros E F. destruct (parse_kind _ _ _ _ E) as (d & _ & _ & K).
  destruct K as [(_ & N & _)|[(_ & T)|(G & _)]]; [destruct (N F)| |rewrite F in G; vm_compute in G; discriminate G].
  destruct T as [a b v S E' _ _ Ne _ _ N _ _ _ _ _]. split; [exact Ne|]. exists a, b. split; [split; eauto|exact N].
Qed.
Lemma parse_open_set s h x h' d : HParseString s h = (OK x, h') -> read_edtf h' x = Some d ->
  he_feature x = SET_REPRESENTATIONS -> d_open (r_lower (e_start d)) = true -> d_open (r_lower (e_end d)) = true ->
  he_start x = he_end x /\ exists a b, bounds h' x a b a b /\ a <> b.
Proof.
  intros E R F O1 O2. destruct (parse_kind _ _ _ _ E) as (d' & _ & _ & K). pose proof (kind_read _ _ _ _ K) as R'. rewrite R in R'. injection R' as <-.
  destruct K as [(_ & _ & N)|[(G & _)|(_ & _ & (sp & v & M & Es & Ee & _))]];
    [destruct N; split; [exact F|split; assumption]|rewrite F in G; vm_compute in G; discriminate G|].
  unfold bounds. rewrite Es, Ee. destruct M as [a b Q V S _ _ _ N _ _ _ _]. split; [exact Q|]. rewrite <- Q. exists a, b. split; [eauto|exact N].
Qed.

(** ** Two results *)
Lemma read_date_same h h' a d : nth_error (h_dates h') a = nth_error (h_dates h) a ->
  (forall c y, nth_error (h_dates h) a = Some c -> hd_ymd c = Some y -> nth_error (h_ymds h') y = nth_error (h_ymds h) y) ->
  read_date h a = Some d -> read_date h' a = Some d.
Proof.
  intros E Y. unfold read_date. rewrite E. destruct (nth_error (h_dates h) a) as [c|] eqn:C; [|discriminate]. specialize (Y c).
  destruct (hd_ymd c) as [y|]; cbn [read_ymd]; [|tauto]. now rewrite (Y y eq_refl eq_refl).
Qed.
Lemma read_edtf_same h h' x d : (forall r, range_of x r -> nth_error (h_ranges h') r = nth_error (h_ranges h) r) ->
  (forall a, date_of h x a -> nth_error (h_dates h') a = nth_error (h_dates h) a) ->
  (forall y, ymd_of h x y -> nth_error (h_ymds h') y = nth_error (h_ymds h) y) -> read_edtf h x = Some d -> read_edtf h' x = Some d.
Proof.
  intros R D Y. assert (K : forall r v, range_of x r -> read_range h r = Some v -> read_range h' r = Some v).
  { intros r v Or. unfold read_range. rewrite (R r Or). destruct (nth_error (h_ranges h) r) as [c|] eqn:C; [|discriminate].
    assert (Q : forall a v, a = hr_lower c \/ a = hr_upper c -> read_date h a = Some v -> read_date h' a = Some v).
    { intros a w A. assert (Od : date_of h x a) by (exists r, c; auto). apply read_date_same; [exact (D a Od)|]. intros c' y C' Y'. apply Y. exists a, c'. auto. }
    destruct (read_date h (hr_lower c)) as [l|] eqn:L; [|discriminate]. destruct (read_date h (hr_upper c)) as [u|] eqn:U; [|discriminate].
    now rewrite (Q _ _ (or_introl eq_refl) L), (Q _ _ (or_intror eq_refl) U). }
  unfold read_edtf. destruct (read_range h (he_start x)) as [a|] eqn:A; [|discriminate]. destruct (read_range h (he_end x)) as [b|] eqn:B; [|discriminate].
  now rewrite (K _ _ (or_introl eq_refl) A), (K _ _ (or_intror eq_refl) B).
Qed.

(* what a result that can be read reaches lies in the heap *)
Lemma reach_old h h' x d : read_edtf h x = Some d -> extends h h' ->
  (forall r, range_of x r -> nth_error (h_ranges h) r <> None) /\ (forall a, date_of h' x a -> nth_error (h_dates h) a <> None) /\
  (forall y, ymd_of h' x y -> nth_error (h_ymds h) y <> None).
Proof.
  intros R (XY & XD & XR). assert (A : forall r, range_of x r -> exists v, read_range h r = Some v).
  { unfold read_edtf in R. destruct (read_range h (he_start x)) as [a|] eqn:A; [|discriminate]. destruct (read_range h (he_end x)) as [b|] eqn:B; [|discriminate].
    intros r [->| ->]; eauto. }
  assert (B : forall r, range_of x r -> exists c l u, nth_error (h_ranges h) r = Some c /\ read_date h (hr_lower c) = Some l /\ read_date h (hr_upper c) = Some u).
  { intros r Or. destruct (A r Or) as (v & E). unfold read_range in E. destruct (nth_error (h_ranges h) r) as [c|]; [|discriminate].
    destruct (read_date h (hr_lower c)) as [l|] eqn:L; [|discriminate]. destruct (read_date h (hr_upper c)) as [u|] eqn:U; [|discriminate]. exists c, l, u. auto. }
  assert (C : forall a, date_of h' x a -> exists v, read_date h a = Some v).
  { intros a (r & c' & Or & E & Q). destruct (B r Or) as (c & l & u & E0 & L & U). rewrite (XR _ _ E0) in E. injection E as <-. destruct Q as [->| ->]; eauto. }
  repeat split.
  - intros r Or. destruct (B r Or) as (c & l & u & E0 & _). congruence.
  - intros a Oa. destruct (C a Oa) as (v & E). destruct (read_date_cell _ _ _ E) as (c & F & _). congruence.
  - intros y (a & c' & Oa & E & Y). destruct (C a Oa) as (v & F). destruct (read_date_cell _ _ _ F) as (c & G & L). rewrite (XD _ _ G) in E. injection E as <-.
    apply nth_error_Some. exact (L y Y).
Qed.

Lemma two_results s1 s2 h h1 h2 h3 x1 x2 : HParseString s1 h = (OK x1, h1) -> extends h1 h2 -> HParseString s2 h2 = (OK x2, h3) ->
  (forall r, range_of x1 r -> ~ range_of x2 r) /\ (forall a, date_of h3 x1 a -> ~ date_of h3 x2 a) /\ (forall y, ymd_of h3 x1 y -> ~ ymd_of h3 x2 y).
Proof.
  intros E1 X E2. destruct (parse_kind _ _ _ _ E1) as (d & _ & _ & K). apply kind_read in K. apply (read_edtf_keeps _ _ _ _ X) in K.
  destruct (parse_kind _ _ _ _ E2) as (_ & _ & X2 & _). destruct (reach_old _ _ _ _ K X2) as (A & B & C). destruct (parse_new _ _ _ _ E2) as (P & Q & R).
  repeat split; intros z O1 O2; [exact (A z O1 (P z O2))|exact (B z O1 (Q z O2))|exact (C z O1 (R z O2))].
Qed.
Lemma assign_first s1 s2 h h1 h2 h3 h4 x1 x2 d : HParseString s1 h = (OK x1, h1) -> extends h1 h2 -> HParseString s2 h2 = (OK x2, h3) ->
  same_but h3 x1 h4 -> read_edtf h3 x2 = Some d -> read_edtf h4 x2 = Some d.
Proof.
  intros E1 X E2 (A & B & C). destruct (two_results _ _ _ _ _ _ _ _ E1 X E2) as (P & Q & R).
  apply read_edtf_same; intros z O; [apply A|apply B|apply C]; intro O1; [exact (P z O1 O)|exact (Q z O1 O)|exact (R z O1 O)].
Qed.
Lemma assign_second s1 s2 h h1 h2 h3 h4 x1 x2 d : HParseString s1 h = (OK x1, h1) -> extends h1 h2 -> HParseString s2 h2 = (OK x2, h3) ->
  same_but h3 x2 h4 -> read_edtf h3 x1 = Some d -> read_edtf h4 x1 = Some d.
Proof.
  intros E1 X E2 (A & B & C). destruct (two_results _ _ _ _ _ _ _ _ E1 X E2) as (P & Q & R).
  apply read_edtf_same; intros z O; [apply A|apply B|apply C]; intro O1; [exact (P z O O1)|exact (Q z O O1)|exact (R z O O1)].
Qed.

(** ** SetTime on the lower bound of the start *)
Lemma settime_run h a d t : read_date h a = Some d -> exists h', HSetTime a t h = (OK tt, h') /\ h_ranges h' = h_ranges h /\
  read_date h' a = Some (SetTime d t) /\ forall b, b <> a -> read_date h' b = read_date h b.
Proof.
  intro R. destruct (read_date_cell _ _ _ R) as (c & E & _). eexists. unfold HSetTime, mbind, get_date, put_date. rewrite E. split; [reflexivity|]. split; [reflexivity|]. split.
  - unfold read_date in *. cbn [h_dates]. rewrite (update_here _ _ _ _ E). rewrite E in R. cbn [hd_ymd].
    match goal with |- context [read_ymd ?g (hd_ymd c)] => change (read_ymd g (hd_ymd c)) with (read_ymd h (hd_ymd c)) end.
    destruct (read_ymd h (hd_ymd c)) as [y|]; [|discriminate]. injection R as <-. reflexivity.
  - intros b N. unfold read_date. cbn [h_dates]. now rewrite update_other by congruence.
Qed.
Lemma settime_parse s h x h' d t : HParseString s h = (OK x, h') -> read_edtf h' x = Some d ->
  exists h2, HSetTime (start_lower h' x) t h' = (OK tt, h2) /\
    let l := SetTime (r_lower (e_start d)) t in let su := r_upper (e_start d) in let e := e_end d in
    read_edtf h2 x = Some (mkEDTF (mkRange (r_edtf (e_start d)) l (if seqb (he_feature x) DATE_AND_TIME then l else su))
      (if seqb (he_feature x) SET_REPRESENTATIONS && (d_open (r_lower (e_start d)) && d_open (r_lower e)) then mkRange (r_edtf e) l (r_upper e) else e)
      (e_edtf d) (e_level d) (e_feature d)).
Proof.
  intros E R. destruct (parse_kind _ _ _ _ E) as (d' & _ & _ & K). pose proof (kind_read _ _ _ _ K) as R'. rewrite R in R'. injection R' as <-.
  destruct K as [((sp & v & M & Es & Ee & ->) & N1 & N2)|[(F & T)|(F & O & (sp & v & M & Es & Ee & ->))]].
  - destruct M as [p q u w S E' _ _ _ _ D La Lb Lc Ld _ _ _ _ _]. destruct (distinct4 _ _ _ _ D) as (pq & pu & pw & _).
    destruct (settime_run h' p _ t La) as (h2 & Run & Rg & Rp & Ro). exists h2. split; [unfold start_lower; rewrite Es, S; exact Run|]. cbv zeta.
    assert (C : seqb (he_feature x) DATE_AND_TIME = false) by (destruct (seqb _ _) eqn:Q; [destruct N1; apply seqb_eq, Q|reflexivity]).
    cbn [e_start e_end e_edtf e_level e_feature] in *. rewrite C.
    assert (C2 : seqb (he_feature x) SET_REPRESENTATIONS && (d_open (r_lower (s_start v)) && d_open (r_lower (s_end v))) = false).
    { destruct (seqb (he_feature x) SET_REPRESENTATIONS) eqn:Q; [|reflexivity]. apply seqb_eq in Q. destruct (d_open (r_lower (s_start v))) eqn:O1; [|reflexivity].
      destruct (d_open (r_lower (s_end v))) eqn:O2; [|reflexivity]. destruct N2. split; [exact Q|split; assumption]. }
    rewrite C2. unfold read_edtf. rewrite Es, Ee.
    rewrite (read_range_of h2 (hs_start sp) _ p q _ (r_upper (s_start v))) with (1 := eq_trans (f_equal (fun l => nth_error l (hs_start sp)) Rg) S) (2 := Rp) by (rewrite Ro by congruence; exact Lb).
    rewrite (read_range_of h2 (hs_end sp) _ u w (r_lower (s_end v)) (r_upper (s_end v))) with (1 := eq_trans (f_equal (fun l => nth_error l (hs_end sp)) Rg) E')
      by (rewrite Ro by congruence; assumption).
    now rewrite range_eta.
  - destruct T as [a b v S E' _ _ _ _ _ N La Lb _ _ ->]. destruct (settime_run h' a _ t La) as (h2 & Run & Rg & Ra & Ro). exists h2.
    split; [unfold start_lower; rewrite S; exact Run|]. cbv zeta. cbn [e_start e_end e_edtf e_level e_feature r_edtf r_lower r_upper].
    rewrite F. change (seqb DATE_AND_TIME DATE_AND_TIME) with true. change (seqb DATE_AND_TIME SET_REPRESENTATIONS) with false. cbn [andb].
    unfold read_edtf. rewrite (read_range_of h2 (he_start x) _ a a _ _ (eq_trans (f_equal (fun l => nth_error l (he_start x)) Rg) S) Ra Ra).
    rewrite (read_range_of h2 (he_end x) _ b b v v (eq_trans (f_equal (fun l => nth_error l (he_end x)) Rg) E')) by (rewrite Ro by congruence; exact Lb).
    now rewrite F.
  - destruct O as (O1 & O2). destruct M as [a b Q V S _ _ _ N La Lb _ _]. destruct (settime_run h' a _ t La) as (h2 & Run & Rg & Ra & Ro). exists h2.
    split; [unfold start_lower; rewrite Es, S; exact Run|]. cbv zeta. cbn [e_start e_end e_edtf e_level e_feature] in *. rewrite O1, O2, F.
    change (seqb SET_REPRESENTATIONS DATE_AND_TIME) with false. change (seqb SET_REPRESENTATIONS SET_REPRESENTATIONS) with true. cbn [andb].
    unfold read_edtf. rewrite Es, Ee, <- Q, <- V.
    rewrite (read_range_of h2 (hs_start sp) _ a b _ (r_upper (s_start v)) (eq_trans (f_equal (fun l => nth_error l (hs_start sp)) Rg) S) Ra) by (rewrite Ro by congruence; exact Lb).
    now rewrite F.
Qed.
