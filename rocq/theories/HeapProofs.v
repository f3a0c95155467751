(** C77: the parser on objects gives what the parser on values gives. *)
From Coq Require Import Ascii String ZArith NArith Bool Lia List.
From Verif Require Import GoStr GoTime Regex Patterns Edtf Calendar Common Level0 Level1 Level2 Parser Heap SpecHeap HeapFacts.
Import ListNotations.
Open Scope Z_scope.

Local Ltac lists := repeat (rewrite <- ?app_assoc, ?app_length, ?nth_app_k, ?nth_app_0, ?update_app_k, ?update_app_0; cbn [app length Nat.add nth_error update h_ymds h_dates h_ranges hr_lower hr_upper hr_edtf hd_ymd read_ymd]).

(** ** Ranges of two new dates *)
Definition open_cell : hdate := mkHDate [] None None 0 0 0 0 true false 0.
Definition unknown_cell : hdate := mkHDate [] None None 0 0 0 0 false true 0.
Definition with_pair (h : heap) (c : hdate) : heap :=
  mkHeap (h_ymds h) (h_dates h ++ [c; c]) (h_ranges h ++ [mkHRange [] (length (h_dates h)) (length (h_dates h) + 1)]).
Lemma empty_run h : HEmptyDateRange h = (OK (length (h_ranges h)), with_pair h hzero_date).
Proof. unfold HEmptyDateRange, mbind, new_date, new_range, with_pair. lists. reflexivity. Qed.
Lemma open_run h : HOpenDateRange h = (OK (length (h_ranges h)), with_pair h open_cell).
Proof.
  unfold HOpenDateRange, mbind at 1. rewrite empty_run. unfold mbind, get_range, assign_open, get_date, put_date, ret, with_pair.
  lists. unfold mbind. lists. reflexivity.
Qed.
Lemma unknown_run h : HUnknownDateRange h = (OK (length (h_ranges h)), with_pair h unknown_cell).
Proof.
  unfold HUnknownDateRange, mbind at 1. rewrite empty_run. unfold mbind, get_range, assign_unknown, get_date, put_date, ret, with_pair.
  lists. unfold mbind. lists. reflexivity.
Qed.

(** ** Spans *)
Definition cell (h : heap) (a : nat) : hdate := nth a (h_dates h) hzero_date.
Definition new_ymds (h h' : heap) : Prop :=
  forall a c y, (length (h_dates h) <= a)%nat -> nth_error (h_dates h') a = Some c -> hd_ymd c = Some y -> (length (h_ymds h) <= y)%nat.
(* no YMD object belongs to both dates *)
Definition apart (h : heap) (a b : nat) : Prop :=
  forall c d y, nth_error (h_dates h) a = Some c -> nth_error (h_dates h) b = Some d -> hd_ymd c = Some y -> hd_ymd d = Some y -> False.
Inductive made (h : heap) (sp : hspan) (h' : heap) (v : datespan) : Prop :=
  made_intro a b c d :
    nth_error (h_ranges h') (hs_start sp) = Some (mkHRange (r_edtf (s_start v)) a b) ->
    nth_error (h_ranges h') (hs_end sp) = Some (mkHRange (r_edtf (s_end v)) c d) ->
    (length (h_ranges h) <= hs_start sp)%nat -> (length (h_ranges h) <= hs_end sp)%nat -> hs_start sp <> hs_end sp ->
    Forall (fun x => (length (h_dates h) <= x)%nat) [a; b; c; d] -> NoDup [a; b; c; d] ->
    read_date h' a = Some (r_lower (s_start v)) -> read_date h' b = Some (r_upper (s_start v)) ->
    read_date h' c = Some (r_lower (s_end v)) -> read_date h' d = Some (r_upper (s_end v)) ->
    new_ymds h h' -> apart h' a c -> apart h' a d -> apart h' b c -> apart h' b d -> made h sp h' v.

Lemma nodup4 n : NoDup [n; (n + 1)%nat; (n + 2)%nat; (n + 3)%nat].
Proof. repeat constructor; cbn [In]; lia. Qed.

Lemma new_ymds_app h ys ds rs : Forall (fun c => match hd_ymd c with Some y => (length (h_ymds h) <= y)%nat | None => True end) ds ->
  new_ymds h (mkHeap (h_ymds h ++ ys) (h_dates h ++ ds) rs).
Proof.
  intros F a c y L E G. cbn [h_dates] in E. rewrite nth_error_app2 in E by exact L. apply nth_error_In in E.
  rewrite Forall_forall in F. specialize (F c E). now rewrite G in F.
Qed.

(* span.go:183-244, once the times are known *)
Definition span_tail (s : str) (sr : stringrange) (y z : nat) (q : time * time * time * time) : M hspan :=
  let '(sl, su, el, eu) := q in
  let cell y := mkHDate [] None (Some y) (sr_uncertain sr) (sr_approximate sr) 0 (sr_precision sr) false false 0 in
  let! start_lower := new_date (cell y) in
  let! start_upper := new_date (cell y) in
  let! end_lower := new_date (cell z) in
  let! end_upper := new_date (cell z) in
  let! _ := HSetTime start_lower sl in
  let! _ := HSetTime start_upper su in
  let! _ := HSetTime end_lower el in
  let! _ := HSetTime end_upper eu in
  let! start_range := new_range (mkHRange s start_lower start_upper) in
  let! end_range := new_range (mkHRange s end_lower end_upper) in
  ret (mkHSpan start_range end_range).
Definition set_cell (sr : stringrange) (y : nat) (t : time) : hdate :=
  mkHDate (format_rfc3339 t) (Some t) (Some y) (sr_uncertain sr) (sr_approximate sr) 0 (sr_precision sr) false false 0.
Lemma tail_run s sr y z sl su el eu h : span_tail s sr y z (sl, su, el, eu) h =
  (OK (mkHSpan (length (h_ranges h)) (length (h_ranges h) + 1)),
   mkHeap (h_ymds h) (h_dates h ++ [set_cell sr y sl; set_cell sr y su; set_cell sr z el; set_cell sr z eu])
     (h_ranges h ++ [mkHRange s (length (h_dates h)) (length (h_dates h) + 1); mkHRange s (length (h_dates h) + 2) (length (h_dates h) + 3)])).
Proof.
  unfold span_tail, mbind, new_date, new_range, HSetTime, get_date, put_date, ret. lists. unfold mbind. lists. reflexivity.
Qed.

Lemma times_sim (h0 h : heap) (c : bool) v w (k : time * time * time * time -> M hspan) (q : time * time * time * time -> res datespan) R :
  extends h0 h -> (forall x, sim h0 h (k x) (q x) R) ->
  sim h0 h (mbind (if c then
      let! st := lift (TimeWithYMD v HMS_LOWER) in
      let! et := lift (TimeWithYMD w HMS_UPPER) in
      ret (st, st, et, et)
    else
      let! sl := lift (TimeWithYMD v HMS_LOWER) in
      let! su := lift (TimeWithYMD v HMS_UPPER) in
      let! el := lift (TimeWithYMD w HMS_LOWER) in
      let! eu := lift (TimeWithYMD w HMS_UPPER) in
      ret (sl, su, el, eu)) k)
    (bind (if c then
      let* st := TimeWithYMD v HMS_LOWER in
      let* et := TimeWithYMD w HMS_UPPER in
      OK (st, st, et, et)
    else
      let* sl := TimeWithYMD v HMS_LOWER in
      let* su := TimeWithYMD v HMS_UPPER in
      let* el := TimeWithYMD w HMS_LOWER in
      let* eu := TimeWithYMD w HMS_UPPER in
      OK (sl, su, el, eu)) q) R.
Proof.
  intros X K. eapply (sim_bind h0 h _ _ _ _ (fun a h' v => h' = h /\ a = v)).
  - destruct c; repeat (apply sim_lift; [exact X|]; intro); apply sim_ret; auto.
  - intros a h' x _ (-> & ->). exact (K x).
Qed.

Lemma ymd_sim s h : sim h h (HdateSpanFromYMD s) (dateSpanFromYMD s) (made h).
Proof.
  unfold HdateSpanFromYMD, dateSpanFromYMD. apply sim_lift; [apply extends_refl|]. intro sr.
  apply sim_lift; [apply extends_refl|]. intro v. eapply sim_step; [reflexivity|].
  apply sim_lift; [apply extends_app_y|]. intro w. eapply sim_step; [reflexivity|].
  cbn [h_ymds h_dates h_ranges]. rewrite <- app_assoc, app_length. cbn [app length].
  apply times_sim; [apply extends_app_y|]. intros (((sl, su), el), eu).
  change (sim h (mkHeap (h_ymds h ++ [v; w]) (h_dates h) (h_ranges h))
    (span_tail s sr (length (h_ymds h)) (length (h_ymds h) + 1) (sl, su, el, eu))
    (OK (mkSpan (mkRange s (SetTime (mkDate [] None (Some v) (sr_uncertain sr) (sr_approximate sr) 0 (sr_precision sr) false false 0) sl)
                           (SetTime (mkDate [] None (Some v) (sr_uncertain sr) (sr_approximate sr) 0 (sr_precision sr) false false 0) su))
                (mkRange s (SetTime (mkDate [] None (Some w) (sr_uncertain sr) (sr_approximate sr) 0 (sr_precision sr) false false 0) el)
                           (SetTime (mkDate [] None (Some w) (sr_uncertain sr) (sr_approximate sr) 0 (sr_precision sr) false false 0) eu)))) (made h)).
  unfold sim. rewrite tail_run. cbn [h_ymds h_dates h_ranges]. split; [apply extends_app|]. eexists. split; [reflexivity|].
  apply (made_intro h _ _ _ (length (h_dates h)) (length (h_dates h) + 1)%nat (length (h_dates h) + 2)%nat (length (h_dates h) + 3)%nat);
    cbn [hs_start hs_end s_start s_end r_edtf r_lower r_upper].
  - lists. reflexivity.
  - lists. reflexivity.
  - lia.
  - lia.
  - lia.
  - repeat constructor; lia.
  - apply nodup4.
  - unfold read_date. lists. cbn [set_cell hd_ymd read_ymd]. lists. reflexivity.
  - unfold read_date. lists. cbn [set_cell hd_ymd read_ymd]. lists. reflexivity.
  - unfold read_date. lists. cbn [set_cell hd_ymd read_ymd]. lists. reflexivity.
  - unfold read_date. lists. cbn [set_cell hd_ymd read_ymd]. lists. reflexivity.
  - apply new_ymds_app. repeat constructor; cbn [set_cell hd_ymd]; lia.
  - intros c d y. lists. intros [= <-] [= <-]. cbn [set_cell hd_ymd]. intros [= <-] [= E]. lia.
  - intros c d y. lists. intros [= <-] [= <-]. cbn [set_cell hd_ymd]. intros [= <-] [= E]. lia.
  - intros c d y. lists. intros [= <-] [= <-]. cbn [set_cell hd_ymd]. intros [= <-] [= E]. lia.
  - intros c d y. lists. intros [= <-] [= <-]. cbn [set_cell hd_ymd]. intros [= <-] [= E]. lia.
Qed.

(** A span of two ranges without dates, and the two with the text set. *)
Definition two_pairs (h : heap) (c : hdate) (s : str) : heap :=
  mkHeap (h_ymds h) (h_dates h ++ [c; c; c; c])
    (h_ranges h ++ [mkHRange s (length (h_dates h)) (length (h_dates h) + 1); mkHRange s (length (h_dates h) + 2) (length (h_dates h) + 3)]).
Lemma twice_pair h c : with_pair (with_pair h c) c = two_pairs h c [].
Proof. unfold with_pair, two_pairs. lists. now rewrite <- Nat.add_assoc. Qed.
Lemma pair_span_run h (m : M nat) c : (forall h, m h = (OK (length (h_ranges h)), with_pair h c)) ->
  (let! s := m in let! e := m in ret (mkHSpan s e)) h = (OK (mkHSpan (length (h_ranges h)) (length (h_ranges h) + 1)), two_pairs h c []).
Proof. intro E. unfold mbind. rewrite E, E. rewrite twice_pair. unfold ret, with_pair. lists. reflexivity. Qed.
Lemma edtf_run h c s t : (let! _ := assign_edtf (length (h_ranges h)) t in let! _ := assign_edtf (length (h_ranges h) + 1) t in
   ret (mkHSpan (length (h_ranges h)) (length (h_ranges h) + 1))) (two_pairs h c s) =
  (OK (mkHSpan (length (h_ranges h)) (length (h_ranges h) + 1)), two_pairs h c t).
Proof. unfold assign_edtf, mbind, get_range, put_range, ret, two_pairs. lists. unfold mbind. lists. reflexivity. Qed.
Lemma two_pairs_made h c s v : hd_ymd c = None ->
  mkDate (hd_datetime c) (hd_timestamp c) None (hd_uncertain c) (hd_approximate c) (hd_unspecified c) (hd_precision c) (hd_open c) (hd_unknown c) (hd_inclusivity c) = v ->
  extends h (two_pairs h c s) /\ made h (mkHSpan (length (h_ranges h)) (length (h_ranges h) + 1)) (two_pairs h c s) (mkSpan (mkRange s v v) (mkRange s v v)).
Proof.
  intros N <-. split.
  - repeat split; cbn [two_pairs h_ymds h_dates h_ranges]; [apply keeps_refl|apply keeps_app|apply keeps_app].
  - apply (made_intro h _ _ _ (length (h_dates h)) (length (h_dates h) + 1)%nat (length (h_dates h) + 2)%nat (length (h_dates h) + 3)%nat);
      cbn [hs_start hs_end s_start s_end r_edtf r_lower r_upper]; unfold two_pairs.
    + lists. reflexivity.
    + lists. reflexivity.
    + lia.
    + lia.
    + lia.
    + repeat constructor; lia.
    + apply nodup4.
    + unfold read_date. lists. rewrite N. reflexivity.
    + unfold read_date. lists. rewrite N. reflexivity.
    + unfold read_date. lists. rewrite N. reflexivity.
    + unfold read_date. lists. rewrite N. reflexivity.
    + replace (h_ymds h) with (h_ymds h ++ []) at 1 by apply app_nil_r. apply new_ymds_app. repeat constructor; now rewrite N.
    + intros x z y. lists. intros [= <-] [= <-]. rewrite N. discriminate.
    + intros x z y. lists. intros [= <-] [= <-]. rewrite N. discriminate.
    + intros x z y. lists. intros [= <-] [= <-]. rewrite N. discriminate.
    + intros x z y. lists. intros [= <-] [= <-]. rewrite N. discriminate.
Qed.

Lemma open_span_sim h : sim h h HOpenDateSpan (OK OpenDateSpan) (made h).
Proof.
  unfold sim, HOpenDateSpan. rewrite (pair_span_run h _ open_cell open_run).
  destruct (two_pairs_made h open_cell [] (set_open zero_date) eq_refl eq_refl) as (X & Y). split; [exact X|]. eexists. split; [reflexivity|exact Y].
Qed.
Lemma unknown_span_sim h : sim h h HUnknownDateSpan (OK UnknownDateSpan) (made h).
Proof.
  unfold sim, HUnknownDateSpan. rewrite (pair_span_run h _ unknown_cell unknown_run).
  destruct (two_pairs_made h unknown_cell [] (set_unknown zero_date) eq_refl eq_refl) as (X & Y). split; [exact X|]. eexists. split; [reflexivity|exact Y].
Qed.

Lemma half_sim s h : sim h h (HdateSpanFromEDTF s) (dateSpanFromEDTF s) (made h).
Proof.
  unfold HdateSpanFromEDTF, dateSpanFromEDTF. destruct (seqb s UNKNOWN).
  - eapply sim_step; [exact (pair_span_run h _ unknown_cell unknown_run)|]. cbn [hs_start hs_end]. unfold sim. rewrite edtf_run.
    destruct (two_pairs_made h unknown_cell s (set_unknown zero_date) eq_refl eq_refl) as (X & Y). split; [exact X|]. eexists. split; [reflexivity|exact Y].
  - destruct (seqb s OPEN); [|apply ymd_sim].
    eapply sim_step; [exact (pair_span_run h _ open_cell open_run)|]. cbn [hs_start hs_end]. unfold sim. rewrite edtf_run.
    destruct (two_pairs_made h open_cell s (set_open zero_date) eq_refl eq_refl) as (X & Y). split; [exact X|]. eexists. split; [reflexivity|exact Y].
Qed.

(** ** Assignments, when the object is there *)
Lemma upper_run h r e l u a : nth_error (h_ranges h) r = Some (mkHRange e l u) ->
  assign_upper r a h = (OK tt, mkHeap (h_ymds h) (h_dates h) (update (h_ranges h) r (mkHRange e l a))).
Proof. intro E. unfold assign_upper, mbind, get_range, put_range. rewrite E. reflexivity. Qed.
Lemma lower_run h r e l u a : nth_error (h_ranges h) r = Some (mkHRange e l u) ->
  assign_lower r a h = (OK tt, mkHeap (h_ymds h) (h_dates h) (update (h_ranges h) r (mkHRange e a u))).
Proof. intro E. unfold assign_lower, mbind, get_range, put_range. rewrite E. reflexivity. Qed.
Lemma get_range_run h r c : nth_error (h_ranges h) r = Some c -> get_range r h = (OK c, h).
Proof. intro E. unfold get_range. now rewrite E. Qed.

Lemma read_ranges y d r r' a : read_date (mkHeap y d r') a = read_date (mkHeap y d r) a.
Proof. reflexivity. Qed.
Lemma read_any h r a : read_date (mkHeap (h_ymds h) (h_dates h) r) a = read_date h a.
Proof. reflexivity. Qed.
Lemma apart_any h r a b : apart h a b -> apart (mkHeap (h_ymds h) (h_dates h) r) a b.
Proof. intro A. exact A. Qed.
Lemma new_ymds_any h h' r : new_ymds h h' -> new_ymds h (mkHeap (h_ymds h') (h_dates h') r).
Proof. intro A. exact A. Qed.
Lemma extends_ranges h h' r c : extends h h' -> (length (h_ranges h) <= r)%nat ->
  extends h (mkHeap (h_ymds h') (h_dates h') (update (h_ranges h') r c)).
Proof. intros (A & B & C) L. repeat split; [exact A|exact B|]. apply keeps_update; assumption. Qed.

Lemma read_date_cell h a d : read_date h a = Some d -> exists c, nth_error (h_dates h) a = Some c /\
  forall y, hd_ymd c = Some y -> (y < length (h_ymds h))%nat.
Proof.
  unfold read_date. destruct (nth_error (h_dates h) a) as [c|]; [|discriminate]. intro E. exists c. split; [reflexivity|].
  intros y Y. rewrite Y in E. cbn [read_ymd] in E. apply nth_error_Some. intro N. rewrite N in E. discriminate.
Qed.
(** Dates made before and dates made after share no YMD. *)
Lemma apart_later h1 h2 a b d : extends h1 h2 -> new_ymds h1 h2 -> read_date h1 a = Some d -> (length (h_dates h1) <= b)%nat -> apart h2 a b.
Proof.
  intros (_ & D & _) N R L c c' y E E' Y Y'. destruct (read_date_cell _ _ _ R) as (c0 & E0 & B).
  rewrite (D _ _ E0) in E. injection E as <-. specialize (B y Y). specialize (N b c' y L E' Y'). lia.
Qed.
Lemma apart_sym h a b : apart h a b -> apart h b a.
Proof. intros A c d y E E' Y Y'. exact (A d c y E' E Y' Y). Qed.
Lemma new_ymds_trans h h1 h2 : extends h h1 -> extends h1 h2 -> new_ymds h h1 -> new_ymds h1 h2 -> new_ymds h h2.
Proof.
  intros (X & _) (_ & D & _) N1 N2 a c y L E Y. apply keeps_length in X.
  destruct (Compare_dec.le_lt_dec (length (h_dates h1)) a) as [G|G].
  - specialize (N2 a c y G E Y). lia.
  - destruct (nth_error (h_dates h1) a) as [c1|] eqn:E1; [|apply nth_error_None in E1; lia].
    rewrite (D a c1 E1) in E. injection E as <-. exact (N1 a c1 y L E1 Y).
Qed.

Lemma span_sim s h : sim h h (HDateSpanFromEDTF s) (DateSpanFromEDTF s) (made h).
Proof.
  unfold HDateSpanFromEDTF, DateSpanFromEDTF.
  destruct (split s ($"/")) as [|l [|r [|z rest]]]; [apply sim_err, extends_refl|apply ymd_sim| |apply sim_err, extends_refl].
  eapply sim_bind; [apply half_sim|]. intros L h1 lv X1 ML.
  eapply sim_bind; [apply sim_base; [exact X1|apply half_sim]|]. intros R h2 rv X2 (X12 & MR).
  destruct ML as [a b c d LS LE LsN LeN Lne LF LD La Lb Lc Ld LY A1 A2 A3 A4].
  destruct MR as [a' b' c' d' RS RE RsN ReN Rne RF RD Ra Rb Rc Rd RY B1 B2 B3 B4].
  pose proof X12 as (XY & XD & XR). pose proof (XR _ _ LS) as LS2. pose proof (XR _ _ LE) as LE2.
  assert (I1 : (hs_start L < length (h_ranges h1))%nat) by (apply nth_error_Some; congruence).
  assert (I2 : (hs_end L < length (h_ranges h1))%nat) by (apply nth_error_Some; congruence).
  destruct X1 as (X1y & X1d & X1r). pose proof (keeps_length _ _ X1d) as Ld1. pose proof (keeps_length _ _ X1r) as Lr1.
  eapply sim_step; [apply get_range_run; exact LE2|]. cbn [hr_upper hr_lower].
  eapply sim_step; [apply (upper_run _ _ _ _ _ _ LS2)|].
  eapply sim_step; [apply get_range_run; cbn [h_ranges]; rewrite update_other by lia; exact RS|]. cbn [hr_lower].
  eapply sim_step; [eapply lower_run; cbn [h_ranges]; rewrite update_other by lia; exact RE|]. cbn [h_ymds h_dates h_ranges].
  assert (Y : extends h (mkHeap (h_ymds h2) (h_dates h2) (update (update (h_ranges h2) (hs_start L) (mkHRange (r_edtf (s_start lv)) a d)) (hs_end R) (mkHRange (r_edtf (s_end rv)) a' d')))).
  { destruct X2 as (P & Q & T). repeat split; [exact P|exact Q|]. cbn [h_ranges]. apply keeps_update; [apply keeps_update; assumption|lia]. }
  apply sim_ret; [exact Y|].
  inversion LF as [|? ? Fa LF1]; subst. inversion LF1 as [|? ? Fb LF2]; subst. inversion LF2 as [|? ? Fc LF3]; subst. inversion LF3 as [|? ? Fd _]; subst.
  inversion RF as [|? ? Ga RF1]; subst. inversion RF1 as [|? ? Gb RF2]; subst. inversion RF2 as [|? ? Gc RF3]; subst. inversion RF3 as [|? ? Gd _]; subst.
  assert (Ba : (a < length (h_dates h1))%nat) by (destruct (read_date_cell _ _ _ La) as (q & E & _); apply nth_error_Some; congruence).
  assert (Bd : (d < length (h_dates h1))%nat) by (destruct (read_date_cell _ _ _ Ld) as (q & E & _); apply nth_error_Some; congruence).
  assert (Nad : a <> d) by (inversion LD as [|? ? N _]; subst; intros ->; apply N; cbn [In]; tauto).
  assert (Nad' : a' <> d') by (inversion RD as [|? ? N _]; subst; intros ->; apply N; cbn [In]; tauto).
  apply (made_intro h _ _ _ a d a' d'); cbn [hs_start hs_end s_start s_end r_edtf r_lower r_upper h_ranges].
  - rewrite update_other by lia. exact (update_here _ _ _ _ LS2).
  - eapply update_here. rewrite update_other by lia. exact RE.
  - exact LsN.
  - lia.
  - lia.
  - repeat constructor; lia.
  - repeat constructor; cbn [In]; lia.
  - rewrite read_any. exact (read_date_keeps _ _ _ _ XY XD La).
  - rewrite read_any. exact (read_date_keeps _ _ _ _ XY XD Ld).
  - rewrite read_any. exact Ra.
  - rewrite read_any. exact Rd.
  - apply new_ymds_any. exact (new_ymds_trans h h1 h2 (conj X1y (conj X1d X1r)) X12 LY RY).
  - apply apart_any. exact (apart_later h1 h2 a a' _ X12 RY La Ga).
  - apply apart_any. exact (apart_later h1 h2 a d' _ X12 RY La Gd).
  - apply apart_any. exact (apart_later h1 h2 d a' _ X12 RY Ld Ga).
  - apply apart_any. exact (apart_later h1 h2 d d' _ X12 RY Ld Gd).
Qed.
