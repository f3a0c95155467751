(** Proofs of the properties that hold of every parsed date. *)
From Coq Require Import Ascii String ZArith NArith Bool Lia ZifyBool List.
From Verif Require Import GoStr GoTime Regex Patterns SpecCal SpecText StrFacts TextFacts Edtf Calendar Common Level0 Level1 Level2 Parser CalFacts ApiFacts SpanFacts YmdShapes YmdFacts InvFacts ParseFacts TimeFacts SetFacts.
Import ListNotations.
Open Scope Z_scope.

Definition bounds (d : edtfdate) : list date :=
  [r_lower (e_start d); r_upper (e_start d); r_lower (e_end d); r_upper (e_end d)].

(** The two kinds of results. *)
Lemma parsed_bounds s d : ParseString s = OK d ->
  (e_feature d = $"Date and Time" /\ exists y m dd hh mi ss, -10000 <= y <= 10000 /\ real_date y m dd /\ clock hh mi ss /\
     forall b, In b (bounds d) -> b = SetTime zero_date (instant y m dd hh mi ss)) \/
  (e_feature d <> $"Date and Time" /\
   some_bound midnight (r_lower (e_start d)) /\ some_bound any_clock (r_upper (e_start d)) /\
   some_bound any_clock (r_lower (e_end d)) /\ some_bound last_second (r_upper (e_end d))).
Proof.
  intro H. destruct (parsed_span _ _ H) as [H1|[H1|[(-> & ->)|[(-> & ->)|(t & sp & lv & f & H1 & -> & Hf & _)]]]].
  - left. destruct (datetime_inv _ _ H1) as (y & m & dd & hh & mi & ss & Hy & Hr & Hc & E). cbv zeta in E. subst d.
    split; [reflexivity|]. exists y, m, dd, hh, mi, ss. split; [exact Hy|]. split; [exact Hr|]. split; [exact Hc|].
    unfold bounds. cbn [e_start e_end r_lower r_upper In]. intros b Hb. intuition.
  - right. destruct (set_inv _ _ H1) as (i & ps & so & eo & hd & tl & sp & _ & _ & _ & _ & Hsp & ->).
    split; [discriminate|]. unfold edtf_of_span. cbn [e_start e_end]. apply set_good. exact (DateSpan_good _ _ Hsp).
  - right. split; [discriminate|]. cbn [e_start e_end r_lower r_upper OpenDateRange]. fold open_bound.
    repeat split; exists 0%N; apply gbound_open.
  - right. split; [discriminate|]. cbn [e_start e_end r_lower r_upper UnknownDateRange]. fold unknown_bound.
    repeat split; exists 0%N; [exact (gb_unknown midnight 0)|exact (gb_unknown any_clock 0)|exact (gb_unknown any_clock 0)|exact (gb_unknown last_second 0)].
  - right. split; [exact Hf|]. destruct (DateSpan_good _ _ H1). unfold edtf_of_span. cbn [e_start e_end].
    repeat split; exists 0%N; assumption.
Qed.
Lemma parsed_bound s d b : ParseString s = OK d -> In b (bounds d) ->
  (e_feature d = $"Date and Time" /\ exists y m dd hh mi ss, -10000 <= y <= 10000 /\ real_date y m dd /\ clock hh mi ss /\
     b = SetTime zero_date (instant y m dd hh mi ss)) \/
  (e_feature d <> $"Date and Time" /\ some_bound any_clock b).
Proof.
  intros H Hb. destruct (parsed_bounds _ _ H) as [(Hf & y & m & dd & hh & mi & ss & Hy & Hr & Hc & E)|(Hf & (i1 & H1) & H2 & H3 & (i4 & H4))].
  - left. split; [exact Hf|]. exists y, m, dd, hh, mi, ss. auto.
  - right. split; [exact Hf|]. unfold bounds in Hb. cbn [In] in Hb. destruct Hb as [<-|[<-|[<-|[<-|[]]]]]; auto.
    + exists i1. exact (gbound_any _ _ _ H1).
    + exists i4. exact (gbound_any _ _ _ H4).
Qed.

(** Text, timestamp and calendar date agree. *)
Lemma bounds_agree s d : ParseString s = OK d -> forall b ts, In b (bounds d) -> d_timestamp b = Some ts ->
  exists y m dd hh mi ss, real_date y m dd /\ clock hh mi ss /\ -10000 <= y <= 10000 /\
    ts = instant y m dd hh mi ss /\ d_datetime b = wide_utc_text y m dd hh mi ss /\
    (d_ymd b = Some (mkYMD y m dd) \/ (d_ymd b = None /\ e_feature d = $"Date and Time")).
Proof.
  intros H b ts Hb Ht. destruct (parsed_bound _ _ _ H Hb) as [(Hf & y & m & dd & hh & mi & ss & Hy & Hr & Hc & ->)|(Hf & i & G)].
  - injection Ht as <-. exists y, m, dd, hh, mi, ss. split; [exact Hr|]. split; [exact Hc|]. split; [exact Hy|]. split; [reflexivity|].
    split; [exact (format_wide _ _ _ _ _ _ Hy Hr Hc)|]. right. auto.
  - destruct G as [| |y m dd hh mi ss u a p Hy Hr Hc _]; [discriminate Ht|discriminate Ht|]. injection Ht as <-.
    exists y, m, dd, hh, mi, ss. split; [exact Hr|]. split; [exact Hc|]. split; [lia|]. split; [reflexivity|].
    split; [symmetry; exact (wide_utc_narrow y m dd hh mi ss Hy)|]. left. reflexivity.
Qed.
(** Outer bounds start at midnight and end one second before midnight. *)
Lemma outer_clock s d : ParseString s = OK d -> e_feature d <> $"Date and Time" ->
  (forall t, Lower d = OK t -> exists y m dd, real_date y m dd /\ t = instant y m dd 0 0 0) /\
  (forall t, Upper d = OK t -> exists y m dd, real_date y m dd /\ t = instant y m dd 23 59 59).
Proof.
  intros H Hf. destruct (parsed_bounds _ _ H) as [(Hf' & _)|(_ & (i1 & H1) & _ & _ & (i4 & H4))]; [contradiction|].
  unfold Lower, Upper. split; intros t Ht.
  - destruct H1 as [| |y m dd hh mi ss u a p Hy Hr Hc (-> & -> & ->)]; cbn in Ht; [discriminate|discriminate|].
    injection Ht as <-. eauto.
  - destruct H4 as [| |y m dd hh mi ss u a p Hy Hr Hc (-> & -> & ->)]; cbn in Ht; [discriminate|discriminate|].
    injection Ht as <-. eauto.
Qed.
(** Year range. *)
Lemma bounds_years s d : ParseString s = OK d -> forall b ts, In b (bounds d) -> d_timestamp b = Some ts ->
  exists y m dd hh mi ss, real_date y m dd /\ clock hh mi ss /\ ts = instant y m dd hh mi ss /\ -10000 <= y <= 10000 /\
    (e_feature d <> $"Date and Time" -> -9999 <= y <= 9999 /\ d_datetime b = utc_text y m dd hh mi ss).
Proof.
  intros H b ts Hb Ht. destruct (parsed_bound _ _ _ H Hb) as [(Hf & y & m & dd & hh & mi & ss & Hy & Hr & Hc & ->)|(Hf & i & G)].
  - injection Ht as <-. exists y, m, dd, hh, mi, ss. repeat (split; [first [exact Hr|exact Hc|exact Hy|reflexivity]|]). contradiction.
  - destruct G as [| |y m dd hh mi ss u a p Hy Hr Hc _]; [discriminate Ht|discriminate Ht|]. injection Ht as <-.
    exists y, m, dd, hh, mi, ss. split; [exact Hr|]. split; [exact Hc|]. split; [reflexivity|]. split; [lia|].
    intros _. split; [exact Hy|]. reflexivity.
Qed.
Lemma years_refuted : exists s d b ts, ParseString s = OK d /\ In b (bounds d) /\ d_timestamp b = Some ts /\
  instant 10000 1 1 0 0 0 <= ts /\ d_datetime b = $"10000-01-01T00:59:59Z".
Proof.
  assert (H : match ParseString ($"9999-12-31T23:59:59-01") with
    | OK d => let b := r_lower (e_start d) in
        match d_timestamp b with Some ts => (instant 10000 1 1 0 0 0 <=? ts) && seqb (d_datetime b) ($"10000-01-01T00:59:59Z") | None => false end
    | _ => false end = true) by (vm_compute; reflexivity).
  exists ($"9999-12-31T23:59:59-01"). destruct (ParseString _) as [d| |]; [|discriminate H..].
  cbv zeta in H. destruct (d_timestamp (r_lower (e_start d))) as [ts|] eqn:E; [|discriminate H].
  apply andb_true_iff in H. destruct H as (H1 & H2). apply seqb_eq in H2. exists d, (r_lower (e_start d)), ts.
  split; [reflexivity|]. split; [left; reflexivity|]. split; [exact E|]. split; [lia|exact H2].
Qed.
(** Exactly one of open, unknown, dated. *)
Lemma bound_kinds s d : ParseString s = OK d -> forall b, In b (bounds d) ->
  ((d_open b = true /\ d_unknown b = false /\ d_timestamp b = None) \/
   (d_open b = false /\ d_unknown b = true /\ d_timestamp b = None) \/
   (d_open b = false /\ d_unknown b = false /\ d_timestamp b <> None)) /\
  (d_timestamp b = None <-> d_datetime b = []).
Proof.
  intros H b Hb. assert (G : forall t, format_rfc3339 t <> []).
  { intros t E. unfold format_rfc3339 in E. destruct (t_civil t) as ((y & m) & dd). cbv zeta in E. destruct (append_int 4 y); discriminate E. }
  destruct (parsed_bound _ _ _ H Hb) as [(Hf & y & m & dd & hh & mi & ss & Hy & Hr & Hc & ->)|(Hf & i & [| |y m dd hh mi ss u a p Hy Hr Hc _])].
  - remember (instant y m dd hh mi ss) as T. cbn [SetTime d_open d_unknown d_timestamp d_datetime zero_date].
    split; [right; right; repeat split; discriminate|]. split; [discriminate|]. intro E. exfalso. exact (G _ E).
  - split; [left; repeat split|]. split; reflexivity.
  - split; [right; left; repeat split|]. split; reflexivity.
  - cbn [set_inclusivity bound d_open d_unknown d_timestamp d_datetime]. rewrite <- format_instant by assumption.
    remember (instant y m dd hh mi ss) as T.
    split; [right; right; repeat split; discriminate|]. split; [discriminate|]. intro E. exfalso. exact (G _ E).
Qed.
