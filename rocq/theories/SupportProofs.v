(** Proofs of the properties of PropTools.v: the test support, the texts meant for
    people, and the matches tool. *)
From Coq Require Import Ascii String ZArith NArith Bool Lia ZifyBool List.
From Verif Require Import GoStr GoTime SpecCal SpecText StrFacts TextFacts Edtf Calendar Common Level0 Level1 Level2 Parser Json ErrText Cmd Debug Support SpecTools CalFacts ApiFacts ApiProofs TimeFacts CommonProofs InvProofs Level0Facts.
Import ListNotations.
Open Scope Z_scope.

(** ** TestDate *)
Lemma all_four_ok f d o (P : date -> expected -> Prop) :
  (forall b x, In b (bounds d) -> (f b x = OK tt <-> P b x)) ->
  (all_four f d o = OK tt <-> Forall2 P (bounds d) [o_start_lower o; o_start_upper o; o_end_lower o; o_end_upper o]).
Proof.
  intro H. unfold all_four, bounds in *. split.
  - intro E. apply bind_OK in E. destruct E as ([] & E1 & E). apply bind_OK in E. destruct E as ([] & E2 & E).
    apply bind_OK in E. destruct E as ([] & E3 & E4). repeat constructor; apply H; cbn [In]; auto.
  - intro E. inversion E as [|? ? ? ? E1 F]; subst. inversion F as [|? ? ? ? E2 F2]; subst. inversion F2 as [|? ? ? ? E3 F3]; subst.
    inversion F3 as [|? ? ? ? E4 _]; subst. apply H in E1, E2, E3, E4; cbn [In]; auto. rewrite E1, E2, E3. exact E4.
Qed.
Lemma boolean_ok a b : testBoolean a b = OK tt <-> a = b.
Proof. unfold testBoolean. destruct a, b; cbn; split; congruence. Qed.
Lemma precision_ok f w : testPrecision f w = OK tt <-> w = 0%N \/ exists i, N.testbit f i = true /\ N.testbit w i = true.
Proof.
  unfold testPrecision, NONE. rewrite <- HasFlag_bit. destruct (N.eqb w 0) eqn:E; [apply N.eqb_eq in E; tauto|].
  apply N.eqb_neq in E. destruct (HasFlag f w); cbn [negb]; split; try tauto; try discriminate. intros [?|?]; [contradiction|discriminate].
Qed.
Lemma unix_ok w t : testUnix w t = OK tt <-> t = Some w.
Proof.
  unfold testUnix. destruct t as [t|]; [|split; discriminate]. destruct (t =? w) eqn:E; cbn [negb]; split; intro H; try discriminate H; try reflexivity.
  - f_equal. lia.
  - injection H as ->. lia.
Qed.
Lemma rfc_ok s d b w : ParseString s = OK d -> In b (bounds d) -> w <> [] ->
  (testRFC3339 w (d_timestamp b) = OK tt <-> d_datetime b = w).
Proof.
  intros H Hb Hw. unfold testRFC3339. destruct (bound_kinds _ _ H _ Hb) as (_ & K).
  destruct (d_timestamp b) as [t|] eqn:E.
  - destruct (bounds_agree _ _ H _ _ Hb E) as (y & m & dd & hh & mi & ss & Hr & Hc & Hy & -> & Hd & _).
    unfold ts_time. rewrite (format_wide _ _ _ _ _ _ Hy Hr Hc), <- Hd. destruct (seqb (d_datetime b) w) eqn:F; cbn [negb].
    + apply seqb_eq in F. tauto.
    + apply seqb_neq in F. split; [discriminate|contradiction].
  - split; [discriminate|]. intro F. exfalso. apply Hw. rewrite <- F. apply K. reflexivity.
Qed.
Lemma Forall2_and {A B} (P Q : A -> B -> Prop) l : forall k, Forall2 (fun a b => P a b /\ Q a b) l k <-> Forall2 P l k /\ Forall2 Q l k.
Proof.
  induction l as [|a l IH]; intros [|b k]; split; intro H.
  - split; constructor.
  - constructor.
  - inversion H.
  - destruct H as (H & _). inversion H.
  - inversion H.
  - destruct H as (H & _). inversion H.
  - inversion H as [|? ? ? ? (H1 & H2) F]; subst. apply IH in F. destruct F. split; constructor; assumption.
  - destruct H as (H & G). inversion H; inversion G; subst. constructor; [tauto|]. apply IH. tauto.
Qed.
Theorem test_date s d o : ParseString s = OK d ->
  (TestDate o d = OK tt <-> Forall2 meets (bounds d) [o_start_lower o; o_start_upper o; o_end_lower o; o_end_upper o]).
Proof.
  intro H. unfold meets. rewrite !Forall2_and.
  rewrite <- (all_four_ok (fun b x => if seqb (x_rfc3339 x) [] then OK tt else testRFC3339 (x_rfc3339 x) (d_timestamp b)) d o).
  2:{ intros b x Hb. destruct (seqb (x_rfc3339 x) []) eqn:E; [apply seqb_eq in E; tauto|]. apply seqb_neq in E.
      rewrite (rfc_ok _ _ _ _ H Hb E). tauto. }
  rewrite <- (all_four_ok (fun b x => if x_unix x =? 0 then OK tt else testUnix (x_unix x) (d_timestamp b)) d o).
  2:{ intros b x Hb. destruct (x_unix x =? 0) eqn:E; [assert (x_unix x = 0) by lia; tauto|]. rewrite unix_ok. split; [tauto|]. intros [F|F]; [lia|exact F]. }
  rewrite <- (all_four_ok (fun b x => testPrecision (d_precision b) (x_precision x)) d o) by (intros; apply precision_ok).
  rewrite <- (all_four_ok (fun b x => testPrecision (d_uncertain b) (x_uncertain x)) d o) by (intros; apply precision_ok).
  rewrite <- (all_four_ok (fun b x => testPrecision (d_approximate b) (x_approximate x)) d o) by (intros; apply precision_ok).
  rewrite <- (all_four_ok (fun b x => testBoolean (d_open b) (x_open x)) d o) by (intros; apply boolean_ok).
  rewrite <- (all_four_ok (fun b x => testBoolean (d_unknown b) (x_unknown x)) d o) by (intros; apply boolean_ok).
  rewrite <- (all_four_ok (fun b x => testPrecision (d_inclusivity b) (x_inclusivity x)) d o) by (intros; apply precision_ok).
  unfold TestDate, testRFC3339All, testUnixAll, testPrecisionAll, testUncertainAll, testApproximateAll, testIsOpenAll, testIsUnknownAll, testInclusivityAll.
  repeat match goal with |- context [bind (all_four ?f d o) ?k] => destruct (all_four f d o) as [[]|?|] eqn:?; cbn [bind] end;
    split; try (intros; repeat split; assumption); try (intro Q; discriminate Q); intro Q; decompose [and] Q; try discriminate; assumption.
Qed.

Definition nothing : expected := mkExp [] 0 0 0 0 false false 0.
Lemma flags_unchecked : exists s d o, ParseString s = OK d /\ TestDate o d = OK tt /\
  ~ has_flags (x_precision (o_start_lower o)) (d_precision (r_lower (e_start d))).
Proof.
  exists ($"1985"), (match ParseString ($"1985") with OK d => d | _ => mkEDTF OpenDateRange OpenDateRange [] 0 [] end),
    (mkOptions (mkExp [] 0 0 0 (N.lor YEAR MONTH) false false 0) nothing nothing nothing).
  split; [vm_compute; reflexivity|]. split; [vm_compute; reflexivity|]. intro H. specialize (H (N.log2 MONTH)). vm_compute in H.
  discriminate (H eq_refl).
Qed.
Lemma epoch_unchecked : exists s d o, ParseString s = OK d /\ TestDate o d = OK tt /\
  x_unix (o_start_lower o) = 0 /\ d_timestamp (r_lower (e_start d)) <> Some 0.
Proof.
  exists ($"1985"), (match ParseString ($"1985") with OK d => d | _ => mkEDTF OpenDateRange OpenDateRange [] 0 [] end), (mkOptions nothing nothing nothing nothing).
  vm_compute. repeat split. discriminate.
Qed.

(** ** Matches tool *)
Lemma level_digit s d : ParseString s = OK d -> s <> $".." -> s <> [] ->
  Matches s = OK (e_level d, e_feature d) /\ itoa (e_level d) = [digit_char (e_level d)].
Proof.
  intros H N1 N2. destruct (parse_class _ _ H) as (_ & _ & M & _). specialize (M N1 N2). split; [exact M|].
  unfold Matches in M. assert (C : e_level d = 0 \/ e_level d = 1 \/ e_level d = 2).
  { destruct (IsLevel0 s); [|destruct (IsLevel1 s); [|destruct (IsLevel2 s); [|discriminate M]]];
      apply bind_OK in M; destruct M as (f & _ & M); injection M as M _; rewrite <- M; auto. }
  destruct C as [-> | [-> | ->]]; reflexivity.
Qed.
Lemma matches_lines args : forall ds, Forall2 (fun a d => ParseString a = OK d /\ a <> $".." /\ a <> []) args ds -> forall rest,
  cmd_matches (args ++ rest) =
  let '(out, e) := cmd_matches rest in (concat (map (fun d => match_line (e_edtf d) (e_level d) (e_feature d)) ds) ++ out, e).
Proof.
  intros ds H rest. induction H as [|a d args ds (Ha & N1 & N2) H IH].
  - cbn [app map concat]. destruct (cmd_matches rest). reflexivity.
  - cbn [app cmd_matches map concat]. destruct (level_digit _ _ Ha N1 N2) as (M & L). rewrite M, IH.
    destruct (parse_class _ _ Ha) as (E & _).
    destruct (cmd_matches rest) as (out & e). unfold match_line. rewrite E, L, <- !app_assoc. reflexivity.
Qed.
Theorem matches_all args ds : Forall2 (fun a d => ParseString a = OK d /\ a <> $".." /\ a <> []) args ds ->
  cmd_matches args = (concat (map (fun d => match_line (e_edtf d) (e_level d) (e_feature d)) ds), Done).
Proof.
  intro H. pose proof (matches_lines _ _ H []) as Q. rewrite app_nil_r in Q. rewrite Q. cbn. rewrite app_nil_r. reflexivity.
Qed.
Lemma no_match bad : IsValid bad = false \/ bad = $".." \/ bad = [] -> Matches bad = Err (EUnrecognized ($"Invalid or unsupported EDTF string") bad).
Proof.
  intros [H|[-> | ->]]; [|vm_compute; reflexivity..]. unfold IsValid in H. unfold Matches.
  destruct (IsLevel0 bad); [discriminate|]. destruct (IsLevel1 bad); [discriminate|]. destruct (IsLevel2 bad); [discriminate|]. reflexivity.
Qed.
Theorem matches_stop args ds bad rest : Forall2 (fun a d => ParseString a = OK d /\ a <> $".." /\ a <> []) args ds ->
  IsValid bad = false \/ bad = $".." \/ bad = [] ->
  cmd_matches (args ++ bad :: rest) = (concat (map (fun d => match_line (e_edtf d) (e_level d) (e_feature d)) ds),
    Fatal ($"Failed to parse EDTF string '" ++ bad ++ $"', Unrecognized EDTF string '" ++ bad ++ $"' (Invalid or unsupported EDTF string)")).
Proof.
  intros H Hb. rewrite (matches_lines _ _ H). cbn [cmd_matches]. rewrite (no_match _ Hb), app_nil_r. reflexivity.
Qed.

(** ** Texts *)
Lemma text_unrecognized s : IsValid s = false -> exists e, ParseString s = Err e /\
  error_text e = $"Unrecognized EDTF string '" ++ s ++ $"' (Invalid or unsupported EDTF string)".
Proof.
  unfold ParseString, IsValid. intro H.
  destruct (IsLevel0 s); [discriminate|]. destruct (IsLevel1 s); [discriminate|]. destruct (IsLevel2 s); [discriminate|].
  apply orb_false_iff in H. destruct H as (-> & ->). eexists. split; [reflexivity|]. reflexivity.
Qed.
Lemma app_length_inv (a b c d : str) : length a = length c -> a ++ b = c ++ d -> a = c /\ b = d.
Proof. revert c. induction a as [|x a IH]; intros [|y c] L E; try discriminate L; [auto|]. injection E as -> E. injection L as L. destruct (IH _ L E) as (-> & ->). auto. Qed.
Lemma app_tail_inv (a b c d : str) : length b = length d -> a ++ b = c ++ d -> a = c /\ b = d.
Proof.
  intros L E. assert (length a = length c) by (apply (f_equal (@length ascii)) in E; rewrite !app_length in E; lia). apply app_length_inv; assumption.
Qed.
Lemma text_ambiguous : exists l s l' s', s <> s' /\ error_text (Invalid l s) = error_text (Invalid l' s').
Proof. exists ($"b' (c"), ($"a"), ($"c"), ($"a' (b"). split; [discriminate|reflexivity]. Qed.

(** Texts between quotes. *)
Lemma quoted a b c d : ~ In "'"%char a -> ~ In "'"%char c -> a ++ $"'" ++ b = c ++ $"'" ++ d -> a = c /\ b = d.
Proof. intros Ha Hc E. exact (split_once a b c d "'"%char Ha Hc E). Qed.
Lemma itoa_int n : integer_text (itoa n) n.
Proof.
  destruct (itoa_canonical n) as [(_ & D & _)|(L & t & -> & D & _)]; [apply it_plain; exact D|].
  pose proof (it_minus _ _ D) as Q. rewrite Z.opp_involutive in Q. exact Q.
Qed.
Lemma itoa_no_quote n : ~ In "'"%char (itoa n).
Proof. intro H. destruct (integer_bytes _ _ _ (itoa_int n) H) as [Q|[Q|Q]]; discriminate Q. Qed.
Lemma itoa_inj a b : itoa a = itoa b -> a = b.
Proof. intro E. pose proof (itoa_int a) as Ta. rewrite E in Ta. exact (integer_text_inj _ _ _ Ta (itoa_int b)). Qed.
Theorem ymd_equals_spec a b : ymd_equals a b = true <-> a = b.
Proof.
  destruct a as [y m d], b as [y' m' d']. unfold ymd_equals. cbn [y_year y_month y_day].
  destruct (y =? y') eqn:E1; cbn [negb]; [|split; [discriminate|intro H; injection H; lia]].
  destruct (m =? m') eqn:E2; cbn [negb]; [|split; [discriminate|intro H; injection H; lia]].
  destruct (d =? d') eqn:E3; cbn [negb]; [|split; [discriminate|intro H; injection H; lia]].
  split; [|reflexivity]. intros _. f_equal; lia.
Qed.
(** Each text is followed by something that tells where it ends. *)
Lemma ymd_string_pre a b r r' : YMD_String a ++ r = YMD_String b ++ r' -> a = b /\ r = r'.
Proof.
  destruct a as [y m d], b as [y' m' d']. unfold YMD_String. cbn [y_year y_month y_day]. rewrite <- !app_assoc. intro E.
  apply app_inv_head in E. change (itoa y ++ $"'" ++ $" M: '" ++ itoa m ++ $"'" ++ $" D: '" ++ itoa d ++ $"'" ++ r =
    itoa y' ++ $"'" ++ $" M: '" ++ itoa m' ++ $"'" ++ $" D: '" ++ itoa d' ++ $"'" ++ r') in E.
  apply quoted in E; try apply itoa_no_quote. destruct E as (E1 & E). apply app_inv_head in E.
  apply quoted in E; try apply itoa_no_quote. destruct E as (E2 & E). apply app_inv_head in E.
  apply quoted in E; try apply itoa_no_quote. destruct E as (E3 & E).
  apply itoa_inj in E1, E2, E3. split; congruence.
Qed.
Theorem ymd_string_inj a b : YMD_String a = YMD_String b -> a = b.
Proof. intro E. apply (ymd_string_pre a b [] []). rewrite !app_nil_r. exact E. Qed.
Lemma timestamp_v_no_quote t : ~ In "'"%char (timestamp_v t).
Proof.
  destruct t as [t|]; cbn [timestamp_v].
  - rewrite !in_app_iff. intros [H|[H|H]]; [|exact (itoa_no_quote _ H)|]; cbn in H; intuition discriminate.
  - cbn. intuition discriminate.
Qed.
Lemma timestamp_v_inj a b : timestamp_v a = timestamp_v b -> a = b.
Proof.
  destruct a as [a|], b as [b|]; cbn [timestamp_v]; intro H; try reflexivity; try discriminate H.
  apply app_inv_head in H. apply app_tail_inv in H; [|reflexivity]. destruct H as (H & _). apply itoa_inj in H. congruence.
Qed.
Lemma ymd_v_pre a b r r' : ymd_v a ++ r = ymd_v b ++ r' -> a = b /\ r = r'.
Proof.
  destruct a as [a|], b as [b|]; cbn [ymd_v]; intro H; try (exfalso; cbn in H; discriminate H).
  - apply ymd_string_pre in H. destruct H as (-> & ->). auto.
  - apply app_inv_head in H. auto.
Qed.
Lemma date_string_pre a b r r' : Date_String a ++ r = Date_String b ++ r' ->
  (d_timestamp a = d_timestamp b /\ d_ymd a = d_ymd b) /\ r = r'.
Proof.
  unfold Date_String. rewrite <- !app_assoc. intro E. apply app_inv_head in E.
  change (timestamp_v (d_timestamp a) ++ $"'" ++ $" YMD: '" ++ ymd_v (d_ymd a) ++ $"']" ++ r =
          timestamp_v (d_timestamp b) ++ $"'" ++ $" YMD: '" ++ ymd_v (d_ymd b) ++ $"']" ++ r') in E.
  apply quoted in E; try apply timestamp_v_no_quote. destruct E as (E1 & E). apply app_inv_head in E.
  apply ymd_v_pre in E. destruct E as (E2 & E). apply app_inv_head in E.
  split; [split; [apply timestamp_v_inj|]|]; assumption.
Qed.
Theorem date_string_inj a b : Date_String a = Date_String b -> d_timestamp a = d_timestamp b /\ d_ymd a = d_ymd b.
Proof. intro E. apply (date_string_pre a b [] []). rewrite !app_nil_r. exact E. Qed.
Lemma date_string_ext a b : d_timestamp a = d_timestamp b /\ d_ymd a = d_ymd b -> Date_String a = Date_String b.
Proof. unfold Date_String. intros (-> & ->). reflexivity. Qed.
Lemma range_string_pre a b r r' : Range_String a ++ r = Range_String b ++ r' ->
  (Date_String (r_lower a) = Date_String (r_lower b) /\ Date_String (r_upper a) = Date_String (r_upper b)) /\ r = r'.
Proof.
  unfold Range_String. rewrite <- !app_assoc. intro E. apply app_inv_head in E. apply date_string_pre in E. destruct E as (E1 & E).
  apply app_inv_head in E. apply date_string_pre in E. destruct E as (E2 & E). apply app_inv_head in E.
  split; [split; apply date_string_ext|]; assumption.
Qed.
Theorem range_string_inj a b : Range_String a = Range_String b ->
  Date_String (r_lower a) = Date_String (r_lower b) /\ Date_String (r_upper a) = Date_String (r_upper b).
Proof. intro E. apply (range_string_pre a b [] []). rewrite !app_nil_r. exact E. Qed.
Lemma range_string_ext a b : Date_String (r_lower a) = Date_String (r_lower b) /\ Date_String (r_upper a) = Date_String (r_upper b) ->
  Range_String a = Range_String b.
Proof. unfold Range_String. intros (-> & ->). reflexivity. Qed.
Theorem span_string_inj a b : Span_String a = Span_String b ->
  Range_String (s_start a) = Range_String (s_start b) /\ Range_String (s_end a) = Range_String (s_end b).
Proof.
  unfold Span_String. intro E. apply app_inv_head in E. apply range_string_pre in E. destruct E as (E1 & E).
  apply app_inv_head in E. apply range_string_pre in E. destruct E as (E2 & _). split; apply range_string_ext; assumption.
Qed.
