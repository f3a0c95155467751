(** Parsed dates fit the Go types: C45. *)
From Coq Require Import Ascii String ZArith NArith Bool Lia ZifyBool List.
From Verif Require Import GoStr GoTime Regex Patterns SpecCal SpecText StrFacts TextFacts SpanFacts Edtf Calendar Common CalFacts ApiFacts Level0 Level1 Level2 Parser InvFacts ParseFacts InvProofs Json CommonProofs JsonProofs.
Import ListNotations.
Open Scope Z_scope.

Definition flags_ok (d : date) : Prop :=
  uint32 (d_uncertain d) /\ uint32 (d_approximate d) /\ uint32 (d_unspecified d) /\ uint32 (d_precision d) /\ uint32 (d_inclusivity d).
Definition range_ok (r : daterange) : Prop := flags_ok (r_lower r) /\ flags_ok (r_upper r).
Definition span_ok (sp : datespan) : Prop := range_ok (s_start sp) /\ range_ok (s_end sp).
Lemma uint32_lor a b : uint32 a -> uint32 b -> uint32 (N.lor a b).
Proof.
  unfold uint32. intros Ha Hb. change 4294967296%N with (2 ^ 32)%N in *.
  destruct (N.eq_dec (N.lor a b) 0) as [->|Hn]; [reflexivity|].
  apply N.log2_lt_pow2; [lia|]. rewrite N.log2_lor. apply N.max_lub_lt.
  - destruct (N.eq_dec a 0) as [->|Za]; [reflexivity|apply N.log2_lt_pow2; lia].
  - destruct (N.eq_dec b 0) as [->|Zb]; [reflexivity|apply N.log2_lt_pow2; lia].
Qed.
Definition ua_ok (ua : N * N) : Prop := uint32 (fst ua) /\ uint32 (snd ua).
Lemma apply_q_ok q ty fl ua : uint32 fl -> ua_ok ua -> ua_ok (apply_q q ty fl ua).
Proof.
  intros Hf (H1 & H2). unfold apply_q. destruct q as [q|]; [|split; assumption]. destruct (qtype_eqb _ _); [|split; assumption].
  destruct ua as (u & a). cbn [fst snd] in *. pose proof (uint32_lor u fl H1 Hf). pose proof (uint32_lor a fl H2 Hf).
  destruct (seqb _ UNCERTAIN); [split; assumption|]. destruct (seqb _ APPROXIMATE); [split; assumption|].
  destruct (seqb _ UNCERTAIN_AND_APPROXIMATE); split; assumption.
Qed.
Lemma qualifier_flags_ok a b c : ua_ok (qualifier_flags a b c).
Proof. unfold qualifier_flags. repeat apply apply_q_ok; try reflexivity. split; reflexivity. Qed.
Lemma year_digit_ok s i w fl p x y q : year_digit s i w fl p = OK (x, y, q) -> uint32 fl -> uint32 p -> uint32 q.
Proof.
  unfold year_digit. intros H Hf Hp. apply bind_OK in H. destruct H as (c & _ & H). destruct (seqb c _).
  - injection H as _ _ <-. exact Hp.
  - apply bind_OK in H. destruct H as (v & _ & H). injection H as _ _ <-. exact Hf.
Qed.
Lemma year_range_ok s t x y p : year_range s t = OK (x, y, p) -> uint32 p.
Proof.
  unfold year_range. destruct (negb _); [intro H; injection H as _ _ <-; reflexivity|]. intro H.
  apply bind_OK in H. destruct H as (c & _ & H). destruct (seqb c _); [discriminate|].
  apply bind_OK in H. destruct H as (m & _ & H). apply bind_OK in H. destruct H as (((sc & ec) & p1) & H1 & H).
  apply bind_OK in H. destruct H as (((sd & ed) & p2) & H2 & H). apply bind_OK in H. destruct H as (((sy & ey) & p3) & H3 & H).
  injection H as _ _ <-. eapply year_digit_ok; [exact H3|reflexivity|]. eapply year_digit_ok; [exact H2|reflexivity|].
  eapply year_digit_ok; [exact H1|reflexivity|reflexivity].
Qed.
Lemma string_range_ok s sr : StringRangeFromYMD s = OK sr -> uint32 (sr_precision sr) /\ uint32 (sr_uncertain sr) /\ uint32 (sr_approximate sr).
Proof.
  unfold StringRangeFromYMD. destruct (negb _); [discriminate|]. intro H.
  apply bind_OK in H. destruct H as ((yc & yq) & _ & H). apply bind_OK in H. destruct H as ((mc & mq) & _ & H).
  apply bind_OK in H. destruct H as ((dc & dq) & _ & H). pose proof (qualifier_flags_ok yq mq dq) as (Hu & Ha).
  destruct (qualifier_flags yq mq dq) as (u & a). cbn [fst snd] in *.
  apply bind_OK in H. destruct H as (((ys & ye) & p) & Hy & H). apply year_range_ok in Hy.
  destruct (month_range mc p) as ((ms & me) & pm) eqn:Em.
  assert (Hm : uint32 pm).
  { unfold month_range in Em. destruct (negb (has_suffix _ _)); [|destruct (has_prefix _ _)]; injection Em as _ _ <-; [|exact Hy|reflexivity].
    destruct (negb _ && _); [reflexivity|exact Hy]. }
  apply bind_OK in H. destruct H as (((ds & de) & pd) & Hd & H).
  assert (Hp : uint32 pd).
  { unfold day_range in Hd. destruct (negb (has_suffix _ _)).
    - injection Hd as _ _ <-. destruct (negb _ && _); [reflexivity|exact Hm].
    - apply bind_OK in Hd. destruct Hd as (c & _ & Hd).
      repeat match type of Hd with (if ?b then _ else _) = _ => destruct b end; try discriminate Hd; injection Hd as _ _ <-; exact Hm. }
  apply bind_OK in H. destruct H as (ed & _ & H). injection H as <-. cbn [sr_precision sr_uncertain sr_approximate].
  split; [|auto]. destruct (seqb dc _ && _); [reflexivity|]. destruct (seqb dc _); [reflexivity|exact Hp].
Qed.
Lemma ymd_span_ok s sp : dateSpanFromYMD s = OK sp -> span_ok sp.
Proof.
  unfold dateSpanFromYMD. intro H. apply bind_OK in H. destruct H as (sr & Hs & H). apply string_range_ok in Hs. destruct Hs as (H1 & H2 & H3).
  apply bind_OK in H. destruct H as (a & _ & H). apply bind_OK in H. destruct H as (b & _ & H).
  apply bind_OK in H. destruct H as ((((sl & su) & el) & eu) & _ & H). injection H as <-.
  repeat split; assumption || reflexivity.
Qed.
Lemma edtf_span_ok s sp : dateSpanFromEDTF s = OK sp -> span_ok sp.
Proof.
  unfold dateSpanFromEDTF. destruct (seqb s UNKNOWN); [intro H; injection H as <-; repeat split|].
  destruct (seqb s OPEN); [intro H; injection H as <-; repeat split|]. apply ymd_span_ok.
Qed.
Lemma DateSpan_ok s sp : DateSpanFromEDTF s = OK sp -> span_ok sp.
Proof.
  unfold DateSpanFromEDTF. destruct (split s _) as [|l [|r [|]]]; try discriminate; [apply ymd_span_ok|]. intro H.
  apply bind_OK in H. destruct H as (a & Ha & H). apply bind_OK in H. destruct H as (b & Hb & H). injection H as <-.
  apply edtf_span_ok in Ha, Hb. destruct Ha as ((A1 & A2) & A3 & A4), Hb as ((B1 & B2) & B3 & B4). split; split; assumption.
Qed.
Lemma open_ok : range_ok OpenDateRange.
Proof. repeat split. Qed.
Lemma incl_ok r i : range_ok r -> uint32 i -> range_ok (mkRange (r_edtf r) (set_inclusivity (r_lower r) i) (set_inclusivity (r_upper r) i)).
Proof. intros ((A1 & A2 & A3 & A4 & A5) & (B1 & B2 & B3 & B4 & B5)) Hi. repeat split; assumption. Qed.
Lemma set_ok s d : ParseSetRepresentations s = OK d -> range_ok (e_start d) /\ range_ok (e_end d) /\ e_level d = 2.
Proof.
  unfold ParseSetRepresentations. destruct (negb _); [discriminate|]. cbv zeta. intro H.
  apply bind_OK in H. destruct H as (i & Hi & H). apply bind_OK in H. destruct H as (((l & so) & eo) & _ & H).
  assert (Ui : uint32 i).
  { destruct (seqb _ _); [injection Hi as <-; reflexivity|]. destruct (seqb _ _); [injection Hi as <-; reflexivity|discriminate]. }
  destruct (sort_strs l) as [|x t]; [discriminate|]. apply bind_OK in H. destruct H as (sp & Hs & H). injection H as <-.
  apply DateSpan_ok in Hs. destruct Hs as (S1 & S2). cbn [e_start e_end edtf_of_span s_start s_end e_level].
  set (o := (so || eo) && _). clearbody o.
  pose proof open_ok as OO. destruct S1 as (A1 & A2), S2 as (B1 & B2).
  assert (R : forall x lo up, flags_ok lo -> flags_ok up -> range_ok (mkRange x lo up)) by (intros; split; assumption).
  assert (R1 : range_ok (s_start sp)) by (split; assumption). assert (R2 : range_ok (s_end sp)) by (split; assumption).
  destruct o, so, eo; cbn [andb]; (split; [|split; [|reflexivity]]);
    repeat first [assumption | apply incl_ok; [|exact Ui] | apply R]; cbn [s_start s_end r_lower r_upper]; try assumption; try apply OO.
Qed.
Lemma parsed_flags s d : ParseString s = OK d -> range_ok (e_start d) /\ range_ok (e_end d) /\ -1 <= e_level d <= 2.
Proof.
  intro H. apply parse_parsed in H.
  destruct H as [d Hm H|lv f r sp Hin Hm H|d H|d H|d H|d H|d H|d H|H|H].
  - apply TimeFacts.datetime_inv in H. destruct H as (y & m & dd & hh & mi & ss & _ & _ & _ & E). cbv zeta in E. subst d.
    cbn [e_start e_end e_level]. split; [repeat split|]. split; [repeat split|lia].
  - apply DateSpan_ok in H. destruct H as (H1 & H2). split; [exact H1|]. split; [exact H2|]. cbn [edtf_of_span e_level].
    unfold self_features in Hin. cbn [In] in Hin. decompose [or] Hin; try contradiction;
    match goal with E : (_, _, _) = _ |- _ => injection E as <- _ _ end; unfold LEVEL0, LEVEL1, LEVEL2; lia.
  - destruct (letter_inv _ _ H) as (sp & _ & Hsp & ->). apply DateSpan_ok in Hsp. destruct Hsp. repeat split; try apply H0; try apply H1; discriminate.
  - destruct (season_inv _ _ H) as (a & b & c & e & dd & sp & Hq). cbv zeta in Hq. destruct Hq as (_ & _ & _ & Hsp & ->).
    apply DateSpan_ok in Hsp. destruct Hsp. repeat split; try apply H0; try apply H1; discriminate.
  - destruct (exponential_inv _ _ H) as (y & sp & _ & _ & Hsp & ->). apply DateSpan_ok in Hsp. destruct Hsp. repeat split; try apply H0; try apply H1; discriminate.
  - destruct (significant_inv _ _ H) as (y & n & sp & Hq). cbv zeta in Hq. destruct Hq as (_ & _ & _ & _ & _ & _ & Hsp & ->).
    apply DateSpan_ok in Hsp. destruct Hsp. repeat split; try apply H0; try apply H1; discriminate.
  - destruct (grouping_inv _ _ H) as (a & b & c & e & nx & ey & sp & Hq). cbv zeta in Hq. destruct Hq as (_ & _ & _ & Hsp & ->).
    apply DateSpan_ok in Hsp. destruct Hsp. repeat split; try apply H0; try apply H1; discriminate.
  - apply set_ok in H. destruct H as (H1 & H2 & ->). split; [exact H1|]. split; [exact H2|lia].
  - repeat split; discriminate.
  - repeat split; discriminate.
Qed.
Lemma small_int64 z : -1000000000000 <= z <= 1000000000000 -> int64 z.
Proof. unfold int64. change min_int64 with (-9223372036854775808). change max_int64 with 9223372036854775807. lia. Qed.
Lemma month_len_31 y m : month_len y m <= 31.
Proof. unfold month_len. repeat match goal with |- context [if ?b then _ else _] => destruct b end; lia. Qed.
Lemma instant_int64 y m d hh mi ss : real_date y m d -> clock hh mi ss -> -10000 <= y <= 10000 -> int64 (instant y m d hh mi ss).
Proof.
  intros Hr Hc Hy. apply small_int64.
  assert (R1 : real_date (-10001) 1 1) by (vm_compute; repeat split; discriminate).
  assert (R2 : real_date 10001 1 1) by (vm_compute; repeat split; discriminate).
  assert (C0 : clock 0 0 0) by (unfold clock; lia).
  assert (instant (-10001) 1 1 0 0 0 <= instant y m d hh mi ss).
  { apply instant_le; try assumption; [left; lia|intros; lia]. }
  assert (instant y m d hh mi ss <= instant 10001 1 1 0 0 0).
  { apply instant_le; try assumption; [left; lia|intros; lia]. }
  assert (E1 : instant (-10001) 1 1 0 0 0 = -377768275200) by (vm_compute; reflexivity).
  assert (E2 : instant 10001 1 1 0 0 0 = 253433923200) by (vm_compute; reflexivity). lia.
Qed.
Lemma bound_typed s d b : ParseString s = OK d -> In b (bounds d) -> flags_ok b -> typed_date b.
Proof.
  intros H Hb (F1 & F2 & F3 & F4 & F5).
  destruct (parsed_bound _ _ _ H Hb) as [(_ & y & m & dd & hh & mi & ss & Hy & Hr & Hc & ->)|(_ & i & G)];
    [|inversion G as [E|E|y m dd hh mi ss u a p Hy Hr Hc _ E]; subst b; clear G]; constructor; try assumption; cbn [SetTime d_timestamp d_ymd zero_date set_inclusivity open_bound unknown_bound set_open set_unknown bound]; try discriminate.
  - intros t Et. injection Et as <-. exact (instant_int64 _ _ _ _ _ _ Hr Hc Hy).
  - intros t Et. injection Et as <-. apply (instant_int64 _ _ _ _ _ _ Hr Hc). lia.
  - intros v Ev. injection Ev as <-. cbn [y_year y_month y_day]. destruct Hr as (Hm & Hd). pose proof (month_len_31 y m).
    repeat split; apply small_int64; lia.
Qed.
Theorem parsed_typed s d : ParseString s = OK d -> typed d.
Proof.
  intro H. destruct (parsed_flags _ _ H) as ((H1 & H2) & (H3 & H4) & Hl). unfold typed.
  split; [|split; [|split; [|split]]]; try (eapply bound_typed; [exact H| |assumption]; unfold bounds; cbn [In]; auto).
  apply small_int64. lia.
Qed.
Theorem parsed_roundtrip s d : ParseString s = OK d -> dec_edtf (enc_edtf d) = OK d.
Proof. intro H. apply json_roundtrip. exact (parsed_typed _ _ H). Qed.
