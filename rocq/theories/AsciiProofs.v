(** The strings inside a parsed date are ASCII, and its text is UTF-8: lemmas for C76. *)
From Coq Require Import Ascii String ZArith NArith Bool Lia ZifyBool List.
From Verif Require Import GoStr GoTime Regex Patterns SpecCal SpecText SpecZone SpecGrammar SpecForms SpecSpan SpecSet SpecWrap SpecReads SpecWhole StrFacts TextFacts
  Edtf Calendar Common Level0 Level1 Level2 Parser CalFacts ApiFacts SpanFacts TimeFacts InvFacts InvProofs WholeProofs Json JsonText CommonProofs JsonProofs TypedProofs SpecJson SpecJsonText JsonTextProofs Utf8Proofs
  JsonDoc Unmarshal SpecUnmarshal DocProofs UnmarshalProofs RoundProofs.
Import ListNotations.
Open Scope Z_scope.
Ltac Zify.zify_post_hook ::= Z.div_mod_to_equations.

Lemma low_app a b : low a -> low b -> low (a ++ b).
Proof. intros A B. apply Forall_app. split; assumption. Qed.
Lemma low_digit n : 0 <= n <= 9 -> code (digit_char n) < 128.
Proof. intro H. rewrite code_digit_char by exact H. lia. Qed.
Lemma low_is_digit c : is_digit c = true -> code c < 128.
Proof. unfold is_digit. lia. Qed.
Lemma low_two n : 0 <= n <= 99 -> low (two n).
Proof. intro H. unfold two. repeat (constructor; [apply low_digit; lia|]). constructor. Qed.
Lemma low_four n : 0 <= n <= 9999 -> low (four n).
Proof. intro H. unfold four. repeat (constructor; [apply low_digit; lia|]). constructor. Qed.
Lemma low_five n : 0 <= n <= 99999 -> low (five n).
Proof. intro H. unfold five. repeat (constructor; [apply low_digit; lia|]). constructor. Qed.
Lemma low_wide y m d hh mi ss : -10000 <= y <= 10000 -> real_date y m d -> clock hh mi ss -> low (wide_utc_text y m d hh mi ss).
Proof.
  intros Y (M & D) C. pose proof (month_len_31 y m). unfold clock in C. unfold wide_utc_text, clock_text.
  repeat apply low_app; try (apply low_two; lia); try (repeat constructor; reflexivity).
  unfold wide_year_text, year_text. destruct ((-9999 <=? y) && (y <=? 9999)) eqn:E; destruct (y <? 0) eqn:F; try (constructor; [reflexivity|]); first [apply low_four; lia|apply low_five; lia].
Qed.
Lemma low_marks c t w : marks c t w -> low c -> low t.
Proof.
  assert (M : forall q, a_mark q -> code q < 128) by (intros q [->|[->| ->]]; reflexivity).
  intros [|q A|q A] L; [exact L|constructor; [exact (M q A)|exact L]|]. apply low_app; [exact L|]. constructor; [exact (M q A)|constructor].
Qed.
Lemma low_dx c : d_or_x c -> code c < 128.
Proof. intros [H| ->]; [exact (low_is_digit c H)|reflexivity]. Qed.
Lemma low_year c y y' : year_reads c y y' -> low c.
Proof.
  intros [t y0 [n N|n N]|a b d A B C]; [apply low_four; exact N|constructor; [reflexivity|apply low_four; exact N]|].
  constructor; [exact (low_is_digit _ A)|]. constructor; [exact (low_dx _ B)|]. constructor; [exact (low_dx _ C)|]. constructor; [reflexivity|constructor].
Qed.
Lemma low_month c m m' : month_reads c m m' -> low c.
Proof. intros [n N| |a [->| ->]]; [apply low_two; lia|repeat constructor; reflexivity..]. Qed.
Lemma low_day n n' c d d' : day_reads n n' c d d' -> low c.
Proof. intros [k K| | | | |]; [apply low_two; lia|repeat constructor; reflexivity..]. Qed.
Lemma low_date s y m d y' m' d' u a p : date_whole s y m d y' m' d' u a p -> low s.
Proof.
  intros [yt yc yw y0 y0' Y R|yt yc yw y0 y0' mt mc mw m0 m0' Y R M Q|yt yc yw y0 y0' mt mc mw m0 m0' dt dc dw d0 d0' Y R M Q D S].
  - exact (low_marks _ _ _ Y (low_year _ _ _ R)).
  - apply low_app; [exact (low_marks _ _ _ Y (low_year _ _ _ R))|]. constructor; [reflexivity|]. exact (low_marks _ _ _ M (low_month _ _ _ Q)).
  - apply low_app; [exact (low_marks _ _ _ Y (low_year _ _ _ R))|]. constructor; [reflexivity|]. apply low_app; [exact (low_marks _ _ _ M (low_month _ _ _ Q))|].
    constructor; [reflexivity|]. exact (low_marks _ _ _ D (low_day _ _ _ _ _ S)).
Qed.
Lemma low_side s lo hi : side s lo hi -> low s.
Proof. intros [| |t y m d y' m' d' u a p D _ _]; [constructor|repeat constructor; reflexivity|exact (low_date _ _ _ _ _ _ _ _ _ _ D)]. Qed.
Definition low_span (sp : datespan) : Prop := low (r_edtf (s_start sp)) /\ low (r_edtf (s_end sp)).
Lemma low_date_span s sp : date_span s sp -> low_span sp.
Proof. intros [y m d u a p D _|y m d y' m' d' u a p D _ _ _]; split; exact (low_date _ _ _ _ _ _ _ _ _ _ D). Qed.
Lemma low_whole s sp : whole_span s sp -> low_span sp.
Proof. intros [t sp0 D|a b lo x x' hi A B]; [exact (low_date_span _ _ D)|]. split; [exact (low_side _ _ _ A)|exact (low_side _ _ _ B)]. Qed.
Lemma low_dots : low ($"..").
Proof. repeat constructor; reflexivity. Qed.
Lemma low_set i a b multi so eo sp : set_whole i a b multi so eo sp -> low_span sp.
Proof.
  intros [mu sp0 _ D|mu lo x x' hi _ A B|lo hi A|lo hi A|lo x x' hi A B|lo x x' hi A B|lo x x' hi A B]; try exact (low_date_span _ _ D); split; cbn [s_start s_end counted r_edtf];
    first [exact (low_side _ _ _ A)|exact (low_side _ _ _ B)|exact low_dots|constructor].
Qed.
Lemma low_reads f s sp : whole_reads f s sp -> low_span sp.
Proof. intro H. destruct H; try (eapply low_whole; eassumption); [split; constructor|]. eapply low_set. eassumption. Qed.
Lemma low_first s l f : first_of s l f -> Forall (fun x => low (fst x)) l -> low f.
Proof. intro H. induction H as [f P l H|g P l f H F IH]; intro L; inversion L; subst; [assumption|auto]. Qed.
Lemma low_takes s lv f : takes s lv f -> low f.
Proof. intros [g F|g _ _ F|g _ _ F]; apply (low_first _ _ _ F); repeat (constructor; [cbn [fst]; repeat constructor; reflexivity|]); constructor. Qed.
Theorem parsed_ascii s d : ParseString s = OK d ->
  low (r_edtf (e_start d)) /\ low (r_edtf (e_end d)) /\ low (e_feature d) /\ forall b, In b (bounds d) -> low (d_datetime b).
Proof.
  intro H. assert (B : forall b, In b (bounds d) -> low (d_datetime b)).
  { intros b Hb. destruct (parsed_bound _ _ _ H Hb) as [(_ & y & m & dd & hh & mi & ss & Hy & Hr & Hc & ->)|(_ & i & [| |y m dd hh mi ss u a p Hy Hr Hc _])]; [|constructor..|].
    - cbn [SetTime d_datetime]. rewrite (format_wide _ _ _ _ _ _ Hy Hr Hc). exact (low_wide _ _ _ _ _ _ Hy Hr Hc).
    - cbn [set_inclusivity bound d_datetime]. rewrite <- (wide_utc_narrow y m dd hh mi ss Hy). apply low_wide; [lia|assumption..]. }
  destruct (whole_strings _ _ H) as [(-> & ->)|[(-> & ->)|(lv & f & sp & T & R & ->)]].
  - split; [constructor|]. split; [constructor|]. split; [repeat constructor; reflexivity|exact B].
  - split; [constructor|]. split; [constructor|]. split; [repeat constructor; reflexivity|exact B].
  - destruct (low_reads _ _ _ R) as (S & N). split; [exact S|]. split; [exact N|]. split; [exact (low_takes _ _ _ T)|exact B].
Qed.
Lemma low_latin s : low s -> latin_text s.
Proof. intro H. induction H; constructor; assumption. Qed.
Lemma latin_fix s : latin_text s -> utf8_fix s = s.
Proof.
  intro H. apply repaired_iff. induction H as [|c s L H IH|s H IH]; [constructor|apply (rp_char [c]); [|exact IH]|apply (rp_char [chr 197; chr 191]); [|exact IH]].
  - exists (code c). pose proof (code_range c). split; [|lia]. rewrite <- (chr_code c) at 2. apply SpecJsonText.u8_one. lia.
  - exists 383. split; [exact (SpecJsonText.u8_two 5 63 ltac:(lia) ltac:(lia))|lia].
Qed.
Lemma low_fix s : low s -> utf8_fix s = s.
Proof. intro H. apply latin_fix, low_latin, H. Qed.
Lemma parsed_clean s d : ParseString s = OK d -> clean (Some (of_edtf d)).
Proof.
  intro H. destruct (parsed_ascii _ _ H) as (S & N & F & B). intros x E. injection E as <-. cbn [of_edtf pe_edtf pe_feature pe_start pe_end].
  assert (E : e_edtf d = s) by (destruct (whole_strings _ _ H) as [(-> & ->)|[(-> & ->)|(lv & f & sp & _ & _ & ->)]]; reflexivity).
  split; [rewrite E; apply latin_fix; exact (parsed_latin _ _ H)|]. split; [exact (low_fix _ F)|].
  split; intros r Er; injection Er as <-; (split; [cbn [of_range pr_edtf]; apply low_fix; assumption|]); split; intros b Eb; injection Eb as <-; apply low_fix, B; unfold bounds; cbn [In]; auto.
Qed.
Lemma typed_held e : typed e -> held (Some (of_edtf e)).
Proof.
  intros (A & B & C & D & L).
  assert (W : forall z, JsonProofs.int64 z -> int64 z) by (unfold JsonProofs.int64, int64, min_int64, max_int64; lia).
  assert (T : forall d, typed_date d -> held_date d).
  { intros d [X1 X2 X3 X4 X5 X6 X7]. constructor; [intros t E; apply W, X1, E| |repeat (constructor; [assumption|]); constructor]. intros v E. destruct (X2 v E) as (Y & M & Q). repeat split; apply W; assumption. }
  intros x E. injection E as <-. split; [exact (W _ L)|]. split; intros r Er; injection Er as <-; split; intros b Eb; injection Eb as <-; apply T; assumption.
Qed.
Theorem parsed_back s d : ParseString s = OK d -> Unmarshal (Marshal (Some (of_edtf d))) = OK (Some (of_edtf d)).
Proof.
  intro H. apply marshal_round; [apply typed_held, (parsed_typed _ _ H)|]. apply (both_fix _ _ _ _ repaired_edtf_fix). symmetry. apply clean_same, (parsed_clean _ _ H).
Qed.

(** ** The text of a parsed date is the one the other theorems on the text are about *)
Inductive latin_tree : json -> Prop :=
| la_null : latin_tree JNull | la_bool b : latin_tree (JBool b) | la_num t : low t -> latin_tree (JNum t) | la_str s : latin_text s -> latin_tree (JStr s)
| la_obj l : (forall k v, In (k, v) l -> low k) -> (forall k v, In (k, v) l -> latin_tree v) -> latin_tree (JObj l).
Lemma latin_obj l : (forall k v, In (k, v) l -> low k /\ latin_tree v) -> latin_tree (JObj l).
Proof. intro H. constructor; intros k v J; apply (H k v J). Qed.
Lemma hex_low n : 0 <= n < 16 -> code (hex n) < 128.
Proof. intro H. unfold hex. destruct (n <? 10) eqn:E; rewrite code_chr; lia. Qed.
Lemma esc_low c : code c < 128 -> low (esc c).
Proof.
  intro H. pose proof (code_range c). unfold esc. cbv zeta. repeat match goal with |- low (if ?b then _ else _) => destruct b; [try (repeat constructor; reflexivity)|] end; [|constructor; [exact H|constructor]].
  apply low_app; [repeat constructor; reflexivity|]. constructor; [apply hex_low; lia|]. constructor; [apply hex_low; lia|constructor].
Qed.
Lemma latin_quote s : latin_text s -> latin_text (Json.quote s).
Proof.
  intro H. unfold Json.quote. apply latin_app; [apply low_latin; repeat constructor; reflexivity|]. apply latin_app; [|apply low_latin; repeat constructor; reflexivity].
  induction H as [|c s L H IH|s H IH]; [constructor|cbn [flat_map]; apply latin_app; [apply low_latin, esc_low, L|exact IH]|].
  cbn [flat_map]. change (esc (chr 197)) with [chr 197]. change (esc (chr 191)) with [chr 191]. apply lt_long_s. exact IH.
Qed.
Lemma latin_print v : latin_tree v -> latin_text (print v).
Proof.
  intro H. induction H as [|[]|t L|s L|l H T IH]; try (apply low_latin; first [exact L|repeat constructor; reflexivity]); [exact (latin_quote s L)|].
  rewrite print_obj. apply latin_app; [apply low_latin; repeat constructor; reflexivity|]. apply latin_app; [|apply low_latin; repeat constructor; reflexivity].
  assert (Q : forall f, latin_text (print_members f l)); [|apply Q].
  assert (K : forall k v, In (k, v) l -> low k /\ latin_text (print v)) by (intros k v J; split; [exact (H k v J)|exact (IH k v J)]). clear H T IH.
  induction l as [|(k, v) l IHl]; intro f; [constructor|]. cbn [print_members]. destruct (K k v (or_introl eq_refl)) as (Kk & Kv).
  apply latin_app; [apply low_latin; destruct f; repeat constructor; reflexivity|]. apply latin_app; [apply latin_quote, low_latin, Kk|]. apply latin_app; [apply low_latin; repeat constructor; reflexivity|].
  apply latin_app; [exact Kv|]. apply IHl. intros k' v' J. apply K. right. exact J.
Qed.
Lemma latin_escape t : latin_text t -> escape_runes t = t.
Proof.
  intro H. induction H as [|c s L H IH|s H IH]; [reflexivity| |].
  - cbn [escape_runes]. replace (code c <? 128) with true by lia. rewrite IH. reflexivity.
  - change (escape_runes (chr 197 :: chr 191 :: s)) with (chr 197 :: chr 191 :: escape_runes s). rewrite IH. reflexivity.
Qed.
Lemma low_int z : low (itoa z).
Proof. apply int_low, itoa_json. Qed.
Lemma latin_date d : low (d_datetime d) -> latin_tree (enc_date d).
Proof.
  intro L. unfold enc_date. apply latin_obj. intros k v J. rewrite !in_app_iff in J.
  assert (P : forall k0 p, low k0 -> In (k, v) (enc_prec k0 p) -> low k /\ latin_tree v) by (intros k0 p K I; unfold enc_prec in I; destruct (N.eqb p 0); [destruct I|]; destruct I as [E|[]]; injection E as <- <-; split; [exact K|constructor; apply low_int]).
  assert (B : forall k0 b, low k0 -> In (k, v) (enc_flag k0 b) -> low k /\ latin_tree v) by (intros k0 b K I; unfold enc_flag in I; destruct b; [|destruct I]; destruct I as [E|[]]; injection E as <- <-; split; [exact K|constructor]).
  destruct J as [J|[J|[J|J]]]; [| | |decompose [or] J; first [eapply P; [|eassumption]|eapply B; [|eassumption]]; repeat constructor; reflexivity].
  - destruct (d_datetime d); [destruct J|]. destruct J as [E|[]]. injection E as <- <-. split; [repeat constructor; reflexivity|]. constructor. apply low_latin. exact L.
  - destruct (d_timestamp d); [|destruct J]. destruct J as [E|[]]. injection E as <- <-. split; [repeat constructor; reflexivity|]. constructor. apply low_int.
  - destruct J as [E|[]]. injection E as <- <-. split; [repeat constructor; reflexivity|]. destruct (d_ymd d); [|constructor]. cbn [enc_ymd]. apply latin_obj. intros k' v' J. cbn [In] in J.
    decompose [or] J; try contradiction; match goal with E : (_, _) = (_, _) |- _ => injection E as <- <- end; (split; [repeat constructor; reflexivity|constructor; apply low_int]).
Qed.
Theorem same_text s d : ParseString s = OK d -> Marshal (Some (of_edtf d)) = marshal_edtf d.
Proof.
  intro H. change (Marshal (Some (of_edtf d))) with (escape_runes (marshal_edtf d)). apply latin_escape, latin_print.
  destruct (parsed_ascii _ _ H) as (S & N & F & B). assert (E : e_edtf d = s) by (destruct (whole_strings _ _ H) as [(-> & ->)|[(-> & ->)|(lv & f & sp & _ & _ & ->)]]; reflexivity).
  assert (R : forall r, low (r_edtf r) -> low (d_datetime (r_lower r)) -> low (d_datetime (r_upper r)) -> latin_tree (enc_range r)).
  { intros r Le Ll Lu. unfold enc_range. apply latin_obj. intros k v J. cbn [In] in J.
    decompose [or] J; try contradiction; match goal with E : (_, _) = (_, _) |- _ => injection E as <- <- end; (split; [repeat constructor; reflexivity|]); first [apply latin_date; assumption|constructor; apply low_latin; assumption]. }
  unfold enc_edtf. apply latin_obj. intros k v J. cbn [In] in J. unfold bounds in B. cbn [In] in B.
  decompose [or] J; try contradiction; match goal with E : (_, _) = (_, _) |- _ => injection E as <- <- end; (split; [repeat constructor; reflexivity|]);
    first [apply R; [assumption|apply B; auto..]|constructor; apply low_int|constructor; apply low_latin; assumption|idtac].
  constructor. rewrite E. exact (parsed_latin _ _ H).
Qed.
Theorem parsed_read s d : ParseString s = OK d -> Unmarshal (marshal_edtf d) = OK (Some (of_edtf d)).
Proof. intro H. rewrite <- (same_text _ _ H). exact (parsed_back _ _ H). Qed.

(** ** The methods on what was read back *)
From Verif Require Import PointerProofs.
Lemma parsed_near s d : ParseString s = OK d -> near d.
Proof.
  intros H z T. assert (B : exists b, In b (bounds d) /\ d_timestamp b = Some z) by (unfold bounds; cbn [In]; destruct T as [T|T]; eauto 8). destruct B as (b & I & E).
  destruct (bounds_agree _ _ H b z I E) as (y & m & dd & hh & mi & ss & Hr & Hc & Hy & -> & _).
  assert (R1 : real_date (-10001) 1 1) by (vm_compute; repeat split; discriminate).
  assert (R2 : real_date 10001 1 1) by (vm_compute; repeat split; discriminate).
  assert (C0 : clock 0 0 0) by (unfold clock; lia).
  assert (instant (-10001) 1 1 0 0 0 <= instant y m dd hh mi ss) by (apply instant_le; try assumption; [left; lia|intros; lia]).
  assert (instant y m dd hh mi ss <= instant 10001 1 1 0 0 0) by (apply instant_le; try assumption; [left; lia|intros; lia]).
  change (instant (-10001) 1 1 0 0 0) with (-377768275200) in *.
  change (instant 10001 1 1 0 0 0) with 253433923200 in *. change (2 ^ 63) with 9223372036854775808. lia.
Qed.
Theorem parsed_methods s d t u : ParseString s = OK d -> ParseString t = OK u ->
  exists x y, Unmarshal (marshal_edtf d) = OK x /\ Unmarshal (marshal_edtf u) = OK y /\
    PLower x = Lower d /\ PUpper x = Upper d /\ PString x = OK (edtf_string d) /\ PAfter x y = After d u /\ PBefore x y = Before d u.
Proof.
  intros H G. exists (Some (of_edtf d)), (Some (of_edtf u)). split; [exact (parsed_read _ _ H)|]. split; [exact (parsed_read _ _ G)|]. split; [reflexivity|]. split; [reflexivity|]. split; [reflexivity|].
  exact (plain_compare d u (parsed_near _ _ H) (parsed_near _ _ G)).
Qed.
