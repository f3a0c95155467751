(** The lines that the WASM tools write. *)
From Coq Require Import Ascii String ZArith NArith Bool Lia ZifyBool List.
From Verif Require Import GoStr ErrText GoTime Regex Patterns SpecCal SpecText SpecGrammar SpecForms SpecErr SpecJson SpecWasi SpecZone SpecRefused SpecMessage StrFacts TextFacts Edtf Calendar Common Level0 Level1 Level2 Parser Json JsonText Cmd JsonTextProofs SplitFacts ErrProofs RefProofs MessageProofs TextKinds WasiProofs.
Import ListNotations.
Open Scope Z_scope.
Ltac Zify.zify_post_hook ::= Z.div_mod_to_equations.

(** ** JSON has no line breaks *)
Lemma free_app a b : newline_free a -> newline_free b -> newline_free (a ++ b).
Proof. intros Ha Hb H. apply in_app_or in H. destruct H; auto. Qed.
Lemma free_code a : Forall (fun c => code c <> 10) a -> newline_free a.
Proof. intros H Hi. rewrite Forall_forall in H. apply (H _ Hi). reflexivity. Qed.
Lemma free_lit a : existsb (Ascii.eqb (chr 10)) a = false -> newline_free a.
Proof.
  intros H Hi. assert (E : existsb (Ascii.eqb (chr 10)) a = true) by (apply existsb_exists; exists (chr 10); split; [exact Hi|reflexivity]). congruence.
Qed.
Lemma char_free c t : json_char c t -> newline_free t.
Proof.
  intros [c0 H _ _| | | | | | | | |a b h1 h2 H1 H2]; try (apply free_lit; reflexivity).
  - apply free_code. constructor; [lia|constructor].
  - apply free_app; [apply free_lit; reflexivity|]. apply nth_error_In in H1, H2. apply free_code.
    constructor; [|constructor; [|constructor]].
    + cbn in H1. repeat (destruct H1 as [<-|H1]; [vm_compute; discriminate|]). destruct H1.
    + cbn in H2. repeat (destruct H2 as [<-|H2]; [vm_compute; discriminate|]). destruct H2.
Qed.
Lemma chars_free b t : json_chars b t -> newline_free t.
Proof. intro H. induction H as [|c t b u Hc H IH]; [intros []|]. apply free_app; [exact (char_free _ _ Hc)|exact IH]. Qed.
Lemma digits_free t : Forall json_digit t -> Forall (fun c => code c <> 10) t.
Proof. intro H. eapply Forall_impl; [|exact H]. unfold json_digit. intros c Hc. lia. Qed.
Lemma int_free t : json_int t -> newline_free t.
Proof.
  intros [|c t0 Hc _ Ht| |c t0 Hc _ Ht]; [apply free_lit; reflexivity| |apply free_lit; reflexivity|]; apply free_code; unfold json_digit in Hc.
  - constructor; [lia|apply digits_free; exact Ht].
  - constructor; [vm_compute; discriminate|]. constructor; [lia|apply digits_free; exact Ht].
Qed.
Ltac lit := apply free_lit; reflexivity.
Lemma compact_free : (forall v t, compact v t -> newline_free t) /\ (forall l t, compact_items l t -> newline_free t) /\ (forall l t, compact_members l t -> newline_free t).
Proof.
  apply compact_all; try (intros; lit).
  - intros t H. exact (int_free _ H).
  - intros b t H. apply free_app; [lit|]. apply free_app; [exact (chars_free _ _ H)|lit].
  - intros l t _ H. apply free_app; [lit|]. apply free_app; [exact H|lit].
  - intros l t _ H. apply free_app; [lit|]. apply free_app; [exact H|lit].
  - intros v t _ H. exact H.
  - intros v t l u _ H _ H'. apply free_app; [exact H|]. apply free_app; [lit|exact H'].
  - intros k kt v t Hk _ H. apply free_app; [lit|]. apply free_app; [exact (chars_free _ _ Hk)|]. apply free_app; [lit|exact H].
  - intros k kt v t l u Hk _ H _ H'. apply free_app; [lit|]. apply free_app; [exact (chars_free _ _ Hk)|]. apply free_app; [lit|]. apply free_app; [exact H|]. apply free_app; [lit|exact H'].
Qed.
Lemma marshal_free d : newline_free (print (enc_edtf d)).
Proof. apply (proj1 compact_free (enc_edtf d)). exact (marshal_compact d). Qed.
Lemma marshal_brace d : begins_with ($"{") (print (enc_edtf d)).
Proof. eexists. reflexivity. Qed.

(** ** Texts of errors *)
Lemma not_brace c t : c <> "{"%char -> ~ begins_with ($"{") (c :: t).
Proof. intros H (r & E). injection E as E _. congruence. Qed.
Lemma text_not_brace e : of_parse e -> ~ begins_with ($"{") (error_text e).
Proof.
  intro H. destruct e as [|l s|l s|l s|l s|s|s|l v|s|m|m i]; cbn [of_parse] in H; try (destruct H; fail); try (apply not_brace; discriminate).
  - cbn [error_text]. destruct (big_head s) as [(r & ->)|[(r & ->)|(r & ->)]]; apply not_brace; discriminate.
  - cbn [error_text]. unfold plain_texts in H. repeat (destruct H as [<-|H]; [apply not_brace; discriminate|]). destruct H.
Qed.
Theorem wasi_tells raw line : wasi_parse raw = OK line -> (begins_with ($"{") line <-> exists d, ParseString raw = OK d).
Proof.
  intro H. unfold wasi_parse in H. destruct (ParseString raw) as [d|e|] eqn:E; [| |discriminate]; injection H as <-.
  - split; [eauto|intros _; apply marshal_brace].
  - split; [|intros (d & Q); discriminate]. intro B. exfalso. exact (text_not_brace e (parse_errors _ _ E) B).
Qed.

(** ** What errors name has no line breaks if the input has none *)
Lemma occurs_free x s : occurs x s -> newline_free s -> newline_free x.
Proof. intros (a & b & ->) N H. apply N. apply in_or_app. right. apply in_or_app. left. exact H. Qed.
Lemma dec_free t v : dec_digits t v -> newline_free t.
Proof.
  intro H. apply free_code. apply dec_digits_iff in H. destruct H as (_ & H). assert (D : digit_str t) by (apply (dec_val_digits t 0); eauto). clear H. rename D into H.
  eapply Forall_impl; [|exact H]. intros c Hc. unfold is_digit in Hc. lia.
Qed.
Lemma integer_free t z : integer_text t z -> newline_free t.
Proof. intros [t0 v H|t0 v H|t0 v H]; [exact (dec_free _ _ H)|apply free_app with (a := $"+")|apply free_app with (a := $"-")]; try lit; exact (dec_free _ _ H). Qed.
Lemma two_free n : 0 <= n <= 99 -> newline_free (two n).
Proof. intro H. apply dec_free with (v := n). apply dec_digits_iff. split; [discriminate|]. unfold two. cbn [dec_val]. rewrite !is_digit_char, !digit_val_char by lia. f_equal. lia. Qed.
Lemma md_free md : month_day md -> newline_free md.
Proof.
  intros [m Hm|m d Hm Hd]; [apply free_app with (a := $"-"); [lit|apply two_free; lia]|].
  apply free_app with (a := $"-"); [lit|]. apply free_app; [apply two_free; lia|]. apply free_app with (a := $"-"); [lit|apply two_free; lia].
Qed.
Lemma derived_free s x : derived s x -> newline_free s -> newline_free x.
Proof.
  intros H N. destruct H as [x H|t y r z x md _ _ _ Hx Hm|c t m e x E _ Hx|u y nd n x z _ _ _ Hx _|c t r m e x z _ _ _ Hx].
  - exact (occurs_free _ _ H N).
  - apply free_app; [exact (integer_free _ _ Hx)|exact (md_free _ Hm)].
  - destruct Hx as [(_ & H & _)|(_ & t0 & -> & H & _)]; [exact (dec_free _ _ H)|]. apply free_app with (a := $"-"); [lit|exact (dec_free _ _ H)].
  - exact (integer_free _ _ Hx).
  - exact (integer_free _ _ Hx).
Qed.
Lemma bare_free s : Forall bare s -> newline_free s.
Proof.
  intro H. apply free_code. eapply Forall_impl; [|exact H]. intros c [D|D]; [unfold is_digit in D; lia|]. cbn in D.
  repeat (destruct D as [<-|D]; [vm_compute; discriminate|]). destruct D.
Qed.
Lemma quotes_free s : newline_free s -> newline_free (in_quotes s).
Proof. intro H. apply free_app; [lit|]. apply free_app; [exact H|lit]. Qed.
Lemma zone_word z w : zone_error z w -> newline_free w.
Proof. intros []; lit. Qed.
Lemma range_word y mo d h m sc z w : range_error y mo d h m sc z w -> newline_free w.
Proof. intros [H|H1 H2|H1 H2 H3|w' H1 H2 H3 H4|H1 H2 H3 H4 H5]; try lit. exact (zone_word _ _ H4). Qed.
Lemma stamp_free l s w : stamp_says l s w -> newline_free l -> newline_free s -> newline_free w.
Proof.
  intros [t y m r Ht|t y mo d h m sc z w' Ht Hh Hm Hs R] Nl Ns.
  - repeat (apply free_app; [first [lit|apply quotes_free; assumption]|]). 
    apply free_app; [apply quotes_free; intro H; apply Ns; apply in_or_app; right; exact H|]. apply free_app; [lit|]. apply quotes_free. lit.
  - apply free_app; [lit|]. apply free_app; [exact (range_word _ _ _ _ _ _ _ _ R)|lit].
Qed.
Lemma says_free e w : err_says e w -> usual e -> (forall s, named e = Some s -> newline_free s) -> newline_free w.
Proof.
  assert (P : forall l s a, In l labels -> newline_free s -> newline_free a -> newline_free (a ++ s ++ $"' (" ++ l ++ $")")).
  { intros l s a Hl Hs Ha. apply free_app; [exact Ha|]. apply free_app; [exact Hs|]. apply free_app; [lit|]. apply free_app; [|lit].
    cbn in Hl. repeat (destruct Hl as [<-|Hl]; [lit|]). destruct Hl. }
  intros [l s|l s|l s|l s|m|x|x|neg ds c es m e' Hd Hc He B|t m e' H B| |layout s w' H|m e' t H] U N; cbn [usual named] in *.
  1-4: (apply P; [exact U|apply N; reflexivity|lit]).
  - subst m. lit.
  - apply free_app; [lit|]. apply free_app; [apply quotes_free, bare_free; exact U|lit].
  - apply free_app; [lit|]. apply free_app; [apply quotes_free, bare_free; exact U|lit].
  - apply free_app; [lit|]. apply free_app; [apply quotes_free; exact (dec_free _ _ He)|lit].
  - lit.
  - lit.
  - destruct U as (U1 & U2). apply free_app; [lit|]. apply free_app; [apply quotes_free, bare_free; exact U2|]. exact (stamp_free _ _ _ H (bare_free _ U1) (bare_free _ U2)).
  - destruct U.
Qed.
Lemma text_free raw e w : newline_free raw -> ParseString raw = Err e -> err_says e w -> newline_free w.
Proof.
  intros N E S. apply (says_free e w S); [exact (refused_usual _ _ (refused_complete _ _ E))|]. intros s Hs. exact (derived_free _ _ (named_derived raw e s E Hs) N).
Qed.
(** A line for each argument, up to the first that makes the parser panic. *)
Definition wasi_line (raw line : str) : Prop :=
  (forall d, ParseString raw = OK d -> line = marshal_edtf d) /\ (forall e, ParseString raw = Err e -> err_says e line).
Lemma one_line raw : ParseString raw <> Panic -> exists line, wasi_parse raw = OK line /\ wasi_line raw line.
Proof.
  intro H. unfold wasi_parse, wasi_line. destruct (ParseString raw) as [d|e|] eqn:E; [| |congruence]; eexists; (split; [reflexivity|]); split; intros x Q; try discriminate Q; injection Q as <-.
  - reflexivity.
  - apply (text_exactly raw e E). reflexivity.
Qed.
Theorem wasi_lines args : Forall newline_free args -> Forall (fun raw => ParseString raw <> Panic) args ->
  exists l, cmd_wasi args = (lines l, Done) /\
    Forall2 (fun raw line => newline_free line /\ (begins_with ($"{") line <-> exists d, ParseString raw = OK d) /\
                             (forall d, ParseString raw = OK d -> unmarshal_edtf line = OK d) /\
                             (forall e, ParseString raw = Err e -> err_says e line)) args l.
Proof.
  intros Hn Hp. induction args as [|raw args IH]; [exists []; split; [reflexivity|constructor]|].
  apply Forall_cons_iff in Hn. destruct Hn as (N & Hn). apply Forall_cons_iff in Hp. destruct Hp as (P & Hp). destruct (IH Hn Hp) as (l & E & F).
  destruct (one_line raw P) as (line & W & WO & WE). exists (line :: l). split.
  - cbn [cmd_wasi]. rewrite W, E. unfold lines, newline. cbn [map concat]. rewrite <- app_assoc. reflexivity.
  - constructor; [|exact F]. split; [|split; [exact (wasi_tells raw line W)|split; [|exact WE]]].
    + destruct (ParseString raw) as [d|e|] eqn:R; [|exact (text_free raw e line N R (WE e eq_refl))|congruence]. rewrite (WO d eq_refl). apply marshal_free.
    + intros d Hd. rewrite (WO d Hd). exact (parsed_text_roundtrip raw d Hd).
Qed.
(** A panic ends the output after the lines of the arguments before. *)
Theorem wasi_stops args raw rest : Forall (fun r => ParseString r <> Panic) args -> ParseString raw = Panic ->
  exists l, cmd_wasi (args ++ raw :: rest) = (lines l, Crash) /\
    Forall2 (fun raw line => (forall d, ParseString raw = OK d -> line = marshal_edtf d) /\ (forall e, ParseString raw = Err e -> err_says e line)) args l.
Proof.
  intros H P. induction H as [|a args Ha H (l & E & F)].
  - exists []. split; [|constructor]. cbn [app cmd_wasi]. unfold wasi_parse. rewrite P. reflexivity.
  - destruct (one_line a Ha) as (line & W & G). exists (line :: l). split; [|constructor; assumption].
    cbn [app cmd_wasi]. rewrite W, E. unfold lines, newline. cbn [map concat]. rewrite <- app_assoc. reflexivity.
Qed.
(** A line break in the argument is printed as such. *)
Theorem wasi_two_lines : exists raw line, wasi_parse raw = OK line /\ ~ newline_free line.
Proof.
  exists [chr 10]. eexists. split; [vm_compute; reflexivity|]. intro H. apply H. vm_compute. tauto.
Qed.

(** ** The promise *)
Theorem wasm_resolves raw out v : wasm_parse raw = OK (out, v) ->
  (forall t, v = Resolved t <-> out = [] /\ exists d, ParseString raw = OK d /\ t = marshal_edtf d) /\
  (forall n, v = Rejected n <-> n = Z.of_nat (length out) /\ exists e w, ParseString raw = Err e /\ err_says e w /\ out = $"Failed to parse '" ++ raw ++ $"', " ++ w ++ [chr 10]).
Proof.
  unfold wasm_parse. destruct (ParseString raw) as [d|e|] eqn:E; intro H; [| |discriminate]; injection H as <- <-; split.
  - intro t. split; [intro Q; injection Q as <-; split; [reflexivity|]; exists d; auto|]. intros (_ & d' & Q & ->). injection Q as <-. reflexivity.
  - intro n. split; [discriminate|]. intros (_ & e & w & Q & _). discriminate.
  - intro t. split; [discriminate|]. intros (_ & d & Q & _). discriminate.
  - intro n. split.
    + intro Q. injection Q as <-. split; [reflexivity|]. exists e, (error_text e). split; [reflexivity|]. split; [apply (text_exactly raw e E); reflexivity|reflexivity].
    + intros (-> & e' & w & Q & _). reflexivity.
Qed.
Theorem wasm_settles raw : wasm_parse raw = Panic <-> ParseString raw = Panic.
Proof. unfold wasm_parse. destruct (ParseString raw); split; (discriminate || reflexivity). Qed.
(** Different failures give the same reason. *)
Theorem wasm_reason_lost : exists raw raw' e e', ParseString raw = Err e /\ ParseString raw' = Err e' /\ raw <> raw' /\ e <> e' /\
  exists out out' n, wasm_parse raw = OK (out, Rejected n) /\ wasm_parse raw' = OK (out', Rejected n).
Proof.
  exists ($"x"), ($"y"). do 2 eexists. split; [vm_compute; reflexivity|]. split; [vm_compute; reflexivity|]. split; [discriminate|]. split; [discriminate|].
  do 3 eexists. split; vm_compute; reflexivity.
Qed.
