(** The JSON reader reads exactly the texts of RFC 8259. *)
From Coq Require Import Ascii String ZArith NArith Bool Lia ZifyBool List.
From Verif Require Import GoStr GoTime SpecText StrFacts TextFacts Edtf Json JsonText SpecJson SpecJsonText JsonTextProofs.
Import ListNotations.
Open Scope Z_scope.
Ltac Zify.zify_post_hook ::= Z.div_mod_to_equations.

(** ** White space *)
Lemma space_blank c : is_space c = true <-> blank_char c.
Proof.
  unfold is_space, blank_char. split.
  - intro H. assert (D : code c = 32 \/ code c = 9 \/ code c = 13 \/ code c = 10) by lia. destruct D as [D|[D|[D|D]]]; auto. left. apply code_inj. exact D.
  - intros [->|[H|[H|H]]]; [reflexivity|rewrite H; reflexivity..].
Qed.
Definition starts_plain (s : str) : Prop := match s with [] => True | c :: _ => is_space c = false end.
Lemma skip_blanks w s : blanks w -> starts_plain s -> skip_space (w ++ s) = s.
Proof.
  intros W P. induction W as [|c w H W IH]; cbn [app].
  - destruct s as [|c s]; [reflexivity|]. cbn in P. cbn [skip_space]. rewrite P. reflexivity.
  - cbn [skip_space]. apply space_blank in H. rewrite H. exact IH.
Qed.
Lemma skip_split s : exists w, blanks w /\ s = w ++ skip_space s /\ starts_plain (skip_space s).
Proof.
  induction s as [|c s (w & W & E & P)].
  - exists []. repeat split. constructor.
  - cbn [skip_space]. destruct (is_space c) eqn:B.
    + exists (c :: w). split; [constructor; [apply space_blank, B|exact W]|]. split; [cbn [app]; rewrite <- E; reflexivity|exact P].
    + exists []. split; [constructor|]. split; [reflexivity|exact B].
Qed.

(** ** Strings *)
Lemma hex_digit_val c x : hex_val c = Some x <-> hex_digit c x.
Proof.
  unfold hex_val. split.
  - intro H. destruct ((48 <=? code c) && (code c <=? 57)) eqn:E1; [|destruct ((97 <=? code c) && (code c <=? 102)) eqn:E2; [|destruct ((65 <=? code c) && (code c <=? 70)) eqn:E3; [|discriminate]]];
      injection H as <-.
    + constructor. lia.
    + replace (code c - 87) with (10 + (code c - 97)) by lia. constructor. lia.
    + replace (code c - 55) with (10 + (code c - 65)) by lia. constructor. lia.
  - intros [d H|d H|d H].
    + replace ((48 <=? code d) && (code d <=? 57)) with true by lia. reflexivity.
    + replace ((48 <=? code d) && (code d <=? 57)) with false by lia. replace ((97 <=? code d) && (code d <=? 102)) with true by lia. f_equal. lia.
    + replace ((48 <=? code d) && (code d <=? 57)) with false by lia. replace ((97 <=? code d) && (code d <=? 102)) with false by lia.
      replace ((65 <=? code d) && (code d <=? 70)) with true by lia. f_equal. lia.
Qed.
Lemma hex_range c x : hex_digit c x -> 0 <= x < 16. Proof. intros []; lia. Qed.
Lemma hex_plain c x : hex_digit c x -> c <> """"%char /\ c <> "\"%char.
Proof. intros []; split; intros ->; match goal with H : _ <= code _ <= _ |- _ => vm_compute in H; destruct H as (H & H'); first [apply H; reflexivity|apply H'; reflexivity] end. Qed.
Lemma hex4_unit a b c d r : hex4 a b c d = Some r <-> unit_text ($"\u" ++ [a; b; c; d]) r.
Proof.
  unfold hex4. split.
  - intro H. destruct (hex_val a) as [x|] eqn:Ea; [|discriminate]. destruct (hex_val b) as [y|] eqn:Eb; [|discriminate].
    destruct (hex_val c) as [z|] eqn:Ec; [|discriminate]. destruct (hex_val d) as [w|] eqn:Ed; [|discriminate]. injection H as <-.
    replace (x * 4096 + y * 256 + z * 16 + w) with (((x * 16 + y) * 16 + z) * 16 + w) by lia. constructor; apply hex_digit_val; assumption.
  - intro H. remember ($"\u" ++ [a; b; c; d]) as t eqn:Et. destruct H as [a' b' c' d' x y z w Ha Hb Hc Hd]. injection Et as -> -> -> ->.
    apply hex_digit_val in Ha, Hb, Hc, Hd. rewrite Ha, Hb, Hc, Hd. f_equal. lia.
Qed.
Lemma unit_shape t r : unit_text t r -> exists a b c d, t = $"\u" ++ [a; b; c; d] /\ hex4 a b c d = Some r /\ 0 <= r < 65536.
Proof.
  intro H. pose proof H as H'. destruct H as [a b c d x y z w Ha Hb Hc Hd]. exists a, b, c, d. split; [reflexivity|]. split; [apply hex4_unit; exact H'|].
  apply hex_range in Ha, Hb, Hc, Hd. lia.
Qed.
Lemma utf8_encode v x : utf8 v x -> x = encode_rune v.
Proof.
  intros [r' H|a b Ha Hb|a b c Ha Hb Hc H|a b c d Ha Hb Hc Hd H]; unfold encode_rune.
  - replace (r' <? 128) with true by lia. reflexivity.
  - replace (a * 64 + b <? 128) with false by lia. replace (a * 64 + b <? 2048) with true by lia.
    replace ((a * 64 + b) / 64) with a by lia. replace ((a * 64 + b) mod 64) with b by lia. reflexivity.
  - set (r := (a * 64 + b) * 64 + c) in *. replace (r <? 128) with false by lia. replace (r <? 2048) with false by lia. replace (r <? 65536) with true by lia.
    replace (r / 4096) with a by (unfold r; lia). replace (r / 64 mod 64) with b by (unfold r; lia). replace (r mod 64) with c by (unfold r; lia). reflexivity.
  - set (r := ((a * 64 + b) * 64 + c) * 64 + d) in *. replace (r <? 128) with false by lia. replace (r <? 2048) with false by lia. replace (r <? 65536) with false by lia.
    replace (r / 262144) with a by (unfold r; lia). replace (r / 4096 mod 64) with b by (unfold r; lia). replace (r / 64 mod 64) with c by (unfold r; lia).
    replace (r mod 64) with d by (unfold r; lia). reflexivity.
Qed.
Lemma encode_utf8 r : 0 <= r < 2097152 -> utf8 r (encode_rune r).
Proof.
  intro R. unfold encode_rune. destruct (r <? 128) eqn:E1; [|destruct (r <? 2048) eqn:E2; [|destruct (r <? 65536) eqn:E3]].
  - constructor. lia.
  - assert (E : r = r / 64 * 64 + r mod 64) by lia. rewrite E at 1. constructor; lia.
  - assert (E : r = (r / 4096 * 64 + r / 64 mod 64) * 64 + r mod 64) by lia. rewrite E at 1. constructor; lia.
  - assert (E : r = ((r / 262144 * 64 + r / 4096 mod 64) * 64 + r / 64 mod 64) * 64 + r mod 64) by lia. rewrite E at 1. constructor; lia.
Qed.
Lemma surrogate_spec r : is_surrogate r = true <-> high_unit r \/ low_unit r.
Proof. unfold is_surrogate, high_unit, low_unit. lia. Qed.
Lemma join_spec r r' : (exists x, join_surrogates r r' = Some x) <-> high_unit r /\ low_unit r'.
Proof.
  unfold join_surrogates, high_unit, low_unit. split.
  - intros (x & H). destruct ((55296 <=? r) && (r <? 56320) && (56320 <=? r') && (r' <? 57344)) eqn:E; [lia|discriminate].
  - intro H. replace ((55296 <=? r) && (r <? 56320) && (56320 <=? r') && (r' <? 57344)) with true by lia. eauto.
Qed.
Lemma join_value r r' : high_unit r -> low_unit r' -> join_surrogates r r' = Some (65536 + (r - 55296) * 1024 + (r' - 56320)).
Proof.
  unfold join_surrogates, high_unit, low_unit. intros H H'. replace ((55296 <=? r) && (r <? 56320) && (56320 <=? r') && (r' <? 57344)) with true by lia. f_equal. lia.
Qed.
Lemma escape_simple e c : simple_escape e = Some c <-> escape e c.
Proof.
  split.
  - intro H. destruct e as [[] [] [] [] [] [] [] []]; try discriminate H; vm_compute in H; injection H as <-; constructor.
  - intros []; reflexivity.
Qed.
Lemma escape_not_u e c : escape e c -> (code e =? 117) = false. Proof. intros []; reflexivity. Qed.
(** The two code units of a pair, as the reader looks for them. *)
Definition second_half (r : Z) (v : str) : option (Z * str) :=
  match v with
  | x :: y :: a :: b :: c :: d :: w =>
      if (code x =? 92) && (code y =? 117) then
        match hex4 a b c d with Some r' => match join_surrogates r r' with Some rr => Some (rr, w) | None => None end | None => None end
      else None
  | _ => None
  end.
Lemma read_unit a b c d v r : hex4 a b c d = Some r -> read_string ("\"%char :: "u"%char :: a :: b :: c :: d :: v) =
  if is_surrogate r then match second_half r v with Some (rr, w) => cons_res (encode_rune rr) (read_string w) | None => cons_res replacement (read_string v) end
  else cons_res (encode_rune r) (read_string v).
Proof.
  intro H. cbn [read_string]. change (code "\" =? 34) with false. change (code "\" =? 92) with true. change (code "u" =? 117) with true. cbv iota. rewrite H.
  destruct (is_surrogate r); [|reflexivity]. unfold second_half.
  destruct v as [|x [|y [|a' [|b' [|c' [|d' w]]]]]]; try reflexivity.
  destruct ((code x =? 92) && (code y =? 117)); [|reflexivity]. destruct (hex4 a' b' c' d') as [r'|]; [|reflexivity]. destruct (join_surrogates r r'); reflexivity.
Qed.
Lemma read_unit_text t v r : unit_text t r -> read_string (t ++ v) =
  if is_surrogate r then match second_half r v with Some (rr, w) => cons_res (encode_rune rr) (read_string w) | None => cons_res replacement (read_string v) end
  else cons_res (encode_rune r) (read_string v).
Proof. intro H. destruct (unit_shape t r H) as (a & b & c & d & -> & E & _). exact (read_unit a b c d v r E). Qed.
Lemma second_iff r v rr w : second_half r v = Some (rr, w) <->
  exists t r', unit_text t r' /\ low_unit r' /\ high_unit r /\ v = t ++ w /\ rr = 65536 + (r - 55296) * 1024 + (r' - 56320).
Proof.
  split.
  - unfold second_half. destruct v as [|x [|y [|a [|b [|c [|d w']]]]]]; try discriminate.
    destruct ((code x =? 92) && (code y =? 117)) eqn:E; [|discriminate]. destruct (hex4 a b c d) as [r'|] eqn:Eh; [|discriminate].
    destruct (join_surrogates r r') as [q|] eqn:Ej; [|discriminate]. intro H.
    assert (E1 : q = rr) by exact (f_equal (fun o => match o with Some (u, _) => u | None => 0 end) H).
    assert (E2 : w' = w) by exact (f_equal (fun o => match o with Some (_, u) => u | None => [] end) H). subst q w'.
    destruct (proj1 (join_spec r r') (ex_intro _ rr Ej)) as (Hh & Hl). rewrite (join_value r r' Hh Hl) in Ej. injection Ej as <-.
    exists ($"\u" ++ [a; b; c; d]), r'. split; [apply hex4_unit, Eh|]. split; [exact Hl|]. split; [exact Hh|]. split; [|reflexivity].
    assert (x = "\"%char) by (apply code_inj; change (code "\") with 92; lia). assert (y = "u"%char) by (apply code_inj; change (code "u") with 117; lia). subst x y. reflexivity.
  - intros (t & r' & Ht & Hl & Hh & -> & ->). destruct (unit_shape t r' Ht) as (a & b & c & d & -> & E & _). unfold second_half.
    change (($"\u" ++ [a; b; c; d]) ++ w) with ("\"%char :: "u"%char :: a :: b :: c :: d :: w). change ((code "\" =? 92) && (code "u" =? 117)) with true. cbv iota.
    rewrite E, (join_value r r' Hh Hl). reflexivity.
Qed.
(** A code unit does not reach over a quote. *)
Lemma unit_before_quote t r u q w : unit_text t r -> u ++ """"%char :: q = t ++ w -> exists w', u = t ++ w'.
Proof.
  intros Ht E. destruct Ht as [a b c d x y z v Ha Hb Hc Hd]. apply hex_plain in Ha, Hb, Hc, Hd.
  change (($"\u" ++ [a; b; c; d]) ++ w) with ("\"%char :: "u"%char :: a :: b :: c :: d :: w) in E.
  do 6 (destruct u as [|? u]; [cbn [app] in E; injection E; intros; subst; exfalso; intuition congruence|]; cbn [app] in E; injection E as -> E).
  exists u. reflexivity.
Qed.
Lemma replaced : replacement = [chr 239; chr 191; chr 189]. Proof. reflexivity. Qed.
Lemma read_body b t r : string_body b t -> read_string (t ++ """"%char :: r) = Some (b, r).
Proof.
  intro H. induction H as [|c b u H1 H2 H3 _ IH|e c b u He _ IH|t q x b u Ht N1 N2 Hx _ IH|t q t' q' x b u Ht Hh Ht' Hl Hx _ IH|t q b u Ht S N _ IH].
  - reflexivity.
  - cbn [app]. rewrite (read_plain c _ H1 H2 H3), IH. reflexivity.
  - cbn [app read_string]. change (code "\" =? 34) with false. change (code "\" =? 92) with true. cbv iota.
    rewrite (escape_not_u e c He). apply escape_simple in He. rewrite He, IH. reflexivity.
  - rewrite <- app_assoc, (read_unit_text _ _ _ Ht), IH. destruct (is_surrogate q) eqn:Es; [apply surrogate_spec in Es; tauto|]. rewrite <- (utf8_encode q x Hx). reflexivity.
  - rewrite <- !app_assoc, (read_unit_text _ _ _ Ht). replace (is_surrogate q) with true by (symmetry; apply surrogate_spec; tauto).
    rewrite (proj2 (second_iff q (t' ++ u ++ """"%char :: r) _ (u ++ """"%char :: r)) (ex_intro _ t' (ex_intro _ q' (conj Ht' (conj Hl (conj Hh (conj eq_refl eq_refl))))))).
    rewrite IH, <- (utf8_encode _ x Hx). reflexivity.
  - rewrite <- app_assoc, (read_unit_text _ _ _ Ht). replace (is_surrogate q) with true by (symmetry; apply surrogate_spec; tauto).
    destruct (second_half q (u ++ """"%char :: r)) as [[rr w]|] eqn:Es; [|rewrite IH; reflexivity].
    exfalso. apply N. apply second_iff in Es. destruct Es as (t' & r' & Ht' & Hl & Hh & Ew & _). destruct (unit_before_quote t' r' u r w Ht' Ew) as (w' & ->).
    split; [exact Hh|]. exists t', r', w'. auto.
Qed.
Lemma cons_res_some a x b r : cons_res a x = Some (b, r) -> exists b', x = Some (b', r) /\ b = a ++ b'.
Proof. destruct x as [[b' r']|]; [|discriminate]. cbn. intro H. assert (E1 := f_equal (fun o => match o with Some (u, _) => u | None => [] end) H).
  assert (E2 := f_equal (fun o => match o with Some (_, u) => u | None => [] end) H). cbn in E1, E2. subst. eauto. Qed.
Lemma body_read n : forall s b r, (length s <= n)%nat -> read_string s = Some (b, r) -> exists t, string_body b t /\ s = t ++ """"%char :: r.
Proof.
  induction n as [|n IH]; intros s b r L H; [destruct s; [discriminate|cbn in L; lia]|].
  destruct s as [|c s]; [discriminate|]. cbn [length] in L.
  destruct (code c =? 34) eqn:E1.
  { cbn [read_string] in H. rewrite E1 in H. assert (c = """"%char) by (apply code_inj; change (code """") with 34; lia). subst c.
    assert (X1 := f_equal (fun o => match o with Some (u, _) => u | None => [] end) H). assert (X2 := f_equal (fun o => match o with Some (_, u) => u | None => [] end) H). cbn in X1, X2. subst.
    exists []. split; [constructor|reflexivity]. }
  destruct (code c =? 92) eqn:E2.
  - assert (c = "\"%char) by (apply code_inj; change (code "\") with 92; lia). subst c. destruct s as [|e u]; [discriminate|]. cbn [length] in L.
    destruct (code e =? 117) eqn:E3.
    + assert (e = "u"%char) by (apply code_inj; change (code "u") with 117; lia). subst e.
      destruct u as [|a' [|b' [|c' [|d' v]]]]; try discriminate H. destruct (hex4 a' b' c' d') as [q|] eqn:Eh; [|cbn [read_string] in H; change (code "\" =? 34) with false in H; change (code "\" =? 92) with true in H; change (code "u" =? 117) with true in H; cbv iota in H; rewrite Eh in H; discriminate].
      rewrite (read_unit _ _ _ _ _ _ Eh) in H. cbn [length] in L. pose proof (proj1 (hex4_unit _ _ _ _ _) Eh) as Ht. destruct (unit_shape _ _ Ht) as (_ & _ & _ & _ & _ & _ & R).
      destruct (is_surrogate q) eqn:Es.
      * apply surrogate_spec in Es. destruct (second_half q v) as [[rr w]|] eqn:E4.
        -- apply second_iff in E4. destruct E4 as (t' & r' & Ht' & Hl & Hh & -> & ->). apply cons_res_some in H. destruct H as (b0 & H & ->).
           rewrite app_length in L. destruct (IH w b0 r ltac:(lia) H) as (t & Hb & ->).
           exists (($"\u" ++ [a'; b'; c'; d']) ++ t' ++ t). split; [|rewrite <- !app_assoc; reflexivity].
           apply (sb_pair _ q _ r'); try assumption. apply encode_utf8. unfold high_unit, low_unit in *. lia.
        -- apply cons_res_some in H. destruct H as (b0 & H & ->). destruct (IH v b0 r ltac:(lia) H) as (t & Hb & ->).
           exists (($"\u" ++ [a'; b'; c'; d']) ++ t). split; [|rewrite <- !app_assoc; reflexivity].
           rewrite replaced. apply (sb_half _ q); try assumption. intros (Hh & t' & r' & w & Ht' & Hl & ->).
           rewrite <- app_assoc in E4.
           rewrite (proj2 (second_iff q (t' ++ w ++ """"%char :: r) _ (w ++ """"%char :: r)) (ex_intro _ t' (ex_intro _ r' (conj Ht' (conj Hl (conj Hh (conj eq_refl eq_refl))))))) in E4. discriminate.
      * apply cons_res_some in H. destruct H as (b0 & H & ->). destruct (IH v b0 r ltac:(lia) H) as (t & Hb & ->).
        exists (($"\u" ++ [a'; b'; c'; d']) ++ t). split; [|rewrite <- !app_assoc; reflexivity].
        assert (N : ~ (high_unit q \/ low_unit q)) by (intro X; apply surrogate_spec in X; congruence).
        apply (sb_unit _ q); try assumption; try tauto. apply encode_utf8. lia.
    + cbn [read_string] in H. change (code "\" =? 34) with false in H. change (code "\" =? 92) with true in H. cbv iota in H. rewrite E3 in H.
      destruct (simple_escape e) as [x|] eqn:Ex; [|discriminate]. apply cons_res_some in H. destruct H as (b0 & H & ->). destruct (IH u b0 r ltac:(lia) H) as (t & Hb & ->).
      exists ("\"%char :: e :: t). split; [|reflexivity]. cbn [app]. constructor; [apply escape_simple, Ex|exact Hb].
  - cbn [read_string] in H. rewrite E1, E2 in H. destruct (code c <? 32) eqn:E3; [discriminate|]. apply cons_res_some in H. destruct H as (b0 & H & ->).
    destruct (IH s b0 r ltac:(lia) H) as (t & Hb & ->). exists (c :: t). split; [|reflexivity]. cbn [app]. constructor; [lia| | |exact Hb].
    + intros ->. discriminate E1.
    + intros ->. discriminate E2.
Qed.

(** ** Numbers *)
Definition no_digit (r : str) : Prop := match r with [] => True | c :: _ => is_digit c = false end.
Lemma take_until t r : Forall json_digit t -> no_digit r -> take_digits (t ++ r) = (t, r).
Proof.
  intros H E. induction H as [|c t H _ IH]; cbn [app take_digits].
  - destruct r as [|c r]; [reflexivity|]. cbn [take_digits]. cbn in E. rewrite E. reflexivity.
  - rewrite (is_digit_json _ H), IH. reflexivity.
Qed.
Lemma taken s t r : take_digits s = (t, r) -> Forall json_digit t /\ s = t ++ r.
Proof.
  revert t r. induction s as [|c s IH]; intros t r H; [injection H as <- <-; split; [constructor|reflexivity]|]. cbn [take_digits] in H.
  destruct (is_digit c) eqn:E; [|injection H as <- <-; split; [constructor|reflexivity]].
  destruct (take_digits s) as [a q] eqn:Et. assert (X1 := f_equal fst H). assert (X2 := f_equal snd H). cbn in X1, X2. subst. destruct (IH a r eq_refl) as (F & ->).
  split; [constructor; [unfold json_digit, is_digit in *; lia|exact F]|reflexivity].
Qed.
Definition no_exp (r : str) : Prop := match r with [] => True | c :: _ => is_digit c = false /\ code c <> 101 /\ code c <> 69 end.
Lemma ends_more r : ends_number r -> no_digit r /\ no_exp r.
Proof. destruct r as [|c r]; cbn; tauto. Qed.
Lemma digits_first d r : some_digits d -> no_digit r -> match take_digits (d ++ r) with ([], _) => None | (a, q) => Some (a, q) end = Some (d, r).
Proof. intros (N & F) E. rewrite (take_until _ _ F E). destruct d; [contradiction|reflexivity]. Qed.
Lemma read_exp_text e r : exponent e -> ends_number r -> read_exp (e ++ r) = Some (e, r).
Proof.
  intros [|x g d Hx Hg (N & F)] E; [exact (exp_none r E)|]. cbn [app read_exp].
  replace ((code x =? 101) || (code x =? 69)) with true by (destruct Hx as [->| ->]; reflexivity).
  assert (S : match (g ++ d) ++ r with d0 :: u => if (code d0 =? 43) || (code d0 =? 45) then ([d0], u) else ([], (g ++ d) ++ r) | [] => ([], (g ++ d) ++ r) end = (g, d ++ r)).
  { rewrite <- app_assoc. destruct Hg as [->|[->| ->]]; [|reflexivity|reflexivity]. cbn [app]. destruct d as [|c d]; [contradiction|]. cbn [app].
    inversion F as [|? ? H _]; subst. unfold json_digit in H. replace ((code c =? 43) || (code c =? 45)) with false by lia. reflexivity. }
  rewrite S, (take_until _ _ F (proj1 (ends_more r E))). destruct d; [contradiction|reflexivity].
Qed.
Lemma exp_start e r : exponent e -> ends_number r -> no_digit (e ++ r) /\ (forall c u, e ++ r = c :: u -> code c <> 46).
Proof.
  intros [|x g d Hx Hg _] E.
  - split; [exact (proj1 (ends_more r E))|]. intros c u X. cbn [app] in X. subst r. destruct E as (_ & E & _). exact E.
  - split; [destruct Hx as [->| ->]; reflexivity|]. intros c u X. injection X as <- _. destruct Hx as [->| ->]; discriminate.
Qed.
Lemma read_frac_text f e r : fraction f -> exponent e -> ends_number r -> read_frac (f ++ e ++ r) = Some (f, e ++ r).
Proof.
  intros Hf He E. destruct (exp_start e r He E) as (N & P). destruct Hf as [|d (Nd & F)].
  - cbn [app]. unfold read_frac. destruct (e ++ r) as [|c u] eqn:X; [reflexivity|]. cbn [starts_with]. specialize (P c u eq_refl). replace (code c =? 46) with false by lia. reflexivity.
  - cbn [app]. unfold read_frac. cbn [starts_with]. change (code "." =? 46) with true. cbv iota. rewrite (take_until _ _ F N). destruct d; [contradiction|reflexivity].
Qed.
Lemma frac_start f e r : fraction f -> exponent e -> ends_number r -> no_digit (f ++ e ++ r).
Proof. intros [|d _] He E; [exact (proj1 (exp_start e r He E))|reflexivity]. Qed.
Lemma int_digits c t r : json_digit c -> c <> "0"%char -> Forall json_digit t -> no_digit r -> read_int (c :: t ++ r) = Some (c :: t, r).
Proof.
  intros H N F E. cbn [read_int].
  destruct (code c =? 48) eqn:Ec; [exfalso; apply N, code_inj; apply Z.eqb_eq in Ec; exact Ec|].
  rewrite (is_digit_json _ H). f_equal. apply (take_until (c :: t)); [constructor; assumption|exact E].
Qed.
Lemma read_number_text t r : number_text t -> ends_number r -> read_number (t ++ r) = Some (t, r).
Proof.
  intros (i & f & e & Hi & Hf & He & ->) E. pose proof (frac_start f e r Hf He E) as N.
  rewrite <- !app_assoc. unfold read_number. destruct Hi as [|c t H Nc F| |c t H Nc F].
  - change (starts_with 45 (($"0") ++ f ++ e ++ r)) with (@None (ascii * str)). cbv beta iota zeta.
    change ($"0" ++ f ++ e ++ r) with ("0"%char :: f ++ e ++ r). rewrite int_zero, (read_frac_text f e r Hf He E), (read_exp_text e r He E). reflexivity.
  - cbn [app starts_with]. replace (code c =? 45) with false by (unfold json_digit in H; lia). cbv beta iota zeta.
    rewrite (int_digits _ _ _ H Nc F N), (read_frac_text f e r Hf He E), (read_exp_text e r He E). reflexivity.
  - change (starts_with 45 (($"-0") ++ f ++ e ++ r)) with (Some ("-"%char, "0"%char :: f ++ e ++ r)). cbv beta iota zeta.
    rewrite int_zero, (read_frac_text f e r Hf He E), (read_exp_text e r He E). reflexivity.
  - change (starts_with 45 (("-"%char :: c :: t) ++ f ++ e ++ r)) with (Some ("-"%char, c :: t ++ f ++ e ++ r)). cbv beta iota zeta.
    rewrite (int_digits _ _ _ H Nc F N), (read_frac_text f e r Hf He E), (read_exp_text e r He E). reflexivity.
Qed.
Lemma some_pair {A B} (a c : A) (b d : B) : Some (a, b) = Some (c, d) -> a = c /\ b = d.
Proof. intro H. split; congruence. Qed.
Lemma starts_some n s c t : starts_with n s = Some (c, t) -> s = c :: t /\ code c = n.
Proof. destruct s as [|x s]; [discriminate|]. cbn. destruct (code x =? n) eqn:E; [|discriminate]. intro H. apply some_pair in H. destruct H as (-> & ->). split; [reflexivity|lia]. Qed.
Lemma starts_char n s c t : starts_with n s = Some (c, t) -> forall d, code d = n -> s = d :: t.
Proof. intros H d D. destruct (starts_some n s c t H) as (-> & E). f_equal. apply code_inj. congruence. Qed.
Lemma frac_read s f r : read_frac s = Some (f, r) -> fraction f /\ s = f ++ r.
Proof.
  unfold read_frac. destruct (starts_with 46 s) as [[c t]|] eqn:E.
  - destruct (starts_some _ _ _ _ E) as (-> & Ec). assert (c = "."%char) by (apply code_inj; exact Ec). subst c.
    destruct (take_digits t) as [[|x d] q] eqn:Et; [discriminate|]. intro H. apply some_pair in H. destruct H as (<- & <-). destruct (taken _ _ _ Et) as (F & ->).
    split; [constructor; split; [discriminate|exact F]|reflexivity].
  - intro H. apply some_pair in H. destruct H as (<- & <-). split; [constructor|reflexivity].
Qed.
Lemma exp_read s e r : read_exp s = Some (e, r) -> exponent e /\ s = e ++ r.
Proof.
  destruct s as [|c t]; [intro H; apply some_pair in H; destruct H as (<- & <-); split; [constructor|reflexivity]|]. cbn [read_exp].
  destruct ((code c =? 101) || (code c =? 69)) eqn:Ec; [|intro H; apply some_pair in H; destruct H as (<- & <-); split; [constructor|reflexivity]].
  assert (Hc : c = "e"%char \/ c = "E"%char).
  { destruct (code c =? 101) eqn:E1; [left|right]; apply code_inj; [change (code "e") with 101|change (code "E") with 69]; lia. }
  destruct (match t with d :: u => if (code d =? 43) || (code d =? 45) then ([d], u) else ([], t) | [] => ([], t) end) as [g u] eqn:Eg.
  assert (G : (g = [] \/ g = $"+" \/ g = $"-") /\ t = g ++ u).
  { destruct t as [|d v]; [injection Eg as <- <-; auto|]. destruct ((code d =? 43) || (code d =? 45)) eqn:Ed.
    - assert (X1 := f_equal fst Eg). assert (X2 := f_equal snd Eg). cbn in X1, X2. subst g u. split; [|reflexivity]. right.
      destruct (code d =? 43) eqn:E1; [left|right]; [replace d with "+"%char by (apply code_inj; change (code "+") with 43; lia)|replace d with "-"%char by (apply code_inj; change (code "-") with 45; lia)]; reflexivity.
    - assert (X1 := f_equal fst Eg). assert (X2 := f_equal snd Eg). cbn in X1, X2. subst g u. auto. }
  destruct G as (G & ->). destruct (take_digits u) as [[|x d] q] eqn:Et; [discriminate|]. intro H. apply some_pair in H. destruct H as (<- & <-). destruct (taken _ _ _ Et) as (F & ->).
  split; [constructor; [exact Hc|exact G|split; [discriminate|exact F]]|]. cbn [app]. rewrite <- app_assoc. reflexivity.
Qed.
Lemma int_read s i r : read_int s = Some (i, r) -> s = i ++ r /\ (i = $"0" \/ exists c t, i = c :: t /\ json_digit c /\ c <> "0"%char /\ Forall json_digit t).
Proof.
  destruct s as [|c s]; [discriminate|]. cbn [read_int]. destruct (code c =? 48) eqn:E.
  - intro H. apply some_pair in H. destruct H as (<- & <-). split; [reflexivity|]. left. replace c with "0"%char by (apply code_inj; change (code "0") with 48; lia). reflexivity.
  - destruct (is_digit c) eqn:D; [|discriminate]. intro H. cbn [take_digits] in H. rewrite D in H. destruct (take_digits s) as [a q] eqn:Et. apply some_pair in H. destruct H as (<- & <-).
    destruct (taken _ _ _ Et) as (F & ->). split; [reflexivity|]. right. exists c, a. split; [reflexivity|]. split; [unfold json_digit, is_digit in *; lia|]. split; [intros ->; discriminate E|exact F].
Qed.
Lemma number_read s t r : read_number s = Some (t, r) -> number_text t /\ s = t ++ r.
Proof.
  unfold read_number. intro H.
  assert (K : forall g u, (g = [] \/ g = $"-") ->
    match read_int u with None => None | Some (i, u') => match read_frac u' with None => None | Some (f, v) => match read_exp v with None => None | Some (e, q) => Some (g ++ i ++ f ++ e, q) end end end = Some (t, r) ->
    number_text t /\ g ++ u = t ++ r).
  { clear H. intros g u G H. destruct (read_int u) as [[i u']|] eqn:Ei; [|discriminate]. destruct (read_frac u') as [[f v]|] eqn:Ef; [|discriminate]. destruct (read_exp v) as [[e q]|] eqn:Ee; [|discriminate].
    apply some_pair in H. destruct H as (<- & <-). apply int_read in Ei. destruct Ei as (-> & Hi). apply frac_read in Ef. destruct Ef as (Hf & ->). apply exp_read in Ee. destruct Ee as (He & ->).
    split; [|rewrite <- !app_assoc; reflexivity]. exists (g ++ i), f, e. split; [|split; [exact Hf|split; [exact He|rewrite <- app_assoc; reflexivity]]].
    destruct G as [->| ->]; destruct Hi as [->|(c & w & -> & D & N & F)]; constructor; assumption. }
  destruct (starts_with 45 s) as [[c u]|] eqn:E.
  - destruct (starts_some _ _ _ _ E) as (-> & Ec). assert (c = "-"%char) by (apply code_inj; exact Ec). subst c. exact (K ($"-") u (or_intror eq_refl) H).
  - exact (K [] s (or_introl eq_refl) H).
Qed.

(** ** Values: from the grammar to the reader *)
Scheme value_mut := Minimality for value_text Sort Prop
  with items_text_mut := Minimality for items_text Sort Prop
  with members_text_mut := Minimality for members_text Sort Prop.
Combined Scheme value_all from value_mut, items_text_mut, members_text_mut.
Definition value_start (t : str) : Prop := exists c u, t = c :: u /\ is_space c = false /\ code c <> 93 /\ code c <> 125.
Lemma start_plain t r : value_start t -> starts_plain (t ++ r).
Proof. intros (c & u & -> & H & _). exact H. Qed.
Definition value_ok (v : json) (t : str) : Prop := value_start t /\
  forall w r k, blanks w -> ends_number r -> (2 * length (w ++ t ++ r) < k)%nat -> read_value k (w ++ t ++ r) = Some (v, r).
Definition items_ok (l : list json) (t : str) : Prop := (exists w u, blanks w /\ t = w ++ u /\ value_start u) /\
  forall r k, (2 * length (t ++ "]"%char :: r) + 1 < k)%nat -> read_items k (t ++ "]"%char :: r) = Some (l, r).
Definition members_ok (l : list (str * json)) (t : str) : Prop := (exists w u, blanks w /\ t = w ++ """"%char :: u) /\
  forall r k, (2 * length (t ++ "}"%char :: r) < k)%nat -> read_members k (t ++ "}"%char :: r) = Some (l, r).
Lemma number_first t : number_text t -> exists c u, t = c :: u /\ (json_digit c \/ c = "-"%char).
Proof. intros (i & f & e & Hi & _ & _ & ->). destruct (int_first i Hi) as (c & u & -> & H). exists c, (u ++ f ++ e). split; [reflexivity|exact H]. Qed.
Lemma blanks_end w c r : blanks w -> is_digit c = false -> code c <> 46 -> code c <> 101 -> code c <> 69 -> ends_number (w ++ c :: r).
Proof.
  intros W D H1 H2 H3. destruct W as [|x w B W]; [cbn; auto|]. cbn. destruct B as [->|B]; [repeat split; discriminate|]. unfold is_digit. repeat split; lia.
Qed.
Lemma blanks_only w : blanks w -> ends_number w.
Proof. intros [|c w' B _]; [exact I|]. cbn. destruct B as [->|B]; [repeat split; discriminate|]. unfold is_digit. repeat split; lia. Qed.
Lemma skip_blank w c r : blanks w -> is_space c = false -> skip_space (w ++ c :: r) = c :: r.
Proof. intros W H. apply skip_blanks; [exact W|exact H]. Qed.
Ltac start_now := do 2 eexists; repeat split; discriminate.
Lemma read_all :
  (forall v t, value_text v t -> value_ok v t) /\ (forall l t, items_text l t -> items_ok l t) /\ (forall l t, members_text l t -> members_ok l t).
Proof.
  apply value_all.
  - split; [start_now|]. intros w r [|k] W E L; [lia|]. cbn [read_value]. change ($"null" ++ r) with ("n"%char :: $"ull" ++ r). rewrite (skip_blank w _ _ W) by reflexivity. reflexivity.
  - split; [start_now|]. intros w r [|k] W E L; [lia|]. cbn [read_value]. change ($"true" ++ r) with ("t"%char :: $"rue" ++ r). rewrite (skip_blank w _ _ W) by reflexivity. reflexivity.
  - split; [start_now|]. intros w r [|k] W E L; [lia|]. cbn [read_value]. change ($"false" ++ r) with ("f"%char :: $"alse" ++ r). rewrite (skip_blank w _ _ W) by reflexivity. reflexivity.
  - intros t H. pose proof (fun r => read_number_text t r H) as R. destruct (number_first _ H) as (c & u & -> & Hc).
    assert (F : is_space c = false /\ code c <> 93 /\ code c <> 125 /\ code c <> 123 /\ code c <> 91 /\ code c <> 34 /\ code c <> 110 /\ code c <> 116 /\ code c <> 102).
    { destruct Hc as [Hc| ->]; [unfold json_digit in Hc; unfold is_space; repeat split; lia|]. repeat split; discriminate. }
    destruct F as (F & F1 & F2 & F3 & F4 & F5 & F6 & F7 & F8). split; [exists c, u; auto|]. intros w r [|k] W E L; [lia|].
    specialize (R r E). cbn [app] in *. cbn [read_value]. rewrite (skip_blank w _ _ W F).
    replace (code c =? 123) with false by lia. replace (code c =? 91) with false by lia. replace (code c =? 34) with false by lia.
    replace (code c =? 110) with false by lia. replace (code c =? 116) with false by lia. replace (code c =? 102) with false by lia.
    rewrite R. reflexivity.
  - intros b t H. split; [start_now|]. intros w r [|k] W E L; [lia|]. cbn [read_value].
    assert (X : w ++ ($"""" ++ t ++ $"""") ++ r = w ++ """"%char :: t ++ """"%char :: r) by (rewrite <- !app_assoc; reflexivity).
    rewrite X, (skip_blank w _ _ W) by reflexivity.
    change (code """" =? 123) with false. change (code """" =? 91) with false. change (code """" =? 34) with true. cbv iota. rewrite (read_body _ _ r H). reflexivity.
  - intros w0 W0. split; [start_now|]. intros w r [|k] W E L; [lia|]. cbn [read_value].
    assert (X : w ++ ($"[" ++ w0 ++ $"]") ++ r = w ++ "["%char :: w0 ++ "]"%char :: r) by (rewrite <- !app_assoc; reflexivity).
    rewrite X, (skip_blank w _ _ W) by reflexivity. change (code "[" =? 123) with false. change (code "[" =? 91) with true. cbv iota.
    rewrite (skip_blank w0 _ _ W0) by reflexivity. reflexivity.
  - intros l t H ((w1 & u & W1 & -> & c & u' & -> & F & F' & _) & IH). split; [start_now|]. intros w r [|k] W E L; [lia|]. cbn [read_value].
    assert (X : w ++ ($"[" ++ (w1 ++ c :: u') ++ $"]") ++ r = w ++ "["%char :: (w1 ++ c :: u') ++ "]"%char :: r) by (rewrite <- !app_assoc; reflexivity).
    rewrite X in *. rewrite (skip_blank w _ _ W) by reflexivity. change (code "[" =? 123) with false. change (code "[" =? 91) with true. cbv iota.
    rewrite (app_length w) in L. cbn [length] in L. rewrite IH by lia.
    rewrite <- app_assoc. cbn [app]. rewrite (skip_blank w1 _ _ W1 F). cbn [starts_with]. replace (code c =? 93) with false by lia. reflexivity.
  - intros w0 W0. split; [start_now|]. intros w r [|k] W E L; [lia|]. cbn [read_value].
    assert (X : w ++ ($"{" ++ w0 ++ $"}") ++ r = w ++ "{"%char :: w0 ++ "}"%char :: r) by (rewrite <- !app_assoc; reflexivity).
    rewrite X, (skip_blank w _ _ W) by reflexivity. change (code "{" =? 123) with true. cbv iota.
    rewrite (skip_blank w0 _ _ W0) by reflexivity. reflexivity.
  - intros l t H ((w1 & u & W1 & ->) & IH). split; [start_now|]. intros w r [|k] W E L; [lia|]. cbn [read_value].
    assert (X : w ++ ($"{" ++ (w1 ++ """"%char :: u) ++ $"}") ++ r = w ++ "{"%char :: (w1 ++ """"%char :: u) ++ "}"%char :: r) by (rewrite <- !app_assoc; reflexivity).
    rewrite X in *. rewrite (skip_blank w _ _ W) by reflexivity. change (code "{" =? 123) with true. cbv iota.
    rewrite (app_length w) in L. cbn [length] in L. rewrite IH by lia.
    rewrite <- app_assoc. cbn [app]. rewrite (skip_blank w1 _ _ W1) by reflexivity. reflexivity.
  - intros w v t w' W H (S & IH) W'. split; [destruct S as (c & u & -> & S); exists w, (c :: u ++ w'); split; [exact W|]; split; [reflexivity|]; exists c, (u ++ w'); auto|].
    intros r [|k] L; [lia|]. cbn [read_items].
    assert (X : (w ++ t ++ w') ++ "]"%char :: r = w ++ t ++ w' ++ "]"%char :: r) by (rewrite <- !app_assoc; reflexivity).
    rewrite X in *. rewrite IH; [|exact W|apply blanks_end; [exact W'|reflexivity|discriminate..]|lia]. rewrite (skip_blank w' _ _ W') by reflexivity. reflexivity.
  - intros w v t w' l u W H (S & IH) W' H2 (_ & IH2). split; [destruct S as (c & u' & -> & S); exists w, (c :: u' ++ w' ++ $"," ++ u); split; [exact W|]; split; [reflexivity|]; exists c, (u' ++ w' ++ $"," ++ u); auto|].
    intros r [|k] L; [lia|]. cbn [read_items].
    assert (X : (w ++ t ++ w' ++ $"," ++ u) ++ "]"%char :: r = w ++ t ++ w' ++ ","%char :: u ++ "]"%char :: r) by (rewrite <- !app_assoc; reflexivity).
    rewrite X in *. rewrite IH; [|exact W|apply blanks_end; [exact W'|reflexivity|discriminate..]|lia]. rewrite (skip_blank w' _ _ W') by reflexivity.
    change (code "," =? 93) with false. change (code "," =? 44) with true. cbv iota.
    destruct S as (c & u' & -> & _). rewrite !app_length in L. cbn [length] in L. rewrite !app_length in L. cbn [length] in L. rewrite IH2; [reflexivity|]. rewrite app_length. cbn [length]. lia.
  - intros w key kt w1 w2 v t w' W Hk W1 W2 H (S & IH) W'. split; [exists w; eexists; split; [exact W|]; reflexivity|].
    intros r [|k] L; [lia|]. cbn [read_members].
    assert (X : (w ++ $"""" ++ kt ++ $"""" ++ w1 ++ $":" ++ w2 ++ t ++ w') ++ "}"%char :: r = w ++ """"%char :: kt ++ """"%char :: w1 ++ ":"%char :: w2 ++ t ++ w' ++ "}"%char :: r)
      by (rewrite <- !app_assoc; reflexivity).
    rewrite X in *. rewrite (skip_blank w _ _ W) by reflexivity. cbn [starts_with]. change (code """" =? 34) with true. cbv iota.
    rewrite (read_body _ _ _ Hk), (skip_blank w1 _ _ W1) by reflexivity. cbn [starts_with]. change (code ":" =? 58) with true. cbv iota.
    rewrite (app_length w) in L. cbn [length] in L. rewrite (app_length kt) in L. cbn [length] in L. rewrite (app_length w1) in L. cbn [length] in L.
    rewrite IH; [|exact W2|apply blanks_end; [exact W'|reflexivity|discriminate..]|lia]. rewrite (skip_blank w' _ _ W') by reflexivity. reflexivity.
  - intros w key kt w1 w2 v t w' l u W Hk W1 W2 H (S & IH) W' H2 (_ & IH2). split; [exists w; eexists; split; [exact W|]; reflexivity|].
    intros r [|k] L; [lia|]. cbn [read_members].
    assert (X : (w ++ $"""" ++ kt ++ $"""" ++ w1 ++ $":" ++ w2 ++ t ++ w' ++ $"," ++ u) ++ "}"%char :: r = w ++ """"%char :: kt ++ """"%char :: w1 ++ ":"%char :: w2 ++ t ++ w' ++ ","%char :: u ++ "}"%char :: r)
      by (rewrite <- !app_assoc; reflexivity).
    rewrite X in *. rewrite (skip_blank w _ _ W) by reflexivity. cbn [starts_with]. change (code """" =? 34) with true. cbv iota.
    rewrite (read_body _ _ _ Hk), (skip_blank w1 _ _ W1) by reflexivity. cbn [starts_with]. change (code ":" =? 58) with true. cbv iota.
    rewrite (app_length w) in L. cbn [length] in L. rewrite (app_length kt) in L. cbn [length] in L. rewrite (app_length w1) in L. cbn [length] in L.
    rewrite IH; [|exact W2|apply blanks_end; [exact W'|reflexivity|discriminate..]|lia]. rewrite (skip_blank w' _ _ W') by reflexivity.
    change (code "," =? 125) with false. change (code "," =? 44) with true. cbv iota.
    rewrite !app_length in L. cbn [length] in L. rewrite !app_length in L. cbn [length] in L. rewrite IH2; [reflexivity|]. rewrite app_length. cbn [length]. lia.
Qed.
Theorem text_reads v t : json_text v t -> read_json t = Some v.
Proof.
  intros (w & u & w' & W & H & W' & ->). unfold read_json. destruct (proj1 read_all v u H) as (_ & R).
  rewrite (R w w' (S (length (w ++ u ++ w') + length (w ++ u ++ w'))) W (blanks_only w' W') ltac:(lia)).
  replace (skip_space w') with (@nil ascii); [reflexivity|]. rewrite <- (app_nil_r w'). symmetry. apply skip_blanks; [exact W'|exact I].
Qed.

(** ** Values: from the reader to the grammar *)
Lemma strip_some p s r : strip p s = Some r -> s = p ++ r.
Proof.
  revert s. induction p as [|a p IH]; intros s H; [injection H as <-; reflexivity|]. destruct s as [|b s]; [discriminate|]. cbn [strip] in H.
  destruct (Ascii.eqb a b) eqn:E; [|discriminate]. apply Ascii.eqb_eq in E. subst b. cbn [app]. f_equal. exact (IH s H).
Qed.
Lemma char_is c d : (code c =? code d) = true -> c = d.
Proof. intro H. apply code_inj. lia. Qed.
Lemma all_read k :
  (forall s v r, read_value k s = Some (v, r) -> exists w t, blanks w /\ value_text v t /\ s = w ++ t ++ r) /\
  (forall s l r, read_items k s = Some (l, r) -> exists t, items_text l t /\ s = t ++ "]"%char :: r) /\
  (forall s l r, read_members k s = Some (l, r) -> exists t, members_text l t /\ s = t ++ "}"%char :: r).
Proof.
  induction k as [|k (IHv & IHi & IHm)]; [repeat split; intros; discriminate|]. split; [|split].
  - intros s v r H. cbn [read_value] in H. destruct (skip_split s) as (w & W & Es & _). destruct (skip_space s) as [|c t]; [discriminate|]. subst s. exists w.
    destruct (code c =? 123) eqn:E1.
    { apply (char_is c "{") in E1. subst c. destruct (skip_split t) as (w0 & W0 & Et & _). destruct (starts_with 125 (skip_space t)) as [[x q]|] eqn:E.
      - apply some_pair in H. destruct H as (<- & <-). rewrite (starts_char _ _ _ _ E "}"%char eq_refl) in Et. subst t. exists ($"{" ++ w0 ++ $"}").
        split; [exact W|]. split; [constructor; exact W0|]. rewrite <- !app_assoc. reflexivity.
      - destruct (read_members k t) as [[l q]|] eqn:El; [|discriminate]. apply some_pair in H. destruct H as (<- & <-). destruct (IHm _ _ _ El) as (u & Hu & ->).
        exists ($"{" ++ u ++ $"}"). split; [exact W|]. split; [constructor; exact Hu|]. rewrite <- !app_assoc. reflexivity. }
    destruct (code c =? 91) eqn:E2.
    { apply (char_is c "[") in E2. subst c. destruct (skip_split t) as (w0 & W0 & Et & _). destruct (starts_with 93 (skip_space t)) as [[x q]|] eqn:E.
      - apply some_pair in H. destruct H as (<- & <-). rewrite (starts_char _ _ _ _ E "]"%char eq_refl) in Et. subst t. exists ($"[" ++ w0 ++ $"]").
        split; [exact W|]. split; [constructor; exact W0|]. rewrite <- !app_assoc. reflexivity.
      - destruct (read_items k t) as [[l q]|] eqn:El; [|discriminate]. apply some_pair in H. destruct H as (<- & <-). destruct (IHi _ _ _ El) as (u & Hu & ->).
        exists ($"[" ++ u ++ $"]"). split; [exact W|]. split; [constructor; exact Hu|]. rewrite <- !app_assoc. reflexivity. }
    destruct (code c =? 34) eqn:E3.
    { apply (char_is c """") in E3. subst c. destruct (read_string t) as [[b q]|] eqn:Et; [|discriminate]. apply some_pair in H. destruct H as (<- & <-).
      destruct (body_read _ _ _ _ (le_n _) Et) as (u & Hu & ->). exists ($"""" ++ u ++ $""""). split; [exact W|]. split; [constructor; exact Hu|]. rewrite <- !app_assoc. reflexivity. }
    destruct (code c =? 110) eqn:E4.
    { apply (char_is c "n") in E4. subst c. destruct (strip ($"ull") t) as [q|] eqn:Et; [|discriminate]. apply some_pair in H. destruct H as (<- & <-). apply strip_some in Et. subst t.
      exists ($"null"). split; [exact W|]. split; [constructor|reflexivity]. }
    destruct (code c =? 116) eqn:E5.
    { apply (char_is c "t") in E5. subst c. destruct (strip ($"rue") t) as [q|] eqn:Et; [|discriminate]. apply some_pair in H. destruct H as (<- & <-). apply strip_some in Et. subst t.
      exists ($"true"). split; [exact W|]. split; [constructor|reflexivity]. }
    destruct (code c =? 102) eqn:E6.
    { apply (char_is c "f") in E6. subst c. destruct (strip ($"alse") t) as [q|] eqn:Et; [|discriminate]. apply some_pair in H. destruct H as (<- & <-). apply strip_some in Et. subst t.
      exists ($"false"). split; [exact W|]. split; [constructor|reflexivity]. }
    destruct (read_number (c :: t)) as [[n q]|] eqn:En; [|discriminate]. apply some_pair in H. destruct H as (<- & <-). destruct (number_read _ _ _ En) as (Hn & ->).
    exists n. split; [exact W|]. split; [constructor; exact Hn|reflexivity].
  - intros s l r H. cbn [read_items] in H. destruct (read_value k s) as [[x u]|] eqn:Ev; [|discriminate]. destruct (IHv _ _ _ Ev) as (w & t & W & Ht & ->).
    destruct (skip_split u) as (w' & W' & Eu & _). destruct (skip_space u) as [|c q]; [discriminate|]. subst u. destruct (code c =? 93) eqn:E1.
    + apply (char_is c "]") in E1. subst c. apply some_pair in H. destruct H as (<- & <-). exists (w ++ t ++ w'). split; [constructor; assumption|]. rewrite <- !app_assoc. reflexivity.
    + destruct (code c =? 44) eqn:E2; [|discriminate]. apply (char_is c ",") in E2. subst c. destruct (read_items k q) as [[l' q']|] eqn:El; [|discriminate].
      apply some_pair in H. destruct H as (<- & <-). destruct (IHi _ _ _ El) as (u & Hu & ->). exists (w ++ t ++ w' ++ $"," ++ u). split; [constructor; assumption|]. rewrite <- !app_assoc. reflexivity.
  - intros s l r H. cbn [read_members] in H. destruct (skip_split s) as (w & W & Es & _). destruct (starts_with 34 (skip_space s)) as [[x t]|] eqn:E1; [|discriminate].
    rewrite (starts_char _ _ _ _ E1 """"%char eq_refl) in Es. subst s. destruct (read_string t) as [[key u]|] eqn:Ek; [|discriminate]. destruct (body_read _ _ _ _ (le_n _) Ek) as (kt & Hk & ->).
    destruct (skip_split u) as (w1 & W1 & Eu & _). destruct (starts_with 58 (skip_space u)) as [[y v]|] eqn:E2; [|discriminate].
    rewrite (starts_char _ _ _ _ E2 ":"%char eq_refl) in Eu. subst u. destruct (read_value k v) as [[z q]|] eqn:Ev; [|discriminate]. destruct (IHv _ _ _ Ev) as (w2 & t' & W2 & Ht & ->).
    destruct (skip_split q) as (w' & W' & Eq & _). destruct (skip_space q) as [|c q']; [discriminate|]. subst q. destruct (code c =? 125) eqn:E3.
    + apply (char_is c "}") in E3. subst c. apply some_pair in H. destruct H as (<- & <-). exists (w ++ $"""" ++ kt ++ $"""" ++ w1 ++ $":" ++ w2 ++ t' ++ w'). split; [constructor; assumption|]. rewrite <- !app_assoc. reflexivity.
    + destruct (code c =? 44) eqn:E4; [|discriminate]. apply (char_is c ",") in E4. subst c. destruct (read_members k q') as [[l' q2]|] eqn:El; [|discriminate].
      apply some_pair in H. destruct H as (<- & <-). destruct (IHm _ _ _ El) as (u & Hu & ->). exists (w ++ $"""" ++ kt ++ $"""" ++ w1 ++ $":" ++ w2 ++ t' ++ w' ++ $"," ++ u). split; [constructor; assumption|]. rewrite <- !app_assoc. reflexivity.
Qed.
Theorem read_text v t : read_json t = Some v -> json_text v t.
Proof.
  unfold read_json. intro H. destruct (read_value (S (length t + length t)) t) as [[x r]|] eqn:E; [|discriminate]. destruct (proj1 (all_read _) _ _ _ E) as (w & u & W & Hu & ->).
  destruct (skip_split r) as (w' & W' & Er & _). destruct (skip_space r) as [|c q]; [|discriminate]. injection H as <-. rewrite app_nil_r in Er. subst r. exists w, u, w'. auto.
Qed.
Theorem reads_exactly v t : read_json t = Some v <-> json_text v t.
Proof. split; [apply read_text|apply text_reads]. Qed.
(** One tree for each text. *)
Theorem text_once v v' t : json_text v t -> json_text v' t -> v = v'.
Proof. intros H H'. apply text_reads in H, H'. congruence. Qed.
