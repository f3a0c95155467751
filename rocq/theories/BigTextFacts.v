(** The texts that big.ParseFloat takes. *)
From Coq Require Import Ascii String ZArith NArith Bool Lia ZifyBool List.
From Verif Require Import GoStr GoBig SpecText SpecForms SpecNotation StrFacts TextFacts Edtf Common ErrText CalFacts ApiFacts GrammarFacts SigProofs ExpProofs BigText.
Import ListNotations.
Open Scope Z_scope.

(** ** Digits *)
Lemma span_out s : forall acc, Forall (fun c => is_digit c = true) (rev acc) ->
  exists ds r, span_digits s acc = (rev acc ++ ds, r) /\ s = ds ++ r /\ Forall (fun c => is_digit c = true) ds /\ (forall c t, r = c :: t -> is_digit c = false).
Proof.
  induction s as [|c s IH]; intros acc F; cbn [span_digits].
  - exists [], []. rewrite app_nil_r. repeat split; [constructor|discriminate].
  - destruct (is_digit c) eqn:D.
    + destruct (IH (c :: acc)) as (ds & r & E & Q & G & N); [cbn [rev]; apply Forall_app; split; [exact F|constructor; [exact D|constructor]]|].
      exists (c :: ds), r. rewrite E. cbn [rev]. rewrite <- app_assoc. split; [reflexivity|]. split; [rewrite Q; reflexivity|]. split; [constructor; assumption|exact N].
    + exists [], (c :: s). rewrite app_nil_r. split; [reflexivity|]. split; [reflexivity|]. split; [constructor|]. intros x t Q. injection Q as <- _. exact D.
Qed.
Lemma span_exact ds r : Forall (fun c => is_digit c = true) ds -> (forall c t, r = c :: t -> is_digit c = false) -> span_digits (ds ++ r) [] = (ds, r).
Proof. intros H N. rewrite span_digits_app by assumption. reflexivity. Qed.
Lemma span_split s : exists ds r, span_digits s [] = (ds, r) /\ s = ds ++ r /\ Forall (fun c => is_digit c = true) ds /\ (forall c t, r = c :: t -> is_digit c = false).
Proof. exact (span_out s [] (Forall_nil _)). Qed.
Lemma digits_dec ds : ds <> [] -> Forall (fun c => is_digit c = true) ds -> dec_digits ds (nat_val ds).
Proof.
  intros N F. destruct (proj2 (dec_val_digits ds 0) F) as (v & E). apply dec_digits_iff. split; [exact N|]. unfold nat_val. rewrite E. reflexivity.
Qed.
Lemma dec_all ds v : dec_digits ds v -> Forall (fun c => is_digit c = true) ds.
Proof. intro H. exact (proj2 (digits_text_dec _ _ H)). Qed.
Lemma dec_some ds v : dec_digits ds v -> ds <> [].
Proof. intro H. exact (proj1 (digits_text_dec _ _ H)). Qed.

(** ** Signs *)
Lemma sign_scanned sg neg c t : any_sign sg neg -> (c <> "-"%char /\ c <> "+"%char) -> scan_sign (sg ++ c :: t) = Some (neg, c :: t).
Proof.
  intros H (A & B). destruct H; cbn [app]; [|reflexivity|reflexivity].
  unfold scan_sign. apply Ascii.eqb_neq in A, B. rewrite A, B. reflexivity.
Qed.
Lemma sign_out s neg t : scan_sign s = Some (neg, t) -> exists sg, any_sign sg neg /\ s = sg ++ t.
Proof.
  destruct s as [|c u]; [discriminate|]. unfold scan_sign. destruct (Ascii.eqb_spec c "-") as [->|].
  - intro H. injection H as <- <-. exists ($"-"). split; [constructor|reflexivity].
  - destruct (Ascii.eqb_spec c "+") as [->|].
    + intro H. injection H as <- <-. exists ($"+"). split; [constructor|reflexivity].
    + intro H. injection H as <- <-. exists []. split; [constructor|reflexivity].
Qed.
Lemma digit_no_sign c : is_digit c = true -> c <> "-"%char /\ c <> "+"%char.
Proof. intro H. split; intros ->; discriminate. Qed.

(** ** The mantissa *)
Definition no_more (r : str) : Prop := forall c t, r = c :: t -> is_digit c = false /\ c <> "."%char.
Lemma mantissa_scanned ms m f r : pointed ms m f -> no_more r ->
  exists ds, scan_mantissa (ms ++ r) = (ds, f, r) /\ dec_digits ds m.
Proof.
  intros H N. destruct H as [ds m D|ds fs m D].
  - exists ds. split; [|exact D]. unfold scan_mantissa. rewrite span_exact; [|exact (dec_all _ _ D)|intros c t Q; exact (proj1 (N c t Q))].
    destruct r as [|c t]; [reflexivity|]. destruct (N c t eq_refl) as (_ & P). apply Ascii.eqb_neq in P. rewrite P. reflexivity.
  - exists (ds ++ fs). split; [|exact D]. pose proof (dec_all _ _ D) as F. apply Forall_app in F. destruct F as (F1 & F2).
    unfold scan_mantissa. rewrite <- app_assoc. cbn [app]. rewrite span_exact; [|exact F1|intros c t Q; injection Q as <- _; reflexivity].
    rewrite Ascii.eqb_refl. rewrite span_exact; [reflexivity|exact F2|intros c t Q; exact (proj1 (N c t Q))].
Qed.
Lemma mantissa_out s ds f r : scan_mantissa s = (ds, f, r) -> ds <> [] -> exists ms, s = ms ++ r /\ pointed ms (nat_val ds) f.
Proof.
  unfold scan_mantissa. destruct (span_split s) as (d1 & r1 & -> & -> & F1 & N1). destruct r1 as [|c w].
  - intro H. injection H as <- <- <-. intro N. exists d1. split; [reflexivity|]. constructor. apply digits_dec; assumption.
  - destruct (Ascii.eqb_spec c ".") as [->|P].
    + destruct (span_split w) as (d2 & r2 & -> & -> & F2 & N2). intro H. injection H as <- <- <-. intro N. exists (d1 ++ "."%char :: d2).
      split; [rewrite <- app_assoc; reflexivity|]. constructor. apply digits_dec; [exact N|]. apply Forall_app. split; assumption.
    + intro H. injection H as <- <- <-. intro N. exists d1. split; [reflexivity|]. constructor. apply digits_dec; assumption.
Qed.
Lemma pointed_head ms m f : pointed ms m f -> exists c t, ms = c :: t /\ c <> "-"%char /\ c <> "+"%char.
Proof.
  intro H. destruct H as [ds m D|ds fs m D].
  - pose proof (dec_all _ _ D) as F. destruct ds as [|c t]; [destruct (dec_some _ _ D eq_refl)|]. exists c, t. split; [reflexivity|]. inversion F; subst. apply digit_no_sign. assumption.
  - pose proof (dec_all _ _ D) as F. destruct ds as [|c t]; [exists "."%char, fs; repeat split; discriminate|]. exists c, (t ++ "."%char :: fs). split; [reflexivity|].
    inversion F; subst. apply digit_no_sign. assumption.
Qed.
Lemma pointed_range ms m f : pointed ms m f -> 0 <= m /\ 0 <= f.
Proof. intro H. destruct H as [ds m D|ds fs m D]; pose proof (ExpProofs.nat_val_dec _ _ D); split; try lia; exact (SigProofs.dec_nonneg _ _ D). Qed.

(** ** The exponent *)
Definition fits (x : Z) : Prop := - 2 ^ 63 <= x < 2 ^ 63.
Lemma fits_iff x : fits x <-> (x <? min_int64) || (max_int64 <? x) = false.
Proof. unfold fits, min_int64, max_int64. change (2 ^ 63) with 9223372036854775808. lia. Qed.
Lemma exponent_scanned es b x : exponent es b x ->
  (fits x -> scan_exponent es = inr (b, x, [])) /\ (~ fits x -> exists w, scan_exponent es = inl w).
Proof.
  intro H. rewrite fits_iff. destruct H as [|c sg neg es e Hc Hs He|c sg neg es e Hc Hs He].
  - split; [reflexivity|]. intro N. destruct (N eq_refl).
  - pose proof (dec_all _ _ He) as F. destruct es as [|d es]; [destruct (dec_some _ _ He eq_refl)|].
    assert (S : scan_sign (sg ++ d :: es) = Some (neg, d :: es)) by (apply sign_scanned; [exact Hs|]; inversion F; subst; apply digit_no_sign; assumption).
    assert (Sp : span_digits (d :: es) [] = (d :: es, [])) by (rewrite <- (app_nil_r (d :: es)) at 1; apply span_exact; [exact F|discriminate]).
    unfold scan_exponent. replace (exponent_base c) with (Some 10) by (destruct Hc as [->| ->]; reflexivity). rewrite S, Sp, (nat_val_dec _ _ He). unfold signed.
    split; intro Q; [rewrite Q; reflexivity|]. apply not_false_iff_true in Q. rewrite Q. eexists. reflexivity.
  - pose proof (dec_all _ _ He) as F. destruct es as [|d es]; [destruct (dec_some _ _ He eq_refl)|].
    assert (S : scan_sign (sg ++ d :: es) = Some (neg, d :: es)) by (apply sign_scanned; [exact Hs|]; inversion F; subst; apply digit_no_sign; assumption).
    assert (Sp : span_digits (d :: es) [] = (d :: es, [])) by (rewrite <- (app_nil_r (d :: es)) at 1; apply span_exact; [exact F|discriminate]).
    unfold scan_exponent. replace (exponent_base c) with (Some 2) by (destruct Hc as [->| ->]; reflexivity). rewrite S, Sp, (nat_val_dec _ _ He). unfold signed.
    split; intro Q; [rewrite Q; reflexivity|]. apply not_false_iff_true in Q. rewrite Q. eexists. reflexivity.
Qed.
Lemma base_out c b : exponent_base c = Some b -> b = 10 /\ (c = "e"%char \/ c = "E"%char) \/ b = 2 /\ (c = "p"%char \/ c = "P"%char).
Proof.
  unfold exponent_base. destruct (Ascii.eqb_spec c "e") as [->|]; [intro H; injection H as <-; auto|]. destruct (Ascii.eqb_spec c "E") as [->|]; [intro H; injection H as <-; auto|].
  destruct (Ascii.eqb_spec c "p") as [->|]; [intro H; injection H as <-; auto|]. destruct (Ascii.eqb_spec c "P") as [->|]; [intro H; injection H as <-; auto|discriminate].
Qed.
Lemma exponent_out s b x r : scan_exponent s = inr (b, x, r) -> fits x /\ exists es, s = es ++ r /\ exponent es b x.
Proof.
  unfold scan_exponent. destruct s as [|c w]; [intro H; injection H as <- <- <-; split; [unfold fits; lia|]; exists []; split; [reflexivity|constructor]|].
  destruct (exponent_base c) as [b0|] eqn:Eb; [|intro H; injection H as <- <- <-; split; [unfold fits; lia|]; exists []; split; [reflexivity|constructor]].
  assert (S : exists sg neg u, (match scan_sign w with Some p => p | None => (false, w) end) = (neg, u) /\ any_sign sg neg /\ w = sg ++ u).
  { destruct (scan_sign w) as [(neg & u)|] eqn:E; [destruct (sign_out _ _ _ E) as (sg & A & B); exists sg, neg, u; auto|]. exists [], false, w. split; [reflexivity|]. split; [constructor|reflexivity]. }
  destruct S as (sg & neg & u & -> & Hs & ->). destruct (span_split u) as (es & r0 & -> & -> & F & _). destruct es as [|d es]; [discriminate|].
  set (v := if neg then - nat_val (d :: es) else nat_val (d :: es)). destruct ((v <? min_int64) || (max_int64 <? v)) eqn:O; [discriminate|].
  intro H. injection H as <- <- <-. split; [apply fits_iff; exact O|]. exists (c :: sg ++ d :: es). split; [cbn [app]; rewrite <- !app_assoc; reflexivity|].
  assert (D : dec_digits (d :: es) (nat_val (d :: es))) by (apply digits_dec; [discriminate|exact F]).
  change v with (signed neg (nat_val (d :: es))). destruct (base_out _ _ Eb) as [(-> & Hc)|(-> & Hc)]; [apply ex_decimal|apply ex_binary]; assumption.
Qed.
Lemma exponent_no_more es b x : exponent es b x -> no_more es.
Proof.
  intros H c t Q. destruct H as [|d sg neg es e Hc Hs He|d sg neg es e Hc Hs He]; [discriminate| |]; injection Q as <- _; destruct Hc as [->| ->]; split; (reflexivity || discriminate).
Qed.

(** ** The whole text *)
Lemma value_some m f b x : 0 <= m -> (m = 0 \/ - 2147483648 <= Z.log2 m + 1 - f + x <= 2147483647) <-> (exists v, float_value m f b x = Some v).
Proof.
  intro Hm. unfold float_value. destruct (m =? 0) eqn:E; [split; [intros _; eexists; reflexivity|intros _; left; lia]|].
  unfold bitlen, min_exp, max_exp. rewrite E.
  destruct ((Z.log2 m + 1 - f + x <? - 2147483648) || (2147483647 <? Z.log2 m + 1 - f + x)) eqn:O; [split; [intro; lia|intros (v & Q); discriminate]|].
  split; [intros _|intros _; right; lia]. set (g := if b =? 10 then x - f else - f). destruct (g =? 0); try (eexists; reflexivity). destruct (g <? 0); try (eexists; reflexivity).
  destruct (bf_pow5 (- g)) as [(p & q)|]; eexists; reflexivity.
Qed.
Lemma number_range t neg m f b x : number_text t neg m f b x -> 0 <= m /\ 0 <= f /\ (b = 10 \/ b = 2).
Proof.
  intro H. destruct H as [sg neg ms m f es b x _ Hm He]. destruct (pointed_range _ _ _ Hm). split; [assumption|]. split; [assumption|]. destruct He; auto.
Qed.
Lemma number_scanned t neg m f b x : number_text t neg m f b x ->
  (forall v, fits x -> float_value m f b x = Some v -> float_scan t = inr (neg, v, [])) /\
  (~ fits x \/ float_value m f b x = None -> exists w, float_scan t = inl w).
Proof.
  intro H. destruct H as [sg neg ms m f es b x Hs Hm He]. destruct (pointed_head _ _ _ Hm) as (c & u & Eu & Nc).
  assert (S : scan_sign (sg ++ ms ++ es) = Some (neg, ms ++ es)) by (rewrite Eu; cbn [app]; apply sign_scanned; assumption).
  destruct (mantissa_scanned ms m f es Hm (exponent_no_more _ _ _ He)) as (ds & M & D). destruct (exponent_scanned _ _ _ He) as (X1 & X2).
  unfold float_scan. rewrite S, M. destruct ds as [|d ds]; [destruct (dec_some _ _ D eq_refl)|]. rewrite (nat_val_dec _ _ D). split.
  - intros v F E. rewrite (X1 F), E. reflexivity.
  - intros [F|E].
    + destruct (X2 F) as (w & ->). exists w. reflexivity.
    + destruct (scan_exponent es) as [w|((b0 & x0) & r)] eqn:Ex; [exists w; reflexivity|].
      destruct (exponent_out _ _ _ _ Ex) as (F & _). destruct ((x <? min_int64) || (max_int64 <? x)) eqn:O.
      * destruct (X2 ltac:(rewrite fits_iff, O; discriminate)) as (w & W). discriminate.
      * specialize (X1 ltac:(rewrite fits_iff; exact O)). injection X1 as -> -> ->. rewrite E. eexists. reflexivity.
Qed.
Lemma number_out t neg v : float_scan t = inr (neg, v, []) -> exists m f b x, number_text t neg m f b x /\ fits x /\ float_value m f b x = Some v.
Proof.
  unfold float_scan. destruct (scan_sign t) as [(n & u)|] eqn:S; [|discriminate]. destruct (scan_mantissa u) as ((ds & f) & r) eqn:M. destruct ds as [|d ds]; [discriminate|].
  destruct (scan_exponent r) as [w|((b & x) & r')] eqn:X; [discriminate|]. destruct (float_value (nat_val (d :: ds)) f b x) as [v0|] eqn:V; [|discriminate].
  intro H. injection H as -> -> ->. destruct (sign_out _ _ _ S) as (sg & Hs & ->). destruct (mantissa_out _ _ _ _ M ltac:(discriminate)) as (ms & -> & Hm).
  destruct (exponent_out _ _ _ _ X) as (F & es & -> & He). rewrite app_nil_r. exists (nat_val (d :: ds)), f, b, x. split; [constructor; assumption|]. split; assumption.
Qed.

(** ** Infinities *)
Definition infb (t : str) : bool := is_inf t || match t with c :: u => (Ascii.eqb c "+" || Ascii.eqb c "-") && is_inf u | [] => false end.
Lemma is_inf_iff t : is_inf t = true <-> t = $"Inf" \/ t = $"inf".
Proof. unfold is_inf. rewrite orb_true_iff, !seqb_eq. tauto. Qed.
Lemma infb_iff t : infb t = true <-> infinity_text t.
Proof.
  unfold infb, infinity_text. rewrite orb_true_iff, is_inf_iff. split.
  - intros [H|H]; [exists []; split; [left; reflexivity|exact H]|]. destruct t as [|c u]; [discriminate|]. apply andb_true_iff in H. destruct H as (C & I). apply is_inf_iff in I.
    apply orb_true_iff in C. rewrite !Ascii.eqb_eq in C. destruct C as [->| ->]; [exists ($"+")|exists ($"-")]; (split; [cbn; tauto|]); destruct I as [->| ->]; auto.
  - intros (sg & [<-|[<-|[<-|[]]]] & [->| ->]); auto.
Qed.
Lemma number_no_inf t neg m f b x : number_text t neg m f b x -> infb t = false.
Proof.
  intro H. destruct (infb t) eqn:E; [exfalso|reflexivity]. apply infb_iff in E. destruct H as [sg neg ms m f es b x Hs Hm He].
  destruct (pointed_head _ _ _ Hm) as (c & u & -> & N). assert (C : is_digit c = true \/ c = "."%char).
  { inversion Hm as [ds m' D Q|ds fs m' D Q]; subst.
    - left. pose proof (dec_all _ _ D) as F. inversion F; subst; assumption.
    - destruct ds as [|d ds]; [injection Q as <- _; right; reflexivity|]. injection Q as <- _. left. pose proof (dec_all _ _ D) as F. inversion F; subst; assumption. }
  destruct E as (sg' & I & E). assert (c = "I"%char \/ c = "i"%char).
  { destruct Hs; destruct I as [<-|[<-|[<-|[]]]]; destruct E as [E|E]; cbn in E; injection E; intros; subst; try discriminate; auto; destruct N as (N1 & N2); congruence. }
  destruct C as [C|C]; destruct H as [H|H]; rewrite H in C; discriminate.
Qed.

(** ** What ParseNotation does *)
Definition answer (t : str) (neg : bool) (v : bnum) : res Z :=
  match v with
  | BInf => Panic
  | _ => let y := match v with BFin m e => int64_part neg m e | _ => 0 end in
         if (MAX_YEARS <? y) || (y <? 0 - MAX_YEARS) then Err (Unsupported ($"exponential notation") t) else OK y
  end.
Lemma parse_infb t : float_parse t = if infb t then SInf else
  match float_scan t with inl message => SFault message | inr (neg, v, []) => SNum neg v | inr (_, _, c :: _) => SFault ($"expected end of string, found " ++ quoted_rune c) end.
Proof. unfold float_parse, infb. destruct (is_inf t); [reflexivity|]. destruct t as [|c u]; [reflexivity|]. cbn [orb]. destruct (_ && _); reflexivity. Qed.
Lemma notation_inf t : infinity_text t -> ParseNotation t = Panic.
Proof. intro H. apply infb_iff in H. unfold ParseNotation. rewrite parse_infb, H. reflexivity. Qed.
Lemma notation_answer t neg m f b x v : number_text t neg m f b x -> fits x -> float_value m f b x = Some v -> ParseNotation t = answer t neg v.
Proof.
  intros H F E. unfold ParseNotation. rewrite parse_infb, (number_no_inf _ _ _ _ _ _ H), (proj1 (number_scanned _ _ _ _ _ _ H) v F E). destruct v; reflexivity.
Qed.
Lemma notation_cases t :
  infinity_text t \/ (exists neg m f b x v, number_text t neg m f b x /\ fits x /\ float_value m f b x = Some v) \/
  (~ infinity_text t /\ ParseNotation t = Err (EBig t) /\ notation_fault t <> None /\
   (forall neg m f b x v, number_text t neg m f b x -> fits x -> float_value m f b x = Some v -> False)).
Proof.
  destruct (infb t) eqn:I; [left; apply infb_iff; exact I|right].
  assert (NI : ~ infinity_text t) by (rewrite <- infb_iff, I; discriminate).
  assert (G : (forall neg v, float_scan t <> inr (neg, v, [])) -> forall neg m f b x v, number_text t neg m f b x -> fits x -> float_value m f b x = Some v -> False).
  { intros N neg m f b x v H F E. exact (N _ _ (proj1 (number_scanned _ _ _ _ _ _ H) v F E)). }
  unfold ParseNotation, notation_fault. rewrite parse_infb, I. destruct (float_scan t) as [w|((neg & v) & [|c r])] eqn:S.
  - right. split; [exact NI|]. split; [reflexivity|]. split; [discriminate|]. apply G. discriminate.
  - left. destruct (number_out _ _ _ S) as (m & f & b & x & H). exists neg, m, f, b, x, v. exact H.
  - right. split; [exact NI|]. split; [reflexivity|]. split; [discriminate|]. apply G. discriminate.
Qed.
Lemma answer_no_big t neg v : answer t neg v <> Err (EBig t).
Proof. unfold answer. destruct v; try discriminate; cbv zeta; destruct (_ || _); discriminate. Qed.
(** The texts that big.ParseFloat refuses. *)
Lemma notation_refuses t : ParseNotation t = Err (EBig t) <->
  ~ infinity_text t /\ forall neg m f b x, number_text t neg m f b x -> ~ in_scale m f x.
Proof.
  assert (SC : forall neg m f b x, number_text t neg m f b x -> in_scale m f x <-> fits x /\ exists v, float_value m f b x = Some v).
  { intros neg m f b x H. unfold in_scale. rewrite (value_some m f b x); [reflexivity|]. exact (proj1 (number_range _ _ _ _ _ _ H)). }
  split.
  - intro E. split; [intro I; rewrite (notation_inf t I) in E; discriminate|]. intros neg m f b x H Q. apply (SC _ _ _ _ _ H) in Q. destruct Q as (F & v & V).
    rewrite (notation_answer _ _ _ _ _ _ _ H F V) in E. exact (answer_no_big _ _ _ E).
  - intros (NI & N). destruct (notation_cases t) as [I|[(neg & m & f & b & x & v & H & F & V)|(_ & E & _)]]; [contradiction| |exact E].
    exfalso. apply (N _ _ _ _ _ H). apply (SC _ _ _ _ _ H). eauto.
Qed.
Lemma notation_zero t neg f b x : number_text t neg 0 f b x -> - 2 ^ 63 <= x < 2 ^ 63 -> ParseNotation t = OK 0.
Proof. intros H F. rewrite (notation_answer t neg 0 f b x BZero H F eq_refl). reflexivity. Qed.
