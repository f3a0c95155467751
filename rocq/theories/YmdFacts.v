(** The meaning of a date text: exactly which texts dateSpanFromYMD accepts and
    which span it returns, in terms of year, month and day numbers. *)
From Coq Require Import Ascii String ZArith NArith Bool Lia ZifyBool List.
From Verif Require Import GoStr GoTime Regex Patterns RegexSym SpecCal SpecText StrFacts TextFacts Edtf Calendar Common CalFacts ApiFacts SpanFacts YmdShapes.
Import ListNotations.
Open Scope Z_scope.
Ltac Zify.zify_post_hook ::= Z.div_mod_to_equations.

Notation X := "X"%char.
Definition is_dx (c : ascii) : bool := is_digit c || Ascii.eqb c X.
Lemma in_dx c : in_set dx c = is_dx c.
Proof. unfold in_set, dx, is_dx, is_digit. rewrite eqb_code. change (code X) with 88. cbn [existsb fst snd]. lia. Qed.

(** ** Cores *)
Lemma fits4 a b c d s : fits [a; b; c; d] s -> exists w x y z, s = [w; x; y; z] /\
  in_set a w = true /\ in_set b x = true /\ in_set c y = true /\ in_set d z = true.
Proof.
  intro H. inversion H as [|? w ? l Ha H1]; subst. inversion H1 as [|? x ? l1 Hb H2]; subst.
  inversion H2 as [|? y ? l2 Hc H3]; subst. inversion H3 as [|? z ? l3 Hd H4]; subst. inversion H4; subst. eauto 10.
Qed.
Lemma fits2 a b s : fits [a; b] s -> exists w x, s = [w; x] /\ in_set a w = true /\ in_set b x = true.
Proof.
  intro H. inversion H as [|? w ? l Ha H1]; subst. inversion H1 as [|? x ? l1 Hb H2]; subst. inversion H2; subst. eauto 10.
Qed.
Lemma year_core s : core_in year_shapes s <-> exists a b c d, (s = [a; b; c; d] \/ s = ["-"%char; a; b; c; d]) /\
  is_dx a = true /\ is_dx b = true /\ is_dx c = true /\ is_dx d = true.
Proof.
  split.
  - intros (sh & Hin & Hf). unfold year_shapes in Hin. destruct Hin as [<-|[<-|[]]].
    + apply fits4 in Hf. destruct Hf as (a & b & c & d & -> & H). rewrite !in_dx in H. exists a, b, c, d. auto.
    + inversion Hf as [|? e ? l He Hf1]; subst. apply fits4 in Hf1. destruct Hf1 as (a & b & c & d & -> & H). rewrite !in_dx in H.
      apply dash_char in He. subst. exists a, b, c, d. auto.
  - intros (a & b & c & d & [->| ->] & Ha & Hb & Hc & Hd).
    + exists [dx; dx; dx; dx]. split; [left; reflexivity|]. repeat constructor; rewrite in_dx; assumption.
    + exists [c0 45; dx; dx; dx; dx]. split; [right; left; reflexivity|]. repeat constructor; rewrite in_dx; assumption.
Qed.
Lemma is_dx_X c : is_dx c = true -> is_digit c = false -> c = X.
Proof. unfold is_dx. intros H E. rewrite E in H. cbn in H. apply Ascii.eqb_eq in H. exact H. Qed.
Lemma X_not_digit : is_digit X = false. Proof. reflexivity. Qed.

Definition no_x (s : str) : Prop := has_suffix s ($"X") = false.
Lemma suffix_X_snoc s c : has_suffix (s ++ [c]) ($"X") = Ascii.eqb X c.
Proof. unfold has_suffix. rewrite rev_unit. cbn [rev app lit list_ascii_of_string has_prefix]. destruct (Ascii.eqb X c); [apply has_prefix_nil|reflexivity]. Qed.
Lemma dec_val_last s c v : dec_val 0 (s ++ [c]) = Some v -> is_digit c = true.
Proof. intro H. rewrite dec_val_app in H. destruct (dec_val 0 s); [|discriminate]. cbn in H. destruct (is_digit c); [reflexivity|discriminate]. Qed.
Lemma atoi_last s c z : atoi (s ++ [c]) = OK z -> is_digit c = true.
Proof.
  intro H. apply atoi_spec in H. destruct H as (H & _).
  assert (G : exists u v, (u = s ++ [c] \/ (exists e, s ++ [c] = e :: u)) /\ dec_digits u v).
  { inversion H; subst; eauto 10. }
  destruct G as (u & v & Hu & Hd). apply dec_digits_iff in Hd. destruct Hd as (Hne & Hd).
  destruct Hu as [->|(e & Hu)]; [exact (dec_val_last _ _ _ Hd)|].
  destruct s as [|e' s]; [injection Hu as -> <-; congruence|]. injection Hu as -> <-. exact (dec_val_last _ _ _ Hd).
Qed.
Lemma atoi_no_x s z : atoi s = OK z -> has_suffix s ($"X") = false.
Proof.
  destruct (rev s) as [|c t] eqn:E.
  - rewrite <- (rev_involutive s), E. discriminate.
  - rewrite <- (rev_involutive s), E. cbn [rev]. intro H. apply atoi_last in H. rewrite suffix_X_snoc.
    apply Ascii.eqb_neq. intros <-. discriminate.
Qed.

(** ** Years *)
Definition xlo (c : ascii) : Z := if Ascii.eqb c X then 0 else digit_val c.
Definition xhi (c : ascii) : Z := if Ascii.eqb c X then 9 else digit_val c.
Definition xprec (b c : ascii) : N := if Ascii.eqb c X then if Ascii.eqb b X then MILLENIUM else CENTURY else DECADE.
Definition year_lo (a b c : ascii) : Z := digit_val a * 1000 + xlo b * 100 + xlo c * 10.
Definition year_hi (a b c : ascii) : Z := digit_val a * 1000 + xhi b * 100 + xhi c * 10 + 9.

Lemma atoi_digit c : is_digit c = true -> atoi [c] = OK (digit_val c).
Proof.
  intro H. rewrite atoi_digits; [|constructor; [exact H|constructor]|discriminate].
  cbn [dec_val]. rewrite H. pose proof (digit_val_range c H).
  replace (0 * 10 + digit_val c) with (digit_val c) by lia. unfold min_int64, max_int64.
  destruct (_ <=? _) eqn:E; [reflexivity|lia].
Qed.
Lemma digit_not_X c : is_digit c = true -> Ascii.eqb c X = false.
Proof. intro H. apply Ascii.eqb_neq. intros ->. discriminate. Qed.
Lemma year_digit_ok s i w fl p c : nth_error s i = Some c -> is_dx c = true ->
  year_digit s i w fl p = OK (xlo c * w, xhi c * w, if Ascii.eqb c X then p else fl).
Proof.
  intros Hn Hc. unfold year_digit, byte_at. rewrite Hn. cbn [bind seqb lit list_ascii_of_string]. rewrite andb_true_r.
  unfold xlo, xhi. destruct (Ascii.eqb c X) eqn:E; [do 3 f_equal; lia|].
  unfold is_dx in Hc. rewrite E, orb_false_r in Hc. rewrite (proj2 (parse_int_ok _ _) (atoi_digit c Hc)). reflexivity.
Qed.
Lemma year_range_x s a b c : is_digit a = true -> is_dx b = true -> is_dx c = true ->
  year_range s [a; b; c; X] = OK (itoa (year_lo a b c), itoa (year_hi a b c), xprec b c).
Proof.
  intros Ha Hb Hc. unfold year_range. change [a; b; c; X] with ([a; b; c] ++ [X]). rewrite suffix_X_snoc. cbn [app].
  change (negb (Ascii.eqb X X)) with false. cbv iota. unfold byte_at at 1. cbn [nth_error bind seqb lit list_ascii_of_string].
  rewrite andb_true_r, (digit_not_X a Ha), (proj2 (parse_int_ok _ _) (atoi_digit a Ha)). cbn [bind].
  rewrite (year_digit_ok _ 1 _ _ _ b) by (assumption || reflexivity). cbn [bind].
  rewrite (year_digit_ok _ 2 _ _ _ c) by (assumption || reflexivity). cbn [bind].
  rewrite (year_digit_ok _ 3 _ _ _ X) by (assumption || reflexivity). cbn [bind].
  unfold year_lo, year_hi, xprec. change (xlo X) with 0. change (xhi X) with 9. change (Ascii.eqb X X) with true. cbv iota.
  replace (digit_val a * 1000 + xlo b * 100 + xlo c * 10 + 0 * 1) with (digit_val a * 1000 + xlo b * 100 + xlo c * 10) by lia.
  replace (digit_val a * 1000 + xhi b * 100 + xhi c * 10 + 9 * 1) with (digit_val a * 1000 + xhi b * 100 + xhi c * 10 + 9) by lia.
  destruct (Ascii.eqb c X), (Ascii.eqb b X); reflexivity.
Qed.
Lemma year_range_num s t : has_suffix t ($"X") = false -> year_range s t = OK (t, t, YEAR).
Proof. intro H. unfold year_range. rewrite H. reflexivity. Qed.
Lemma year_range_cases s t r : core_in year_shapes t -> year_range s t = OK r ->
  (has_suffix t ($"X") = false /\ r = (t, t, YEAR)) \/
  (exists a b c, t = [a; b; c; X] /\ is_digit a = true /\ is_dx b = true /\ is_dx c = true /\
     r = (itoa (year_lo a b c), itoa (year_hi a b c), xprec b c)).
Proof.
  intros Hc H. destruct (has_suffix t ($"X")) eqn:E.
  - right. apply year_core in Hc. destruct Hc as (a & b & c & d & [->| ->] & Ha & Hb & Hc & Hd).
    + change [a; b; c; d] with ([a; b; c] ++ [d]) in E. rewrite suffix_X_snoc in E. apply Ascii.eqb_eq in E. subst d.
      destruct (is_digit a) eqn:Ea.
      * rewrite year_range_x in H by assumption. injection H as <-. exists a, b, c. auto 10.
      * exfalso. apply is_dx_X in Ha; [|exact Ea]. subst a. unfold year_range in H.
        change [X; b; c; X] with ([X; b; c] ++ [X]) in H. rewrite suffix_X_snoc in H. discriminate.
    + exfalso. change ["-"%char; a; b; c; d] with (["-"%char; a; b; c] ++ [d]) in E, H. unfold year_range in H.
      rewrite E in H. discriminate.
  - left. rewrite year_range_num in H by exact E. injection H as <-. auto.
Qed.
Lemma year_bounds a b c : is_digit a = true -> is_dx b = true -> is_dx c = true ->
  0 <= year_lo a b c /\ year_lo a b c + 9 <= year_hi a b c /\ year_hi a b c <= 9999.
Proof.
  intros Ha Hb Hc. apply digit_val_range in Ha.
  assert (G : forall d, is_dx d = true -> 0 <= xlo d <= xhi d /\ xhi d <= 9).
  { intros d Hd. unfold xlo, xhi. unfold is_dx in Hd. destruct (Ascii.eqb d X); [lia|]. rewrite orb_false_r in Hd.
    apply digit_val_range in Hd. lia. }
  pose proof (G _ Hb). pose proof (G _ Hc). unfold year_lo, year_hi. lia.
Qed.

(** What a year text denotes: first and last year, precision, and whether it
    is a single numeric year. *)
Inductive year_den : str -> Z -> Z -> N -> bool -> Prop :=
| yd_num t y : core_in year_shapes t -> atoi t = OK y -> year_den t y y YEAR true
| yd_x a b c : is_digit a = true -> is_dx b = true -> is_dx c = true ->
    year_den [a; b; c; X] (year_lo a b c) (year_hi a b c) (xprec b c) false.

(** ** Months *)
Lemma month_core s : core_in month_shapes s <->
  exists a b, s = [a; b] /\
    (((a = "0"%char \/ a = X) /\ (b = X \/ is_digit b = true /\ 1 <= digit_val b)) \/
     ((a = "1"%char \/ a = X) /\ (b = X \/ is_digit b = true /\ digit_val b <= 2))).
Proof.
  assert (G : forall c z, in_set [(z, z); (88, 88)] c = true <-> code c = z \/ c = X).
  { intros c z. unfold in_set. cbn [existsb fst snd]. split.
    - intro H. destruct (Z.eq_dec (code c) z); [auto|]. right. apply code_inj. change (code X) with 88. lia.
    - intros [H| ->]; [|change (code X) with 88]; lia. }
  assert (K : forall c l h, 48 <= l -> h <= 57 -> in_set [(l, h); (88, 88)] c = true <-> c = X \/ is_digit c = true /\ l - 48 <= digit_val c <= h - 48).
  { intros c l h Hl Hh. unfold in_set, is_digit, digit_val. cbn [existsb fst snd]. split.
    - intro H. destruct (Z.eq_dec (code c) 88) as [E|E]; [left; apply code_inj; exact E|]. right. lia.
    - intros [->|(H & H1)]; [change (code X) with 88|]; lia. }
  assert (D : forall c z, (code c = z <-> c = chr z) \/ ~ 0 <= z < 256).
  { intros c z. destruct (Z_le_gt_dec 0 z); [|lia]. destruct (Z_lt_ge_dec z 256); [|lia]. left. split.
    - intros <-. symmetry. apply chr_code.
    - intros ->. apply code_chr. lia. }
  split.
  - intros (sh & Hin & Hf). unfold month_shapes in Hin. destruct Hin as [<-|[<-|[]]]; apply fits2 in Hf;
      destruct Hf as (a & b & -> & Ha & Hb); exists a, b; split; try reflexivity;
      apply G in Ha; apply K in Hb; try lia.
    + left. split; [destruct Ha as [Ha|Ha]; [left; apply code_inj; exact Ha|auto]|]. destruct Hb as [Hb|(Hb & Hv)]; [auto|right; split; [exact Hb|lia]].
    + right. split; [destruct Ha as [Ha|Ha]; [left; apply code_inj; exact Ha|auto]|]. destruct Hb as [Hb|(Hb & Hv)]; [auto|right; split; [exact Hb|lia]].
  - intros (a & b & -> & [(Ha & Hb)|(Ha & Hb)]).
    + exists [[(48, 48); (88, 88)]; [(49, 57); (88, 88)]]. split; [left; reflexivity|]. constructor; [|constructor; [|constructor]].
      * apply G. destruct Ha as [->|Ha]; [left; reflexivity|auto].
      * apply K; [lia..|]. destruct Hb as [Hb|(Hb & Hb1)]; [auto|right]. split; [exact Hb|]. apply digit_val_range in Hb. lia.
    + exists [[(49, 49); (88, 88)]; [(48, 50); (88, 88)]]. split; [right; left; reflexivity|]. constructor; [|constructor; [|constructor]].
      * apply G. destruct Ha as [->|Ha]; [left; reflexivity|auto].
      * apply K; [lia..|]. destruct Hb as [Hb|(Hb & Hb1)]; [auto|right]. split; [exact Hb|]. apply digit_val_range in Hb. lia.
Qed.
Lemma day_core s : core_in day_shapes s <->
  exists a b, s = [a; b] /\
    (((a = X \/ is_digit a = true /\ digit_val a <= 2) /\ is_dx b = true) \/
     ((a = "3"%char \/ a = X) /\ (b = X \/ is_digit b = true /\ digit_val b <= 1))).
Proof.
  assert (K : forall c l h, 48 <= l -> h <= 57 -> in_set [(l, h); (88, 88)] c = true <-> c = X \/ is_digit c = true /\ l - 48 <= digit_val c <= h - 48).
  { intros c l h Hl Hh. unfold in_set, is_digit, digit_val. cbn [existsb fst snd]. split.
    - intro H. destruct (Z.eq_dec (code c) 88) as [E|E]; [left; apply code_inj; exact E|]. right. lia.
    - intros [->|(H & H1)]; [change (code X) with 88|]; lia. }
  split.
  - intros (sh & Hin & Hf). unfold day_shapes in Hin. destruct Hin as [<-|[<-|[]]]; apply fits2 in Hf;
      destruct Hf as (a & b & -> & Ha & Hb); exists a, b; split; try reflexivity.
    + left. rewrite in_dx in Hb. split; [|exact Hb]. apply K in Ha; [|lia..]. destruct Ha as [Ha|(Ha & Hv)]; [auto|right; split; [exact Ha|lia]].
    + right. apply K in Ha; [|lia..]. apply K in Hb; [|lia..]. split.
      * destruct Ha as [Ha|(Ha & Hv)]; [auto|]. left. apply code_inj. change (code "3") with 51. unfold digit_val in Hv. lia.
      * destruct Hb as [Hb|(Hb & Hv)]; [auto|right; split; [exact Hb|lia]].
  - intros (a & b & -> & [(Ha & Hb)|(Ha & Hb)]).
    + exists [[(48, 50); (88, 88)]; dx]. split; [left; reflexivity|]. constructor; [|constructor; [|constructor]].
      * apply K; [lia..|]. destruct Ha as [Ha|(Ha & Hv)]; [auto|]. right. split; [exact Ha|]. apply digit_val_range in Ha. lia.
      * rewrite in_dx. exact Hb.
    + exists [[(51, 51); (88, 88)]; [(48, 49); (88, 88)]]. split; [right; left; reflexivity|]. constructor; [|constructor; [|constructor]].
      * apply K; [lia..|]. destruct Ha as [->|Ha]; [right; split; [reflexivity|cbv; split; discriminate]|auto].
      * apply K; [lia..|]. destruct Hb as [Hb|(Hb & Hv)]; [auto|]. right. split; [exact Hb|]. apply digit_val_range in Hb. lia.
Qed.

Inductive month_den : str -> Z -> Z -> bool -> Prop :=
| md_none : month_den [] 1 12 false
| md_num t m : core_in month_shapes t -> atoi t = OK m -> month_den t m m true
| md_xx : month_den ($"XX") 1 12 false
| md_x a : a = "0"%char \/ a = "1"%char -> month_den [a; X] 10 12 false.

(** [L] and [L'] are the lengths of the first and of the last month. *)
Inductive day_den (L L' : Z) : str -> Z -> Z -> bool -> Prop :=
| dd_none : day_den L L' [] 1 L' false
| dd_num t d : core_in day_shapes t -> atoi t = OK d -> d <> 0 -> day_den L L' t d d true
| dd_zero : day_den L L' ($"00") L L' true
| dd_xx : day_den L L' ($"XX") 1 L' false
| dd_1x : day_den L L' ($"1X") 10 19 false
| dd_2x : day_den L L' ($"2X") 20 29 false
| dd_3x : day_den L L' ($"3X") 30 L' (L' =? 30).

(** ** Ranges of strings *)
Definition sr_tail (s yyyy mm dd : str) (ua : N * N) : res stringrange :=
  let '(uncertain, approximate) := ua in
  let* (start_yyyy, end_yyyy, precision) := year_range s yyyy in
  let '(start_mm, end_mm, precision) := month_range mm precision in
  let* (start_dd, end_dd, precision) := day_range s dd precision in
  let precision :=
    if seqb dd ($"XX") && seqb mm ($"XX") then YEAR
    else if seqb dd ($"XX") then MONTH else precision in
  let start_mm := if is_empty start_mm then $"01" else start_mm in
  let start_dd := if is_empty start_dd then $"01" else start_dd in
  let end_mm := if is_empty end_mm then $"12" else end_mm in
  let* end_dd := if is_empty end_dd
                 then let* dd := DaysInMonthWithString (end_yyyy ++ $"-" ++ end_mm) in OK (itoa dd)
                 else OK end_dd in
  OK (mkSR (mkSD start_yyyy start_mm start_dd) (mkSD end_yyyy end_mm end_dd)
           precision uncertain approximate).

Lemma component_opt t core v (l : list shape) : (forall c, core_in l c -> core_in all_cores c) ->
  qualified t core v -> (t = [] \/ core_in l core) -> component t = OK (core, v).
Proof.
  intros Hl Hq [->|Hc].
  - inversion Hq; subst; [reflexivity|]. match goal with H : _ ++ [_] = [] |- _ => apply app_eq_nil in H; destruct H; discriminate end.
  - apply component_ok; auto.
Qed.
Lemma string_range s yt yc yq mt mc mq dt dc dq : ymd_text s yt mt dt -> parts_ok yt yc yq mt mc mq dt dc dq ->
  StringRangeFromYMD s = sr_tail s yc mc dc (qualifier_flags yq mq dq).
Proof.
  intros Ht Hp. unfold StringRangeFromYMD. rewrite (ymd_sub _ _ _ _ _ _ _ _ _ _ Ht Hp).
  destruct Hp as [Hyq Hy Hmq Hm Hdq Hd].
  unfold sub. cbn [length Nat.eqb negb nth].
  rewrite (component_ok yt yc yq) by (auto using core_all_year).
  rewrite (component_opt mt mc mq month_shapes) by (auto using core_all_month).
  rewrite (component_opt dt dc dq day_shapes) by (auto using core_all_day). reflexivity.
Qed.
Lemma string_range_inv s sr : StringRangeFromYMD s = OK sr -> exists yt yc yq mt mc mq dt dc dq,
  ymd_text s yt mt dt /\ parts_ok yt yc yq mt mc mq dt dc dq /\ sr_tail s yc mc dc (qualifier_flags yq mq dq) = OK sr.
Proof.
  intro H. assert (Hf : find_submatch YMD_re s <> []).
  { intro E. unfold StringRangeFromYMD in H. rewrite E in H. discriminate. }
  destruct (ymd_inv s Hf) as (yt & yc & yq & mt & mc & mq & dt & dc & dq & Ht & Hp).
  exists yt, yc, yq, mt, mc, mq, dt, dc, dq. split; [exact Ht|]. split; [exact Hp|].
  rewrite <- (string_range _ _ _ _ _ _ _ _ _ _ Ht Hp). exact H.
Qed.

(** *** Years *)
Definition dashless (s : str) : Prop := ~ In "-"%char s.
Definition dash_ok (s : str) : Prop := dashless s \/ exists u, s = "-"%char :: u /\ dashless u.
Lemma digit_str_dashless s : digit_str s -> dashless s.
Proof. intros H Hin. unfold digit_str in H. rewrite Forall_forall in H. specialize (H _ Hin). discriminate. Qed.
Lemma dec_dashless s v : dec_digits s v -> dashless s.
Proof. intro H. apply dec_digits_iff in H. apply digit_str_dashless, (dec_val_digits s 0). exists v. apply H. Qed.
Lemma atoi_dash_ok s z : atoi s = OK z -> dash_ok s.
Proof.
  intro H. apply atoi_spec in H. destruct H as (H & _). inversion H as [t v Hd|t v Hd|t v Hd]; subst.
  - left. exact (dec_dashless _ _ Hd).
  - left. intros [E|E]; [discriminate|]. exact (dec_dashless _ _ Hd E).
  - right. exists t. split; [reflexivity|exact (dec_dashless _ _ Hd)].
Qed.
Lemma year_core_bound t y : core_in year_shapes t -> atoi t = OK y -> -9999 <= y <= 9999.
Proof.
  intros Hc H. apply year_core in Hc. apply atoi_spec in H. destruct H as (H & _).
  assert (G : forall a b c d v, dec_digits [a; b; c; d] v -> 0 <= v <= 9999).
  { intros a b c d v Hd. apply dec_digits_iff in Hd. destruct Hd as (_ & Hd). pose proof (dec_val_nonneg _ _ _ (Z.le_refl 0) Hd).
    apply dec_val_bound in Hd; [|lia]. cbn in Hd. lia. }
  destruct Hc as (a & b & c & d & [->| ->] & Ha & Hb & Hc & Hd); inversion H as [t v Hv|t v Hv|t v Hv]; subst.
  - apply G in Hv. lia.
  - exfalso. discriminate Ha.
  - exfalso. discriminate Ha.
  - exfalso. exact (dec_dashless _ _ Hv (or_introl eq_refl)).
  - apply G in Hv. lia.
Qed.
Lemma year_den_range s yc y y' p sy : year_den yc y y' p sy -> exists ys ye, year_range s yc = OK (ys, ye, p) /\
  atoi ys = OK y /\ atoi ye = OK y' /\ -9999 <= y /\ y <= y' /\ y' <= 9999 /\ (y = y' <-> sy = true) /\ seqb ye ys = sy /\ p <> NONE.
Proof.
  intros [t y0 Hc Ha|a b c Ha Hb Hc].
  - exists t, t. rewrite year_range_num by exact (atoi_no_x _ _ Ha). pose proof (year_core_bound _ _ Hc Ha).
    split; [reflexivity|]. split; [exact Ha|]. split; [exact Ha|]. split; [lia|]. split; [lia|]. split; [lia|].
    split; [tauto|]. split; [apply seqb_refl|discriminate].
  - exists (itoa (year_lo a b c)), (itoa (year_hi a b c)). rewrite year_range_x by assumption.
    pose proof (year_bounds a b c Ha Hb Hc). split; [reflexivity|].
    rewrite !atoi_itoa by (unfold min_int64, max_int64; lia).
    split; [reflexivity|]. split; [reflexivity|]. split; [lia|]. split; [lia|]. split; [lia|]. split; [split; intro; [lia|discriminate]|].
    split.
    + apply seqb_neq. intro E. assert (Q : atoi (itoa (year_hi a b c)) = atoi (itoa (year_lo a b c))) by (rewrite E; reflexivity).
      rewrite !atoi_itoa in Q by (unfold min_int64, max_int64; lia). injection Q as Q. lia.
    + unfold xprec. destruct (Ascii.eqb c X), (Ascii.eqb b X); discriminate.
Qed.
Lemma year_den_inv s yc ys ye p y y' : core_in year_shapes yc -> year_range s yc = OK (ys, ye, p) ->
  atoi ys = OK y -> atoi ye = OK y' -> exists sy, year_den yc y y' p sy.
Proof.
  intros Hc H Hy Hy'. destruct (year_range_cases _ _ _ Hc H) as [(Hs & E)|(a & b & c & -> & Ha & Hb & Hc' & E)].
  - injection E as -> -> ->. exists true. rewrite Hy in Hy'. injection Hy' as <-. constructor; assumption.
  - injection E as -> -> ->. pose proof (year_bounds a b c Ha Hb Hc').
    rewrite !atoi_itoa in * by (unfold min_int64, max_int64; lia). injection Hy as <-. injection Hy' as <-.
    exists false. constructor; assumption.
Qed.

(** *** Months *)
Definition fill (dflt s : str) : str := if is_empty s then dflt else s.
Definition month_prec (mc : str) (p : N) : N :=
  if negb (has_suffix mc ($"X")) then p else if has_prefix mc ($"X") then p else MONTH.
Lemma month_core_bound t m : core_in month_shapes t -> atoi t = OK m -> 1 <= m <= 12.
Proof.
  intros Hc H. apply month_core in Hc. destruct Hc as (a & b & -> & Hc). apply atoi_spec in H. destruct H as (H & _).
  assert (Hh : a = "0"%char \/ a = "1"%char \/ a = X) by (destruct Hc as [([Ha|Ha] & _)|([Ha|Ha] & _)]; auto).
  assert (Hv : dec_digits [a; b] m).
  { inversion H as [t v Hv|t v Hv|t v Hv]; subst; [exact Hv|exfalso; destruct Hh as [Hh|[Hh|Hh]]; discriminate Hh..]. }
  apply dec_digits_iff in Hv. destruct Hv as (_ & Hv). cbn [dec_val] in Hv.
  destruct (is_digit a) eqn:Ea; [|discriminate]. destruct (is_digit b) eqn:Eb; [|discriminate]. injection Hv as <-.
  pose proof (digit_val_range b Eb).
  destruct Hc as [([->| ->] & Hb)|([->| ->] & Hb)]; try discriminate Ea.
  - destruct Hb as [->|(_ & Hb)]; [discriminate|]. change (digit_val "0") with 0. lia.
  - destruct Hb as [->|(_ & Hb)]; [discriminate|]. change (digit_val "1") with 1. lia.
Qed.
Lemma month_den_range mc m m' sm p : p <> NONE -> month_den mc m m' sm -> exists ms me,
  month_range mc p = (ms, me, month_prec mc p) /\
  atoi (fill ($"01") ms) = OK m /\ atoi (fill ($"12") me) = OK m' /\ 1 <= m /\ m <= m' /\ m' <= 12 /\ (sm = true -> m = m') /\
  (sm = true \/ m < m') /\ seqb (fill ($"12") me) (fill ($"01") ms) = sm /\ dashless (fill ($"12") me).
Proof.
  intros Hp H. assert (D12 : dashless ($"12")) by (intros [E|[E|[]]]; discriminate).
  destruct H as [|t m0 Hc Ha| |a Ha].
  - exists [], []. unfold month_range. cbn [has_suffix negb is_empty andb]. cbn. repeat split; try (lia || discriminate || reflexivity || exact D12).
  - pose proof (atoi_no_x _ _ Ha) as Hx. exists t, t. unfold month_range, month_prec. rewrite Hx. cbn [negb].
    assert (Hp' : N.eqb p NONE = false) by (apply N.eqb_neq; exact Hp). rewrite Hp', andb_false_r.
    assert (Hne : is_empty t = false) by (apply core_nonempty, core_all_month; exact Hc).
    unfold fill. rewrite Hne, seqb_refl. pose proof (month_core_bound _ _ Hc Ha).
    split; [reflexivity|]. split; [exact Ha|]. split; [exact Ha|]. split; [lia|]. split; [lia|]. split; [lia|]. split; [auto|]. split; [auto|].
    split; [reflexivity|]. destruct (atoi_dash_ok _ _ Ha) as [Hd|(u & -> & _)]; [exact Hd|].
    exfalso. apply month_core in Hc. destruct Hc as (a & b & E & [([->| ->] & _)|([->| ->] & _)]); discriminate.
  - exists ($"01"), ($"12"). cbn. repeat split; try (lia || discriminate || reflexivity || exact D12).
  - exists ($"10"), ($"12"). destruct Ha as [->| ->]; cbn; repeat split; try (lia || discriminate || reflexivity || exact D12).
Qed.
Lemma month_den_inv mc ms me p q m m' : (mc = [] \/ core_in month_shapes mc) -> month_range mc p = (ms, me, q) ->
  atoi (fill ($"01") ms) = OK m -> atoi (fill ($"12") me) = OK m' -> exists sm, month_den mc m m' sm.
Proof.
  intros Hc H Hm Hm'. unfold month_range in H. destruct Hc as [->|Hc].
  - cbn in H. injection H as <- <- _. cbn in Hm, Hm'. injection Hm as <-. injection Hm' as <-. eexists. constructor.
  - assert (Hne : is_empty mc = false) by (apply core_nonempty, core_all_month; exact Hc).
    destruct (has_suffix mc ($"X")) eqn:E; cbn [negb] in H.
    + pose proof Hc as Hc'. apply month_core in Hc. destruct Hc as (a & b & -> & Hc).
      change [a; b] with ([a] ++ [b]) in E. rewrite suffix_X_snoc in E. apply Ascii.eqb_eq in E. subst b.
      cbn [has_prefix lit list_ascii_of_string] in H. rewrite andb_true_r in H. destruct (Ascii.eqb X a) eqn:Ea.
      * apply Ascii.eqb_eq in Ea. subst a. injection H as <- <- _. cbn in Hm, Hm'. injection Hm as <-. injection Hm' as <-.
        eexists. apply md_xx.
      * injection H as <- <- _. cbn in Hm, Hm'. injection Hm as <-. injection Hm' as <-. eexists. apply md_x.
        apply Ascii.eqb_neq in Ea. destruct Hc as [([->| ->] & _)|([->| ->] & _)]; auto; congruence.
    + injection H as <- <- _. unfold fill in Hm, Hm'. rewrite Hne in Hm, Hm'. rewrite Hm in Hm'. injection Hm' as <-.
      exists true. constructor; assumption.
Qed.

(** *** Days *)
Lemma DaysInMonthWithString_ok a b y m : atoi a = OK y -> atoi b = OK m -> dashless b ->
  -9999 <= y <= 9999 -> 1 <= m <= 12 -> DaysInMonthWithString (a ++ $"-" ++ b) = OK (month_len y m).
Proof.
  intros Ha Hb Hd Hy Hm. unfold DaysInMonthWithString. cbn [lit list_ascii_of_string app].
  destruct (atoi_dash_ok _ _ Ha) as [Hda|(u & -> & Hdu)].
  - rewrite split_two by assumption. rewrite Ha, Hb. cbn [bind]. apply DaysInMonth_ok; assumption.
  - change (("-"%char :: u) ++ "-"%char :: b) with ([] ++ "-"%char :: (u ++ "-"%char :: b)).
    rewrite split_one by (intros []). rewrite split_two by assumption. cbn [app]. rewrite Ha, Hb. cbn [bind].
    apply DaysInMonth_ok; assumption.
Qed.
Lemma day_core_bound t d : core_in day_shapes t -> atoi t = OK d -> 0 <= d <= 31.
Proof.
  intros Hc H. apply day_core in Hc. destruct Hc as (a & b & -> & Hc). apply atoi_spec in H. destruct H as (H & _).
  assert (Hh : a <> "-"%char /\ a <> "+"%char).
  { destruct Hc as [([->|(Ha & _)] & _)|([->| ->] & _)]; split; intro E; subst; discriminate. }
  assert (Hv : dec_digits [a; b] d).
  { inversion H as [t v Hv|t v Hv|t v Hv]; subst; [exact Hv|exfalso; tauto..]. }
  apply dec_digits_iff in Hv. destruct Hv as (_ & Hv). cbn [dec_val] in Hv.
  destruct (is_digit a) eqn:Ea; [|discriminate]. destruct (is_digit b) eqn:Eb; [|discriminate]. injection Hv as <-.
  pose proof (digit_val_range b Eb). pose proof (digit_val_range a Ea).
  destruct Hc as [([->|(_ & Ha)] & Hb)|([->| ->] & Hb)]; try discriminate Ea.
  - lia.
  - destruct Hb as [->|(_ & Hb)]; [discriminate|]. change (digit_val "3") with 3. lia.
Qed.
Lemma day_zero t : core_in day_shapes t -> atoi t = OK 0 -> t = $"00".
Proof.
  intros Hc H. apply day_core in Hc. destruct Hc as (a & b & -> & Hc). apply atoi_spec in H. destruct H as (H & _).
  assert (Hh : a <> "-"%char /\ a <> "+"%char).
  { destruct Hc as [([->|(Ha & _)] & _)|([->| ->] & _)]; split; intro E; subst; discriminate. }
  assert (Hv : dec_digits [a; b] 0).
  { inversion H as [t v Hv|t v Hv|t v Hv]; subst; [exact Hv|exfalso; tauto..]. }
  apply dec_digits_iff in Hv. destruct Hv as (_ & Hv). cbn [dec_val] in Hv.
  destruct (is_digit a) eqn:Ea; [|discriminate]. destruct (is_digit b) eqn:Eb; [|discriminate]. injection Hv as Hv.
  pose proof (digit_val_range b Eb). pose proof (digit_val_range a Ea).
  rewrite <- (digit_char_val a Ea), <- (digit_char_val b Eb).
  replace (digit_val a) with 0 by lia. replace (digit_val b) with 0 by lia. reflexivity.
Qed.
(** [n] and [n'] are the numbers YMDFromStrings reads; 0 stands for the last day. *)
Lemma day_den_range s ye me y' m' L dc d d' sd p : p <> NONE ->
  atoi ye = OK y' -> atoi me = OK m' -> dashless me -> -9999 <= y' <= 9999 -> 1 <= m' <= 12 ->
  28 <= L ->
  day_den L (month_len y' m') dc d d' sd -> exists ds de de' n n',
  day_range s dc p = OK (ds, de, p) /\
  (if is_empty de then let* dd := DaysInMonthWithString (ye ++ $"-" ++ me) in OK (itoa dd) else OK de) = OK de' /\
  fill ($"01") ds <> [] /\ de' <> [] /\
  atoi (fill ($"01") ds) = OK n /\ atoi de' = OK n' /\
  d = (if n =? 0 then L else n) /\ d' = (if n' =? 0 then month_len y' m' else n') /\
  seqb de' (fill ($"01") ds) = sd /\ 0 <= n <= 31 /\ 0 <= n' <= 31.
Proof.
  intros Hp Hy Hm Hd Hyr Hmr HL H. pose proof (month_len_range y' m') as HR.
  pose proof (DaysInMonthWithString_ok _ _ _ _ Hy Hm Hd Hyr Hmr) as HD.
  assert (HI : atoi (itoa (month_len y' m')) = OK (month_len y' m')) by (apply atoi_itoa; unfold min_int64, max_int64; lia).
  assert (HIne : itoa (month_len y' m') <> []) by (intro E; rewrite E in HI; discriminate).
  assert (Hq : (month_len y' m' =? 0) = false) by lia.
  destruct H as [|t d0 Hc Ha Hz| | | | |].
  - exists [], [], (itoa (month_len y' m')), 1, (month_len y' m'). rewrite HD, Hq. cbn [bind is_empty].
    split; [reflexivity|]. split; [reflexivity|]. split; [discriminate|]. split; [exact HIne|]. split; [reflexivity|]. split; [exact HI|].
    split; [reflexivity|]. split; [reflexivity|]. split; [|lia].
    apply seqb_neq. intro E. rewrite E in HI. cbn in HI. injection HI as HI. lia.
  - assert (Hne : is_empty t = false) by (apply core_nonempty, core_all_day; exact Hc).
    exists t, t, t, d0, d0. unfold day_range. rewrite (atoi_no_x _ _ Ha), Hne.
    assert (Hp' : N.eqb p NONE = false) by (apply N.eqb_neq; exact Hp). rewrite Hp', andb_false_r. cbn [negb].
    unfold fill. rewrite Hne, seqb_refl. replace (d0 =? 0) with false by lia. apply is_empty_false in Hne.
    pose proof (day_core_bound _ _ Hc Ha). auto 15.
  - exists ($"00"), ($"00"), ($"00"), 0, 0. cbn. assert (Hp' : N.eqb p NONE = false) by (apply N.eqb_neq; exact Hp).
    unfold day_range. cbn. rewrite Hp'. repeat split; try (reflexivity || discriminate || lia).
  - exists ($"01"), [], (itoa (month_len y' m')), 1, (month_len y' m'). rewrite HD, Hq. cbn [bind is_empty].
    split; [reflexivity|]. split; [reflexivity|]. split; [discriminate|]. split; [exact HIne|]. split; [reflexivity|]. split; [exact HI|].
    split; [reflexivity|]. split; [reflexivity|]. split; [|lia].
    apply seqb_neq. intro E. rewrite E in HI. cbn in HI. injection HI as HI. lia.
  - exists ($"10"), ($"19"), ($"19"), 10, 19. cbn. repeat split; try (reflexivity || discriminate || lia).
  - exists ($"20"), ($"29"), ($"29"), 20, 29. cbn. repeat split; try (reflexivity || discriminate || lia).
  - exists ($"30"), [], (itoa (month_len y' m')), 30, (month_len y' m'). rewrite HD, Hq. cbn [bind is_empty].
    split; [reflexivity|]. split; [reflexivity|]. split; [discriminate|]. split; [exact HIne|]. split; [reflexivity|]. split; [exact HI|].
    split; [reflexivity|]. split; [reflexivity|]. split; [|lia].
    destruct (month_len y' m' =? 30) eqn:E30.
    + replace (month_len y' m') with 30 by lia. reflexivity.
    + apply seqb_neq. intro E. rewrite E in HI. cbn in HI. injection HI as HI. lia.
Qed.
Lemma day_den_inv s dc ds de p q L L' n : (dc = [] \/ core_in day_shapes dc) -> day_range s dc p = OK (ds, de, q) ->
  atoi (fill ($"01") ds) = OK n -> exists d d' sd, day_den L L' dc d d' sd.
Proof.
  intros Hc H Hn. unfold day_range in H. destruct Hc as [->|Hc].
  - do 3 eexists. constructor.
  - assert (Hne : is_empty dc = false) by (apply core_nonempty, core_all_day; exact Hc).
    destruct (has_suffix dc ($"X")) eqn:E; cbn [negb] in H.
    + pose proof Hc as Hc'. apply day_core in Hc. destruct Hc as (a & b & -> & Hc).
      change [a; b] with ([a] ++ [b]) in E. rewrite suffix_X_snoc in E. apply Ascii.eqb_eq in E. subst b.
      unfold byte_at in H. cbn [nth_error bind seqb lit list_ascii_of_string] in H. rewrite !andb_true_r in H.
      destruct (Ascii.eqb a X) eqn:E1; [apply Ascii.eqb_eq in E1; subst; do 3 eexists; apply dd_xx|].
      destruct (Ascii.eqb a "1") eqn:E2; [apply Ascii.eqb_eq in E2; subst; do 3 eexists; apply dd_1x|].
      destruct (Ascii.eqb a "2") eqn:E3; [apply Ascii.eqb_eq in E3; subst; do 3 eexists; apply dd_2x|].
      destruct (Ascii.eqb a "3") eqn:E4; [apply Ascii.eqb_eq in E4; subst; do 3 eexists; apply dd_3x|]. discriminate.
    + injection H as <- <- _. unfold fill in Hn. rewrite Hne in Hn. destruct (Z.eq_dec n 0) as [->|Hz].
      * rewrite (day_zero _ Hc Hn). do 3 eexists. apply dd_zero.
      * do 3 eexists. apply dd_num; eassumption.
Qed.

(** ** The span of a date text *)
Definition span6 (s : str) (u a p : N) (single : bool) (y m d y' m' d' : Z) : datespan :=
  mkSpan (mkRange s (day_start y m d u a p) (if single then day_start y m d u a p else day_end y m d u a p))
         (mkRange s (if single then day_end y' m' d' u a p else day_start y' m' d' u a p) (day_end y' m' d' u a p)).
Lemma span_of_6 s sr : span_of s sr = span6 s (sr_uncertain sr) (sr_approximate sr) (sr_precision sr) (single_day sr).
Proof. reflexivity. Qed.

Definition date_prec (mc dc : str) (p : N) : N :=
  if seqb dc ($"XX") && seqb mc ($"XX") then YEAR else if seqb dc ($"XX") then MONTH else month_prec mc p.

(** Everything dateSpanFromYMD needs to know about [s]. *)
Record date_den (s : str) (y m d y' m' d' : Z) (u a p : N) (single : bool) : Prop := mkdd {
  dn_parts : exists yt yc yq mt mc mq dt dc dq py sy sm sd,
    ymd_text s yt mt dt /\ parts_ok yt yc yq mt mc mq dt dc dq /\
    year_den yc y y' py sy /\ month_den mc m m' sm /\ day_den (month_len y m) (month_len y' m') dc d d' sd /\
    qualifier_flags yq mq dq = (u, a) /\ p = date_prec mc dc py /\ single = sy && sm && sd }.

Lemma string_range_den s yt yc yq mt mc mq dt dc dq y m d y' m' d' py sy sm sd :
  ymd_text s yt mt dt -> parts_ok yt yc yq mt mc mq dt dc dq ->
  year_den yc y y' py sy -> month_den mc m m' sm -> day_den (month_len y m) (month_len y' m') dc d d' sd ->
  exists ys ms ds ye me de n n',
  StringRangeFromYMD s = OK (mkSR (mkSD ys ms ds) (mkSD ye me de) (date_prec mc dc py)
                               (fst (qualifier_flags yq mq dq)) (snd (qualifier_flags yq mq dq))) /\
  atoi ys = OK y /\ atoi ye = OK y' /\ opt_num ms m /\ opt_num me m' /\ opt_num ds n /\ opt_num de n' /\
  ms <> [] /\ me <> [] /\
  d = (if n =? 0 then month_len y m else n) /\ d' = (if n' =? 0 then month_len y' m' else n') /\
  -9999 <= y <= 9999 /\ -9999 <= y' <= 9999 /\ 1 <= m <= 12 /\ 1 <= m' <= 12 /\
  single_day (mkSR (mkSD ys ms ds) (mkSD ye me de) (date_prec mc dc py)
                               (fst (qualifier_flags yq mq dq)) (snd (qualifier_flags yq mq dq))) = sy && sm && sd.
Proof.
  intros Ht Hp Hy Hm Hd. rewrite (string_range _ _ _ _ _ _ _ _ _ _ Ht Hp).
  destruct (year_den_range s _ _ _ _ _ Hy) as (ys & ye & Hyr & Hys & Hye & Hb1 & Hb2 & Hb3 & _ & Hsy & Hpy).
  destruct (month_den_range _ _ _ _ py Hpy Hm) as (ms & me & Hmr & Hms & Hme & Hc1 & Hc2 & Hc3 & _ & _ & Hsm & Hdl).
  assert (Hpm : month_prec mc py <> NONE) by (unfold month_prec; destruct (negb _); [exact Hpy|]; destruct (has_prefix _ _); [exact Hpy|discriminate]).
  assert (HL : 28 <= month_len y m) by (pose proof (month_len_range y m); lia).
  destruct (day_den_range s ye (fill ($"12") me) y' m' _ _ _ _ _ _ Hpm Hye Hme Hdl (conj (Z.le_trans _ _ _ Hb1 Hb2) Hb3) (conj (Z.le_trans _ _ _ Hc1 Hc2) Hc3) HL Hd)
    as (ds & de & de' & n & n' & Hdr & Hde & Hne1 & Hne2 & Hn & Hn' & Hd1 & Hd2 & Hsd & Hnr & Hnr').
  exists ys, (fill ($"01") ms), (fill ($"01") ds), ye, (fill ($"12") me), de', n, n'.
  split.
  { unfold sr_tail. destruct (qualifier_flags yq mq dq) as (u & a). rewrite Hyr. cbn [bind]. rewrite Hmr, Hdr. cbn [bind].
    fold (fill ($"01") ms) (fill ($"12") me) (fill ($"01") ds). rewrite Hde. cbn [bind]. reflexivity. }
  assert (Fne : forall d0 s0, d0 <> [] -> fill d0 s0 <> []).
  { intros d0 s0 H0. unfold fill. destruct (is_empty s0) eqn:E; [exact H0|apply is_empty_false; exact E]. }
  split; [exact Hys|]. split; [exact Hye|].
  split; [right; split; [apply Fne; discriminate|exact Hms]|].
  split; [right; split; [apply Fne; discriminate|exact Hme]|].
  split; [right; split; [exact Hne1|exact Hn]|].
  split; [right; split; [exact Hne2|exact Hn']|].
  split; [apply Fne; discriminate|]. split; [apply Fne; discriminate|].
  split; [exact Hd1|]. split; [exact Hd2|]. split; [lia|]. split; [lia|]. split; [lia|]. split; [lia|].
  unfold single_day, sd_equals. cbn [sr_end sr_start sd_year sd_month sd_day]. rewrite Hsy, Hsm, Hsd. reflexivity.
Qed.

Lemma ymd_of_den a b c y m d n : atoi a = OK y -> opt_num b m -> opt_num c n -> b <> [] ->
  d = (if n =? 0 then month_len y m else n) -> -9999 <= y <= 9999 -> 1 <= m <= 12 ->
  YMDFromStrings a b c = if month_len y m <? n then Err (EText ($"Invalid days for month")) else OK (mkYMD y m d).
Proof.
  intros Ha Hb Hc Hne Hd Hy Hm. rewrite (YMDFromStrings_fwd a b c y m n); try assumption; try lia.
  - replace (m =? 0) with false by lia. rewrite Hd. reflexivity.
  - intro E. contradiction.
Qed.

Theorem span_fwd s y m d y' m' d' u a p single : date_den s y m d y' m' d' u a p single ->
  real_date y m d -> real_date y' m' d' ->
  dateSpanFromYMD s = OK (span6 s u a p single y m d y' m' d') /\ -9999 <= y <= 9999 /\ -9999 <= y' <= 9999.
Proof.
  intros [(yt & yc & yq & mt & mc & mq & dt & dc & dq & py & sy & sm & sd & Ht & Hp & Hy & Hm & Hd & Hq & -> & ->)] Hr Hr'.
  destruct (string_range_den _ _ _ _ _ _ _ _ _ _ _ _ _ _ _ _ _ _ _ _ Ht Hp Hy Hm Hd)
    as (ys & ms & ds & ye & me & de & n & n' & Hsr & Hys & Hye & Hms & Hme & Hds & Hde & Hne & Hne' & Ed & Ed' & By & By' & Bm & Bm' & Hs).
  split; [|auto]. rewrite Hq in Hsr, Hs. cbn [fst snd] in Hsr, Hs.
  pose proof (month_len_range y m). pose proof (month_len_range y' m').
  assert (E1 : YMDFromStrings ys ms ds = OK (mkYMD y m d)).
  { rewrite (ymd_of_den _ _ _ _ _ _ _ Hys Hms Hds Hne Ed By Bm). destruct (n =? 0) eqn:E0; destruct Hr as (_ & Hr).
    - replace (month_len y m <? n) with false by lia. reflexivity.
    - subst d. replace (month_len y m <? n) with false by lia. reflexivity. }
  assert (E2 : YMDFromStrings ye me de = OK (mkYMD y' m' d')).
  { rewrite (ymd_of_den _ _ _ _ _ _ _ Hye Hme Hde Hne' Ed' By' Bm'). destruct (n' =? 0) eqn:E0; destruct Hr' as (_ & Hr').
    - replace (month_len y' m' <? n') with false by lia. reflexivity.
    - subst d'. replace (month_len y' m' <? n') with false by lia. reflexivity. }
  rewrite (dateSpanFromYMD_fwd s _ y m d y' m' d' Hsr E1 E2 By By' Hr Hr').
  rewrite span_of_6, Hs. cbn [sr_uncertain sr_approximate sr_precision]. reflexivity.
Qed.

Theorem span_inv s sp : dateSpanFromYMD s = OK sp -> exists y m d y' m' d' u a p single,
  date_den s y m d y' m' d' u a p single /\ real_date y m d /\ real_date y' m' d' /\
  -9999 <= y <= 9999 /\ -9999 <= y' <= 9999 /\ sp = span6 s u a p single y m d y' m' d'.
Proof.
  intro H. destruct (dateSpanFromYMD_inv _ _ H) as (sr & y & m & d & y' & m' & d' & Hsr & H1 & H2 & By & By' & Hr & Hr' & _).
  destruct (string_range_inv _ _ Hsr) as (yt & yc & yq & mt & mc & mq & dt & dc & dq & Ht & Hp & Htail).
  unfold sr_tail in Htail. destruct (qualifier_flags yq mq dq) as (u & a) eqn:Eq.
  apply bind_OK in Htail. destruct Htail as (((ys & ye) & py) & Hyr & Htail).
  destruct (month_range mc py) as ((ms & me) & pm) eqn:Hmr.
  apply bind_OK in Htail. destruct Htail as (((ds & de) & pd) & Hdr & Htail).
  fold (fill ($"01") ms) (fill ($"12") me) (fill ($"01") ds) in Htail.
  apply bind_OK in Htail. destruct Htail as (de' & Hde & Htail). injection Htail as <-.
  unfold YMDFromStringDate in H1, H2. cbn [sr_start sr_end sd_year sd_month sd_day] in H1, H2.
  pose proof (YMDFromStrings_inv _ _ _ _ H1) as I1. destruct I1 as (y1 & mm & dd & A1 & A2 & A3 & A4 & A5 & A6 & A7 & A8).
  pose proof (YMDFromStrings_inv _ _ _ _ H2) as I2. destruct I2 as (y2 & mm' & dd' & B1 & B2 & B3 & B4 & B5 & B6 & B7 & B8).
  injection A8 as -> Em Ed. injection B8 as -> Em' Ed'.
  assert (Fne : forall d0 s0, d0 <> [] -> fill d0 s0 <> []).
  { intros d0 s0 H0. unfold fill. destruct (is_empty s0) eqn:E; [exact H0|apply is_empty_false; exact E]. }
  assert (On : forall t k, t <> [] -> opt_num t k -> atoi t = OK k) by (intros t k Ht0 [(E & _)|(_ & E)]; [contradiction|exact E]).
  apply On in A2; [|apply Fne; discriminate]. apply On in B2; [|apply Fne; discriminate]. apply On in A3; [|apply Fne; discriminate].
  pose proof Hp as Hp0. destruct Hp0 as [Pyq Py Pmq Pm Pdq Pd].
  assert (Qm : mc = [] \/ core_in month_shapes mc).
  { destruct Pm as [->|Pm]; [|auto]. left. inversion Pmq; subst; [reflexivity|].
    match goal with H : _ ++ [_] = [] |- _ => apply app_eq_nil in H; destruct H; discriminate end. }
  assert (Qd : dc = [] \/ core_in day_shapes dc).
  { destruct Pd as [->|Pd]; [|auto]. left. inversion Pdq; subst; [reflexivity|].
    match goal with H : _ ++ [_] = [] |- _ => apply app_eq_nil in H; destruct H; discriminate end. }
  destruct (year_den_inv _ _ _ _ _ _ _ Py Hyr A1 B1) as (sy & Dy).
  destruct (month_den_inv _ _ _ _ _ _ _ Qm Hmr A2 B2) as (sm & Dm).
  assert (Rm : 1 <= mm /\ 1 <= mm').
  { pose proof (year_den_range s _ _ _ _ _ Dy) as G. destruct G as (? & ? & _ & _ & _ & _ & _ & _ & _ & _ & Hpy).
    pose proof (month_den_range _ _ _ _ py Hpy Dm) as G. destruct G as (? & ? & _ & _ & _ & G1 & G2 & _). lia. }
  replace (mm =? 0) with false in * by lia. replace (mm' =? 0) with false in * by lia.
  destruct (day_den_inv _ _ _ _ _ _ (month_len y1 mm) (month_len y2 mm') _ Qd Hdr A3) as (d1 & d2 & sd & Dd).
  destruct (string_range_den _ _ _ _ _ _ _ _ _ _ _ _ _ _ _ _ _ _ _ _ Ht Hp Dy Dm Dd)
    as (ys1 & ms1 & ds1 & ye1 & me1 & de1 & n & n' & Hsr1 & Hys & Hye & Hms & Hme & Hds & Hde1 & Hne & Hne' & Ed1 & Ed2 & _ & _ & Bm & Bm' & Hs).
  rewrite Hsr in Hsr1. injection Hsr1. intros _ _ _ Q1 Q2 Q3 Q4 Q5 Q6.
  rewrite <- ?Q1, <- ?Q2, <- ?Q3, <- ?Q4, <- ?Q5, <- ?Q6 in *.
  rewrite (ymd_of_den _ _ _ _ _ _ _ Hys Hms Hds Hne Ed1 A4 Bm) in H1.
  rewrite (ymd_of_den _ _ _ _ _ _ _ Hye Hme Hde1 Hne' Ed2 B4 Bm') in H2.
  destruct (month_len y1 mm <? n); [discriminate|]. destruct (month_len y2 mm' <? n'); [discriminate|].
  injection H1 as E1 E2. injection H2 as E3 E4.
  assert (DD : date_den s y1 mm d1 y2 mm' d2 u a (date_prec mc dc py) (sy && sm && sd)).
  { constructor. exists yt, yc, yq, mt, mc, mq, dt, dc, dq, py, sy, sm, sd. auto 10. }
  assert (R1 : real_date y1 mm d1) by congruence. assert (R2 : real_date y2 mm' d2) by congruence.
  exists y1, mm, d1, y2, mm', d2, u, a, (date_prec mc dc py), (sy && sm && sd).
  split; [exact DD|]. split; [exact R1|]. split; [exact R2|]. split; [exact A4|]. split; [exact B4|].
  destruct (span_fwd _ _ _ _ _ _ _ _ _ _ _ DD R1 R2) as (F & _). rewrite F in H. injection H as <-. reflexivity.
Qed.
