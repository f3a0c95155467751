(** Reading back what Marshal writes, for any date with nil pointers and any bytes. *)
From Coq Require Import Ascii String ZArith NArith Bool Lia ZifyBool List.
From Verif Require Import GoStr GoTime SpecText StrFacts TextFacts CommonProofs SpecHelpers Edtf Json JsonText SpecJson SpecJsonText ApiFacts JsonProofs JsonTextProofs JsonReadProofs JsonDoc Unmarshal SpecUnmarshal DocProofs UnmarshalProofs.
Import ListNotations.
Open Scope Z_scope.
Ltac Zify.zify_post_hook ::= Z.div_mod_to_equations.

(** ** What escape_runes does *)
Definition written_rune (x : str) : str :=
  if seqb x [chr 226; chr 128; chr 168] then $"\u2028" else if seqb x [chr 226; chr 128; chr 169] then $"\u2029" else x.
Lemma three_codes a b c x y z : 0 <= x < 256 -> 0 <= y < 256 -> 0 <= z < 256 ->
  seqb [a; b; c] [chr x; chr y; chr z] = (code a =? x) && (code b =? y) && (code c =? z).
Proof.
  intros X Y Z. apply eq_true_iff_eq. rewrite seqb_eq. split.
  - intro H. injection H as -> -> ->. rewrite !code_chr by lia. lia.
  - intro H. rewrite <- (chr_code a), <- (chr_code b), <- (chr_code c). repeat f_equal; lia.
Qed.
Lemma written_plain x : length x <> 3%nat -> written_rune x = x.
Proof.
  intro L. unfold written_rune. destruct (seqb x _) eqn:E; [apply seqb_eq in E; subst x; destruct L; reflexivity|].
  destruct (seqb x [chr 226; chr 128; chr 169]) eqn:E'; [apply seqb_eq in E'; subst x; destruct L; reflexivity|]. reflexivity.
Qed.
Lemma escape_step s : escape_runes s = match rune_at s with
  | Some (x, r) => written_rune x ++ escape_runes r
  | None => match s with [] => [] | _ :: t => $"\ufffd" ++ escape_runes t end
  end.
Proof.
  destruct s as [|a t]; [reflexivity|]. cbn [escape_runes rune_at]. destruct (code a <? 128); [rewrite written_plain by discriminate; reflexivity|]. destruct t as [|b t2]; [reflexivity|].
  destruct (two_bytes a b); [rewrite written_plain by discriminate; reflexivity|]. destruct t2 as [|c t3]; [reflexivity|]. destruct (three_bytes a b c).
  { unfold written_rune. rewrite !three_codes by lia. destruct ((code a =? 226) && (code b =? 128) && (code c =? 168)); [reflexivity|]. destruct ((code a =? 226) && (code b =? 128) && (code c =? 169)); reflexivity. }
  destruct t3 as [|d t4]; [reflexivity|]. destruct (four_bytes a b c d); [rewrite written_plain by discriminate; reflexivity|reflexivity].
Qed.
Definition low (s : str) : Prop := Forall (fun c => code c < 128) s.
Definition low_start (s : str) : Prop := match s with [] => True | c :: _ => code c < 128 end.
Lemma escape_low a r : low a -> escape_runes (a ++ r) = a ++ escape_runes r.
Proof. intro H. induction H as [|c a H _ IH]; [reflexivity|]. cbn [app escape_runes]. replace (code c <? 128) with true by lia. rewrite IH. reflexivity. Qed.
Lemma rune_app a s r : low_start r -> a :: s <> [] -> rune_at ((a :: s) ++ r) = match rune_at (a :: s) with Some (x, u) => Some (x, u ++ r) | None => None end.
Proof.
  intros L _. cbn [app rune_at]. destruct (code a <? 128); [reflexivity|].
  assert (B : forall k l c, 128 <= k -> code c < 128 -> between k l c = false) by (unfold between; intros; lia).
  destruct s as [|b s].
  { cbn [app]. destruct r as [|b r]; [reflexivity|]. cbn [low_start] in L. unfold two_bytes, three_bytes, four_bytes. rewrite !(fun k l => B k l b) by lia. rewrite !andb_false_r. cbn [orb andb].
    destruct r; [reflexivity|]. destruct r; reflexivity. }
  cbn [app]. destruct (two_bytes a b); [reflexivity|]. destruct s as [|c s].
  { cbn [app]. destruct r as [|c r]; [reflexivity|]. cbn [low_start] in L. unfold three_bytes, four_bytes. rewrite !(fun k l => B k l c) by lia. rewrite !andb_false_r. cbn [andb].
    destruct r; reflexivity. }
  cbn [app]. destruct (three_bytes a b c); [reflexivity|]. destruct s as [|d s].
  { cbn [app]. destruct r as [|d r]; [reflexivity|]. cbn [low_start] in L. unfold four_bytes. rewrite !(fun k l => B k l d) by lia. rewrite !andb_false_r. reflexivity. }
  cbn [app]. destruct (four_bytes a b c d); reflexivity.
Qed.
Lemma escape_app n : forall a r, (length a <= n)%nat -> low_start r -> escape_runes (a ++ r) = escape_runes a ++ escape_runes r.
Proof.
  induction n as [|n IH]; intros a r L S; [destruct a; [reflexivity|cbn [length] in L; lia]|]. destruct a as [|c a]; [reflexivity|].
  rewrite (escape_step ((c :: a) ++ r)), (escape_step (c :: a)), (rune_app c a r S) by discriminate. destruct (rune_at (c :: a)) as [[x u]|] eqn:E.
  - apply rune_char in E. destruct E as (C & E). pose proof (char_nonempty x C). assert ((length u <= n)%nat).
    { apply (f_equal (@length _)) in E. rewrite app_length in E. cbn [length] in *. destruct x; [congruence|]. cbn [length] in E. lia. }
    rewrite (IH u r) by assumption. rewrite <- app_assoc. reflexivity.
  - cbn [app]. rewrite IH by (assumption || (cbn [length] in L; lia)). reflexivity.
Qed.
(** ** Strings *)
Ltac hexd := match goal with |- hex_digit ?h ?z =>
  first [change z with (code h - 48); apply hd_num; vm_compute; split; discriminate|change z with (10 + (code h - 97)); apply hd_low; vm_compute; split; discriminate] end.
Lemma char_body c t b u : json_char c t -> string_body b u -> string_body (c :: b) (t ++ u).
Proof.
  intros H B. destruct H as [c H N1 N2| | | | | | | | |x y h1 h2 H1 H2].
  - apply sb_plain; assumption.
  - apply (sb_escape """" """"); [constructor|exact B].
  - apply (sb_escape "\" "\"); [constructor|exact B].
  - apply (sb_escape "/" "/"); [constructor|exact B].
  - apply (sb_escape "b" (chr 8)); [constructor|exact B].
  - apply (sb_escape "f" (chr 12)); [constructor|exact B].
  - apply (sb_escape "n" (chr 10)); [constructor|exact B].
  - apply (sb_escape "r" (chr 13)); [constructor|exact B].
  - apply (sb_escape "t" (chr 9)); [constructor|exact B].
  - set (r := 16 * Z.of_nat x + Z.of_nat y).
    assert (A : (x < 8)%nat) by (apply (nth_error_Some ($"01234567")); rewrite H1; discriminate).
    assert (B' : (y < 16)%nat) by (apply (nth_error_Some ($"0123456789abcdef")); rewrite H2; discriminate).
    assert (D1 : hex_digit h1 (Z.of_nat x)) by (do 8 (destruct x as [|x]; [injection H1 as <-; hexd|]); lia).
    assert (D2 : hex_digit h2 (Z.of_nat y)).
    { do 10 (destruct y as [|y]; [injection H2 as <-; hexd|]).
      do 6 (destruct y as [|y]; [injection H2 as <-; hexd|]). lia. }
    assert (D0 : hex_digit "0" 0) by hexd.
    change (chr r :: b) with ([chr r] ++ b). apply (sb_unit _ r).
    + replace r with (((0 * 16 + 0) * 16 + Z.of_nat x) * 16 + Z.of_nat y) by (unfold r; lia). exact (ut_intro _ _ _ _ _ _ _ _ D0 D0 D1 D2).
    + unfold high_unit, r. lia.
    + unfold low_unit, r. lia.
    + constructor. unfold r. lia.
    + exact B.
Qed.
Lemma esc_low c : code c < 128 -> low (esc c).
Proof.
  intro H. destruct c as [[] [] [] [] [] [] [] []]; try (vm_compute in H; discriminate); unfold low; rewrite Forall_forall; intros x I; vm_compute in I; decompose [or False] I; subst; reflexivity.
Qed.
Lemma esc_high c : 128 <= code c -> esc c = [c].
Proof.
  intro H. unfold esc. replace (code c =? 34) with false by lia. replace (code c =? 92) with false by lia. replace (code c =? 10) with false by lia. replace (code c =? 13) with false by lia.
  replace (code c =? 9) with false by lia. replace (code c <? 32) with false by lia. replace (code c =? 60) with false by lia. replace (code c =? 62) with false by lia. replace (code c =? 38) with false by lia. reflexivity.
Qed.
Lemma esc_nonempty c : exists d t, esc c = d :: t /\ (128 <= code c \/ code d < 128).
Proof.
  destruct (Z_lt_le_dec (code c) 128) as [H|H]; [|exists c, []; split; [apply esc_high; exact H|left; exact H]].
  pose proof (esc_low c H) as L. destruct (esc c) as [|d t] eqn:E; [|exists d, t; split; [reflexivity|right; inversion L; assumption]].
  destruct c as [[] [] [] [] [] [] [] []]; vm_compute in E; discriminate.
Qed.
Definition high (s : str) : Prop := Forall (fun c => 128 <= code c) s.
Lemma high_prefix p : high p -> forall t r, flat_map esc t = p ++ r -> exists r', t = p ++ r'.
Proof.
  intro H. induction H as [|c p H _ IH]; intros t r E; [exists t; reflexivity|]. destruct t as [|d t]; [discriminate|]. cbn [flat_map] in E.
  destruct (Z_lt_le_dec (code d) 128) as [L|L].
  - destruct (esc_nonempty d) as (x & u & Eu & [B|B]); [lia|]. rewrite Eu in E. cbn [app] in E. injection E as -> _. lia.
  - rewrite (esc_high d L) in E. cbn [app] in E. injection E as -> E. destruct (IH t r E) as (r' & ->). exists r'. reflexivity.
Qed.
Lemma char_high x c t : character x -> x = c :: t -> 128 <= code c -> high x.
Proof.
  intros (r & U & _) E H. destruct U as [r R|a b A B|a b c0 A B C L|a b c0 d A B C D L]; unfold high; rewrite ?Forall_cons_iff, ?code_chr by lia; repeat split; try constructor; try lia.
  injection E as <- _. rewrite code_chr in H by lia. lia.
Qed.
Lemma high_esc x : high x -> flat_map esc x = x.
Proof. intro H. induction H as [|c x H _ IH]; [reflexivity|]. cbn [flat_map]. rewrite (esc_high c H), IH. reflexivity. Qed.
Lemma high_body x b u : high x -> string_body b u -> string_body (x ++ b) (x ++ u).
Proof.
  intros H B. induction H as [|c x H _ IH]; [exact B|]. cbn [app]. apply sb_plain; [lia|intros ->; vm_compute in H; lia|intros ->; vm_compute in H; lia|exact IH].
Qed.
Lemma unit_of a b c d x y z w : hex_digit a x -> hex_digit b y -> hex_digit c z -> hex_digit d w -> unit_text ("\"%char :: "u"%char :: [a; b; c; d]) (((x * 16 + y) * 16 + z) * 16 + w).
Proof. exact (ut_intro a b c d x y z w). Qed.
Lemma body_written n : forall s, (length s <= n)%nat -> string_body (utf8_fix s) (escape_runes (flat_map esc s)).
Proof.
  induction n as [|n IH]; intros s L; [destruct s; [constructor|cbn [length] in L; lia]|]. rewrite fix_step. destruct (rune_at s) as [[x r]|] eqn:E.
  - apply rune_char in E. destruct E as (C & ->). pose proof (char_nonempty x C) as N.
    assert (Lr : (length r <= n)%nat) by (destruct x; [congruence|]; rewrite app_length in L; cbn [length] in L; lia).
    rewrite flat_map_app. destruct x as [|c t]; [congruence|]. destruct (Z_lt_le_dec (code c) 128) as [H|H].
    + assert (E : t = []).
      { destruct C as (z & U & _). remember (c :: t) as x eqn:Ex. pose proof (f_equal (fun l => code (hd "0"%char l)) Ex) as Ec. cbn [hd] in Ec.
        destruct U; cbn [hd] in Ec; rewrite code_chr in Ec by lia; [|exfalso; lia..]. destruct t; [reflexivity|discriminate]. }
      subst t. cbn [flat_map app]. rewrite app_nil_r, escape_low by (apply esc_low; exact H). apply char_body; [apply esc_char|apply IH; exact Lr].
    + pose proof (char_high _ c t C eq_refl H) as Hi. rewrite (high_esc _ Hi), escape_step, (char_rune _ _ C). unfold written_rune.
      destruct (seqb (c :: t) [chr 226; chr 128; chr 168]) eqn:E1.
      { apply seqb_eq in E1. rewrite E1. apply (sb_unit _ 8232); [|unfold high_unit; lia|unfold low_unit; lia|exact (u8_three 2 0 40 ltac:(lia) ltac:(lia) ltac:(lia) ltac:(lia))|apply IH; exact Lr].
        refine (unit_of "2" "0" "2" "8" 2 0 2 8 _ _ _ _); hexd. }
      destruct (seqb (c :: t) [chr 226; chr 128; chr 169]) eqn:E2.
      { apply seqb_eq in E2. rewrite E2. apply (sb_unit _ 8233); [|unfold high_unit; lia|unfold low_unit; lia|exact (u8_three 2 0 41 ltac:(lia) ltac:(lia) ltac:(lia) ltac:(lia))|apply IH; exact Lr].
        refine (unit_of "2" "0" "2" "9" 2 0 2 9 _ _ _ _); hexd. }
      apply high_body; [exact Hi|apply IH; exact Lr].
  - destruct s as [|c t]; [constructor|]. cbn [length] in L.
    assert (H : 128 <= code c). { destruct (Z_lt_le_dec (code c) 128) as [H|H]; [|exact H]. cbn [rune_at] in E. replace (code c <? 128) with true in E by lia. discriminate. }
    cbn [flat_map]. rewrite (esc_high c H). cbn [app]. rewrite escape_step. destruct (rune_at (c :: flat_map esc t)) as [[x r]|] eqn:E'.
    + exfalso. apply rune_char in E'. destruct E' as (C & E'). destruct x as [|d x]; [destruct (char_nonempty [] C eq_refl)|]. injection E' as <- E'.
      pose proof (char_high _ c x C eq_refl H) as Hi. destruct (high_prefix x (Forall_inv_tail Hi) t r E') as (r' & ->). change (c :: x ++ r') with ((c :: x) ++ r') in E. rewrite (char_rune _ r' C) in E. discriminate.
    + apply (sb_unit _ 65533); [|unfold high_unit; lia|unfold low_unit; lia|exact (u8_three 15 63 61 ltac:(lia) ltac:(lia) ltac:(lia) ltac:(lia))|apply IH; lia].
      refine (unit_of "f" "f" "f" "d" 15 15 15 13 _ _ _ _); hexd.
Qed.
(** ** Values *)
Fixpoint fix_json (v : json) : json :=
  match v with
  | JStr s => JStr (utf8_fix s)
  | JArr l => JArr (map fix_json l)
  | JObj l => JObj (map (fun m => (utf8_fix (fst m), fix_json (snd m))) l)
  | _ => v
  end.
Lemma digits_low t : Forall json_digit t -> low t.
Proof. intro H. eapply Forall_impl; [|exact H]. unfold json_digit. intros. lia. Qed.
Lemma int_low t : json_int t -> low t.
Proof.
  intro I. destruct I as [|c t H _ D| |c t H _ D]; [repeat constructor|constructor; [unfold json_digit in H; lia|apply digits_low; exact D]|repeat constructor|].
  constructor; [reflexivity|]. constructor; [unfold json_digit in H; lia|apply digits_low; exact D].
Qed.
Lemma int_number t : json_int t -> number_text t.
Proof. intro H. exists t, [], []. split; [exact H|]. split; [constructor|]. split; [constructor|]. rewrite !app_nil_r. reflexivity. Qed.
Lemma escape_lows a : low a -> escape_runes a = a.
Proof. intro H. rewrite <- (app_nil_r a), (escape_low a [] H). reflexivity. Qed.
Lemma escape_quote s r : low_start r -> escape_runes (quote s ++ r) = $"""" ++ escape_runes (flat_map esc s) ++ $"""" ++ escape_runes r.
Proof.
  intro L. unfold quote. change ($"""") with [""""%char]. cbn [app]. change (escape_runes (""""%char :: (flat_map esc s ++ [""""%char]) ++ r)) with (""""%char :: escape_runes ((flat_map esc s ++ [""""%char]) ++ r)). f_equal.
  rewrite <- app_assoc. rewrite (escape_app _ _ _ (le_n _)) by reflexivity. reflexivity.
Qed.
Lemma escape_cons c r : code c < 128 -> escape_runes (c :: r) = c :: escape_runes r.
Proof. intro H. exact (escape_low [c] r ltac:(constructor; [exact H|constructor])). Qed.
Lemma escape_at a r : low_start r -> escape_runes (a ++ r) = escape_runes a ++ escape_runes r.
Proof. intro H. exact (escape_app _ a r (le_n _) H). Qed.
Lemma print_value n : forall v, (jsize v <= n)%nat -> ints v -> value_text (fix_json v) (escape_runes (print v)).
Proof.
  induction n as [|n IH]; intros v L H; [destruct v; cbn [jsize] in L; lia|].
  destruct v as [|[]|t|s|l|l]; cbn [fix_json].
  - exact vt_null.
  - exact vt_true.
  - exact vt_false.
  - cbn [print ints] in *. rewrite (escape_lows t (int_low t H)). constructor. exact (int_number t H).
  - cbn [print]. rewrite <- (app_nil_r (quote s)), (escape_quote s [] I). cbn [escape_runes]. rewrite app_nil_r. constructor. apply (body_written (length s)). lia.
  - rewrite print_arr. change ($"[" ++ print_items true l ++ $"]") with ("["%char :: print_items true l ++ ["]"%char]). rewrite escape_cons by reflexivity. rewrite escape_at by reflexivity. rewrite (escape_lows ["]"%char]) by (repeat constructor).
    destruct l as [|v l]; [exact (vt_arr0 [] (Forall_nil _))|].
    apply (vt_arr (map fix_json (v :: l)) (escape_runes (print_items true (v :: l)))). cbn [jsize] in L. cbn [ints] in H. apply le_S_n in L.
    revert v L H. induction l as [|w l IHl]; intros v L (Hv & Hl).
    + cbn [print_items app map]. rewrite app_nil_r. rewrite <- (app_nil_r (escape_runes (print v))). apply (it_one [] _ _ []); [constructor|apply IH; [lia|exact Hv]|constructor].
    + change (print_items true (v :: w :: l)) with (print v ++ ","%char :: print_items true (w :: l)). rewrite escape_at by reflexivity. rewrite escape_cons by reflexivity.
      apply (it_more [] _ _ []); [constructor|apply IH; [lia|exact Hv]|constructor|]. apply IHl; [lia|exact Hl].
  - rewrite print_obj. change ($"{" ++ print_members true l ++ $"}") with ("{"%char :: print_members true l ++ ["}"%char]). rewrite escape_cons by reflexivity. rewrite escape_at by reflexivity. rewrite (escape_lows ["}"%char]) by (repeat constructor).
    destruct l as [|(k, v) l]; [exact (vt_obj0 [] (Forall_nil _))|].
    apply (vt_obj (map (fun m => (utf8_fix (fst m), fix_json (snd m))) ((k, v) :: l)) (escape_runes (print_members true ((k, v) :: l)))). cbn [jsize] in L. cbn [ints] in H. apply le_S_n in L.
    revert k v L H. induction l as [|(k', w) l IHl]; intros k v L (Hv & Hl).
    + cbn [print_members app map fst snd]. rewrite app_nil_r. rewrite escape_quote by reflexivity. change ($":" ++ print v) with (":"%char :: print v). rewrite escape_cons by reflexivity.
      rewrite <- (app_nil_r (escape_runes (print v))). apply (mt_one [] _ _ [] [] _ _ []); try constructor; [apply (body_written (length k)); lia|apply IH; [lia|exact Hv]].
    + change (print_members true ((k, v) :: (k', w) :: l)) with (quote k ++ ":"%char :: print v ++ ","%char :: print_members true ((k', w) :: l)).
      rewrite escape_quote by reflexivity. rewrite escape_cons by reflexivity. rewrite escape_at by reflexivity. rewrite escape_cons by reflexivity.
      apply (mt_more [] _ _ [] [] _ _ []); try constructor; [apply (body_written (length k)); lia|apply IH; [lia|exact Hv]|]. apply IHl; [lia|exact Hl].
Qed.
(** ** The tree with the texts of its strings *)
Inductive cooks : doc -> json -> Prop :=
| ck_null : cooks DNull JNull
| ck_bool b : cooks (DBool b) (JBool b)
| ck_num t : cooks (DNum t) (JNum t)
| ck_str t b : string_body b t -> cooks (DStr t) (JStr b)
| ck_arr l m : cooks_items l m -> cooks (DArr l) (JArr m)
| ck_obj l m : cooks_members l m -> cooks (DObj l) (JObj m)
with cooks_items : list doc -> list json -> Prop :=
| cks_nil : cooks_items [] [] | cks_cons x y l m : cooks x y -> cooks_items l m -> cooks_items (x :: l) (y :: m)
with cooks_members : list (str * doc) -> list (str * json) -> Prop :=
| ckm_nil : cooks_members [] []
| ckm_cons t b x y l m : string_body b t -> cooks x y -> cooks_members l m -> cooks_members ((t, x) :: l) ((b, y) :: m).
Lemma cooked : (forall v t, value_text v t -> exists d, dvalue_text d t /\ cooks d v) /\
  (forall l t, items_text l t -> exists m, ditems_text m t /\ cooks_items m l) /\
  (forall l t, members_text l t -> exists m, dmembers_text m t /\ cooks_members m l).
Proof.
  apply value_all.
  - exists DNull. split; constructor.
  - exists (DBool true). split; constructor.
  - exists (DBool false). split; constructor.
  - intros t H. exists (DNum t). split; constructor. exact H.
  - intros b t H. exists (DStr t). split; constructor; [exists b|]; exact H.
  - intros w W. exists (DArr []). split; [apply dt_arr0; exact W|constructor; constructor].
  - intros l t _ (m & D & C). exists (DArr m). split; [apply dt_arr; exact D|constructor; exact C].
  - intros w W. exists (DObj []). split; [apply dt_obj0; exact W|constructor; constructor].
  - intros l t _ (m & D & C). exists (DObj m). split; [apply dt_obj; exact D|constructor; exact C].
  - intros w v t w' W _ (d & D & C) W'. exists [d]. split; [apply di_one; assumption|constructor; [exact C|constructor]].
  - intros w v t w' l u W _ (d & D & C) W' _ (m & D' & C'). exists (d :: m). split; [apply di_more; assumption|constructor; assumption].
  - intros w k kt w1 w2 v t w' W K W1 W2 _ (d & D & C) W'. exists [(kt, d)]. split; [apply dm_one; try assumption; exists k; exact K|constructor; [exact K|exact C|constructor]].
  - intros w k kt w1 w2 v t w' l u W K W1 W2 _ (d & D & C) W' _ (m & D' & C'). exists ((kt, d) :: m). split; [apply dm_more; try assumption; exists k; exact K|constructor; assumption].
Qed.
Lemma cooks_obj x m : cooks x (JObj m) -> exists l, x = DObj l /\ cooks_members l m.
Proof. intro C. inversion C as [| | | | |l m' M]; subst. exists l. auto. Qed.
Lemma members_split a : forall l b, cooks_members l (a ++ b) -> exists l1 l2, l = l1 ++ l2 /\ cooks_members l1 a /\ cooks_members l2 b.
Proof.
  induction a as [|(k, v) a IH]; intros l b H; [exists [], l; split; [reflexivity|]; split; [constructor|exact H]|]. inversion H as [|t b' x y l' m K C R]; subst.
  destruct (IH _ _ R) as (l1 & l2 & -> & H1 & H2). exists ((t, x) :: l1), l2. split; [reflexivity|]. split; [constructor; assumption|exact H2].
Qed.

(** ** The members of a date *)
Lemma clean_value b t : string_body b t -> utf8_fix b = b -> unquote t = Some b.
Proof. intros H E. apply unquote_some. exists b. split; [exact H|]. apply repaired_iff. exact E. Qed.
Lemma one_member {A} (set : str -> doc -> A -> res A) l k j c : cooks_members l [(k, j)] -> utf8_fix k = k ->
  exists x, cooks x j /\ set_members set l c = set (fold_name k) x c.
Proof.
  intros H E. inversion H as [|t b x y l' m K C R]; subst. inversion R; subst. exists x. split; [exact C|]. rewrite (members_cons _ _ _ _ _ _ (clean_value _ _ K E)).
  destruct (set (fold_name k) x c); reflexivity.
Qed.
Lemma int_back c z : int64 z -> set_int c (DNum (itoa z)) = OK z.
Proof. intro H. cbn [set_int]. rewrite atoi_itoa; [reflexivity|]. unfold min_int64, max_int64. unfold int64 in H. lia. Qed.
Lemma prec_back c p : uint32 p -> set_prec c (DNum (itoa (Z.of_N p))) = OK p.
Proof.
  intro H. apply flags_set. right. constructor; [|unfold uint32 in H; change (2 ^ 32)%N with 4294967296%N in H; change (2 ^ 32) with 4294967296; lia].
  destruct (itoa_canonical (Z.of_N p)) as [(_ & D & _)|(L & _)]; [exact D|lia].
Qed.
Lemma ts_back c t : int64 t -> set_ts c (DNum (ts_marshal t)) = OK (Some t).
Proof. intro H. cbn [set_ts]. destruct (timestamp_roundtrip t) as (_ & E & _); [unfold min_int64, max_int64; unfold int64 in H; lia|]. rewrite E. reflexivity. Qed.
Lemma text_back c b t : string_body b t -> utf8_fix b = b -> set_text c (DStr t) = OK b.
Proof. intros H E. cbn [set_text]. unfold unquoted. rewrite (clean_value b t H E). reflexivity. Qed.
Ltac one H := let x := fresh "x" in let C := fresh "C" in let E := fresh "E" in
  match type of H with cooks_members ?l _ => match goal with |- set_members ?set l ?c = _ => destruct (one_member set l _ _ c H eq_refl) as (x & C & E) end end;
  rewrite E; clear E; inversion C; subst; clear C.
Lemma chunk_dt l dt ts y un ap us pr op uk inc : cooks_members l (match dt with [] => [] | a :: l => [($"datetime", JStr (a :: l))] end) -> utf8_fix dt = dt ->
  set_members date_member l (mkDate [] ts y un ap us pr op uk inc) = OK (mkDate dt ts y un ap us pr op uk inc).
Proof.
  intros H F. destruct dt as [|c dt]; [inversion H; reflexivity|]. one H.
  match goal with B : string_body _ ?t |- _ => change (date_member (fold_name $"datetime") (DStr t) (mkDate [] ts y un ap us pr op uk inc)) with (let* x := set_text [] (DStr t) in OK (mkDate x ts y un ap us pr op uk inc)); rewrite (text_back [] _ _ B F) end. reflexivity.
Qed.
Lemma chunk_ts l dt ts y un ap us pr op uk inc : cooks_members l (match ts with None => [] | Some t => [($"timestamp", JNum (ts_marshal t))] end) -> (forall t, ts = Some t -> int64 t) ->
  set_members date_member l (mkDate dt None y un ap us pr op uk inc) = OK (mkDate dt ts y un ap us pr op uk inc).
Proof.
  intros H F. destruct ts as [t|]; [|inversion H; reflexivity]. one H.
  change (date_member (fold_name $"timestamp") (DNum (ts_marshal t)) (mkDate dt None y un ap us pr op uk inc)) with (let* x := set_ts None (DNum (ts_marshal t)) in OK (mkDate dt x y un ap us pr op uk inc)).
  rewrite ts_back by (apply F; reflexivity). reflexivity.
Qed.
Lemma ymd_back x y : cooks x (enc_ymd y) -> (forall v, y = Some v -> int64 (y_year v) /\ int64 (y_month v) /\ int64 (y_day v)) -> set_pointer blank_ymd ymd_member None x = OK y.
Proof.
  intros C F. destruct y as [[a b c]|]; [|inversion C; reflexivity]. destruct (F _ eq_refl) as (Fa & Fb & Fc). cbn [y_year y_month y_day] in *. cbn [enc_ymd y_year y_month y_day] in C. destruct (cooks_obj _ _ C) as (l & -> & M).
  destruct (members_split [($"year", JNum (itoa a))] l [($"month", JNum (itoa b)); ($"day", JNum (itoa c))] M) as (l1 & r1 & -> & M1 & M').
  destruct (members_split [($"month", JNum (itoa b))] r1 [($"day", JNum (itoa c))] M') as (l2 & l3 & -> & M2 & M3). cbn [set_pointer]. rewrite members_app. unfold blank_ymd.
  assert (E1 : set_members ymd_member l1 (mkYMD 0 0 0) = OK (mkYMD a 0 0)).
  { one M1. change (ymd_member (fold_name $"year") (DNum (itoa a)) (mkYMD 0 0 0)) with (let* x := set_int 0 (DNum (itoa a)) in OK (mkYMD x 0 0)). rewrite (int_back 0 a Fa). reflexivity. }
  assert (E2 : set_members ymd_member l2 (mkYMD a 0 0) = OK (mkYMD a b 0)).
  { one M2. change (ymd_member (fold_name $"month") (DNum (itoa b)) (mkYMD a 0 0)) with (let* x := set_int 0 (DNum (itoa b)) in OK (mkYMD a x 0)). rewrite (int_back 0 b Fb). reflexivity. }
  assert (E3 : set_members ymd_member l3 (mkYMD a b 0) = OK (mkYMD a b c)).
  { one M3. change (ymd_member (fold_name $"day") (DNum (itoa c)) (mkYMD a b 0)) with (let* x := set_int 0 (DNum (itoa c)) in OK (mkYMD a b x)). rewrite (int_back 0 c Fc). reflexivity. }
  rewrite E1. cbn [bind]. rewrite members_app, E2. cbn [bind]. rewrite E3. reflexivity.
Qed.
Lemma chunk_ymd l dt ts y un ap us pr op uk inc : cooks_members l [($"ymd", enc_ymd y)] -> (forall v, y = Some v -> int64 (y_year v) /\ int64 (y_month v) /\ int64 (y_day v)) ->
  set_members date_member l (mkDate dt ts None un ap us pr op uk inc) = OK (mkDate dt ts y un ap us pr op uk inc).
Proof.
  intros H F. destruct (one_member date_member l _ _ (mkDate dt ts None un ap us pr op uk inc) H eq_refl) as (x & C & ->).
  change (date_member (fold_name $"ymd") x (mkDate dt ts None un ap us pr op uk inc)) with (let* z := set_pointer blank_ymd ymd_member None x in OK (mkDate dt ts z un ap us pr op uk inc)).
  rewrite (ymd_back x y C F). reflexivity.
Qed.
Lemma chunk_prec l k p (mk : N -> date) : cooks_members l (enc_prec k p) -> utf8_fix k = k -> uint32 p ->
  (forall v, date_member (fold_name k) v (mk 0%N) = let* x := set_prec 0%N v in OK (mk x)) -> set_members date_member l (mk 0%N) = OK (mk p).
Proof.
  intros H K U E. unfold enc_prec in H. destruct (N.eqb p 0) eqn:P; [apply N.eqb_eq in P; subst p; inversion H; subst; reflexivity|].
  destruct (one_member date_member l _ _ (mk 0%N) H K) as (x & C & ->). inversion C; subst. rewrite E, (prec_back _ _ U). reflexivity.
Qed.
Lemma chunk_flag l k (b : bool) (mk : bool -> date) : cooks_members l (enc_flag k b) -> utf8_fix k = k ->
  (forall v, date_member (fold_name k) v (mk false) = let* x := set_bool false v in OK (mk x)) -> set_members date_member l (mk false) = OK (mk b).
Proof.
  intros H K E. unfold enc_flag in H. destruct b; [|inversion H; subst; reflexivity].
  destruct (one_member date_member l _ _ (mk false) H K) as (x & C & ->). inversion C; subst. rewrite E. reflexivity.
Qed.
Definition clean_date (d : date) : Prop := utf8_fix (d_datetime d) = d_datetime d.
Lemma date_back x d : cooks x (enc_date d) -> held_date d -> clean_date d -> set_pointer blank_date date_member None x = OK (Some d).
Proof.
  destruct d as [dt ts y un ap us pr op uk inc]. intros C [Ft Fy Ff] F. unfold clean_date in F. cbn [d_datetime d_timestamp d_ymd d_uncertain d_approximate d_unspecified d_precision d_inclusivity] in *.
  rewrite !Forall_cons_iff in Ff. destruct Ff as (F1 & F2 & F3 & F4 & F5 & _).
  unfold enc_date in C. cbn [d_datetime d_timestamp d_ymd d_uncertain d_approximate d_unspecified d_precision d_open d_unknown d_inclusivity] in C. destruct (cooks_obj _ _ C) as (l & -> & M). clear C.
  apply members_split in M. destruct M as (l1 & r1 & -> & M1 & M). apply members_split in M. destruct M as (l2 & r2 & -> & M2 & M). apply members_split in M. destruct M as (l3 & r3 & -> & M3 & M).
  apply members_split in M. destruct M as (l4 & r4 & -> & M4 & M). apply members_split in M. destruct M as (l5 & r5 & -> & M5 & M). apply members_split in M. destruct M as (l6 & r6 & -> & M6 & M).
  apply members_split in M. destruct M as (l7 & r7 & -> & M7 & M). apply members_split in M. destruct M as (l8 & r8 & -> & M8 & M). apply members_split in M. destruct M as (l9 & r9 & -> & M9 & M).
  cbn [set_pointer]. unfold blank_date. rewrite members_app, (chunk_dt l1 dt _ _ _ _ _ _ _ _ _ M1 F). cbn [bind]. rewrite members_app, (chunk_ts l2 _ ts _ _ _ _ _ _ _ _ M2 Ft). cbn [bind].
  rewrite members_app, (chunk_ymd l3 _ _ y _ _ _ _ _ _ _ M3 Fy). cbn [bind].
  pose proof (chunk_prec l4 _ un (fun p => mkDate dt ts y p 0 0 0 false false 0) M4 eq_refl F1 (fun v => eq_refl)) as RM4; cbv beta in RM4. rewrite members_app, RM4. cbn [bind].
  pose proof (chunk_prec l5 _ ap (fun p => mkDate dt ts y un p 0 0 false false 0) M5 eq_refl F2 (fun v => eq_refl)) as RM5; cbv beta in RM5. rewrite members_app, RM5. cbn [bind].
  pose proof (chunk_prec l6 _ us (fun p => mkDate dt ts y un ap p 0 false false 0) M6 eq_refl F3 (fun v => eq_refl)) as RM6; cbv beta in RM6. rewrite members_app, RM6. cbn [bind].
  pose proof (chunk_prec l7 _ pr (fun p => mkDate dt ts y un ap us p false false 0) M7 eq_refl F4 (fun v => eq_refl)) as RM7; cbv beta in RM7. rewrite members_app, RM7. cbn [bind].
  pose proof (chunk_flag l8 _ op (fun b => mkDate dt ts y un ap us pr b false 0) M8 eq_refl (fun v => eq_refl)) as RM8; cbv beta in RM8. rewrite members_app, RM8. cbn [bind].
  pose proof (chunk_flag l9 _ uk (fun b => mkDate dt ts y un ap us pr op b 0) M9 eq_refl (fun v => eq_refl)) as RM9; cbv beta in RM9. rewrite members_app, RM9. cbn [bind].
  pose proof (chunk_prec r9 _ inc (fun p => mkDate dt ts y un ap us pr op uk p) M eq_refl F5 (fun v => eq_refl)) as RM; cbv beta in RM. rewrite RM. reflexivity.
Qed.
Lemma pdate_back x o : cooks x (enc_pdate o) -> (forall d, o = Some d -> held_date d /\ clean_date d) -> set_pointer blank_date date_member None x = OK o.
Proof. intros C F. destruct o as [d|]; [destruct (F d eq_refl); apply date_back; assumption|]. inversion C. reflexivity. Qed.
Definition clean_range (r : prange) : Prop := utf8_fix (pr_edtf r) = pr_edtf r /\
  (forall d, pr_lower r = Some d -> clean_date d) /\ (forall d, pr_upper r = Some d -> clean_date d).
Lemma prange_back x o : cooks x (enc_prange o) -> (forall r, o = Some r -> held_range r /\ clean_range r) -> set_pointer blank_range range_member None x = OK o.
Proof.
  intros C F. destruct o as [[e lo up]|]; [|inversion C; reflexivity]. destruct (F _ eq_refl) as ((Hl & Hu) & Ce & Cl & Cu). cbn [enc_prange pr_edtf pr_lower pr_upper] in *. destruct (cooks_obj _ _ C) as (l & -> & M). clear C F.
  destruct (members_split [($"edtf", JStr e)] l [($"lower", enc_pdate lo); ($"upper", enc_pdate up)] M) as (l1 & r1 & -> & M1 & M').
  destruct (members_split [($"lower", enc_pdate lo)] r1 [($"upper", enc_pdate up)] M') as (l2 & l3 & -> & M2 & M3). cbn [set_pointer]. rewrite members_app. unfold blank_range.
  assert (E1 : set_members range_member l1 (mkPRange [] None None) = OK (mkPRange e None None)).
  { destruct (one_member range_member l1 _ _ (mkPRange [] None None) M1 eq_refl) as (y & C & ->). inversion C as [| | |t b B| |]; subst.
    change (range_member (fold_name $"edtf") (DStr t) (mkPRange [] None None)) with (let* x := set_text [] (DStr t) in OK (mkPRange x None None)). rewrite (text_back [] _ _ B Ce). reflexivity. }
  assert (E2 : set_members range_member l2 (mkPRange e None None) = OK (mkPRange e lo None)).
  { destruct (one_member range_member l2 _ _ (mkPRange e None None) M2 eq_refl) as (y & C & ->).
    change (range_member (fold_name $"lower") y (mkPRange e None None)) with (let* x := set_pointer blank_date date_member None y in OK (mkPRange e x None)). rewrite (pdate_back y lo C); [reflexivity|]. auto. }
  assert (E3 : set_members range_member l3 (mkPRange e lo None) = OK (mkPRange e lo up)).
  { destruct (one_member range_member l3 _ _ (mkPRange e lo None) M3 eq_refl) as (y & C & ->).
    change (range_member (fold_name $"upper") y (mkPRange e lo None)) with (let* x := set_pointer blank_date date_member None y in OK (mkPRange e lo x)). rewrite (pdate_back y up C); [reflexivity|]. auto. }
  rewrite E1. cbn [bind]. rewrite members_app, E2. cbn [bind]. rewrite E3. reflexivity.
Qed.
Definition clean (o : option pedtf) : Prop := forall d, o = Some d -> utf8_fix (pe_edtf d) = pe_edtf d /\ utf8_fix (pe_feature d) = pe_feature d /\
  (forall r, pe_start d = Some r -> clean_range r) /\ (forall r, pe_end d = Some r -> clean_range r).
Lemma pedtf_back x o : cooks x (enc_pedtf o) -> held o -> clean o -> set_pointer blank_edtf edtf_member None x = OK o.
Proof.
  intros C H K. destruct o as [[st en e lv f]|]; [|inversion C; reflexivity]. destruct (H _ eq_refl) as (Hl & Hs & He). destruct (K _ eq_refl) as (Ke & Kf & Ks & Kn). clear H K.
  cbn [enc_pedtf pe_start pe_end pe_edtf pe_level pe_feature] in *. destruct (cooks_obj _ _ C) as (l & -> & M). clear C.
  destruct (members_split [($"start", enc_prange st)] l [($"end", enc_prange en); ($"edtf", JStr e); ($"level", JNum (itoa lv)); ($"feature", JStr f)] M) as (l1 & r1 & -> & M1 & M').
  destruct (members_split [($"end", enc_prange en)] r1 [($"edtf", JStr e); ($"level", JNum (itoa lv)); ($"feature", JStr f)] M') as (l2 & r2 & -> & M2 & M'2).
  destruct (members_split [($"edtf", JStr e)] r2 [($"level", JNum (itoa lv)); ($"feature", JStr f)] M'2) as (l3 & r3 & -> & M3 & M'3).
  destruct (members_split [($"level", JNum (itoa lv))] r3 [($"feature", JStr f)] M'3) as (l4 & l5 & -> & M4 & M5). cbn [set_pointer]. rewrite members_app. unfold blank_edtf.
  assert (E1 : set_members edtf_member l1 (mkPEDTF None None [] 0 []) = OK (mkPEDTF st None [] 0 [])).
  { destruct (one_member edtf_member l1 _ _ (mkPEDTF None None [] 0 []) M1 eq_refl) as (y & C & ->).
    change (edtf_member (fold_name $"start") y (mkPEDTF None None [] 0 [])) with (let* x := set_pointer blank_range range_member None y in OK (mkPEDTF x None [] 0 [])). rewrite (prange_back y st C); [reflexivity|]. auto. }
  assert (E2 : set_members edtf_member l2 (mkPEDTF st None [] 0 []) = OK (mkPEDTF st en [] 0 [])).
  { destruct (one_member edtf_member l2 _ _ (mkPEDTF st None [] 0 []) M2 eq_refl) as (y & C & ->).
    change (edtf_member (fold_name $"end") y (mkPEDTF st None [] 0 [])) with (let* x := set_pointer blank_range range_member None y in OK (mkPEDTF st x [] 0 [])). rewrite (prange_back y en C); [reflexivity|]. auto. }
  assert (E3 : set_members edtf_member l3 (mkPEDTF st en [] 0 []) = OK (mkPEDTF st en e 0 [])).
  { destruct (one_member edtf_member l3 _ _ (mkPEDTF st en [] 0 []) M3 eq_refl) as (y & C & ->). inversion C as [| | |t b B| |]; subst.
    change (edtf_member (fold_name $"edtf") (DStr t) (mkPEDTF st en [] 0 [])) with (let* x := set_text [] (DStr t) in OK (mkPEDTF st en x 0 [])). rewrite (text_back [] _ _ B Ke). reflexivity. }
  assert (E4 : set_members edtf_member l4 (mkPEDTF st en e 0 []) = OK (mkPEDTF st en e lv [])).
  { destruct (one_member edtf_member l4 _ _ (mkPEDTF st en e 0 []) M4 eq_refl) as (y & C & ->). inversion C; subst.
    change (edtf_member (fold_name $"level") (DNum (itoa lv)) (mkPEDTF st en e 0 [])) with (let* x := set_int 0 (DNum (itoa lv)) in OK (mkPEDTF st en e x [])). rewrite (int_back 0 lv Hl). reflexivity. }
  assert (E5 : set_members edtf_member l5 (mkPEDTF st en e lv []) = OK (mkPEDTF st en e lv f)).
  { destruct (one_member edtf_member l5 _ _ (mkPEDTF st en e lv []) M5 eq_refl) as (y & C & ->). inversion C as [| | |t b B| |]; subst.
    change (edtf_member (fold_name $"feature") (DStr t) (mkPEDTF st en e lv [])) with (let* x := set_text [] (DStr t) in OK (mkPEDTF st en e lv x)). rewrite (text_back [] _ _ B Kf). reflexivity. }
  rewrite E1. cbn [bind]. rewrite members_app, E2. cbn [bind]. rewrite members_app, E3. cbn [bind]. rewrite members_app, E4. cbn [bind]. rewrite E5. reflexivity.
Qed.

(** ** The whole text *)
Definition fix_date (d : date) : date :=
  mkDate (utf8_fix (d_datetime d)) (d_timestamp d) (d_ymd d) (d_uncertain d) (d_approximate d) (d_unspecified d) (d_precision d) (d_open d) (d_unknown d) (d_inclusivity d).
Definition fix_range (r : prange) : prange := mkPRange (utf8_fix (pr_edtf r)) (option_map fix_date (pr_lower r)) (option_map fix_date (pr_upper r)).
Definition fix_edtf (d : pedtf) : pedtf :=
  mkPEDTF (option_map fix_range (pe_start d)) (option_map fix_range (pe_end d)) (utf8_fix (pe_edtf d)) (pe_level d) (utf8_fix (pe_feature d)).
Lemma fix_once s : utf8_fix (utf8_fix s) = utf8_fix s.
Proof.
  apply repaired_iff. assert (H : repaired s (utf8_fix s)) by (apply repaired_iff; reflexivity). induction H as [|x b f C H IH|c b f N H IH]; [constructor|constructor; assumption|].
  apply (rp_char [chr 239; chr 191; chr 189]); [|exact IH]. exists 65533. split; [exact (u8_three 15 63 61 ltac:(lia) ltac:(lia) ltac:(lia) ltac:(lia))|lia].
Qed.
Lemma fix_nil s : utf8_fix s = [] -> s = [].
Proof. rewrite fix_step. destruct (rune_at s) as [[x r]|] eqn:E; [apply rune_char in E; destruct E as (C & _); pose proof (char_nonempty x C); destruct x; [congruence|discriminate]|]. destruct s; [reflexivity|discriminate]. Qed.
Lemma fix_enc_date d : fix_json (enc_date d) = enc_date (fix_date d).
Proof.
  destruct d as [dt ts y un ap us pr op uk inc]. unfold enc_date, fix_date. cbn [d_datetime d_timestamp d_ymd d_uncertain d_approximate d_unspecified d_precision d_open d_unknown d_inclusivity fix_json].
  rewrite !map_app. f_equal.
  assert (P : forall k p, utf8_fix k = k -> map (fun m : str * json => (utf8_fix (fst m), fix_json (snd m))) (enc_prec k p) = enc_prec k p).
  { intros k p K. unfold enc_prec. destruct (N.eqb p 0); [reflexivity|]. cbn [map fst snd fix_json]. rewrite K. reflexivity. }
  assert (B : forall k (b : bool), utf8_fix k = k -> map (fun m : str * json => (utf8_fix (fst m), fix_json (snd m))) (enc_flag k b) = enc_flag k b).
  { intros k b K. unfold enc_flag. destruct b; [|reflexivity]. cbn [map fst snd fix_json]. rewrite K. reflexivity. }
  rewrite !P, !B by reflexivity. f_equal; [|f_equal; [destruct ts; reflexivity|f_equal; destruct y; reflexivity]].
  destruct (utf8_fix dt) as [|a t] eqn:E; [apply fix_nil in E; subst dt; reflexivity|]. destruct dt as [|c dt]; [discriminate|]. cbn [map fst snd fix_json]. rewrite E. reflexivity.
Qed.
Lemma fix_enc_pdate o : fix_json (enc_pdate o) = enc_pdate (option_map fix_date o).
Proof. destruct o; [apply fix_enc_date|reflexivity]. Qed.
Lemma fix_enc_prange o : fix_json (enc_prange o) = enc_prange (option_map fix_range o).
Proof. destruct o as [[e l u]|]; [|reflexivity]. cbn [enc_prange option_map fix_range pr_edtf pr_lower pr_upper fix_json map fst snd]. rewrite !fix_enc_pdate. reflexivity. Qed.
Lemma fix_enc o : fix_json (enc_pedtf o) = enc_pedtf (option_map fix_edtf o).
Proof. destruct o as [[s e x l f]|]; [|reflexivity]. cbn [enc_pedtf option_map fix_edtf pe_start pe_end pe_edtf pe_level pe_feature fix_json map fst snd]. rewrite !fix_enc_prange. reflexivity. Qed.
Lemma pdate_ints o : ints (enc_pdate o).
Proof. destruct o; [apply date_ints|exact I]. Qed.
Lemma prange_ints o : ints (enc_prange o).
Proof. destruct o; [|exact I]. cbn [enc_prange ints]. repeat split; apply pdate_ints. Qed.
Lemma pedtf_ints o : ints (enc_pedtf o).
Proof. destruct o; [|exact I]. cbn [enc_pedtf ints]. repeat split; try apply prange_ints. apply itoa_json. Qed.
(** Depth *)
Inductive shallow : nat -> json -> Prop :=
| sh_null n : shallow n JNull | sh_bool n b : shallow n (JBool b) | sh_num n t : shallow n (JNum t) | sh_str n s : shallow n (JStr s)
| sh_obj n l : (forall k v, In (k, v) l -> shallow n v) -> shallow (S n) (JObj l).
Lemma members_in l m : cooks_members l m -> forall t x, In (t, x) l -> exists b y, In (b, y) m /\ cooks x y.
Proof.
  intro H. induction H as [|t b x y l m K C H IH]; intros t' x' J; [destruct J|]. destruct J as [E|J]; [injection E as <- <-; exists b, y; split; [left; reflexivity|exact C]|].
  destruct (IH _ _ J) as (b' & y' & J' & C'). exists b', y'. split; [right; exact J'|exact C'].
Qed.
Lemma cooks_depth n : forall x y, shallow n y -> cooks x y -> nested n x.
Proof.
  induction n as [|n IH]; intros x y S C.
  - inversion S; subst; inversion C; subst; constructor.
  - inversion S as [| | | |n' l A]; subst; inversion C as [| | | | |l' m B]; subst; try constructor. intros t x I. destruct (members_in _ _ B _ _ I) as (b & y & I' & C'). apply (IH x y); [apply (A b y I')|exact C'].
Qed.
Lemma nested_more n m d : (n <= m)%nat -> nested n d -> nested m d.
Proof. intros L H. apply depth_nested. apply depth_nested in H. lia. Qed.
Ltac scalar := intros ?k ?v [E|[]]; injection E as <- <-; constructor.
Lemma date_shallow d : shallow 2 (enc_date d).
Proof.
  unfold enc_date. constructor. intros k v I. rewrite !in_app_iff in I.
  assert (P : forall k0 p, In (k, v) (enc_prec k0 p) -> shallow 1 v) by (intros k0 p J; unfold enc_prec in J; destruct (N.eqb p 0); [destruct J|]; destruct J as [E|[]]; injection E as <- <-; constructor).
  assert (B : forall k0 b, In (k, v) (enc_flag k0 b) -> shallow 1 v) by (intros k0 b J; unfold enc_flag in J; destruct b; [|destruct J]; destruct J as [E|[]]; injection E as <- <-; constructor).
  destruct I as [J|[J|[J|I]]]; [..|decompose [or] I; eauto].
  - destruct (d_datetime d); [destruct J|]. destruct J as [E|[]]. injection E as <- <-. constructor.
  - destruct (d_timestamp d); [|destruct J]. destruct J as [E|[]]. injection E as <- <-. constructor.
  - destruct J as [E|[]]. injection E as <- <-. destruct (d_ymd d); [|constructor]. cbn [enc_ymd]. constructor. intros k' v' J. cbn [In] in J. decompose [or] J; try contradiction; match goal with J : (_, _) = (_, _) |- _ => injection J as <- <- end; constructor.
Qed.
Lemma pdate_shallow o : shallow 2 (enc_pdate o).
Proof. destruct o; [apply date_shallow|constructor]. Qed.
Lemma prange_shallow o : shallow 3 (enc_prange o).
Proof. destruct o; [|constructor]. cbn [enc_prange]. constructor. intros k v J. cbn [In] in J. decompose [or] J; try contradiction; match goal with J : (_, _) = (_, _) |- _ => injection J as <- <- end; try apply pdate_shallow; constructor. Qed.
Lemma pedtf_shallow o : shallow 4 (enc_pedtf o).
Proof. destruct o; [|constructor]. cbn [enc_pedtf]. constructor. intros k v J. cbn [In] in J. decompose [or] J; try contradiction; match goal with H : (_, _) = (_, _) |- _ => injection H as <- <- end; try apply prange_shallow; constructor. Qed.
Lemma both_fix {A} (P : A -> A -> Prop) f o o' : (forall a b, P a b <-> b = f a) -> (both P o o' <-> o' = option_map f o).
Proof. intro H. split; [intros [|a b R]; [reflexivity|apply H in R; subst; reflexivity]|]. intros ->. destruct o; constructor. apply H. reflexivity. Qed.
Lemma repaired_date_fix d d' : repaired_date d d' <-> d' = fix_date d.
Proof. split; [intros [s R]; apply repaired_iff in R; subst; reflexivity|]. intros ->. constructor. apply repaired_iff. reflexivity. Qed.
Lemma repaired_range_fix r r' : repaired_range r r' <-> r' = fix_range r.
Proof.
  split.
  - intros [s l u R L U]. apply repaired_iff in R. apply (both_fix _ _ _ _ repaired_date_fix) in L, U. subst. reflexivity.
  - intros ->. constructor; [apply repaired_iff; reflexivity|apply (both_fix _ _ _ _ repaired_date_fix); reflexivity..].
Qed.
Lemma repaired_edtf_fix d d' : repaired_edtf d d' <-> d' = fix_edtf d.
Proof.
  split.
  - intros [s e x f S E X F]. apply repaired_iff in X, F. apply (both_fix _ _ _ _ repaired_range_fix) in S, E. subst. reflexivity.
  - intros ->. constructor; [apply (both_fix _ _ _ _ repaired_range_fix); reflexivity..|apply repaired_iff; reflexivity|apply repaired_iff; reflexivity].
Qed.
Lemma held_fix o : held o -> held (option_map fix_edtf o).
Proof.
  assert (D : forall d, held_date d -> held_date (fix_date d)) by (intros d [H1 H2 H3]; constructor; assumption).
  assert (O : forall (x : option date) d, option_map fix_date x = Some d -> (forall d, x = Some d -> held_date d) -> held_date d).
  { intros [x|] d E H; [|discriminate]. injection E as <-. apply D, H. reflexivity. }
  assert (R : forall r, held_range r -> held_range (fix_range r)) by (intros r (H1 & H2); split; intros d E; [exact (O _ _ E H1)|exact (O _ _ E H2)]).
  intros H d E. destruct o as [x|]; [|discriminate]. injection E as <-. destruct (H x eq_refl) as (L & S & N). split; [exact L|]. cbn [fix_edtf pe_start pe_end].
  split; intros r E; [destruct (pe_start x)|destruct (pe_end x)]; try discriminate; injection E as <-; apply R; auto.
Qed.
Lemma clean_fix o : clean (option_map fix_edtf o).
Proof.
  assert (O : forall (x : option date) d, option_map fix_date x = Some d -> clean_date d) by (intros [x|] d E; [|discriminate]; injection E as <-; apply fix_once).
  assert (R : forall (x : option prange) r, option_map fix_range x = Some r -> clean_range r) by (intros [x|] r E; [|discriminate]; injection E as <-; split; [apply fix_once|]; split; intros d E; exact (O _ _ E)).
  intros d E. destruct o as [x|]; [|discriminate]. injection E as <-. split; [apply fix_once|]. split; [apply fix_once|]. split; intros r E; exact (R _ _ E).
Qed.
Theorem marshal_round o o' : held o -> both repaired_edtf o o' -> Unmarshal (Marshal o) = OK o'.
Proof.
  intros H R. apply (both_fix _ _ _ _ repaired_edtf_fix) in R. subst o'. pose proof (print_value _ (enc_pedtf o) (le_n _) (pedtf_ints o)) as P. rewrite fix_enc in P.
  destruct (proj1 cooked _ _ P) as (d & D & C). unfold Unmarshal. fold (Marshal o) in D.
  rewrite (proj2 (read_doc_exact d (Marshal o))).
  - apply pedtf_back; [exact C|apply held_fix; exact H|apply clean_fix].
  - split; [exists [], (Marshal o), []; repeat split; try constructor; [exact D|rewrite app_nil_r; reflexivity]|]. apply (nested_more 4); [lia|]. exact (cooks_depth 4 _ _ (pedtf_shallow _) C).
Qed.
(** ** What Unmarshal leaves is held, and its strings need no repair *)
Lemma last_int zero vs z : int64 zero -> last_value int_value zero vs z -> int64 z.
Proof. intros Z H. induction H as [|vs a H IH|vs a v b H IH V]; [exact Z|exact IH|]. destruct V as [t z (_ & R)]. unfold int64, min_int64, max_int64 in *. lia. Qed.
Lemma last_flags vs z : last_value flags_value 0%N vs z -> uint32 z.
Proof. intro H. induction H as [|vs a H IH|vs a v b H IH V]; [reflexivity|exact IH|]. destruct V as [t z _ L]. unfold uint32. change (2 ^ 32) with 4294967296 in L. change (2 ^ 32)%N with 4294967296%N. lia. Qed.
Lemma last_stamp_int vs o : last_stamp vs o -> forall z, o = Some z -> int64 z.
Proof.
  intro H. induction H as [|vs o H IH|vs o v z H IH V]; intros y E; try discriminate. injection E as <-.
  assert (T : forall t, stamp_text t z -> int64 z) by (intros t [n u k w (_ & R)]; unfold int64, min_int64, max_int64 in *; lia). destruct V as [t z V|t z V]; exact (T _ V).
Qed.
Lemma last_text vs s : last_value text_value [] vs s -> utf8_fix s = s.
Proof. intro H. induction H as [|vs a H IH|vs a v b H IH V]; [reflexivity|exact IH|]. destruct V as [t s (b & _ & R)]. apply repaired_iff in R. subst s. apply fix_once. Qed.
Lemma zero64 : int64 0.
Proof. unfold int64. lia. Qed.
Ltac fld H := let vs := fresh "vs" in let R := fresh "R" in destruct H as (vs & _ & R).
Lemma date_held l d : says_date l d -> held_date d /\ clean_date d.
Proof.
  intros (H1 & H2 & H3 & H4 & H5 & H6 & H7 & _ & _ & H8). split; [constructor|].
  - fld H2. exact (last_stamp_int _ _ R).
  - fld H3. intros v E. rewrite E in R. inversion R as [|l' a _ (A & B & C) Ea]; subst. fld A. fld B. fld C. split; [exact (last_int _ _ _ zero64 R0)|]. split; [exact (last_int _ _ _ zero64 R1)|exact (last_int _ _ _ zero64 R2)].
  - fld H4. fld H5. fld H6. fld H7. fld H8. repeat (constructor; [eapply last_flags; eassumption|]). constructor.
  - fld H1. exact (last_text _ _ R).
Qed.
Lemma range_held l r : says_range l r -> held_range r /\ clean_range r.
Proof.
  intros (H1 & H2 & H3). fld H1. fld H2. fld H3.
  assert (D : forall vs o, pointed says_date vs o -> forall d, o = Some d -> held_date d /\ clean_date d) by (intros v o P d E; subst o; inversion P as [|l' a _ S]; subst; exact (date_held _ _ S)).
  split; [split; intros d E; [exact (proj1 (D _ _ R0 d E))|exact (proj1 (D _ _ R1 d E))]|]. split; [exact (last_text _ _ R)|]. split; intros d E; [exact (proj2 (D _ _ R0 d E))|exact (proj2 (D _ _ R1 d E))].
Qed.
Lemma edtf_held t o : date_text t o -> held o /\ clean o.
Proof.
  intros (v & _ & _ & P). assert (D : forall d, o = Some d -> exists l, says_edtf l d) by (intros d E; subst o; inversion P as [|l' a _ S]; subst; exists l'; exact S).
  assert (Q : forall vs x, pointed says_range vs x -> forall r, x = Some r -> held_range r /\ clean_range r) by (intros vs x Q r E; subst x; inversion Q as [|l' a _ S]; subst; exact (range_held _ _ S)).
  split; intros d E; destruct (D d E) as (l & H1 & H2 & H3 & H4 & H5); fld H1; fld H2; fld H3; fld H4; fld H5.
  - split; [exact (last_int _ _ _ zero64 R2)|]. split; intros r Er; [exact (proj1 (Q _ _ R r Er))|exact (proj1 (Q _ _ R0 r Er))].
  - split; [exact (last_text _ _ R1)|]. split; [exact (last_text _ _ R3)|]. split; intros r Er; [exact (proj2 (Q _ _ R r Er))|exact (proj2 (Q _ _ R0 r Er))].
Qed.
Lemma clean_same o : clean o -> option_map fix_edtf o = o.
Proof.
  intro H. destruct o as [[s e x l f]|]; [|reflexivity]. destruct (H _ eq_refl) as (E1 & E2 & S & N). cbn [pe_edtf pe_feature pe_start pe_end] in *.
  assert (D : forall (o : option date), (forall d, o = Some d -> clean_date d) -> option_map fix_date o = o).
  { intros [[dt ts y un ap us pr op uk inc]|] Q; [|reflexivity]. pose proof (Q _ eq_refl) as E. unfold clean_date in E. cbn [d_datetime] in E. unfold option_map, fix_date. fields. rewrite E. reflexivity. }
  assert (R : forall (o : option prange), (forall d, o = Some d -> clean_range d) -> option_map fix_range o = o).
  { intros [[a lo up]|] Q; [|reflexivity]. destruct (Q _ eq_refl) as (E & Ql & Qu). cbn [pr_edtf pr_lower pr_upper] in *. change (Some (mkPRange (utf8_fix a) (option_map fix_date lo) (option_map fix_date up)) = Some (mkPRange a lo up)). rewrite E, (D lo Ql), (D up Qu). reflexivity. }
  change (Some (mkPEDTF (option_map fix_range s) (option_map fix_range e) (utf8_fix x) l (utf8_fix f)) = Some (mkPEDTF s e x l f)). rewrite E1, E2, (R s S), (R e N). reflexivity.
Qed.
Theorem unmarshal_marshal t o : Unmarshal t = OK o -> Unmarshal (Marshal o) = OK o.
Proof.
  intro H. apply unmarshal_exact in H. destruct (edtf_held _ _ H) as (Hh & Hc). apply marshal_round; [exact Hh|]. apply (both_fix _ _ _ _ repaired_edtf_fix). symmetry. apply clean_same. exact Hc.
Qed.
