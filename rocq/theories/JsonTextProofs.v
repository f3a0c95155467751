(** JSON texts: what Marshal prints is JSON, and reading it back. *)
From Coq Require Import Ascii String ZArith NArith Bool Lia ZifyBool List.
From Verif Require Import GoStr GoTime SpecText StrFacts TextFacts Edtf Parser Json JsonText SpecJson Cmd JsonProofs TypedProofs ApiFacts ApiProofs.
Import ListNotations.
Open Scope Z_scope.
Ltac Zify.zify_post_hook ::= Z.div_mod_to_equations.

Scheme compact_mut := Minimality for compact Sort Prop
  with items_mut := Minimality for compact_items Sort Prop
  with members_mut := Minimality for compact_members Sort Prop.
Combined Scheme compact_all from compact_mut, items_mut, members_mut.

(** ** Strings *)
Lemma read_plain c r : 32 <= code c -> c <> """"%char -> c <> "\"%char ->
  read_string (c :: r) = cons_res [c] (read_string r).
Proof.
  intros H N1 N2. cbn [read_string].
  destruct (code c =? 34) eqn:E1; [exfalso; apply N1; apply Z.eqb_eq in E1; apply (code_inj c """"%char); exact E1|].
  destruct (code c =? 92) eqn:E2; [exfalso; apply N2; apply Z.eqb_eq in E2; apply (code_inj c "\"%char); exact E2|].
  replace (code c <? 32) with false by lia. reflexivity.
Qed.
Lemma read_char c t r : json_char c t -> read_string (t ++ r) = cons_res [c] (read_string r).
Proof.
  intro H. destruct H as [c H N1 N2| | | | | | | | |a b h1 h2 H1 H2]; try reflexivity.
  - apply read_plain; assumption.
  - assert (A : (a < 8)%nat) by (apply (nth_error_Some ($"01234567")); rewrite H1; discriminate).
    assert (B : (b < 16)%nat) by (apply (nth_error_Some ($"0123456789abcdef")); rewrite H2; discriminate).
    do 8 (destruct a as [|a]; [injection H1 as <-; do 16 (destruct b as [|b]; [injection H2 as <-; reflexivity|]); lia|]). lia.
Qed.
Lemma read_chars b t r : json_chars b t -> read_string (t ++ """"%char :: r) = Some (b, r).
Proof.
  intro H. induction H as [|c t b u H _ IH]; [reflexivity|]. rewrite <- app_assoc, (read_char _ _ _ H), IH. reflexivity.
Qed.
Lemma esc_char c : json_char c (esc c).
Proof.
  destruct c as [[] [] [] [] [] [] [] []];
    first [ exact jc_quote | exact jc_backslash | exact jc_n | exact jc_r | exact jc_t
          | match goal with |- json_char ?c _ =>
              let n := eval vm_compute in (N.to_nat (N_of_ascii c)) in
              let a := eval vm_compute in (Nat.div n 16) in
              let b := eval vm_compute in (Nat.modulo n 16) in
              exact (jc_u a b _ _ eq_refl eq_refl) end
          | match goal with |- json_char ?c _ =>
              refine (jc_plain c _ _ _); [vm_compute; discriminate|discriminate|discriminate] end ].
Qed.
Lemma quote_chars s : exists t, json_chars s t /\ quote s = $"""" ++ t ++ $"""".
Proof.
  exists (flat_map esc s). split; [|reflexivity]. induction s as [|c s IH]; [constructor|].
  cbn [flat_map]. constructor; [apply esc_char|exact IH].
Qed.

(** ** Numbers *)
Definition ends_number (r : str) : Prop :=
  match r with [] => True | c :: _ => is_digit c = false /\ code c <> 46 /\ code c <> 101 /\ code c <> 69 end.
Lemma is_digit_json c : json_digit c -> is_digit c = true.
Proof. unfold json_digit, is_digit. lia. Qed.
Lemma take_all t r : Forall json_digit t -> ends_number r -> take_digits (t ++ r) = (t, r).
Proof.
  intros H E. induction H as [|c t H _ IH]; cbn [app take_digits].
  - destruct r as [|c r]; [reflexivity|]. destruct E as (E & _). cbn [take_digits]. rewrite E. reflexivity.
  - rewrite (is_digit_json _ H), IH. reflexivity.
Qed.
Lemma frac_none r : ends_number r -> read_frac r = Some ([], r).
Proof.
  destruct r as [|c r]; [reflexivity|]. intros (_ & E & _). unfold read_frac. cbn [starts_with].
  replace (code c =? 46) with false by lia. reflexivity.
Qed.
Lemma exp_none r : ends_number r -> read_exp r = Some ([], r).
Proof.
  destruct r as [|c r]; [reflexivity|]. intros (_ & _ & E1 & E2). cbn [read_exp].
  replace (code c =? 101) with false by lia. replace (code c =? 69) with false by lia. reflexivity.
Qed.
Lemma int_zero r : read_int ("0"%char :: r) = Some (["0"%char], r).
Proof. reflexivity. Qed.
Lemma int_pos c t r : json_digit c -> c <> "0"%char -> Forall json_digit t -> ends_number r ->
  read_int (c :: t ++ r) = Some (c :: t, r).
Proof.
  intros H N F E. cbn [read_int].
  destruct (code c =? 48) eqn:Ec; [exfalso; apply N, code_inj; apply Z.eqb_eq in Ec; exact Ec|].
  rewrite (is_digit_json _ H). f_equal. apply (take_all (c :: t)); [constructor; assumption|exact E].
Qed.
Lemma read_int_number t r : json_int t -> ends_number r -> read_number (t ++ r) = Some (t, r).
Proof.
  intros H E. unfold read_number. destruct H as [|c t H N F| |c t H N F].
  - change (starts_with 45 (($"0") ++ r)) with (@None (ascii * str)). cbv beta iota zeta.
    change ($"0" ++ r) with ("0"%char :: r). rewrite int_zero, (frac_none _ E), (exp_none _ E). reflexivity.
  - cbn [app starts_with]. replace (code c =? 45) with false by (unfold json_digit in H; lia). cbv beta iota zeta.
    rewrite (int_pos _ _ _ H N F E), (frac_none _ E), (exp_none _ E). rewrite !app_nil_r. reflexivity.
  - change (starts_with 45 (($"-0") ++ r)) with (Some ("-"%char, "0"%char :: r)). cbv beta iota zeta.
    rewrite int_zero, (frac_none _ E), (exp_none _ E). reflexivity.
  - change (starts_with 45 (("-"%char :: c :: t) ++ r)) with (Some ("-"%char, c :: t ++ r)). cbv beta iota zeta.
    rewrite (int_pos _ _ _ H N F E), (frac_none _ E), (exp_none _ E). rewrite !app_nil_r. reflexivity.
Qed.
Lemma int_first t : json_int t -> exists c u, t = c :: u /\ (json_digit c \/ c = "-"%char).
Proof.
  intros [|c u H _ _| |c u H _ _]; do 2 eexists; (split; [reflexivity|]); unfold json_digit; cbn; auto; left; vm_compute; split; discriminate.
Qed.

(** ** Reading a compact text *)
Definition reads_value (v : json) (t : str) : Prop := forall r k, ends_number r -> (2 * length (t ++ r) < k)%nat ->
  read_value k (t ++ r) = Some (v, r) /\
  (exists c u, t = c :: u /\ is_space c = false /\ code c <> 93 /\ code c <> 125).
Definition reads_items (l : list json) (t : str) : Prop := forall r k, (2 * length (t ++ "]"%char :: r) + 1 < k)%nat ->
  read_items k (t ++ "]"%char :: r) = Some (l, r) /\
  (exists c u, t = c :: u /\ is_space c = false /\ code c <> 93).
Definition reads_members (l : list (str * json)) (t : str) : Prop := forall r k, (2 * length (t ++ "}"%char :: r) < k)%nat ->
  read_members k (t ++ "}"%char :: r) = Some (l, r) /\ exists u, t = """"%char :: u.
Lemma skip_not c r : is_space c = false -> skip_space (c :: r) = c :: r.
Proof. intro H. cbn [skip_space]. rewrite H. reflexivity. Qed.
Lemma sep_ends r : ends_number ("]"%char :: r) /\ ends_number ("}"%char :: r) /\ ends_number (","%char :: r).
Proof. cbn. repeat split; discriminate. Qed.
Lemma len_lt {A} (a b : list A) n : (length (a ++ b) < S n)%nat -> (length (a ++ b) <= n)%nat.
Proof. lia. Qed.

Lemma read_compact_all :
  (forall v t, compact v t -> reads_value v t) /\
  (forall l t, compact_items l t -> reads_items l t) /\
  (forall l t, compact_members l t -> reads_members l t).
Proof.
  apply compact_all.
  - intros r [|k] E L; [lia|]. split; [reflexivity|]. do 2 eexists. repeat split; discriminate.
  - intros r [|k] E L; [lia|]. split; [reflexivity|]. do 2 eexists. repeat split; discriminate.
  - intros r [|k] E L; [lia|]. split; [reflexivity|]. do 2 eexists. repeat split; discriminate.
  - intros t H r [|k] E L; [lia|]. pose proof (read_int_number _ r H E) as R.
    destruct (int_first _ H) as (c & u & -> & Hc).
    assert (F : is_space c = false /\ code c <> 93 /\ code c <> 125 /\ code c <> 123 /\ code c <> 91 /\
                code c <> 34 /\ code c <> 110 /\ code c <> 116 /\ code c <> 102).
    { destruct Hc as [Hc| ->]; [unfold json_digit in Hc; unfold is_space; repeat split; lia|].
      repeat split; discriminate. }
    destruct F as (F & F1 & F2 & F3 & F4 & F5 & F6 & F7 & F8). split; [|do 2 eexists; repeat split; assumption].
    cbn [app] in *. cbn [read_value]. rewrite (skip_not _ _ F).
    replace (code c =? 123) with false by lia. replace (code c =? 91) with false by lia. replace (code c =? 34) with false by lia.
    replace (code c =? 110) with false by lia. replace (code c =? 116) with false by lia. replace (code c =? 102) with false by lia.
    rewrite R. reflexivity.
  - intros b t H r [|k] E L; [lia|]. split; [|do 2 eexists; repeat split; discriminate].
    change ($"""") with [""""%char]. cbn [app]. cbn [read_value]. rewrite skip_not by reflexivity.
    change (code """" =? 123) with false. change (code """" =? 91) with false. change (code """" =? 34) with true. cbv iota.
    rewrite <- app_assoc. cbn [app]. rewrite (read_chars _ _ r H). reflexivity.
  - intros r [|k] E L; [lia|]. split; [reflexivity|]. do 2 eexists. repeat split; discriminate.
  - intros l t H IH r [|k] E L; [lia|]. split; [|do 2 eexists; repeat split; discriminate].
    change ($"[") with ["["%char] in *. change ($"]") with ["]"%char] in *. rewrite <- !app_assoc in *. cbn [app] in *.
    cbn [length] in L. destruct (IH r k ltac:(lia)) as (R & c & u & -> & F & F').
    cbn [read_value]. rewrite skip_not by reflexivity.
    change (code "[" =? 123) with false. change (code "[" =? 91) with true. cbv iota.
    cbn [app]. rewrite (skip_not _ _ F). cbn [starts_with]. replace (code c =? 93) with false by lia.
    cbn [app] in R. rewrite R. reflexivity.
  - intros r [|k] E L; [lia|]. split; [reflexivity|]. do 2 eexists. repeat split; discriminate.
  - intros l t H IH r [|k] E L; [lia|]. split; [|do 2 eexists; repeat split; discriminate].
    change ($"{") with ["{"%char] in *. change ($"}") with ["}"%char] in *. rewrite <- !app_assoc in *. cbn [app] in *.
    cbn [length] in L. destruct (IH r k ltac:(lia)) as (R & u & ->).
    cbn [read_value]. rewrite skip_not by reflexivity.
    change (code "{" =? 123) with true. cbv iota. cbn [app] in *. rewrite skip_not by reflexivity. cbn [starts_with].
    change (code """" =? 125) with false. cbv iota. rewrite R. reflexivity.
  - intros v t H IH r [|k] L; [lia|]. destruct (IH ("]"%char :: r) k (proj1 (sep_ends r))) as (R & c & u & -> & F & F1 & _).
    { lia. } split; [|exists c, u; auto]. cbn [read_items]. rewrite R. rewrite skip_not by reflexivity. reflexivity.
  - intros v t l u H IH H2 IH2 r [|k] L; [lia|]. change ($",") with [","%char] in *.
    assert (X : (t ++ [","%char] ++ u) ++ "]"%char :: r = t ++ ","%char :: u ++ "]"%char :: r) by (rewrite <- !app_assoc; reflexivity).
    rewrite X in *. destruct (IH (","%char :: u ++ "]"%char :: r) k (proj2 (proj2 (sep_ends _)))) as (R & c & w & E & F & F1 & _).
    { lia. } rewrite !app_length in L. cbn [length] in L.
    destruct (IH2 r k ltac:(lia)) as (R2 & _).
    split; [|subst t; exists c; eexists; repeat split; auto]. cbn [read_items]. rewrite R, skip_not by reflexivity.
    change (code "," =? 93) with false. change (code "," =? 44) with true. cbv iota. rewrite R2. reflexivity.
  - intros key kt v t Hk H IH r [|k] L; [lia|]. split; [|eexists; reflexivity].
    change ($"""") with [""""%char] in *. change ($""":") with [""""%char; ":"%char] in *.
    rewrite <- !app_assoc in *. cbn [app] in *. cbn [length] in L. rewrite app_length in L. cbn [length] in L.
    destruct (IH ("}"%char :: r) k (proj1 (proj2 (sep_ends _))) ltac:(lia)) as (R & _).
    cbn [read_members]. rewrite skip_not by reflexivity. cbn [starts_with]. change (code """" =? 34) with true. cbv iota.
    rewrite (read_chars _ _ _ Hk). rewrite skip_not by reflexivity. cbn [starts_with]. change (code ":" =? 58) with true. cbv iota.
    rewrite R, skip_not by reflexivity. reflexivity.
  - intros key kt v t l u Hk H IH H2 IH2 r [|k] L; [lia|]. split; [|eexists; reflexivity].
    change ($"""") with [""""%char] in *. change ($""":") with [""""%char; ":"%char] in *. change ($",") with [","%char] in *.
    rewrite <- !app_assoc in *. cbn [app] in *. cbn [length] in L. rewrite app_length in L. cbn [length] in L.
    destruct (IH (","%char :: u ++ "}"%char :: r) k (proj2 (proj2 (sep_ends _))) ltac:(lia)) as (R & _).
    rewrite app_length in L. cbn [length] in L. destruct (IH2 r k ltac:(lia)) as (R2 & _).
    cbn [read_members]. rewrite skip_not by reflexivity. cbn [starts_with]. change (code """" =? 34) with true. cbv iota.
    rewrite (read_chars _ _ _ Hk). rewrite skip_not by reflexivity. cbn [starts_with]. change (code ":" =? 58) with true. cbv iota.
    rewrite R, skip_not by reflexivity. change (code "," =? 125) with false. change (code "," =? 44) with true. cbv iota.
    rewrite R2. reflexivity.
Qed.
Theorem read_compact v t : compact v t -> read_json t = Some v.
Proof.
  intro H. unfold read_json. destruct (proj1 read_compact_all v t H [] (S (length t + length t)) I) as (R & _).
  { rewrite app_nil_r. lia. } rewrite app_nil_r in R. rewrite R. reflexivity.
Qed.

(** ** Printing *)
Fixpoint ints (v : json) : Prop :=
  match v with
  | JNum t => json_int t
  | JArr l => (fix all (l : list json) : Prop := match l with [] => True | v :: l' => ints v /\ all l' end) l
  | JObj l => (fix all (l : list (str * json)) : Prop := match l with [] => True | (_, v) :: l' => ints v /\ all l' end) l
  | _ => True
  end.
Definition ints_items (l : list json) : Prop := Forall ints l.
Fixpoint print_items (first : bool) (l : list json) : str :=
  match l with [] => [] | v :: l' => (if first then [] else $",") ++ print v ++ print_items false l' end.
Fixpoint print_members (first : bool) (l : list (str * json)) : str :=
  match l with
  | [] => []
  | (k, v) :: l' => (if first then [] else $",") ++ quote k ++ $":" ++ print v ++ print_members false l'
  end.
Lemma print_arr l : print (JArr l) = $"[" ++ print_items true l ++ $"]".
Proof. reflexivity. Qed.
Lemma print_obj l : print (JObj l) = $"{" ++ print_members true l ++ $"}".
Proof. reflexivity. Qed.
Fixpoint jsize (v : json) : nat :=
  match v with
  | JArr l => S ((fix all (l : list json) : nat := match l with [] => O | v :: l' => (S (jsize v) + all l')%nat end) l)
  | JObj l => S ((fix all (l : list (str * json)) : nat := match l with [] => O | (_, v) :: l' => (S (jsize v) + all l')%nat end) l)
  | _ => 1%nat
  end.
Lemma print_compact n : forall v, (jsize v <= n)%nat -> ints v -> compact v (print v).
Proof.
  induction n as [|n IH]; intros v L H; [destruct v; cbn [jsize] in L; lia|].
  destruct v as [|[]|t|s|l|l].
  - exact ct_null.
  - exact ct_true.
  - exact ct_false.
  - exact (ct_int t H).
  - cbn [print]. destruct (quote_chars s) as (t & Ht & ->). constructor. exact Ht.
  - rewrite print_arr. destruct l as [|v l]; [exact ct_arr0|]. apply ct_arr. cbn [jsize] in L. cbn [ints] in H. apply le_S_n in L.
    revert v L H. induction l as [|w l IHl]; intros v L (Hv & Hl).
    + cbn [print_items app]. rewrite app_nil_r. apply ci_one, IH; [lia|exact Hv].
    + cbn [print_items app]. change (compact_items (v :: w :: l) (print v ++ ($"," ++ print_items true (w :: l)))).
      apply ci_more; [apply IH; [lia|exact Hv]|]. apply IHl; [lia|exact Hl].
  - rewrite print_obj. destruct l as [|(k, v) l]; [exact ct_obj0|]. apply ct_obj. cbn [jsize] in L. cbn [ints] in H. apply le_S_n in L.
    revert k v L H. induction l as [|(k', w) l IHl]; intros k v L (Hv & Hl).
    + cbn [print_members app]. rewrite app_nil_r. destruct (quote_chars k) as (t & Ht & ->).
      change ($"""" ++ t ++ $"""") with (""""%char :: t ++ [""""%char]). cbn [app]. rewrite <- app_assoc. apply (cm_one k t v (print v) Ht). apply IH; [lia|exact Hv].
    + cbn [print_members app].
      change (compact_members ((k, v) :: (k', w) :: l) (quote k ++ $":" ++ print v ++ ($"," ++ print_members true ((k', w) :: l)))).
      destruct (quote_chars k) as (t & Ht & ->). change ($"""" ++ t ++ $"""") with (""""%char :: t ++ [""""%char]). cbn [app]. rewrite <- app_assoc.
      apply (cm_more k t v (print v) ((k', w) :: l) (print_members true ((k', w) :: l)) Ht); [apply IH; [lia|exact Hv]|].
      apply IHl; [lia|exact Hl].
Qed.

(** ** The encoded dates *)
Lemma dec_digits_json t v : dec_digits t v -> Forall json_digit t.
Proof.
  intro H. apply dec_digits_iff in H. destruct H as (_ & H). revert H. generalize 0. induction t as [|c t IH]; intros a H; constructor.
  - cbn [dec_val] in H. destruct (is_digit c) eqn:E; [|discriminate]. unfold is_digit in E. unfold json_digit. lia.
  - cbn [dec_val] in H. destruct (is_digit c) eqn:E; [|discriminate]. exact (IH _ H).
Qed.
Lemma itoa_json z : json_int (itoa z).
Proof.
  destruct (itoa_canonical z) as [(_ & D & c & t & E & Z)|(_ & u & E & D & c & t & E' & Z)].
  - rewrite E in *. apply dec_digits_json in D. apply Forall_cons_iff in D. destruct D as (Dc & Dt).
    destruct (Ascii.eqb_spec c "0"%char) as [Hc|Hc]; [rewrite (Z Hc), Hc; exact ji_zero|apply ji_pos; assumption].
  - rewrite E, E' in *. apply dec_digits_json in D. apply Forall_cons_iff in D. destruct D as (Dc & Dt). apply ji_neg; assumption.
Qed.
Definition ints_members (l : list (str * json)) : Prop := Forall (fun kv => ints (snd kv)) l.
Lemma ints_obj l : ints (JObj l) <-> ints_members l.
Proof.
  cbn [ints]. unfold ints_members. induction l as [|(k, v) l IH]; [split; [constructor|exact (fun _ => I)]|].
  rewrite Forall_cons_iff, <- IH. reflexivity.
Qed.
Lemma ints_app a b : ints_members a -> ints_members b -> ints_members (a ++ b).
Proof. intros H H'. apply Forall_app. split; assumption. Qed.
Lemma prec_ints k p : ints_members (enc_prec k p).
Proof. unfold enc_prec. destruct (N.eqb p 0); constructor; [apply itoa_json|constructor]. Qed.
Lemma flag_ints k b : ints_members (enc_flag k b).
Proof. destruct b; constructor; [exact I|constructor]. Qed.
Lemma date_ints d : ints (enc_date d).
Proof.
  rewrite enc_members. apply ints_obj. unfold date_members.
  repeat (apply ints_app; [try apply prec_ints; try apply flag_ints|]); try apply prec_ints.
  - destruct (d_datetime d); constructor; [exact I|constructor].
  - destruct (d_timestamp d); constructor; [apply itoa_json|constructor].
  - constructor; [|constructor]. cbn [snd]. destruct (d_ymd d) as [v|]; [|exact I].
    cbn [enc_ymd ints]. repeat split; apply itoa_json.
Qed.
Lemma edtf_ints d : ints (enc_edtf d).
Proof. cbn [enc_edtf enc_range ints]. repeat split; try apply date_ints. apply itoa_json. Qed.
Theorem marshal_compact d : compact (enc_edtf d) (marshal_edtf d).
Proof. apply (print_compact (jsize (enc_edtf d))); [lia|apply edtf_ints]. Qed.
Theorem marshal_read d : read_json (marshal_edtf d) = Some (enc_edtf d).
Proof. apply read_compact, marshal_compact. Qed.
Theorem text_roundtrip d : typed d -> unmarshal_edtf (marshal_edtf d) = OK d.
Proof. intro H. unfold unmarshal_edtf. rewrite marshal_read. apply json_roundtrip, H. Qed.
Theorem parsed_text_roundtrip s d : ParseString s = OK d -> unmarshal_edtf (marshal_edtf d) = OK d.
Proof. intro H. unfold unmarshal_edtf. rewrite marshal_read. exact (parsed_roundtrip s d H). Qed.

(** ** The output of the parse tool *)
Lemma join_items l : join_with ($",") (map print l) = print_items true l.
Proof.
  destruct l as [|v l]; [reflexivity|]. revert v. induction l as [|w l IH]; intro v; [cbn; rewrite app_nil_r; reflexivity|].
  change (print v ++ $"," ++ join_with ($",") (map print (w :: l)) = print v ++ $"," ++ print_items true (w :: l)). rewrite IH. reflexivity.
Qed.
Lemma arr_ints l : Forall ints l -> ints (JArr l).
Proof. intro H. cbn [ints]. induction H as [|v l H _ IH]; [exact I|split; assumption]. Qed.
Theorem tool_output args ds : Forall2 (fun a d => ParseString a = OK d) args ds ->
  exists text, cmd_parse args = (text, Done) /\ compact (JArr (map enc_edtf ds)) text /\
    read_json text = Some (JArr (map enc_edtf ds)) /\ Forall (fun d => dec_edtf (enc_edtf d) = OK d) ds.
Proof.
  intro H. eexists. split; [exact (cmd_all args ds H)|].
  assert (C : compact (JArr (map enc_edtf ds)) ($"[" ++ join_with ($",") (map (fun d => print (enc_edtf d)) ds) ++ $"]")).
  { replace (map (fun d => print (enc_edtf d)) ds) with (map print (map enc_edtf ds)) by (rewrite map_map; reflexivity).
    rewrite join_items, <- print_arr. apply (print_compact (jsize (JArr (map enc_edtf ds)))); [lia|].
    apply arr_ints. rewrite Forall_map. apply Forall_forall. intros d _. apply edtf_ints. }
  split; [exact C|]. split; [apply read_compact, C|].
  induction H as [|a d args ds Ha _ IH]; constructor; [exact (parsed_roundtrip a d Ha)|].
  apply IH. replace (map (fun d => print (enc_edtf d)) ds) with (map print (map enc_edtf ds)) by (rewrite map_map; reflexivity).
  rewrite join_items, <- print_arr. apply (print_compact (jsize (JArr (map enc_edtf ds)))); [lia|].
  apply arr_ints. rewrite Forall_map. apply Forall_forall. intros e _. apply edtf_ints.
Qed.

(** ** The members of the encoded objects *)
Lemma members_nodup l : NoDup (map fst l) -> forall k v, In (k, v) l -> has_member k v (JObj l).
Proof.
  intros N k v H. constructor; [exact H|]. intros v' H'. induction l as [|(k', w) l IH]; [destruct H|].
  apply NoDup_cons_iff in N. destruct N as (N & N'). destruct H as [E|H], H' as [E'|H'].
  - congruence.
  - exfalso. apply N. injection E as -> ->. exact (in_map fst _ _ H').
  - exfalso. apply N. injection E' as -> ->. exact (in_map fst _ _ H).
  - apply IH; assumption.
Qed.
Lemma member_in k l v : member k l = Some v -> In (k, v) l.
Proof.
  induction l as [|(k', w) l IH]; [discriminate|]. cbn [member]. destruct (member k l) as [v'|].
  - intro E. injection E as ->. right. apply IH. reflexivity.
  - destruct (seqb k k') eqn:E; [|discriminate]. apply seqb_eq in E. intro E'. left. congruence.
Qed.
Lemma member_none k l : member k l = None -> no_member k (JObj l).
Proof.
  intro H. constructor. intros v. induction l as [|(k', w) l IH]; [intros []|]. cbn [member] in H.
  destruct (member k l); [discriminate|]. destruct (seqb k k') eqn:E; [discriminate|].
  intros [E'|H']; [|exact (IH eq_refl H')]. injection E' as -> _. rewrite seqb_refl in E. discriminate.
Qed.
Lemma keys_app (a b : list (str * json)) : map fst (a ++ b) = map fst a ++ map fst b.
Proof. apply map_app. Qed.
Definition date_keys : list str :=
  [$"datetime"; $"timestamp"; $"ymd"; $"uncertain"; $"approximate"; $"unspecified"; $"precision"; $"open"; $"unknown"; $"inclusivity"].
Inductive sublist : list str -> list str -> Prop :=
| sl_nil : sublist [] []
| sl_skip x a b : sublist a b -> sublist a (x :: b)
| sl_keep x a b : sublist a b -> sublist (x :: a) (x :: b).
Lemma sublist_in a b x : sublist a b -> In x a -> In x b.
Proof. intro H. induction H as [|y a b H IH|y a b H IH]; [auto|right; auto|]. intros [E|E]; [left; exact E|right; auto]. Qed.
Lemma sublist_nodup a b : sublist a b -> NoDup b -> NoDup a.
Proof.
  intro H. induction H as [|y a b H IH|y a b H IH]; intro N; [constructor| |]; apply NoDup_cons_iff in N; destruct N as (N & N').
  - apply IH, N'.
  - constructor; [intro Hi; apply N; exact (sublist_in _ _ _ H Hi)|apply IH, N'].
Qed.
Lemma sublist_chunk a x r b : a = [] \/ a = [x] -> sublist r b -> sublist (a ++ r) (x :: b).
Proof. intros [->| ->] H; [apply sl_skip, H|apply sl_keep, H]. Qed.
Lemma prec_keys k p : map fst (enc_prec k p) = [] \/ map fst (enc_prec k p) = [k].
Proof. unfold enc_prec. destruct (N.eqb p 0); [left|right]; reflexivity. Qed.
Lemma flag_keys k b : map fst (enc_flag k b) = [] \/ map fst (enc_flag k b) = [k].
Proof. destruct b; [right|left]; reflexivity. Qed.
Lemma date_nodup d : NoDup (map fst (date_members d)).
Proof.
  apply (sublist_nodup _ date_keys).
  - unfold date_members, date_keys. rewrite !keys_app.
    apply sublist_chunk; [destruct (d_datetime d); [left|right]; reflexivity|].
    apply sublist_chunk; [destruct (d_timestamp d); [right|left]; reflexivity|].
    apply sublist_chunk; [right; reflexivity|].
    do 4 (apply sublist_chunk; [apply prec_keys|]). do 2 (apply sublist_chunk; [apply flag_keys|]).
    rewrite <- (app_nil_r (map fst _)). apply sublist_chunk; [apply prec_keys|constructor].
  - unfold date_keys. repeat (constructor; [cbn [In]; intuition discriminate|]). constructor.
Qed.

Lemma has k d v : member k (date_members d) = Some v -> has_member k v (enc_date d).
Proof. intro H. rewrite enc_members. apply members_nodup; [apply date_nodup|apply member_in, H]. Qed.
Lemma hasnt k d : member k (date_members d) = None -> no_member k (enc_date d).
Proof. intro H. rewrite enc_members. apply member_none, H. Qed.
Lemma prec_has k d p : member k (date_members d) = (if N.eqb p 0 then None else Some (JNum (itoa (Z.of_N p)))) ->
  number_member k p (enc_date d).
Proof.
  intro H. unfold number_member. destruct (N.eqb p 0); [exact (hasnt _ _ H)|].
  exists (itoa (Z.of_N p)). split; [apply itoa_canonical|exact (has _ _ _ H)].
Qed.
Lemma flag_has k d (b : bool) : member k (date_members d) = (if b then Some (JBool true) else None) -> flag_member k b (enc_date d).
Proof. intro H. destruct b; [exact (has _ _ _ H)|exact (hasnt _ _ H)]. Qed.
Lemma one_of l k v : NoDup (map fst l) -> In (k, v) l -> has_member k v (JObj l).
Proof. intros N H. apply members_nodup; assumption. Qed.
Ltac nodup_keys := cbn [map fst]; repeat (constructor; [cbn [In]; intuition discriminate|]); constructor.
Lemma ymd_has v : exists o, enc_ymd (Some v) = o /\ int_member ($"year") (y_year v) o /\ int_member ($"month") (y_month v) o /\ int_member ($"day") (y_day v) o.
Proof.
  eexists. split; [reflexivity|]. split; [|split]; (eexists; split; [apply itoa_canonical|]); (apply one_of; [nodup_keys|cbn [In]; auto]).
Qed.
Lemma bound_fields d : bound_json d (enc_date d).
Proof.
  constructor.
  - pose proof (mem_datetime d) as H. unfold text_member. destruct (d_datetime d); [exact (hasnt _ _ H)|exact (has _ _ _ H)].
  - pose proof (mem_timestamp d) as H. destruct (d_timestamp d) as [t|]; [|exact (hasnt _ _ H)].
    exists (itoa t). split; [apply itoa_canonical|exact (has _ _ _ H)].
  - pose proof (has _ _ _ (mem_ymd d)) as H. destruct (d_ymd d) as [v|]; [|exact H].
    destruct (ymd_has v) as (o & E & F). exists o. rewrite <- E at 1. split; [exact H|exact F].
  - apply prec_has, mem_un.
  - apply prec_has, mem_ap.
  - apply prec_has, mem_us.
  - apply prec_has, mem_pr.
  - apply flag_has, mem_op.
  - apply flag_has, mem_uk.
  - apply prec_has, mem_in.
Qed.
Lemma range_fields r : range_json r (enc_range r).
Proof.
  constructor; [apply one_of; [nodup_keys|cbn [In]; auto]| |]; (eexists; split; [apply one_of; [nodup_keys|cbn [In]; eauto]|apply bound_fields]).
Qed.
Theorem edtf_fields d : edtf_json d (enc_edtf d).
Proof.
  constructor.
  - eexists. split; [apply one_of; [nodup_keys|cbn [In]; eauto]|apply range_fields].
  - eexists. split; [apply one_of; [nodup_keys|cbn [In]; eauto]|apply range_fields].
  - apply one_of; [nodup_keys|cbn [In]; auto].
  - exists (itoa (e_level d)). split; [apply itoa_canonical|]. apply one_of; [nodup_keys|cbn [In]; auto].
  - apply one_of; [nodup_keys|cbn [In]; auto 6].
Qed.
