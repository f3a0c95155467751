(** The JSON of a date can be put into an HTML page. *)
From Coq Require Import Ascii String ZArith NArith Bool Lia ZifyBool List.
From Verif Require Import GoStr SpecText SpecJson SpecHtml StrFacts TextFacts Edtf Common Parser Json JsonText Cmd JsonProofs ApiProofs JsonTextProofs.
Import ListNotations.
Open Scope Z_scope.

Lemma html_app a b : html_safe a -> html_safe b -> html_safe (a ++ b).
Proof. intros H H'. apply Forall_app. auto. Qed.
Ltac safe_lit := repeat (constructor; [vm_compute; repeat split; discriminate|]); constructor.
Lemma hex_safe n : 0 <= n <= 15 -> html_safe [hex n].
Proof.
  intro H. constructor; [|constructor]. unfold html_char. assert (Q : In n [0;1;2;3;4;5;6;7;8;9;10;11;12;13;14;15]) by (cbn [In]; lia).
  cbn [In] in Q. repeat (destruct Q as [<-|Q]; [vm_compute; repeat split; discriminate|]). destruct Q.
Qed.
Lemma esc_safe c : html_safe (esc c).
Proof.
  unfold esc. cbv zeta. pose proof (code_range c) as R.
  destruct (code c =? 34); [safe_lit|]. destruct (code c =? 92); [safe_lit|]. destruct (code c =? 10); [safe_lit|]. destruct (code c =? 13); [safe_lit|].
  destruct (code c =? 9); [safe_lit|]. destruct ((code c <? 32) || (code c =? 60) || (code c =? 62) || (code c =? 38)) eqn:E.
  - apply html_app; [safe_lit|]. change [hex (code c / 16); hex (code c mod 16)] with ([hex (code c / 16)] ++ [hex (code c mod 16)]).
    apply html_app; apply hex_safe; [|pose proof (Z.mod_pos_bound (code c) 16); lia]. split; [apply Z.div_pos; lia|]. apply Z.lt_succ_r. apply Z.div_lt_upper_bound; lia.
  - constructor; [|constructor]. unfold html_char. lia.
Qed.
Lemma quote_safe s : html_safe (quote s).
Proof.
  unfold quote. apply html_app; [safe_lit|]. apply html_app; [|safe_lit]. induction s as [|c s IH]; [constructor|]. cbn [flat_map]. apply html_app; [apply esc_safe|exact IH].
Qed.
Lemma digits_safe t : Forall json_digit t -> html_safe t.
Proof. intro H. eapply Forall_impl; [|exact H]. unfold json_digit, html_char. intros c Hc. lia. Qed.
Lemma int_safe t : json_int t -> html_safe t.
Proof.
  intros [|c t0 Hc _ Ht| |c t0 Hc _ Ht]; [safe_lit| |safe_lit|]; unfold json_digit in Hc.
  - constructor; [unfold html_char; lia|apply digits_safe; exact Ht].
  - constructor; [vm_compute; repeat split; discriminate|]. constructor; [unfold html_char; lia|apply digits_safe; exact Ht].
Qed.
Lemma print_safe n : forall v, (jsize v <= n)%nat -> ints v -> html_safe (print v).
Proof.
  induction n as [|n IH]; intros v L H; [destruct v; cbn [jsize] in L; lia|].
  destruct v as [|[]|t|s|l|l].
  - safe_lit.
  - safe_lit.
  - safe_lit.
  - exact (int_safe t H).
  - apply quote_safe.
  - rewrite print_arr. apply html_app; [safe_lit|]. apply html_app; [|safe_lit]. cbn [jsize] in L. cbn [ints] in H. apply le_S_n in L. generalize true.
    induction l as [|w l IHl]; intro f; [constructor|]. destruct H as (Hv & Hl). cbn [print_items]. apply html_app; [destruct f; safe_lit|].
    apply html_app; [apply IH; [lia|exact Hv]|]. apply IHl; [lia|exact Hl].
  - rewrite print_obj. apply html_app; [safe_lit|]. apply html_app; [|safe_lit]. cbn [jsize] in L. cbn [ints] in H. apply le_S_n in L. generalize true.
    induction l as [|(k, w) l IHl]; intro f; [constructor|]. destruct H as (Hv & Hl). cbn [print_members]. apply html_app; [destruct f; safe_lit|].
    apply html_app; [apply quote_safe|]. apply html_app; [safe_lit|]. apply html_app; [apply IH; [lia|exact Hv]|]. apply IHl; [lia|exact Hl].
Qed.
Theorem marshal_safe d : html_safe (marshal_edtf d).
Proof. apply (print_safe (jsize (enc_edtf d))); [lia|apply edtf_ints]. Qed.
Theorem tool_safe args ds : Forall2 (fun a d => ParseString a = OK d) args ds -> html_safe (fst (cmd_parse args)).
Proof.
  intro H. rewrite (cmd_all args ds H). cbn [fst]. apply html_app; [safe_lit|]. apply html_app; [|safe_lit].
  replace (map (fun d => print (enc_edtf d)) ds) with (map print (map enc_edtf ds)) by (rewrite map_map; reflexivity).
  rewrite join_items. assert (Q : html_safe (print (JArr (map enc_edtf ds)))).
  { apply (print_safe (jsize (JArr (map enc_edtf ds)))); [lia|]. apply arr_ints. rewrite Forall_map. apply Forall_forall. intros d _. apply edtf_ints. }
  rewrite print_arr in Q. apply Forall_app in Q. destruct Q as (_ & Q). apply Forall_app in Q. apply Q.
Qed.
