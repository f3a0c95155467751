(** C90: the case of letters never changes a result. *)
From Coq Require Import Ascii String ZArith NArith Bool List.
From Verif Require Import GoStr SpecCase Edtf Parser CaseProofs.
Import ListNotations.
Open Scope Z_scope.

Theorem C90_capitals : forall s u e, in_capitals s u -> ParseString s = OK e -> exists e', ParseString u = OK e' /\ retold e u e'.
Proof. exact in_capitals_parse. Qed.
Print Assumptions C90_capitals.
Theorem C90_case : forall s s' e e', same_but_case s s' -> ParseString s = OK e -> ParseString s' = OK e' -> retold e s' e'.
Proof. exact case_parse. Qed.
Print Assumptions C90_case.
(** Seasons and exponential years may be written in any case. *)
Theorem C90_free : forall s u e, in_capitals s u -> ParseString u = OK e -> e_feature e = $"Seasons" \/ e_feature e = $"Exponential year" ->
  exists e', ParseString s = OK e' /\ retold e s e'.
Proof. exact free_parse. Qed.
Print Assumptions C90_free.
(** Small letters occur in three features only; in all others the text in capitals is
    the only one that is accepted. *)
Theorem C90_small : forall s e c, ParseString s = OK e -> In c s -> In c small_letters -> In (e_feature e) small_features.
Proof. exact small_parse. Qed.
Print Assumptions C90_small.
Theorem C90_fixed : forall s u e, in_capitals s u -> ParseString u = OK e -> ~ In (e_feature e) small_features -> (exists e', ParseString s = OK e') -> s = u.
Proof. exact fixed_parse. Qed.
Print Assumptions C90_fixed.
(** Letter years, hidden digits, times and the S of significant digits: the text in
    capitals is accepted, the same text in small letters is not. *)
Theorem C90_case_refuted : Forall (fun p => in_capitals (fst p) (snd p) /\ (exists e, ParseString (snd p) = OK e) /\ forall e, ParseString (fst p) <> OK e)
  [($"y1985", $"Y1985"); ($"198x", $"198X"); ($"1985-04-12t23:20:30z", $"1985-04-12T23:20:30Z"); ($"1950s2", $"1950S2"); ($"y1950S2", $"Y1950S2")].
Proof.
  repeat (constructor; [split; [apply capitals_up; reflexivity|]; split; [eexists; vm_compute; reflexivity|intro e; vm_compute; discriminate]|]). constructor.
Qed.
Print Assumptions C90_case_refuted.

(** A season in words, a season code with hidden days, an exponential year. *)
Example C90_words : exists e e', in_capitals ($"sPring, 1985") ($"SPRING, 1985") /\ ParseString ($"sPring, 1985") = OK e /\ ParseString ($"SPRING, 1985") = OK e' /\ retold e ($"SPRING, 1985") e'.
Proof. do 2 eexists. split; [apply capitals_up; reflexivity|]. split; [vm_compute; reflexivity|]. split; [vm_compute; reflexivity|]. repeat split. Qed.
Example C90_hidden : exists e e', same_but_case ($"1985-04-xX") ($"1985-04-Xx") /\ ParseString ($"1985-04-xX") = OK e /\ ParseString ($"1985-04-Xx") = OK e' /\ e_feature e = $"Seasons".
Proof. do 2 eexists. split; [exists ($"1985-04-XX"); split; apply capitals_up; reflexivity|]. split; [vm_compute; reflexivity|]. split; [vm_compute; reflexivity|]. reflexivity. Qed.
Example C90_exponential : exists e e', in_capitals ($"y17e2") ($"Y17E2") /\ ParseString ($"Y17E2") = OK e /\ e_feature e = $"Exponential year" /\ ParseString ($"y17e2") = OK e' /\ retold e ($"y17e2") e'.
Proof. do 2 eexists. split; [apply capitals_up; reflexivity|]. split; [vm_compute; reflexivity|]. split; [reflexivity|]. split; [vm_compute; reflexivity|]. repeat split. Qed.
Example C90_significant : exists e e', in_capitals ($"y17e2S1") ($"Y17E2S1") /\ ParseString ($"y17e2S1") = OK e /\ In (e_feature e) small_features /\ ParseString ($"Y17E2S1") = OK e'.
Proof. do 2 eexists. split; [apply capitals_up; reflexivity|]. split; [vm_compute; reflexivity|]. split; [vm_compute; auto|]. vm_compute. reflexivity. Qed.
Example C90_letter : exists e, in_capitals ($"Y1985") ($"Y1985") /\ ParseString ($"Y1985") = OK e /\ ~ In (e_feature e) small_features.
Proof. eexists. split; [apply capitals_up; reflexivity|]. split; [vm_compute; reflexivity|]. cbn. intros [H|[H|[H|[]]]]; discriminate H. Qed.
