(** ParseExponentialNotation called directly. *)
From Coq Require Import Ascii String ZArith NArith Bool Lia ZifyBool List.
From Verif Require Import GoStr SpecText SpecForms SpecReads SpecRefused Edtf Common RefExp.
Import ListNotations.
Open Scope Z_scope.

Lemma notation_values t m e y : exp_text t m e -> ~ borderline_notation t -> ParseExponentialNotation t = OK y <-> notation_gives t y /\ Z.abs y <= 9999.
Proof.
  intros H N. pose proof (notation_complete _ _ _ H) as C. split.
  - intro E. rewrite E in C. exact C.
  - intros (G & L). destruct (gives_parse _ _ G) as [E|(B & _)]; [|contradiction]. replace (9999 <? Z.abs y) with false in E by lia. exact E.
Qed.
Lemma notation_errors t m e x : exp_text t m e -> ~ borderline_notation t -> ParseExponentialNotation t = Err x <-> notation_refused t x.
Proof.
  intros H N. pose proof (notation_complete _ _ _ H) as C. split.
  - intro E. rewrite E in C. exact C.
  - intro R. destruct (notation_sound _ _ R) as [E|(B & _)]; [exact E|contradiction].
Qed.
Lemma notation_panics t m e : exp_text t m e -> ~ borderline_notation t -> ParseExponentialNotation t = Panic <-> notation_crashes t.
Proof.
  intros H N. pose proof (notation_complete _ _ _ H) as C. split.
  - intro E. rewrite E in C. tauto.
  - apply notation_crash.
Qed.
