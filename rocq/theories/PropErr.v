(** Errors: C51. *)
From Coq Require Import Ascii String ZArith NArith Bool Lia ZifyBool List.
From Verif Require Import GoStr SpecCal SpecText SpecGrammar SpecForms SpecErr TextFacts Edtf Common Parser Level0Facts Level1Proofs XProofs ExpProofs ErrProofs.
Import ListNotations.
Open Scope Z_scope.

(** ** C51: errors name the input. *)
Theorem C51_named : forall s e x, ParseString s = Err e -> named e = Some x -> derived s x.
Proof. exact named_derived. Qed.
Print Assumptions C51_named.
(** The second half. *)
Theorem C51_letter_partial : forall t, digits_text t -> (4 < length t)%nat ->
  ParseString ($"Y" ++ t) = Err (Unsupported ($"Letter-prefixed calendar year") ($"Y" ++ t)) /\
  ParseString ($"Y-" ++ t) = Err (Unsupported ($"Letter-prefixed calendar year") ($"Y-" ++ t)).
Proof. exact letter_year_unsupported. Qed.
Print Assumptions C51_letter_partial.
Theorem C51_exponential_partial : forall a t m e, a = "Y"%char \/ a = "y"%char -> exp_text t m e ->
  9999 < Z.abs (m * 10 ^ e) < 2 ^ 63 -> ParseString (a :: t) = Err (Unsupported ($"exponential notation") t).
Proof. exact exp_beyond. Qed.
Print Assumptions C51_exponential_partial.
Theorem C51_leading_x_partial : forall s b c r, unspecified_digits s -> s = "X"%char :: b :: c :: "X"%char :: r ->
  ParseString s = Err (NotImplemented ($"date") s).
Proof. exact leading_x. Qed.
Print Assumptions C51_leading_x_partial.
Example C51_case : ParseString ($"[1984,2001-02-30]") = Err (EText ($"Invalid days for month")) /\
  ParseString ($"[1984-0X-0X..]") = Err (Unrecognized ($"Invalid or unsupported EDTF string") ($"[1984-0X-0X..]")) /\
  ParseString ($"1984-0X-0X/2004") = Err (Invalid ($"date") ($"1984-0X-0X")) /\
  ParseString ($"-0500-24") = Err (Invalid ($"date") ($"-500-12-01")) /\
  derived ($"-0500-24") ($"-500-12-01") /\
  unspecified_digits ($"XXXX-12") /\ ParseString ($"XXXX-12") = Err (NotImplemented ($"date") ($"XXXX-12")).
Proof.
  split; [vm_compute; reflexivity|]. split; [vm_compute; reflexivity|]. split; [vm_compute; reflexivity|]. split; [vm_compute; reflexivity|].
  split; [apply (C51_named _ (Invalid ($"date") ($"-500-12-01"))); [vm_compute; reflexivity|reflexivity]|].
  split; [|vm_compute; reflexivity].
  apply (yf_ym _ _ _ ($"XXXX") ($"12")); [split; [reflexivity|]; repeat (constructor; [right; reflexivity|]); constructor|].
  exists 12, "1"%char, "2"%char. split; [lia|]. split; [reflexivity|]. split; left; reflexivity.
Qed.
(** A year with a digit after its X is a number error that names nothing. *)
Theorem C51_number_refuted : exists s e, unspecified_digits s /\ ParseString s = Err e /\ named e = None.
Proof.
  exists ($"XXX5"). eexists. split; [|split; [vm_compute; reflexivity|reflexivity]].
  constructor. split; [reflexivity|]. do 3 (constructor; [right; reflexivity|]). constructor; [left; reflexivity|constructor].
Qed.
Print Assumptions C51_number_refuted.
(** A year outside the range is a date. *)
Theorem C51_date_refuted : exists t m d, exp_text t m 0 /\ m = 18446744073709553616 /\ ParseString ("Y"%char :: t) = OK d.
Proof.
  exists ($"18446744073709553616E0"), 18446744073709553616. eexists.
  split; [|split; [reflexivity|vm_compute; reflexivity]].
  apply (exp_of false ($"18446744073709553616") "E"%char ($"0") 18446744073709553616 0); [apply dec_digits_iff; split; [discriminate|vm_compute; reflexivity]|auto|apply (dd_one 0); lia].
Qed.
Print Assumptions C51_date_refuted.
