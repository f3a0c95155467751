(** C78: ParseExponentialNotation called with any text. *)
From Coq Require Import Ascii String ZArith NArith Bool List.
From Verif Require Import GoStr SpecText SpecForms SpecNotation Edtf Common ErrText BigText BigTextFacts BigTextProofs.
Import ListNotations.
Open Scope Z_scope.

(** The texts that big.ParseFloat refuses: neither an infinity nor a number of its grammar
    whose exponents are in range. *)
Theorem C78_refuses : forall t, ParseNotation t = Err (EBig t) <->
  ~ infinity_text t /\ forall neg m f b x, number_text t neg m f b x -> ~ in_scale m f x.
Proof. exact notation_refuses. Qed.
Print Assumptions C78_refuses.
Theorem C78_infinity : forall t, infinity_text t -> ParseNotation t = Panic.
Proof. exact notation_inf. Qed.
Print Assumptions C78_infinity.
Theorem C78_zero : forall t neg f b x, number_text t neg 0 f b x -> - 2 ^ 63 <= x < 2 ^ 63 -> ParseNotation t = OK 0.
Proof. exact notation_zero. Qed.
Print Assumptions C78_zero.
(** The year is the whole part of the number. *)
Theorem C78_whole : forall t neg m f b x n, number_text t neg m f b x -> in_scale m f x -> 0 <= n < 2 ^ 63 -> whole_part m f b x n ->
  ParseNotation t = if 9999 <? n then Err (EUnsupported ($"exponential notation") t) else OK (signed neg n).
Proof. exact notation_value_cut. Qed.
Print Assumptions C78_whole.
(** Where the point stands does not matter if the exponent makes up for it. *)
Theorem C78_point : forall t u neg m f x f' x', number_text t neg m f 10 x -> number_text u neg m f' 10 x' ->
  - 2 ^ 63 <= x < 2 ^ 63 -> - 2 ^ 63 <= x' < 2 ^ 63 -> x - f = x' - f' ->
  (forall y, ParseNotation t = OK y <-> ParseNotation u = OK y) /\ (ParseNotation t = Panic <-> ParseNotation u = Panic).
Proof. exact notation_moved. Qed.
Print Assumptions C78_point.
(** On the texts that the parser hands over this is the model of the parser. *)
Theorem C78_call_sites : forall t m e, exp_text t m e -> ParseNotation t = ParseExponentialNotation t.
Proof. exact call_sites. Qed.
Print Assumptions C78_call_sites.
Theorem C78_call_messages : forall t m e, exp_text t m e -> ParseNotation t = Err (EBig t) -> notation_fault t = Some (error_text (EBig t)).
Proof. exact call_messages. Qed.
Print Assumptions C78_call_messages.

(** ** Cases *)
Example C78_case_number : number_text ($"-198.5e+1") true 1985 1 10 1 /\ in_scale 1985 1 1 /\ whole_part 1985 1 10 1 1985 /\ ParseNotation ($"-198.5e+1") = OK (-1985).
Proof.
  split; [|split; [|split]].
  - apply (nt_number ($"-") true ($"198.5") 1985 1 ($"e+1") 10 1); [constructor| |].
    + apply (pt_point ($"198") ($"5")).
      exact (dd_snoc ($"198") 198 5 (dd_snoc ($"19") 19 8 (dd_snoc ($"1") 1 9 (dd_one 1 ltac:(split; discriminate)) ltac:(split; discriminate)) ltac:(split; discriminate)) ltac:(split; discriminate)).
    + apply (ex_decimal "e"%char ($"+") false ($"1") 1); [left; reflexivity|constructor|]. apply (dd_one 1). split; discriminate.
  - split; [split; [discriminate|reflexivity]|right; split; discriminate].
  - unfold whole_part. split; [discriminate|]. split; [reflexivity|]. split; left; discriminate.
  - vm_compute. reflexivity.
Qed.
Example C78_case_texts : map ParseNotation [$"1985"; $"+1985.9"; $"19850e-1"; $".5e4"; $"1985."; $"1p4"; $"-31p-1"; $"1e-2000000000"] =
  [OK 1985; OK 1985; OK 1985; OK 5000; OK 1985; OK 16; OK (-15); OK 0].
Proof. vm_compute. reflexivity. Qed.
Example C78_case_refused : map ParseNotation [$""; $"."; $"1e"; $"0x10"; $"1 "; $"1_0"] =
  [Err (EBig []); Err (EBig ($".")); Err (EBig ($"1e")); Err (EBig ($"0x10")); Err (EBig ($"1 ")); Err (EBig ($"1_0"))].
Proof. vm_compute. reflexivity. Qed.
Example C78_case_infinity : infinity_text ($"-Inf") /\ ParseNotation ($"-Inf") = Panic.
Proof. split; [exists ($"-"); split; [right; right; left; reflexivity|left; reflexivity]|reflexivity]. Qed.
(** Just below a whole number the year is the next one. *)
Example C78_case_near : ParseNotation ($"1984.9999999999999999999") = OK 1985.
Proof. vm_compute. reflexivity. Qed.
