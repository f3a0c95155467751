(** C72: what IsAfter, IsBefore, IsBetween and DeriveRanges give, for all strings. *)
From Coq Require Import Ascii String ZArith NArith Bool Lia List.
From Verif Require Import GoStr SpecCal SpecText SpecForms SpecSpan SpecReads SpecWhole SpecRefused SpecMessage SpecCompare Edtf Parser CalFacts ReadsFacts ReadsProofs RefProofs CompareProofs.
Import ListNotations.
Open Scope Z_scope.

(** ** Values *)
Theorem C72_after_values : forall s t b, IsAfter s t = OK b <-> after_says s t (OK b).
Proof. exact after_values. Qed.
Theorem C72_before_values : forall s t b, IsBefore s t = OK b <-> before_says s t (OK b).
Proof. exact before_values. Qed.
Theorem C72_between_values : forall d i c b, IsBetween d i c = OK b <-> between_says d i c (OK b).
Proof. exact between_values. Qed.
Theorem C72_ranges_values : forall s o, DeriveRanges s = OK o <-> ranges_say s (OK o).
Proof. exact ranges_values. Qed.
(** ** Values, errors and panics *)
Theorem C72_after : forall s t, ~ borderline s -> ~ borderline t -> forall r, IsAfter s t = r <-> after_says s t r.
Proof. exact after_exactly. Qed.
Theorem C72_before : forall s t, ~ borderline s -> ~ borderline t -> forall r, IsBefore s t = r <-> before_says s t r.
Proof. exact before_exactly. Qed.
Theorem C72_between : forall d i c, ~ borderline d -> ~ borderline i -> ~ borderline c ->
  forall r, IsBetween d i c = r <-> between_says d i c r.
Proof. exact between_exactly. Qed.
Theorem C72_ranges : forall s, ~ borderline s -> forall r, DeriveRanges s = r <-> ranges_say s r.
Proof. exact ranges_exactly. Qed.

Print Assumptions C72_after_values.
Print Assumptions C72_before_values.
Print Assumptions C72_between_values.
Print Assumptions C72_ranges_values.
Print Assumptions C72_after.
Print Assumptions C72_before.
Print Assumptions C72_between.
Print Assumptions C72_ranges.

Ltac read_by l f := apply (rd_feature _ l f); [apply matches_takes; vm_compute; reflexivity|];
  apply (meaning _ l f); [apply matches_takes; vm_compute; reflexivity|]; eexists; split; [vm_compute; reflexivity|]; vm_compute; repeat split.
Ltac plain_text := apply unborder; let E := fresh in intros ? ? E; injection E as <- _; split; discriminate.
(** The last second of 1984 is 473385599, the first of 1985 the next one; an open end has no time. *)
Example C72_case :
  ~ borderline ($"1985-04") /\ ~ borderline ($"198X") /\ ~ borderline ($"1984/..") /\
  before_says ($"1984") ($"1985-04") (OK true) /\ before_says ($"1985-04") ($"198X") (OK false) /\
  before_says ($"1984/..") ($"1985-04") (Err (unset_error ($"Failed to derive upper time for cessation date") ($"1984/.."))) /\
  after_says ($"1985-04") ($"2023-02-30") (Err (EText ($"Failed to parse '2023-02-30', Invalid days for month"))).
Proof.
  assert (A : reading ($"1985-04") (At 481161600) (At 483753599)) by (read_by 0 ($"Date")).
  split; [plain_text|]. split; [plain_text|]. split; [plain_text|]. split; [|split; [|split]].
  - apply (bs_yes _ _ (At 441763200) 473385599 481161600 (At 483753599)); [|exact A|lia]. read_by 0 ($"Date").
  - apply (bs_no _ _ (At 481161600) 483753599 315532800 (At 631151999)); [exact A| |lia]. read_by 1 ($"Unspecified digit(s) from the right").
  - apply (bs_no_end _ _ (At 441763200) Dots 481161600 (At 483753599)); [discriminate| |exact A|left; reflexivity]. read_by 1 ($"Extended Interval (End)").
  - apply as_unreadable. apply (ur_second _ ($"2023-02-30") _ _ (EText ($"Invalid days for month")) ($"Invalid days for month") A); [|constructor]. apply refused_complete. vm_compute. reflexivity.
Qed.
(** A date before the inception: the cessation, which is no date, is not looked at. *)
Example C72_between_case : between_says ($"1984") ($"1985-04") ($"hello") (OK false) /\ IsBetween ($"1984") ($"1985-04") ($"hello") = OK false.
Proof.
  split; [|vm_compute; reflexivity]. apply bw_before. apply before_values. vm_compute. reflexivity.
Qed.
Example C72_ranges_case :
  ranges_say ($"1985/1987") (OK (Some (mkURange (mkUSpan 473385600 567993599) (mkUSpan 504921599 536457600)))) /\
  ranges_say ($"1985/..") (OK None) /\ ranges_say ($"uuuu") (OK None) /\
  ranges_say ($"hello") (Err (EWrap ($"Failed to parse 'hello'") (EUnrecognized ($"Invalid or unsupported EDTF string") ($"hello")))).
Proof.
  repeat split; try (apply ranges_values; vm_compute; reflexivity).
  apply ranges_exactly; [plain_text|vm_compute; reflexivity].
Qed.
