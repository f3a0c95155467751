(** Package tests: the checker the repository's own tests are written with. *)
From Coq Require Import Ascii String ZArith NArith Bool List.
From Verif Require Import GoStr GoTime Edtf.
Import ListNotations.
Open Scope Z_scope.

(** tests/tests.go:13-46, the options for one bound; a TestResultOptions is four of
    these. *)
Record expected := mkExp {
  x_rfc3339 : str; x_unix : Z;
  x_uncertain : N; x_approximate : N; x_precision : N;
  x_open : bool; x_unknown : bool; x_inclusivity : N }.
Record options := mkOptions { o_start_lower : expected; o_start_upper : expected; o_end_lower : expected; o_end_upper : expected }.

(* tests/tests.go:188-195 *)
Definition testBoolean (candidate want : bool) : res unit :=
  if negb (Bool.eqb candidate want) then Err (EText ($"Boolean test failed")) else OK tt.
(* tests/tests.go:313-324 *)
Definition testPrecision (flags want : N) : res unit :=
  if N.eqb want NONE then OK tt
  else if negb (HasFlag flags want) then Err (EText ($"Missing flag")) else OK tt.
(* tests/tests.go:367-382 *)
Definition testRFC3339 (want : str) (ts : option Z) : res unit :=
  match ts with
  | None => Err (EText ($"Missing edtf.Timestamp instance"))
  | Some t => if negb (seqb (format_rfc3339 (ts_time t)) want) then Err (EText ($"Invalid RFC3339 time")) else OK tt
  end.
(* tests/tests.go:425-438 *)
Definition testUnix (want : Z) (ts : option Z) : res unit :=
  match ts with
  | None => Err (EText ($"Missing edtf.Timestamp instance"))
  | Some t => if negb (t =? want) then Err (EText ($"Invalid Unix time")) else OK tt
  end.

(** The four calls of each test...All function, in order. *)
Definition all_four (f : date -> expected -> res unit) (d : edtfdate) (o : options) : res unit :=
  let* _ := f (r_lower (e_start d)) (o_start_lower o) in
  let* _ := f (r_upper (e_start d)) (o_start_upper o) in
  let* _ := f (r_lower (e_end d)) (o_end_lower o) in
  f (r_upper (e_end d)) (o_end_upper o).
(* tests/tests.go:326-365 *)
Definition testRFC3339All := all_four (fun b x => if seqb (x_rfc3339 x) [] then OK tt else testRFC3339 (x_rfc3339 x) (d_timestamp b)).
(* tests/tests.go:384-423 *)
Definition testUnixAll := all_four (fun b x => if x_unix x =? 0 then OK tt else testUnix (x_unix x) (d_timestamp b)).
(* tests/tests.go:226-253 *)
Definition testPrecisionAll := all_four (fun b x => testPrecision (d_precision b) (x_precision x)).
(* tests/tests.go:255-282 *)
Definition testUncertainAll := all_four (fun b x => testPrecision (d_uncertain b) (x_uncertain x)).
(* tests/tests.go:284-311 *)
Definition testApproximateAll := all_four (fun b x => testPrecision (d_approximate b) (x_approximate x)).
(* tests/tests.go:130-157 *)
Definition testIsOpenAll := all_four (fun b x => testBoolean (d_open b) (x_open x)).
(* tests/tests.go:159-186 *)
Definition testIsUnknownAll := all_four (fun b x => testBoolean (d_unknown b) (x_unknown x)).
(* tests/tests.go:197-224 *)
Definition testInclusivityAll := all_four (fun b x => testPrecision (d_inclusivity b) (x_inclusivity x)).
(* tests/tests.go:57-128 *)
Definition TestDate (o : options) (d : edtfdate) : res unit :=
  let* _ := testRFC3339All d o in
  let* _ := testUnixAll d o in
  let* _ := testPrecisionAll d o in
  let* _ := testUncertainAll d o in
  let* _ := testApproximateAll d o in
  let* _ := testIsOpenAll d o in
  let* _ := testIsUnknownAll d o in
  testInclusivityAll d o.
