(** The WASM tools (C66, C67). *)
From Coq Require Import Ascii String ZArith NArith Bool Lia ZifyBool List.
From Verif Require Import GoStr SpecWasi SpecMessage Edtf Parser Json JsonText Cmd WasiProofs WasiLines.
Import ListNotations.
Open Scope Z_scope.

(** ** C66: the lines of parse-wasi.  Missing: arguments with line breaks, for which it
    is false, and arguments for which the parser panics (C04). *)
Theorem C66_lines_partial : forall args, Forall newline_free args -> Forall (fun raw => ParseString raw <> Panic) args ->
  exists l, cmd_wasi args = (lines l, Done) /\
    Forall2 (fun raw line => newline_free line /\ (begins_with ($"{") line <-> exists d, ParseString raw = OK d) /\
                             (forall d, ParseString raw = OK d -> unmarshal_edtf line = OK d) /\
                             (forall e, ParseString raw = Err e -> err_says e line)) args l.
Proof. exact wasi_lines. Qed.
Print Assumptions C66_lines_partial.
Theorem C66_tells : forall raw line, wasi_parse raw = OK line -> (begins_with ($"{") line <-> exists d, ParseString raw = OK d).
Proof. exact wasi_tells. Qed.
Print Assumptions C66_tells.
Theorem C66_stops : forall args raw rest, Forall (fun r => ParseString r <> Panic) args -> ParseString raw = Panic ->
  exists l, cmd_wasi (args ++ raw :: rest) = (lines l, Crash) /\
    Forall2 (fun raw line => (forall d, ParseString raw = OK d -> line = marshal_edtf d) /\ (forall e, ParseString raw = Err e -> err_says e line)) args l.
Proof. exact wasi_stops. Qed.
Print Assumptions C66_stops.
Example C66_stops_case : cmd_wasi [$"1985-04-31"; $"1985-04-12T25:00:00"; $"0950S4"; $"1985"] =
  (lines [$"Invalid days for month"; $"parsing time " ++ in_quotes ($"1985-04-12T25:00:00") ++ $": hour out of range"], Crash) /\ ParseString ($"0950S4") = Panic.
Proof. vm_compute. split; reflexivity. Qed.
Theorem C66_refuted : exists raw line, wasi_parse raw = OK line /\ ~ newline_free line.
Proof. exact wasi_two_lines. Qed.
Print Assumptions C66_refuted.
Example C66_case : exists j, cmd_wasi [$"1985-04-31"; $"Spring," ++ [chr 10] ++ $"1985"] = (lines [$"Invalid days for month"; j], Done) /\ newline_free j.
Proof.
  remember ($"Spring," ++ [chr 10] ++ $"1985") as s eqn:Es. assert (E : exists d, ParseString s = OK d) by (subst s; eexists; vm_compute; reflexivity).
  destruct E as (d & E). exists (marshal_edtf d). split; [|apply marshal_free]. unfold cmd_wasi, wasi_parse. rewrite E.
  replace (ParseString ($"1985-04-31")) with (@Err edtfdate (EText ($"Invalid days for month"))) by (vm_compute; reflexivity).
  unfold lines, newline, marshal_edtf. cbn [map concat]. rewrite <- !app_assoc. reflexivity.
Qed.

(** ** C67: the promise of parse-wasm.  Missing: that the reason of a rejection is the
    message, which is false; it is the length of the message in bytes. *)
Theorem C67_promise_partial : forall raw out v, wasm_parse raw = OK (out, v) ->
  (forall t, v = Resolved t <-> out = [] /\ exists d, ParseString raw = OK d /\ t = marshal_edtf d) /\
  (forall n, v = Rejected n <-> n = Z.of_nat (length out) /\
     exists e w, ParseString raw = Err e /\ err_says e w /\ out = $"Failed to parse '" ++ raw ++ $"', " ++ w ++ [chr 10]).
Proof. exact wasm_resolves. Qed.
Print Assumptions C67_promise_partial.
Theorem C67_settles : forall raw, wasm_parse raw = Panic <-> ParseString raw = Panic.
Proof. exact wasm_settles. Qed.
Print Assumptions C67_settles.
Theorem C67_reason_refuted : exists raw raw' e e', ParseString raw = Err e /\ ParseString raw' = Err e' /\ raw <> raw' /\ e <> e' /\
  exists out out' n, wasm_parse raw = OK (out, Rejected n) /\ wasm_parse raw' = OK (out', Rejected n).
Proof. exact wasm_reason_lost. Qed.
Print Assumptions C67_reason_refuted.
Example C67_case : wasm_parse ($"1985-13") =
  OK ($"Failed to parse '1985-13', Invalid EDTF string '1985-13' (date)" ++ [chr 10], Rejected 64).
Proof. vm_compute. reflexivity. Qed.
