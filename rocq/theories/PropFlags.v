(** The command lines of the tools (C74). *)
From Coq Require Import Ascii String ZArith NArith Bool Lia ZifyBool List.
From Verif Require Import GoStr SpecText SpecMessage SpecFlags Edtf Parser JsonText Cmd FlagProofs.
Import ListNotations.
Open Scope Z_scope.

(** ** C74: every run of every tool, from its command line. *)
Theorem C74_parse : forall args out x, main_parse args = (out, x) <->
  (exists l, positional args l /\ parse_output l out x) \/ (exists s r, args = s :: r /\ flag_error s x /\ out = []).
Proof. exact parse_main. Qed.
Print Assumptions C74_parse.
Theorem C74_matches : forall args out x, main_matches args = (out, x) <->
  (exists l, positional args l /\ match_run l out x) \/ (exists s r, args = s :: r /\ flag_error s x /\ out = []).
Proof. exact matches_main. Qed.
Print Assumptions C74_matches.
Theorem C74_wasi : forall args out x, main_wasi args = (out, x) <->
  (exists l, positional args l /\ wasi_run l out x) \/ (exists s r, args = s :: r /\ flag_error s x /\ out = []).
Proof. exact wasi_main. Qed.
Print Assumptions C74_wasi.
(** Not every date can be given as it is: one that begins with a dash is taken for a
    flag if it comes first, and the tool stops. *)
Theorem C74_dates_refuted : exists s d, ParseString s = OK d /\ main_parse [s] = ([], Usage ($"flag provided but not defined: -0044")) /\
  main_parse [$"--"; s] <> ([], Usage ($"flag provided but not defined: -0044")).
Proof. exact year_44. Qed.
Print Assumptions C74_dates_refuted.
Theorem C74_dash : forall s r d, ParseString s = OK d -> (exists t, s = "-"%char :: t) -> exists m n, s = m ++ n /\ dashes m /\
  main_parse (s :: r) = ([], Usage ($"flag provided but not defined: -" ++ n)) /\
  main_matches (s :: r) = ([], Usage ($"flag provided but not defined: -" ++ n)) /\
  main_wasi (s :: r) = ([], Usage ($"flag provided but not defined: -" ++ n)).
Proof. exact dash_refused. Qed.
Print Assumptions C74_dash.
(** All others can, and all can after two dashes. *)
Theorem C74_dates_partial : forall s r, (forall t, s <> "-"%char :: t) ->
  main_parse (s :: r) = cmd_parse (s :: r) /\ main_matches (s :: r) = cmd_matches (s :: r) /\ main_wasi (s :: r) = cmd_wasi (s :: r).
Proof. exact no_dash. Qed.
Print Assumptions C74_dates_partial.
Theorem C74_two_dashes : forall args, main_parse ($"--" :: args) = cmd_parse args /\ main_matches ($"--" :: args) = cmd_matches args /\ main_wasi ($"--" :: args) = cmd_wasi args.
Proof. exact two_dashes. Qed.
Print Assumptions C74_two_dashes.

Example C74_flags_case : map (fun s => snd (main_matches [s; $"1985"])) [$"-0044"; $"--help"; $"-h=1"; $"-=1"; $"---"; $"-a=b=c"; $"-"] =
  [Usage ($"flag provided but not defined: -0044"); Helped; Helped; Usage ($"bad flag syntax: -=1"); Usage ($"bad flag syntax: ---");
   Usage ($"flag provided but not defined: -a"); Fatal ($"Failed to parse EDTF string '-', Unrecognized EDTF string '-' (Invalid or unsupported EDTF string)")].
Proof. vm_compute. reflexivity. Qed.
Example C74_run_case : match_run [$"1985"; $"-0044"] ($"1985 level 0 (Date)" ++ [chr 10] ++ $"-0044 level 0 (Date)" ++ [chr 10]) Done /\
  positional [$"1985"; $"-0044"] [$"1985"; $"-0044"] /\ flag_error ($"--1985") (Usage ($"flag provided but not defined: -1985")).
Proof.
  split; [|split].
  - assert (H : main_matches [$"1985"; $"-0044"] = ($"1985 level 0 (Date)" ++ [chr 10] ++ $"-0044 level 0 (Date)" ++ [chr 10], Done)) by (vm_compute; reflexivity).
    apply C74_matches in H. destruct H as [(l & P & H)|(s & r & _ & F & _)]; [|inversion F]. inversion P; subst; exact H.
  - apply po_plain. discriminate.
  - apply (fe_unknown ($"--") "1" ($"985") []); [right; reflexivity|discriminate| |left; reflexivity|].
    + cbn. intuition discriminate.
    + intros [H|H]; discriminate H.
Qed.
Example C74_parse_case : snd (main_parse [$"1985"; $"1985-02-30"; $"1986"]) = Fatal ($"Failed to parse EDTF string '1985-02-30', Invalid days for month").
Proof. vm_compute. reflexivity. Qed.
