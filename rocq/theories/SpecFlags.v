(** Specification: the command lines of the tools. *)
From Coq Require Import Ascii String ZArith NArith Bool List.
From Verif Require Import GoStr SpecText SpecMessage Edtf Parser JsonText Cmd.
Import ListNotations.
Open Scope Z_scope.

(** ** Flags *)
(** What the tool gets of its command line: everything, unless the first argument is
    two dashes or a dash with something after it. *)
Inductive positional : list str -> list str -> Prop :=
| po_none : positional [] []
| po_plain s r : (forall c t, s <> "-"%char :: c :: t) -> positional (s :: r) (s :: r)
| po_dashes r : positional ($"--" :: r) r.
Definition dashes (d : str) : Prop := d = $"-" \/ d = $"--".
(** Nothing, or a value. *)
Definition flag_value (v : str) : Prop := v = [] \/ exists u, v = "="%char :: u.
Definition help_name (n : str) : Prop := n = $"h" \/ n = $"help".
(** How the run ends for every other first argument. *)
Inductive flag_error : str -> exit -> Prop :=
| fe_dash t : flag_error ($"---" ++ t) (Usage ($"bad flag syntax: " ++ $"---" ++ t))
| fe_equals d t : dashes d -> flag_error (d ++ $"=" ++ t) (Usage ($"bad flag syntax: " ++ d ++ $"=" ++ t))
| fe_help d n v : dashes d -> help_name n -> flag_value v -> flag_error (d ++ n ++ v) Helped
| fe_unknown d c n v : dashes d -> c <> "-"%char -> ~ In "="%char (c :: n) -> flag_value v -> ~ help_name (c :: n) ->
    flag_error (d ++ (c :: n) ++ v) (Usage ($"flag provided but not defined: -" ++ c :: n)).

(** ** Runs *)
(** The dates parsed up to the first string that does not parse. *)
Inductive parse_run : list str -> list edtfdate -> exit -> Prop :=
| pr_done : parse_run [] [] Done
| pr_date a d rest ds x : ParseString a = OK d -> parse_run rest ds x -> parse_run (a :: rest) (d :: ds) x
| pr_stop a e w rest : ParseString a = Err e -> err_says e w -> parse_run (a :: rest) [] (Fatal ($"Failed to parse EDTF string '" ++ a ++ $"', " ++ w))
| pr_crash a rest : ParseString a = Panic -> parse_run (a :: rest) [] Crash.
(** A text with commas between. *)
Inductive comma_list : list str -> str -> Prop :=
| cl_none : comma_list [] []
| cl_one t : comma_list [t] t
| cl_more t l u : l <> [] -> comma_list l u -> comma_list (t :: l) (t ++ $"," ++ u).
(** An array of the dates, which is closed only if all strings parse. *)
Inductive parse_output : list str -> str -> exit -> Prop :=
| pt_all args ds t : parse_run args ds Done -> comma_list (map marshal_edtf ds) t -> parse_output args ($"[" ++ t ++ $"]") Done
| pt_part args ds t x : parse_run args ds x -> x <> Done -> comma_list (map marshal_edtf ds) t -> parse_output args ($"[" ++ t) x.
(** A line for each string, up to the first at which the parser panics. *)
Inductive wasi_run : list str -> str -> exit -> Prop :=
| wr_done : wasi_run [] [] Done
| wr_date a d rest out x : ParseString a = OK d -> wasi_run rest out x -> wasi_run (a :: rest) (marshal_edtf d ++ [chr 10] ++ out) x
| wr_error a e w rest out x : ParseString a = Err e -> err_says e w -> wasi_run rest out x -> wasi_run (a :: rest) (w ++ [chr 10] ++ out) x
| wr_crash a rest : ParseString a = Panic -> wasi_run (a :: rest) [] Crash.
