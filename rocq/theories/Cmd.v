(** The tools cmd/parse, cmd/matches, cmd/parse-wasi and cmd/parse-wasm: what they write to standard
    output for a list of arguments, and whether they run to the end. *)
From Coq Require Import Ascii String ZArith NArith Bool List.
From Verif Require Import GoStr ErrText Edtf Parser Json.
Import ListNotations.
Open Scope Z_scope.

(** How a run ends: normally, by log.Fatalf (exit status 1; [message] is what it logs
    to standard error after the time), by a panic, or by flag.Parse: with a message and
    the usage (exit status 2), or with the usage only (exit status 0). *)
Inductive exit := Done | Fatal (message : str) | Crash | Usage (message : str) | Helped.
(* cmd/parse/main.go:37, cmd/matches/main.go:27 *)
Definition fatal (raw : str) (e : err) : exit :=
  Fatal ($"Failed to parse EDTF string '" ++ raw ++ $"', " ++ error_text e).

(* cmd/parse/main.go:32-53; json.Marshal cannot fail on an EDTFDate *)
Fixpoint parse_loop (i : nat) (args : list str) : str * exit :=
  match args with
  | [] => ($"]", Done)
  | raw :: rest =>
      match ParseString raw with
      | OK d =>
          let '(out, e) := parse_loop (S i) rest in
          ((if Nat.ltb 0 i then $"," else []) ++ print (enc_edtf d) ++ out, e)
      | Err e => ([], fatal raw e)
      | Panic => ([], Crash)
      end
  end.
(* cmd/parse/main.go:14-54 *)
Definition cmd_parse (args : list str) : str * exit :=
  let '(out, e) := parse_loop 0 args in ($"[" ++ out, e).

Definition newline : str := [chr 10].
(* cmd/matches/main.go:22-31 *)
Fixpoint cmd_matches (args : list str) : str * exit :=
  match args with
  | [] => ([], Done)
  | raw :: rest =>
      match Matches raw with
      | OK (level, feature) =>
          let '(out, e) := cmd_matches rest in
          (raw ++ $" level " ++ itoa level ++ $" (" ++ feature ++ $")" ++ newline ++ out, e)
      | Err e => ([], fatal raw e)
      | Panic => ([], Crash)
      end
  end.

(** The WASM tools print the text of an error, Error(). *)
(* cmd/parse-wasi/main.go:22-39 *)
Definition wasi_parse (raw : str) : res str :=
  match ParseString raw with
  | OK d => OK (print (enc_edtf d))
  | Err e => OK (error_text e)
  | Panic => Panic
  end.
(* cmd/parse-wasi/main.go:12-19 *)
Fixpoint cmd_wasi (args : list str) : str * exit :=
  match args with
  | [] => ([], Done)
  | raw :: rest =>
      match wasi_parse raw with
      | OK line => let '(out, e) := cmd_wasi rest in (line ++ newline ++ out, e)
      | _ => ([], Crash)
      end
  end.

(** How the promise of cmd/parse-wasm is settled, for an argument that is a string.
    [fmt.Printf] writes its message and returns the number of bytes; [reject] is
    called with that number. *)
Inductive settled := Resolved (value : str) | Rejected (reason : Z).
(* cmd/parse-wasm/main.go:15-45: what is printed and how the promise is settled *)
Definition wasm_parse (raw : str) : res (str * settled) :=
  match ParseString raw with
  | OK d => OK ([], Resolved (print (enc_edtf d)))
  | Err e => let message := $"Failed to parse '" ++ raw ++ $"', " ++ error_text e ++ newline in
             OK (message, Rejected (Z.of_nat (length message)))
  | Panic => Panic
  end.

(** flag.Parse (Go: flag/flag.go, FlagSet.Parse and parseOne).  The tools define no
    flags, so that no flag is ever taken: only the first argument is looked at. *)
Inductive flags := Args (l : list str) | Bad (message : str) | Help.
Fixpoint before_equals (s : str) : str :=
  match s with
  | [] => []
  | c :: t => if Ascii.eqb c "=" then [] else c :: before_equals t
  end.
Definition flag_fault (s name : str) : flags :=
  match name with
  | [] => Bad ($"bad flag syntax: " ++ s)
  | c :: t =>
      if Ascii.eqb c "-" || Ascii.eqb c "=" then Bad ($"bad flag syntax: " ++ s)
      else
        let n := c :: before_equals t in
        if seqb n ($"help") || seqb n ($"h") then Help
        else Bad ($"flag provided but not defined: -" ++ n)
  end.
Definition flag_args (args : list str) : flags :=
  match args with
  | [] => Args []
  | s :: rest =>
      match s with
      | a :: b :: t =>
          if Ascii.eqb a "-" then
            if Ascii.eqb b "-" then
              match t with [] => Args rest | _ => flag_fault s t end
            else flag_fault s (b :: t)
          else Args args
      | _ => Args args
      end
  end.
Definition with_flags (run : list str -> str * exit) (args : list str) : str * exit :=
  match flag_args args with
  | Args l => run l
  | Bad m => ([], Usage m)
  | Help => ([], Helped)
  end.
(* cmd/parse/main.go:14-54, cmd/matches/main.go:12-33, cmd/parse-wasi/main.go:12-19 *)
Definition main_parse : list str -> str * exit := with_flags cmd_parse.
Definition main_matches : list str -> str * exit := with_flags cmd_matches.
Definition main_wasi : list str -> str * exit := with_flags cmd_wasi.
