(** cmd/server-wasm: from the command line to the call of http.ListenAndServe, and to
    the point where that call takes the address apart. *)
From Coq Require Import Ascii String ZArith NArith Bool List.
From Verif Require Import GoStr Quote Cmd.
Import ListNotations.
Open Scope Z_scope.

(** ** strconv.ParseInt(s, 0, 64) *)
Inductive int_fault := Syntax | Range.   (* strconv.ErrSyntax, strconv.ErrRange *)
Definition lower (c : ascii) : Z := Z.lor (code c) 32.   (* Go: strconv/atoi.go, lower *)
(* Go: strconv/atoi.go, ParseUint: the base and the digits *)
Definition int_base (s : str) : Z * str :=
  match s with
  | c :: t =>
      if Ascii.eqb c "0" then
        match t with
        | x :: ((_ :: _) as u) =>
            if lower x =? 98 then (2, u) else if lower x =? 111 then (8, u) else if lower x =? 120 then (16, u) else (8, t)
        | _ => (8, t)
        end
      else (10, s)
  | [] => (10, s)
  end.
Definition int_digit (c : ascii) : option Z :=
  if is_digit c then Some (digit_val c)
  else if (97 <=? lower c) && (lower c <=? 122) then Some (lower c - 97 + 10) else None.
(* the loop of ParseUint; the flag tells if there was an underscore *)
Fixpoint uint_loop (b n : Z) (under : bool) (s : str) : int_fault + Z * bool :=
  match s with
  | [] => inr (n, under)
  | c :: t =>
      if Ascii.eqb c "_" then uint_loop b n true t
      else match int_digit c with
           | None => inl Syntax
           | Some d =>
               if b <=? d then inl Syntax
               else if (two64 - 1) / b + 1 <=? n then inl Range
               else if two64 <=? n * b + d then inl Range
               else uint_loop b (n * b + d) under t
           end
  end.
(* Go: strconv/atoi.go, underscoreOK *)
Inductive saw := SBegin | SDigit | SUnder | SOther.
Fixpoint under_loop (hex : bool) (w : saw) (s : str) : bool :=
  match s with
  | [] => match w with SUnder => false | _ => true end
  | c :: t =>
      if is_digit c || (hex && (97 <=? lower c) && (lower c <=? 102)) then under_loop hex SDigit t
      else if Ascii.eqb c "_" then match w with SDigit => under_loop hex SUnder t | _ => false end
      else match w with SUnder => false | _ => under_loop hex SOther t end
  end.
Definition under_ok (s : str) : bool :=
  let s := match s with c :: t => if Ascii.eqb c "-" || Ascii.eqb c "+" then t else s | [] => s end in
  match s with
  | c :: x :: t =>
      if Ascii.eqb c "0" && ((lower x =? 98) || (lower x =? 111) || (lower x =? 120))
      then under_loop (lower x =? 120) SDigit t else under_loop false SBegin s
  | _ => under_loop false SBegin s
  end.
Definition parse_uint (s : str) : int_fault + Z :=
  match s with
  | [] => inl Syntax
  | _ :: _ =>
      let '(b, u) := int_base s in
      match uint_loop b 0 false u with
      | inl f => inl f
      | inr (n, under) => if under && negb (under_ok s) then inl Syntax else inr n
      end
  end.
Definition parse_int (s : str) : int_fault + Z :=
  match s with
  | [] => inl Syntax
  | c :: t =>
      let '(neg, u) := if Ascii.eqb c "+" then (false, t) else if Ascii.eqb c "-" then (true, t) else (false, s) in
      match parse_uint u with
      | inl f => inl f
      | inr n =>
          if negb neg && (two63 <=? n) then inl Range
          else if neg && (two63 <? n) then inl Range
          else inr (if neg then - n else n)
      end
  end.

(** ** flag.Parse with the flags host and port *)
(** Why flag.Parse ends the program.  The text is that of the error; the usage follows
    it, except that there is no text for the help. *)
Inductive stop := BadSyntax (arg : str) | NotDefined (name : str) | NeedsArgument (name : str)
  | InvalidValue (value name : str) (why : int_fault) | HelpAsked.
(* Go: flag/flag.go, parseOne and numError; print is strconv.IsPrint *)
Definition stop_text (print : Z -> bool) (x : stop) : str :=
  match x with
  | BadSyntax s => $"bad flag syntax: " ++ s
  | NotDefined n => $"flag provided but not defined: -" ++ n
  | NeedsArgument n => $"flag needs an argument: -" ++ n
  | InvalidValue v n f =>
      $"invalid value " ++ go_quote print v ++ $" for flag -" ++ n ++ $": " ++
      (match f with Syntax => $"parse error" | Range => $"value out of range" end)
  | HelpAsked => []
  end.
(** What an argument is: no flag, a fault, or a flag with its value if there is one. *)
Inductive argument := Plain | Faulty | Flag (name : str) (value : option str).
Fixpoint cut_equals (s : str) : str * option str :=
  match s with
  | [] => ([], None)
  | c :: t => if Ascii.eqb c "=" then ([], Some t) else let '(n, v) := cut_equals t in (c :: n, v)
  end.
Definition flag_of (name : str) : argument :=
  match name with
  | [] => Faulty
  | c :: t =>
      if Ascii.eqb c "-" || Ascii.eqb c "=" then Faulty
      else let '(n, v) := cut_equals t in Flag (c :: n) v
  end.
Definition classify (s : str) : argument :=
  match s with
  | a :: b :: t =>
      if Ascii.eqb a "-" then
        if Ascii.eqb b "-" then match t with [] => Plain | _ => flag_of t end
        else flag_of (b :: t)
      else Plain
  | _ => Plain
  end.
Record settings := mkSettings { host : str; port : Z }.
(* cmd/server-wasm/main.go:18-19; None is a flag that is not defined *)
Definition set_flag (name value : str) (x : settings) : option (stop + settings) :=
  if seqb name ($"host") then Some (inr (mkSettings value (port x)))
  else if seqb name ($"port") then
    Some (match parse_int value with
          | inl f => inl (InvalidValue value name f)
          | inr n => inr (mkSettings (host x) n)
          end)
  else None.
Definition defined (name : str) : bool := seqb name ($"host") || seqb name ($"port").
(* cmd/server-wasm/main.go:21 *)
Fixpoint server_flags (args : list str) (x : settings) : stop + settings :=
  match args with
  | [] => inr x
  | s :: rest =>
      match classify s with
      | Plain => inr x
      | Faulty => inl (BadSyntax s)
      | Flag n v =>
          if defined n then
            match v with
            | Some w => match set_flag n w x with
                        | Some (inr y) => server_flags rest y
                        | Some (inl f) => inl f
                        | None => inl (NotDefined n)
                        end
            | None =>
                match rest with
                | [] => inl (NeedsArgument n)
                | w :: rest' => match set_flag n w x with
                                | Some (inr y) => server_flags rest' y
                                | Some (inl f) => inl f
                                | None => inl (NotDefined n)
                                end
                end
            end
          else if seqb n ($"help") || seqb n ($"h") then inl HelpAsked
          else inl (NotDefined n)
      end
  end.

(** ** The address *)
(* cmd/server-wasm/main.go:34 *)
Definition address (x : settings) : str := host x ++ $":" ++ itoa (port x).
(* cmd/server-wasm/main.go:13-37: the address of the call, or why there is none *)
Definition main_server (args : list str) : stop + str :=
  match server_flags args (mkSettings ($"localhost") 8080) with
  | inl f => inl f
  | inr x => inr (address x)
  end.
(* Go: net/ipsock.go, SplitHostPort: a message, or the host and the port *)
Fixpoint index_byte (c : ascii) (s : str) : option nat :=
  match s with
  | [] => None
  | d :: t => if Ascii.eqb c d then Some O else option_map S (index_byte c t)
  end.
Fixpoint last_byte (c : ascii) (s : str) : option nat :=
  match s with
  | [] => None
  | d :: t => match last_byte c t with
              | Some i => Some (S i)
              | None => if Ascii.eqb c d then Some O else None
              end
  end.
Definition has_byte (c : ascii) (s : str) : bool := match index_byte c s with Some _ => true | None => false end.
Definition split_host_port (s : str) : str + str * str :=
  let missing := $"missing port in address" in
  let colons := $"too many colons in address" in
  let brackets (host : str) (j k : nat) (i : nat) :=
    if has_byte "[" (skipn j s) then inl ($"unexpected '[' in address")
    else if has_byte "]" (skipn k s) then inl ($"unexpected ']' in address")
    else inr (host, skipn (S i) s) in
  match last_byte ":" s with
  | None => inl missing
  | Some i =>
      match s with
      | [] => inl missing
      | c :: _ =>
          if Ascii.eqb c "[" then
            match index_byte "]" s with
            | None => inl ($"missing ']' in address")
            | Some e =>
                if Nat.eqb (S e) (length s) then inl missing
                else if Nat.eqb (S e) i then brackets (firstn (e - 1) (skipn 1 s)) 1%nat (S e) i
                else match skipn (S e) s with
                     | d :: _ => if Ascii.eqb d ":" then inl colons else inl missing
                     | [] => inl missing
                     end
            end
          else if has_byte ":" (firstn i s) then inl colons
          else brackets (firstn i s) 0%nat 0%nat i
      end
  end.
(* cmd/server-wasm/main.go:37-41, Go: net/dial.go, Listen, OpError.Error and
   AddrError.Error: the message that is logged when the address cannot be taken apart *)
Definition listen_fault (addr : str) : option str :=
  match split_host_port addr with
  | inl why => Some ($"Failed to start server, listen tcp: address " ++ addr ++ $": " ++ why)
  | inr _ => None
  end.
