(** Specification: the command line of the server. *)
From Coq Require Import Ascii String ZArith NArith Bool List.
From Verif Require Import GoStr SpecText SpecForms SpecNotation SpecFlags SpecMessage SpecQuote Server.
Import ListNotations.
Open Scope Z_scope.

(** ** Whole numbers as Go writes them *)
(** A digit; letters count on from 10. *)
Inductive digit_of (c : ascii) : Z -> Prop :=
| dg_digit : 48 <= code c <= 57 -> digit_of c (code c - 48)
| dg_small : 97 <= code c <= 122 -> digit_of c (code c - 87)
| dg_large : 65 <= code c <= 90 -> digit_of c (code c - 55).
(** Digits of a base, with single underscores between them. *)
Inductive numeral (b : Z) : str -> Z -> Prop :=
| nu_one c d : digit_of c d -> d < b -> numeral b [c] d
| nu_next s v c d : numeral b s v -> digit_of c d -> d < b -> numeral b (s ++ [c]) (v * b + d)
| nu_under s v c d : numeral b s v -> digit_of c d -> d < b -> numeral b (s ++ ["_"%char; c]) (v * b + d).
Inductive base_letter : ascii -> Z -> Prop :=
| bl_binary c : c = "b"%char \/ c = "B"%char -> base_letter c 2
| bl_octal c : c = "o"%char \/ c = "O"%char -> base_letter c 8
| bl_hex c : c = "x"%char \/ c = "X"%char -> base_letter c 16.
(** A number is decimal unless it begins with a zero; then it is octal, or of the base
    that the letter after the zero stands for. *)
Inductive literal : str -> Z -> Prop :=
| li_decimal c t v : c <> "0"%char -> numeral 10 (c :: t) v -> literal (c :: t) v
| li_octal t v : numeral 8 ("0"%char :: t) v -> literal ("0"%char :: t) v
| li_letter p b u t v : base_letter p b -> u = [] \/ u = $"_" -> numeral b t v -> literal ("0"%char :: p :: u ++ t) v.
Definition in_int64 (n : Z) : Prop := - 2 ^ 63 <= n < 2 ^ 63.
Inductive number (s : str) (n : Z) : Prop :=
| num_literal sg neg u v : any_sign sg neg -> literal u v -> s = sg ++ u -> n = signed neg v -> number s n.

(** The digits and their base. *)
Inductive based : str -> Z -> str -> Prop :=
| ba_decimal c t : c <> "0"%char -> based (c :: t) 10 (c :: t)
| ba_letter p b c t : base_letter p b -> based ("0"%char :: p :: c :: t) b (c :: t)
| ba_octal t : (forall p b c u, base_letter p b -> t <> p :: c :: u) -> based ("0"%char :: t) 8 t.
(** Digits with underscores anywhere. *)
Inductive loose (b : Z) : str -> Z -> Prop :=
| lo_none : loose b [] 0
| lo_digit s v c d : loose b s v -> digit_of c d -> d < b -> loose b (s ++ [c]) (v * b + d)
| lo_under s v : loose b s v -> loose b (s ++ $"_") v.
(** A number is too large if it does not fit, and also if what is read of it reaches
    2^64, whatever comes after that. *)
Inductive too_large (s : str) : Prop :=
| tl_number n : number s n -> ~ in_int64 n -> too_large s
| tl_early sg neg u b p q v : any_sign sg neg -> s = sg ++ u -> based u b (p ++ q) -> loose b p v -> 2 ^ 64 <= v -> too_large s.
Definition port_text (s : str) (n : Z) : Prop := number s n /\ in_int64 n.
Definition no_port (s : str) (why : int_fault) : Prop :=
  match why with
  | Range => too_large s
  | Syntax => ~ too_large s /\ forall n, ~ number s n
  end.

(** ** The command line *)
(** The flags end where there is no argument, two dashes, or an argument that does not
    begin with a dash or is only a dash. *)
Inductive no_flags : list str -> Prop :=
| nf_none : no_flags []
| nf_plain s r : (forall c t, s <> "-"%char :: c :: t) -> no_flags (s :: r)
| nf_dashes r : no_flags ($"--" :: r).
(** One flag and its value: host and port before, the arguments, host and port after, the
    arguments that are left. *)
Inductive one_flag (h : str) (p : Z) : list str -> str -> Z -> list str -> Prop :=
| of_host d v r : dashes d -> one_flag h p ((d ++ $"host=" ++ v) :: r) v p r
| of_host_next d v r : dashes d -> one_flag h p ((d ++ $"host") :: v :: r) v p r
| of_port d v n r : dashes d -> port_text v n -> one_flag h p ((d ++ $"port=" ++ v) :: r) h n r
| of_port_next d v n r : dashes d -> port_text v n -> one_flag h p ((d ++ $"port") :: v :: r) h n r.
Inductive line (h : str) (p : Z) : list str -> str -> Z -> Prop :=
| ln_end args : no_flags args -> line h p args h p
| ln_flag args h' p' r h2 p2 : one_flag h p args h' p' r -> line h' p' r h2 p2 -> line h p args h2 p2.

(** Arguments that end the program. *)
Inductive refuses : str -> stop -> Prop :=
| rf_dash t : refuses ($"---" ++ t) (BadSyntax ($"---" ++ t))
| rf_equals d t : dashes d -> refuses (d ++ $"=" ++ t) (BadSyntax (d ++ $"=" ++ t))
| rf_help d n v : dashes d -> help_name n -> flag_value v -> refuses (d ++ n ++ v) HelpAsked
| rf_unknown d c n v : dashes d -> c <> "-"%char -> ~ In "="%char (c :: n) -> flag_value v ->
    ~ help_name (c :: n) -> c :: n <> $"host" -> c :: n <> $"port" -> refuses (d ++ (c :: n) ++ v) (NotDefined (c :: n)).
Inductive stops : list str -> stop -> Prop :=
| sp_refused s r x : refuses s x -> stops (s :: r) x
| sp_missing d n : dashes d -> n = $"host" \/ n = $"port" -> stops [d ++ n] (NeedsArgument n)
| sp_value d v why r : dashes d -> no_port v why -> stops ((d ++ $"port=" ++ v) :: r) (InvalidValue v ($"port") why)
| sp_value_next d v why r : dashes d -> no_port v why -> stops ((d ++ $"port") :: v :: r) (InvalidValue v ($"port") why)
| sp_flag h p args h' p' r x : one_flag h p args h' p' r -> stops r x -> stops args x.

(** ** The address *)
(** Hosts that can be followed by a colon and a port. *)
Inductive good_host : str -> str -> Prop :=
| gh_plain h : ~ In ":"%char h -> ~ In "["%char h -> ~ In "]"%char h -> good_host h h
| gh_brackets h : ~ In "["%char h -> ~ In "]"%char h -> good_host ($"[" ++ h ++ $"]") h.

(** ** The messages *)
(** The message about a value shows it in quotes; which characters can be printed is up to
    the table of the library. *)
Definition why_text (w : int_fault) : str := match w with Syntax => $"parse error" | Range => $"value out of range" end.
Inductive said (print : Z -> bool) : stop -> str -> Prop :=
| sd_syntax s : said print (BadSyntax s) ($"bad flag syntax: " ++ s)
| sd_unknown n : said print (NotDefined n) ($"flag provided but not defined: -" ++ n)
| sd_missing n : said print (NeedsArgument n) ($"flag needs an argument: -" ++ n)
| sd_value v n w t : quoted_text print v t -> said print (InvalidValue v n w) ($"invalid value " ++ in_quotes t ++ $" for flag -" ++ n ++ $": " ++ why_text w)
| sd_help : said print HelpAsked [].
(** Texts that are written in quotes as they are. *)
Definition unescaped (s : str) : Prop := forall c, In c s -> 32 <= code c <= 126 /\ c <> """"%char /\ c <> "\"%char.
