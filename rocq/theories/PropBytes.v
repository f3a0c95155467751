(** The bytes of accepted strings: C87. *)
From Coq Require Import Ascii String ZArith NArith Bool Lia ZifyBool List.
From Verif Require Import GoStr SpecText SpecForms SpecBytes Edtf Common Parser Json Cmd BytesProofs.
Import ListNotations.
Open Scope Z_scope.

Theorem C87_bytes : forall s d, ParseString s = OK d -> Forall plain_byte s \/ season_words s.
Proof. exact parsed_bytes. Qed.
Print Assumptions C87_bytes.
(** Also in the name of a season and between its parts. *)
Theorem C87_no_markup : forall s d c, ParseString s = OK d -> In c s -> ~ marked_up c /\ (control c -> is_space c).
Proof. exact parsed_markup. Qed.
Print Assumptions C87_no_markup.
(** The JSON string of what was parsed is its text between two quotes. *)
Theorem C87_verbatim : forall s d, ParseString s = OK d -> ~ season_words s -> Json.quote s = [chr 34] ++ s ++ [chr 34].
Proof. exact parsed_quote. Qed.
Print Assumptions C87_verbatim.
Theorem C87_size : forall s d, ParseString s = OK d ->
  s = [] \/ s = $".." \/ (exists c, In c s /\ is_digit c = true) /\ (4 <= length s)%nat.
Proof. exact parsed_size. Qed.
Print Assumptions C87_size.
(** None of the bytes could be left out. *)
Theorem C87_every : forall c, plain_byte c -> exists s d, ParseString s = OK d /\ In c s.
Proof. exact plain_used. Qed.
Print Assumptions C87_every.
(** A lower case x, a name, and the shortest of all. *)
Example C87_case :
  (exists d, ParseString ($"1985-12-1x") = OK d) /\ (exists d, ParseString ($"WinTer , 1985") = OK d) /\ (exists d, ParseString ($"y1E3") = OK d) /\
  Json.quote ($"[..1985,1990]") = $"""[..1985,1990]""".
Proof. repeat split; try eexists; vm_compute; reflexivity. Qed.
(** Not every one is a single line: a season by name may have line breaks before the
    year, and the matches tool then prints two lines for it. *)
Theorem C87_line_refuted : exists s d, ParseString s = OK d /\ In (chr 10) s /\
  cmd_matches [s] = ($"spring," ++ [chr 10] ++ $"1985 level 1 (Seasons)" ++ [chr 10], Done).
Proof. exists ($"spring," ++ [chr 10] ++ $"1985"). eexists. split; [vm_compute; reflexivity|]. split; [vm_compute; tauto|vm_compute; reflexivity]. Qed.
Print Assumptions C87_line_refuted.
