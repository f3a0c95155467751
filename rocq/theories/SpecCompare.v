(** Specification: what the comparisons and the Unix ranges give to every string,
    errors and panics included. *)
From Coq Require Import Ascii String ZArith NArith Bool List.
From Verif Require Import GoStr SpecCal SpecText SpecZone SpecGrammar SpecForms SpecSpan SpecSet SpecWrap SpecReads SpecWhole SpecRefused SpecMessage Edtf Parser.
Import ListNotations.
Open Scope Z_scope.

(** The outer bounds of every string that parses. *)
Inductive reading : str -> edge -> edge -> Prop :=
| rd_dots : reading ($"..") Dots Dots
| rd_empty : reading [] Blank Blank
| rd_feature s lv f lo hi : takes s lv f -> reads_as f s lo hi -> reading s lo hi.
Definition unset (x : edge) : Prop := x = Dots \/ x = Blank.
(** The error of a bound without a time, with the comparison's text and the date
    around it. *)
Definition unset_error (text date : str) : err := EWrap (text ++ $" (" ++ date ++ $")") (ENotImplemented [] []).
(** The first string is parsed first; the error has the text of its cause. *)
Definition parse_error (s w : str) : err := EText ($"Failed to parse '" ++ s ++ $"', " ++ w).
Inductive unreadable : str -> str -> res bool -> Prop :=
| ur_first s t x w : refused s x -> err_says x w -> unreadable s t (Err (parse_error s w))
| ur_first_crash s t : crashes s -> unreadable s t Panic
| ur_second s t lo hi x w : reading s lo hi -> refused t x -> err_says x w -> unreadable s t (Err (parse_error t w))
| ur_second_crash s t lo hi : reading s lo hi -> crashes t -> unreadable s t Panic.
(** [s] is after [t] if it begins no earlier than [t] ends. *)
Inductive after_says : str -> str -> res bool -> Prop :=
| as_unreadable s t r : unreadable s t r -> after_says s t r
| as_dots t lo hi : reading t lo hi -> after_says ($"..") t (OK false)
| as_no_end s t lo hi lo' hi' : s <> $".." -> reading s lo hi -> reading t lo' hi' -> unset hi' ->
    after_says s t (Err (unset_error ($"Failed to derive upper time for inception date") t))
| as_no_begin s t lo hi lo' y : s <> $".." -> reading s lo hi -> reading t lo' (At y) -> unset lo ->
    after_says s t (Err (unset_error ($"Failed to derive lower time for cessation date") s))
| as_yes s t x hi lo' y : reading s (At x) hi -> reading t lo' (At y) -> y <= x -> after_says s t (OK true)
| as_no s t x hi lo' y : reading s (At x) hi -> reading t lo' (At y) -> x < y -> after_says s t (OK false).
(** [s] is before [t] if it ends no later than [t] begins. *)
Inductive before_says : str -> str -> res bool -> Prop :=
| bs_unreadable s t r : unreadable s t r -> before_says s t r
| bs_dots t lo hi : reading t lo hi -> before_says ($"..") t (OK false)
| bs_no_begin s t lo hi lo' hi' : s <> $".." -> reading s lo hi -> reading t lo' hi' -> unset lo' ->
    before_says s t (Err (unset_error ($"Failed to derive lower time for inception date") t))
| bs_no_end s t lo hi x hi' : s <> $".." -> reading s lo hi -> reading t (At x) hi' -> unset hi ->
    before_says s t (Err (unset_error ($"Failed to derive upper time for cessation date") s))
| bs_yes s t lo y x hi' : reading s lo (At y) -> reading t (At x) hi' -> y <= x -> before_says s t (OK true)
| bs_no s t lo y x hi' : reading s lo (At y) -> reading t (At x) hi' -> x < y -> before_says s t (OK false).
(** Between: not before the inception and not after the cessation, which is looked at
    last and not at all if it is two dots. *)
Inductive between_says (d i c : str) : res bool -> Prop :=
| bw_failed x : before_says d i (Err x) -> between_says d i c (Err (EWrap ($"Failed to determine if date is before inception date") x))
| bw_crash : before_says d i Panic -> between_says d i c Panic
| bw_before : before_says d i (OK true) -> between_says d i c (OK false)
| bw_open : before_says d i (OK false) -> c = $".." -> between_says d i c (OK true)
| bw_failed' x : before_says d i (OK false) -> c <> $".." -> after_says d c (Err x) ->
    between_says d i c (Err (EWrap ($"Failed to determine if date is after cessation date") x))
| bw_crash' : before_says d i (OK false) -> c <> $".." -> after_says d c Panic -> between_says d i c Panic
| bw_after : before_says d i (OK false) -> c <> $".." -> after_says d c (OK true) -> between_says d i c (OK false)
| bw_yes : before_says d i (OK false) -> c <> $".." -> after_says d c (OK false) -> between_says d i c (OK true).

(** The four bounds of a string that is none of the four special ones. *)
Definition special_text (s : str) : Prop := In s [$".."; $"open"; $""; $"uuuu"].
Definition span_of (s : str) (sp : datespan) : Prop := exists lv f, takes s lv f /\ whole_reads f s sp.
Definition bounds_at (sp : datespan) (a b c d : Z) : Prop :=
  d_timestamp (r_lower (s_start sp)) = Some a /\ d_timestamp (r_upper (s_start sp)) = Some b /\
  d_timestamp (r_lower (s_end sp)) = Some c /\ d_timestamp (r_upper (s_end sp)) = Some d.
Inductive ranges_say (s : str) : res (option unixrange) -> Prop :=
| rs_special : special_text s -> ranges_say s (OK None)
| rs_refused x : ~ special_text s -> refused s x -> ranges_say s (Err (EWrap ($"Failed to parse '" ++ s ++ $"'") x))
| rs_crash : crashes s -> ranges_say s Panic
| rs_all sp a b c d : span_of s sp -> bounds_at sp a b c d -> ranges_say s (OK (Some (mkURange (mkUSpan a d) (mkUSpan b c))))
| rs_some sp : span_of s sp -> (forall a b c d, ~ bounds_at sp a b c d) -> ranges_say s (OK None).
