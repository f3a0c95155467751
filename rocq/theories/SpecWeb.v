(** Specification: a JSON value laid out on lines, two blanks deeper for every object or
    array around, one member or item after the other, each but the last with a comma. *)
From Coq Require Import Ascii String ZArith NArith Bool List.
From Verif Require Import GoStr Json SpecJsonText SpecWasi.
Import ListNotations.
Open Scope Z_scope.

Definition scalar (v : json) : Prop := match v with JArr _ | JObj _ => False | _ => True end.
Definition margin (depth : nat) : str := repeat " "%char (2 * depth).
Inductive laid_out : nat -> str -> json -> str -> list str -> Prop :=
| lo_scalar n before v t after : scalar v -> value_text v t -> newline_free t ->
    laid_out n before v after [margin n ++ before ++ t ++ after]
| lo_arr0 n before after : laid_out n before (JArr []) after [margin n ++ before ++ $"[]" ++ after]
| lo_obj0 n before after : laid_out n before (JObj []) after [margin n ++ before ++ $"{}" ++ after]
| lo_arr n before l after ls : items_on (S n) l ls ->
    laid_out n before (JArr l) after ([margin n ++ before ++ $"["] ++ ls ++ [margin n ++ $"]" ++ after])
| lo_obj n before l after ls : members_on (S n) l ls ->
    laid_out n before (JObj l) after ([margin n ++ before ++ $"{"] ++ ls ++ [margin n ++ $"}" ++ after])
with items_on : nat -> list json -> list str -> Prop :=
| io_one n v ls : laid_out n [] v [] ls -> items_on n [v] ls
| io_more n v ls l ls' : laid_out n [] v ($",") ls -> items_on n l ls' -> items_on n (v :: l) (ls ++ ls')
with members_on : nat -> list (str * json) -> list str -> Prop :=
| mo_one n k kt v ls : string_body k kt -> newline_free kt -> laid_out n ($"""" ++ kt ++ $""": ") v [] ls -> members_on n [(k, v)] ls
| mo_more n k kt v ls l ls' : string_body k kt -> newline_free kt -> laid_out n ($"""" ++ kt ++ $""": ") v ($",") ls ->
    members_on n l ls' -> members_on n ((k, v) :: l) (ls ++ ls').
(** The text of lines. *)
Inductive text_of : list str -> str -> Prop :=
| to_one t : text_of [t] t
| to_more t l u : text_of l u -> text_of (t :: l) (t ++ [chr 10] ++ u).
Definition page_text (v : json) (p : str) : Prop := exists ls, laid_out 0 [] v [] ls /\ text_of ls p /\ Forall newline_free ls.

(** A text without its line breaks, as a text field holds it. *)
Inductive unbroken : str -> str -> Prop :=
| ub_nil : unbroken [] []
| ub_drop c t u : code c = 10 \/ code c = 13 -> unbroken t u -> unbroken (c :: t) u
| ub_keep c t u : code c <> 10 -> code c <> 13 -> unbroken t u -> unbroken (c :: t) (c :: u).
