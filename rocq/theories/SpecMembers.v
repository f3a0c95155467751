(** Specification: sets that have the same members. *)
From Coq Require Import Ascii String ZArith NArith Bool List.
From Verif Require Import GoStr SpecText SpecForms SpecReads Edtf.
Import ListNotations.
Open Scope Z_scope.

(** The text of a set with given pieces. *)
Definition set_written (o : ascii) (l : list str) (c : ascii) : str := o :: joined ($",") l ++ [c].
Definition comma_free (l : list str) : Prop := Forall (fun p => ~ In ","%char p) l.
(** The same date but for the text it was read from. *)
Definition retold (e : edtfdate) (s : str) (e' : edtfdate) : Prop :=
  e_start e' = e_start e /\ e_end e' = e_end e /\ e_level e' = e_level e /\ e_feature e' = e_feature e /\ e_edtf e' = s.
(** Both lists of pieces write the same members, in any order and any number of times,
    alone or as ends of ranges, and both or none has dots on the left, on the right. *)
Definition same_members (l l' : list str) : Prop := exists ds ds' so eo,
  set_pieces l ds so eo /\ set_pieces l' ds' so eo /\ forall t, In t ds <-> In t ds'.
