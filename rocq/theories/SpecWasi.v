(** Specification: lines of output. *)
From Coq Require Import Ascii String ZArith NArith Bool List.
From Verif Require Import GoStr Edtf.
Import ListNotations.
Open Scope Z_scope.

Definition begins_with (p t : str) : Prop := exists r, t = p ++ r.
(** The plain texts that a parse can fail with. *)
Definition plain_texts : list str :=
  [$"Missing year"; $"Missing month"; $"Invalid month"; $"Invalid days for month"; $"Invalid YYYYMM string"].
Definition newline_free (t : str) : Prop := ~ In (chr 10) t.
Definition lines (l : list str) : str := concat (map (fun t => t ++ [chr 10]) l).
