(** Texts meant for people: the String() methods of common/range.go. *)
From Coq Require Import Ascii String ZArith NArith Bool List.
From Verif Require Import GoStr Edtf Common.
Import ListNotations.
Open Scope Z_scope.

(* range.go:512, 528: the two values of Type *)
Definition qtype_text (t : qtype) : str := match t with Individual => $"Individual" | Group => $"Group" end.
(* range.go:17-19; %T of a *Qualifier is "*common.Qualifier" *)
Definition Qualifier_String (q : qualifier) : str :=
  $"[*common.Qualifier] Value: '" ++ q_value q ++ $"' Type: '" ++ qtype_text (q_type q) ++ $"'".
(* range.go:30-32 *)
Definition StringDate_String (d : stringdate) : str :=
  $"[[*common.StringDate] Y: '" ++ sd_year d ++ $"' M: '" ++ sd_month d ++ $"' D: '" ++ sd_day d ++ $"']".
(* range.go:60-62; %s of a *StringDate calls its String method.  For a nil pointer,
   which no code of the library stores there, fmt would print "<nil>". *)
Definition StringRange_String (r : stringrange) : str :=
  $"[[*common.StringRange] Start: '" ++ StringDate_String (sr_start r) ++ $"' End: '" ++ StringDate_String (sr_end r) ++ $"']".
