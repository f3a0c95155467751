(** Texts meant for people: the String() methods. *)
From Coq Require Import Ascii String ZArith NArith Bool List.
From Verif Require Import GoStr GoTime Edtf.
Import ListNotations.
Open Scope Z_scope.

(* ymd.go:13-15; %T of a *YMD is "*edtf.YMD" *)
Definition YMD_String (v : ymd) : str :=
  $"[*edtf.YMD] Y: '" ++ itoa (y_year v) ++ $"' M: '" ++ itoa (y_month v) ++ $"' D: '" ++ itoa (y_day v) ++ $"'".
(* date.go:26-28.  %v prints a pointer to a struct without a String method as
   "&{...}" and a nil pointer as "<nil>", also for *YMD, whose String method would
   panic on nil: fmt recovers and prints "<nil>". *)
Definition timestamp_v (t : option Z) : str :=
  match t with Some t => $"&{" ++ itoa t ++ $"}" | None => $"<nil>" end.
Definition ymd_v (v : option ymd) : str := match v with Some v => YMD_String v | None => $"<nil>" end.
Definition Date_String (d : date) : str :=
  $"[[*edtf.Date] Time: '" ++ timestamp_v (d_timestamp d) ++ $"' YMD: '" ++ ymd_v (d_ymd d) ++ $"']".
(* daterange.go:13-15 *)
Definition Range_String (r : daterange) : str :=
  $"[[*edtf.DateRange] Lower: '" ++ Date_String (r_lower r) ++ $"' Upper: '" ++ Date_String (r_upper r) ++ $"'[".
(* datespan.go:12-14 *)
Definition Span_String (s : datespan) : str :=
  $"[[*edtf.DateSpan] Start: '" ++ Range_String (s_start s) ++ $"' End: '" ++ Range_String (s_end s) ++ $"']".
