(** Specification: sets of dates as EDTF describes them. *)
From Coq Require Import Ascii String ZArith NArith Bool List.
From Verif Require Import GoStr SpecCal SpecText SpecGrammar SpecSpan Edtf.
Import ListNotations.
Open Scope Z_scope.

(** A date with a non-negative year. *)
Inductive plain_date : str -> Z -> option Z -> option Z -> Prop :=
| plain_intro n r m d : 0 <= n <= 9999 -> mmdd r m d -> plain_date (four n ++ r) n m d.
Definition is_plain (t : str) : Prop := exists y m d, plain_date t y m d.
(** One element: a date, the dates from one to another, all dates up to one, all
    dates from one.  Third argument: the dates written in it; then whether it is
    open to the left, to the right. *)
Inductive element (D : str -> Prop) : str -> list str -> bool -> bool -> Prop :=
| el_date t : D t -> element D t [t] false false
| el_range a b : D a -> D b -> element D (a ++ $".." ++ b) [a; b] false false
| el_upto b : D b -> element D ($".." ++ b) [b] true false
| el_from a : D a -> element D (a ++ $"..") [a] false true.
Inductive elements (D : str -> Prop) : list str -> list str -> bool -> bool -> Prop :=
| els_nil : elements D [] [] false false
| els_cons x l ds ds' so so' eo eo' : element D x ds so eo -> elements D l ds' so' eo' ->
    elements D (x :: l) (ds ++ ds') (so || so') (eo || eo').
(** A set: elements separated by commas, in brackets. *)
Inductive set_of (D : str -> Prop) : str -> list str -> list str -> bool -> bool -> Prop :=
| set_of_intro o l ds so eo c : o = "["%char \/ o = "{"%char -> c = "]"%char \/ c = "}"%char -> l <> [] -> elements D l ds so eo ->
    set_of D (o :: joined ($",") l ++ [c]) l ds so eo.
(** Two dots open the first element to the left and the last to the right only. *)
Definition well_placed (l : list str) : Prop :=
  (forall x, In x (tl l) -> forall b, x <> $".." ++ b) /\ (forall x, In x (removelast l) -> forall a, x <> a ++ $"..").

(** The earliest and the latest of the members that exist. *)
Definition earliest (ds : list str) (t : str) (y : Z) (m d : option Z) : Prop :=
  In t ds /\ plain_date t y m d /\ exists_date y m d /\
  forall t' y' m' d', In t' ds -> plain_date t' y' m' d' -> exists_date y' m' d' -> first_instant y m d <= first_instant y' m' d'.
Definition latest (ds : list str) (t : str) (y : Z) (m d : option Z) : Prop :=
  In t ds /\ plain_date t y m d /\ exists_date y m d /\
  forall t' y' m' d', In t' ds -> plain_date t' y' m' d' -> exists_date y' m' d' -> last_instant y' m' d' <= last_instant y m d.
(** No member is a year or month that contains another, differently written, member. *)
Definition no_prefix (ds : list str) : Prop := forall t u, In t ds -> In (t ++ u) ds -> u = [].
