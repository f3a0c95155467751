(** Specification: dates that lie within other dates. *)
From Coq Require Import Ascii String ZArith NArith Bool List.
From Verif Require Import GoStr SpecCal SpecText SpecZone SpecGrammar SpecSpan SpecForms SpecSet SpecReads SpecSame Edtf CalFacts.
Import ListNotations.
Open Scope Z_scope.

(** A level 0 date or a pair of them, and the first and the last second of it. *)
Inductive level0_span : str -> Z -> Z -> Prop :=
| ls_date t y m d : level0_date t y m d -> exists_date y m d -> level0_span t (first_instant y m d) (last_instant y m d)
| ls_pair a y m d b y' m' d' : level0_date a y m d -> exists_date y m d -> level0_date b y' m' d' -> exists_date y' m' d' ->
    level0_span (a ++ $"/" ++ b) (first_instant y m d) (last_instant y' m' d').
Inductive within : str -> str -> Prop :=
| wi_span s lo hi t lo' hi' : level0_span s lo hi -> level0_span t lo' hi' -> lo' <= lo -> hi <= hi' -> within s t
| wi_time y m d hh mi ss z off t lo hi : 0 <= y <= 9999 -> real_date y m d -> clock hh mi ss -> zone_means z off -> level0_span t lo hi ->
    lo <= instant y m d hh mi ss - off <= hi -> within (stamp_text y m d hh mi ss z) t
| wi_upto s lo hi t y m d : level0_span s lo hi -> plain_date t y m d -> exists_date y m d -> hi <= last_instant y m d -> within s ($"../" ++ t)
| wi_from s lo hi y : level0_span s lo hi -> 0 <= y <= 9999 -> instant y 1 1 0 0 0 <= lo -> within s (four y ++ $"/..")
(* a member and its set *)
| wi_member t y m d s l ds : set_of is_plain s l ds false false -> well_placed l -> no_prefix ds -> In t ds ->
    (forall t y m d, In t ds -> plain_date t y m d -> exists_date y m d) -> plain_date t y m d -> within t s
| wi_same s t : same_time s t -> within s t
| wi_trans s t u : within s t -> within t u -> within s u.

(** The bounds of [e] lie within those of [e']; an open bound is never exceeded, an
    unknown bound only agrees with itself. *)
Definition no_earlier (x y : edge) : Prop :=
  match x, y with At a, At b => a <= b | Dots, At _ | Dots, Dots | Blank, Blank => True | _, _ => False end.
Definition no_later (x y : edge) : Prop :=
  match x, y with At a, At b => a <= b | At _, Dots | Dots, Dots | Blank, Blank => True | _, _ => False end.
Definition inside (e e' : edtfdate) : Prop := exists lo hi lo' hi',
  shows (r_lower (e_start e)) lo /\ shows (r_upper (e_end e)) hi /\ shows (r_lower (e_start e')) lo' /\ shows (r_upper (e_end e')) hi' /\
  no_earlier lo' lo /\ no_later hi hi'.
(** It lasts longer than an instant. *)
Definition lasting (e : edtfdate) : Prop := exists lo hi, Lower e = OK lo /\ Upper e = OK hi /\ lo < hi.
