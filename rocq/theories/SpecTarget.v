(** Specification: targets of requests as they are written. *)
From Coq Require Import Ascii String ZArith NArith Bool List.
From Verif Require Import GoStr Site SpecSite Target.
Import ListNotations.
Open Scope Z_scope.

(** A hexadecimal digit, small or capital, and its value. *)
Definition hexit (c : ascii) (x : Z) : Prop :=
  0 <= x /\ (nth_error ($"0123456789abcdef") (Z.to_nat x) = Some c \/ nth_error ($"0123456789ABCDEF") (Z.to_nat x) = Some c).
(** The text stands for the path. *)
Inductive encodes : str -> str -> Prop :=
| ec_nil : encodes [] []
| ec_plain c r p : c <> "%"%char -> encodes r p -> encodes (c :: r) (c :: p)
| ec_hex a b x y r p : hexit a x -> hexit b y -> encodes r p -> encodes ("%"%char :: a :: b :: r) (chr (16 * x + y) :: p).
(** Bytes that need no escape, and the usual way to write a path: all others escaped, in
    capital digits. *)
Definition usual_byte (c : ascii) : Prop :=
  97 <= code c <= 122 \/ 65 <= code c <= 90 \/ 48 <= code c <= 57 \/ In c ($"-_.~$&+,/:;=@").
Inductive usual : str -> str -> Prop :=
| us_nil : usual [] []
| us_plain c r p : usual_byte c -> usual r p -> usual (c :: r) (c :: p)
| us_hex c a b x y r p : ~ usual_byte c -> code c = 16 * x + y -> 0 <= x -> 0 <= y ->
    nth_error ($"0123456789ABCDEF") (Z.to_nat x) = Some a -> nth_error ($"0123456789ABCDEF") (Z.to_nat y) = Some b ->
    usual r p -> usual ("%"%char :: a :: b :: r) (c :: p).
(** What follows the path: nothing, or a question mark and a query. *)
Definition a_tail (t : str) : Prop := t = [] \/ exists q, t = "?"%char :: q.
Definition target (s raw t : str) : Prop := s = raw ++ t /\ ~ In "?"%char raw /\ a_tail t.
Definition control_byte (c : ascii) : Prop := code c < 32 \/ code c = 127.
Definition absolute (l : str) : Prop := exists x, l = "/"%char :: x.
(** The tail of a location: a lone question mark is dropped; the server writes bytes
    beyond ASCII as escapes when it asks for another path, and leaves them alone when it
    names a file nearby. *)
Definition kept_tail (t : str) : str := match t with [_] => [] | _ => t end.
Inductive in_ascii : str -> str -> Prop :=
| ia_nil : in_ascii [] []
| ia_keep c s u : code c < 128 -> in_ascii s u -> in_ascii (c :: s) (c :: u)
| ia_hex c a b x y s u : 128 <= code c -> code c = 16 * x + y -> 0 <= x -> 0 <= y ->
    nth_error ($"0123456789abcdef") (Z.to_nat x) = Some a -> nth_error ($"0123456789abcdef") (Z.to_nat y) = Some b ->
    in_ascii s u -> in_ascii (c :: s) ("%"%char :: a :: b :: u).
(** The answer to a target, given the answer to the path alone. *)
Inductive like (t : str) : answer -> answer -> Prop :=
| lk_same a : (forall l, a <> Moved l) -> like t a a
| lk_near l : ~ absolute l -> like t (Moved l) (Moved (l ++ kept_tail t))
| lk_far l raw u : absolute l -> usual raw l -> in_ascii (kept_tail t) u -> like t (Moved l) (Moved (raw ++ u)).
(** Redirects followed one by one. *)
Inductive ends_target (ws : list str) : nat -> str -> answer -> Prop :=
| et_here s a : serve_target ws s = Some a -> (forall l, a <> Moved l) -> ends_target ws 0 s a
| et_moved n s l a : serve_target ws s = Some (Moved l) -> ends_target ws n (next_target s l) a -> ends_target ws (S n) s a.
(** A path written with escapes for any bytes but slashes. *)
Inductive spells : str -> str -> Prop :=
| sp_nil : spells [] []
| sp_plain c r p : c <> "%"%char -> c <> "?"%char -> ~ control_byte c -> spells r p -> spells (c :: r) (c :: p)
| sp_hex a b x y r p : hexit a x -> hexit b y -> chr (16 * x + y) <> "/"%char -> spells r p -> spells ("%"%char :: a :: b :: r) (chr (16 * x + y) :: p).
