(** Specification: what the server sends. *)
From Coq Require Import Ascii String ZArith NArith Bool Permutation Sorting.Sorted List.
From Verif Require Import GoStr SpecText SpecReads Site.
Import ListNotations.
Open Scope Z_scope.

(** ** Paths *)
(** From where one stands along the parts of a path: empty parts and dots stay, two dots
    go up. *)
Inductive leads : list str -> list str -> list str -> Prop :=
| ld_end at_ : leads at_ [] at_
| ld_stay at_ x l to : x = [] \/ x = $"." -> leads at_ l to -> leads at_ (x :: l) to
| ld_top l to : leads [] l to -> leads [] ($".." :: l) to
| ld_up at_ y l to : leads at_ l to -> leads (at_ ++ [y]) ($".." :: l) to
| ld_down at_ x l to : x <> [] -> x <> $"." -> x <> $".." -> leads (at_ ++ [x]) l to -> leads at_ (x :: l) to.
Definition parts_of (p : str) (l : list str) : Prop := p = joined ($"/") l /\ l <> [] /\ Forall (fun x => ~ In "/"%char x) l.
Definition slash_last (p : str) : Prop := exists q, p = q ++ $"/".
(** A folder as the parts on the way to it, written as a path. *)
Definition folder_path (l : list str) : str := flat_map (fun x => "/"%char :: x) l ++ $"/".

(** ** Files *)
(** A name of a program: letters, digits and .-_, with .wasm at the end. *)
Definition name_byte (c : ascii) : Prop :=
  48 <= code c <= 57 \/ 65 <= code c <= 90 \/ 97 <= code c <= 122 \/ c = "."%char \/ c = "-"%char \/ c = "_"%char.
Definition program (n : str) : Prop := Forall name_byte n /\ exists b, n = b ++ $".wasm".
(** The same names, ordered by their bytes. *)
Definition in_order (ws l : list str) : Prop := Permutation l ws /\ StronglySorted text_le l.
(** What is there, and under which path. *)
Inductive thing (ws : list str) : list str -> answer -> Prop :=
| th_root : thing ws [] (Sent Pages ($"index.html"))
| th_index : thing ws [$"index.html"] (Sent Pages ($"index.html"))
| th_style n : n = $"bootstrap.min.css" \/ n = $"index.css" -> thing ws [$"css"; n] (Sent Pages ($"css/" ++ n))
| th_script n : n = $"index.js" \/ n = $"sfomuseum.golang.wasm.bundle.js" -> thing ws [$"javascript"; n] (Sent Pages ($"javascript/" ++ n))
| th_program n : In n ws -> thing ws [$"wasm"; n] (Sent Programs n)
| th_styles : thing ws [$"css"] (Listed [$"bootstrap.min.css"; $"index.css"])
| th_scripts : thing ws [$"javascript"] (Listed [$"index.js"; $"sfomuseum.golang.wasm.bundle.js"])
| th_programs l : in_order ws l -> thing ws [$"wasm"] (Listed l).
(** Where a path leads in the end: index.html may follow anything that is there, as the
    last part. *)
Inductive arrives (ws : list str) : list str -> Prop -> answer -> Prop :=
| ar_there l (slash : Prop) a : thing ws l a -> arrives ws l slash a
| ar_index l (slash : Prop) a : thing ws l a -> ~ slash -> arrives ws (l ++ [$"index.html"]) slash a
| ar_none l (slash : Prop) : (forall a, ~ thing ws l a) -> (forall q a, l = q ++ [$"index.html"] -> thing ws q a -> slash) -> arrives ws l slash Missing.
(** The only path at which a file is sent without a redirect. *)
Inductive sent_at (ws : list str) : place -> str -> str -> Prop :=
| sa_index : sent_at ws Pages ($"index.html") ($"/")
| sa_page f : In f [$"css/bootstrap.min.css"; $"css/index.css"; $"javascript/index.js"; $"javascript/sfomuseum.golang.wasm.bundle.js"] -> sent_at ws Pages f ($"/" ++ f)
| sa_program f : In f ws -> sent_at ws Programs f ($"/wasm/" ++ f).
(** Redirects followed one by one. *)
Inductive ends (ws : list str) : nat -> str -> answer -> Prop :=
| en_here p a : serve ws p = a -> (forall l, a <> Moved l) -> ends ws 0 p a
| en_moved n p l a : serve ws p = Moved l -> ends ws n (resolve p l) a -> ends ws (S n) p a.
