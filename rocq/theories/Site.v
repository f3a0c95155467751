(** cmd/server-wasm from http.ListenAndServe on: the answers to requests (GET, with a path
    that is written in the usual way, so that URL.RawPath is empty), and a client that
    follows redirects.  Percent-encoding is not modelled: paths are decoded. *)
From Coq Require Import Ascii String ZArith NArith Bool List.
From Verif Require Import GoStr.
Import ListNotations.
Open Scope Z_scope.

(** ** Paths *)
Definition is_slash (c : ascii) : bool := Ascii.eqb c "/".
(* the bytes before the next slash, and the rest from it on *)
Fixpoint to_slash (s : str) : str * str :=
  match s with
  | [] => ([], [])
  | c :: r => if is_slash c then ([], s) else let (a, b) := to_slash r in (c :: a, b)
  end.
(* Go: path/path.go, Clean, case "..": back to the slash before *)
Fixpoint step_back (out : str) : str :=
  match out with [] => [] | c :: r => if is_slash c then r else step_back r end.
Definition at_end (s : str) : bool := match s with [] => true | c :: _ => is_slash c end.
(* Go: path/path.go, Clean, the loop, for a rooted path; out is the buffer after its
   first slash, backwards *)
Fixpoint clean_loop (fuel : nat) (out s : str) : str :=
  match fuel, s with
  | O, _ | _, [] => out
  | S k, c :: r =>
      if is_slash c then clean_loop k out r
      else if Ascii.eqb c "." && at_end r then clean_loop k out r
      else if Ascii.eqb c "." && match r with d :: r' => Ascii.eqb d "." && at_end r' | [] => false end then clean_loop k (step_back out) (skipn 1 r)
      else let (a, b) := to_slash s in clean_loop k (rev a ++ match out with [] => [] | _ => "/"%char :: out end) b
  end.
(* Go: path/path.go, Clean("/" + r) *)
Definition path_clean (r : str) : str := "/"%char :: rev (clean_loop (length r) [] r).
Definition rooted (p : str) : str := match p with c :: _ => if is_slash c then p else "/"%char :: p | [] => ["/"%char] end.
Definition ends_in_slash (p : str) : bool := match rev p with c :: _ => is_slash c | [] => false end.
(* Go: net/http/server.go, cleanPath *)
Definition clean_url (p : str) : str :=
  let np := path_clean (tl (rooted p)) in
  if ends_in_slash (rooted p) && negb (seqb np ($"/")) then np ++ $"/" else np.
(* Go: path/path.go, Base *)
Definition path_base (p : str) : str :=
  match p with
  | [] => $"."
  | _ => match fst (to_slash (trim_left "/" (rev p))) with [] => $"/" | b => rev b end
  end.

(** ** Files *)
Record tree := mkTree { files : list str; folders : list str }.
(* app/server/www/www.go:7-8 and the files of app/server/www *)
Definition www : tree :=
  mkTree [$"index.html"; $"css/bootstrap.min.css"; $"css/index.css"; $"javascript/index.js"; $"javascript/sfomuseum.golang.wasm.bundle.js"] [$"css"; $"javascript"].
(* wasm/wasm.go:7-8; the files are made by the targets wasmjs, wasip1 and wasip2 of the
   Makefile *)
Definition wasm (ws : list str) : tree := mkTree ws [].
Definition one_of (l : list str) (s : str) : bool := existsb (seqb s) l.
Inductive kind := File | Folder | Nothing.
(* Go: net/http/fs.go, ioFS.Open, and embed/embed.go, FS.Open; the name has no slash
   before it, the root is empty *)
Definition open (t : tree) (name : str) : kind :=
  match name with
  | [] => Folder
  | _ => if one_of (files t) name then File else if one_of (folders t) name then Folder else Nothing
  end.
(* the names in a folder; Go: net/http/fs.go, dirList *)
Definition inside_of (dir f : str) : list str :=
  let pre := match dir with [] => [] | _ => dir ++ $"/" end in
  if has_prefix f pre then let n := skipn (length pre) f in if existsb is_slash n then [] else [n] else [].
Definition entries (t : tree) (dir : str) : list str :=
  let l := flat_map (inside_of dir) (folders t) in
  map (fun n => if one_of l n then n ++ $"/" else n) (sort_strs (flat_map (inside_of dir) (files t) ++ l)).

(** ** Answers *)
Inductive place := Pages | Programs.   (* www.FS, wasm.FS *)
Inductive answer :=
| Moved (location : str)               (* 301 *)
| Sent (where_ : place) (file : str)   (* 200, the bytes of a file *)
| Listed (names : list str)            (* 200, a page of links *)
| Missing                              (* 404 *)
| Fault.                               (* 500 *)
(* Go: net/http/fs.go, fileHandler.ServeHTTP and serveFile with redirect *)
Definition serve_file (w : place) (t : tree) (path : str) : answer :=
  let url := rooted path in
  if has_suffix url ($"/index.html") then Moved ($"./")
  else
    let name := tl (path_clean (tl url)) in
    match open t name with
    | Nothing => Missing
    | File =>
        if ends_in_slash url then
          let b := path_base url in if seqb b ($"/") || seqb b ($".") then Fault else Moved ($"../" ++ b)
        else Sent w name
    | Folder =>
        if negb (ends_in_slash url) then Moved (path_base url ++ $"/")
        else
          let index := match name with [] => $"index.html" | _ => name ++ $"/index.html" end in
          match open t index with File => Sent w index | _ => Listed (entries t name) end
    end.
(* cmd/server-wasm/main.go:22-31 and Go: net/http/server.go (as of Go 1.21, which is what
   the version in go.mod asks for), ServeMux.Handler, redirectToPathSlash, match,
   StripPrefix *)
Definition serve (ws : list str) (p : str) : answer :=
  let path := clean_url p in
  if seqb path ($"/wasm") then Moved ($"/wasm/")
  else if negb (seqb path p) then Moved path
  else if has_prefix p ($"/wasm/") then serve_file Programs (wasm ws) (skipn 6 p)
  else serve_file Pages www p.

(** ** A client *)
(* RFC 3986, 5.2.4, segment by segment; kept are the segments so far, the last one first *)
Fixpoint no_dots (kept l : list str) : list str :=
  match l with
  | [] => kept
  | [x] => if seqb x ($".") then [] :: kept else if seqb x ($"..") then [] :: tl kept else x :: kept
  | x :: r => if seqb x ($".") then no_dots kept r else if seqb x ($"..") then no_dots (tl kept) r else no_dots (x :: kept) r
  end.
Fixpoint with_slashes (l : list str) : str :=
  match l with [] => [] | x :: r => "/"%char :: x ++ with_slashes r end.
(* RFC 3986, 5.2.3: the base up to its last slash *)
Definition base_folder (p : str) : str := rev (snd (to_slash (rev p))).
(* RFC 3986, 5.2.2, for references without scheme, authority, query and fragment *)
Definition resolve (base ref : str) : str :=
  let p := match ref with c :: _ => if is_slash c then ref else base_folder base ++ ref | [] => base end in
  with_slashes (rev (no_dots [] (split (tl p) ($"/")))).
(* the answer after at most n redirects *)
Fixpoint follow (n : nat) (ws : list str) (p : str) : answer :=
  match serve ws p, n with
  | Moved l, S k => follow k ws (resolve p l)
  | a, _ => a
  end.
