(** cmd/server-wasm, requests as they are written: the target of a GET request that
    begins with a slash, with percent-encoding and a query, on top of Site.v. *)
From Coq Require Import Ascii String ZArith NArith Bool List.
From Verif Require Import GoStr Site.
Import ListNotations.
Open Scope Z_scope.

(** ** net/url *)
(* Go: net/url/url.go, ishex and unhex *)
Definition hex_value (c : ascii) : option Z :=
  let z := code c in
  if (48 <=? z) && (z <=? 57) then Some (z - 48)
  else if (97 <=? z) && (z <=? 102) then Some (z - 87)
  else if (65 <=? z) && (z <=? 70) then Some (z - 55)
  else None.
(* Go: net/url/url.go, unescape with encodePath; None is an EscapeError *)
Fixpoint unescape (s : str) : option str :=
  match s with
  | [] => Some []
  | c :: r =>
      if Ascii.eqb c "%" then
        match r with
        | a :: b :: t =>
            match hex_value a, hex_value b with
            | Some x, Some y => option_map (cons (chr (16 * x + y))) (unescape t)
            | _, _ => None
            end
        | _ => None
        end
      else option_map (cons c) (unescape r)
  end.
(* Go: net/url/url.go, shouldEscape with encodePath, negated *)
Definition stays (c : ascii) : bool :=
  let z := code c in
  (97 <=? z) && (z <=? 122) || (65 <=? z) && (z <=? 90) || (48 <=? z) && (z <=? 57) || existsb (Ascii.eqb c) ($"-_.~$&+,/:;=@").
Definition high_digit (z : Z) : ascii := chr (if z <? 10 then 48 + z else 55 + z).   (* upperhex *)
Definition escape_byte (c : ascii) : str := if stays c then [c] else ["%"%char; high_digit (code c / 16); high_digit (code c mod 16)].
(* Go: net/url/url.go, escape with encodePath *)
Definition escape (s : str) : str := flat_map escape_byte s.
Fixpoint cut_at (x : ascii) (s : str) : str * option str :=   (* Go: strings.Cut *)
  match s with
  | [] => ([], None)
  | c :: r => if Ascii.eqb c x then ([], Some r) else let (a, b) := cut_at x r in (c :: a, b)
  end.
Definition control (c : ascii) : bool := (code c <? 32) || (code c =? 127).   (* Go: stringContainsCTLByte *)
(* URL.Path, URL.RawPath (empty if the path is written as escape does), URL.RawQuery *)
Record request := mkRequest { path : str; raw_path : str; query : str }.
(* Go: net/url/url.go, ParseRequestURI and setPath, for a text that begins with a slash *)
Definition read_target (s : str) : option request :=
  if existsb control s then None
  else
    let (p, q) := cut_at "?" s in
    match unescape p with
    | None => None
    | Some d => Some (mkRequest d (if seqb p (escape d) then [] else p) (match q with Some q => q | None => [] end))
    end.

(** ** Answers *)
Definition with_query (p q : str) : str := match q with [] => p | _ => p ++ "?"%char :: q end.
(* Go: net/http/http.go, hexEscapeNonASCII *)
Definition small_digit (z : Z) : ascii := chr (if z <? 10 then 48 + z else 87 + z).
Definition ascii_only (s : str) : str :=
  flat_map (fun c => if code c <? 128 then [c] else ["%"%char; small_digit (code c / 16); small_digit (code c mod 16)]) s.
(* Go: net/http/server.go, RedirectHandler and Redirect with the text of a URL that has
   this path, which begins with a slash, and this query; the steps there for a path that
   begins with a slash are those of cleanPath *)
Definition redirect (p q : str) : answer :=
  let (u, r) := cut_at "?" (with_query (escape p) q) in
  Moved (ascii_only (clean_url u ++ match r with Some r => "?"%char :: r | None => [] end)).
(* Go: net/http/fs.go, localRedirect *)
Definition local (a : answer) (q : str) : answer := match a with Moved l => Moved (with_query l q) | _ => a end.
(* Go: net/http/server.go, ServeMux.Handler and StripPrefix *)
Definition serve_request (ws : list str) (r : request) : answer :=
  let p := clean_url (path r) in
  if seqb p ($"/wasm") then redirect ($"/wasm/") (query r)
  else if negb (seqb p (path r)) then redirect p (query r)
  else if has_prefix (path r) ($"/wasm/") then
    if seqb (raw_path r) [] || has_prefix (raw_path r) ($"/wasm/") then local (serve_file Programs (wasm ws) (skipn 6 (path r))) (query r)
    else Missing
  else local (serve_file Pages www (path r)) (query r).
(* None is 400 *)
Definition serve_target (ws : list str) (s : str) : option answer := option_map (serve_request ws) (read_target s).

(** ** A client *)
(* RFC 3986, 5.2.2, for references without scheme and authority; fragments are not sent *)
Definition next_target (base ref : str) : str :=
  let (r, q) := cut_at "?" (fst (cut_at "#" ref)) in
  resolve (fst (cut_at "?" base)) r ++ match q with Some q => "?"%char :: q | None => [] end.
