(** A model of Go's [regexp] package for the syntax used in /repo/re: a compiler
    from pattern strings ([regexp/syntax.Parse]) and a leftmost-first
    backtracking matcher with sub-matches, which is the semantics the [regexp]
    documentation promises ("the match that a backtracking engine would have
    found").

    Matching is by byte.  Go matches by rune, but all character classes used are
    ASCII, and UTF-8 is self-synchronising: an ASCII byte, or the pair C5 BF
    (U+017F, the only non-ASCII rune that any of the patterns can match, through
    the case folding of 's'), always is a rune boundary. *)
From Coq Require Import Ascii String ZArith NArith Bool List.
From Verif Require Import GoStr.
Import ListNotations.
Open Scope Z_scope.

(** Byte classes: lists of inclusive ranges. *)
Definition cset := list (Z * Z).
Definition in_set (cs : cset) (c : ascii) : bool :=
  existsb (fun p => (fst p <=? code c) && (code c <=? snd p)) cs.

Inductive re : Type :=
| REps
| RSet (cs : cset)
| RSeq (a b : re)
| RAlt (a b : re)      (* a preferred *)
| ROpt (a : re)        (* greedy *)
| RStar (a : re)       (* greedy *)
| RCap (i : nat) (a : re)
| RBegin               (* ^ : beginning of text *)
| REnd.                (* $ : end of text (Go without (?m)) *)

(** ** Compiler *)

Definition mkseq (a b : re) : re := match b with REps => a | _ => RSeq a b end.
Fixpoint rrep (n : nat) (a : re) : re :=
  match n with O => REps | S k => mkseq a (rrep k a) end.

(** Case folding of a class under (?i): add the other case of every ASCII
    letter. *)
Definition letters : list Z := map (fun n => 65 + Z.of_nat n) (seq 0 26).
Definition in_rng (cs : cset) (z : Z) : bool :=
  existsb (fun p => (fst p <=? z) && (z <=? snd p)) cs.
Definition fold_extra (cs : cset) : cset :=
  flat_map (fun u => (if in_rng cs u && negb (in_rng cs (u + 32)) then [(u + 32, u + 32)] else [])
                  ++ (if in_rng cs (u + 32) && negb (in_rng cs u) then [(u, u)] else [])) letters.
(** A class under the current fold flag.  's'/'S' under (?i) also matches the
    rune U+017F, i.e. the byte pair C5 BF. *)
Definition mkset (fold : bool) (cs : cset) : re :=
  if fold then
    let cs' := cs ++ fold_extra cs in
    if in_rng cs' 83 then RAlt (RSet cs') (RSeq (RSet [(197, 197)]) (RSet [(191, 191)]))
    else RSet cs'
  else RSet cs.

Definition cset_digit : cset := [(48, 57)].                     (* \d *)
Definition cset_space : cset := [(9, 10); (12, 13); (32, 32)].   (* \s *)

(** Body of a bracket class up to ']': single characters, ranges, escapes of
    punctuation.  (No negation and no nested classes are used.) *)
Fixpoint parse_class (s : str) (acc : cset) {struct s} : option (cset * str) :=
  match s with
  | [] => None
  | c :: t =>
      if Ascii.eqb c "]" then Some (acc, t)
      else if Ascii.eqb c "\" then
        match t with
        | d :: t' => parse_class t' (acc ++ [(code d, code d)])
        | [] => None
        end
      else match t with
           | m :: e :: t' =>
               if Ascii.eqb m "-" && negb (Ascii.eqb e "]")
               then parse_class t' (acc ++ [(code c, code e)])
               else parse_class t (acc ++ [(code c, code c)])
           | _ => parse_class t (acc ++ [(code c, code c)])
           end
  end.

(** Decimal count of a {n} repetition. *)
Fixpoint parse_count (s : str) (acc : nat) : option (nat * str) :=
  match s with
  | c :: t => if Ascii.eqb c "}" then Some (acc, t)
              else if is_digit c then parse_count t (acc * 10 + Z.to_nat (digit_val c))
              else None
  | [] => None
  end.

(** Recursive descent.  State: the fold flag and the number of capture groups
    opened so far.  As in regexp/syntax, a flag group (?i) changes the flag up
    to the end of the enclosing group, across '|'. *)
Record pst := mkpst { p_fold : bool; p_cap : nat }.

(** Postfix operators ?, *, + and {n}. *)
Definition parse_post (a : re) (s : str) : option (re * str) :=
  match s with
  | c :: t =>
      if Ascii.eqb c "?" then Some (ROpt a, t)
      else if Ascii.eqb c "*" then Some (RStar a, t)
      else if Ascii.eqb c "+" then Some (RSeq a (RStar a), t)
      else if Ascii.eqb c "{" then
        match parse_count t 0 with
        | Some (n, u) => Some (rrep n a, u)
        | None => None
        end
      else Some (a, s)
  | [] => Some (a, s)
  end.

Fixpoint parse_alt (fuel : nat) (st : pst) (s : str) {struct fuel} : option (re * pst * str) :=
  match fuel with
  | O => None
  | S n =>
      match parse_cat n st s with
      | Some (a, st1, c :: t) =>
          if Ascii.eqb c "|" then
            match parse_alt n st1 t with
            | Some (b, st2, u) => Some (RAlt a b, st2, u)
            | None => None
            end
          else Some (a, st1, c :: t)
      | r => r
      end
  end
with parse_cat (fuel : nat) (st : pst) (s : str) {struct fuel} : option (re * pst * str) :=
  match fuel with
  | O => None
  | S n =>
      match s with
      | [] => Some (REps, st, s)
      | c :: _ =>
          if Ascii.eqb c "|" || Ascii.eqb c ")" then Some (REps, st, s)
          else match parse_atom n st s with
               | Some (None, st1, t) => parse_cat n st1 t
               | Some (Some a, st1, t) =>
                   match parse_post a t with
                   | Some (a', t') =>
                       match parse_cat n st1 t' with
                       | Some (b, st2, u) => Some (mkseq a' b, st2, u)
                       | None => None
                       end
                   | None => None
                   end
               | None => None
               end
      end
  end
with parse_atom (fuel : nat) (st : pst) (s : str) {struct fuel} : option (option re * pst * str) :=
  match fuel with
  | O => None
  | S n =>
      match s with
      | [] => None
      | c :: t =>
          if Ascii.eqb c "(" then
            if has_prefix t ($"?:") then
              match parse_alt n st (skipn 2 t) with
              | Some (a, st1, d :: u) =>
                  if Ascii.eqb d ")" then Some (Some a, mkpst (p_fold st) (p_cap st1), u) else None
              | _ => None
              end
            else if has_prefix t ($"?i)") then Some (None, mkpst true (p_cap st), skipn 3 t)
            else
              let i := S (p_cap st) in
              match parse_alt n (mkpst (p_fold st) i) t with
              | Some (a, st1, d :: u) =>
                  if Ascii.eqb d ")" then Some (Some (RCap i a), mkpst (p_fold st) (p_cap st1), u) else None
              | _ => None
              end
          else if Ascii.eqb c "[" then
            match parse_class t [] with
            | Some (cs, u) => Some (Some (mkset (p_fold st) cs), st, u)
            | None => None
            end
          else if Ascii.eqb c "\" then
            match t with
            | d :: u =>
                if Ascii.eqb d "d" then Some (Some (RSet cset_digit), st, u)
                else if Ascii.eqb d "s" then Some (Some (RSet cset_space), st, u)
                else Some (Some (RSet [(code d, code d)]), st, u)
            | [] => None
            end
          else if Ascii.eqb c "^" then Some (Some RBegin, st, t)
          else if Ascii.eqb c "$" then Some (Some REnd, st, t)
          else Some (Some (mkset (p_fold st) [(code c, code c)]), st, t)
      end
  end.

(** regexp.MustCompile: the expression and its number of capture groups.  A
    pattern outside the supported syntax would give [None]; [Patterns.v] checks
    that every pattern compiles. *)
Record regexp := mkre { re_body : re; re_ncap : nat }.
Definition compile_opt (p : str) : option regexp :=
  match parse_alt (S (4 * length p)) (mkpst false 0) p with
  | Some (a, st, []) => Some (mkre a (p_cap st))
  | _ => None
  end.
Definition never : regexp := mkre (RSet []) 0.
Definition must_compile (p : str) : regexp :=
  match compile_opt p with Some r => r | None => never end.

(** ** Matcher *)

(** Matcher state: whether the position is the beginning of the text, the
    remaining text, and the captures set so far (newest first). *)
Record mst := mkm { m_bot : bool; m_rest : str; m_caps : list (nat * str) }.

Definition taken (from to : str) : str := firstn (length from - length to) from.

(** All ways to match [r] from a state, in order of preference. *)
Fixpoint mt (r : re) (st : mst) {struct r} : list mst :=
  match r with
  | REps => [st]
  | RSet cs =>
      match m_rest st with
      | c :: t => if in_set cs c then [mkm false t (m_caps st)] else []
      | [] => []
      end
  | RSeq a b => flat_map (mt b) (mt a st)
  | RAlt a b => mt a st ++ mt b st
  | ROpt a => mt a st ++ [st]
  | RStar a =>
      (fix star (n : nat) (st : mst) {struct n} : list mst :=
         match n with
         | O => [st]
         | S k => flat_map (fun st' => if Nat.ltb (length (m_rest st')) (length (m_rest st))
                                       then star k st' else []) (mt a st) ++ [st]
         end) (length (m_rest st)) st
  | RCap i a =>
      map (fun st' => mkm (m_bot st') (m_rest st')
                          ((i, taken (m_rest st) (m_rest st')) :: m_caps st')) (mt a st)
  | RBegin => if m_bot st then [st] else []
  | REnd => match m_rest st with [] => [st] | _ => [] end
  end.

(** Leftmost match: try every start position from left to right. *)
Fixpoint find_from (r : re) (bot : bool) (s : str) : option (str * list (nat * str)) :=
  match mt r (mkm bot s []) with
  | st :: _ => Some (taken s (m_rest st), m_caps st)
  | [] => match s with
          | [] => None
          | _ :: t => find_from r false t
          end
  end.

Fixpoint cap_get (i : nat) (l : list (nat * str)) : str :=
  match l with
  | [] => []
  | (j, s) :: l' => if Nat.eqb i j then s else cap_get i l'
  end.

(** Regexp.MatchString *)
Definition match_string (r : regexp) (s : str) : bool :=
  match find_from (re_body r) true s with Some _ => true | None => false end.

(** Regexp.FindStringSubmatch: [[]] (nil, length 0) without a match, otherwise
    the whole match and one string per group ("" for groups not taken). *)
Definition find_submatch (r : regexp) (s : str) : list str :=
  match find_from (re_body r) true s with
  | Some (m0, caps) => m0 :: map (fun i => cap_get i caps) (seq 1 (re_ncap r))
  | None => []
  end.

(** m[i]: the callers check the length first. *)
Definition sub (m : list str) (i : nat) : str := nth i m [].
