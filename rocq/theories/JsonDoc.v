(** encoding/json's reader again, this time keeping the text of every string, which
    is what decode.go hands on (Go: encoding/json/scanner.go and decode.go, as used by
    any caller of json.Unmarshal, for instance edtf_test.go:9-65). *)
From Coq Require Import Ascii String ZArith NArith Bool List.
From Verif Require Import GoStr GoTime Edtf Json JsonText.
Import ListNotations.
Open Scope Z_scope.

(** A JSON value; strings and member names as they stand between their quotes. *)
Inductive doc :=
| DNull
| DBool (b : bool)
| DNum (text : str)
| DStr (raw : str)
| DArr (items : list doc)
| DObj (members : list (str * doc)).

(** The text of a string up to its closing quote, and what follows the quote. *)
Definition raw_string (t : str) : option (str * str) :=
  match read_string t with
  | Some (_, r) => Some (firstn (length t - S (length r)) t, r)
  | None => None
  end.

(** Values (scanner.go and decode.go: value, object, array), members of an object (after "{" or ","), items of an array.  [fuel]
    bounds the recursion; it decreases by at most two with every byte consumed, so
    twice the length of the text is enough. *)
Fixpoint read_dvalue (fuel : nat) (s : str) {struct fuel} : option (doc * str) :=
  match fuel with
  | O => None
  | S k =>
      match skip_space s with
      | [] => None
      | c :: t =>
          if code c =? 123 then
            match starts_with 125 (skip_space t) with
            | Some (_, r) => Some (DObj [], r)
            | None => match read_dmembers k t with Some (l, r) => Some (DObj l, r) | None => None end
            end
          else if code c =? 91 then
            match starts_with 93 (skip_space t) with
            | Some (_, r) => Some (DArr [], r)
            | None => match read_ditems k t with Some (l, r) => Some (DArr l, r) | None => None end
            end
          else if code c =? 34 then
            match raw_string t with Some (b, r) => Some (DStr b, r) | None => None end
          else if code c =? 110 then
            match strip ($"ull") t with Some r => Some (DNull, r) | None => None end
          else if code c =? 116 then
            match strip ($"rue") t with Some r => Some (DBool true, r) | None => None end
          else if code c =? 102 then
            match strip ($"alse") t with Some r => Some (DBool false, r) | None => None end
          else match read_number (c :: t) with Some (n, r) => Some (DNum n, r) | None => None end
      end
  end
with read_dmembers (fuel : nat) (s : str) {struct fuel} : option (list (str * doc) * str) :=
  match fuel with
  | O => None
  | S k =>
      match starts_with 34 (skip_space s) with
      | None => None
      | Some (_, t) =>
          match raw_string t with
          | None => None
          | Some (key, u) =>
              match starts_with 58 (skip_space u) with
              | None => None
              | Some (_, v) =>
                  match read_dvalue k v with
                  | None => None
                  | Some (x, w) =>
                      match skip_space w with
                      | c :: r =>
                          if code c =? 125 then Some ([(key, x)], r)
                          else if code c =? 44 then
                            match read_dmembers k r with Some (l, r') => Some ((key, x) :: l, r') | None => None end
                          else None
                      | [] => None
                      end
                  end
              end
          end
      end
  end
with read_ditems (fuel : nat) (s : str) {struct fuel} : option (list doc * str) :=
  match fuel with
  | O => None
  | S k =>
      match read_dvalue k s with
      | None => None
      | Some (x, w) =>
          match skip_space w with
          | c :: r =>
              if code c =? 93 then Some ([x], r)
              else if code c =? 44 then
                match read_ditems k r with Some (l, r') => Some (x :: l, r') | None => None end
              else None
          | [] => None
          end
      end
  end.

(** scanner.go: pushParseState counts the arrays and objects that are open *)
Fixpoint depth (d : doc) : Z :=
  match d with
  | DArr l => 1 + fold_right Z.max 0 (map depth l)
  | DObj l => 1 + fold_right Z.max 0 (map (fun m => depth (snd m)) l)
  | _ => 0
  end.
(** scanner.go: maxNestingDepth *)
Definition max_depth : Z := 10000.
(** decode.go: checkValid, and the value it has checked *)
Definition read_doc (s : str) : option doc :=
  match read_dvalue (S (length s + length s)) s with
  | Some (v, r) => match skip_space r with
                   | [] => if depth v <=? max_depth then Some v else None
                   | _ => None
                   end
  | None => None
  end.

(** unicode/utf8/utf8.go: DecodeRune, the sequences it accepts ([first] and
    [acceptRanges]) *)
Definition between (a b : Z) (c : ascii) : bool := (a <=? code c) && (code c <=? b).
Definition two_bytes (a b : ascii) : bool := between 194 223 a && between 128 191 b.
Definition three_bytes (a b c : ascii) : bool :=
  ((between 224 224 a && between 160 191 b) || (between 225 236 a && between 128 191 b) ||
   (between 237 237 a && between 128 159 b) || (between 238 239 a && between 128 191 b)) && between 128 191 c.
Definition four_bytes (a b c d : ascii) : bool :=
  ((between 240 240 a && between 144 191 b) || (between 241 243 a && between 128 191 b) ||
   (between 244 244 a && between 128 143 b)) && between 128 191 c && between 128 191 d.
(** decode.go: unquoteBytes copies what DecodeRune accepts and writes U+FFFD for any
    other byte.  (It does so while it resolves the escapes; as every escape yields a
    whole sequence, doing it afterwards gives the same bytes.) *)
Fixpoint utf8_fix (s : str) : str :=
  match s with
  | [] => []
  | a :: t =>
      if code a <? 128 then a :: utf8_fix t
      else match t with
           | [] => replacement ++ utf8_fix t
           | b :: t2 =>
               if two_bytes a b then a :: b :: utf8_fix t2
               else match t2 with
                    | [] => replacement ++ utf8_fix t
                    | c :: t3 =>
                        if three_bytes a b c then a :: b :: c :: utf8_fix t3
                        else match t3 with
                             | [] => replacement ++ utf8_fix t
                             | d :: t4 => if four_bytes a b c d then a :: b :: c :: d :: utf8_fix t4
                                          else replacement ++ utf8_fix t
                             end
                    end
           end
  end.
(** decode.go: unquote; the text is one string up to its end *)
Definition unquote (raw : str) : option str :=
  match read_string (raw ++ $"""") with Some (b, []) => Some (utf8_fix b) | _ => None end.
