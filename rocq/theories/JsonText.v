(** encoding/json's reader: JSON text to tree (Go: encoding/json/scanner.go and
    decode.go, as used by any caller of json.Unmarshal on the library's output).

    Bytes >= 128 inside strings are copied; Go also copies them when they are valid
    UTF-8 (and replaces them by U+FFFD otherwise).  Go's limit of 10000 on the
    nesting depth is not modelled. *)
From Coq Require Import Ascii String ZArith NArith Bool List.
From Verif Require Import GoStr GoTime Edtf Json.
Import ListNotations.
Open Scope Z_scope.

(** scanner.go: isSpace *)
Definition is_space (c : ascii) : bool :=
  (code c =? 32) || (code c =? 9) || (code c =? 13) || (code c =? 10).
Fixpoint skip_space (s : str) : str :=
  match s with
  | c :: t => if is_space c then skip_space t else s
  | [] => []
  end.

(** decode.go: getu4 *)
Definition hex_val (c : ascii) : option Z :=
  let n := code c in
  if (48 <=? n) && (n <=? 57) then Some (n - 48)
  else if (97 <=? n) && (n <=? 102) then Some (n - 87)
  else if (65 <=? n) && (n <=? 70) then Some (n - 55)
  else None.
Definition hex4 (a b c d : ascii) : option Z :=
  match hex_val a, hex_val b, hex_val c, hex_val d with
  | Some a, Some b, Some c, Some d => Some (a * 4096 + b * 256 + c * 16 + d)
  | _, _, _, _ => None
  end.
(** utf8.EncodeRune *)
Definition encode_rune (r : Z) : str :=
  if r <? 128 then [chr r]
  else if r <? 2048 then [chr (192 + r / 64); chr (128 + r mod 64)]
  else if r <? 65536 then [chr (224 + r / 4096); chr (128 + r / 64 mod 64); chr (128 + r mod 64)]
  else [chr (240 + r / 262144); chr (128 + r / 4096 mod 64); chr (128 + r / 64 mod 64); chr (128 + r mod 64)].
Definition replacement : str := encode_rune 65533.
Definition is_surrogate (r : Z) : bool := (55296 <=? r) && (r <? 57344).
(** utf16.DecodeRune for a high and a low surrogate *)
Definition join_surrogates (r1 r2 : Z) : option Z :=
  if (55296 <=? r1) && (r1 <? 56320) && (56320 <=? r2) && (r2 <? 57344)
  then Some ((r1 - 55296) * 1024 + (r2 - 56320) + 65536) else None.

Definition cons_res (a : str) (x : option (str * str)) : option (str * str) :=
  match x with Some (b, r) => Some (a ++ b, r) | None => None end.
(** One-letter escapes: decode.go, unquoteBytes *)
Definition simple_escape (e : ascii) : option ascii :=
  let n := code e in
  if n =? 34 then Some e else if n =? 92 then Some e else if n =? 47 then Some e
  else if n =? 98 then Some (chr 8) else if n =? 102 then Some (chr 12)
  else if n =? 110 then Some (chr 10) else if n =? 114 then Some (chr 13)
  else if n =? 116 then Some (chr 9) else None.

(** The body of a string after its opening quote: the decoded bytes and the text
    after the closing quote. *)
Fixpoint read_string (s : str) : option (str * str) :=
  match s with
  | [] => None
  | c :: t =>
      if code c =? 34 then Some ([], t)
      else if code c =? 92 then
        match t with
        | [] => None
        | e :: u =>
            if code e =? 117 then
              match u with
              | a :: b :: c :: d :: v =>
                  match hex4 a b c d with
                  | None => None
                  | Some r =>
                      if is_surrogate r then
                        match v with
                        | x :: y :: a' :: b' :: c' :: d' :: w =>
                            if (code x =? 92) && (code y =? 117) then
                              match hex4 a' b' c' d' with
                              | Some r' =>
                                  match join_surrogates r r' with
                                  | Some rr => cons_res (encode_rune rr) (read_string w)
                                  | None => cons_res replacement (read_string v)
                                  end
                              | None => cons_res replacement (read_string v)
                              end
                            else cons_res replacement (read_string v)
                        | _ => cons_res replacement (read_string v)
                        end
                      else cons_res (encode_rune r) (read_string v)
                  end
              | _ => None
              end
            else match simple_escape e with
                 | Some x => cons_res [x] (read_string u)
                 | None => None
                 end
        end
      else if code c <? 32 then None
      else cons_res [c] (read_string t)
  end.

(** Numbers: scanner.go, stateNeg .. stateE0.  The digits of the number and the
    rest of the text. *)
Fixpoint take_digits (s : str) : str * str :=
  match s with
  | c :: t => if is_digit c then let '(a, r) := take_digits t in (c :: a, r) else ([], s)
  | [] => ([], [])
  end.
Definition starts_with (n : Z) (s : str) : option (ascii * str) :=
  match s with c :: t => if code c =? n then Some (c, t) else None | [] => None end.
Definition read_int (s : str) : option (str * str) :=
  match s with
  | c :: t => if code c =? 48 then Some ([c], t)
              else if is_digit c then Some (take_digits s) else None
  | [] => None
  end.
Definition read_frac (s : str) : option (str * str) :=
  match starts_with 46 s with
  | None => Some ([], s)
  | Some (c, t) => match take_digits t with ([], _) => None | (d, r) => Some (c :: d, r) end
  end.
Definition read_exp (s : str) : option (str * str) :=
  match s with
  | c :: t =>
      if (code c =? 101) || (code c =? 69) then
        let '(sg, u) := match t with
                        | d :: u => if (code d =? 43) || (code d =? 45) then ([d], u) else ([], t)
                        | [] => ([], t)
                        end in
        match take_digits u with ([], _) => None | (d, r) => Some (c :: sg ++ d, r) end
      else Some ([], s)
  | [] => Some ([], s)
  end.
Definition read_number (s : str) : option (str * str) :=
  let '(sg, t) := match starts_with 45 s with Some (c, t) => ([c], t) | None => ([], s) end in
  match read_int t with
  | None => None
  | Some (i, u) =>
      match read_frac u with
      | None => None
      | Some (f, v) => match read_exp v with
                       | None => None
                       | Some (e, r) => Some (sg ++ i ++ f ++ e, r)
                       end
      end
  end.
Fixpoint strip (p s : str) : option str :=
  match p, s with
  | [], _ => Some s
  | a :: p', b :: s' => if Ascii.eqb a b then strip p' s' else None
  | _ :: _, [] => None
  end.

(** Values, members of an object (after "{" or ","), items of an array.  [fuel]
    bounds the recursion; it decreases by at most two with every byte consumed, so
    twice the length of the text is enough. *)
Fixpoint read_value (fuel : nat) (s : str) {struct fuel} : option (json * str) :=
  match fuel with
  | O => None
  | S k =>
      match skip_space s with
      | [] => None
      | c :: t =>
          if code c =? 123 then
            match starts_with 125 (skip_space t) with
            | Some (_, r) => Some (JObj [], r)
            | None => match read_members k t with Some (l, r) => Some (JObj l, r) | None => None end
            end
          else if code c =? 91 then
            match starts_with 93 (skip_space t) with
            | Some (_, r) => Some (JArr [], r)
            | None => match read_items k t with Some (l, r) => Some (JArr l, r) | None => None end
            end
          else if code c =? 34 then
            match read_string t with Some (b, r) => Some (JStr b, r) | None => None end
          else if code c =? 110 then
            match strip ($"ull") t with Some r => Some (JNull, r) | None => None end
          else if code c =? 116 then
            match strip ($"rue") t with Some r => Some (JBool true, r) | None => None end
          else if code c =? 102 then
            match strip ($"alse") t with Some r => Some (JBool false, r) | None => None end
          else match read_number (c :: t) with Some (n, r) => Some (JNum n, r) | None => None end
      end
  end
with read_members (fuel : nat) (s : str) {struct fuel} : option (list (str * json) * str) :=
  match fuel with
  | O => None
  | S k =>
      match starts_with 34 (skip_space s) with
      | None => None
      | Some (_, t) =>
          match read_string t with
          | None => None
          | Some (key, u) =>
              match starts_with 58 (skip_space u) with
              | None => None
              | Some (_, v) =>
                  match read_value k v with
                  | None => None
                  | Some (x, w) =>
                      match skip_space w with
                      | c :: r =>
                          if code c =? 125 then Some ([(key, x)], r)
                          else if code c =? 44 then
                            match read_members k r with Some (l, r') => Some ((key, x) :: l, r') | None => None end
                          else None
                      | [] => None
                      end
                  end
              end
          end
      end
  end
with read_items (fuel : nat) (s : str) {struct fuel} : option (list json * str) :=
  match fuel with
  | O => None
  | S k =>
      match read_value k s with
      | None => None
      | Some (x, w) =>
          match skip_space w with
          | c :: r =>
              if code c =? 93 then Some ([x], r)
              else if code c =? 44 then
                match read_items k r with Some (l, r') => Some (x :: l, r') | None => None end
              else None
          | [] => None
          end
      end
  end.

(** json.Valid and the first half of json.Unmarshal: exactly one value *)
Definition read_json (s : str) : option json :=
  match read_value (S (length s + length s)) s with
  | Some (v, r) => match skip_space r with [] => Some v | _ => None end
  | None => None
  end.

(** json.Unmarshal(b, &EDTFDate{}) *)
Definition unmarshal_edtf (s : str) : res edtfdate :=
  match read_json s with
  | Some v => dec_edtf v
  | None => Err (EText ($"json: syntax error"))
  end.
(** json.Marshal of an EDTFDate *)
Definition marshal_edtf (d : edtfdate) : str := print (enc_edtf d).
