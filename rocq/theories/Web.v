(** The web page of app/server/www: what it shows for the text in its field.  The page
    calls parse_edtf of cmd/parse-wasm (Cmd.v, wasm_parse) and shows the value that the
    promise is settled with.

    Texts are UTF-8 bytes, as Go gets them (syscall/js converts; halves of pairs, which a
    script could put into the field, are not modelled).  The loading of the program
    (javascript/index.js:1-13) is assumed to have succeeded: before, the button is
    disabled (index.html:24). *)
From Coq Require Import Ascii String ZArith NArith Bool List.
From Verif Require Import GoStr Edtf Parser Json JsonText Cmd.
Import ListNotations.
Open Scope Z_scope.

(* index.html:19, an <input type="text">: its value has no line breaks (HTML, 4.10.5.1.2,
   value sanitization); javascript/index.js:17-18 *)
Definition line_break (c : ascii) : bool := (code c =? 10) || (code c =? 13).
Definition field (typed : str) : str := filter (fun c => negb (line_break c)) typed.

(** JSON.stringify(value, '', 2) (ECMA-262, 25.5.2) of what JSON.parse returns
    (javascript/index.js:28, 37).  [None]: not modelled, see below. *)
(* QuoteJSONString *)
Definition js_esc (c : ascii) : str :=
  let n := code c in
  if n =? 8 then $"\b" else if n =? 9 then $"\t" else if n =? 10 then $"\n"
  else if n =? 12 then $"\f" else if n =? 13 then $"\r"
  else if n =? 34 then $"\""" else if n =? 92 then $"\\"
  else if n <? 32 then $"\u00" ++ [hex (n / 16); hex (n mod 16)]
  else [c].
Definition js_quote (s : str) : str := $"""" ++ flat_map js_esc s ++ $"""".
(* Numbers become doubles and are printed by Number::toString.  Only integers up to 2^53
   are modelled; these are exact. *)
Definition js_num (t : str) : option str :=
  match atoi t with
  | OK z => if (-9007199254740992 <=? z) && (z <=? 9007199254740992) then Some (itoa z) else None
  | _ => None
  end.
(* The members of an object keep their order if no two have the same name and no name is
   an array index; other objects are not modelled. *)
Definition starts_digit (k : str) : bool := match k with c :: _ => is_digit c | [] => false end.
Fixpoint plain_keys (l : list str) : bool :=
  match l with
  | [] => true
  | k :: l' => negb (starts_digit k) && negb (existsb (seqb k) l') && plain_keys l'
  end.
Fixpoint join_lines (sep : str) (l : list str) : str :=
  match l with
  | [] => []
  | [t] => t
  | t :: l' => t ++ sep ++ join_lines sep l'
  end.
(* SerializeJSONObject and SerializeJSONArray, steps 7 to 10 *)
Definition enclose (left right ind : str) (parts : list str) : str :=
  match parts with
  | [] => left ++ right
  | _ => left ++ newline ++ (ind ++ $"  ") ++ join_lines ($"," ++ newline ++ ind ++ $"  ") parts ++ newline ++ ind ++ right
  end.
Fixpoint stringify (ind : str) (v : json) : option str :=
  match v with
  | JNull => Some ($"null")
  | JBool true => Some ($"true")
  | JBool false => Some ($"false")
  | JNum t => js_num t
  | JStr s => Some (js_quote s)
  | JArr l =>
      match (fix items (l : list json) : option (list str) :=
               match l with
               | [] => Some []
               | v :: l' => match stringify (ind ++ $"  ") v, items l' with
                            | Some t, Some ts => Some (t :: ts)
                            | _, _ => None
                            end
               end) l with
      | Some parts => Some (enclose ($"[") ($"]") ind parts)
      | None => None
      end
  | JObj l =>
      if plain_keys (map fst l) then
        match (fix members (l : list (str * json)) : option (list str) :=
                 match l with
                 | [] => Some []
                 | (k, v) :: l' => match stringify (ind ++ $"  ") v, members l' with
                                   | Some t, Some ts => Some ((js_quote k ++ $": " ++ t) :: ts)
                                   | _, _ => None
                                   end
                 end) l with
        | Some parts => Some (enclose ($"{") ($"}") ind parts)
        | None => None
        end
      else None
  end.

(** What stands in the result element: nothing, the text of the <pre>, the message of a
    value that is not JSON, the message of a rejection; [Other] is not modelled. *)
Inductive shown := Nothing | Result (text : str) | Unreadable | Message (text : str) | Other.
(* javascript/index.js:25-46 *)
Definition settle (v : settled) : shown :=
  match v with
  | Resolved t => match read_json t with
                  | None => Unreadable
                  | Some v => match stringify [] v with Some p => Result p | None => Other end
                  end
  | Rejected n => Message ($"There was a problem parsing your EDTF string:" ++ itoa n)
  end.
(** One click.  [running]: the Go program has not exited.  A panic ends it: its promise
    is never settled, and later calls of parse_edtf throw "Go program has already exited"
    (sfomuseum.golang.wasm.bundle.js, _resume).  The element was emptied before
    (javascript/index.js:20-23). *)
Definition click (running : bool) (typed : str) : shown * bool :=
  if running then
    match wasm_parse (field typed) with
    | OK (_, v) => (settle v, true)
    | _ => (Nothing, false)
    end
  else (Nothing, false).
(** The clicks of a visit. *)
Fixpoint visit (running : bool) (l : list str) : list shown :=
  match l with
  | [] => []
  | t :: l' => let '(s, r) := click running t in s :: visit r l'
  end.
