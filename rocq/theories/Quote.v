(** strconv.Quote for any text, as fmt does for %q (Go: strconv/quote.go, appendQuotedWith
    and appendEscapedRune; unicode/utf8/utf8.go, DecodeRune).  The table of the characters
    that can be printed (strconv.IsPrint) is a parameter. *)
From Coq Require Import Ascii String ZArith NArith Bool List.
From Verif Require Import GoStr JsonDoc.
Import ListNotations.
Open Scope Z_scope.

(* Go: strconv/quote.go, lowerhex *)
Definition low_digit (z : Z) : ascii := chr (if z <? 10 then 48 + z else 87 + z).
Fixpoint low_digits (k : nat) (z : Z) : str :=
  match k with O => [] | S j => low_digits j (z / 16) ++ [low_digit (z mod 16)] end.
(* Go: strconv/quote.go, appendEscapedRune; x are the bytes of the character z.  What
   DecodeRune gives is always valid. *)
Definition escaped_rune (print : Z -> bool) (z : Z) (x : str) : str :=
  if (z =? 34) || (z =? 92) then [chr 92; chr z]
  else if print z then x
  else if z =? 7 then $"\a"
  else if z =? 8 then $"\b"
  else if z =? 12 then $"\f"
  else if z =? 10 then $"\n"
  else if z =? 13 then $"\r"
  else if z =? 9 then $"\t"
  else if z =? 11 then $"\v"
  else if (z <? 32) || (z =? 127) then $"\x" ++ low_digits 2 z
  else if z <? 65536 then $"\u" ++ low_digits 4 z
  else $"\U" ++ low_digits 8 z.
(* Go: strconv/quote.go, appendQuotedWith: a byte that begins no character *)
Definition wrong_byte (a : ascii) : str := $"\x" ++ low_digits 2 (code a).
(* Go: strconv/quote.go, appendQuotedWith, the loop *)
Fixpoint quoted_loop (print : Z -> bool) (s : str) : str :=
  match s with
  | [] => []
  | a :: t =>
      if code a <? 128 then escaped_rune print (code a) [a] ++ quoted_loop print t
      else match t with
           | [] => wrong_byte a ++ quoted_loop print t
           | b :: t2 =>
               if two_bytes a b then escaped_rune print ((code a - 192) * 64 + (code b - 128)) [a; b] ++ quoted_loop print t2
               else match t2 with
                    | [] => wrong_byte a ++ quoted_loop print t
                    | c :: t3 =>
                        if three_bytes a b c then escaped_rune print (((code a - 224) * 64 + (code b - 128)) * 64 + (code c - 128)) [a; b; c] ++ quoted_loop print t3
                        else match t3 with
                             | [] => wrong_byte a ++ quoted_loop print t
                             | d :: t4 =>
                                 if four_bytes a b c d then
                                   escaped_rune print ((((code a - 240) * 64 + (code b - 128)) * 64 + (code c - 128)) * 64 + (code d - 128)) [a; b; c; d] ++ quoted_loop print t4
                                 else wrong_byte a ++ quoted_loop print t
                             end
                    end
           end
  end.
Definition go_quote (print : Z -> bool) (s : str) : str := [chr 34] ++ quoted_loop print s ++ [chr 34].
