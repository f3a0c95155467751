(** Specification: the texts of errors. *)
From Coq Require Import Ascii String ZArith NArith Bool List.
From Verif Require Import GoStr SpecCal SpecText SpecZone SpecGrammar SpecForms SpecReads SpecRefused SpecTools Cmd.
Import ListNotations.
Open Scope Z_scope.

Definition in_quotes (t : str) : str := [chr 34] ++ t ++ [chr 34].

(** ** Times of day *)
(** A zone of more than 24 hours or 60 minutes; the minutes are named first. *)
Inductive zone_error : str -> str -> Prop :=
| ze_hours c h : c = "+"%char \/ c = "-"%char -> 24 < h <= 99 -> zone_error (c :: two h) ($"time zone offset hour")
| ze_minutes c h m : c = "+"%char \/ c = "-"%char -> 0 <= h <= 99 -> 60 < m <= 99 ->
    zone_error (c :: two h ++ $":" ++ two m) ($"time zone offset minute")
| ze_both c h m : c = "+"%char \/ c = "-"%char -> 24 < h <= 99 -> 0 <= m <= 60 ->
    zone_error (c :: two h ++ $":" ++ two m) ($"time zone offset hour").
(** The first thing that is out of range, in the order of writing, but the day last. *)
Inductive range_error (y mo d h m sc : Z) (z : str) : str -> Prop :=
| re_hour : 24 <= h -> range_error y mo d h m sc z ($"hour")
| re_minute : h < 24 -> 60 <= m -> range_error y mo d h m sc z ($"minute")
| re_second : h < 24 -> m < 60 -> 60 <= sc -> range_error y mo d h m sc z ($"second")
| re_zone w : h < 24 -> m < 60 -> sc < 60 -> zone_error z w -> range_error y mo d h m sc z w
| re_day : h < 24 -> m < 60 -> sc < 60 -> (forall w, ~ zone_error z w) -> ~ real_date y mo d -> range_error y mo d h m sc z ($"day").
(** What follows the text that could not be read as a time with a layout: a date
    without a day stops at the T. *)
Inductive stamp_says (layout : str) : str -> str -> Prop :=
| st_short t y m r : level0_date t y m None ->
    stamp_says layout (t ++ $"T" ++ r) ($" as " ++ in_quotes layout ++ $": cannot parse " ++ in_quotes ($"T" ++ r) ++ $" as " ++ in_quotes ($"-"))
| st_range t y mo d h m sc z w : level0_date t y (Some mo) (Some d) -> 0 <= h <= 99 -> 0 <= m <= 99 -> 0 <= sc <= 99 ->
    range_error y mo d h m sc z w ->
    stamp_says layout (t ++ $"T" ++ two h ++ $":" ++ two m ++ $":" ++ two sc ++ z) ($": " ++ w ++ $" out of range").

(** ** All errors of a parse *)
Inductive err_says : err -> str -> Prop :=
| em_implemented l s : err_says (ENotImplemented l s) ($"Not implemented '" ++ s ++ $"' (" ++ l ++ $")")
| em_invalid l s : err_says (EInvalid l s) ($"Invalid EDTF string '" ++ s ++ $"' (" ++ l ++ $")")
| em_unsupported l s : err_says (EUnsupported l s) ($"Unsupported EDTF string '" ++ s ++ $"' (" ++ l ++ $")")
| em_unrecognized l s : err_says (EUnrecognized l s) ($"Unrecognized EDTF string '" ++ s ++ $"' (" ++ l ++ $")")
| em_plain m : err_says (EText m) m
| em_digit x : err_says (EInt x) ($"strconv.ParseInt: parsing " ++ in_quotes x ++ $": invalid syntax")
| em_number x : err_says (ENum x) ($"strconv.Atoi: parsing " ++ in_quotes x ++ $": invalid syntax")
| em_exponent (neg : bool) ds c es m e : dec_digits ds m -> c = "E"%char \/ c = "e"%char -> dec_digits es e -> 2 ^ 63 <= e ->
    err_says (EBig (sign neg ++ ds ++ c :: es)) ($"strconv.ParseInt: parsing " ++ in_quotes es ++ $": value out of range")
| em_size t m e : exp_text t m e -> e < 2 ^ 63 -> err_says (EBig t) ($"exponent overflow")
| em_next : err_says (ETime ($"2006-01-02") ($"10000-03-01"))
    ($"parsing time " ++ in_quotes ($"10000-03-01") ++ $" as " ++ in_quotes ($"2006-01-02") ++ $": cannot parse " ++
     in_quotes ($"0-03-01") ++ $" as " ++ in_quotes ($"-"))
| em_stamp layout s w : stamp_says layout s w -> err_says (ETime layout s) ($"parsing time " ++ in_quotes s ++ w)
| em_wrap m e t : err_says e t -> err_says (EWrap m e) (m ++ $", " ++ t).
(** The labels that errors of a parse carry. *)
Definition labels : list str :=
  [$"date"; $"date span"; $"Letter-prefixed calendar year"; $"exponential notation"; $"Significant digits"; $"Set representation"; $"Extended Interval";
   $"Invalid or unsupported Level 2 string"; $"Invalid or unsupported EDTF string"].
(** The errors of the library's own kinds. *)
Inductive library_error : err -> Prop :=
| li_set : library_error ENotSet
| li_implemented l s : library_error (ENotImplemented l s)
| li_invalid l s : library_error (EInvalid l s)
| li_unsupported l s : library_error (EUnsupported l s)
| li_unrecognized l s : library_error (EUnrecognized l s).

(** ** The matches tool *)
(** The error for a string without a feature.  Two dots and the empty string have none. *)
Inductive unmatched (s : str) : err -> Prop :=
| un_level1 : ~ level0_form s -> level1_text s -> no_feature s level1_features -> unmatched s (EInvalid ($"Invalid Level 1 string") s)
| un_level2 : ~ level0_form s -> ~ level1_text s -> level2_text s -> no_feature s level2_features ->
    unmatched s (EInvalid ($"Invalid or unsupported Level 2 string") s)
| un_none : ~ level0_form s -> ~ level1_text s -> ~ level2_text s -> unmatched s (EUnrecognized ($"Invalid or unsupported EDTF string") s).
(** A line for each string, up to the first that has no feature. *)
Inductive match_run : list str -> str -> exit -> Prop :=
| mr_done : match_run [] [] Done
| mr_line a lv f rest out x : takes a lv f -> match_run rest out x -> match_run (a :: rest) (match_line a lv f ++ out) x
| mr_stop a e w rest : unmatched a e -> err_says e w -> match_run (a :: rest) [] (Fatal ($"Failed to parse EDTF string '" ++ a ++ $"', " ++ w)).
