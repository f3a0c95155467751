(** Specification: what the helper functions answer when they are called directly. *)
From Coq Require Import Ascii String ZArith NArith Bool List.
From Verif Require Import GoStr SpecCal SpecText SpecZone SpecGrammar SpecForms SpecSpan SpecPeriod SpecReads SpecWhole SpecRefused Edtf Common CalFacts.
Import ListNotations.
Open Scope Z_scope.

(** ** Numbers *)
(** A text that strconv.Atoi takes. *)
Definition whole_number (t : str) (z : Z) : Prop := integer_text t z /\ min_int64 <= z <= max_int64.
Definition no_number (t : str) : Prop := forall z, ~ whole_number t z.
Definition number_or_nothing (t : str) (z : Z) : Prop := t = [] /\ z = 0 \/ whole_number t z.
(** The smallest int has no positive counterpart. *)
Definition magnitude (y : Z) : Z := if y =? - 2 ^ 63 then y else Z.abs y.
(** The sign and the digits of a number, with zeros between them up to [n] characters. *)
Inductive padded (n : nat) (z : Z) : str -> Prop :=
| pd_fits t : canonical_text t z -> (n <= length t)%nat -> padded n z t
| pd_plain k t : canonical_text t z -> 0 <= z -> (k + length t = n)%nat -> padded n z (repeat "0"%char k ++ t)
| pd_minus k t : canonical_text ("-"%char :: t) z -> (S (k + length t) = n)%nat -> padded n z ("-"%char :: repeat "0"%char k ++ t).

(** ** Months *)
Definition next_month (m : Z) : Z := if 12 <=? m then 1 else m + 1.
Inductive days_refused (y m : Z) : err -> Prop :=
| dy_intro a b : ~ (-9999 <= y <= 9999 /\ 0 <= m) -> padded 4 (magnitude y) a -> padded 2 (next_month m) b ->
    days_refused y m (ETime ($"2006-01-02") (a ++ $"-" ++ b ++ $"-01")).
Inductive days_text_refused (s : str) : err -> Prop :=
| dyt_form : (forall a b, ~ year_and_month s a b) -> days_text_refused s (EText ($"Invalid YYYYMM string"))
| dyt_year a b : year_and_month s a b -> no_number a -> days_text_refused s (ENum a)
| dyt_month a b y : year_and_month s a b -> whole_number a y -> no_number b -> days_text_refused s (ENum b)
| dyt_days a b y m x : year_and_month s a b -> whole_number a y -> whole_number b m -> days_refused y m x -> days_text_refused s x.

(** ** Days *)
(** Year, month and day as numbers.  A day needs a month. *)
Inductive numbers (a b c : str) (y m d : Z) : Prop :=
| nm_intro : whole_number a y -> number_or_nothing b m -> number_or_nothing c d -> (b = [] -> c = []) -> numbers a b c y m d.
Definition month_or_first (m : Z) : Z := if m =? 0 then 1 else m.
Definition day_or_last (y m d : Z) : Z := if d =? 0 then month_len y m else d.
(** Without a month it is January, without a day the last one.  A negative day is
    returned as it is. *)
Inductive ymd_gives (a b c : str) : ymd -> Prop :=
| yg_intro y m d : numbers a b c y m d -> -9999 <= y <= 9999 -> 0 <= m <= 12 -> (m = 0 -> d = 0) -> d <= month_len y (month_or_first m) ->
    ymd_gives a b c (mkYMD y (month_or_first m) (day_or_last y (month_or_first m) d)).
Inductive ymd_refused (a b c : str) : err -> Prop :=
| yx_nothing : a = [] -> ymd_refused a b c (EText ($"Missing year"))
| yx_day : a <> [] -> b = [] -> c <> [] -> ymd_refused a b c (EText ($"Missing month"))
| yx_year : a <> [] -> (b = [] -> c = []) -> no_number a -> ymd_refused a b c (ENum a)
| yx_month y : (b = [] -> c = []) -> whole_number a y -> b <> [] -> no_number b -> ymd_refused a b c (ENum b)
| yx_day_text y m : (b = [] -> c = []) -> whole_number a y -> number_or_nothing b m -> c <> [] -> no_number c -> ymd_refused a b c (ENum c)
| yx_far y m d w : numbers a b c y m d -> 9999 < magnitude y -> canonical_text w (magnitude y) -> ymd_refused a b c (EUnsupported ($"year") w)
| yx_zero y m d : numbers a b c y m d -> magnitude y <= 9999 -> m = 0 -> d <> 0 -> ymd_refused a b c (EText ($"Missing month"))
| yx_late y m d : numbers a b c y m d -> magnitude y <= 9999 -> 12 < m -> ymd_refused a b c (EText ($"Invalid month"))
| yx_days y m d x : numbers a b c y m d -> magnitude y <= 9999 -> m <= 12 -> (m = 0 -> d = 0) -> days_refused y (month_or_first m) x -> ymd_refused a b c x
| yx_long y m d : numbers a b c y m d -> -9999 <= y <= 9999 -> 0 <= m <= 12 -> (m = 0 -> d = 0) -> month_len y (month_or_first m) < d ->
    ymd_refused a b c (EText ($"Invalid days for month")).
(** The pieces of a text with at most three dashes.  With three the first piece is
    dropped and the year is negative. *)
Definition dash_free (t : str) : Prop := ~ In "-"%char t.
Inductive three_pieces : str -> str -> str -> str -> Prop :=
| tp_1 a : dash_free a -> three_pieces a a [] []
| tp_2 a b : dash_free a -> dash_free b -> three_pieces (a ++ $"-" ++ b) a b []
| tp_3 a b c : dash_free a -> dash_free b -> dash_free c -> three_pieces (a ++ $"-" ++ b ++ $"-" ++ c) a b c
| tp_4 x a b c : dash_free x -> dash_free a -> dash_free b -> dash_free c -> three_pieces (x ++ $"-" ++ a ++ $"-" ++ b ++ $"-" ++ c) ("-"%char :: a) b c.
Inductive ymd_text_refused (s : str) : err -> Prop :=
| yt_form : (forall a b c, ~ three_pieces s a b c) -> ymd_text_refused s (EText ($"Invalid YMD string"))
| yt_pieces a b c x : three_pieces s a b c -> ymd_refused a b c x -> ymd_text_refused s x.

(** ** Times *)
(** The hour may have one digit, and a fraction of a second is dropped. *)
Inductive hour_text : Z -> str -> Prop :=
| ht_one h : 0 <= h <= 9 -> hour_text h [digit_char h]
| ht_two h : hour_text h (two h).
Inductive fraction_text : str -> Prop :=
| fr_none : fraction_text []
| fr_some c ds : c = "."%char \/ c = ","%char -> digits_text ds -> fraction_text (c :: ds).
Inductive clock_reads : str -> Z -> Z -> Z -> Prop :=
| ck_intro h mi ss ht fr : clock h mi ss -> hour_text h ht -> fraction_text fr -> clock_reads (ht ++ $":" ++ two mi ++ $":" ++ two ss ++ fr) h mi ss.
Inductive time_gives (v : ymd) (hms : str) : Z -> Prop :=
| tg_intro h mi ss : -9999 <= y_year v <= 9999 -> real_date (y_year v) (y_month v) (y_day v) -> clock_reads hms h mi ss ->
    time_gives v hms (instant (y_year v) (y_month v) (y_day v) h mi ss).
Inductive time_refused (v : ymd) (hms : str) : err -> Prop :=
| tr_intro a b c : (forall t, ~ time_gives v hms t) -> padded 4 (magnitude (y_year v)) a -> padded 2 (y_month v) b -> padded 2 (y_day v) c ->
    time_refused v hms (ETime ($"2006-01-02T15:04:05") (a ++ $"-" ++ b ++ $"-" ++ c ++ $"T" ++ hms)).
Inductive times_gives (a b c hms : str) : Z -> Prop :=
| tsg_intro v t : ymd_gives a b c v -> time_gives v hms t -> times_gives a b c hms t.
Inductive times_refused (a b c hms : str) : err -> Prop :=
| tsr_date x : ymd_refused a b c x -> times_refused a b c hms x
| tsr_time v x : ymd_gives a b c v -> time_refused v hms x -> times_refused a b c hms x.

(** ** Ranges of strings *)
(** The components of a date text, and where their marks are. *)
Inductive marked_parts : str -> str -> option str -> option str -> mark_at -> mark_at -> mark_at -> Prop :=
| mp_y yt y yw : marks y yt yw -> year_part y -> marked_parts yt y None None yw NoMark NoMark
| mp_ym yt y yw mt m mw : marks y yt yw -> year_part y -> marks m mt mw -> month_part m -> marked_parts (yt ++ $"-" ++ mt) y (Some m) None yw mw NoMark
| mp_ymd yt y yw mt m mw dt d dw : marks y yt yw -> year_part y -> marks m mt mw -> month_part m -> marks d dt dw -> day_part d ->
    marked_parts (yt ++ $"-" ++ mt ++ $"-" ++ dt) y (Some m) (Some d) yw mw dw.
(** The first and the last year.  Masks are written without leading zeros; an X that
    is not the last character is left as it is, here and in months and days. *)
Inductive year_texts : str -> str -> str -> Prop :=
| yw_plain y : ~ ends_in_x y -> year_texts y y y
| yw_mask a b c lo hi : is_digit a = true -> d_or_x b -> d_or_x c ->
    canonical_text lo (digit_val a * 1000 + low_digit b * 100 + low_digit c * 10) ->
    canonical_text hi (digit_val a * 1000 + high_digit b * 100 + high_digit c * 10 + 9) -> year_texts [a; b; c; "X"%char] lo hi.
Inductive month_texts : option str -> str -> str -> Prop :=
| mw_none : month_texts None ($"01") ($"12")
| mw_plain m : ~ ends_in_x m -> month_texts (Some m) m m
| mw_any : month_texts (Some ($"XX")) ($"01") ($"12")
| mw_mask a : a = "0"%char \/ a = "1"%char -> month_texts (Some [a; "X"%char]) ($"10") ($"12").
(** The last day may have to be looked up. *)
Inductive day_texts : option str -> str -> option str -> Prop :=
| yd_none : day_texts None ($"01") None
| yd_plain d : ~ ends_in_x d -> day_texts (Some d) d (Some d)
| yd_any : day_texts (Some ($"XX")) ($"01") None
| yd_1x : day_texts (Some ($"1X")) ($"10") (Some ($"19"))
| yd_2x : day_texts (Some ($"2X")) ($"20") (Some ($"29"))
| yd_3x : day_texts (Some ($"3X")) ($"30") None.
Inductive last_day_text (ye me : str) : option str -> str -> Prop :=
| ld_given t : last_day_text ye me (Some t) t
| ld_found y m t : whole_number ye y -> whole_number me m -> canonical_text t (month_len y m) -> last_day_text ye me None t.
Definition range_precision (y : str) (m d : option str) : N :=
  match m, d with
  | None, _ => year_precision y
  | Some m, None => with_month m (year_precision y)
  | Some m, Some d => with_day m d (with_month m (year_precision y))
  end.
Inductive range_gives (s : str) : stringrange -> Prop :=
| rg_intro y m d yw mw dw ys ye ms me ds dl de : marked_parts s y m d yw mw dw ->
    year_texts y ys ye -> month_texts m ms me -> day_texts d ds dl -> last_day_text ye me dl de ->
    range_gives s (mkSR (mkSD ys ms ds) (mkSD ye me de) (range_precision y m d) (concerned marks_uncertain yw mw dw) (concerned marks_approximate yw mw dw)).
(** Numbers are read only if the last day has to be looked up. *)
Inductive range_refused (s : str) : err -> Prop :=
| rr_form : (forall y m d, ~ date_parts s y m d) -> range_refused s (EInvalid ($"date") s)
| rr_leading r m d : date_parts s ("X"%char :: r) m d -> ends_in_x r -> range_refused s (ENotImplemented ($"date") s)
| rr_minus r m d : date_parts s ("-"%char :: r) m d -> ends_in_x r -> range_refused s (EInt ($"-"))
| rr_day_0x y m : date_parts s y m (Some ($"0X")) -> (ends_in_x y -> exists c r, y = c :: r /\ is_digit c = true) -> range_refused s (EInvalid ($"date") s)
| rr_year y m d ds : date_parts s y m d -> day_texts d ds None -> In "X"%char y -> ~ ends_in_x y -> range_refused s (ENum y)
| rr_month y l h c d ds : date_parts s y (Some ["X"%char; c]) d -> day_texts d ds None -> year_reads y l h -> is_digit c = true ->
    range_refused s (ENum ["X"%char; c]).
