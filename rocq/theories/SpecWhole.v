(** Specification: the whole result of a parse, every field of every bound. *)
From Coq Require Import Ascii String ZArith NArith Bool List.
From Verif Require Import GoStr SpecCal SpecText SpecZone SpecGrammar SpecForms SpecSpan SpecSet SpecWrap SpecReads Edtf CalFacts.
Import ListNotations.
Open Scope Z_scope.

(** ** Marks *)
Inductive mark_at := NoMark | Front (q : ascii) | Back (q : ascii).
Inductive marks (c : str) : str -> mark_at -> Prop :=
| ms_none : marks c c NoMark
| ms_front q : a_mark q -> marks c (q :: c) (Front q)
| ms_back q : a_mark q -> marks c (c ++ [q]) (Back q).
Definition front (P : ascii -> bool) (w : mark_at) : bool := match w with Front q => P q | _ => false end.
Definition back (P : ascii -> bool) (w : mark_at) : bool := match w with Back q => P q | _ => false end.
(** A mark in front concerns its own component, a mark behind also those to the left.
    The components are the bits 64 (year), 32 (month) and 8 (day). *)
Definition concerned (P : ascii -> bool) (yw mw dw : mark_at) : N :=
  ((if front P yw || back P yw || back P mw || back P dw then 64 else 0) +
   (if front P mw || back P mw || back P dw then 32 else 0) +
   (if front P dw || back P dw then 8 else 0))%N.
Definition is_x (c : ascii) : bool := Ascii.eqb c "X".
(** The precision: 64 a year, 128 a decade, 256 a century, 512 a millennium, 32 a
    month.  It follows the year and the masks only; a month or a day given by a number
    does not change it. *)
Definition year_precision (t : str) : N :=
  match t with
  | [a; b; c; x] => (if is_x x then if is_x c then if is_x b then 512 else 256 else 128 else 64)%N
  | _ => 64%N
  end.
Definition with_month (mc : str) (p : N) : N :=
  match mc with [a; b] => if is_x b && negb (is_x a) then 32%N else p | _ => p end.
Definition with_day (mc dc : str) (p : N) : N :=
  match dc with
  | [a; b] => if is_x a && is_x b then match mc with [a'; b'] => if is_x a' && is_x b' then 64%N else 32%N | _ => 32%N end else p
  | _ => p
  end.

(** ** Dates *)
(** The first and the last day of a date text, its uncertain and approximate
    components, and its precision. *)
Inductive date_whole : str -> Z -> Z -> Z -> Z -> Z -> Z -> N -> N -> N -> Prop :=
| dw_y yt yc yw y y' : marks yc yt yw -> year_reads yc y y' ->
    date_whole yt y 1 1 y' 12 31 (concerned marks_uncertain yw NoMark NoMark) (concerned marks_approximate yw NoMark NoMark) (year_precision yc)
| dw_ym yt yc yw y y' mt mc mw m m' : marks yc yt yw -> year_reads yc y y' -> marks mc mt mw -> month_reads mc m m' ->
    date_whole (yt ++ $"-" ++ mt) y m 1 y' m' (month_len y' m')
      (concerned marks_uncertain yw mw NoMark) (concerned marks_approximate yw mw NoMark) (with_month mc (year_precision yc))
| dw_ymd yt yc yw y y' mt mc mw m m' dt dc dw d d' : marks yc yt yw -> year_reads yc y y' -> marks mc mt mw -> month_reads mc m m' ->
    marks dc dt dw -> day_reads (month_len y m) (month_len y' m') dc d d' ->
    date_whole (yt ++ $"-" ++ mt ++ $"-" ++ dt) y m d y' m' d'
      (concerned marks_uncertain yw mw dw) (concerned marks_approximate yw mw dw) (with_day mc dc (with_month mc (year_precision yc))).
(** A bound on a day, at some time of day. *)
Definition moment (y m d hh mi ss : Z) (u a p : N) : date :=
  mkDate (utc_text y m d hh mi ss) (Some (instant y m d hh mi ss)) (Some (mkYMD y m d)) u a 0 p false false 0.
Definition dawn (y m d : Z) := moment y m d 0 0 0.
Definition dusk (y m d : Z) := moment y m d 23 59 59.
Definition dots_bound : date := mkDate [] None None 0 0 0 0 true false 0.
Definition blank_bound : date := mkDate [] None None 0 0 0 0 false true 0.
(** A date alone.  For a single day both bounds of the start are its first second and
    both bounds of the end its last; otherwise the start is the first day and the end
    the last day. *)
Inductive date_span (s : str) : datespan -> Prop :=
| ds_one y m d u a p : date_whole s y m d y m d u a p -> real_date y m d ->
    date_span s (mkSpan (mkRange s (dawn y m d u a p) (dawn y m d u a p)) (mkRange s (dusk y m d u a p) (dusk y m d u a p)))
| ds_more y m d y' m' d' u a p : date_whole s y m d y' m' d' u a p -> real_date y m d -> real_date y' m' d' -> (y, m, d) <> (y', m', d') ->
    date_span s (mkSpan (mkRange s (dawn y m d u a p) (dusk y m d u a p)) (mkRange s (dawn y' m' d' u a p) (dusk y' m' d' u a p))).
(** One side of a slash. *)
Inductive side : str -> date -> date -> Prop :=
| sd_blank : side [] blank_bound blank_bound
| sd_dots : side ($"..") dots_bound dots_bound
| sd_date s y m d y' m' d' u a p : date_whole s y m d y' m' d' u a p -> real_date y m d -> real_date y' m' d' ->
    side s (dawn y m d u a p) (dusk y' m' d' u a p).
Inductive whole_span : str -> datespan -> Prop :=
| ws_date s sp : date_span s sp -> whole_span s sp
| ws_pair a b lo x x' hi : side a lo x -> side b x' hi -> whole_span (a ++ $"/" ++ b) (mkSpan (mkRange a lo x) (mkRange b x' hi)).

(** ** The other features *)
Inductive stamp_bound (t : Z) : date -> Prop :=
| sb_intro y m d hh mi ss : -10000 <= y <= 10000 -> real_date y m d -> clock hh mi ss -> t = instant y m d hh mi ss ->
    stamp_bound t (mkDate (wide_utc_text y m d hh mi ss) (Some t) None 0 0 0 0 false false 0).
(** The years, as they are written, between which the digits are taken. *)
Inductive significant_texts : Z -> Z -> str -> str -> Prop :=
| st_pos y v : 1000 <= y <= 9999 -> 0 <= v <= 4 -> significant_texts y v (four (y / 10 ^ v * 10 ^ v)) (four (y / 10 ^ v * 10 ^ v + 10 ^ v - 1))
| st_neg y v : 1000 <= y <= 9999 -> 0 <= v <= 4 ->
    significant_texts (- y) v ("-"%char :: four (y / 10 ^ v * 10 ^ v + 10 ^ v - 1)) ("-"%char :: four (y / 10 ^ v * 10 ^ v))
| st_short y : 100 <= y <= 999 -> significant_texts (- y) 4 ($"0000") ($"9999").
(** The bounds of a range counted as members of a set: 4 for one of them ([), 2 for
    all of them ({). *)
Inductive counts : ascii -> N -> Prop :=
| ct_one : counts "["%char 4
| ct_all : counts "{"%char 2.
Definition counted_bound (i : N) (b : date) : date :=
  mkDate (d_datetime b) (d_timestamp b) (d_ymd b) (d_uncertain b) (d_approximate b) (d_unspecified b) (d_precision b) (d_open b) (d_unknown b) i.
Definition counted (i : N) (r : daterange) : daterange := mkRange (r_edtf r) (counted_bound i (r_lower r)) (counted_bound i (r_upper r)).
(** The span of a set with least member [a] and greatest member [b], of [n] members,
    open at the start ([so]) or at the end ([eo]).  With an open side and more than one
    member, the other side runs from the least to the greatest; open at both sides,
    both sides end with the greatest member. *)
Inductive set_whole (i : N) (a b : str) : bool -> bool -> bool -> datespan -> Prop :=
| sw_same multi sp : a = b -> date_span a sp -> set_whole i a b multi false false (mkSpan (counted i (s_start sp)) (counted i (s_end sp)))
| sw_closed multi lo x x' hi : a <> b -> side a lo x -> side b x' hi ->
    set_whole i a b multi false false (mkSpan (counted i (mkRange a lo x)) (counted i (mkRange b x' hi)))
| sw_upto lo hi : side a lo hi -> set_whole i a b false true false (mkSpan (mkRange ($"..") dots_bound dots_bound) (counted i (mkRange a lo hi)))
| sw_from lo hi : side a lo hi -> set_whole i a b false false true (mkSpan (counted i (mkRange a lo hi)) (mkRange ($"..") dots_bound dots_bound))
| sw_upto_more lo x x' hi : side a lo x -> side b x' hi ->
    set_whole i a b true true false (mkSpan (mkRange [] dots_bound dots_bound) (counted i (mkRange b lo hi)))
| sw_from_more lo x x' hi : side a lo x -> side b x' hi ->
    set_whole i a b true false true (mkSpan (counted i (mkRange a lo hi)) (mkRange [] dots_bound dots_bound))
| sw_both lo x x' hi : side a lo x -> side b x' hi ->
    set_whole i a b true true true (mkSpan (mkRange [] dots_bound hi) (mkRange [] dots_bound hi)).

(** The span that feature [f] gives to [s]. *)
Inductive whole_reads : str -> str -> datespan -> Prop :=
| wr_span f s sp : In f span_features -> whole_span s sp -> whole_reads f s sp
| wr_stamp s t b : stamp_reads s t -> stamp_bound t b -> whole_reads ($"Date and Time") s (mkSpan (mkRange [] b b) (mkRange [] b b))
| wr_letter t y sp : year4 t y -> whole_span t sp -> whole_reads ($"Letter-prefixed calendar year") ($"Y" ++ t) sp
| wr_season t y n r b e j sp : year4 t y -> season_months n b e j -> rendered y -> rendered (y + j) ->
    whole_span (day_text y b 1 ++ $"/" ++ day_text (y + j) e (month_len (y + j) e)) sp ->
    whole_reads ($"Seasons") (t ++ $"-" ++ two n ++ r) sp
| wr_words n w v gap gap' y b e j sp : season_of n w b e j -> any_case w v -> spaces gap -> spaces gap' -> 0 <= y -> y + j <= 9999 ->
    whole_span (day_text y b 1 ++ $"/" ++ day_text (y + j) e (month_len (y + j) e)) sp ->
    whole_reads ($"Seasons") (v ++ gap ++ $"," ++ gap' ++ four y) sp
| wr_exponential a t m e y sp : a = "Y"%char \/ a = "y"%char -> exp_text t m e -> wraps (m * 10 ^ e) y -> 1000 <= Z.abs y <= 9999 ->
    whole_span (year_text y) sp -> whole_reads ($"Exponential year") (a :: t) sp
| wr_significant u y nd v l h sp : before_year u y -> dec_digits nd v -> significant_texts y v l h -> whole_span (l ++ $"/" ++ h) sp ->
    whole_reads ($"Significant digits") (u ++ $"S" ++ nd) sp
| wr_grouping y n b e sp : grouping_of n b e 0 -> 0 <= y <= 9999 -> whole_span (day_text y b 1 ++ $"/" ++ day_text y e (month_len y e)) sp ->
    whole_reads ($"Sub-year groupings") (four y ++ $"-" ++ two n) sp
| wr_grouping_next y n b e sp : grouping_of n b e 1 -> 999 <= y <= 9998 -> whole_span (day_text y b 1 ++ $"/" ++ month_text (y + 1) e) sp ->
    whole_reads ($"Sub-year groupings") (four y ++ $"-" ++ two n) sp
| wr_set o i l ds so eo c a b sp : counts o i -> l <> [] -> set_pieces l ds so eo -> least ds a -> greatest ds b ->
    set_whole i a b (1 <? Z.of_nat (length ds)) so eo sp -> whole_reads ($"Set representation") (o :: joined ($",") l ++ [c]) sp.
