(** Specification: what the parser of one feature, or of one level, gives when it is
    called directly, without the test that decides on the feature. *)
From Coq Require Import Ascii String ZArith NArith Bool List.
From Verif Require Import GoStr SpecCal SpecText SpecZone SpecGrammar SpecForms SpecSpan SpecSet SpecWrap SpecReads SpecWhole SpecRefused Edtf CalFacts.
Import ListNotations.
Open Scope Z_scope.

(** The parser of the sub-year groupings also knows the four seasons. *)
Inductive grouping_months : Z -> Z -> Z -> Z -> Prop :=
| gm_grouping n b e j : grouping_of n b e j -> grouping_months n b e j
| gm_season n w b e j : season_of n w b e j -> grouping_months n b e j.
Definition special (f : str) : Prop := f = $"Seasons" \/ f = $"Sub-year groupings".

(** The span that the parser of feature [f] gives to [s].  The season parser takes a
    season word after any text that does not begin with a year and a season number. *)
Inductive direct_gives : str -> str -> datespan -> Prop :=
| dg_other f s sp : ~ special f -> whole_reads f s sp -> direct_gives f s sp
| dg_season t y n r b e j sp : year4 t y -> season_months n b e j -> rendered y -> rendered (y + j) ->
    whole_span (day_text y b 1 ++ $"/" ++ day_text (y + j) e (month_len (y + j) e)) sp ->
    direct_gives ($"Seasons") (t ++ $"-" ++ two n ++ r) sp
| dg_words n w v gap gap' y b e j g s sp : season_of n w b e j -> any_case w v -> spaces gap -> spaces gap' -> 0 <= y -> y + j <= 9999 ->
    s = g ++ v ++ gap ++ $"," ++ gap' ++ four y -> ~ cat season_date anything s ->
    whole_span (day_text y b 1 ++ $"/" ++ day_text (y + j) e (month_len (y + j) e)) sp ->
    direct_gives ($"Seasons") s sp
| dg_grouping y n b e sp : grouping_months n b e 0 -> 0 <= y <= 9999 -> whole_span (day_text y b 1 ++ $"/" ++ day_text y e (month_len y e)) sp ->
    direct_gives ($"Sub-year groupings") (four y ++ $"-" ++ two n) sp
| dg_grouping_next y n b e sp : grouping_months n b e 1 -> 999 <= y <= 9998 -> whole_span (day_text y b 1 ++ $"/" ++ month_text (y + 1) e) sp ->
    direct_gives ($"Sub-year groupings") (four y ++ $"-" ++ two n) sp.

(** The error.  The expression of the sub-year groupings takes the months 10 to 12, for
    which there is no grouping. *)
Inductive direct_fails : str -> str -> err -> Prop :=
| df_other f s x : ~ special f -> refused_as f s x -> direct_fails f s x
| df_season t y n r b e j x : year4 t y -> season_months n b e j -> months_refused y b (y + j) x ->
    direct_fails ($"Seasons") (t ++ $"-" ++ two n ++ r) x
| df_words n w v gap gap' y b e j g s x : season_of n w b e j -> any_case w v -> spaces gap -> spaces gap' -> 0 <= y <= 9999 ->
    s = g ++ v ++ gap ++ $"," ++ gap' ++ four y -> ~ cat season_date anything s -> months_refused y b (y + j) x ->
    direct_fails ($"Seasons") s x
| df_month y n s : 0 <= y <= 9999 -> 10 <= n <= 12 -> s = four y ++ $"-" ++ two n ->
    direct_fails ($"Sub-year groupings") s (EInvalid ($"Sub-year groupings") s)
| df_grouping y n b w : grouping_months n b 2 1 -> 0 <= y < 999 \/ y = 9999 -> canonical_text w (y + 1) ->
    direct_fails ($"Sub-year groupings") (four y ++ $"-" ++ two n) (EInvalid ($"date") (w ++ $"-02")).
Definition direct_crash (f s : str) : Prop := (f = $"Exponential year" \/ f = $"Significant digits") /\ crashes s.

(** [P] tries the features of [l] in this order and gives level [lv]; to a string that
    has none of their forms it gives an error with this label. *)
Definition level_parser (P : str -> res edtfdate) (lv : Z) (l : list (str * (str -> Prop))) (label : str) : Prop :=
  forall s, (no_feature s l -> P s = Err (EInvalid label s)) /\
    (forall f, first_of s l f ->
      (forall e, P s = OK e <-> exists sp, direct_gives f s sp /\ e = mkEDTF (s_start sp) (s_end sp) s lv f) /\
      (~ borderline s -> (forall x, P s = Err x <-> direct_fails f s x) /\ (P s = Panic <-> direct_crash f s))).
Definition feature_parser (P : str -> res edtfdate) (lv : Z) (f : str) (form : str -> Prop) : Prop := level_parser P lv [(f, form)] f.
