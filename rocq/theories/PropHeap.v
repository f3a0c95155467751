(** C77: objects and pointers.  The parser that allocates, shares and assigns gives
    the dates of the model with values; what it shares is exactly described. *)
From Coq Require Import Ascii String ZArith NArith Bool List.
From Verif Require Import GoStr GoTime Edtf Common Level0 Level2 Parser Heap SpecHeap HeapTop.
Import ListNotations.
Open Scope Z_scope.

(** Whatever the memory holds, the outcome is the one of the model with values. *)
Theorem C77_refines s h : match ParseString s with
  | OK d => exists x h', HParseString s h = (OK x, h') /\ read_edtf h' x = Some d
  | Err e => exists h', HParseString s h = (Err e, h')
  | Panic => exists h', HParseString s h = (Panic, h')
  end.
Proof. exact (parse_run s h). Qed.
Print Assumptions C77_refines.
(** No object that was there is changed, also when parsing fails; so no date returned
    before changes. *)
Theorem C77_keeps s h : extends h (snd (HParseString s h)).
Proof. exact (parse_keeps s h). Qed.
Print Assumptions C77_keeps.
Theorem C77_keeps_dates s h x d : read_edtf h x = Some d -> read_edtf (snd (HParseString s h)) x = Some d.
Proof. exact (parse_later s h x d). Qed.
Print Assumptions C77_keeps_dates.
(** Every object of a result is new. *)
Theorem C77_new s h x h' : HParseString s h = (OK x, h') -> all_new h h' x.
Proof. exact (parse_new s h x h'). Qed.
Print Assumptions C77_new.
(** Two results have no object in common, and assigning to the objects of one never
    changes the other. *)
Theorem C77_disjoint s1 s2 h h1 h2 h3 x1 x2 : HParseString s1 h = (OK x1, h1) -> extends h1 h2 -> HParseString s2 h2 = (OK x2, h3) ->
  (forall r, range_of x1 r -> ~ range_of x2 r) /\ (forall a, date_of h3 x1 a -> ~ date_of h3 x2 a) /\ (forall y, ymd_of h3 x1 y -> ~ ymd_of h3 x2 y).
Proof. exact (two_results s1 s2 h h1 h2 h3 x1 x2). Qed.
Print Assumptions C77_disjoint.
Theorem C77_assign_first s1 s2 h h1 h2 h3 h4 x1 x2 d : HParseString s1 h = (OK x1, h1) -> extends h1 h2 -> HParseString s2 h2 = (OK x2, h3) ->
  same_but h3 x1 h4 -> read_edtf h3 x2 = Some d -> read_edtf h4 x2 = Some d.
Proof. exact (assign_first s1 s2 h h1 h2 h3 h4 x1 x2 d). Qed.
Print Assumptions C77_assign_first.
Theorem C77_assign_second s1 s2 h h1 h2 h3 h4 x1 x2 d : HParseString s1 h = (OK x1, h1) -> extends h1 h2 -> HParseString s2 h2 = (OK x2, h3) ->
  same_but h3 x2 h4 -> read_edtf h3 x1 = Some d -> read_edtf h4 x1 = Some d.
Proof. exact (assign_second s1 s2 h h1 h2 h3 h4 x1 x2 d). Qed.
Print Assumptions C77_assign_second.

(** Within a result: two ranges and four dates, start and end without a common YMD,
    but for the two kinds below. *)
Theorem C77_separate s h x h' d : HParseString s h = (OK x, h') -> read_edtf h' x = Some d -> he_feature x <> DATE_AND_TIME ->
  ~ (he_feature x = SET_REPRESENTATIONS /\ d_open (r_lower (e_start d)) = true /\ d_open (r_lower (e_end d)) = true) ->
  he_start x <> he_end x /\ exists sl su el eu, bounds h' x sl su el eu /\ NoDup [sl; su; el; eu] /\
    forall a b c c' y, In a [sl; su] -> In b [el; eu] -> nth_error (h_dates h') a = Some c -> nth_error (h_dates h') b = Some c' ->
      hd_ymd c = Some y -> hd_ymd c' <> Some y.
Proof. exact (parse_separate s h x h' d). Qed.
Print Assumptions C77_separate.
(** A date with a time: one date for both bounds of the start, another for the end. *)
Theorem C77_date_time s h x h' : HParseString s h = (OK x, h') -> he_feature x = DATE_AND_TIME ->
  he_start x <> he_end x /\ exists a b, bounds h' x a a b b /\ a <> b.
Proof. exact (parse_datetime s h x h'). Qed.
Print Assumptions C77_date_time.
(** A set open at both sides: start and end are one object. *)
Theorem C77_open_set s h x h' d : HParseString s h = (OK x, h') -> read_edtf h' x = Some d ->
  he_feature x = SET_REPRESENTATIONS -> d_open (r_lower (e_start d)) = true -> d_open (r_lower (e_end d)) = true ->
  he_start x = he_end x /\ exists a b, bounds h' x a b a b /\ a <> b.
Proof. exact (parse_open_set s h x h' d). Qed.
Print Assumptions C77_open_set.
(** What the caller sees: x.Start.Lower.SetTime(t) changes that date alone, but for a
    date with a time also Start.Upper, and for a set open at both sides also End.Lower. *)
Theorem C77_set_time s h x h' d t : HParseString s h = (OK x, h') -> read_edtf h' x = Some d ->
  exists h2, HSetTime (start_lower h' x) t h' = (OK tt, h2) /\
    let l := SetTime (r_lower (e_start d)) t in let su := r_upper (e_start d) in let e := e_end d in
    read_edtf h2 x = Some (mkEDTF (mkRange (r_edtf (e_start d)) l (if seqb (he_feature x) DATE_AND_TIME then l else su))
      (if seqb (he_feature x) SET_REPRESENTATIONS && (d_open (r_lower (e_start d)) && d_open (r_lower e)) then mkRange (r_edtf e) l (r_upper e) else e)
      (e_edtf d) (e_level d) (e_feature d)).
Proof. exact (settime_parse s h x h' d t). Qed.
Print Assumptions C77_set_time.

(** Concrete cases. *)
Definition nothing : heap := mkHeap [] [] [].
Definition after (s : str) (h : heap) : heap := snd (HParseString s h).
(* an interval, parsed when another date is there *)
Example an_interval : exists x h', HParseString ($"1985/1990-04") (after ($"2001-05") nothing) = (OK x, h') /\ he_feature x <> DATE_AND_TIME /\
  x = mkHEDTF 2 5 ($"1985/1990-04") 0 ($"Time Interval") /\ bounds h' x 4 7 8 11.
Proof. eexists _, _. split; [vm_compute; reflexivity|]. split; [vm_compute; discriminate|]. split; [reflexivity|]. split; eexists; vm_compute; reflexivity. Qed.
Example a_time : exists x h', HParseString ($"1985-04-12T23:20:30Z") nothing = (OK x, h') /\ he_feature x = DATE_AND_TIME /\ bounds h' x 1 1 0 0.
Proof. eexists _, _. split; [vm_compute; reflexivity|]. split; [reflexivity|]. split; eexists; vm_compute; reflexivity. Qed.
Example open_both : exists x h' d, HParseString ($"[..1667,1668..]") nothing = (OK x, h') /\ read_edtf h' x = Some d /\
  he_feature x = SET_REPRESENTATIONS /\ d_open (r_lower (e_start d)) = true /\ d_open (r_lower (e_end d)) = true /\ he_start x = he_end x.
Proof. eexists _, _, _. split; [vm_compute; reflexivity|]. split; [vm_compute; reflexivity|]. repeat split. Qed.
(* two results, and a heap in which a date of the first is overwritten *)
Example two_dates : exists x1 h1 x2 h3 h4, HParseString ($"1985") nothing = (OK x1, h1) /\ HParseString ($"1986") h1 = (OK x2, h3) /\
  same_but h3 x1 h4 /\ read_edtf h4 x1 <> read_edtf h3 x1 /\ read_edtf h4 x2 = read_edtf h3 x2.
Proof.
  eexists _, _, _, _, (snd (HSetTime 0 0 (after ($"1986") (after ($"1985") nothing)))).
  split; [vm_compute; reflexivity|]. split; [vm_compute; reflexivity|]. split; [|split; [vm_compute; discriminate|vm_compute; reflexivity]].
  split; [intros; vm_compute; reflexivity|]. split; [|intros; vm_compute; reflexivity].
  intros a N. destruct a as [|a]; [|vm_compute; reflexivity]. destruct N. exists 0%nat. eexists. split; [left; vm_compute; reflexivity|].
  split; [vm_compute; reflexivity|]. left. reflexivity.
Qed.
