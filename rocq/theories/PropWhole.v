(** C68: the whole result of every parse.  C22 for numbers of any size. *)
From Coq Require Import Ascii String ZArith NArith Bool Lia List.
From Verif Require Import GoStr SpecCal SpecText SpecZone SpecGrammar SpecForms SpecSpan SpecSet SpecWrap SpecReads SpecWhole TextFacts Edtf Parser CalFacts ExpWrap ReadsFacts ReadsProofs WholeProofs.
Import ListNotations.
Open Scope Z_scope.

Theorem C68_whole : forall s lv f, takes s lv f ->
  forall e, ParseString s = OK e <-> exists sp, whole_reads f s sp /\ e = mkEDTF (s_start sp) (s_end sp) s lv f.
Proof. exact whole_meaning. Qed.
Print Assumptions C68_whole.
Theorem C68_nothing_else : forall s e, ParseString s = OK e ->
  s = $".." /\ e = mkEDTF (mkRange [] dots_bound dots_bound) (mkRange [] dots_bound dots_bound) s (-1) ($"Open") \/
  s = [] /\ e = mkEDTF (mkRange [] blank_bound blank_bound) (mkRange [] blank_bound blank_bound) s (-1) ($"Unknown") \/
  exists lv f sp, takes s lv f /\ whole_reads f s sp /\ e = mkEDTF (s_start sp) (s_end sp) s lv f.
Proof. exact whole_strings. Qed.
Print Assumptions C68_nothing_else.
Theorem C68_unambiguous : forall s lv f sp sp', takes s lv f -> whole_reads f s sp -> whole_reads f s sp' -> sp = sp'.
Proof. exact whole_unique. Qed.
Print Assumptions C68_unambiguous.

Lemma real_2004 : real_date 2004 6 11.
Proof. split; [lia|]. change (month_len 2004 6) with 30. lia. Qed.
(** The year uncertain (64), the day approximate (8), the precision that of a year (64). *)
Example C68_case : takes ($"?2004-06-~11") 2 ($"Qualification (Individual)") /\
  whole_reads ($"Qualification (Individual)") ($"?2004-06-~11")
    (mkSpan (mkRange ($"?2004-06-~11") (dawn 2004 6 11 64 8 64) (dawn 2004 6 11 64 8 64))
            (mkRange ($"?2004-06-~11") (dusk 2004 6 11 64 8 64) (dusk 2004 6 11 64 8 64))).
Proof.
  split; [apply matches_takes; vm_compute; reflexivity|].
  apply wr_span; [cbn; tauto|]. apply ws_date. refine (ds_one _ 2004 6 11 64 8 64 _ real_2004).
  refine (dw_ymd ($"?2004") ($"2004") (Front "?"%char) 2004 2004 ($"06") ($"06") NoMark 6 6 ($"~11") ($"11") (Front "~"%char) 11 11 _ _ _ _ _ _).
  - apply (ms_front ($"2004")). left. reflexivity.
  - apply yr_number. exact (year4_pos 2004 ltac:(lia)).
  - apply ms_none.
  - exact (mr_number 6 ltac:(lia)).
  - apply (ms_front ($"11")). right. left. reflexivity.
  - exact (dr_number _ _ 11 ltac:(lia)).
Qed.
(** The least and the greatest member, both counted as one of several (4). *)
Lemma real_jan y : real_date y 1 1.
Proof. split; [lia|]. pose proof (month_len_range y 1). lia. Qed.
Lemma real_dec y : real_date y 12 31.
Proof. split; [lia|]. change (month_len y 12) with 31. lia. Qed.
Example C68_set_case : takes ($"[1760,1667..1668]") 2 ($"Set representation") /\
  whole_reads ($"Set representation") ($"[1760,1667..1668]")
    (mkSpan (counted 4 (mkRange ($"1667") (dawn 1667 1 1 0 0 64) (dusk 1667 12 31 0 0 64)))
            (counted 4 (mkRange ($"1760") (dawn 1760 1 1 0 0 64) (dusk 1760 12 31 0 0 64)))).
Proof.
  split; [apply matches_takes; vm_compute; reflexivity|].
  assert (D : forall t, t = $"1760" \/ t = $"1667" \/ t = $"1668" -> dotless t).
  { intros t [->|[->| ->]]; split; cbn; intro H; repeat (destruct H as [H|H]; [discriminate H|]); exact H. }
  assert (Y : forall y t, 1000 <= y <= 9999 -> t = four y -> year_precision t = 64%N -> side t (dawn y 1 1 0 0 64) (dusk y 12 31 0 0 64)).
  { intros y t Hy -> Hp. rewrite <- Hp. refine (sd_date _ _ _ _ _ _ _ _ _ _ (dw_y _ _ NoMark _ _ (ms_none _) (yr_number _ _ _)) (real_jan y) (real_dec y)). exact (year4_pos y ltac:(lia)). }
  refine (wr_set "["%char 4 [$"1760"; $"1667..1668"] ([$"1760"] ++ [$"1667"; $"1668"] ++ []) (false || (false || false)) (false || (false || false)) "]"%char ($"1667") ($"1760") _ ct_one _ _ _ _ _).
  - discriminate.
  - apply pcs_cons; [apply pc_text; auto|]. apply pcs_cons; [|apply pcs_nil].
    exact (pc_range ($"1667") ($"1668") (D ($"1667") ltac:(auto)) (D ($"1668") ltac:(auto)) ltac:(discriminate) ltac:(discriminate)).
  - split; [cbn; auto|]. intros u [<-|[<-|[<-|[]]]]; vm_compute; intuition discriminate.
  - split; [cbn; auto|]. intros u [<-|[<-|[<-|[]]]]; vm_compute; intuition discriminate.
  - apply sw_closed; [discriminate|apply (Y 1667)|apply (Y 1760)]; (lia || reflexivity).
Qed.

(** ** C22: exponential years of any size.  Missing: that larger years are rejected; the
    year is what 64 bits leave of the number. *)
Theorem C22_wrapped_partial : forall a t m e d, a = "Y"%char \/ a = "y"%char -> exp_text t m e ->
  (ParseString (a :: t) = OK d <-> exists y, wraps (m * 10 ^ e) y /\ 1000 <= Z.abs y <= 9999 /\
     d = mkEDTF (mkRange (year_text y) (dawn y 1 1 0 0 64) (dusk y 1 1 0 0 64)) (mkRange (year_text y) (dawn y 12 31 0 0 64) (dusk y 12 31 0 0 64)) (a :: t) 2 ($"Exponential year")).
Proof. exact exponential_whole. Qed.
Print Assumptions C22_wrapped_partial.
Theorem C22_one_year_partial : forall n y y', wraps n y -> wraps n y' -> y = y'.
Proof. exact wraps_fun. Qed.
Print Assumptions C22_one_year_partial.
(** 2^64 + 2001 is kept as 2^64 + 2000, of which 2000 is left. *)
Example C22_wrapped_case : exp_text ($"18446744073709553617E0") 18446744073709553617 0 /\ wraps (18446744073709553617 * 10 ^ 0) 2000 /\
  exp_text ($"-18446744073709553616E0") (-18446744073709553616) 0 /\ wraps (-18446744073709553616 * 10 ^ 0) (-2000).
Proof.
  split; [|split; [|split]].
  - apply (exp_of false ($"18446744073709553617") "E"%char ($"0") 18446744073709553617 0); [apply dec_digits_iff; split; [discriminate|vm_compute; reflexivity]|left; reflexivity|apply dec_digits_iff; split; [discriminate|vm_compute; reflexivity]].
  - exists (9223372036854776808 * 2 ^ 1). split; [|split; [split; [intro H; discriminate H|reflexivity]|exists 1; reflexivity]].
    apply (k64_round _ 1 9223372036854776808); [lia|vm_compute; split; [discriminate|reflexivity]|vm_compute; discriminate|reflexivity].
  - apply (exp_of true ($"18446744073709553616") "E"%char ($"0") 18446744073709553616 0); [apply dec_digits_iff; split; [discriminate|vm_compute; reflexivity]|left; reflexivity|apply dec_digits_iff; split; [discriminate|vm_compute; reflexivity]].
  - exists (9223372036854776808 * 2 ^ 1). split; [|split; [split; [intro H; discriminate H|reflexivity]|exists (-1); reflexivity]].
    apply (k64_round _ 1 9223372036854776808); [lia|vm_compute; split; [discriminate|reflexivity]|vm_compute; discriminate|reflexivity].
Qed.
