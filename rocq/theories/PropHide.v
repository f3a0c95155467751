(** C88: replacing digits by X never narrows what a date stands for. *)
From Coq Require Import Ascii String ZArith NArith Bool Lia List.
From Verif Require Import GoStr SpecCal SpecText SpecGrammar SpecForms SpecSpan SpecReads SpecWithin SpecHide Edtf Parser WithinProofs HideProofs.
Import ListNotations.
Open Scope Z_scope.

(** Missing: a month 01 to 09 of which the second digit is hidden, seasons and
    groupings; the former and winters are wrong, see below. *)
Theorem C88_hidden_partial : forall s s' e e', hides s s' -> ~ hides_month s s' -> ParseString s = OK e -> ParseString s' = OK e' ->
  e_feature e <> $"Seasons" -> e_feature e <> $"Sub-year groupings" -> inside e e'.
Proof. exact hides_inside. Qed.
Print Assumptions C88_hidden_partial.
Theorem C88_hidden_code : forall n y s' e', code_in_year n -> 0 <= y <= 9999 -> hides (four y ++ $"-" ++ two n) s' -> ParseString s' = OK e' ->
  exists e, ParseString (four y ++ $"-" ++ two n) = OK e /\ inside e e'.
Proof. exact hides_code. Qed.
Print Assumptions C88_hidden_code.
(** Where both are taken for seasons nothing changes at all. *)
Theorem C88_hidden_season : forall s s' e e', hides s s' -> ParseString s = OK e -> ParseString s' = OK e' ->
  e_feature e = $"Seasons" -> e_feature e' = $"Seasons" -> inside e e' /\ inside e' e.
Proof. exact hides_season. Qed.
Print Assumptions C88_hidden_season.
(** What comes after or before the date with hidden digits comes after or before
    the date itself. *)
Theorem C88_compare : forall s s' e e' u, hides s s' -> ~ hides_month s s' -> ParseString s = OK e -> ParseString s' = OK e' ->
  e_feature e <> $"Seasons" -> e_feature e <> $"Sub-year groupings" ->
  (IsAfter s' u = OK true -> IsAfter s u = OK true) /\ (IsAfter u s' = OK true -> IsAfter u s = OK true) /\
  (IsBefore s' u = OK true -> IsBefore s u = OK true) /\ (IsBefore u s' = OK true -> IsBefore u s = OK true).
Proof. intros s s' e e' u H B E E' N N'. exact (inside_after s s' e e' u E E' (hides_inside s s' e e' H B E E' N N')). Qed.
Print Assumptions C88_compare.
(** A month with its second digit hidden; a winter in a year with its month hidden; a
    day that is read as the whole of its month. *)
Theorem C88_hidden_refuted :
  (exists s s' e e', hides s s' /\ hides_month s s' /\ ParseString s = OK e /\ ParseString s' = OK e' /\ e_feature e = $"Date" /\ ~ inside e e') /\
  (exists s s' e e', hides s s' /\ ~ hides_month s s' /\ ParseString s = OK e /\ ParseString s' = OK e' /\ e_feature e = $"Sub-year groupings" /\ ~ inside e e') /\
  (exists s s' e e', hides s s' /\ ~ hides_month s s' /\ ParseString s = OK e /\ ParseString s' = OK e' /\ e_feature e = $"Seasons" /\ ~ inside e e').
Proof.
  assert (X : forall a, is_digit a = true -> hide a "X") by (intros a A; right; auto). assert (K : forall a, hide a a) by (intro a; left; reflexivity).
  assert (Nm : forall s s', existsb (fun i => seqb (firstn 3 (skipn i (unmarked s'))) ($"-0X")) (seq 0 (length (unmarked s'))) = false -> ~ hides_month s s').
  { intros s s' F (a & b & a' & b' & c & _ & _ & _ & E). rewrite E in F. assert (T : existsb (fun i => seqb (firstn 3 (skipn i (a' ++ $"-0X" ++ b'))) ($"-0X")) (seq 0 (length (a' ++ $"-0X" ++ b'))) = true); [|congruence].
    apply existsb_exists. exists (length a'). split; [apply in_seq; rewrite app_length; cbn; lia|]. rewrite skipn_app, skipn_all, Nat.sub_diag. reflexivity. }
  split; [|split].
  - exists ($"1985-04"), ($"1985-0X"). do 2 eexists. split; [repeat (constructor; [first [apply K|apply X; reflexivity]|]); constructor|].
    split; [exists ($"1985"), [], ($"1985"), [], "4"%char; repeat split|].
    split; [vm_compute; reflexivity|]. split; [vm_compute; reflexivity|]. split; [reflexivity|].
    intros (lo & hi & lo' & hi' & L & _ & L' & _ & N & _). destruct lo as [a| |]; destruct L as (L & O & _); try discriminate L; destruct lo' as [a'| |]; destruct L' as (L' & O' & _); try discriminate L'.
    vm_compute in L, L'. injection L as <-. injection L' as <-. vm_compute in N. apply N. reflexivity.
  - exists ($"1985-28"), ($"1985-XX"). do 2 eexists. split; [repeat (constructor; [first [apply K|apply X; reflexivity]|]); constructor|].
    split; [apply Nm; vm_compute; reflexivity|].
    split; [vm_compute; reflexivity|]. split; [vm_compute; reflexivity|]. split; [reflexivity|].
    intros (lo & hi & lo' & hi' & _ & L & _ & L' & _ & N). destruct hi as [a| |]; destruct L as (L & O & _); try discriminate L; destruct hi' as [a'| |]; destruct L' as (L' & O' & _); try discriminate L'.
    vm_compute in L, L'. injection L as <-. injection L' as <-. vm_compute in N. apply N. reflexivity.
  - exists ($"1985-12-1X"), ($"1985-1X-1X"). do 2 eexists. split; [repeat (constructor; [first [apply K|apply X; reflexivity]|]); constructor|].
    split; [apply Nm; vm_compute; reflexivity|].
    split; [vm_compute; reflexivity|]. split; [vm_compute; reflexivity|]. split; [reflexivity|].
    intros (lo & hi & lo' & hi' & _ & L & _ & L' & _ & N). destruct hi as [a| |]; destruct L as (L & O & _); try discriminate L; destruct hi' as [a'| |]; destruct L' as (L' & O' & _); try discriminate L'.
    vm_compute in L, L'. injection L as <-. injection L' as <-. vm_compute in N. apply N. reflexivity.
Qed.
Print Assumptions C88_hidden_refuted.
(** An interval with marks and both ends hidden; a day hidden in a month; a quarter; a
    season text. *)
Example C88_case : exists e e' f f', hides ($"?1984-11-05/2004-12") ($"?198X-1X-XX/20XX-XX") /\ ~ hides_month ($"?1984-11-05/2004-12") ($"?198X-1X-XX/20XX-XX") /\
  ParseString ($"?1984-11-05/2004-12") = OK e /\ ParseString ($"?198X-1X-XX/20XX-XX") = OK e' /\ e_feature e = $"Interval" /\
  hides ($"1985-04-1X") ($"1985-04-XX") /\ ParseString ($"1985-04-1X") = OK f /\ ParseString ($"1985-04-XX") = OK f' /\ e_feature f = $"Seasons" /\ e_feature f' = $"Seasons" /\
  code_in_year 34 /\ hides (four 1985 ++ $"-" ++ two 34) ($"19XX-XX") /\ exists g, ParseString ($"19XX-XX") = OK g.
Proof.
  assert (X : forall a, is_digit a = true -> hide a "X") by (intros a A; right; auto). assert (K : forall a, hide a a) by (intro a; left; reflexivity).
  do 4 eexists. split; [repeat (constructor; [first [apply K|apply X; reflexivity]|]); constructor|]. split.
  { intros (a & b & a' & b' & c & _ & _ & _ & E). match type of E with ?l = _ => let v := eval vm_compute in l in change l with v in E end.
    repeat (destruct a' as [|? a']; [discriminate E|]; injection E as _ E). destruct a'; discriminate E. }
  split; [vm_compute; reflexivity|]. split; [vm_compute; reflexivity|]. split; [reflexivity|].
  split; [repeat (constructor; [first [apply K|apply X; reflexivity]|]); constructor|].
  split; [vm_compute; reflexivity|]. split; [vm_compute; reflexivity|]. split; [reflexivity|]. split; [reflexivity|].
  split; [exact (cy_grouping _ _ _ go_34)|]. split; [repeat (constructor; [first [apply K|apply X; reflexivity]|]); constructor|].
  eexists. vm_compute. reflexivity.
Qed.
