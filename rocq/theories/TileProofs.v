(** Lemmas for C92. *)
From Coq Require Import Ascii String ZArith NArith Bool Lia ZifyBool List.
From Verif Require Import GoStr SpecCal SpecText SpecGrammar SpecForms SpecSpan SpecInner SpecPeriod SpecTile CalFacts Edtf Common Level0 Level1 Level2 Parser ApiFacts ApiProofs Level0Facts Level0Proofs FormFacts Level1Proofs XProofs QualProofs GroupingProofs SigProofs ExpProofs PeriodProofs.
Import ListNotations.
Open Scope Z_scope.
Ltac Zify.zify_post_hook ::= Z.div_mod_to_equations.

(** What the text names: two real days, and the bounds are the first second of the
    one and the last second of the other. *)
Definition named (s : str) (y m d y' m' d' : Z) : Prop :=
  exists e, ParseString s = OK e /\ Lower e = OK (instant y m d 0 0 0) /\ Upper e = OK (instant y' m' d' 23 59 59).

Lemma runs_named s e y m d y' m' d' : ParseString s = OK e -> runs e y m d y' m' d' -> named s y m d y' m' d'.
Proof. intros H ((L & _) & (U & _) & _). exists e. split; [exact H|]. split; [apply Lower_OK; exact L|apply Upper_OK; exact U]. Qed.
Lemma from_named s e y m d a b c y' m' d' a' b' c' : ParseString s = OK e -> from_to (e_start e) y m d a b c -> from_to (e_end e) a' b' c' y' m' d' ->
  named s y m d y' m' d'.
Proof. intros H ((L & _) & _) (_ & (U & _)). exists e. split; [exact H|]. split; [apply Lower_OK; exact L|apply Upper_OK; exact U]. Qed.

Lemma first_of_month y m : 1 <= m <= 12 -> real_date y m 1.
Proof. intro H. pose proof (month_len_range y m). split; lia. Qed.
Lemma last_of_month y m : 1 <= m <= 12 -> real_date y m (month_len y m).
Proof. intro H. pose proof (month_len_range y m). split; lia. Qed.
Lemma new_year y : real_date y 1 1.
Proof. apply first_of_month. lia. Qed.
Lemma year_end y : real_date y 12 31.
Proof. exact (last_of_month y 12 ltac:(lia)). Qed.

Lemma q_last x : q_ok x -> real_date (q_year x) (last_month (q_month x)) (last_day (q_year x) (last_month (q_month x)) (q_day x)).
Proof.
  intros (_ & (Hm & Hd) & _). destruct x; cbn in *.
  - apply year_end.
  - apply last_of_month. exact Hm.
  - split; [exact Hm|exact Hd].
Qed.

Lemma days_named s y m d y' m' d' : days s y m d y' m' d' -> real_date y m d /\ real_date y' m' d' /\ named s y m d y' m' d'.
Proof.
  intros [s0 y0 m0 d0 H X|a y0 m0 d0 b y1 m1 d1 Ha Xa Hb Xb|n w b e j y0 S R R'|n w v sp sp' b e j y0 S Hv Hs Hs' R R'|n b e j y0 G R J|k K|k K|k K|y0 R|y0 R|y0 m0 R M|t y0 T|a t n e A T V|t q y0 T Q|u n nd v lo hi B V N4 V4 Z|x O I|x O I].
  - split; [exact X|]. split; [exact (last_real _ _ _ _ H X)|]. exact (level0_span _ _ _ _ H X).
  - split; [exact Xa|]. split; [exact (last_real _ _ _ _ Hb Xb)|].
    destruct (interval_parses _ _ _ _ _ _ _ _ Ha Hb Xa Xb) as (e & P & _ & _ & Ws & We).
    destruct Ws as (_ & (L & _) & _). destruct We as (_ & _ & (U & _)).
    exists e. split; [exact P|]. split; [apply Lower_OK; exact L|apply Upper_OK; exact U].
  - split; [apply first_of_month; destruct S; lia|]. split; [apply last_of_month; destruct S; lia|].
    destruct (season_code_string _ _ _ _ _ _ S R R') as (D & P & _ & _ & F & T & _). exact (from_named _ _ _ _ _ _ _ _ _ _ _ _ _ _ P F T).
  - split; [apply first_of_month; destruct S; lia|]. split; [apply last_of_month; destruct S; lia|].
    destruct (season_words_string _ _ _ _ _ _ _ _ _ S Hv Hs Hs' R R') as (D & P & _ & _ & F & T & _). exact (from_named _ _ _ _ _ _ _ _ _ _ _ _ _ _ P F T).
  - split; [apply first_of_month; destruct G; lia|]. split; [apply last_of_month; destruct G; lia|].
    destruct (grouping_parses _ _ _ _ _ G R J) as (D & P & _ & _ & F & T & _). exact (from_named _ _ _ _ _ _ _ _ _ _ _ _ _ _ P F T).
  - split; [apply new_year|]. split; [apply year_end|]. destruct (decade_spans _ K) as (D & P & _ & _ & Q & _). exact (runs_named _ _ _ _ _ _ _ _ P Q).
  - split; [apply new_year|]. split; [apply year_end|]. destruct (century_spans _ K) as (D & P & _ & _ & Q & _). exact (runs_named _ _ _ _ _ _ _ _ P Q).
  - split; [apply new_year|]. split; [apply year_end|]. destruct (millennium_spans _ K) as (D & P & _ & _ & Q & _). exact (runs_named _ _ _ _ _ _ _ _ P Q).
  - split; [apply new_year|]. split; [apply year_end|]. destruct (year_xx_spans _ R) as (D & P & _ & _ & Q & _). exact (runs_named _ _ _ _ _ _ _ _ P Q).
  - split; [apply new_year|]. split; [apply year_end|]. destruct (year_xx_xx_spans _ R) as (D & P & _ & _ & Q & _). exact (runs_named _ _ _ _ _ _ _ _ P Q).
  - split; [apply first_of_month; exact M|]. split; [apply last_of_month; exact M|]. destruct (month_xx_string _ _ R M) as (D & P & _ & Q). exact (runs_named _ _ _ _ _ _ _ _ P Q).
  - split; [apply new_year|]. split; [apply year_end|]. destruct (letter_year_parses _ _ T) as (D & P & _ & _ & F & U & _). exact (from_named _ _ _ _ _ _ _ _ _ _ _ _ _ _ P F U).
  - split; [apply new_year|]. split; [apply year_end|]. destruct (exp_year _ _ _ _ A T V) as (D & P & _ & _ & Q & _). exact (runs_named _ _ _ _ _ _ _ _ P Q).
  - split; [apply new_year|]. split; [apply year_end|]. destruct (qualified_string _ _ _ T Q) as (D & P & _ & _ & F & _). exact (runs_named _ _ _ _ _ _ _ _ P F).
  - split; [apply new_year|]. split; [apply year_end|]. destruct (before_spans _ _ _ _ B V N4 V4) as (D & lo' & hi' & P & _ & _ & F & T & _ & _ & Z').
    assert (lo <= n <= hi) as A by (apply Z; split; [nia|reflexivity]). assert (lo' <= n <= hi') as A' by (apply Z'; split; [nia|reflexivity]).
    assert (X : lo <= lo' <= hi) by (apply Z, Z'; lia). assert (X' : lo' <= lo <= hi') by (apply Z', Z; lia).
    assert (Y : lo <= hi' <= hi) by (apply Z, Z'; lia). assert (Y' : lo' <= hi <= hi') by (apply Z', Z; lia).
    assert (lo = lo') by lia. assert (hi = hi') by lia. subst lo' hi'. exact (from_named _ _ _ _ _ _ _ _ _ _ _ _ _ _ P F T).
  - split; [exact (proj1 (proj2 O))|]. split; [exact (q_last _ O)|]. destruct (group_string _ O I) as (D & P & _ & _ & F & _). exact (runs_named _ _ _ _ _ _ _ _ P F).
  - split; [exact (proj1 (proj2 O))|]. split; [exact (q_last _ O)|]. destruct (individual_string _ O I) as (D & P & _ & _ & F & _). exact (runs_named _ _ _ _ _ _ _ _ P F).
Qed.

(** ** Order *)
Lemma same_day y m d y' m' d' : real_date y m d -> real_date y' m' d' -> epoch_day y m d = epoch_day y' m' d' -> (y, m, d) = (y', m', d').
Proof.
  intros H H' E. pose proof (epoch_lt _ _ _ _ _ _ H H') as Q. pose proof (epoch_lt _ _ _ _ _ _ H' H) as Q'. unfold date_lt in Q, Q'.
  assert (y = y' /\ m = m' /\ d = d') as (-> & -> & ->) by lia. reflexivity.
Qed.
Lemma next_iff y m d y' m' d' : real_date y m d -> real_date y' m' d' ->
  (instant y' m' d' 0 0 0 = instant y m d 23 59 59 + 1 <-> next_day y m d = (y', m', d')).
Proof.
  intros H H'. pose proof (epoch_next y m d H) as Q. destruct (next_day y m d) as ((a & b) & c) eqn:E. destruct Q as (Q & R).
  split; intro T.
  - apply same_day; [exact R|exact H'|]. unfold instant in T. lia.
  - injection T as -> -> ->. unfold instant. lia.
Qed.
Lemma named_not_open s y m d y' m' d' : named s y m d y' m' d' -> s <> $"..".
Proof. intros (e & P & L & _) ->. vm_compute in P. injection P as <-. apply Lower_OK in L. discriminate L. Qed.

Lemma days_bounds s y m d y' m' d' : days s y m d y' m' d' -> real_date y m d /\ real_date y' m' d' /\
  exists e, ParseString s = OK e /\ Lower e = OK (instant y m d 0 0 0) /\ Upper e = OK (instant y' m' d' 23 59 59).
Proof. exact (days_named s y m d y' m' d'). Qed.

Lemma days_follow a y m d y' m' d' b u v w u' v' w' : days a y m d y' m' d' -> days b u v w u' v' w' ->
  (follows b a <-> next_day y' m' d' = (u, v, w)).
Proof.
  intros Ha Hb. destruct (days_named _ _ _ _ _ _ _ Ha) as (_ & Ra & A & PA & _ & UA). destruct (days_named _ _ _ _ _ _ _ Hb) as (Rb & _ & B & PB & LB & _).
  rewrite <- (next_iff _ _ _ _ _ _ Ra Rb). split.
  - intros (A' & B' & up & lo & PA' & PB' & UA' & LB' & E). rewrite PA in PA'. injection PA' as <-. rewrite PB in PB'. injection PB' as <-.
    rewrite UA in UA'. injection UA' as <-. rewrite LB in LB'. injection LB' as <-. exact E.
  - intro E. exists A, B, (instant y' m' d' 23 59 59), (instant u v w 0 0 0). repeat (split; [assumption|]). exact E.
Qed.
Lemma days_order a y m d y' m' d' b u v w u' v' w' : days a y m d y' m' d' -> days b u v w u' v' w' ->
  exists r, IsBefore a b = OK r /\ IsAfter b a = OK r /\ (r = true <-> earlier y' m' d' u v w).
Proof.
  intros Ha Hb. destruct (days_named _ _ _ _ _ _ _ Ha) as (_ & Ra & Na). destruct (days_named _ _ _ _ _ _ _ Hb) as (Rb & _ & Nb).
  pose proof (named_not_open _ _ _ _ _ _ _ Na) as Oa. pose proof (named_not_open _ _ _ _ _ _ _ Nb) as Ob.
  destruct Na as (A & PA & _ & UA). destruct Nb as (B & PB & LB & _).
  assert (Q : exists r, IsBefore a b = OK r /\ (r = true <-> earlier y' m' d' u v w)).
  { rewrite IsBefore_cases, PA, PB, Before_cases, (open_parsed _ _ PA Oa).
    apply Lower_OK in LB. apply Upper_OK in UA. rewrite LB, UA. eexists. split; [reflexivity|].
    rewrite <- (instants_lt _ _ _ _ _ _ Ra Rb). lia. }
  destruct Q as (r & Q & E). exists r. split; [exact Q|]. split; [|exact E]. apply converse_strings; assumption.
Qed.
Lemma days_between s y m d y' m' d' i u v w u' v' w' c p q r p' q' r' :
  days s y m d y' m' d' -> days i u v w u' v' w' -> days c p q r p' q' r' ->
  exists b, IsBetween s i c = OK b /\ (b = true <-> ~ earlier y' m' d' u v w /\ ~ earlier p' q' r' y m d).
Proof.
  intros Hs Hi Hc. destruct (days_named _ _ _ _ _ _ _ Hs) as (Rs & Rs' & Ns). destruct (days_named _ _ _ _ _ _ _ Hi) as (Ri & _ & Ni).
  destruct (days_named _ _ _ _ _ _ _ Hc) as (_ & Rc & Nc).
  pose proof (named_not_open _ _ _ _ _ _ _ Ns) as Os. pose proof (named_not_open _ _ _ _ _ _ _ Nc) as Oc.
  destruct Ns as (S & PS & LS & US). destruct Ni as (I & PI & LI & _). destruct Nc as (C & PC & _ & UC).
  destruct (between_closed s i c S I C _ _ _ _ Os Oc PS PI PC LS US LI UC) as (b & Hb & E).
  exists b. split; [exact Hb|]. rewrite E, <- (instants_lt _ _ _ _ _ _ Rs' Ri), <- (instants_lt _ _ _ _ _ _ Rc Rs). lia.
Qed.
Lemma days_begin a y m d y' m' d' b u v w u' v' w' : days a y m d y' m' d' -> days b u v w u' v' w' ->
  (begin_alike a b <-> (y, m, d) = (u, v, w)) /\ (end_alike a b <-> (y', m', d') = (u', v', w')).
Proof.
  intros Ha Hb. destruct (days_named _ _ _ _ _ _ _ Ha) as (Ra & Ra' & A & PA & LA & UA). destruct (days_named _ _ _ _ _ _ _ Hb) as (Rb & Rb' & B & PB & LB & UB).
  split; split.
  - intros (A' & B' & t & PA' & PB' & LA' & LB'). rewrite PA in PA'. injection PA' as <-. rewrite PB in PB'. injection PB' as <-.
    rewrite LA in LA'. injection LA' as <-. rewrite LB in LB'. injection LB' as E. apply same_day; [assumption..|]. unfold instant in E. lia.
  - intro E. injection E as -> -> ->. exists A, B, (instant u v w 0 0 0). repeat split; assumption.
  - intros (A' & B' & t & PA' & PB' & UA' & UB'). rewrite PA in PA'. injection PA' as <-. rewrite PB in PB'. injection PB' as <-.
    rewrite UA in UA'. injection UA' as <-. rewrite UB in UB'. injection UB' as E. apply same_day; [assumption..|]. unfold instant in E. lia.
  - intro E. injection E as -> -> ->. exists A, B, (instant u' v' w' 23 59 59). repeat split; assumption.
Qed.

(** ** Parts and wholes *)
Lemma follow a y m d y' m' d' b u v w u' v' w' : days a y m d y' m' d' -> days b u v w u' v' w' -> next_day y' m' d' = (u, v, w) -> follows b a.
Proof. intros Ha Hb E. exact (proj2 (days_follow _ _ _ _ _ _ _ _ _ _ _ _ _ _ Ha Hb) E). Qed.
Lemma year_days y : 0 <= y <= 9999 -> days (four y) y 1 1 y 12 31.
Proof.
  intro H. assert (L : level0_date (four y) y None None).
  { pose proof (year_level0 y ltac:(lia)) as Q. unfold year_text in Q. replace (y <? 0) with false in Q by lia. exact Q. }
  exact (dy_date (four y) y None None L (new_year y)).
Qed.
Lemma month_days y m : 0 <= y <= 9999 -> 1 <= m <= 12 -> days (four y ++ $"-" ++ two m) y m 1 y m (month_len y m).
Proof.
  intros H M. assert (L : level0_date (four y ++ $"-" ++ two m) y (Some m) None).
  { pose proof (month_level0 y m ltac:(lia) M) as Q. unfold month_text, year_text in Q. replace (y <? 0) with false in Q by lia. exact Q. }
  exact (dy_date _ y (Some m) None L (first_of_month y m M)).
Qed.
Lemma code_days n b e y : grouping_of n b e 0 -> 0 <= y <= 9999 -> days (four y ++ $"-" ++ two n) y b 1 y e (month_len y e).
Proof. intros G H. pose proof (dy_grouping n b e 0 y G H (or_introl eq_refl)) as Q. rewrite Z.add_0_r in Q. exact Q. Qed.
Lemma next_month_start y m : 1 <= m < 12 -> next_day y m (month_len y m) = (y, m + 1, 1).
Proof. intro H. unfold next_day. rewrite Z.ltb_irrefl. replace (m <? 12) with true by lia. reflexivity. Qed.
Lemma next_year_start y : next_day y 12 31 = (y + 1, 1, 1).
Proof. reflexivity. Qed.
Lemma day_days y m d : 0 <= y <= 9999 -> real_date y m d -> days (dayed y m d) y m d y m d.
Proof.
  intros H R. assert (L : level0_date (dayed y m d) y (Some m) (Some d)).
  { pose proof (month_len_range y m) as B. pose proof (day_level0 y m d ltac:(lia) ltac:(destruct R; lia) ltac:(destruct R; lia)) as Q.
    unfold day_text, year_text in Q. replace (y <? 0) with false in Q by lia. exact Q. }
  exact (dy_date _ y (Some m) (Some d) L R).
Qed.
(** Parts that follow each other, in general: [f k] names the days from [b k] to [e k]. *)
Lemma fill_run f (b e : Z -> Z * Z * Z) whole u v w u' v' w' (N : Z) : days whole u v w u' v' w' ->
  forall c n, N = n + Z.of_nat c ->
  (forall k, n <= k < N -> days (f k) (fst (fst (b k))) (snd (fst (b k))) (snd (b k)) (fst (fst (e k))) (snd (fst (e k))) (snd (e k))) ->
  (forall k, n <= k < N - 1 -> next_day (fst (fst (e k))) (snd (fst (e k))) (snd (e k)) = b (k + 1)) ->
  e (N - 1) = (u', v', w') -> (0 < c)%nat -> fill (run_of f n c) whole.
Proof.
  intro W. induction c as [|c IH]; intros n E F G L P; [lia|]. destruct c as [|c].
  - cbn [run_of fill]. specialize (F n ltac:(lia)). replace (N - 1) with n in L by lia. rewrite L in F. cbn [fst snd] in F.
    exact (proj2 (proj2 (days_begin _ _ _ _ _ _ _ _ _ _ _ _ _ _ F W)) eq_refl).
  - change (fill (run_of f n (S (S c))) whole) with (follows (f (n + 1)) (f n) /\ fill (run_of f (n + 1) (S c)) whole). split.
    + apply (follow _ _ _ _ _ _ _ _ _ _ _ _ _ _ (F n ltac:(lia)) (F (n + 1) ltac:(lia))). rewrite (G n ltac:(lia)).
      destruct (b (n + 1)) as ((x & y) & z). reflexivity.
    + apply IH; [lia| | |exact L|lia]; intros k K; [apply F|apply G]; lia.
Qed.
Lemma run_fills f (b e : Z -> Z * Z * Z) whole u v w u' v' w' c n : days whole u v w u' v' w' -> (0 < c)%nat ->
  (forall k, n <= k < n + Z.of_nat c -> days (f k) (fst (fst (b k))) (snd (fst (b k))) (snd (b k)) (fst (fst (e k))) (snd (fst (e k))) (snd (e k))) ->
  (forall k, n <= k < n + Z.of_nat c - 1 -> next_day (fst (fst (e k))) (snd (fst (e k))) (snd (e k)) = b (k + 1)) ->
  b n = (u, v, w) -> e (n + Z.of_nat c - 1) = (u', v', w') -> parts_of_whole (run_of f n c) whole.
Proof.
  intros W P F G B L. destruct c as [|c]; [lia|]. change (begin_alike (f n) whole /\ fill (run_of f n (S c)) whole). split.
  - specialize (F n ltac:(lia)). rewrite B in F. cbn [fst snd] in F. exact (proj2 (proj1 (days_begin _ _ _ _ _ _ _ _ _ _ _ _ _ _ F W)) eq_refl).
  - exact (fill_run f b e whole u v w u' v' w' (n + Z.of_nat (S c)) W (S c) n eq_refl F G L P).
Qed.
(** Parts that are whole years, [p] in each. *)
Lemma years_fill f p whole c n : 0 < p -> (0 < c)%nat ->
  (forall k, n <= k < n + Z.of_nat c -> days (f k) (p * k) 1 1 (p * k + (p - 1)) 12 31) ->
  days whole (p * n) 1 1 (p * (n + Z.of_nat c) - 1) 12 31 -> parts_of_whole (run_of f n c) whole.
Proof.
  intros P C F W.
  apply (run_fills f (fun k => (p * k, 1, 1)) (fun k => (p * k + (p - 1), 12, 31)) whole _ _ _ _ _ _ c n W C); cbn [fst snd].
  - exact F.
  - intros k _. rewrite next_year_start. f_equal. f_equal. ring.
  - reflexivity.
  - f_equal. f_equal. ring.
Qed.
(** Parts that are whole months of a year, [p] in each. *)
Lemma months_fill f y p n c : 0 <= y <= 9999 -> (0 < c)%nat -> 0 < p -> p * Z.of_nat c = 12 ->
  (forall k, n <= k < n + Z.of_nat c -> days (f k) y (p * (k - n) + 1) 1 y (p * (k - n) + p) (month_len y (p * (k - n) + p))) ->
  parts_of_whole (run_of f n c) (four y).
Proof.
  intros H C P E F.
  apply (run_fills f (fun k => (y, p * (k - n) + 1, 1)) (fun k => (y, p * (k - n) + p, month_len y (p * (k - n) + p))) _ _ _ _ _ _ _ c n (year_days y H) C); cbn [fst snd].
  - exact F.
  - intros k K. assert (p * (k - n) + p < 12) by nia. assert (0 <= p * (k - n)) by nia. rewrite next_month_start by lia. f_equal. f_equal. ring.
  - f_equal. f_equal. ring.
  - replace (p * (n + Z.of_nat c - 1 - n) + p) with 12 by nia. reflexivity.
Qed.

Lemma quarters y : 0 <= y <= 9999 -> parts_of_whole (run_of (coded y) 33 4) (four y).
Proof.
  intro H. apply (months_fill (coded y) y 3 33 4 H); [lia|lia|reflexivity|]. intros k K.
  assert (k = 33 \/ k = 34 \/ k = 35 \/ k = 36) as [->|[->|[->| ->]]] by lia; apply code_days; try exact H; constructor.
Qed.
Lemma thirds y : 0 <= y <= 9999 -> parts_of_whole (run_of (coded y) 37 3) (four y).
Proof.
  intro H. apply (months_fill (coded y) y 4 37 3 H); [lia|lia|reflexivity|]. intros k K.
  assert (k = 37 \/ k = 38 \/ k = 39) as [->|[->| ->]] by lia; apply code_days; try exact H; constructor.
Qed.
Lemma halves y : 0 <= y <= 9999 -> parts_of_whole (run_of (coded y) 40 2) (four y).
Proof.
  intro H. apply (months_fill (coded y) y 6 40 2 H); [lia|lia|reflexivity|]. intros k K.
  assert (k = 40 \/ k = 41) as [->| ->] by lia; apply code_days; try exact H; constructor.
Qed.
Lemma twelve y : 0 <= y <= 9999 -> parts_of_whole (run_of (coded y) 1 12) (four y).
Proof.
  intro H. apply (months_fill (coded y) y 1 1 12 H); [lia|lia|reflexivity|]. intros k K.
  replace (1 * (k - 1) + 1) with k by ring. apply month_days; [exact H|lia].
Qed.
Lemma all_parts y : 0 <= y <= 9999 ->
  parts_of_whole (run_of (coded y) 33 4) (four y) /\ parts_of_whole (run_of (coded y) 37 3) (four y) /\
  parts_of_whole (run_of (coded y) 40 2) (four y) /\ parts_of_whole (run_of (coded y) 1 12) (four y).
Proof. intro H. split; [exact (quarters y H)|]. split; [exact (thirds y H)|]. split; [exact (halves y H)|exact (twelve y H)]. Qed.
Lemma month_parts y m : 0 <= y <= 9999 -> 1 <= m <= 12 -> parts_of_whole (run_of (dayed y m) 1 (Z.to_nat (month_len y m))) (coded y m).
Proof.
  intros H M. pose proof (month_len_range y m) as B.
  apply (run_fills (dayed y m) (fun k => (y, m, k)) (fun k => (y, m, k)) (coded y m) _ _ _ _ _ _ _ 1 (month_days y m H M)); cbn [fst snd].
  - lia.
  - intros k K. apply day_days; [exact H|]. split; lia.
  - intros k K. unfold next_day. replace (k <? month_len y m) with true by lia. reflexivity.
  - reflexivity.
  - f_equal. lia.
Qed.
Lemma decade_parts k : 0 <= k <= 999 -> parts_of_whole (run_of four (10 * k) 10) (decade k).
Proof.
  intro K. apply (years_fill four 1 (decade k) 10 (10 * k)); [lia|lia| |].
  - intros j J. replace (1 * j) with j by ring. replace (j + (1 - 1)) with j by ring. apply year_days. lia.
  - replace (1 * (10 * k)) with (10 * k) by ring. replace (1 * (10 * k + Z.of_nat 10) - 1) with (10 * k + 9) by lia. exact (dy_decade k K).
Qed.
Lemma century_parts k : 0 <= k <= 99 -> parts_of_whole (run_of decade (10 * k) 10) (century k).
Proof.
  intro K. apply (years_fill decade 10 (century k) 10 (10 * k)); [lia|lia| |].
  - intros j J. apply dy_decade. lia.
  - replace (10 * (10 * k)) with (100 * k) by ring. replace (10 * (10 * k + Z.of_nat 10) - 1) with (100 * k + 99) by lia. exact (dy_century k K).
Qed.
Lemma millennium_parts k : 0 <= k <= 9 -> parts_of_whole (run_of century (10 * k) 10) (millennium k).
Proof.
  intro K. apply (years_fill century 100 (millennium k) 10 (10 * k)); [lia|lia| |].
  - intros j J. apply dy_century. lia.
  - replace (100 * (10 * k)) with (1000 * k) by ring. replace (100 * (10 * k + Z.of_nat 10) - 1) with (1000 * k + 999) by lia. exact (dy_millennium k K).
Qed.

(** ** Seasons *)
Lemma coded_days y n : 999 <= y <= 9998 -> 21 <= n <= 32 -> exists b e j, days (coded y n) y b 1 (y + j) e (month_len (y + j) e) /\
  ((exists w, season_of n w b e j) \/ grouping_of n b e j).
Proof.
  intros Y N. assert (T : forall w b e j, season_of n w b e j -> exists b e j, days (coded y n) y b 1 (y + j) e (month_len (y + j) e) /\
    ((exists w, season_of n w b e j) \/ grouping_of n b e j)).
  { intros w b e j S. exists b, e, j. split; [|left; exists w; exact S]. assert (0 <= j <= 1) by (destruct S; lia).
    pose proof (dy_season n w b e j y S ltac:(unfold rendered; lia) ltac:(unfold rendered; lia)) as Q.
    unfold year_text in Q. replace (y <? 0) with false in Q by lia. exact Q. }
  assert (U : forall b e j, grouping_of n b e j -> exists b e j, days (coded y n) y b 1 (y + j) e (month_len (y + j) e) /\
    ((exists w, season_of n w b e j) \/ grouping_of n b e j)).
  { intros b e j G. exists b, e, j. split; [|right; exact G]. exact (dy_grouping n b e j y G ltac:(lia) (or_intror Y)). }
  assert (n = 21 \/ n = 22 \/ n = 23 \/ n = 24 \/ n = 25 \/ n = 26 \/ n = 27 \/ n = 28 \/ n = 29 \/ n = 30 \/ n = 31 \/ n = 32) as C by lia.
  repeat (destruct C as [->|C]); [..|subst n]; first [eapply T; econstructor|eapply U; econstructor].
Qed.
Lemma seasons_follow n s n' y : next_season n s n' -> 999 <= y -> y + s <= 9998 -> follows (coded (y + s) n') (coded y n).
Proof.
  intros S Y Y'.
  assert (0 <= s <= 1 /\ 21 <= n <= 32 /\ 21 <= n' <= 32) as (R & N & N') by (destruct S; lia).
  destruct (coded_days y n ltac:(lia) N) as (b & e & j & D & W). destruct (coded_days (y + s) n' ltac:(lia) N') as (b' & e' & j' & D' & W').
  apply (follow _ _ _ _ _ _ _ _ _ _ _ _ _ _ D D'). unfold next_day. rewrite Z.ltb_irrefl.
  assert (E : e < 12 /\ y + j = y + s /\ e + 1 = b').
  { destruct W as [(w & W)|W], W' as [(w' & W')|W']; destruct S; inversion W; inversion W'; subst; try lia; try discriminate. }
  destruct E as (E1 & E2 & E3). replace (e <? 12) with true by lia. rewrite E2, E3. reflexivity.
Qed.
