(** Proofs of the properties of PropPeriod.v. *)
From Coq Require Import Ascii String ZArith NArith Bool Lia ZifyBool List.
From Verif Require Import GoStr GoTime SpecCal SpecText SpecGrammar SpecSpan SpecPeriod Edtf Calendar Common Level0 Level1 Level2 Parser CalFacts Level0Facts ApiFacts ApiProofs.
Import ListNotations.
Open Scope Z_scope.

Lemma level0_span s y m d : level0_date s y m d -> exists_date y m d ->
  exists e, ParseString s = OK e /\ Lower e = OK (first_instant y m d) /\ Upper e = OK (last_instant y m d).
Proof.
  intros H Hx. destruct (level0_parses _ _ _ _ H Hx) as (e & He & _ & _ & ((Hl & _) & (Hu & _) & _) & _).
  exists e. split; [exact He|]. split; [apply Lower_OK; exact Hl|apply Upper_OK; exact Hu].
Qed.
Lemma level0_not_open s y m d : level0_date s y m d -> s <> $"..".
Proof.
  intros H E. apply level0_is in H. destruct (date_bytes s "."%char H) as [Q|Q]; try discriminate Q.
  rewrite E. left. reflexivity.
Qed.
Lemma instants_lt y m d y' m' d' : real_date y m d -> real_date y' m' d' ->
  (instant y m d 23 59 59 <= instant y' m' d' 0 0 0 <-> earlier y m d y' m' d').
Proof.
  intros H H'. pose proof (epoch_lt _ _ _ _ _ _ H H') as Q. unfold date_lt in Q. unfold earlier, instant. lia.
Qed.
Lemma spans_lt a y m d b y' m' d' : level0_date a y m d -> level0_date b y' m' d' -> exists_date y m d -> exists_date y' m' d' ->
  (last_instant y m d <= first_instant y' m' d' <-> all_earlier y m d y' m' d').
Proof. intros Ha Hb Xa Xb. apply instants_lt; [exact (last_real _ _ _ _ Ha Xa)|exact Xb]. Qed.

Lemma before_level0 a y m d b y' m' d' : level0_date a y m d -> level0_date b y' m' d' -> exists_date y m d -> exists_date y' m' d' ->
  exists r, IsBefore a b = OK r /\ IsAfter b a = OK r /\ (r = true <-> all_earlier y m d y' m' d').
Proof.
  intros Ha Hb Xa Xb. destruct (level0_span _ _ _ _ Ha Xa) as (A & PA & _ & UA). destruct (level0_span _ _ _ _ Hb Xb) as (B & PB & LB & _).
  pose proof (level0_not_open _ _ _ _ Ha) as Na. pose proof (level0_not_open _ _ _ _ Hb) as Nb.
  assert (Q : exists r, IsBefore a b = OK r /\ (r = true <-> all_earlier y m d y' m' d')).
  { rewrite IsBefore_cases, PA, PB, Before_cases, (open_parsed _ _ PA Na).
    apply Lower_OK in LB. apply Upper_OK in UA. rewrite LB, UA. eexists. split; [reflexivity|].
    rewrite <- (spans_lt _ _ _ _ _ _ _ _ Ha Hb Xa Xb). lia. }
  destruct Q as (r & Q & E). exists r. split; [exact Q|]. split; [|exact E]. apply converse_strings; assumption.
Qed.

Lemma between_level0 s y m d i y' m' d' c y'' m'' d'' :
  level0_date s y m d -> level0_date i y' m' d' -> level0_date c y'' m'' d'' ->
  exists_date y m d -> exists_date y' m' d' -> exists_date y'' m'' d'' ->
  exists r, IsBetween s i c = OK r /\ (r = true <-> ~ all_earlier y m d y' m' d' /\ ~ all_earlier y'' m'' d'' y m d).
Proof.
  intros Hs Hi Hc Xs Xi Xc.
  destruct (level0_span _ _ _ _ Hs Xs) as (S & PS & LS & US). destruct (level0_span _ _ _ _ Hi Xi) as (I & PI & LI & _).
  destruct (level0_span _ _ _ _ Hc Xc) as (C & PC & _ & UC).
  destruct (between_closed s i c S I C _ _ _ _ (level0_not_open _ _ _ _ Hs) (level0_not_open _ _ _ _ Hc) PS PI PC LS US LI UC) as (r & Hr & E).
  exists r. split; [exact Hr|]. rewrite E, <- (spans_lt _ _ _ _ _ _ _ _ Hs Hi Xs Xi), <- (spans_lt _ _ _ _ _ _ _ _ Hc Hs Xc Xs). lia.
Qed.
Lemma between_level0_open s y m d i y' m' d' :
  level0_date s y m d -> level0_date i y' m' d' -> exists_date y m d -> exists_date y' m' d' ->
  exists r, IsBetween s i ($"..") = OK r /\ (r = true <-> ~ all_earlier y m d y' m' d').
Proof.
  intros Hs Hi Xs Xi.
  destruct (level0_span _ _ _ _ Hs Xs) as (S & PS & LS & US). destruct (level0_span _ _ _ _ Hi Xi) as (I & PI & LI & _).
  destruct (between_open s i S I _ _ (level0_not_open _ _ _ _ Hs) PS PI US LI) as (r & Hr & E).
  exists r. split; [exact Hr|]. rewrite E, <- (spans_lt _ _ _ _ _ _ _ _ Hs Hi Xs Xi). lia.
Qed.

(** ** Tiling *)
Lemma day_tile y m d y' m' d' : real_date y m d -> next_day y m d = (y', m', d') ->
  instant y' m' d' 0 0 0 = instant y m d 23 59 59 + 1.
Proof.
  intros H E. pose proof (epoch_next y m d H) as Q. rewrite E in Q. destruct Q as (Q & _). unfold instant. lia.
Qed.
Lemma next_last y m d y' m' d' : (forall k, m = Some k -> 1 <= k <= 12) -> (m = None -> d = None) -> next_period y m d = (y', m', d') ->
  next_day y (last_month m) (last_day y (last_month m) d) = (y', first_month m', first_day d').
Proof.
  intros R N. unfold next_period. destruct m as [m|]; [destruct d as [d|]|rewrite (N eq_refl)]; cbn [last_month last_day].
  - destruct (next_day y m d) as ((a & b) & c). intro H. injection H as <- <- <-. reflexivity.
  - specialize (R m eq_refl). unfold next_day. rewrite Z.ltb_irrefl. destruct (m =? 12) eqn:E; intro H; injection H as <- <- <-; cbn [first_month first_day].
    + replace (m <? 12) with false by lia. reflexivity.
    + replace (m <? 12) with true by lia. reflexivity.
  - intro H. injection H as <- <- <-. unfold next_day. rewrite Z.ltb_irrefl. reflexivity.
Qed.
Lemma next_exists y m d y' m' d' : (forall k, m = Some k -> 1 <= k <= 12) -> (m = None -> d = None) ->
  real_date y (last_month m) (last_day y (last_month m) d) -> next_period y m d = (y', m', d') -> exists_date y' m' d'.
Proof.
  intros R N X H. pose proof (epoch_next _ _ _ X) as Q. rewrite (next_last _ _ _ _ _ _ R N H) in Q. exact (proj2 Q).
Qed.
Lemma tiling a y m d b y' m' d' : level0_date a y m d -> exists_date y m d -> next_period y m d = (y', m', d') -> level0_date b y' m' d' ->
  exists A B up lo, ParseString a = OK A /\ ParseString b = OK B /\ Upper A = OK up /\ Lower B = OK lo /\ lo = up + 1.
Proof.
  intros Ha Xa E Hb. destruct (level0_range _ _ _ _ Ha) as (_ & R & _ & N). pose proof (last_real _ _ _ _ Ha Xa) as La.
  pose proof (next_exists _ _ _ _ _ _ R N La E) as Xb.
  destruct (level0_span _ _ _ _ Ha Xa) as (A & PA & _ & UA). destruct (level0_span _ _ _ _ Hb Xb) as (B & PB & LB & _).
  exists A, B, (last_instant y m d), (first_instant y' m' d'). repeat (split; [assumption|]).
  apply day_tile; [exact La|]. apply next_last; assumption.
Qed.

(** ** Nesting *)
Lemma real_le y m d y' m' d' : real_date y m d -> real_date y' m' d' -> ~ earlier y' m' d' y m d -> epoch_day y m d <= epoch_day y' m' d'.
Proof.
  intros H H' Q. pose proof (epoch_lt _ _ _ _ _ _ H' H) as E. unfold date_lt in E. unfold earlier in Q. lia.
Qed.
Lemma nesting a y m d b y' m' d' : level0_date a y m d -> level0_date b y' m' d' -> exists_date y m d -> exists_date y' m' d' ->
  within y m d y' m' d' ->
  exists A B la ua lb ub, ParseString a = OK A /\ ParseString b = OK B /\ Lower A = OK la /\ Upper A = OK ua /\
    Lower B = OK lb /\ Upper B = OK ub /\ lb <= la /\ la <= ua /\ ua <= ub.
Proof.
  intros Ha Hb Xa Xb (<- & Wm & Wd).
  destruct (level0_range _ _ _ _ Ha) as (_ & R & _ & N). destruct (level0_range _ _ _ _ Hb) as (_ & R' & _ & N').
  pose proof (last_real _ _ _ _ Ha Xa) as La. pose proof (last_real _ _ _ _ Hb Xb) as Lb.
  destruct (level0_span _ _ _ _ Ha Xa) as (A & PA & LA & UA). destruct (level0_span _ _ _ _ Hb Xb) as (B & PB & LB & UB).
  exists A, B, (first_instant y m d), (last_instant y m d), (first_instant y m' d'), (last_instant y m' d').
  repeat (split; [assumption|]).
  assert (Q1 : epoch_day y (first_month m') (first_day d') <= epoch_day y (first_month m) (first_day d)).
  { apply real_le; [assumption..|]. unfold earlier, exists_date, real_date in *. destruct m, d, m', d'; cbn [first_month first_day] in *;
    destruct Wm as [Wm|Wm], Wd as [Wd|Wd]; try discriminate Wm; try discriminate Wd; try injection Wm as ->; try injection Wd as ->; try lia;
    try discriminate (N eq_refl); discriminate (N' eq_refl). }
  assert (Q2 : epoch_day y (last_month m) (last_day y (last_month m) d) <= epoch_day y (last_month m') (last_day y (last_month m') d')).
  { apply real_le; [assumption..|]. unfold earlier, exists_date, real_date in *. destruct m, d, m', d'; cbn [last_month last_day] in *;
    destruct Wm as [Wm|Wm], Wd as [Wd|Wd]; try discriminate Wm; try discriminate Wd; try injection Wm as ->; try injection Wd as ->; try lia;
    try discriminate (N eq_refl); try discriminate (N' eq_refl); intros [?|(_ & [?|(? & ?)])]; subst; lia. }
  assert (Q3 : epoch_day y (first_month m) (first_day d) <= epoch_day y (last_month m) (last_day y (last_month m) d)).
  { apply real_le; [assumption..|]. unfold earlier, exists_date, real_date in *. destruct m, d; cbn [last_month last_day first_month first_day] in *; intros [?|(_ & [?|(? & ?)])]; subst; lia. }
  unfold first_instant, last_instant, instant. lia.
Qed.

Lemma contained_level0 a y m d b y' m' d' : level0_date a y m d -> level0_date b y' m' d' -> exists_date y m d -> exists_date y' m' d' ->
  within y m d y' m' d' -> IsBefore a b = OK false /\ IsAfter a b = OK false.
Proof.
  intros Ha Hb Xa Xb W. destruct (nesting _ _ _ _ _ _ _ _ Ha Hb Xa Xb W) as (A & B & la & ua & lb & ub & PA & PB & LA & UA & LB & UB & H1 & H2 & H3).
  destruct (level0_span _ _ _ _ Ha Xa) as (A' & PA' & LA' & UA'). rewrite PA in PA'. injection PA' as <-.
  destruct (level0_span _ _ _ _ Hb Xb) as (B' & PB' & LB' & UB'). rewrite PB in PB'. injection PB' as <-.
  rewrite LA in LA'. rewrite UA in UA'. rewrite LB in LB'. rewrite UB in UB'. injection LA' as LA'. injection UA' as UA'. injection LB' as LB'. injection UB' as UB'.
  assert (S : la < ua).
  { subst. pose proof (last_real _ _ _ _ Ha Xa) as La. unfold first_instant, last_instant in *.
    pose proof (epoch_lt _ _ _ _ _ _ La Xa) as Q. unfold date_lt in Q. unfold instant in *. lia. }
  destruct (before_level0 _ _ _ _ _ _ _ _ Ha Hb Xa Xb) as (r & R & _ & E).
  destruct (before_level0 _ _ _ _ _ _ _ _ Hb Ha Xb Xa) as (r' & _ & R' & E').
  rewrite <- (spans_lt _ _ _ _ _ _ _ _ Ha Hb Xa Xb) in E. rewrite <- (spans_lt _ _ _ _ _ _ _ _ Hb Ha Xb Xa) in E'.
  rewrite R, R'. split; f_equal; [destruct r|destruct r']; try reflexivity; exfalso; [pose proof (proj1 E eq_refl)|pose proof (proj1 E' eq_refl)]; lia.
Qed.
