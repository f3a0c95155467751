(** Lemmas for C85. *)
From Coq Require Import Ascii String ZArith NArith Bool Lia ZifyBool List.
From Verif Require Import GoStr SpecCal SpecText SpecZone SpecGrammar SpecSpan SpecForms SpecSet SpecMask SpecReads SpecSame SpecCompare SpecWithin CalFacts Edtf Common Parser InvFacts InvProofs Level0Facts Level0Proofs FormFacts SetProofs ReadsFacts ReadsProofs CompareProofs SameProofs AgainProofs.
Import ListNotations.
Open Scope Z_scope.

Definition spots_within (s t : str) : Prop := exists lo hi lo' hi', spot s lo hi /\ spot t lo' hi' /\ no_earlier lo' lo /\ no_later hi hi'.
Lemma span_spot s lo hi : level0_span s lo hi -> spot s (At lo) (At hi).
Proof.
  intros [t y m d L X|a y m d b y' m' d' L X L' X'].
  - destruct (level0_parses _ _ _ _ L X) as (e & E & _ & _ & R & _). exact (spot_runs _ _ _ _ _ _ _ _ E R).
  - exact (spot_pair _ _ _ _ _ _ _ _ L L' X X').
Qed.
Lemma earlier_refl x : no_earlier x x.
Proof. destruct x; cbn; auto. lia. Qed.
Lemma later_refl x : no_later x x.
Proof. destruct x; cbn; auto. lia. Qed.
Lemma earlier_trans x y z : no_earlier x y -> no_earlier y z -> no_earlier x z.
Proof. destruct x, y, z; cbn; auto; try contradiction. lia. Qed.
Lemma later_trans x y z : no_later x y -> no_later y z -> no_later x z.
Proof. destruct x, y, z; cbn; auto; try contradiction. lia. Qed.
Lemma within_spots s t : within s t -> spots_within s t.
Proof.
  induction 1 as [s lo hi t lo' hi' S T A B|y m d hh mi ss z off t lo hi Y R C Z0 T A|s lo hi t y m d S P X A|s lo hi y S Y A|t y m d s l ds S W N I X P|s t H|s t u _ (a & b & c & d & S & T & A & B) _ (a' & b' & c' & d' & T' & U & A' & B')].
  - exists (At lo), (At hi), (At lo'), (At hi'). split; [exact (span_spot _ _ _ S)|]. split; [exact (span_spot _ _ _ T)|]. split; assumption.
  - do 2 eexists. exists (At lo), (At hi). split; [exact (spot_stamp y m d hh mi ss z off Y R C Z0)|]. split; [exact (span_spot _ _ _ T)|]. cbn. lia.
  - exists (At lo), (At hi). do 2 eexists. split; [exact (span_spot _ _ _ S)|]. split; [exact (spot_dots_to t y m d P X)|]. cbn. split; [exact I|exact A].
  - exists (At lo), (At hi). do 2 eexists. split; [exact (span_spot _ _ _ S)|]. split; [exact (spot_to_dots y Y)|]. cbn. split; [exact A|exact I].
  - pose proof (X t y m d I P) as Xt. destruct (set_parses _ _ _ _ _ S W X) as (e & E).
    destruct (set_covers _ _ _ _ S E N t y m d I P Xt) as (lo & hi & L & U & A & B).
    do 2 eexists. exists (At lo), (At hi). split; [exact (spot_plain t y m d P Xt)|]. split; [exact (spot_at _ _ _ _ E L U)|]. cbn. split; assumption.
  - destruct (same_spot s t H) as (lo & hi & S & T & _). exists lo, hi, lo, hi. split; [exact S|]. split; [exact T|]. split; [apply earlier_refl|apply later_refl].
  - destruct (spot_fun _ _ _ _ _ T T') as (-> & ->). exists a, b, c', d'. split; [exact S|]. split; [exact U|].
    split; [exact (earlier_trans _ _ _ A' A)|exact (later_trans _ _ _ B B')].
Qed.
Theorem within_inside s t : within s t -> exists e e', ParseString s = OK e /\ ParseString t = OK e' /\ inside e e'.
Proof.
  intro H. destruct (within_spots s t H) as (lo & hi & lo' & hi' & (e & E & L & U) & (e' & E' & L' & U') & A & B).
  exists e, e'. split; [exact E|]. split; [exact E'|]. exists lo, hi, lo', hi'. auto 7.
Qed.
(** ** Comparisons *)
Lemma shown_reading s e lo hi : ParseString s = OK e -> shows (r_lower (e_start e)) lo -> shows (r_upper (e_end e)) hi -> reading s lo hi.
Proof.
  intros E L U. assert (S : spot s lo hi) by (exists e; auto).
  destruct (read_strings s e E) as [(-> & _ & _ & A & B)|[(-> & _ & _ & A & B)|(lv & f & a & b & T & R & _ & _ & A & B)]].
  - destruct (spot_fun _ _ _ Dots Dots S) as (-> & ->); [exists e; auto|constructor].
  - destruct (spot_fun _ _ _ Blank Blank S) as (-> & ->); [exists e; auto|constructor].
  - destruct (spot_fun _ _ _ a b S) as (-> & ->); [exists e; auto|]. exact (rd_feature s lv f a b T R).
Qed.
Lemma reading_spot s lo hi : reading s lo hi -> spot s lo hi.
Proof.
  intros [| |s' lv f lo' hi' T R]; [eexists; split; [vm_compute; reflexivity|repeat split]|eexists; split; [vm_compute; reflexivity|repeat split]|].
  destruct (proj1 (meaning s' lv f T lo' hi') R) as (e & P & _ & _ & L & H). exists e. auto.
Qed.
Lemma reading_once s lo hi lo' hi' : reading s lo hi -> reading s lo' hi' -> lo = lo' /\ hi = hi'.
Proof. intros A B. exact (spot_fun _ _ _ _ _ (reading_spot _ _ _ A) (reading_spot _ _ _ B)). Qed.
Lemma after_true s t : IsAfter s t = OK true <-> exists x hi lo' y, reading s (At x) hi /\ reading t lo' (At y) /\ y <= x.
Proof.
  rewrite after_values. split.
  - intro H. inversion H as [? ? ? U| | | |? ? x hi lo' y A B C| ]; subst; [destruct (unreadable_value _ _ _ U)|]. exists x, hi, lo', y. auto.
  - intros (x & hi & lo' & y & A & B & C). exact (as_yes s t x hi lo' y A B C).
Qed.
Lemma before_true s t : IsBefore s t = OK true <-> exists lo y x hi', reading s lo (At y) /\ reading t (At x) hi' /\ y <= x.
Proof.
  rewrite before_values. split.
  - intro H. inversion H as [? ? ? U| | | |? ? lo y x hi' A B C| ]; subst; [destruct (unreadable_value _ _ _ U)|]. exists lo, y, x, hi'. auto.
  - intros (lo & y & x & hi' & A & B & C). exact (bs_yes s t lo y x hi' A B C).
Qed.
Lemma inside_readings s t e e' : ParseString s = OK e -> ParseString t = OK e' -> inside e e' ->
  exists lo hi lo' hi', reading s lo hi /\ reading t lo' hi' /\ no_earlier lo' lo /\ no_later hi hi'.
Proof.
  intros E E' (lo & hi & lo' & hi' & A & B & C & D & F & G). exists lo, hi, lo', hi'.
  split; [exact (shown_reading _ _ _ _ E A B)|]. split; [exact (shown_reading _ _ _ _ E' C D)|]. split; assumption.
Qed.
Theorem inside_after s t e e' u : ParseString s = OK e -> ParseString t = OK e' -> inside e e' ->
  (IsAfter t u = OK true -> IsAfter s u = OK true) /\ (IsAfter u t = OK true -> IsAfter u s = OK true) /\
  (IsBefore t u = OK true -> IsBefore s u = OK true) /\ (IsBefore u t = OK true -> IsBefore u s = OK true).
Proof.
  intros E E' H. destruct (inside_readings _ _ _ _ E E' H) as (lo & hi & lo' & hi' & S & T & A & B). repeat split.
  - rewrite !after_true. intros (x & h & l & y & P & Q & C). destruct (reading_once _ _ _ _ _ T P) as (-> & _). destruct lo as [a| |]; cbn in A; try contradiction.
    exists a, hi, l, y. split; [exact S|]. split; [exact Q|]. lia.
  - rewrite !after_true. intros (x & h & l & y & P & Q & C). destruct (reading_once _ _ _ _ _ T Q) as (_ & ->). destruct hi as [a| |]; cbn in B; try contradiction.
    exists x, h, lo, a. split; [exact P|]. split; [exact S|]. lia.
  - rewrite !before_true. intros (l & y & x & h & P & Q & C). destruct (reading_once _ _ _ _ _ T P) as (_ & ->). destruct hi as [a| |]; cbn in B; try contradiction.
    exists lo, a, x, h. split; [exact S|]. split; [exact Q|]. lia.
  - rewrite !before_true. intros (l & y & x & h & P & Q & C). destruct (reading_once _ _ _ _ _ T Q) as (-> & _). destruct lo as [a| |]; cbn in A; try contradiction.
    exists l, y, a, hi. split; [exact P|]. split; [exact S|]. lia.
Qed.
Lemma lasting_edges e lo hi : lasting e -> shows (r_lower (e_start e)) lo -> shows (r_upper (e_end e)) hi -> exists a b, lo = At a /\ hi = At b /\ a < b.
Proof.
  intros (a & b & L & U & H) A B. unfold Lower, Upper in *. rewrite (shown_time _ _ A) in L. rewrite (shown_time _ _ B) in U.
  destruct lo as [x| |]; try discriminate L. destruct hi as [y| |]; try discriminate U. injection L as <-. injection U as <-. exists x, y. auto.
Qed.
Theorem inside_apart s t e e' : ParseString s = OK e -> ParseString t = OK e' -> inside e e' -> lasting e ->
  IsAfter s t <> OK true /\ IsBefore s t <> OK true /\ IsAfter t s <> OK true /\ IsBefore t s <> OK true.
Proof.
  intros E E' (lo & hi & lo' & hi' & A & B & C & D & F & G) La.
  destruct (lasting_edges _ _ _ La A B) as (a & b & -> & -> & H).
  pose proof (shown_reading _ _ _ _ E A B) as S. pose proof (shown_reading _ _ _ _ E' C D) as T.
  repeat split; intro Q; try (apply after_true in Q; destruct Q as (x & h & l & y & P & Q & K)); try (apply before_true in Q; destruct Q as (l & y & x & h & P & Q & K)).
  - destruct (reading_once _ _ _ _ _ S P) as (P1 & _), (reading_once _ _ _ _ _ T Q) as (_ & ->). injection P1 as <-. cbn in G. lia.
  - destruct (reading_once _ _ _ _ _ S P) as (_ & P1), (reading_once _ _ _ _ _ T Q) as (-> & _). injection P1 as <-. cbn in F. lia.
  - destruct (reading_once _ _ _ _ _ S Q) as (_ & P1), (reading_once _ _ _ _ _ T P) as (-> & _). injection P1 as <-. cbn in F. lia.
  - destruct (reading_once _ _ _ _ _ S Q) as (P1 & _), (reading_once _ _ _ _ _ T P) as (_ & ->). injection P1 as <-. cbn in G. lia.
Qed.
Theorem inside_between s t e e' : ParseString s = OK e -> ParseString t = OK e' -> inside e e' -> lasting e -> lasting e' -> IsBetween s t t = OK true.
Proof.
  intros E E' (lo & hi & lo' & hi' & A & B & C & D & F & G) La Lb.
  destruct (lasting_edges _ _ _ La A B) as (a & b & -> & -> & H). destruct (lasting_edges _ _ _ Lb C D) as (a' & b' & -> & -> & H').
  pose proof (shown_reading _ _ _ _ E A B) as S. pose proof (shown_reading _ _ _ _ E' C D) as T. cbn in F, G.
  apply between_values. destruct (dots_dec t) as [->|N].
  - apply bw_open; [|reflexivity]. apply (bs_no s ($"..") (At a) b a' (At b')); [exact S|exact T|lia].
  - apply bw_yes; [|exact N|].
    + apply (bs_no s t (At a) b a' (At b')); [exact S|exact T|lia].
    + apply (as_no s t a (At b) (At a') b'); [exact S|exact T|lia].
Qed.
