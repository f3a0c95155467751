(** Different ways of writing the same time give the same bounds. *)
From Coq Require Import Ascii String ZArith NArith Bool Lia ZifyBool List.
From Verif Require Import GoStr GoTime SpecCal SpecText SpecZone SpecGrammar SpecForms SpecSpan SpecSet SpecReads SpecSame StrFacts TextFacts Edtf Calendar Common Parser CalFacts ApiFacts SpanFacts InvFacts InvProofs Level0Facts Level0Proofs SeasonFacts Level1Proofs XProofs SigProofs ExpProofs GroupingProofs SetProofs ReadsFacts ReadsProofs LangForms FormFacts TimeFacts.
Import ListNotations.
Open Scope Z_scope.
Ltac Zify.zify_post_hook ::= Z.div_mod_to_equations.

Definition spot (s : str) (lo hi : edge) : Prop :=
  exists e, ParseString s = OK e /\ shows (r_lower (e_start e)) lo /\ shows (r_upper (e_end e)) hi.
Lemma spot_fun s lo hi lo' hi' : spot s lo hi -> spot s lo' hi' -> lo = lo' /\ hi = hi'.
Proof.
  intros (e & E & L & U) (e' & E' & L' & U'). rewrite E in E'. injection E' as <-.
  assert (F : forall b x x', shows b x -> shows b x' -> x = x').
  { intros b x x' H H'. destruct x, x'; cbn [shows] in *; destruct H as (A & B & C), H' as (A' & B' & C'); congruence. }
  eauto.
Qed.
Lemma dated_shows b y m d h i s : dated b y m d h i s -> shows b (At (instant y m d h i s)).
Proof. intros (A & _ & _ & B & C). repeat split; assumption. Qed.
Lemma spot_from_to s e y m d x y' m' d' x' : ParseString s = OK e -> from_to (e_start e) y m d y m x -> from_to (e_end e) y' m' x' y' m' d' ->
  spot s (from_day y m d) (to_day y' m' d').
Proof. intros E (A & _) (_ & B). exists e. split; [exact E|]. split; apply dated_shows; assumption. Qed.
Lemma spot_runs s e y m d y' m' d' : ParseString s = OK e -> runs e y m d y' m' d' -> spot s (from_day y m d) (to_day y' m' d').
Proof. intros E (A & B & _). exists e. split; [exact E|]. split; apply dated_shows; assumption. Qed.
Lemma spot_at s e lo hi : ParseString s = OK e -> Lower e = OK lo -> Upper e = OK hi -> spot s (At lo) (At hi).
Proof.
  intros E L U. exists e. split; [exact E|]. unfold Lower in L. unfold Upper in U.
  destruct (bound_shows s e (r_lower (e_start e)) E) as (a & A); [left; reflexivity|].
  destruct (bound_shows s e (r_upper (e_end e)) E) as (b & B); [cbn; auto|].
  destruct (d_timestamp (r_lower (e_start e))) as [t|] eqn:Et; [|discriminate]. destruct (d_timestamp (r_upper (e_end e))) as [u|] eqn:Eu; [|discriminate].
  injection L as <-. injection U as <-. unfold ts_time.
  split; [destruct a|destruct b]; cbn [shows] in *; try (rewrite Et in A; destruct A as (Q & _); discriminate); try (rewrite Eu in B; destruct B as (Q & _); discriminate);
    [destruct A as (_ & A1 & A2)|destruct B as (_ & B1 & B2)]; repeat split; assumption.
Qed.

(** ** Plain years, months and intervals *)
Lemma year_text_pos y : 0 <= y -> year_text y = four y.
Proof. intro H. unfold year_text. destruct (y <? 0) eqn:E; [lia|reflexivity]. Qed.
Lemma spot_year4 t y : year4 t y -> spot t (from_day y 1 1) (to_day y 12 31).
Proof. intro H. destruct (letter_year_parses t y H) as (e & _ & _ & _ & A & B & _ & _ & e0 & E & Q1 & Q2). rewrite <- Q1 in A. rewrite <- Q2 in B. exact (spot_from_to _ _ _ _ _ _ _ _ _ _ E A B). Qed.
Lemma spot_year y : 0 <= y <= 9999 -> spot (four y) (from_day y 1 1) (to_day y 12 31).
Proof. intro H. apply spot_year4. constructor. exact H. Qed.
Lemma spot_month y m : 0 <= y <= 9999 -> 1 <= m <= 12 -> spot (four y ++ $"-" ++ two m) (from_day y m 1) (to_day y m (month_len y m)).
Proof.
  intros Hy Hm. destruct (month_parses y m ltac:(lia) Hm) as (e & E & _ & A & B). unfold month_text in E. rewrite (year_text_pos y) in E by lia.
  exact (spot_from_to _ _ _ _ _ _ _ _ _ _ E A B).
Qed.
Lemma spot_pair a b y m d y' m' d' : level0_date a y m d -> level0_date b y' m' d' -> exists_date y m d -> exists_date y' m' d' ->
  spot (a ++ $"/" ++ b) (At (first_instant y m d)) (At (last_instant y' m' d')).
Proof.
  intros Ha Hb X X'. destruct (interval_parses a b y m d y' m' d' Ha Hb X X') as (e & E & _ & _ & (_ & A) & (_ & B)).
  exists e. split; [exact E|]. split; apply dated_shows; [apply A|apply B].
Qed.
Lemma month_real y m : 1 <= m <= 12 -> real_date y m 1.
Proof. intro H. split; [lia|]. pose proof (month_len_range y m). lia. Qed.
Lemma spot_years y y' : 0 <= y <= 9999 -> 0 <= y' <= 9999 -> spot (years_text y y') (from_day y 1 1) (to_day y' 12 31).
Proof.
  intros H H'. unfold years_text. pose proof (year_level0 y ltac:(lia)) as L. pose proof (year_level0 y' ltac:(lia)) as L'. rewrite year_text_pos in L, L' by lia.
  exact (spot_pair _ _ _ _ _ _ _ _ L L' (month_real y 1 ltac:(lia)) (month_real y' 1 ltac:(lia))).
Qed.
Lemma spot_months y b y' e : 0 <= y <= 9999 -> 0 <= y' <= 9999 -> 1 <= b <= 12 -> 1 <= e <= 12 ->
  spot (months_text y b y' e) (from_day y b 1) (to_day y' e (month_len y' e)).
Proof.
  intros H H' Hb He. unfold months_text. pose proof (month_level0 y b ltac:(lia) Hb) as L. pose proof (month_level0 y' e ltac:(lia) He) as L'.
  unfold month_text in L, L'. rewrite year_text_pos in L, L' by lia.
  replace (four y ++ $"-" ++ two b ++ $"/" ++ four y' ++ $"-" ++ two e) with ((four y ++ $"-" ++ two b) ++ $"/" ++ (four y' ++ $"-" ++ two e)) by reflexivity.
  exact (spot_pair _ _ _ _ _ _ _ _ L L' (month_real y b Hb) (month_real y' e He)).
Qed.

(** ** Sets *)
Lemma plain_fun t y m d y' m' d' : plain_date t y m d -> plain_date t y' m' d' -> y = y' /\ m = m' /\ d = d'.
Proof.
  intros [n r m0 d0 Hn Hr] H'. remember (four n ++ r) as s0 eqn:E. destruct H' as [k r' m1 d1 Hk Hr'].
  assert (Q : four k = four n /\ r' = r) by (injection E as E1 E2 E3 E4 E5; unfold four; rewrite E1, E2, E3, E4; auto). destruct Q as (Q & ->).
  apply four_inj in Q; [|assumption..]. subst k. split; [reflexivity|]. clear E.
  revert Hr'. remember r as r0 eqn:E. intro Hr'. rewrite E in Hr. destruct Hr as [|a Ha|a b Ha Hb]; destruct Hr' as [|a' Ha'|a' b' Ha' Hb']; auto; try discriminate E;
    try (apply (f_equal (@length ascii)) in E; discriminate E).
  - injection E as E1 E2. assert (Q : two a' = two a) by (unfold two; rewrite E1, E2; reflexivity). apply two_injective in Q; [|lia..]. subst. auto.
  - injection E as E1 E2 E3 E4. assert (Q : two a' = two a) by (unfold two; rewrite E1, E2; reflexivity). assert (Q' : two b' = two b) by (unfold two; rewrite E3, E4; reflexivity).
    apply two_injective in Q; [|lia..]. apply two_injective in Q'; [|lia..]. subst. auto.
Qed.
Lemma plain_same t y m d y' m' d' : plain_date t y m d -> exists_date y m d -> plain_date t y' m' d' -> exists_date y' m' d' ->
  first_instant y m d = first_instant y' m' d' /\ last_instant y m d = last_instant y' m' d'.
Proof.
  intros H X H' X'. pose proof (sle_refl t) as R. assert (P : forall u, t = t ++ u -> u = []) by (intros u E; rewrite <- (app_nil_r t) in E at 1; apply app_inv_head in E; auto).
  pose proof (plain_first _ _ _ _ _ _ _ _ H H' X X' R). pose proof (plain_first _ _ _ _ _ _ _ _ H' H X' X R).
  pose proof (plain_last _ _ _ _ _ _ _ _ H H' X X' R P). pose proof (plain_last _ _ _ _ _ _ _ _ H' H X' X R P). lia.
Qed.
Lemma plain_order t y m d : plain_date t y m d -> exists_date y m d -> first_instant y m d <= last_instant y m d.
Proof.
  intros H X. pose proof (last_real _ _ _ _ (plain_level0 _ _ _ _ H) X) as X'. apply instant_le; [exact X|exact X'| |unfold clock; lia..].
  unfold date_le. right. split; [reflexivity|]. unfold exists_date, real_date in X, X'. destruct m, d; cbn [first_month last_month first_day last_day] in *; lia.
Qed.
Lemma spot_plain t y m d : plain_date t y m d -> exists_date y m d -> spot t (At (first_instant y m d)) (At (last_instant y m d)).
Proof.
  intros H X. destruct (level0_parses _ _ _ _ (plain_level0 _ _ _ _ H) X) as (e & E & _ & _ & R & _). exact (spot_runs _ _ _ _ _ _ _ _ E R).
Qed.
Lemma spot_one o t y m d c : opening o -> closing c -> plain_date t y m d -> exists_date y m d -> spot (o :: t ++ [c]) (At (first_instant y m d)) (At (last_instant y m d)).
Proof.
  intros Ho Hc H X. assert (S : set_of is_plain (o :: t ++ [c]) [t] [t] false false).
  { refine (set_of_intro _ o [t] ([t] ++ []) (false || false) (false || false) c Ho Hc _ _); [discriminate|]. apply els_cons; [apply el_date; do 3 eexists; exact H|apply els_nil]. }
  destruct (set_parses _ _ _ _ _ S) as (e & E).
  - split; intros x [].
  - intros t' y' m' d' [<-|[]] H'. destruct (plain_fun t y m d y' m' d' H H') as (<- & <- & <-). exact X.
  - destruct (set_runs _ _ _ _ _ _ S E) as (t1 & y1 & m1 & d1 & t2 & y2 & m2 & d2 & [<-|[]] & [<-|[]] & _ & H1 & X1 & H2 & X2 & Lo & Up & _).
    destruct (plain_same _ _ _ _ _ _ _ H X H1 X1) as (-> & _). destruct (plain_same _ _ _ _ _ _ _ H X H2 X2) as (_ & ->).
    exact (spot_at _ _ _ _ E (Lo eq_refl) (Up eq_refl)).
Qed.
Lemma spot_two s l a y m d b y' m' d' : set_of is_plain s l [a; b] false false -> well_placed l ->
  plain_date a y m d -> exists_date y m d -> plain_date b y' m' d' -> exists_date y' m' d' -> wholly_before y m d y' m' d' ->
  spot s (At (first_instant y m d)) (At (last_instant y' m' d')).
Proof.
  intros S W Ha Xa Hb Xb B. unfold wholly_before in B. destruct (set_parses _ _ _ _ _ S W) as (e & E).
  { intros t y0 m0 d0 [<-|[<-|[]]] H; [destruct (plain_fun _ _ _ _ _ _ _ Ha H) as (<- & <- & <-); exact Xa|destruct (plain_fun _ _ _ _ _ _ _ Hb H) as (<- & <- & <-); exact Xb]. }
  destruct (set_runs _ _ _ _ _ _ S E) as (t1 & y1 & m1 & d1 & t2 & y2 & m2 & d2 & I1 & I2 & O & H1 & X1 & H2 & X2 & Lo & Up & _).
  assert (N : ~ sle b a).
  { intro Q. pose proof (plain_first _ _ _ _ _ _ _ _ Hb Ha Xb Xa Q). pose proof (plain_order _ _ _ _ Ha Xa). lia. }
  assert (t1 = a) as ->. { destruct I1 as [<-|[<-|[]]]; [reflexivity|]. destruct N. apply (O a). left. reflexivity. }
  assert (t2 = b) as ->. { destruct I2 as [<-|[<-|[]]]; [|reflexivity]. destruct N. apply (O b). right. left. reflexivity. }
  destruct (plain_same _ _ _ _ _ _ _ Ha Xa H1 X1) as (-> & _). destruct (plain_same _ _ _ _ _ _ _ Hb Xb H2 X2) as (_ & ->).
  exact (spot_at _ _ _ _ E (Lo eq_refl) (Up eq_refl)).
Qed.
Lemma plain_is t y m d : plain_date t y m d -> is_plain t.
Proof. intro H. do 3 eexists. exact H. Qed.
Lemma spot_range o a y m d b y' m' d' c : opening o -> closing c -> plain_date a y m d -> exists_date y m d -> plain_date b y' m' d' -> exists_date y' m' d' ->
  wholly_before y m d y' m' d' -> spot (o :: (a ++ $".." ++ b) ++ [c]) (At (first_instant y m d)) (At (last_instant y' m' d')).
Proof.
  intros Ho Hc Ha Xa Hb Xb. apply (spot_two _ [a ++ $".." ++ b] a y m d b); try assumption.
  - refine (set_of_intro _ o [a ++ $".." ++ b] ([a; b] ++ []) (false || false) (false || false) c Ho Hc _ _); [discriminate|].
    apply els_cons; [|apply els_nil]. apply el_range; do 3 eexists; eassumption.
  - split; intros x [].
Qed.
Lemma spot_ends o a y m d b y' m' d' c : opening o -> closing c -> plain_date a y m d -> exists_date y m d -> plain_date b y' m' d' -> exists_date y' m' d' ->
  wholly_before y m d y' m' d' -> spot (o :: (a ++ $"," ++ b) ++ [c]) (At (first_instant y m d)) (At (last_instant y' m' d')).
Proof.
  intros Ho Hc Ha Xa Hb Xb. apply (spot_two _ [a; b] a y m d b); try assumption.
  - refine (set_of_intro _ o [a; b] ([a] ++ [b] ++ []) (false || (false || false)) (false || (false || false)) c Ho Hc _ _); [discriminate|].
    apply els_cons; [apply el_date; do 3 eexists; eassumption|]. apply els_cons; [apply el_date; do 3 eexists; eassumption|]. apply els_nil.
  - split; intros x [<-|[]]; [exact (plain_not_dots _ (plain_is _ _ _ _ Hb))|exact (plain_not_dots' _ (plain_is _ _ _ _ Ha))].
Qed.
Lemma open_shows r b : open_range r -> b = r_lower r \/ b = r_upper r -> shows b Dots.
Proof. intros H I. destruct (H b I) as (A & B & C & _). repeat split; assumption. Qed.
Lemma upper_shows s e hi : ParseString s = OK e -> Upper e = OK hi -> shows (r_upper (e_end e)) (At hi).
Proof.
  intros E U. unfold Upper in U. destruct (bound_shows s e (r_upper (e_end e)) E) as (b & B); [cbn; auto|].
  destruct (d_timestamp (r_upper (e_end e))) as [u|] eqn:Eu; [|discriminate]. injection U as <-. unfold ts_time.
  destruct b; cbn [shows] in *; try (rewrite Eu in B; destruct B as (Q & _); discriminate). destruct B as (_ & B). split; assumption.
Qed.
Lemma lower_shows s e lo : ParseString s = OK e -> Lower e = OK lo -> shows (r_lower (e_start e)) (At lo).
Proof.
  intros E L. unfold Lower in L. destruct (bound_shows s e (r_lower (e_start e)) E) as (b & B); [left; reflexivity|].
  destruct (d_timestamp (r_lower (e_start e))) as [u|] eqn:Eu; [|discriminate]. injection L as <-. unfold ts_time.
  destruct b; cbn [shows] in *; try (rewrite Eu in B; destruct B as (Q & _); discriminate). destruct B as (_ & B). split; assumption.
Qed.
Lemma spot_upto o t y m d c : opening o -> closing c -> plain_date t y m d -> exists_date y m d -> spot (o :: ($".." ++ t) ++ [c]) Dots (At (last_instant y m d)).
Proof.
  intros Ho Hc H X. assert (S : set_of is_plain (o :: ($".." ++ t) ++ [c]) [$".." ++ t] [t] true false).
  { refine (set_of_intro _ o [$".." ++ t] ([t] ++ []) (true || false) (false || false) c Ho Hc _ _); [discriminate|]. apply els_cons; [apply el_upto; do 3 eexists; exact H|apply els_nil]. }
  destruct (set_parses _ _ _ _ _ S) as (e & E).
  - split; intros x [].
  - intros t' y' m' d' [<-|[]] H'. destruct (plain_fun t y m d y' m' d' H H') as (<- & <- & <-). exact X.
  - destruct (set_runs _ _ _ _ _ _ S E) as (t1 & y1 & m1 & d1 & t2 & y2 & m2 & d2 & _ & [<-|[]] & _ & H1 & X1 & H2 & X2 & _ & Up & O & _).
    destruct (plain_same _ _ _ _ _ _ _ H X H2 X2) as (_ & ->). destruct (O eq_refl) as (_ & _ & O'). exists e. split; [exact E|].
    split; [apply (open_shows _ _ (O' eq_refl)); auto|exact (upper_shows _ _ _ E (Up eq_refl))].
Qed.
Lemma spot_from o t y m d c : opening o -> closing c -> plain_date t y m d -> exists_date y m d -> spot (o :: (t ++ $"..") ++ [c]) (At (first_instant y m d)) Dots.
Proof.
  intros Ho Hc H X. assert (S : set_of is_plain (o :: (t ++ $"..") ++ [c]) [t ++ $".."] [t] false true).
  { refine (set_of_intro _ o [t ++ $".."] ([t] ++ []) (false || false) (true || false) c Ho Hc _ _); [discriminate|]. apply els_cons; [apply el_from; do 3 eexists; exact H|apply els_nil]. }
  destruct (set_parses _ _ _ _ _ S) as (e & E).
  - split; intros x [].
  - intros t' y' m' d' [<-|[]] H'. destruct (plain_fun t y m d y' m' d' H H') as (<- & <- & <-). exact X.
  - destruct (set_runs _ _ _ _ _ _ S E) as (t1 & y1 & m1 & d1 & t2 & y2 & m2 & d2 & [<-|[]] & _ & _ & H1 & X1 & H2 & X2 & Lo & _ & _ & O & _).
    destruct (plain_same _ _ _ _ _ _ _ H X H1 X1) as (-> & _). exists e. split; [exact E|].
    split; [exact (lower_shows _ _ _ E (Lo eq_refl))|apply (open_shows _ _ (O eq_refl eq_refl)); auto].
Qed.
Lemma spot_spans s lv f y m d y' m' d' p : spans s lv f y m d y' m' d' p -> spot s (from_day y m d) (to_day y' m' d').
Proof. intros (e & E & _ & _ & R & _). exact (spot_runs _ _ _ _ _ _ _ _ E R). Qed.
Lemma spot_stamp y m d hh mi ss z off : 0 <= y <= 9999 -> real_date y m d -> clock hh mi ss -> zone_means z off ->
  spot (stamp_text y m d hh mi ss z) (At (instant y m d hh mi ss - off)) (At (instant y m d hh mi ss - off)).
Proof.
  intros Hy Hr Hc Hz. destruct (stamp_ce y m d hh mi ss z off Hy Hr Hc Hz) as (e & b & E & _ & _ & B & T).
  unfold bounds in B. injection B as B1 B2 B3 B4. apply (spot_at _ e _ _ E); [unfold Lower; rewrite B1|unfold Upper; rewrite B4]; rewrite T; reflexivity.
Qed.
Lemma spot_letter t y : year4 t y -> spot ($"Y" ++ t) (from_day y 1 1) (to_day y 12 31).
Proof. intro H. destruct (letter_year_parses t y H) as (e & E & _ & _ & A & B & _). exact (spot_from_to _ _ _ _ _ _ _ _ _ _ E A B). Qed.
Lemma spot_exp a t m e : a = "Y"%char \/ a = "y"%char -> exp_text t m e -> 1000 <= m * 10 ^ e <= 9999 -> spot (a :: t) (from_day (m * 10 ^ e) 1 1) (to_day (m * 10 ^ e) 12 31).
Proof.
  intros Ha Ht H. destruct (exp_year a t m e Ha Ht) as (d & E & _ & _ & R & _); [rewrite Z.abs_eq; lia|]. exact (spot_runs _ _ _ _ _ _ _ _ E R).
Qed.
Lemma spot_day_of y m : 0 <= y <= 9999 -> 1 <= m <= 12 -> spot (four y ++ $"-" ++ two m ++ $"-XX") (from_day y m 1) (to_day y m (month_len y m)).
Proof. intros Hy Hm. destruct (month_xx_string y m Hy Hm) as (e & E & _ & R). exact (spot_runs _ _ _ _ _ _ _ _ E R). Qed.
Lemma spot_season n w b e j y : season_of n w b e j -> 0 <= y -> y + j <= 9999 -> spot (four y ++ $"-" ++ two n) (from_day y b 1) (to_day (y + j) e (month_len (y + j) e)).
Proof.
  intros S H H'. assert (0 <= j) by (destruct S; lia). destruct (season_code_string n w b e j y S) as (d & E & _ & _ & A & B & _); [left; lia|left; lia|].
  rewrite (year_text_pos y) in E by lia. exact (spot_from_to _ _ _ _ _ _ _ _ _ _ E A B).
Qed.
Lemma spot_words n w v sp sp' b e j y : season_of n w b e j -> any_case w v -> spaces sp -> spaces sp' -> 0 <= y -> y + j <= 9999 ->
  spot (v ++ sp ++ $"," ++ sp' ++ four y) (from_day y b 1) (to_day (y + j) e (month_len (y + j) e)).
Proof.
  intros S V P P' H H'. assert (0 <= j) by (destruct S; lia). destruct (season_words_string n w v sp sp' y b e j S V P P') as (d & E & _ & _ & A & B & _); [lia|lia|].
  exact (spot_from_to _ _ _ _ _ _ _ _ _ _ E A B).
Qed.
Lemma spot_grouping n b e j y : grouping_of n b e j -> 0 <= y <= 9999 -> j = 0 \/ 999 <= y <= 9998 -> spot (four y ++ $"-" ++ two n) (from_day y b 1) (to_day (y + j) e (month_len (y + j) e)).
Proof.
  intros G H H'. destruct (grouping_parses n b e j y G H H') as (d & E & _ & _ & (A & _) & (_ & B) & _).
  exists d. split; [exact E|]. split; apply dated_shows; assumption.
Qed.
Lemma year4_four y : 0 <= y <= 9999 -> year4 (four y) y.
Proof. intro H. rewrite <- (year_text_pos y) by lia. apply year4_text. lia. Qed.
Ltac Zify.zify_post_hook ::= idtac.
Lemma block_unique lo hi y p q : 0 < p -> 0 <= q -> 0 < y -> (forall z, lo <= z <= hi <-> 0 <= y * z /\ Z.abs z / p = q) -> lo = q * p /\ hi = q * p + p - 1.
Proof.
  intros P Q Y Z0. assert (D : forall r, 0 <= r < p -> (q * p + r) / p = q) by (intros r R; rewrite Z.add_comm, Z.div_add, Z.div_small by lia; lia).
  assert (M : 0 <= q * p) by nia.
  assert (C1 : lo <= q * p <= hi). { apply Z0. split; [nia|]. rewrite Z.abs_eq by lia. rewrite <- (Z.add_0_r (q * p)). apply D. lia. }
  assert (C2 : lo <= q * p + p - 1 <= hi). { apply Z0. split; [nia|]. rewrite Z.abs_eq by lia. replace (q * p + p - 1) with (q * p + (p - 1)) by ring. apply D. lia. }
  assert (C3 : ~ (lo <= q * p - 1 <= hi)).
  { rewrite Z0. intros (N1 & N2). assert (0 <= q * p - 1) by nia. rewrite Z.abs_eq in N2 by lia.
    replace (q * p - 1) with ((p - 1) + (q - 1) * p) in N2 by ring. rewrite Z.div_add in N2 by lia. rewrite Z.div_small in N2 by lia. lia. }
  assert (C4 : ~ (lo <= q * p + p <= hi)).
  { rewrite Z0. intros (N1 & N2). rewrite Z.abs_eq in N2 by lia. replace (q * p + p) with ((q + 1) * p) in N2 by ring. rewrite Z.div_mul in N2 by lia. lia. }
  lia.
Qed.
Lemma spot_significant y nd v : 1000 <= y <= 9999 -> dec_digits nd v -> v <= 4 ->
  spot (four y ++ $"S" ++ nd) (from_day (y / 10 ^ v * 10 ^ v) 1 1) (to_day (y / 10 ^ v * 10 ^ v + 10 ^ v - 1) 12 31).
Proof.
  intros H D Hv. pose proof (SigProofs.dec_nonneg _ _ D) as V.
  destruct (before_spans (four y) y nd v (sy_year _ _ (year4_four y ltac:(lia))) D) as (e & lo & hi & E & _ & _ & A & B & _ & _ & Z0); [lia|lia|].
  assert (P : 0 < 10 ^ v) by (apply Z.pow_pos_nonneg; lia). rewrite (Z.abs_eq y) in Z0 by lia.
  destruct (block_unique lo hi y (10 ^ v) (y / 10 ^ v) P (Z.div_pos y (10 ^ v) ltac:(lia) P) ltac:(lia) Z0) as (-> & ->).
  exists e. split; [exact E|]. destruct A as (A & _), B as (_ & B). split; apply dated_shows; assumption.
Qed.
Ltac Zify.zify_post_hook ::= Z.div_mod_to_equations.
Lemma plain_of_year y : 0 <= y <= 9999 -> plain_date (four y) y None None.
Proof. intro H. rewrite <- (app_nil_r (four y)). constructor; [exact H|constructor]. Qed.
Lemma spot_dots_to t y m d : plain_date t y m d -> exists_date y m d -> spot ($"../" ++ t) Dots (At (last_instant y m d)).
Proof.
  intros H X. destruct (proj1 (start_parses t y m d (plain_level0 _ _ _ _ H) X)) as (e & E & _ & O & _ & _ & B).
  exists e. split; [exact E|]. split; [apply (open_shows _ _ O); auto|apply dated_shows; exact B].
Qed.
Lemma spot_to_dots y : 0 <= y <= 9999 -> spot (four y ++ $"/..") (from_day y 1 1) Dots.
Proof.
  intro H. destruct (end_string (four y) y ($"..") (year4_four y H) (or_intror eq_refl)) as (e & E & _ & _ & (_ & A & _) & [(_ & O)|(Q & _)]); [|discriminate].
  exists e. split; [exact E|]. split; [apply dated_shows; exact A|apply (open_shows _ _ O); auto].
Qed.
Definition timed (lo hi : edge) : Prop := (exists t, lo = At t) \/ exists t, hi = At t.
Lemma season_range n w b e j : season_of n w b e j -> 1 <= b <= 12 /\ 1 <= e <= 12 /\ 0 <= j.
Proof. intros []; lia. Qed.
Lemma grouping_range n b e j : grouping_of n b e j -> 1 <= b <= 12 /\ 1 <= e <= 12 /\ 0 <= j <= 1.
Proof. intros []; lia. Qed.
Lemma significant_range y v : 1000 <= y <= 9999 -> 0 <= v <= 4 -> 0 <= y / 10 ^ v * 10 ^ v /\ y / 10 ^ v * 10 ^ v + 10 ^ v - 1 <= 9999.
Proof.
  intros H Hv. assert (v = 0 \/ v = 1 \/ v = 2 \/ v = 3 \/ v = 4) as [->|[->|[->|[->| ->]]]] by lia;
    [change (10 ^ 0) with 1|change (10 ^ 1) with 10|change (10 ^ 2) with 100|change (10 ^ 3) with 1000|change (10 ^ 4) with 10000]; lia.
Qed.
Ltac one := split; [|left; eexists; reflexivity].
Theorem same_spot s t : same_time s t -> exists lo hi, spot s lo hi /\ spot t lo hi /\ timed lo hi.
Proof.
  induction 1 as [y m d hh mi ss z off y' m' d' hh' mi' ss' z' off' Hy Hr Hc Hz Hy' Hr' Hc' Hz' Q|t y H|a t m e Ha Ht H|k H|k H|k H|y nd v H D Hv|y H|y H|y m H Hm
    |n w b e j y S H H'|n w v sp sp' b e j y S V P P' H H'|n b e j y G H H'
    |o t y m d c Ho Hc H X|o a y m d b y' m' d' c Ho Hc Ha Xa Hb Xb B|o a y m d b y' m' d' c Ho Hc Ha Xa Hb Xb B|o t y m d c Ho Hc H X|o y c Ho Hc H
    |s t H (lo & hi & A & B & T)|s t u H (lo & hi & A & B & T) H' (lo' & hi' & A' & B' & T')]; do 2 eexists.
  - split; [exact (spot_stamp _ _ _ _ _ _ _ _ Hy Hr Hc Hz)|]. one. rewrite Q. exact (spot_stamp _ _ _ _ _ _ _ _ Hy' Hr' Hc' Hz').
  - split; [exact (spot_letter _ _ H)|]. one. exact (spot_year4 _ _ H).
  - split; [exact (spot_exp _ _ _ _ Ha Ht H)|]. one. apply spot_year. lia.
  - split; [exact (spot_spans _ _ _ _ _ _ _ _ _ _ (decade_spans k H))|]. one. apply spot_years; lia.
  - split; [exact (spot_spans _ _ _ _ _ _ _ _ _ _ (century_spans k H))|]. one. apply spot_years; lia.
  - split; [exact (spot_spans _ _ _ _ _ _ _ _ _ _ (millennium_spans k H))|]. one. apply spot_years; lia.
  - split; [exact (spot_significant _ _ _ H D Hv)|]. one. pose proof (SigProofs.dec_nonneg _ _ D) as P0. destruct (significant_range y v H (conj P0 Hv)).
    assert (0 < 10 ^ v) by (apply Z.pow_pos_nonneg; lia). apply spot_years; lia.
  - split; [exact (spot_spans _ _ _ _ _ _ _ _ _ _ (year_xx_spans y H))|]. one. exact (spot_year y H).
  - split; [exact (spot_spans _ _ _ _ _ _ _ _ _ _ (year_xx_xx_spans y H))|]. one. exact (spot_year y H).
  - split; [exact (spot_day_of y m H Hm)|]. one. exact (spot_month y m H Hm).
  - destruct (season_range _ _ _ _ _ S) as (R1 & R2 & R3). split; [exact (spot_season _ _ _ _ _ _ S H H')|]. one. apply spot_months; lia.
  - split; [exact (spot_words _ _ _ _ _ _ _ _ _ S V P P' H H')|]. one. exact (spot_season _ _ _ _ _ _ S H H').
  - destruct (grouping_range _ _ _ _ G) as (R1 & R2 & R3). split; [exact (spot_grouping _ _ _ _ _ G H H')|]. one. apply spot_months; lia.
  - split; [exact (spot_one _ _ _ _ _ _ Ho Hc H X)|]. one. exact (spot_plain _ _ _ _ H X).
  - split; [exact (spot_range _ _ _ _ _ _ _ _ _ _ Ho Hc Ha Xa Hb Xb B)|]. one. exact (spot_pair _ _ _ _ _ _ _ _ (plain_level0 _ _ _ _ Ha) (plain_level0 _ _ _ _ Hb) Xa Xb).
  - split; [exact (spot_ends _ _ _ _ _ _ _ _ _ _ Ho Hc Ha Xa Hb Xb B)|]. one. exact (spot_pair _ _ _ _ _ _ _ _ (plain_level0 _ _ _ _ Ha) (plain_level0 _ _ _ _ Hb) Xa Xb).
  - split; [exact (spot_upto _ _ _ _ _ _ Ho Hc H X)|]. split; [exact (spot_dots_to _ _ _ _ H X)|right; eexists; reflexivity].
  - split; [|one; exact (spot_to_dots y H)].
    pose proof (plain_of_year y H) as Hp. refine (spot_from _ _ _ _ _ _ Ho Hc Hp _). exact (month_real y 1 ltac:(lia)).
  - split; [exact B|]. split; [exact A|exact T].
  - destruct (spot_fun _ _ _ _ _ B A') as (-> & ->). split; [exact A|]. split; [exact B'|exact T].
Qed.
Lemma datetime_of s e b : ParseString s = OK e -> In b (bounds e) -> d_datetime b = match d_timestamp b with Some t => format_rfc3339 t | None => [] end.
Proof.
  intros E I. destruct (d_timestamp b) as [t|] eqn:T; [|apply (proj2 (bound_kinds _ _ E _ I)); exact T].
  destruct (bounds_agree _ _ E _ _ I T) as (y & m & d & hh & mi & ss & Hr & Hc & Hy & -> & Hd & _). rewrite (format_wide _ _ _ _ _ _ Hy Hr Hc). exact Hd.
Qed.
Lemma shows_same s e b s' e' b' x : ParseString s = OK e -> In b (bounds e) -> ParseString s' = OK e' -> In b' (bounds e') -> shows b x -> shows b' x -> same_bound b b'.
Proof.
  intros E I E' I' H H'. unfold same_bound. rewrite (datetime_of _ _ _ E I), (datetime_of _ _ _ E' I').
  destruct x; cbn [shows] in *; destruct H as (-> & -> & ->), H' as (-> & -> & ->); repeat split.
Qed.
Theorem same_bounds s t : same_time s t -> exists e e', ParseString s = OK e /\ ParseString t = OK e' /\ same_outer e e'.
Proof.
  intro H. destruct (same_spot s t H) as (lo & hi & (e & E & L & U) & (e' & E' & L' & U') & _). exists e, e'. split; [exact E|]. split; [exact E'|].
  split; [apply (shows_same s e _ t e' _ lo)|apply (shows_same s e _ t e' _ hi)]; try assumption; cbn; auto.
Qed.
Lemma not_open s lo hi e : ParseString s = OK e -> shows (r_lower (e_start e)) lo -> shows (r_upper (e_end e)) hi -> timed lo hi -> IsOpen (e_edtf e) = false /\ seqb s OPEN = false.
Proof.
  intros E L U T. rewrite (proj1 (parse_class _ _ E)). assert (G : IsOpen s = false).
  { unfold IsOpen. destruct (seqb s OPEN) eqn:Q.
    - apply seqb_eq in Q. subst s. vm_compute in E. injection E as <-. destruct T as [(t & ->)|(t & ->)]; [destruct L as (L & _)|destruct U as (U & _)]; discriminate.
    - destruct (seqb s OPEN_2012) eqn:Q'; [|reflexivity]. apply seqb_eq in Q'. subst s. vm_compute in E. discriminate. }
  split; [exact G|]. unfold IsOpen in G. apply orb_false_iff in G. apply G.
Qed.
Lemma alike_wrap {A} m m' (x y : res A) : alike x y -> alike (wrap_err m x) (wrap_err m' y).
Proof. intros [r|n n' e e' H]; [destruct r; cbn [wrap_err]; [apply al_same|apply al_texts, al_same|apply al_same]|]. cbn [wrap_err]. apply al_texts, al_texts, H. Qed.
Lemma alike_bind {A B} (x y : res A) (f : A -> res B) (g : A -> res B) : alike x y -> (forall a, alike (f a) (g a)) -> alike (bind x f) (bind y g).
Proof.
  intros H G. assert (E : forall e e', @alike A (Err e) (Err e') -> @alike B (Err e) (Err e')).
  { intros e e' Q. revert e' Q. induction e; intros e' Q; inversion Q; subst; try apply al_same. apply al_texts. auto. }
  destruct H as [r|n n' e e' H]; [destruct r; cbn [bind]; [apply G|apply al_same|apply al_same]|]. cbn [bind]. apply al_texts. apply E. exact H.
Qed.
Theorem spot_cmp s t lo hi : spot s lo hi -> spot t lo hi -> IsOpen s = false -> IsOpen t = false -> forall u v,
  alike (IsBefore s u) (IsBefore t u) /\ alike (IsBefore u s) (IsBefore u t) /\ alike (IsAfter s u) (IsAfter t u) /\ alike (IsAfter u s) (IsAfter u t) /\
  alike (IsBetween s u v) (IsBetween t u v) /\ alike (IsBetween u s v) (IsBetween u t v) /\ alike (IsBetween u v s) (IsBetween u v t).
Proof.
  intros (e & E & L & U) (e' & E' & L' & U') O0 O0'.
  assert (O : IsOpen (e_edtf e) = false) by (rewrite (proj1 (parse_class _ _ E)); exact O0). assert (O' : IsOpen (e_edtf e') = false) by (rewrite (proj1 (parse_class _ _ E')); exact O0').
  assert (P : seqb s OPEN = false) by (unfold IsOpen in O0; apply orb_false_iff in O0; apply O0). assert (P' : seqb t OPEN = false) by (unfold IsOpen in O0'; apply orb_false_iff in O0'; apply O0').
  assert (QL : Lower e = Lower e'). { unfold Lower. destruct lo; cbn [shows] in L, L'; destruct L as (-> & _), L' as (-> & _); reflexivity. }
  assert (QU : Upper e = Upper e'). { unfold Upper. destruct hi; cbn [shows] in U, U'; destruct U as (-> & _), U' as (-> & _); reflexivity. }
  assert (B1 : forall u, alike (IsBefore s u) (IsBefore t u)).
  { intro u. unfold IsBefore. rewrite E, E'. cbn [text_err bind]. destruct (ParseString u) as [w| |]; cbn [text_err bind]; try apply al_same. unfold Before. rewrite O, O', QU.
    apply alike_bind; [apply al_same|intro a]. apply alike_bind; [apply alike_wrap, al_same|intro; apply al_same]. }
  assert (B2 : forall u, alike (IsBefore u s) (IsBefore u t)).
  { intro u. unfold IsBefore. destruct (ParseString u) as [w| |]; cbn [text_err bind]; try apply al_same. rewrite E, E'. cbn [text_err bind]. unfold Before. rewrite QL.
    destruct (IsOpen (e_edtf w)); [apply al_same|]. apply alike_bind; [apply alike_wrap, al_same|intro; apply al_same]. }
  assert (A1 : forall u, alike (IsAfter s u) (IsAfter t u)).
  { intro u. unfold IsAfter. rewrite E, E'. cbn [text_err bind]. destruct (ParseString u) as [w| |]; cbn [text_err bind]; try apply al_same. unfold After. rewrite O, O', QL.
    apply alike_bind; [apply al_same|intro a]. apply alike_bind; [apply alike_wrap, al_same|intro; apply al_same]. }
  assert (A2 : forall u, alike (IsAfter u s) (IsAfter u t)).
  { intro u. unfold IsAfter. destruct (ParseString u) as [w| |]; cbn [text_err bind]; try apply al_same. rewrite E, E'. cbn [text_err bind]. unfold After. rewrite QU.
    destruct (IsOpen (e_edtf w)); [apply al_same|]. apply alike_bind; [apply alike_wrap, al_same|intro; apply al_same]. }
  intros u v. repeat split; auto; unfold IsBetween.
  - apply alike_bind; [apply alike_wrap, B1|intros [|]; [apply al_same|]]. destruct (negb _); [|apply al_same].
    apply alike_bind; [apply alike_wrap, A1|intro; apply al_same].
  - apply alike_bind; [apply alike_wrap, B2|intro; apply al_same].
  - apply alike_bind; [apply al_same|intros [|]; [apply al_same|]]. rewrite P, P'. cbn [negb]. apply alike_bind; [apply alike_wrap, A2|intro; apply al_same].
Qed.
Theorem same_cmp s t : same_time s t -> forall u v,
  alike (IsBefore s u) (IsBefore t u) /\ alike (IsBefore u s) (IsBefore u t) /\ alike (IsAfter s u) (IsAfter t u) /\ alike (IsAfter u s) (IsAfter u t) /\
  alike (IsBetween s u v) (IsBetween t u v) /\ alike (IsBetween u s v) (IsBetween u t v) /\ alike (IsBetween u v s) (IsBetween u v t).
Proof.
  intro H. destruct (same_spot s t H) as (lo & hi & S & S' & T). pose proof S as (e & E & L & U). pose proof S' as (e' & E' & L' & U').
  apply (spot_cmp s t lo hi S S').
  - rewrite <- (proj1 (parse_class _ _ E)). exact (proj1 (not_open _ _ _ _ E L U T)).
  - rewrite <- (proj1 (parse_class _ _ E')). exact (proj1 (not_open _ _ _ _ E' L' U' T)).
Qed.
