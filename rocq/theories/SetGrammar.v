(** The grammar of sets (re/re.go:61) and the members ParseSetRepresentations finds. *)
From Coq Require Import Ascii String ZArith NArith Bool Lia ZifyBool List.
From Verif Require Import GoStr GoTime Regex Patterns RegexSym RegexRel RegexGen SpecCal SpecText SpecGrammar StrFacts TextFacts SplitFacts Edtf Calendar Common Level0 Level1 Level2 Parser CalFacts ApiFacts SpanFacts YmdShapes YmdFacts InvFacts GrammarFacts SetFacts.
Import ListNotations.
Open Scope Z_scope.

Definition dots : re := RSeq (rc 46) (rc 46).
Definition set_item : re := RSeq (RCap 3 yr) (RSeq (dtail 4 5) (ROpt (RAlt (rc 44) dots))).
Definition set_inner : re := RSeq (ROpt dots) (RSeq (RSeq set_item (RStar set_item)) (ROpt dots)).
Definition set_grammar : re :=
  RSeq (RCap 1 (RAlt (rc 91) (rc 123))) (RSeq (RCap 2 set_inner) (RSet [(125, 125); (93, 93)])).
Lemma set_anchored : anchored SetRepresentations = Some set_grammar.
Proof. reflexivity. Qed.

Lemma gen_dots u k : gen dots u k <-> u = $".." /\ k = [].
Proof.
  split.
  - intros (u1 & k1 & u2 & k2 & H1 & H2 & -> & ->). apply gen_rc in H1, H2; try lia. destruct H1 as (-> & ->), H2 as (-> & ->). auto.
  - intros (-> & ->). exists ["."%char], [], ["."%char], []. split; [apply gen_rc; [lia|auto]|]. split; [apply gen_rc; [lia|auto]|auto].
Qed.
Lemma gen_opt_dots u : (exists k, gen (ROpt dots) u k) <-> maybe_dots u.
Proof.
  unfold maybe_dots. split.
  - intros (k & [H|(-> & _)]); [apply gen_dots in H; right; apply H|left; reflexivity].
  - intros [-> | ->]; [exists []; right; auto|exists []; left; apply gen_dots; auto].
Qed.
Lemma gen_item u : (exists k, gen set_item u k) <-> exists t sep, u = t ++ sep /\ is_level0_date t /\ set_sep sep.
Proof.
  unfold set_item, is_level0_date. split.
  - intros (k & H). apply gen_dre_seq in H. destruct H as (u1 & k1 & u2 & k2 & H1 & H2 & -> & _).
    exists u1, u2. split; [reflexivity|]. split.
    + apply level0_iff. apply gen_dre in H1. destruct H1 as (t & y & r & m & d & H & Hy & Hm & _). eauto 10.
    + unfold set_sep. destruct H2 as [H2|(-> & _)]; [|auto]. apply gen_alt in H2. destruct H2 as [H2|H2].
      * apply gen_rc in H2; [|lia]. right; left. apply H2.
      * apply gen_dots in H2. right; right. apply H2.
  - intros (t & sep & -> & Ht & Hs). apply level0_iff in Ht. destruct Ht as (t0 & y & r & m & d & H & Hy & Hm).
    eexists. apply gen_dre_seq. exists t. eexists. exists sep, []. split; [apply gen_dre; eauto 10|]. split; [|auto].
    destruct Hs as [-> | [-> | ->]].
    + right. auto.
    + left. left. apply gen_rc; [lia|auto].
    + left. right. apply gen_dots. auto.
Qed.
Lemma gstar_items u k : gstar (gen set_item) u k -> u = [] \/ set_items u.
Proof.
  intro H. induction H as [|u k v l Hu Hne _ [-> |IH]]; [auto| |].
  - right. assert (G : exists k, gen set_item u k) by eauto. apply gen_item in G. destruct G as (t & sep & -> & Ht & Hs).
    rewrite app_nil_r. constructor; assumption.
  - right. assert (G : exists k, gen set_item u k) by eauto. apply gen_item in G. destruct G as (t & sep & -> & Ht & Hs).
    rewrite <- app_assoc. constructor; assumption.
Qed.
Lemma date_nonempty t : is_level0_date t -> t <> [].
Proof. intros (y & m & d & [t0 y0 r m0 d0 [n Hn|n Hn] _]); discriminate. Qed.
Lemma items_gstar u : set_items u -> exists k, gstar (gen set_item) u k.
Proof.
  intro H. induction H as [t sep Ht Hs|t sep r Ht Hs _ (l & IH)].
  - destruct (proj2 (gen_item (t ++ sep))) as (k & G); [eauto|]. exists ([] ++ k). rewrite <- (app_nil_r (t ++ sep)).
    constructor; [exact G| |constructor]. pose proof (date_nonempty t Ht). destruct t; [congruence|discriminate].
  - destruct (proj2 (gen_item (t ++ sep))) as (k & G); [eauto|]. exists (l ++ k). rewrite app_assoc.
    constructor; [exact G| |exact IH]. pose proof (date_nonempty t Ht). destruct t; [congruence|discriminate].
Qed.
Lemma items_cons t sep r : is_level0_date t -> set_sep sep -> (r = [] \/ set_items r) -> set_items (t ++ sep ++ r).
Proof. intros Ht Hs [-> | H]; [rewrite app_nil_r; constructor; assumption|constructor; assumption]. Qed.
Lemma gen_inner u : (exists k, gen set_inner u k) <-> set_body u.
Proof.
  split.
  - intros (k & u1 & k1 & v1 & l1 & H1 & (v2 & l2 & u4 & k4 & (u2 & k2 & u3 & k3 & H2 & H3 & -> & ->) & H4 & -> & ->) & -> & ->).
    assert (M1 : maybe_dots u1) by (apply gen_opt_dots; eauto). assert (M4 : maybe_dots u4) by (apply gen_opt_dots; eauto).
    constructor; [exact M1| |exact M4]. apply gstar_items in H3.
    assert (G : exists k, gen set_item u2 k) by eauto. apply gen_item in G. destruct G as (t & sep & -> & Ht & Hs).
    rewrite <- app_assoc. apply items_cons; assumption.
  - intros [a r b Ha Hr Hb]. apply gen_opt_dots in Ha, Hb. destruct Ha as (ka & Ha), Hb as (kb & Hb).
    assert (Q : exists k, gen (RSeq set_item (RStar set_item)) r k).
    { destruct Hr as [t sep Ht Hs|t sep r Ht Hs Hr].
      - destruct (proj2 (gen_item (t ++ sep))) as (k & G); [eauto|]. exists ([] ++ k). exists (t ++ sep), k, [], [].
        split; [exact G|]. split; [constructor|]. rewrite app_nil_r. auto.
      - destruct (proj2 (gen_item (t ++ sep))) as (k & G); [eauto|]. apply items_gstar in Hr. destruct Hr as (l & Hl).
        exists (l ++ k), (t ++ sep), k, r, l. rewrite app_assoc. auto. }
    destruct Q as (kr & Q). exists ((kb ++ kr) ++ ka), a, ka, (r ++ b), (kb ++ kr). split; [exact Ha|]. split; [|auto].
    exists r, kr, b, kb. auto.
Qed.
Theorem IsSet_spec s : match_string SetRepresentations s = true <-> exists o body, set_string s o body.
Proof.
  rewrite (anchored_match SetRepresentations set_grammar) by reflexivity. split.
  - intros (k & u1 & k1 & v1 & l1 & (k0 & H1 & ->) & (u2 & k2 & u3 & k3 & (k4 & H2 & ->) & H3 & -> & ->) & -> & ->).
    assert (B : set_body u2) by (apply gen_inner; eauto).
    destruct H3 as (c & -> & Hc & ->). unfold in_set in Hc. cbn [existsb fst snd] in Hc.
    assert (C : c = "]"%char \/ c = "}"%char).
    { destruct (Z.eq_dec (code c) 93) as [E|E]; [left|right]; apply code_inj; [rewrite E; reflexivity|].
      assert (code c = 125) as E2 by lia. rewrite E2. reflexivity. }
    apply gen_alt in H1. destruct H1 as [H1|H1]; (apply gen_rc in H1; [|lia]); destruct H1 as (-> & ->); do 2 eexists; econstructor; eauto.
  - intros (o & body & [o0 b0 c Ho Hb Hc]). apply gen_inner in Hb. destruct Hb as (k & Hb).
    eexists. exists [o0]. eexists. exists (b0 ++ [c]). eexists. split; [|split; [|split; reflexivity]].
    + exists []. split; [|reflexivity]. apply gen_alt. destruct Ho as [-> | ->]; [left|right]; (apply gen_rc; [lia|auto]).
    + exists b0. eexists. exists [c]. eexists. split; [exists k; split; [exact Hb|reflexivity]|]. split; [|split; reflexivity].
      exists c. split; [reflexivity|]. split; [|reflexivity]. destruct Hc as [-> | ->]; reflexivity.
Qed.
Lemma set_submatch s : length (find_submatch SetRepresentations s) = 6%nat -> exists o body,
  set_string s o body /\ sub (find_submatch SetRepresentations s) 1 = [o] /\ sub (find_submatch SetRepresentations s) 2 = body.
Proof.
  intro H. destruct (anchored_submatch SetRepresentations set_grammar eq_refl eq_refl s) as (k & G & E).
  { intro Q. rewrite Q in H. discriminate. }
  destruct G as (u1 & k1 & v1 & l1 & (k0 & H1 & ->) & (u2 & k2 & u3 & k3 & (k4 & H2 & ->) & H3 & -> & ->) & -> & ->).
  assert (B : set_body u2) by (apply gen_inner; eauto).
  destruct H3 as (c & -> & Hc & ->). unfold in_set in Hc. cbn [existsb fst snd] in Hc.
  assert (C : c = "]"%char \/ c = "}"%char).
  { destruct (Z.eq_dec (code c) 93) as [E1|E1]; [left|right]; apply code_inj; [rewrite E1; reflexivity|].
    assert (code c = 125) as E2 by lia. rewrite E2. reflexivity. }
  assert (exists o, u1 = [o] /\ k0 = [] /\ (o = "["%char \/ o = "{"%char)) as (o & -> & -> & Ho).
  { apply gen_alt in H1. destruct H1 as [H1|H1]; (apply gen_rc in H1; [|lia]); destruct H1 as (-> & ->); eauto. }
  exists o, u2. split; [constructor; assumption|]. rewrite E. unfold caps_out, sub. cbn [re_ncap SetRepresentations seq map nth app].
  split; [|reflexivity]. change (cap_get 1 ((2%nat, u2) :: k4 ++ [(1%nat, [o])])) with (cap_get 1 (k4 ++ [(1%nat, [o])])).
  rewrite (cap_get_skip _ _ _ _ _ H2); reflexivity.
Qed.

(** ** Members *)
Lemma set_members_inv s l : forall ps so eo, set_members s l = OK (ps, so, eo) ->
  (so = true <-> exists b, In ($".." ++ b) l) /\
  (eo = true -> exists a, a <> [] /\ In (a ++ $"..") l) /\
  Forall (fun q => ~ occurs ($"..") q) ps /\
  (forall c, (forall p, In p l -> ~ In c p) -> forall q, In q ps -> ~ In c q) /\
  (l <> [] -> ps <> []).
Proof.
  assert (D : $".." <> []) by discriminate.
  induction l as [|d l IH]; intros ps so eo H; cbn [set_members] in H.
  - injection H as <- <- <-. split; [split; [discriminate|intros (b & [])]|]. split; [discriminate|]. split; [constructor|].
    split; [intros c _ q []|congruence].
  - apply bind_OK in H. destruct H as (((h & so1) & eo1) & H1 & H). apply bind_OK in H. destruct H as (((l2 & so2) & eo2) & H2 & H).
    injection H as <- <- <-. destruct (IH _ _ _ H2) as (A1 & A2 & A3 & A4 & _). clear IH H2.
    assert (B : (so1 = true <-> exists b, d = $".." ++ b) /\ (eo1 = true -> exists a, a <> [] /\ d = a ++ $"..") /\
                Forall (fun q => ~ occurs ($"..") q) h /\ (forall c, ~ In c d -> forall q, In q h -> ~ In c q) /\ h <> []).
    { destruct (split d ($"..")) as [|x [|y [|]]] eqn:E; try discriminate H1.
      - injection H1 as <- <- <-. destruct (split_single d _ D _ E) as (-> & N).
        split; [split; [discriminate|]; intros (b & ->); exfalso; apply N; exists [], b; reflexivity|].
        split; [discriminate|]. split; [constructor; [exact N|constructor]|]. split; [intros c Hc q [<-|[]]; exact Hc|discriminate].
      - destruct (split_pair d _ D _ _ E) as (-> & Nx & Ny).
        assert (Cx : forall c, ~ In c (x ++ $".." ++ y) -> ~ In c x) by (intros c Hc Q; apply Hc; apply in_or_app; auto).
        assert (Cy : forall c, ~ In c (x ++ $".." ++ y) -> ~ In c y) by (intros c Hc Q; apply Hc; apply in_or_app; right; apply in_or_app; auto).
        assert (S1 : x <> [] -> (exists b, x ++ $".." ++ y = $".." ++ b) -> False).
        { intros Hx (b & Q). assert (F : split (x ++ $".." ++ y) ($"..") = x :: split y ($"..")).
          { rewrite E. f_equal. symmetry. apply split_not; assumption. }
          rewrite Q in F. unfold split at 1 in F.
          rewrite split_step in F by (discriminate || (apply has_prefix_spec; eauto)). injection F as F _. apply Hx. symmetry. exact F. }
        destruct (is_empty x) eqn:Ex; cbn [negb andb] in H1.
        + apply is_empty_spec in Ex. subst x. injection H1 as <- <- <-. split; [split; [intros _; exists y; reflexivity|reflexivity]|].
          split; [discriminate|]. split; [constructor; [exact Ny|constructor]|]. split; [intros c Hc q [<-|[]]; exact (Cy c Hc)|discriminate].
        + apply is_empty_false in Ex. destruct (is_empty y) eqn:Ey; cbn [negb] in H1.
          * apply is_empty_spec in Ey. subst y. injection H1 as <- <- <-.
            split; [split; [discriminate|intro Q; exfalso; exact (S1 Ex Q)]|]. split; [intros _; exists x; rewrite app_nil_r; auto|].
            split; [constructor; [exact Nx|constructor]|]. split; [intros c Hc q [<-|[]]; exact (Cx c Hc)|discriminate].
          * injection H1 as <- <- <-. split; [split; [discriminate|intro Q; exfalso; exact (S1 Ex Q)]|]. split; [discriminate|].
            split; [constructor; [exact Nx|constructor; [exact Ny|constructor]]|].
            split; [intros c Hc q [<-|[<-|[]]]; auto|discriminate]. }
    destruct B as (B1 & B2 & B3 & B4 & B5). split; [|split; [|split; [|split]]].
    + rewrite orb_true_iff, A1, B1. split.
      * intros [(b & ->)|(b & Hb)]; exists b; [left; reflexivity|right; exact Hb].
      * intros (b & [Hb|Hb]); [left|right]; exists b; auto.
    + rewrite orb_true_iff. intros [Q|Q]; [apply B2 in Q; destruct Q as (a & Ha & ->); exists a; split; [exact Ha|left; reflexivity]|].
      apply A2 in Q. destruct Q as (a & Ha & Q). exists a. split; [exact Ha|right; exact Q].
    + apply Forall_app. split; assumption.
    + intros c Hc q Hq. apply in_app_or in Hq. destruct Hq as [Hq|Hq]; [apply (B4 c (Hc d (or_introl eq_refl)) q Hq)|].
      refine (A4 c _ q Hq). intros p Hp. apply Hc. right. exact Hp.
    + intros _. destruct h; [congruence|discriminate].
Qed.

(** ** Sorting *)
From Coq Require Import Permutation Sorted.
Lemma insert_perm x l : Permutation (insert_str x l) (x :: l).
Proof.
  induction l as [|y l IH]; cbn [insert_str]; [reflexivity|]. destruct (str_leb x y); [reflexivity|].
  rewrite IH. constructor.
Qed.
Lemma sort_perm l : Permutation (sort_strs l) l.
Proof. induction l as [|x l IH]; cbn [sort_strs]; [reflexivity|]. rewrite insert_perm, IH. reflexivity. Qed.
Lemma last_in {A} (l : list A) x : In (last l x) (x :: l).
Proof.
  destruct l as [|y l]; [left; reflexivity|]. right.
  rewrite (app_removelast_last x (l := y :: l)) at 2 by discriminate. apply in_or_app. right. left. reflexivity.
Qed.
Lemma sort_hd_last ps hd tl : sort_strs ps = hd :: tl -> In hd ps /\ In (last tl hd) ps.
Proof.
  intro H. pose proof (sort_perm ps) as P. rewrite H in P.
  split; eapply Permutation_in; try exact P; [left; reflexivity|apply last_in].
Qed.

(** ** The span of a set before flags *)
Lemma body_bytes b : set_body b -> all_in [(44, 46); (48, 57)] b.
Proof.
  intro H. apply gen_inner in H. destruct H as (k & H). apply gen_bytes in H; [|reflexivity].
  eapply Forall_impl; [|exact H]. intros c Hc. unfold in_set in *. vm_compute bytes in Hc. cbn [existsb fst snd] in *. lia.
Qed.
Lemma body_no_slash b : set_body b -> ~ In "/"%char b.
Proof.
  intros H Q. apply body_bytes in H. unfold all_in in H. rewrite Forall_forall in H. specialize (H _ Q). discriminate.
Qed.
Lemma set_text_open so eo hd tl sp : ~ In "/"%char hd -> ~ In "/"%char (last tl hd) -> hd <> $".." -> last tl hd <> $".." ->
  DateSpanFromEDTF (set_text so eo hd tl) = OK sp ->
  let mu := two_or_more tl in
  d_open (r_lower (s_start sp)) = so && negb mu /\ d_open (r_upper (s_start sp)) = so && negb mu /\
  d_open (r_lower (s_end sp)) = negb so && eo && negb mu /\ d_open (r_upper (s_end sp)) = negb so && eo && negb mu.
Proof.
  intros Sh Sl Nh Nl H. cbv zeta.
  assert (K : forall l r, ~ In "/"%char l -> ~ In "/"%char r -> DateSpanFromEDTF (l ++ "/"%char :: r) = OK sp ->
    (d_open (r_lower (s_start sp)) = seqb l ($"..") /\ d_open (r_upper (s_start sp)) = seqb l ($"..")) /\
    (d_open (r_lower (s_end sp)) = seqb r ($"..") /\ d_open (r_upper (s_end sp)) = seqb r ($".."))).
  { intros l r Hl Hr Q. destruct (DateSpan_inv _ _ Q) as [(N & _)|(l' & r' & lo & hi & lo' & hi' & E & N1 & N2 & P1 & P2 & ->)].
    - exfalso. apply N. apply in_or_app. right. left. reflexivity.
    - assert (l' = l /\ r' = r) as (-> & ->).
      { assert (F : split (l ++ "/"%char :: r) ["/"%char] = [l'; r']) by (rewrite E; apply split_two; assumption).
        rewrite split_two in F by assumption. injection F as -> ->. auto. }
      apply half_bounds in P1, P2. destruct P1 as (_ & _ & _ & P1 & P1'). destruct P2 as (_ & _ & _ & P2 & P2').
      cbn [s_start s_end r_lower r_upper].
      assert (B : forall (b : bool) t, (b = true <-> t = $"..") -> b = seqb t ($"..")).
      { intros b t Hb. destruct (seqb t ($"..")) eqn:Es; [apply Hb, seqb_eq; exact Es|]. apply seqb_neq in Es. destruct b; [|reflexivity]. exfalso. tauto. }
      auto. }
  assert (Eh : seqb hd ($"..") = false) by (apply seqb_neq; exact Nh).
  assert (El : seqb (last tl hd) ($"..") = false) by (apply seqb_neq; exact Nl).
  assert (Sd : ~ In "/"%char ($"..")) by (intros [Q|[Q|[]]]; discriminate).
  unfold set_text in H. destruct ((so || eo) && two_or_more tl) eqn:E1.
  - change ($"/" ++ last tl hd) with ("/"%char :: last tl hd) in H. apply K in H; [|assumption..]. rewrite Eh, El in H. destruct (two_or_more tl); [|rewrite andb_false_r in E1; discriminate].
    rewrite !andb_false_r. tauto.
  - destruct so.
    + change ($"../" ++ hd) with ($".." ++ "/"%char :: hd) in H. apply K in H; [|assumption..]. rewrite Eh in H.
      cbn [orb andb] in E1. rewrite E1. cbn. cbn in H. tauto.
    + destruct eo.
      * change ($"/..") with ("/"%char :: $"..") in H. apply K in H; [|assumption..]. rewrite Eh in H.
        cbn [orb andb] in E1. rewrite E1. cbn. cbn in H. tauto.
      * cbn [andb negb]. match type of H with context [if ?b then _ else _] => destruct b end.
        -- rewrite single_fwd in H by exact Sh.
           destruct (span_inv _ _ H) as (y & m & d & y' & m' & d' & u & a & p & sg & HD & Hr & Hr' & Hy & Hy' & E).
           pose proof (span6_bounds _ _ _ _ _ _ _ _ _ _ _ HD Hr Hr' Hy Hy' _ E) as G. tauto.
        -- change ($"/" ++ last tl hd) with ("/"%char :: last tl hd) in H. apply K in H; [|assumption..]. rewrite Eh, El in H. tauto.
Qed.

(** ** Everything known of a parsed set *)
Definition start_open (l : list str) : Prop := exists b, In ($".." ++ b) l.
Lemma set_members_ok s d : ParseSetRepresentations s = OK d -> exists o body i ps so eo hd tl sp,
  set_string s o body /\ ((o = "["%char /\ i = ANY) \/ (o = "{"%char /\ i = ALL)) /\
  set_members s (split body ($",")) = OK (ps, so, eo) /\ sort_strs ps = hd :: tl /\
  ~ In "/"%char hd /\ ~ In "/"%char (last tl hd) /\ hd <> $".." /\ last tl hd <> $".." /\
  DateSpanFromEDTF (set_text so eo hd tl) = OK sp /\
  d = edtf_of_span (set_span i so eo (two_or_more tl) sp) s LEVEL2 SET_REPRESENTATIONS.
Proof.
  intro H. destruct (set_inv _ _ H) as (i & ps & so & eo & hd & tl & sp & Q). cbv zeta in Q.
  destruct Q as (Hl & Hi & Hm & Hs & Hsp & ->).
  destruct (set_submatch _ Hl) as (o & body & Hset & E1 & E2). rewrite E1, E2 in *.
  exists o, body, i, ps, so, eo, hd, tl, sp. split; [exact Hset|].
  split; [destruct Hi as [(Hi & ->)|(Hi & ->)]; injection Hi as ->; auto|]. split; [exact Hm|]. split; [exact Hs|].
  destruct (set_members_inv _ _ _ _ _ Hm) as (_ & _ & F & B & _). destruct (sort_hd_last _ _ _ Hs) as (I1 & I2).
  assert (Sl : forall q, In q ps -> ~ In "/"%char q).
  { apply B. intros p Hp Q. assert (Hb : ~ In "/"%char body) by (inversion Hset; subst; apply body_no_slash; assumption).
    apply Hb. rewrite <- (split_joined body ($",")) by discriminate. revert Hp Q. clear. intros Hp Q.
    induction (split body ($",")) as [|x l IH]; [destruct Hp|]. destruct l as [|y l].
    - destruct Hp as [->|[]]. exact Q.
    - rewrite joined_cons by discriminate. destruct Hp as [->|Hp]; [apply in_or_app; left; exact Q|].
      apply in_or_app. right. apply in_or_app. right. apply IH. exact Hp. }
  assert (Nd : forall q, In q ps -> q <> $"..").
  { intros q Hq ->. rewrite Forall_forall in F. apply (F _ Hq). exists [], []. reflexivity. }
  auto 10.
Qed.
(** Inclusivity. *)
Lemma set_inclusivity_ok s d : ParseSetRepresentations s = OK d -> exists o body i,
  set_string s o body /\ ((o = "["%char /\ i = ANY) \/ (o = "{"%char /\ i = ALL)) /\
  ((forall l, body = joined ($",") l -> l <> [] -> Forall (fun p => ~ In ","%char p) l ->
      (forall b, ~ In ($".." ++ b) l) \/ (forall a, a <> [] -> ~ In (a ++ $"..") l)) ->
   forall b, In b [r_lower (e_start d); r_upper (e_start d); r_lower (e_end d); r_upper (e_end d)] ->
     d_inclusivity b = if d_open b then 0%N else i).
Proof.
  intro H. destruct (set_members_ok _ _ H) as (o & body & i & ps & so & eo & hd & tl & sp & Hset & Hi & Hm & Hs & S1 & S2 & N1 & N2 & Hsp & ->).
  exists o, body, i. split; [exact Hset|]. split; [exact Hi|]. intros Hex b Hb.
  destruct (set_members_inv _ _ _ _ _ Hm) as (F1 & F2 & _).
  assert (X : so && eo = false).
  { specialize (Hex (split body ($","))). destruct Hex as [Hex|Hex].
    - symmetry. apply split_joined. discriminate.
    - apply split_aux_nonempty.
    - eapply Forall_impl; [|apply split_free; discriminate]. intros p Hp Q. apply Hp. change ($",") with [","%char]. apply occurs_1. exact Q.
    - destruct so; [|reflexivity]. destruct (proj1 F1 eq_refl) as (b0 & Q). exfalso. exact (Hex _ Q).
    - destruct eo; [|apply andb_false_r]. destruct (F2 eq_refl) as (a & Ha & Q). exfalso. exact (Hex a Ha Q). }
  pose proof (set_text_open so eo hd tl sp S1 S2 N1 N2 Hsp) as O. cbv zeta in O. destruct O as (O1 & O2 & O3 & O4).
  destruct (DateSpan_good _ _ Hsp) as [G1 G2 G3 G4 _ _].
  assert (Z0 : forall P b, gbound P 0 b -> d_inclusivity b = 0%N) by (intros P b0 [| |]; reflexivity).
  apply Z0 in G1, G2, G3, G4. unfold edtf_of_span in Hb. cbn [e_start e_end In] in Hb.
  destruct so, eo; [discriminate X| | |]; destruct (two_or_more tl); cbn [andb negb orb] in *;
    cbn [set_span s_start s_end r_lower r_upper incl_range whole_range half_open_range OpenDateRange] in Hb;
    destruct Hb as [<-|[<-|[<-|[<-|[]]]]]; cbn [set_inclusivity d_inclusivity d_open set_open zero_date];
    rewrite ?O1, ?O2, ?O3, ?O4, ?G1, ?G2, ?G3, ?G4; reflexivity.
Qed.
