(** What sets are read as. *)
From Coq Require Import Ascii String ZArith NArith Bool Lia ZifyBool List.
From Verif Require Import GoStr GoTime Regex Patterns RegexSym RegexRel RegexGen SpecCal SpecText SpecZone SpecGrammar SpecForms SpecSpan SpecSet SpecReads StrFacts TextFacts Edtf Calendar Common Level0 Level1 Level2 Parser CalFacts ApiFacts SpanFacts YmdShapes YmdFacts InvFacts GrammarFacts SetFacts SetGrammar LangFacts LangNorm LangForms LangForms2 DateFacts ParseFacts SplitFacts Level0Facts Level0Proofs FormFacts SeasonFacts Level1Proofs XProofs FormProofs SigProofs ExpProofs GroupingProofs SetProofs ReadsFacts ReadsSeason ReadsYears.
Import ListNotations.
Open Scope Z_scope.
Ltac Zify.zify_post_hook ::= Z.div_mod_to_equations.

(** ** Dots come in pairs *)
Inductive paired : str -> Prop :=
| pd_nil : paired []
| pd_other c s : c <> "."%char -> paired s -> paired (c :: s)
| pd_dots s : paired s -> paired ("."%char :: "."%char :: s).
Lemma paired_app a b : paired a -> paired b -> paired (a ++ b).
Proof. intros H Hb. induction H as [|c s Hc H IH|s H IH]; cbn [app]; [exact Hb|constructor; assumption|constructor; assumption]. Qed.
Lemma paired_free a : ~ In "."%char a -> paired a.
Proof.
  induction a as [|c a IH]; intro N; [constructor|]. apply pd_other; [intros ->; apply N; left; reflexivity|].
  apply IH. intro H. apply N. right. exact H.
Qed.
Lemma paired_split a b : paired (a ++ ","%char :: b) -> paired a /\ paired b.
Proof.
  remember (a ++ ","%char :: b) as s eqn:E. intro H. revert a E. induction H as [|c s Hc H IH|s H IH]; intros a E.
  - destruct a; discriminate.
  - destruct a as [|c' a]; cbn [app] in E; injection E as -> E; [subst s; split; [constructor|exact H]|].
    destruct (IH a E) as (Ha & Hb). split; [constructor; assumption|exact Hb].
  - destruct a as [|c1 [|c2 a]]; cbn [app] in E; [discriminate|discriminate|]. injection E as <- <- E.
    destruct (IH a E) as (Ha & Hb). split; [constructor; exact Ha|exact Hb].
Qed.
Lemma paired_joined l : paired (joined ($",") l) -> Forall paired l.
Proof.
  induction l as [|x l IH]; intro H; [constructor|]. destruct l as [|y l]; [constructor; [exact H|constructor]|].
  rewrite joined_cons in H by discriminate. change ($"," ++ joined ($",") (y :: l)) with (","%char :: joined ($",") (y :: l)) in H.
  destruct (paired_split _ _ H) as (Hx & Hl). constructor; [exact Hx|exact (IH Hl)].
Qed.
Lemma date_dotless t : is_level0_date t -> ~ In "."%char t.
Proof. intros H Hi. destruct (date_bytes _ _ H Hi) as [E|E]; discriminate E. Qed.
Lemma dots_paired t : t = [] \/ t = $".." -> paired t.
Proof. intros [->| ->]; [constructor|apply (pd_dots []); constructor]. Qed.
Lemma sep_paired t : set_sep t -> paired t.
Proof. intros [->|[->| ->]]; [constructor|apply (pd_other ","%char); [discriminate|constructor]|apply (pd_dots []); constructor]. Qed.
Lemma body_paired b : set_body b -> paired b.
Proof.
  intros [a r e Ha Hr He]. apply paired_app; [apply dots_paired; exact Ha|]. apply paired_app; [|apply dots_paired; exact He].
  induction Hr as [t sep Ht Hs|t sep r Ht Hs Hr IH]; (apply paired_app; [apply paired_free; apply date_dotless; exact Ht|]); [apply sep_paired; exact Hs|].
  apply paired_app; [apply sep_paired; exact Hs|exact IH].
Qed.
Lemma body_digit b : set_body b -> exists c, is_digit c = true /\ In c b.
Proof.
  intros [a r e Ha Hr He]. assert (D : forall t, is_level0_date t -> exists c, is_digit c = true /\ In c t).
  { intros t (y & m & d & H). destruct H as [t0 r0 y0 m0 d0 Hy Hr0]. destruct Hy as [n Hn|n Hn]; exists (digit_char (n mod 10)); (split; [apply is_digit_char; lia|]);
    unfold four; cbn; auto 8. }
  assert (Q : exists c, is_digit c = true /\ In c r).
  { destruct Hr as [t sep Ht Hs|t sep r Ht Hs Hr]; destruct (D t Ht) as (c & Hc & Hi); exists c; (split; [exact Hc|apply in_or_app; left; exact Hi]). }
  destruct Q as (c & Hc & Hi). exists c. split; [exact Hc|]. apply in_or_app. right. apply in_or_app. left. exact Hi.
Qed.

(** ** Pieces *)
Lemma paired_cases p : paired p -> ~ In "."%char p \/ exists a r, ~ In "."%char a /\ paired r /\ p = a ++ $".." ++ r.
Proof.
  intro H. induction H as [|c s Hc H IH|s H IH]; [left; intros []| |right; exists [], s; split; [intros []|auto]].
  destruct IH as [IH|(a & r & Ha & Hr & ->)].
  - left. intros [E|Hi]; [congruence|exact (IH Hi)].
  - right. exists (c :: a), r. split; [intros [E|Hi]; [congruence|exact (Ha Hi)]|auto].
Qed.
Definition piece_members (s p : str) : res (list str * bool * bool) :=
  match split p ($"..") with
  | [_] => OK ([p], false, false)
  | [a; b] => if negb (is_empty a) && negb (is_empty b) then OK ([a; b], false, false)
              else if is_empty a then OK ([b], true, false)
              else OK ([a], false, true)
  | _ => Err (Invalid SET_REPRESENTATIONS s)
  end.
Lemma split_whole t : ~ In "."%char t -> split t ($"..") = [t].
Proof. intro N. apply split_not; [discriminate|apply no_dots; exact N]. Qed.
Lemma piece_ok s p ds so eo : set_piece p ds so eo -> piece_members s p = OK (ds, so, eo).
Proof.
  unfold piece_members. intros [t (_ & Nt)|a b (_ & Na) (_ & Nb) Ea Eb|b (_ & Nb)|a (_ & Na) Ea].
  - rewrite split_whole by exact Nt. reflexivity.
  - rewrite split_dots, split_whole by assumption. rewrite (proj2 (is_empty_false a) Ea), (proj2 (is_empty_false b) Eb). reflexivity.
  - change ($".." ++ b) with ([] ++ $".." ++ b). rewrite split_dots by (intros []). rewrite split_whole by exact Nb. cbn [is_empty negb andb]. reflexivity.
  - replace (a ++ $"..") with (a ++ $".." ++ []) by reflexivity. rewrite split_dots by exact Na. change (split [] ($"..")) with [@nil ascii].
    rewrite (proj2 (is_empty_false a) Ea). reflexivity.
Qed.
Lemma piece_inv s p ds so eo : paired p -> ~ In ","%char p -> piece_members s p = OK (ds, so, eo) -> set_piece p ds so eo.
Proof.
  intros Hp Nc H. unfold piece_members in H. destruct (paired_cases p Hp) as [N|(a & r & Na & Hr & ->)].
  - rewrite split_whole in H by exact N. injection H as <- <- <-. apply pc_text. split; assumption.
  - rewrite split_dots in H by exact Na.
    assert (Ca : ~ In ","%char a) by (intro Hi; apply Nc; apply in_or_app; left; exact Hi).
    assert (Cr : ~ In ","%char r) by (intro Hi; apply Nc; apply in_or_app; right; right; right; exact Hi).
    destruct (paired_cases r Hr) as [N|(a' & r' & Na' & _ & ->)].
    + rewrite split_whole in H by exact N. destruct (is_empty a) eqn:Ea.
      * apply is_empty_spec in Ea. subst a. cbn [negb andb] in H. injection H as <- <- <-. apply pc_upto. split; assumption.
      * assert (Ne : a <> []) by (intros ->; discriminate Ea). destruct (is_empty r) eqn:Er; cbn [negb andb] in H; injection H as <- <- <-.
        -- apply is_empty_spec in Er. subst r. rewrite app_nil_r. apply pc_from; [split; assumption|exact Ne].
        -- apply pc_range; [split; assumption|split; assumption|exact Ne|intros ->; discriminate Er].
    + rewrite split_dots in H by exact Na'. exfalso. pose proof (split_aux_nonempty ($"..") r' [] 0) as Q. unfold split in H. destruct (split_aux ($"..") r' [] 0); [congruence|discriminate].
Qed.
Lemma members_step s p l : set_members s (p :: l) = let* (here, so, eo) := piece_members s p in let* (l', so', eo') := set_members s l in OK (here ++ l', so || so', eo || eo').
Proof. reflexivity. Qed.
Lemma pieces_ok s l ds so eo : set_pieces l ds so eo -> set_members s l = OK (ds, so, eo).
Proof.
  intro H. induction H as [|x l ds ds' so so' eo eo' Hx Hl IH]; [reflexivity|]. rewrite members_step, (piece_ok s _ _ _ _ Hx). cbn [bind]. rewrite IH. reflexivity.
Qed.
Lemma pieces_inv s l : Forall paired l -> Forall (fun p => ~ In ","%char p) l -> forall ds so eo, set_members s l = OK (ds, so, eo) -> set_pieces l ds so eo.
Proof.
  intros Hp Hc. induction l as [|x l IH]; intros ds so eo H; [injection H as <- <- <-; constructor|].
  apply Forall_cons_iff in Hp. destruct Hp as (Px & Pl). apply Forall_cons_iff in Hc. destruct Hc as (Cx & Cl). rewrite members_step in H.
  apply bind_OK in H. destruct H as (((h & so1) & eo1) & Hx & H). apply bind_OK in H. destruct H as (((l' & so2) & eo2) & Hl & H). injection H as <- <- <-.
  constructor; [exact (piece_inv s x _ _ _ Px Cx Hx)|exact (IH Pl Cl _ _ _ Hl)].
Qed.
Lemma piece_comma p ds so eo : set_piece p ds so eo -> ~ In ","%char p.
Proof.
  intros [t (N & _)|a b (Na & _) (Nb & _) _ _|b (Nb & _)|a (Na & _) _] Hi; [exact (N Hi)| | |].
  - apply in_app_or in Hi. destruct Hi as [Hi|[Hi|[Hi|Hi]]]; [exact (Na Hi)|discriminate|discriminate|exact (Nb Hi)].
  - destruct Hi as [Hi|[Hi|Hi]]; [discriminate|discriminate|exact (Nb Hi)].
  - apply in_app_or in Hi. destruct Hi as [Hi|[Hi|[Hi|[]]]]; [exact (Na Hi)|discriminate|discriminate].
Qed.
Lemma pieces_comma l ds so eo : set_pieces l ds so eo -> Forall (fun p => ~ In ","%char p) l.
Proof. intro H. induction H as [|x l ds ds' so so' eo eo' Hx Hl IH]; constructor; [exact (piece_comma _ _ _ _ Hx)|exact IH]. Qed.
Lemma piece_byte p ds so eo c : set_piece p ds so eo -> c <> "."%char -> (In c p <-> exists q, In q ds /\ In c q).
Proof.
  intros H Nc. assert (One : forall t, In c t <-> exists q, In q [t] /\ In c q).
  { intro t. split; [intro Hi; exists t; split; [left; reflexivity|exact Hi]|intros (q & [<-|[]] & Hq); exact Hq]. }
  destruct H as [t _|a b _ _ _ _|b _|a _ _].
  - apply One.
  - split.
    + intro Hi. apply in_app_or in Hi. destruct Hi as [Hi|[Hi|[Hi|Hi]]]; [exists a|congruence|congruence|exists b]; (split; [cbn; auto|exact Hi]).
    + intros (q & [<-|[<-|[]]] & Hq); apply in_or_app; [left; exact Hq|right; right; right; exact Hq].
  - rewrite <- One. split; [intros [Hi|[Hi|Hi]]; [congruence|congruence|exact Hi]|intro Hi; right; right; exact Hi].
  - rewrite <- One. split; [intro Hi; apply in_app_or in Hi; destruct Hi as [Hi|[Hi|[Hi|[]]]]; [exact Hi|congruence|congruence]|intro Hi; apply in_or_app; left; exact Hi].
Qed.
Lemma in_joined c l : c <> ","%char -> (In c (joined ($",") l) <-> exists p, In p l /\ In c p).
Proof.
  intro Nc. induction l as [|x l IH]; [split; [intros []|intros (p & [] & _)]|]. destruct l as [|y l].
  - split; [intro Hi; exists x; split; [left; reflexivity|exact Hi]|intros (p & [<-|[]] & Hp); exact Hp].
  - rewrite joined_cons by discriminate. split.
    + intro Hi. apply in_app_or in Hi. destruct Hi as [Hi|[Hi|Hi]]; [exists x; split; [left; reflexivity|exact Hi]|congruence|].
      apply IH in Hi. destruct Hi as (p & Hp & Hi). exists p. split; [right; exact Hp|exact Hi].
    + intros (p & [<-|Hp] & Hi); apply in_or_app; [left; exact Hi|right; right]. apply IH. eauto.
Qed.
Lemma pieces_byte l ds so eo c : set_pieces l ds so eo -> c <> "."%char -> ((exists p, In p l /\ In c p) <-> exists q, In q ds /\ In c q).
Proof.
  intros H Nc. induction H as [|x l ds ds' so so' eo eo' Hx Hl IH]; [split; intros (p & [] & _)|]. pose proof (piece_byte _ _ _ _ c Hx Nc) as B. split.
  - intros (p & [<-|Hp] & Hi).
    + apply B in Hi. destruct Hi as (q & Hq & Hi). exists q. split; [apply in_or_app; left; exact Hq|exact Hi].
    + destruct (proj1 IH ltac:(eauto)) as (q & Hq & Hi'). exists q. split; [apply in_or_app; right; exact Hq|exact Hi'].
  - intros (q & Hq & Hi). apply in_app_or in Hq. destruct Hq as [Hq|Hq].
    + exists x. split; [left; reflexivity|]. apply B. eauto.
    + destruct (proj2 IH ltac:(eauto)) as (p & Hp & Hi'). exists p. split; [right; exact Hp|exact Hi'].
Qed.
Lemma pieces_nodots l ds so eo q : set_pieces l ds so eo -> In q ds -> q <> $"..".
Proof.
  intros H. induction H as [|x l ds ds' so so' eo eo' Hx Hl IH]; intros Hq E; [destruct Hq|]. apply in_app_or in Hq. destruct Hq as [Hq|Hq]; [|exact (IH Hq E)]. subst q.
  assert (N : forall t, dotless t -> t <> $"..") by (intros t (_ & Nt) ->; apply Nt; left; reflexivity).
  destruct Hx as [t Ht|a b Ha Hb _ _|b Hb|a Ha _]; cbn [In] in Hq; destruct Hq as [Hq|Hq]; try (destruct Hq as [Hq|Hq]); try contradiction; revert Hq; apply N; assumption.
Qed.
Lemma pieces_both l ds so eo : set_pieces l ds so eo -> (length l <= length ds)%nat /\ (so = true -> eo = true -> 2 <= length l)%nat.
Proof.
  intro H. induction H as [|x l ds ds' so so' eo eo' Hx Hl (IH1 & IH2)]; [split; [lia|discriminate]|]. split.
  - rewrite app_length. cbn [length]. destruct Hx; cbn [length]; lia.
  - intros Hs He. cbn [length]. destruct l as [|y l]; [|cbn [length]; lia]. inversion Hl; subst. rewrite orb_false_r in *. subst. inversion Hx.
Qed.

(** ** The order of the members *)
Lemma sle_text a : forall b, sle a b <-> text_le a b.
Proof.
  unfold sle. induction a as [|x a IH]; intros [|y b]; cbn [str_leb text_le]; [tauto|tauto|split; [discriminate|intros []]|].
  destruct (code x <? code y) eqn:E1; [split; [left; lia|reflexivity]|].
  destruct (code x =? code y) eqn:E2.
  - assert (x = y) by (apply code_inj; lia). subst y. rewrite IH. split; [auto|]. intros [H|(_ & H)]; [lia|exact H].
  - split; [discriminate|]. intros [H|(H & _)]; [lia|]. subst y. lia.
Qed.
Lemma sort_least ps hd tl : sort_strs ps = hd :: tl -> forall t, least ps t <-> t = hd.
Proof.
  intros E t. destruct (sort_hd_last _ _ _ E) as (I1 & I2). pose proof (sort_ends _ _ _ E) as S. split.
  - intros (Ht & Hm). apply sle_antisym; [apply sle_text; apply Hm; exact I1|apply S; exact Ht].
  - intros ->. split; [exact I1|]. intros u Hu. apply sle_text. apply S. exact Hu.
Qed.
Lemma sort_greatest ps hd tl : sort_strs ps = hd :: tl -> forall t, greatest ps t <-> t = last tl hd.
Proof.
  intros E t. destruct (sort_hd_last _ _ _ E) as (I1 & I2). pose proof (sort_ends _ _ _ E) as S. split.
  - intros (Ht & Hm). apply sle_antisym; [apply S; exact Ht|apply sle_text; apply Hm; exact I2].
  - intros ->. split; [exact I2|]. intros u Hu. apply sle_text. apply S. exact Hu.
Qed.
Lemma sort_some ps : ps <> [] -> exists hd tl, sort_strs ps = hd :: tl.
Proof.
  intro H. destruct (sort_strs ps) as [|hd tl] eqn:E; [|eauto]. pose proof (sort_perm ps) as P. rewrite E in P. apply Permutation.Permutation_nil in P. contradiction.
Qed.
Lemma sort_two ps hd tl : sort_strs ps = hd :: tl -> (2 <= length ps)%nat -> two_or_more tl = true.
Proof.
  intros E L. pose proof (Permutation.Permutation_length (sort_perm ps)) as P. rewrite E in P. destruct tl; [cbn [length] in P; lia|reflexivity].
Qed.

(** ** The bounds *)
Lemma span_shows t sp : DateSpanFromEDTF t = OK sp -> exists lo hi, shows (r_lower (s_start sp)) lo /\ shows (r_upper (s_end sp)) hi.
Proof.
  intro E. destruct (DateSpan_inv _ _ E) as [(_ & E')|(a & b & b1 & b2 & b3 & b4 & _ & _ & _ & Ha & Hb & ->)].
  - destruct (span_inv _ _ E') as (y & m & d & y' & m' & d' & u & a & p & sg & _ & _ & _ & _ & _ & ->). do 2 eexists. split; [apply shows_start|apply shows_end].
  - assert (G : forall t c c', half t c c' -> exists x x', shows c x /\ shows c' x').
    { intros t0 c c' [| |t1 y m d y' m' d' u q p sg _ _ _ _ _]; [exists Blank, Blank|exists Dots, Dots|exists (from_day y m d), (to_day y' m' d')]; repeat split. }
    destruct (G _ _ _ Ha) as (x & _ & Hx & _). destruct (G _ _ _ Hb) as (_ & x' & _ & Hx'). exists x, x'. auto.
Qed.
Lemma set_span_shows i so eo mu sp lo hi : (so = true -> eo = true -> mu = true) ->
  shows (r_lower (s_start sp)) lo -> shows (r_upper (s_end sp)) hi ->
  shows (r_lower (s_start (set_span i so eo mu sp))) (if so && mu then Dots else lo) /\
  shows (r_upper (s_end (set_span i so eo mu sp))) (if eo && negb so && mu then Dots else hi).
Proof.
  intros B L U. destruct so, eo, mu; cbn [andb negb]; try (discriminate (B eq_refl eq_refl)); cbn [set_span s_start s_end incl_range whole_range half_open_range r_lower r_upper];
    (split; [first [exact L|repeat split]|first [exact U|repeat split]]).
Qed.
Lemma dots_half x x' : half_reads ($"..") x x' -> x = Dots /\ x' = Dots.
Proof. intro H. exact (half_reads_fun _ _ _ _ _ H hr_dots). Qed.
Lemma whole_half t x x' : t <> [] -> t <> $".." -> (half_reads t x x' <-> whole_date t x x').
Proof.
  intros N1 N2. split; [|apply hr_date]. intro H. destruct H as [| |t0 lo hi H]; [congruence|congruence|exact H].
Qed.
Lemma span_alone t l h : ~ In "/"%char t -> span_reads t l h -> whole_date t l h.
Proof. intros N H. destruct H as [t l h H|a b l x x' h _ _]; [exact H|]. exfalso. apply N. apply in_or_app. right. left. reflexivity. Qed.
Lemma set_text_reads so eo hd tl lo hi : ~ In "/"%char hd -> ~ In "/"%char (last tl hd) -> hd <> $".." -> last tl hd <> $".." ->
  (so = true -> eo = true -> two_or_more tl = true) -> (so || eo = true \/ last tl hd <> []) ->
  ((exists l h, span_reads (set_text so eo hd tl) l h /\ lo = (if so && two_or_more tl then Dots else l) /\ hi = (if eo && negb so && two_or_more tl then Dots else h)) <->
   exists l x x' h, half_reads hd l x /\ half_reads (last tl hd) x' h /\ lo = (if so then Dots else l) /\ hi = (if eo && negb so then Dots else h)).
Proof.
  intros S1 S2 N1 N2 B Nb. unfold set_text. unfold str in *.
  assert (Sd : ~ In "/"%char ($"..")) by (intros [Q|[Q|[]]]; discriminate).
  change ($"/" ++ last tl hd) with ("/"%char :: last tl hd). change ($"../" ++ hd) with ($".." ++ "/"%char :: hd). change ($"/..") with ("/"%char :: $"..").
  destruct (two_or_more tl) eqn:Em.
  - rewrite !andb_true_r. destruct (so || eo) eqn:Eo.
    + split.
      * intros (l & h & H & -> & ->). apply pair_reads in H; [|assumption..]. destruct H as (x & x' & Ha & Hb). exists l, x, x', h. auto.
      * intros (l & x & x' & h & Ha & Hb & -> & ->). exists l, h. split; [|auto]. apply pair_reads; [assumption..|]. eauto.
    + apply orb_false_iff in Eo. destruct Eo as (-> & ->). cbn [andb]. destruct (seqb hd (last tl hd)) eqn:Es.
      * apply seqb_eq in Es. rewrite <- Es in *. destruct Nb as [Nb|Nb]; [discriminate|]. split.
        -- intros (l & h & H & -> & ->). apply span_alone in H; [|exact S1].
           exists l, h, l, h. pose proof (hr_date _ _ _ H). auto.
        -- intros (l & x & x' & h & Ha & Hb & -> & ->). destruct (half_reads_fun _ _ _ _ _ Ha Hb) as (-> & ->). exists x', h. split; [|auto].
           apply sr_date. apply whole_half in Ha; assumption.
      * split.
        -- intros (l & h & H & -> & ->). apply pair_reads in H; [|assumption..]. destruct H as (x & x' & Ha & Hb). exists l, x, x', h. auto.
        -- intros (l & x & x' & h & Ha & Hb & -> & ->). exists l, h. split; [|auto]. apply pair_reads; [assumption..|]. eauto.
  - destruct tl; [|discriminate]. cbn [last] in *. rewrite !andb_false_r. destruct so.
    + destruct eo; [discriminate (B eq_refl eq_refl)|]. cbn [andb negb]. split.
      * intros (l & h & H & -> & ->). apply pair_reads in H; [|assumption..]. destruct H as (x & x' & Ha & Hb). destruct (dots_half _ _ Ha) as (-> & ->). exists x', h, x', h. auto.
      * intros (l & x & x' & h & Ha & Hb & -> & ->). exists Dots, h. split; [|auto]. apply pair_reads; [assumption..|]. exists Dots, x'. split; [constructor|exact Hb].
    + destruct eo; cbn [andb negb].
      * split.
        -- intros (l & h & H & -> & ->). apply pair_reads in H; [|assumption..]. destruct H as (x & x' & Ha & Hb). destruct (dots_half _ _ Hb) as (-> & ->). exists l, x, l, x. auto.
        -- intros (l & x & x' & h & Ha & Hb & -> & ->). exists l, Dots. split; [|auto]. apply pair_reads; [assumption..|]. exists x, Dots. split; [exact Ha|constructor].
      * rewrite seqb_refl. destruct Nb as [Nb|Nb]; [discriminate|]. split.
        -- intros (l & h & H & -> & ->). apply span_alone in H; [|exact S1].
           exists l, h, l, h. pose proof (hr_date _ _ _ H). auto.
        -- intros (l & x & x' & h & Ha & Hb & -> & ->). destruct (half_reads_fun _ _ _ _ _ Ha Hb) as (-> & ->). exists x', h. split; [|auto].
           apply sr_date. apply whole_half in Ha; assumption.
Qed.
Definition opener (o : ascii) (i : N) : Prop := o = "["%char /\ i = ANY \/ o = "{"%char /\ i = ALL.
Lemma opener_of s o body : set_string s o body -> exists i, opener o i.
Proof. unfold opener. intros [o0 b c [->| ->] _ _]; eexists; [left|right]; split; reflexivity. Qed.
Lemma set_parse s o body i ps so eo hd tl : set_string s o body -> opener o i -> set_members s (split body ($",")) = OK (ps, so, eo) -> sort_strs ps = hd :: tl ->
  ParseSetRepresentations s = let* sp := DateSpanFromEDTF (set_text so eo hd tl) in OK (edtf_of_span (set_span i so eo (two_or_more tl) sp) s LEVEL2 SET_REPRESENTATIONS).
Proof.
  intros Hset Hi Hm Hs. assert (M : match_string SetRepresentations s = true) by (apply IsSet_spec; eauto).
  apply match_iff in M. apply submatch_length in M. change (S (re_ncap SetRepresentations)) with 6%nat in M.
  destruct (set_submatch _ M) as (o' & body' & Hset' & E1 & E2).
  assert (Q : o' = o /\ body' = body).
  { clear - Hset Hset'. destruct Hset as [o b c _ _ _]. remember (o :: b ++ [c]) as s0 eqn:E. destruct Hset' as [o1 b1 c1 _ _ _]. injection E as -> E. apply app_inj_tail in E. split; [reflexivity|apply E]. }
  destruct Q as (-> & ->). unfold ParseSetRepresentations. rewrite M, E1, E2. cbn [Nat.eqb negb].
  assert (I : (if seqb [o] ($"[") then OK ANY else if seqb [o] ($"{") then OK ALL else Err (Invalid SET_REPRESENTATIONS s)) = OK i).
  { destruct Hi as [(-> & ->)|(-> & ->)]; reflexivity. }
  rewrite I. cbn [bind]. rewrite Hm. cbn [bind]. rewrite Hs. cbv zeta.
  assert (L : last (hd :: tl) hd = last tl hd) by (destruct tl; reflexivity).
  assert (K : Nat.ltb 1 (length (hd :: tl)) = two_or_more tl) by (destruct tl; reflexivity).
  rewrite L, K. unfold set_text.
  assert (T : forall t t', t = t' -> forall g g', (forall sp : datespan, g sp = g' sp :> res edtfdate) -> (let* sp := DateSpanFromEDTF t in g sp) = (let* sp := DateSpanFromEDTF t' in g' sp)).
  { intros t t' -> g g' Hg. destruct (DateSpanFromEDTF t'); cbn [bind]; auto. }
  apply T.
  - destruct ((so || eo) && two_or_more tl); [reflexivity|]. destruct so; [reflexivity|]. destruct eo; [reflexivity|]. destruct (seqb hd (last tl hd)); reflexivity.
  - intro sp. unfold set_span, edtf_of_span, incl_range, whole_range, half_open_range. destruct so, eo, (two_or_more tl); cbn [andb orb s_start s_end r_lower r_upper r_edtf]; reflexivity.
Qed.
(** Everything once the members are known. *)
Lemma set_core s o body i l ds so eo : set_string s o body -> opener o i -> l <> [] -> set_pieces l ds so eo -> body = joined ($",") l ->
  exists hd tl, sort_strs ds = hd :: tl /\
    ParseSetRepresentations s = (let* sp := DateSpanFromEDTF (set_text so eo hd tl) in OK (edtf_of_span (set_span i so eo (two_or_more tl) sp) s LEVEL2 SET_REPRESENTATIONS)) /\
    ~ In "/"%char hd /\ ~ In "/"%char (last tl hd) /\ hd <> $".." /\ last tl hd <> $".." /\
    (so = true -> eo = true -> two_or_more tl = true) /\ last tl hd <> [].
Proof.
  intros Hset Hi Nl Hp Eb.
  assert (Bd : set_body body) by (destruct Hset; assumption).
  destruct (body_digit _ Bd) as (dg & Dd & Di). pose proof (body_no_slash _ Bd) as Sb.
  destruct (pieces_both _ _ _ _ Hp) as (L1 & L2).
  assert (Nd : ds <> []) by (intros ->; destruct l; [congruence|cbn [length] in L1; lia]).
  destruct (sort_some ds Nd) as (hd & tl & Es). destruct (sort_hd_last _ _ _ Es) as (I1 & I2).
  assert (Hm : set_members s (split body ($",")) = OK (ds, so, eo)).
  { rewrite Eb. change ($",") with [","%char]. rewrite split_of_joined; [apply pieces_ok; exact Hp|exact Nl|exact (pieces_comma _ _ _ _ Hp)]. }
  pose proof (set_parse s o body i ds so eo hd tl Hset Hi Hm Es) as Ep. exists hd, tl. split; [exact Es|]. split; [exact Ep|].
  assert (Sl : forall q, In q ds -> ~ In "/"%char q).
  { intros q Hq Hc. apply Sb. rewrite Eb. apply in_joined; [discriminate|]. apply (pieces_byte _ _ _ _ "/"%char Hp); [discriminate|]. eauto. }
  split; [exact (Sl _ I1)|]. split; [exact (Sl _ I2)|]. split; [exact (pieces_nodots _ _ _ _ _ Hp I1)|]. split; [exact (pieces_nodots _ _ _ _ _ Hp I2)|].
  split; [intros Hso Heo; apply (sort_two ds hd tl Es); specialize (L2 Hso Heo); lia|].
  intro El. rewrite Eb in Di. apply in_joined in Di; [|intros ->; discriminate Dd]. apply (pieces_byte _ _ _ _ dg Hp) in Di; [|intros ->; discriminate Dd].
  destruct Di as (q & Hq & Hc). pose proof (proj2 (sort_ends _ _ _ Es q Hq)) as Q. rewrite El in Q. destruct q; [destruct Hc|exact (sle_nil _ _ Q)].
Qed.
Theorem set_bridge s lo hi : is_set s ->
  (set_reads s lo hi <-> exists e, ParseSetRepresentations s = OK e /\ result e 2 SET_REPRESENTATIONS lo hi).
Proof.
  intros (o & body & Hset).
  assert (Bd : set_body body) by (destruct Hset; assumption).
  pose proof (body_paired _ Bd) as Pb.
  destruct (opener_of _ _ _ Hset) as (i & Hi). pose proof (fun l ds so eo => set_core s o body i l ds so eo Hset Hi) as Core.
  assert (Fin : forall hd tl so eo, ~ In "/"%char hd -> ~ In "/"%char (last tl hd) -> hd <> $".." -> last tl hd <> $".." ->
      (so = true -> eo = true -> two_or_more tl = true) -> last tl hd <> [] ->
      ParseSetRepresentations s = (let* sp := DateSpanFromEDTF (set_text so eo hd tl) in OK (edtf_of_span (set_span i so eo (two_or_more tl) sp) s LEVEL2 SET_REPRESENTATIONS)) ->
      (exists e, ParseSetRepresentations s = OK e /\ result e 2 SET_REPRESENTATIONS lo hi) <->
      exists l x x' h, half_reads hd l x /\ half_reads (last tl hd) x' h /\ lo = (if so then Dots else l) /\ hi = (if eo && negb so then Dots else h)).
  { intros hd tl so eo S1 S2 N1 N2 B Nb Ep. rewrite <- (set_text_reads so eo hd tl lo hi S1 S2 N1 N2 B (or_intror Nb)). rewrite Ep. split.
    - intros (e & E & _ & _ & L & U). apply bind_OK in E. destruct E as (sp & E & Q). injection Q as <-. destruct (span_shows _ _ E) as (l & h & Hl & Hh).
      exists l, h. split; [apply span_bridge; eauto|]. destruct (set_span_shows i so eo (two_or_more tl) sp l h B Hl Hh) as (L' & U'). cbn [e_start e_end edtf_of_span] in L, U.
      split; eapply shows_fun; eassumption.
    - intros (l & h & H & -> & ->). apply span_bridge in H. destruct H as (sp & E & Hl & Hh). rewrite E. cbn [bind]. eexists. split; [reflexivity|].
      split; [reflexivity|]. split; [reflexivity|]. exact (set_span_shows i so eo (two_or_more tl) sp l h B Hl Hh). }
  split.
  - intro H. remember s as s0 eqn:E0. destruct H as [o1 l ds so eo c1 a b l0 x x' h0 Nl Hp Ha Hb Ra Rb].
    assert (Eb : body = joined ($",") l).
    { clear - Hset E0. remember (o1 :: joined ($",") l ++ [c1]) as s1 eqn:E1. destruct Hset as [o b c _ _ _]. injection E1 as _ E1. apply app_inj_tail in E1. apply E1. }
    destruct (Core l ds so eo Nl Hp Eb) as (hd & tl & Es & Ep & S1 & S2 & N1 & N2 & B & Nb).
    apply (sort_least _ _ _ Es) in Ha. apply (sort_greatest _ _ _ Es) in Hb. subst a b.
    apply (Fin hd tl so eo S1 S2 N1 N2 B Nb Ep). exists l0, x, x', h0. auto.
  - intros (e & E & R). destruct (set_members_ok _ _ E) as (o' & body' & i' & ps & so & eo & hd & tl & sp & Hset' & _ & Hm & Hs & _).
    assert (Q : body' = body).
    { clear - Hset Hset'. destruct Hset as [o b c _ _ _]. remember (o :: b ++ [c]) as s0 eqn:E. destruct Hset' as [o1 b1 c1 _ _ _]. injection E as -> E. apply app_inj_tail in E. apply E. }
    subst body'. clear Hset'. pose proof (split_joined body ($",") ltac:(discriminate)) as J.
    assert (Nl : split body ($",") <> []) by apply split_aux_nonempty.
    assert (Hp : set_pieces (split body ($",")) ps so eo).
    { apply (pieces_inv s); [apply paired_joined; rewrite J; exact Pb| |exact Hm].
      eapply Forall_impl; [|apply split_free; discriminate]. intros p Hp Q. apply Hp. change ($",") with [","%char]. apply occurs_1. exact Q. }
    destruct (Core _ _ _ _ Nl Hp (eq_sym J)) as (hd' & tl' & Es & Ep & S1 & S2 & N1 & N2 & B & Nb). rewrite Hs in Es. injection Es as <- <-.
    destruct (proj1 (Fin hd tl so eo S1 S2 N1 N2 B Nb Ep)) as (l0 & x & x' & h0 & Ra & Rb & -> & ->); [eauto|].
    destruct Hset as [o b c Ho _ Hc]. rewrite <- J at 1. 
    apply (se_intro o (split b ($",")) ps so eo c hd (last tl hd) l0 x x' h0 Nl Hp); [apply (sort_least _ _ _ Hs); reflexivity|apply (sort_greatest _ _ _ Hs); reflexivity|exact Ra|exact Rb].
Qed.
