(** Symbolic evaluation of the regexp matcher.

    A [shape] is a list of byte classes; a string fits it when its bytes lie in
    the classes one by one.  [sfind] runs the matcher on a shape.  When every byte
    test has the same outcome for all bytes of the class, the result is the same
    for every string that fits; otherwise the evaluator reports the position and
    class to split on.  [check] splits until everything is decided.  Soundness is
    proved once, so that questions about infinitely (or astronomically) many
    strings of given shapes are settled by computation. *)
From Coq Require Import Ascii String ZArith NArith Bool Lia ZifyBool List.
From Verif Require Import GoStr Regex.
Import ListNotations.
Open Scope Z_scope.

Definition shape := list cset.
Definition fits (sh : shape) (s : str) : Prop := Forall2 (fun k c => in_set k c = true) sh s.

Lemma Forall2_length {A B} {R : A -> B -> Prop} {l l'} : Forall2 R l l' -> length l = length l'.
Proof. induction 1; cbn [length]; auto. Qed.

Lemma skipn_skipn' {A} n m : forall l : list A, skipn n (skipn m l) = skipn (n + m) l.
Proof.
  induction m as [|m IH]; intro l; [rewrite Nat.add_0_r; reflexivity|].
  rewrite Nat.add_succ_r. destruct l as [|x l]; cbn [skipn]; [apply skipn_nil|apply IH].
Qed.

(** ** Byte classes *)
Definition subset (k cs : cset) : bool :=
  forallb (fun p => existsb (fun q => (fst q <=? fst p) && (snd p <=? snd q)) cs) k.
Definition disjoint (k cs : cset) : bool :=
  forallb (fun p => forallb (fun q => (snd p <? fst q) || (snd q <? fst p)) cs) k.
Definition inter1 (p q : Z * Z) : cset :=
  let a := Z.max (fst p) (fst q) in let b := Z.min (snd p) (snd q) in
  if a <=? b then [(a, b)] else [].
Definition inter (k cs : cset) : cset := flat_map (fun p => flat_map (inter1 p) cs) k.
Definition minus1 (p q : Z * Z) : cset :=
  (let b := Z.min (snd p) (fst q - 1) in if fst p <=? b then [(fst p, b)] else []) ++
  (let a := Z.max (fst p) (snd q + 1) in if a <=? snd p then [(a, snd p)] else []).
Definition minus (k cs : cset) : cset := fold_left (fun k q => flat_map (fun p => minus1 p q) k) cs k.

Lemma in_set_cons p k c : in_set (p :: k) c = ((fst p <=? code c) && (code c <=? snd p)) || in_set k c.
Proof. reflexivity. Qed.
Lemma in_set_app k k' c : in_set (k ++ k') c = in_set k c || in_set k' c.
Proof. apply existsb_app. Qed.

Lemma subset_ok k cs c : subset k cs = true -> in_set k c = true -> in_set cs c = true.
Proof.
  unfold subset, in_set. rewrite forallb_forall. intros H Hc.
  apply existsb_exists in Hc. destruct Hc as (p & Hp & Hc).
  specialize (H p Hp). apply existsb_exists in H. destruct H as (q & Hq & H).
  apply existsb_exists. exists q. split; [assumption|]. lia.
Qed.

Lemma disjoint_ok k cs c : disjoint k cs = true -> in_set k c = true -> in_set cs c = false.
Proof.
  unfold disjoint, in_set. rewrite forallb_forall. intros H Hc.
  apply existsb_exists in Hc. destruct Hc as (p & Hp & Hc).
  specialize (H p Hp). rewrite forallb_forall in H.
  destruct (existsb _ cs) eqn:E; [|reflexivity].
  apply existsb_exists in E. destruct E as (q & Hq & E). specialize (H q Hq). lia.
Qed.

Lemma inter1_ok p q c :
  in_set (inter1 p q) c = ((fst p <=? code c) && (code c <=? snd p)) && ((fst q <=? code c) && (code c <=? snd q)).
Proof.
  unfold inter1. destruct (_ <=? _) eqn:E; cbn [in_set existsb fst snd]; lia.
Qed.

Lemma inter_ok k cs c : in_set (inter k cs) c = in_set k c && in_set cs c.
Proof.
  unfold inter. induction k as [|p k IH]; [reflexivity|].
  cbn [flat_map]. rewrite in_set_app, IH, in_set_cons. clear IH.
  assert (H : in_set (flat_map (inter1 p) cs) c = ((fst p <=? code c) && (code c <=? snd p)) && in_set cs c).
  { induction cs as [|q cs IH]; [cbn; lia|]. cbn [flat_map].
    rewrite in_set_app, IH, inter1_ok, in_set_cons. lia. }
  rewrite H. destruct (fst p <=? code c), (code c <=? snd p), (in_set k c), (in_set cs c); reflexivity.
Qed.

Lemma minus1_ok p q c :
  in_set (minus1 p q) c = ((fst p <=? code c) && (code c <=? snd p)) && negb ((fst q <=? code c) && (code c <=? snd q)).
Proof.
  unfold minus1. rewrite in_set_app.
  destruct (fst p <=? _) eqn:E1; destruct (_ <=? snd p) eqn:E2; cbn [in_set existsb fst snd]; lia.
Qed.

Lemma minus_ok cs : forall k c, in_set (minus k cs) c = in_set k c && negb (in_set cs c).
Proof.
  unfold minus. induction cs as [|q cs IH]; intros k c; [cbn; rewrite andb_true_r; reflexivity|].
  cbn [fold_left]. rewrite IH, in_set_cons.
  assert (H : in_set (flat_map (fun p => minus1 p q) k) c = in_set k c && negb ((fst q <=? code c) && (code c <=? snd q))).
  { clear IH. induction k as [|p k IH]; [reflexivity|]. cbn [flat_map].
    rewrite in_set_app, IH, minus1_ok, in_set_cons. lia. }
  rewrite H. destruct (fst q <=? code c), (code c <=? snd q), (in_set k c), (in_set cs c); reflexivity.
Qed.

(** ** The symbolic matcher *)
(** Captures are recorded as (group, (p, q)): the text between the points where p
    and q bytes remain. *)
Record sst := mks { s_bot : bool; s_rest : shape; s_caps : list (nat * (nat * nat)) }.
Definition sres := (nat * cset + list sst)%type.
Fixpoint bindl (l : list sst) (f : sst -> sres) : sres :=
  match l with
  | [] => inr []
  | x :: l' => match f x with
               | inl e => inl e
               | inr a => match bindl l' f with inl e => inl e | inr b => inr (a ++ b) end
               end
  end.
Definition bindr (x : sres) (f : list sst -> sres) : sres := match x with inl e => inl e | inr l => f l end.

Fixpoint smt (r : re) (st : sst) {struct r} : sres :=
  match r with
  | REps => inr [st]
  | RSet cs =>
      match s_rest st with
      | k :: t => if subset k cs then inr [mks false t (s_caps st)]
                  else if disjoint k cs then inr []
                  else inl (length (s_rest st), cs)
      | [] => inr []
      end
  | RSeq a b => bindr (smt a st) (fun l => bindl l (smt b))
  | RAlt a b => bindr (smt a st) (fun l => bindr (smt b st) (fun l' => inr (l ++ l')))
  | ROpt a => bindr (smt a st) (fun l => inr (l ++ [st]))
  | RStar a =>
      (fix star (n : nat) (st : sst) {struct n} : sres :=
         match n with
         | O => inr [st]
         | S k => bindr (smt a st) (fun l =>
                  bindr (bindl l (fun st' => if Nat.ltb (length (s_rest st')) (length (s_rest st))
                                             then star k st' else inr []))
                        (fun l' => inr (l' ++ [st])))
         end) (length (s_rest st)) st
  | RCap i a =>
      bindr (smt a st) (fun l =>
        inr (map (fun st' => mks (s_bot st') (s_rest st')
                                 ((i, (length (s_rest st), length (s_rest st'))) :: s_caps st')) l))
  | RBegin => inr (if s_bot st then [st] else [])
  | REnd => inr (match s_rest st with [] => [st] | _ => [] end)
  end.

(** Result of a search: [inr None] no match, [inr (Some (p, q, caps))]. *)
Definition fres := (nat * cset + option (nat * nat * list (nat * (nat * nat))))%type.
Fixpoint sfind (r : re) (bot : bool) (sh : shape) : fres :=
  match smt r (mks bot sh []) with
  | inl e => inl e
  | inr (st :: _) => inr (Some (length sh, length (s_rest st), s_caps st))
  | inr [] => match sh with
              | [] => inr None
              | _ :: t => sfind r false t
              end
  end.

Definition suf (S : str) (n : nat) : str := skipn (length S - n) S.
Definition slice (S : str) (pq : nat * nat) : str := firstn (fst pq - snd pq) (suf S (fst pq)).

Section Sound.
Variable S : str.
Variable SH : shape.
Hypothesis HF : fits SH S.

Definition valid (st : sst) : Prop := exists pre, SH = pre ++ s_rest st.
Definition conc (st : sst) : mst :=
  mkm (s_bot st) (suf S (length (s_rest st))) (map (fun e => (fst e, slice S (snd e))) (s_caps st)).

Lemma fits_len : length SH = length S.
Proof. exact (Forall2_length HF). Qed.

Lemma suf_len n : (n <= length S)%nat -> length (suf S n) = n.
Proof. intro H. unfold suf. rewrite skipn_length. lia. Qed.

Lemma valid_le st : valid st -> (length (s_rest st) <= length S)%nat.
Proof. intros (pre & H). rewrite <- fits_len, H, app_length. lia. Qed.

Lemma valid_fits st : valid st -> fits (s_rest st) (suf S (length (s_rest st))).
Proof.
  intros (pre & H). unfold fits, suf.
  pose proof fits_len as HL. rewrite H, app_length in HL.
  replace (length S - length (s_rest st))%nat with (length pre) by lia.
  revert HF. unfold fits. rewrite H. clear. intro HF.
  apply Forall2_app_inv_l in HF. destruct HF as (a & b & Ha & Hb & ->).
  rewrite (Forall2_length Ha). rewrite skipn_app, skipn_all, Nat.sub_diag. exact Hb.
Qed.

Definition agrees (x : sres) (y : list mst) : Prop :=
  forall l, x = inr l -> y = map conc l /\ Forall valid l.

Lemma agrees_bindl l (f : sst -> sres) (g : mst -> list mst) :
  Forall valid l -> (forall st, valid st -> agrees (f st) (g (conc st))) ->
  agrees (bindl l f) (flat_map g (map conc l)).
Proof.
  intros Hv Hf. induction Hv as [|x l Hx Hl IH]; intros r Hr; cbn in *.
  - injection Hr as <-. split; [reflexivity|constructor].
  - destruct (f x) as [e|a] eqn:Ea; [discriminate|].
    destruct (bindl l f) as [e|b] eqn:Eb; [discriminate|]. injection Hr as <-.
    destruct (Hf x Hx a Ea) as (-> & Ha). destruct (IH b eq_refl) as (-> & Hb).
    rewrite map_app. split; [reflexivity|apply Forall_app; auto].
Qed.

Lemma agrees_bindr x y (f : list sst -> sres) z :
  agrees x y -> (forall l, y = map conc l -> Forall valid l -> agrees (f l) z) -> agrees (bindr x f) z.
Proof.
  intros H Hf l Hl. destruct x as [e|a]; [discriminate|]. cbn in Hl.
  destruct (H a eq_refl) as (Hy & Ha). exact (Hf a Hy Ha l Hl).
Qed.

Lemma agrees_one st : valid st -> agrees (inr [st]) [conc st].
Proof. intros H l Hl. injection Hl as <-. split; [reflexivity|constructor; auto]. Qed.

Lemma agrees_nil : agrees (inr []) [].
Proof. intros l Hl. injection Hl as <-. split; [reflexivity|constructor]. Qed.

Lemma agrees_app l l' m m' : m = map conc l -> Forall valid l -> m' = map conc l' -> Forall valid l' ->
  agrees (inr (l ++ l')) (m ++ m').
Proof.
  intros -> Hl -> Hl' r Hr. injection Hr as <-. rewrite map_app.
  split; [reflexivity|apply Forall_app; auto].
Qed.

Lemma smt_agrees r : forall st, valid st -> agrees (smt r st) (mt r (conc st)).
Proof.
  induction r; intros st Hv; cbn [smt mt].
  - apply agrees_one; assumption.
  - pose proof (valid_fits st Hv) as Hf. pose proof (valid_le st Hv) as Hl.
    destruct st as [bot rest caps]. unfold conc; cbn [s_bot s_rest s_caps m_rest m_caps] in *.
    destruct rest as [|k t].
    { destruct (suf S (length (@nil cset))); [apply agrees_nil|inversion Hf]. }
    destruct (suf S (length (k :: t))) as [|c' s'] eqn:E2; [inversion Hf|].
    assert (Hin : in_set k c' = true) by (inversion Hf; assumption). clear Hf.
    destruct (subset k cs) eqn:E.
    + rewrite (subset_ok _ _ _ E Hin).
      assert (Hs' : s' = suf S (length t)).
      { cbn [length] in *. unfold suf in *. replace (length S - length t)%nat with (1 + (length S - Datatypes.S (length t)))%nat by lia.
        rewrite <- skipn_skipn', E2. reflexivity. }
      rewrite Hs'. apply (agrees_one (mks false t caps)).
      destruct Hv as (pre & Hp). exists (pre ++ [k]). rewrite <- app_assoc. exact Hp.
    + destruct (disjoint k cs) eqn:E'.
      * rewrite (disjoint_ok _ _ _ E' Hin). apply agrees_nil.
      * intros l Hl'. discriminate.
  - eapply agrees_bindr; [apply IHr1; exact Hv|].
    intros l -> Hl. apply agrees_bindl; auto.
  - eapply agrees_bindr; [apply IHr1; exact Hv|]. intros l -> Hl.
    eapply agrees_bindr; [apply IHr2; exact Hv|]. intros l' -> Hl'.
    apply agrees_app; auto.
  - eapply agrees_bindr; [apply IHr; exact Hv|]. intros l -> Hl.
    apply agrees_app with (l' := [st]); auto.
  - replace (length (m_rest (conc st))) with (length (s_rest st))
      by (unfold conc; cbn [m_rest]; rewrite suf_len; [reflexivity|apply valid_le; exact Hv]).
    generalize (length (s_rest st)). intro n. revert st Hv.
    induction n as [|n IHn]; intros st Hv.
    + apply agrees_one; assumption.
    + eapply agrees_bindr; [apply IHr; exact Hv|]. intros l -> Hl.
      eapply agrees_bindr.
      * apply agrees_bindl with (g := fun st' => if Nat.ltb (length (m_rest st')) (length (m_rest (conc st)))
          then (fix star (n : nat) (st : mst) {struct n} : list mst :=
         match n with
         | O => [st]
         | Datatypes.S k => flat_map (fun st' => if Nat.ltb (length (m_rest st')) (length (m_rest st))
                                       then star k st' else []) (mt r st) ++ [st]
         end) n st' else []); [exact Hl|].
        intros st' Hv'.
        replace (length (m_rest (conc st'))) with (length (s_rest st'))
          by (unfold conc; cbn [m_rest]; rewrite suf_len; [reflexivity|apply valid_le; exact Hv']).
        replace (length (m_rest (conc st))) with (length (s_rest st))
          by (unfold conc; cbn [m_rest]; rewrite suf_len; [reflexivity|apply valid_le; exact Hv]).
        destruct (Nat.ltb _ _); [apply IHn; exact Hv'|apply agrees_nil].
      * intros l' Hl' Hvl'. rewrite Hl'. apply agrees_app with (l' := [st]); auto.
  - eapply agrees_bindr; [apply IHr; exact Hv|]. intros l -> Hl.
    intros l' Hl'. injection Hl' as <-. split.
    + rewrite !map_map. apply map_ext_in. intros st' Hin.
      rewrite Forall_forall in Hl. specialize (Hl st' Hin).
      unfold conc; cbn [s_bot s_rest s_caps m_bot m_rest m_caps map fst snd]. f_equal. f_equal.
      unfold taken, slice; cbn [fst snd].
      rewrite !suf_len; [reflexivity|apply valid_le; exact Hl|apply valid_le; exact Hv].
    + apply Forall_forall. intros st'' Hin. apply in_map_iff in Hin. destruct Hin as (st' & <- & Hin).
      rewrite Forall_forall in Hl. exact (Hl st' Hin).
  - unfold conc at 1; cbn [m_bot]. destruct (s_bot st).
    + apply agrees_one; exact Hv.
    + apply agrees_nil.
  - pose proof (valid_le st Hv) as Hl. pose proof (suf_len _ Hl) as Hn.
    unfold conc at 1; cbn [m_rest].
    destruct (s_rest st) eqn:E.
    + destruct (suf S (length (@nil cset))) eqn:E2; [|cbn in Hn; discriminate].
      apply agrees_one; exact Hv.
    + destruct (suf S (length (c :: s))) eqn:E2; [cbn in Hn; discriminate|]. apply agrees_nil.
Qed.

Lemma sfind_ok r : forall sh bot x, (exists pre, SH = pre ++ sh) -> sfind r bot sh = inr x ->
  find_from r bot (suf S (length sh)) =
  match x with
  | None => None
  | Some (p, q, caps) => Some (slice S (p, q), map (fun e => (fst e, slice S (snd e))) caps)
  end.
Proof.
  induction sh as [|k t IH]; intros bot x Hp Hx.
  - assert (Hv : valid (mks bot [] [])) by exact Hp.
    pose proof (smt_agrees r _ Hv) as Ha. unfold agrees in Ha.
    pose proof (suf_len (length (@nil cset))) as Hn.
    cbn [sfind] in Hx. destruct (smt r (mks bot [] [])) as [e|l] eqn:E; [discriminate|].
    destruct (Ha l eq_refl) as (Hm & Hl). unfold conc at 1 in Hm; cbn [s_bot s_rest s_caps map] in Hm.
    destruct (suf S (length (@nil cset))) eqn:Es; [|cbn in Hn; lia].
    cbn [find_from]. rewrite Hm. destruct l as [|st l]; cbn [map].
    + injection Hx as <-. reflexivity.
    + injection Hx as <-. unfold conc; cbn [m_rest m_caps]. unfold slice, taken; cbn [fst snd]. rewrite ?firstn_nil. reflexivity.
  - assert (Hv : valid (mks bot (k :: t) [])) by exact Hp.
    pose proof (smt_agrees r _ Hv) as Ha. unfold agrees in Ha.
    pose proof (valid_le _ Hv) as Hle. cbn [s_rest] in Hle.
    pose proof (suf_len _ Hle) as Hn.
    cbn [sfind] in Hx. destruct (smt r (mks bot (k :: t) [])) as [e|l] eqn:E; [discriminate|].
    destruct (Ha l eq_refl) as (Hm & Hl). unfold conc at 1 in Hm; cbn [s_bot s_rest s_caps map] in Hm.
    destruct (suf S (length (k :: t))) as [|c s'] eqn:Es; [cbn in Hn; discriminate|].
    cbn [find_from]. rewrite Hm. destruct l as [|st l]; cbn [map].
    + assert (Hs' : s' = suf S (length t)).
      { cbn [length] in *. unfold suf in *. replace (length S - length t)%nat with (1 + (length S - Datatypes.S (length t)))%nat by lia.
        rewrite <- skipn_skipn', Es. reflexivity. }
      rewrite Hs'. apply IH; [|exact Hx]. destruct Hp as (pre & Hp). exists (pre ++ [k]). rewrite <- app_assoc. exact Hp.
    + injection Hx as <-. unfold conc; cbn [m_rest m_caps]. f_equal. f_equal.
      inversion Hl; subst.
      unfold slice, taken; cbn [fst snd]. cbn [length] in Es. rewrite Es, Hn, suf_len; [reflexivity|].
      apply valid_le; assumption.
Qed.
End Sound.

(** Groups as slices: group 0 first; [None] for a group that was not taken. *)
Fixpoint pos_get (i : nat) (l : list (nat * (nat * nat))) : option (nat * nat) :=
  match l with
  | [] => None
  | (j, pq) :: l' => if Nat.eqb i j then Some pq else pos_get i l'
  end.
Definition groups := list (option (nat * nat)).
Definition sout := option groups.
Definition ssub (r : regexp) (sh : shape) : nat * cset + sout :=
  match sfind (re_body r) true sh with
  | inl e => inl e
  | inr None => inr None
  | inr (Some (p, q, caps)) => inr (Some (Some (p, q) :: map (fun i => pos_get i caps) (seq 1 (re_ncap r))))
  end.
Definition group_str (S : str) (g : option (nat * nat)) : str :=
  match g with None => [] | Some pq => slice S pq end.
Definition out_subs (S : str) (o : sout) : list str :=
  match o with None => [] | Some l => map (group_str S) l end.
Definition out_match (o : sout) : bool := match o with None => false | Some _ => true end.

Lemma cap_get_pos S i caps :
  cap_get i (map (fun e => (fst e, slice S (snd e))) caps) = group_str S (pos_get i caps).
Proof.
  induction caps as [|(j & pq) caps IH]; [reflexivity|]. cbn [map cap_get pos_get fst snd].
  destruct (Nat.eqb i j); [reflexivity|exact IH].
Qed.

Lemma suf_all S : suf S (length S) = S.
Proof. unfold suf. rewrite Nat.sub_diag. reflexivity. Qed.

Lemma ssub_ok r sh s o : fits sh s -> ssub r sh = inr o ->
  find_submatch r s = out_subs s o /\ match_string r s = out_match o.
Proof.
  intros Hf Ho. unfold ssub in Ho.
  destruct (sfind (re_body r) true sh) as [e|x] eqn:E; [discriminate|].
  assert (Hp : exists pre, sh = pre ++ sh) by (exists []; reflexivity).
  pose proof (sfind_ok s sh Hf (re_body r) sh true x Hp E) as H.
  rewrite (Forall2_length Hf), suf_all in H.
  unfold find_submatch, match_string. rewrite H.
  destruct x as [((p & q) & caps)|]; injection Ho as <-.
  - split; [|reflexivity]. cbn [out_subs map group_str]. f_equal.
    rewrite map_map. apply map_ext. intro i. apply cap_get_pos.
  - split; reflexivity.
Qed.

(** ** Splitting on demand *)
Fixpoint split_at (sh : shape) (n : nat) (f : cset -> cset) : shape :=
  match sh with
  | [] => []
  | k :: t => if Nat.eqb (length sh) n then f k :: t else k :: split_at t n f
  end.

Lemma split_at_fits sh s n cs : fits sh s ->
  fits (split_at sh n (fun k => inter k cs)) s \/ fits (split_at sh n (fun k => minus k cs)) s.
Proof.
  intro H. induction H as [|k c sh s Hc H IH]; [left; constructor|].
  cbn [split_at]. destruct (Nat.eqb (length (k :: sh)) n).
  - destruct (in_set cs c) eqn:E.
    + left. constructor; [rewrite inter_ok, Hc, E; reflexivity|exact H].
    + right. constructor; [rewrite minus_ok, Hc, E; reflexivity|exact H].
  - destruct IH as [IH|IH]; [left|right]; constructor; auto.
Qed.

Fixpoint ssubs (rs : list regexp) (sh : shape) : nat * cset + list sout :=
  match rs with
  | [] => inr []
  | r :: rs' => match ssub r sh with
                | inl e => inl e
                | inr o => match ssubs rs' sh with inl e => inl e | inr l => inr (o :: l) end
                end
  end.

Definition answers (s : str) (rs : list regexp) (outs : list sout) : Prop :=
  Forall2 (fun r o => find_submatch r s = out_subs s o /\ match_string r s = out_match o) rs outs.

Lemma ssubs_ok rs : forall sh s outs, fits sh s -> ssubs rs sh = inr outs -> answers s rs outs.
Proof.
  induction rs as [|r rs IH]; intros sh s outs Hf H; cbn [ssubs] in H.
  - injection H as <-. constructor.
  - destruct (ssub r sh) as [e|o] eqn:E; [discriminate|].
    destruct (ssubs rs sh) as [e|l] eqn:E'; [discriminate|]. injection H as <-.
    constructor; [eapply ssub_ok; eauto|eapply IH; eauto].
Qed.

Definition no_byte (k : cset) : bool := match k with [] => true | _ => false end.

(** Run [rs] on all strings of shape [sh], splitting classes where needed, and
    test every combination of outcomes with [f]. *)
Fixpoint check (fuel : nat) (rs : list regexp) (f : shape -> list sout -> bool) (sh : shape) : bool :=
  match fuel with
  | O => false
  | S n =>
      if existsb no_byte sh then true
      else match ssubs rs sh with
      | inr outs => f sh outs
      | inl (p, cs) => check n rs f (split_at sh p (fun k => inter k cs)) &&
                       check n rs f (split_at sh p (fun k => minus k cs))
      end
  end.

Lemma fits_nonempty sh s : fits sh s -> existsb no_byte sh = false.
Proof.
  intro H. induction H as [|k c sh s Hc H IH]; [reflexivity|].
  cbn [existsb]. rewrite IH. destruct k; [discriminate Hc|reflexivity].
Qed.

Theorem check_ok fuel rs f : forall sh s, check fuel rs f sh = true -> fits sh s ->
  exists sh' outs, fits sh' s /\ answers s rs outs /\ f sh' outs = true.
Proof.
  induction fuel as [|n IH]; intros sh s Hc Hf; [discriminate|].
  cbn [check] in Hc. rewrite (fits_nonempty sh s Hf) in Hc.
  destruct (ssubs rs sh) as [(p & cs)|outs] eqn:E.
  - apply andb_true_iff in Hc. destruct Hc as (H1 & H2).
    destruct (split_at_fits sh s p cs Hf) as [H|H]; [exact (IH _ _ H1 H)|exact (IH _ _ H2 H)].
  - exists sh, outs. split; [exact Hf|]. split; [eapply ssubs_ok; eauto|exact Hc].
Qed.

(** ** Languages of star-free expressions as finite lists of shapes *)
Fixpoint star_free (r : re) : bool :=
  match r with
  | REps | RSet _ | RBegin | REnd => true
  | RSeq a b | RAlt a b => star_free a && star_free b
  | ROpt a | RCap _ a => star_free a
  | RStar _ => false
  end.
Fixpoint lang (r : re) : list shape :=
  match r with
  | RSet cs => [[cs]]
  | RSeq a b => flat_map (fun x => map (app x) (lang b)) (lang a)
  | RAlt a b => lang a ++ lang b
  | ROpt a => lang a ++ [[]]
  | RCap _ a => lang a
  | _ => [[]]
  end.

Lemma mt_lang r : star_free r = true -> forall st st', In st' (mt r st) ->
  exists sh u, In sh (lang r) /\ fits sh u /\ m_rest st = u ++ m_rest st'.
Proof.
  induction r; cbn [star_free]; intro Hs; intros st st' Hin; try discriminate; cbn [mt lang] in *.
  - destruct Hin as [<-|[]]. exists [], []. repeat split; [left; reflexivity|constructor].
  - destruct (m_rest st) as [|c t] eqn:E; [destruct Hin|].
    destruct (in_set cs c) eqn:Ec; [|destruct Hin]. destruct Hin as [<-|[]].
    exists [cs], [c]. repeat split; [left; reflexivity|constructor; [exact Ec|constructor]].
  - apply andb_true_iff in Hs. destruct Hs as (H1 & H2).
    apply in_flat_map in Hin. destruct Hin as (st1 & Hin1 & Hin2).
    destruct (IHr1 H1 _ _ Hin1) as (sh1 & u1 & Hl1 & Hf1 & E1).
    destruct (IHr2 H2 _ _ Hin2) as (sh2 & u2 & Hl2 & Hf2 & E2).
    exists (sh1 ++ sh2), (u1 ++ u2). repeat split.
    + apply in_flat_map. exists sh1. split; [exact Hl1|]. apply in_map. exact Hl2.
    + apply Forall2_app; assumption.
    + rewrite E1, E2, app_assoc. reflexivity.
  - apply andb_true_iff in Hs. destruct Hs as (H1 & H2).
    apply in_app_iff in Hin. destruct Hin as [Hin|Hin].
    + destruct (IHr1 H1 _ _ Hin) as (sh & u & Hl & Hf & E). exists sh, u. repeat split; auto. apply in_app_iff; auto.
    + destruct (IHr2 H2 _ _ Hin) as (sh & u & Hl & Hf & E). exists sh, u. repeat split; auto. apply in_app_iff; auto.
  - apply in_app_iff in Hin. destruct Hin as [Hin|[<-|[]]].
    + destruct (IHr Hs _ _ Hin) as (sh & u & Hl & Hf & E). exists sh, u. repeat split; auto. apply in_app_iff; auto.
    + exists [], []. repeat split; [apply in_app_iff; right; left; reflexivity|constructor].
  - apply in_map_iff in Hin. destruct Hin as (st1 & <- & Hin).
    destruct (IHr Hs _ _ Hin) as (sh & u & Hl & Hf & E). exists sh, u. repeat split; auto.
  - destruct (m_bot st); [|destruct Hin]. destruct Hin as [<-|[]].
    exists [], []. repeat split; [left; reflexivity|constructor].
  - destruct (m_rest st) eqn:E; [|destruct Hin]. destruct Hin as [<-|[]].
    exists [], []. rewrite E. repeat split; [left; reflexivity|constructor].
Qed.

(** ** Anchors *)
(** Expressions that can only match at the beginning of the text. *)
Fixpoint begins (r : re) : bool :=
  match r with
  | RBegin => true
  | RSeq a _ => begins a
  | RAlt a b => begins a && begins b
  | RCap _ a => begins a
  | _ => false
  end.
Lemma begins_mt r : begins r = true -> forall s caps, mt r (mkm false s caps) = [].
Proof.
  induction r; cbn [begins]; intro H; intros s caps; try discriminate; cbn [mt].
  - rewrite IHr1 by assumption. reflexivity.
  - apply andb_true_iff in H. destruct H. rewrite IHr1, IHr2 by assumption. reflexivity.
  - rewrite IHr by assumption. reflexivity.
  - reflexivity.
Qed.
Lemma begins_find r : begins r = true -> forall s, find_from r false s = None.
Proof.
  intros H. induction s as [|c s IH]; cbn [find_from]; rewrite begins_mt by exact H; auto.
Qed.
Lemma begins_find_true r s : begins r = true ->
  find_from r true s = match mt r (mkm true s []) with
                       | st :: _ => Some (taken s (m_rest st), m_caps st)
                       | [] => None
                       end.
Proof.
  intro H. destruct s as [|c s]; cbn [find_from]; destruct (mt r _); try reflexivity.
  apply begins_find; exact H.
Qed.

(** ^X$ and ^X *)
Definition anchored2 (r : re) : option re :=
  match r with
  | RSeq RBegin (RSeq a REnd) => Some a
  | _ => None
  end.
Fixpoint end_seq (r : re) : option re :=   (* strip a final REnd *)
  match r with
  | REnd => Some REps
  | RSeq a b => match end_seq b with Some b' => Some (RSeq a b') | None => None end
  | _ => None
  end.
Definition body2 (r : re) : option re :=
  match r with
  | RSeq RBegin b => end_seq b
  | _ => None
  end.

Lemma end_seq_mt r : forall b, end_seq r = Some b -> forall st st',
  In st' (mt r st) <-> In st' (mt b st) /\ m_rest st' = [].
Proof.
  induction r; cbn [end_seq]; intros b Hb; try discriminate.
  - destruct (end_seq r2) as [b'|] eqn:E; [|discriminate]. injection Hb as <-.
    intros st st'. cbn [mt]. rewrite !in_flat_map. split.
    + intros (x & Hx & H). apply (IHr2 _ eq_refl) in H. destruct H. split; [exists x; auto|auto].
    + intros ((x & Hx & H) & H'). exists x. split; [exact Hx|]. apply (IHr2 _ eq_refl). auto.
  - injection Hb as <-. intros st st'. cbn [mt]. destruct (m_rest st) eqn:E; cbn [In].
    + split; [intros [<-|[]]; auto|intros ([<-|[]] & _); auto].
    + split; [intros []|intros ([<-|[]] & H)]. rewrite E in H. discriminate.
Qed.

Lemma body2_match r b s : body2 (re_body r) = Some b ->
  match_string r s = true <-> exists st', In st' (mt b (mkm true s [])) /\ m_rest st' = [].
Proof.
  intro Hb. unfold match_string.
  assert (Hbeg : begins (re_body r) = true).
  { destruct (re_body r) as [| |[] |  | | | | |]; try discriminate; reflexivity. }
  rewrite begins_find_true by exact Hbeg.
  assert (Hm : mt (re_body r) (mkm true s []) =
               mt (match re_body r with RSeq _ x => x | _ => REps end) (mkm true s [])).
  { destruct (re_body r) as [| |[] |  | | | | |]; try discriminate. cbn [mt m_bot flat_map]. apply app_nil_r. }
  rewrite Hm. clear Hm.
  assert (He : end_seq (match re_body r with RSeq _ x => x | _ => REps end) = Some b).
  { destruct (re_body r) as [| |[] |  | | | | |]; try discriminate. exact Hb. }
  revert He. generalize (match re_body r with RSeq _ x => x | _ => REps end). intros q He.
  destruct (mt q (mkm true s [])) as [|st l] eqn:E.
  - split; [discriminate|]. intros (st' & H). apply (end_seq_mt _ _ He) in H. rewrite E in H. destruct H.
  - split; [|reflexivity]. intros _. exists st. apply (end_seq_mt _ _ He). rewrite E. left. reflexivity.
Qed.

(** A matching string of an anchored star-free pattern fits one of finitely many
    shapes. *)
Definition regexp_lang (r : regexp) : option (list shape) :=
  match body2 (re_body r) with
  | Some b => if star_free b then Some (lang b) else None
  | None => None
  end.
Theorem regexp_lang_ok r l s : regexp_lang r = Some l -> match_string r s = true ->
  exists sh, In sh l /\ fits sh s.
Proof.
  unfold regexp_lang. destruct (body2 (re_body r)) as [b|] eqn:E; [|discriminate].
  destruct (star_free b) eqn:Es; [|discriminate]. intros Hl Hm. injection Hl as <-.
  apply (body2_match _ _ _ E) in Hm. destruct Hm as (st' & Hin & Hr).
  destruct (mt_lang b Es _ _ Hin) as (sh & u & Hl & Hf & Eu).
  exists sh. split; [exact Hl|]. cbn [m_rest] in Eu. rewrite Hr, app_nil_r in Eu. subst u. exact Hf.
Qed.

(** Check a set of regexps on every string that a given one matches. *)
Definition check_lang (fuel : nat) (r : regexp) (rs : list regexp) (f : shape -> list sout -> bool) : bool :=
  match regexp_lang r with
  | Some l => forallb (check fuel rs f) l
  | None => false
  end.
Theorem check_lang_ok fuel r rs f s : check_lang fuel r rs f = true -> match_string r s = true ->
  exists sh outs, fits sh s /\ answers s rs outs /\ f sh outs = true.
Proof.
  unfold check_lang. destruct (regexp_lang r) as [l|] eqn:E; [|discriminate].
  intros Hc Hm. destruct (regexp_lang_ok r l s E Hm) as (sh & Hin & Hf).
  rewrite forallb_forall in Hc. exact (check_ok fuel rs f sh s (Hc sh Hin) Hf).
Qed.
