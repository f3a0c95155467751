(** Lemmas for C79: the flags and the address of the server. *)
From Coq Require Import Ascii String ZArith NArith Bool Lia ZifyBool List.
From Verif Require Import GoStr SpecCal SpecText SpecForms SpecNotation SpecFlags SpecMessage SpecQuote StrFacts TextFacts RefYears Quote QuoteProofs Cmd Server SpecServer ServerProofs.
Import ListNotations.
Open Scope Z_scope.

(** ** One argument *)
Definition value_text (v : option str) : str := match v with Some w => "="%char :: w | None => [] end.
Lemma cut_spec s n v : cut_equals s = (n, v) <-> s = n ++ value_text v /\ ~ In "="%char n.
Proof.
  revert n v. induction s as [|c s IH]; intros n v; cbn [cut_equals].
  - split; [intro H; injection H as <- <-; split; [reflexivity|intros []]|]. intros (E & N). symmetry in E. apply app_eq_nil in E. destruct E as (-> & E). destruct v; [discriminate E|reflexivity].
  - destruct (Ascii.eqb c "=") eqn:Q.
    + apply Ascii.eqb_eq in Q. subst c. split; [intro H; injection H as <- <-; split; [reflexivity|intros []]|]. intros (E & N). destruct n as [|x n]; [|injection E as <- _; destruct N; left; reflexivity].
      destruct v as [w|]; [|discriminate E]. injection E as ->. reflexivity.
    + apply Ascii.eqb_neq in Q. destruct (cut_equals s) as [m w] eqn:C. split.
      * intro H. injection H as <- <-. destruct (proj1 (IH m w) eq_refl) as (-> & N). split; [reflexivity|]. intros [H|H]; [congruence|exact (N H)].
      * intros (E & N). destruct n as [|x n]; [destruct v as [w'|]; [injection E as -> _; contradiction|discriminate E]|]. injection E as -> E.
        assert (X : (m, w) = (n, v)) by (apply IH; split; [exact E|]; intro H; apply N; right; exact H). injection X as -> ->. reflexivity.
Qed.
Lemma classify_plain s : (forall c t, s <> "-"%char :: c :: t) -> classify s = Plain.
Proof.
  intro N. destruct s as [|a [|b t]]; [reflexivity..|]. cbn [classify]. destruct (Ascii.eqb a "-") eqn:E; [|reflexivity]. apply Ascii.eqb_eq in E. subst a. destruct (N b t eq_refl).
Qed.
Lemma classify_dashes d c t : dashes d -> (d = $"-" -> c <> "-"%char) -> classify (d ++ c :: t) = flag_of (c :: t).
Proof.
  intros [->| ->] H; [|reflexivity]. change ($"-" ++ c :: t) with ("-"%char :: c :: t). cbn [classify]. change (Ascii.eqb "-" "-") with true. cbv iota.
  replace (Ascii.eqb c "-") with false by (symmetry; apply Ascii.eqb_neq; exact (H eq_refl)). reflexivity.
Qed.
Lemma classify_flag d c n v : dashes d -> c <> "-"%char -> ~ In "="%char (c :: n) -> classify (d ++ (c :: n) ++ value_text v) = Flag (c :: n) v.
Proof.
  intros D C N. cbn [app]. rewrite classify_dashes; [|exact D|intros _; exact C]. cbn [flag_of]. replace (Ascii.eqb c "-") with false by (symmetry; apply Ascii.eqb_neq; exact C).
  replace (Ascii.eqb c "=") with false by (symmetry; apply Ascii.eqb_neq; intro E; apply N; left; exact E). cbn [orb].
  rewrite (proj2 (cut_spec (n ++ value_text v) n v)); [reflexivity|]. split; [reflexivity|]. intro H. apply N. right. exact H.
Qed.
Inductive kind (s : str) : Prop :=
| k_plain : (forall c t, s <> "-"%char :: c :: t) \/ s = $"--" -> kind s
| k_dash t : s = $"---" ++ t -> kind s
| k_equals d t : dashes d -> s = d ++ $"=" ++ t -> kind s
| k_flag d c n v : dashes d -> c <> "-"%char -> ~ In "="%char (c :: n) -> s = d ++ (c :: n) ++ value_text v -> kind s.
Lemma kind_tail d c t : dashes d -> (d = $"-" -> c <> "-"%char) -> kind (d ++ c :: t).
Proof.
  intros D H. destruct (Ascii.eqb c "-") eqn:E; [apply Ascii.eqb_eq in E; subst c; destruct D as [->| ->]; [destruct (H eq_refl eq_refl)|exact (k_dash _ t eq_refl)]|]. apply Ascii.eqb_neq in E.
  destruct (Ascii.eqb c "=") eqn:F; [apply Ascii.eqb_eq in F; subst c; exact (k_equals _ d t D eq_refl)|]. apply Ascii.eqb_neq in F.
  destruct (cut_equals t) as [n v] eqn:C. apply cut_spec in C. destruct C as (-> & N). apply (k_flag _ d c n v D E); [|reflexivity]. intros [Q|Q]; [congruence|exact (N Q)].
Qed.
Lemma kind_total s : kind s.
Proof.
  destruct s as [|a [|b t]]; [apply k_plain; left; discriminate..|]. destruct (Ascii.eqb a "-") eqn:E; [|apply k_plain; left; intros c u Q; injection Q as -> _ _; discriminate E]. apply Ascii.eqb_eq in E. subst a.
  destruct (Ascii.eqb b "-") eqn:F.
  - apply Ascii.eqb_eq in F. subst b. destruct t as [|c t]; [apply k_plain; right; reflexivity|]. apply (kind_tail ($"--") c t); [right; reflexivity|discriminate].
  - apply Ascii.eqb_neq in F. apply (kind_tail ($"-") b t); [left; reflexivity|intros _; exact F].
Qed.
Lemma value_flag v : flag_value (value_text v).
Proof. destruct v as [w|]; [right; exists w; reflexivity|left; reflexivity]. Qed.
Lemma flag_value_text v : flag_value v -> exists w, v = value_text w.
Proof. intros [->|(u & ->)]; [exists None; reflexivity|exists (Some u); reflexivity]. Qed.

(** ** The command line *)
Ltac head_ok := match goal with |- _ <> _ => discriminate | |- ~ In _ _ => cbn; intuition discriminate end.
Lemma flag_host d v : dashes d -> classify (d ++ $"host" ++ value_text v) = Flag ($"host") v.
Proof. intro D. apply (classify_flag d "h" ($"ost") v D); head_ok. Qed.
Lemma flag_port d v : dashes d -> classify (d ++ $"port" ++ value_text v) = Flag ($"port") v.
Proof. intro D. apply (classify_flag d "p" ($"ort") v D); head_ok. Qed.
Definition sets (n w : str) (h : str) (p : Z) (h' : str) (p' : Z) : Prop :=
  n = $"host" /\ h' = w /\ p' = p \/ n = $"port" /\ h' = h /\ port_text w p'.
Lemma set_ok n w h p h' p' : sets n w h p h' p' <-> set_flag n w (mkSettings h p) = Some (inr (mkSettings h' p')).
Proof.
  unfold set_flag, sets. cbn [host port]. destruct (seqb n ($"host")) eqn:E.
  - apply seqb_eq in E. subst n. split; [intros [(_ & -> & ->)|(Q & _)]; [reflexivity|discriminate Q]|]. intro H. injection H as <- <-. auto.
  - apply seqb_neq in E. destruct (seqb n ($"port")) eqn:F.
    + apply seqb_eq in F. subst n. split.
      * intros [(Q & _)|(_ & -> & P)]; [discriminate Q|]. apply int_ok in P. rewrite P. reflexivity.
      * intro H. destruct (parse_int w) as [f|m] eqn:P; [discriminate H|]. injection H as <- <-. right. repeat split; [|apply int_ok in P; apply P..]. apply int_ok in P. apply P.
    + apply seqb_neq in F. split; [intros [(Q & _)|(Q & _)]; contradiction|discriminate].
Qed.
Lemma set_fault n w h p x : (n = $"port" /\ exists why, no_port w why /\ x = InvalidValue w ($"port") why) <-> set_flag n w (mkSettings h p) = Some (inl x).
Proof.
  unfold set_flag. cbn [host port]. destruct (seqb n ($"host")) eqn:E.
  - apply seqb_eq in E. subst n. split; [intros (Q & _); discriminate Q|discriminate].
  - destruct (seqb n ($"port")) eqn:F.
    + apply seqb_eq in F. subst n. split.
      * intros (_ & why & P & ->). apply int_fault_spec in P. rewrite P. reflexivity.
      * intro H. destruct (parse_int w) as [f|m] eqn:P; [|discriminate H]. injection H as <-. split; [reflexivity|]. exists f. split; [apply int_fault_spec; exact P|reflexivity].
    + apply seqb_neq in F. split; [intros (Q & _); contradiction|discriminate].
Qed.
Lemma defined_set n w x : defined n = true -> set_flag n w x <> None.
Proof. unfold defined, set_flag. destruct (seqb n ($"host")); [discriminate|]. cbn [orb]. intros ->. discriminate. Qed.
Lemma defined_spec n : defined n = true <-> n = $"host" \/ n = $"port".
Proof. unfold defined. rewrite orb_true_iff, !seqb_eq. tauto. Qed.
Lemma one_flag_classify h p args h' p' r : one_flag h p args h' p' r <->
  exists s rest n v w, args = s :: rest /\ classify s = Flag n v /\ sets n w h p h' p' /\ (v = Some w /\ r = rest \/ v = None /\ rest = w :: r).
Proof.
  split.
  - intros [d w q D|d w q D|d w m q D P|d w m q D P].
    + exists (d ++ $"host=" ++ w), q, ($"host"), (Some w), w. split; [reflexivity|]. split; [exact (flag_host d (Some w) D)|]. split; [left; auto|left; auto].
    + exists (d ++ $"host"), (w :: q), ($"host"), None, w. split; [reflexivity|]. split; [exact (flag_host d None D)|]. split; [left; auto|right; auto].
    + exists (d ++ $"port=" ++ w), q, ($"port"), (Some w), w. split; [reflexivity|]. split; [exact (flag_port d (Some w) D)|]. split; [right; auto|left; auto].
    + exists (d ++ $"port"), (w :: q), ($"port"), None, w. split; [reflexivity|]. split; [exact (flag_port d None D)|]. split; [right; auto|right; auto].
  - intros (s & rest & n & v & w & -> & C & S & V). assert (exists d, dashes d /\ s = d ++ n ++ value_text v) as (d & D & ->).
    { destruct (kind_total s) as [K|t ->|d t D ->|d c n' v' D N E ->].
      - destruct K as [K| ->]; [rewrite (classify_plain s K) in C; discriminate C|discriminate C].
      - discriminate C.
      - change (d ++ $"=" ++ t) with (d ++ "="%char :: t) in C. rewrite classify_dashes in C; [discriminate C|exact D|discriminate].
      - rewrite (classify_flag d c n' v' D N E) in C. injection C as <- <-. exists d. auto. }
    destruct S as [(-> & -> & ->)|(-> & -> & P)]; destruct V as [(-> & ->)|(-> & ->)]; cbn [value_text]; rewrite ?app_nil_r.
    + exact (of_host h p d w rest D).
    + exact (of_host_next h p d w r D).
    + exact (of_port h p d w p' rest D P).
    + exact (of_port_next h p d w p' r D P).
Qed.
Lemma flags_step h p args h' p' r : one_flag h p args h' p' r -> server_flags args (mkSettings h p) = server_flags r (mkSettings h' p').
Proof.
  intro H. apply one_flag_classify in H. destruct H as (s & rest & n & v & w & -> & C & S & V). cbn [server_flags]. rewrite C. assert (Dn : defined n = true) by (apply defined_spec; destruct S as [(-> & _)|(-> & _)]; auto).
  rewrite Dn. apply set_ok in S. destruct V as [(-> & ->)|(-> & ->)]; rewrite S; reflexivity.
Qed.
Lemma flags_end args x : no_flags args -> server_flags args x = inr x.
Proof. intros [|s r N|r]; [reflexivity| |reflexivity]. cbn [server_flags]. rewrite (classify_plain s N). reflexivity. Qed.
Lemma one_flag_shorter h p args h' p' r : one_flag h p args h' p' r -> (length r < length args)%nat.
Proof. intros [d w q D|d w q D|d w m q D P|d w m q D P]; cbn [length]; lia. Qed.
Lemma one_flag_change h p args h' p' r g q : one_flag h p args h' p' r -> exists g' q', one_flag g q args g' q' r.
Proof. intros [d w r' D|d w r' D|d w m r' D P|d w m r' D P]; do 2 eexists; [apply of_host|apply of_host_next|eapply of_port|eapply of_port_next]; eassumption. Qed.
Lemma refuses_flags s r x y : refuses s y -> server_flags (s :: r) x = inl y.
Proof.
  intro R. cbn [server_flags]. destruct R as [t|d t D|d n v D N V|d c n v D C E V N H P].
  - reflexivity.
  - change (d ++ $"=" ++ t) with (d ++ "="%char :: t). rewrite classify_dashes; [reflexivity|exact D|discriminate].
  - destruct (flag_value_text v V) as (w & ->). destruct N as [->| ->].
    + pose proof (classify_flag d "h" [] w D ltac:(discriminate) ltac:(head_ok)) as K. change ("h"%char :: []) with ($"h") in K. rewrite K. reflexivity.
    + pose proof (classify_flag d "h" ($"elp") w D ltac:(discriminate) ltac:(head_ok)) as K. change ("h"%char :: $"elp") with ($"help") in K. rewrite K. reflexivity.
  - destruct (flag_value_text v V) as (w & ->). rewrite (classify_flag d c n w D C E). destruct (defined (c :: n)) eqn:F; [apply defined_spec in F; destruct F; contradiction|].
    destruct (seqb (c :: n) ($"help")) eqn:F1; [apply seqb_eq in F1; destruct N; right; exact F1|]. destruct (seqb (c :: n) ($"h")) eqn:F2; [apply seqb_eq in F2; destruct N; left; exact F2|]. reflexivity.
Qed.
Lemma value_flags d v why r x : dashes d -> no_port v why -> server_flags ((d ++ $"port=" ++ v) :: r) x = inl (InvalidValue v ($"port") why).
Proof.
  intros D P. destruct x as [h p]. cbn [server_flags]. change (d ++ $"port=" ++ v) with (d ++ $"port" ++ value_text (Some v)). rewrite (flag_port d (Some v) D). change (defined ($"port")) with true. cbv iota.
  assert (S : set_flag ($"port") v (mkSettings h p) = Some (inl (InvalidValue v ($"port") why))) by (apply set_fault; split; [reflexivity|eauto]). rewrite S. reflexivity.
Qed.
Lemma value_next_flags d v why r x : dashes d -> no_port v why -> server_flags ((d ++ $"port") :: v :: r) x = inl (InvalidValue v ($"port") why).
Proof.
  intros D P. destruct x as [h p]. cbn [server_flags]. pose proof (flag_port d None D) as C. cbn [value_text] in C. rewrite app_nil_r in C. rewrite C. change (defined ($"port")) with true. cbv iota.
  assert (S : set_flag ($"port") v (mkSettings h p) = Some (inl (InvalidValue v ($"port") why))) by (apply set_fault; split; [reflexivity|eauto]). rewrite S. reflexivity.
Qed.
Lemma missing_flags d n x : dashes d -> n = $"host" \/ n = $"port" -> server_flags [d ++ n] x = inl (NeedsArgument n).
Proof.
  intros D N. cbn [server_flags]. assert (C : classify (d ++ n) = Flag n None).
  { destruct N as [->| ->]; [pose proof (flag_host d None D) as C|pose proof (flag_port d None D) as C]; cbn [value_text] in C; rewrite app_nil_r in C; exact C. }
  rewrite C. destruct N as [->| ->]; reflexivity.
Qed.
Theorem stops_flags args y : stops args y -> forall x, server_flags args x = inl y.
Proof.
  intro H. induction H as [s r y R|d n D N|d v why r D P|d v why r D P|h p args h' p' r y O S IH]; intro x.
  - exact (refuses_flags s r x y R).
  - exact (missing_flags d n x D N).
  - exact (value_flags d v why r x D P).
  - exact (value_next_flags d v why r x D P).
  - destruct x as [g q]. destruct (one_flag_change _ _ _ _ _ _ g q O) as (g' & q' & O'). rewrite (flags_step _ _ _ _ _ _ O'). apply IH.
Qed.
Theorem line_flags h p args h' p' : line h p args h' p' -> server_flags args (mkSettings h p) = inr (mkSettings h' p').
Proof. intro H. induction H as [h p args N|h p args h1 p1 r h2 p2 O L IH]; [exact (flags_end args _ N)|]. rewrite (flags_step _ _ _ _ _ _ O). exact IH. Qed.
Theorem flags_either args : forall h p, (exists h' p', line h p args h' p') \/ exists y, stops args y.
Proof.
  remember (length args) as k eqn:K. assert (Hk : (length args <= k)%nat) by lia. clear K. revert args Hk. induction k as [|k IH]; intros args Hk h p.
  - destruct args; [|cbn in Hk; lia]. left. exists h, p. apply ln_end. constructor.
  - destruct args as [|s rest]; [left; exists h, p; apply ln_end; constructor|].
    assert (STEP : forall h1 p1 r, one_flag h p (s :: rest) h1 p1 r -> (exists h' p', line h p (s :: rest) h' p') \/ exists y, stops (s :: rest) y).
    { intros h1 p1 r O. pose proof (one_flag_shorter _ _ _ _ _ _ O) as L. destruct (IH r ltac:(lia) h1 p1) as [(h' & p' & A)|(y & A)]; [left; exists h', p'; exact (ln_flag h p _ h1 p1 r h' p' O A)|right; exists y; exact (sp_flag h p _ h1 p1 r y O A)]. }
    destruct (kind_total s) as [Kd|t ->|d t D ->|d c n v D N E ->].
    + left. exists h, p. apply ln_end. destruct Kd as [Kd| ->]; [exact (nf_plain s rest Kd)|exact (nf_dashes rest)].
    + right. eexists. apply sp_refused. exact (rf_dash t).
    + right. eexists. apply sp_refused. exact (rf_equals d t D).
    + assert (VAL : forall w, (exists m, port_text w m) \/ exists why, no_port w why).
      { intro w. destruct (parse_int w) as [why|m] eqn:Pw; [right; exists why; apply int_fault_spec; exact Pw|left; exists m; apply int_ok; exact Pw]. }
      destruct (seqb (c :: n) ($"host")) eqn:F1.
      { apply seqb_eq in F1. rewrite F1 in *. destruct v as [w|]; cbn [value_text] in *.
        - exact (STEP w p rest (of_host h p d w rest D)).
        - rewrite app_nil_r in *. destruct rest as [|w rest]; [right; eexists; apply sp_missing; [exact D|left; reflexivity]|]. exact (STEP w p rest (of_host_next h p d w rest D)). }
      destruct (seqb (c :: n) ($"port")) eqn:F2.
      { apply seqb_eq in F2. rewrite F2 in *. destruct v as [w|]; cbn [value_text] in *.
        - destruct (VAL w) as [(m & Pm)|(why & Pm)]; [exact (STEP h m rest (of_port h p d w m rest D Pm))|right; eexists; exact (sp_value d w why rest D Pm)].
        - rewrite app_nil_r in *. destruct rest as [|w rest]; [right; eexists; apply sp_missing; [exact D|right; reflexivity]|].
          destruct (VAL w) as [(m & Pm)|(why & Pm)]; [exact (STEP h m rest (of_port_next h p d w m rest D Pm))|right; eexists; exact (sp_value_next d w why rest D Pm)]. }
      apply seqb_neq in F1, F2. right. destruct (seqb (c :: n) ($"help")) eqn:F3; [|destruct (seqb (c :: n) ($"h")) eqn:F4].
      * apply seqb_eq in F3. eexists. apply sp_refused. apply rf_help; [exact D|right; exact F3|apply value_flag].
      * apply seqb_eq in F4. eexists. apply sp_refused. apply rf_help; [exact D|left; exact F4|apply value_flag].
      * apply seqb_neq in F3, F4. eexists. apply sp_refused. apply rf_unknown; [exact D|exact N|exact E|apply value_flag|intros [Q|Q]; contradiction|exact F1|exact F2].
Qed.
Theorem flags_line args h p h' p' : server_flags args (mkSettings h p) = inr (mkSettings h' p') <-> line h p args h' p'.
Proof.
  split; [|exact (line_flags h p args h' p')]. intro H. destruct (flags_either args h p) as [(g & q & L)|(y & S)].
  - pose proof (line_flags _ _ _ _ _ L) as E. rewrite H in E. injection E as -> ->. exact L.
  - rewrite (stops_flags _ _ S) in H. discriminate H.
Qed.
Theorem flags_stop args x y : server_flags args x = inl y <-> stops args y.
Proof.
  split; [|intro H; exact (stops_flags args y H x)]. destruct x as [h p]. intro H. destruct (flags_either args h p) as [(g & q & L)|(z & S)].
  - rewrite (line_flags _ _ _ _ _ L) in H. discriminate H.
  - rewrite (stops_flags _ _ S) in H. injection H as ->. exact S.
Qed.

(** ** The address *)
Theorem server_address args a : main_server args = inr a <-> exists h p t, line ($"localhost") 8080 args h p /\ canonical_text t p /\ a = h ++ $":" ++ t.
Proof.
  unfold main_server. split.
  - destruct (server_flags args _) as [x|[h p]] eqn:E; [discriminate|]. intro H. injection H as <-. apply flags_line in E. exists h, p, (itoa p). split; [exact E|]. split; [apply itoa_canonical|reflexivity].
  - intros (h & p & t & L & T & ->). rewrite (line_flags _ _ _ _ _ L). unfold address. cbn [host port]. rewrite <- (canonical_itoa t p T). reflexivity.
Qed.
Theorem server_stops args x : main_server args = inl x <-> stops args x.
Proof.
  unfold main_server. rewrite <- (flags_stop args (mkSettings ($"localhost") 8080)). destruct (server_flags args _) as [y|s]; [|split; discriminate]. split; intro H; injection H as ->; reflexivity.
Qed.

(** ** Taking the address apart *)
Lemma has_byte_in c s : has_byte c s = true <-> In c s.
Proof.
  unfold has_byte. induction s as [|d s IH]; cbn [index_byte In]; [split; [discriminate|intros []]|]. destruct (Ascii.eqb c d) eqn:E.
  - apply Ascii.eqb_eq in E. subst d. split; auto.
  - apply Ascii.eqb_neq in E. destruct (index_byte c s); cbn [option_map]; [split; [intros _; right; apply IH; reflexivity|reflexivity]|]. split; [discriminate|]. intros [H|H]; [congruence|apply IH in H; discriminate H].
Qed.
Lemma has_byte_not c s : ~ In c s -> has_byte c s = false.
Proof. intro N. destruct (has_byte c s) eqn:E; [|reflexivity]. destruct N. apply has_byte_in. exact E. Qed.
Lemma last_none c s : ~ In c s -> last_byte c s = None.
Proof.
  induction s as [|d s IH]; [reflexivity|]. intro N. cbn [last_byte]. rewrite IH by (intro H; apply N; right; exact H). replace (Ascii.eqb c d) with false; [reflexivity|]. symmetry. apply Ascii.eqb_neq. intros ->. apply N. left. reflexivity.
Qed.
Lemma last_at c s t : ~ In c t -> last_byte c (s ++ c :: t) = Some (length s).
Proof.
  intro N. induction s as [|d s IH]; cbn [app last_byte length]; [rewrite (last_none c t N), Ascii.eqb_refl; reflexivity|]. rewrite IH. reflexivity.
Qed.
Lemma index_at c s t : ~ In c s -> index_byte c (s ++ c :: t) = Some (length s).
Proof.
  intro N. induction s as [|d s IH]; cbn [app index_byte length]; [rewrite Ascii.eqb_refl; reflexivity|]. replace (Ascii.eqb c d) with false by (symmetry; apply Ascii.eqb_neq; intros ->; apply N; left; reflexivity).
  rewrite IH by (intro H; apply N; right; exact H). reflexivity.
Qed.
Lemma index_none c s : ~ In c s -> index_byte c s = None.
Proof. intro N. pose proof (has_byte_not c s N) as H. unfold has_byte in H. destruct (index_byte c s); [discriminate H|reflexivity]. Qed.
Lemma first_at c (s : str) : In c s -> exists a b, s = a ++ c :: b /\ ~ In c a.
Proof.
  induction s as [|d s IH]; intro H; [destruct H|]. destruct (Ascii.eqb c d) eqn:E; [apply Ascii.eqb_eq in E; subst d; exists [], s; split; [reflexivity|intros []]|]. apply Ascii.eqb_neq in E.
  destruct H as [H|H]; [congruence|]. destruct (IH H) as (a & b & -> & N). exists (d :: a), b. split; [reflexivity|]. intros [Q|Q]; [congruence|exact (N Q)].
Qed.
Lemma digits_bytes t v c : dec_digits t v -> In c t -> is_digit c = true.
Proof. intros D H. apply dec_digits_iff in D. destruct D as (_ & D). revert D H. generalize 0. induction t as [|x t IH]; intros acc D H; [destruct H|]. cbn [dec_val] in D. destruct (is_digit x) eqn:E; [|discriminate D]. destruct H as [->|H]; [exact E|exact (IH _ D H)]. Qed.
Lemma canonical_bytes t p c : canonical_text t p -> In c t -> is_digit c = true \/ c = "-"%char.
Proof.
  intros [(_ & D & _)|(_ & u & -> & D & _)] H; [left; exact (digits_bytes t p c D H)|]. destruct H as [<-|H]; [right; reflexivity|left; exact (digits_bytes u _ c D H)].
Qed.
Lemma skipn_len (a b : str) : skipn (length a) (a ++ b) = b.
Proof. induction a; [reflexivity|exact IHa]. Qed.
Lemma firstn_len (a b : str) : firstn (length a) (a ++ b) = a.
Proof. induction a as [|x a IH]; [reflexivity|]. cbn [length app firstn]. rewrite IH. reflexivity. Qed.
Section Address.
  Context (t : str) (p : Z) (T : canonical_text t p).
  Lemma no_byte c : is_digit c = false -> c <> "-"%char -> ~ In c t.
  Proof. intros D N H. destruct (canonical_bytes t p c T H) as [E|E]; congruence. Qed.
  Lemma last_colon h : last_byte ":" (h ++ ":"%char :: t) = Some (length h).
  Proof. apply last_at. apply no_byte; [reflexivity|discriminate]. Qed.
  Lemma behind h : skipn (S (length h)) (h ++ ":"%char :: t) = t.
  Proof. replace (h ++ ":"%char :: t) with ((h ++ $":") ++ t) by (rewrite <- app_assoc; reflexivity). replace (S (length h)) with (length (h ++ $":")) by (rewrite app_length; cbn; lia). apply skipn_len. Qed.
  Lemma split_plain h : (forall u, h <> "["%char :: u) -> split_host_port (h ++ ":"%char :: t) =
    if has_byte ":" h then inl ($"too many colons in address")
    else if has_byte "[" h then inl ($"unexpected '[' in address") else if has_byte "]" h then inl ($"unexpected ']' in address") else inr (h, t).
  Proof.
    intro N. unfold split_host_port. rewrite last_colon, firstn_len, behind.
    assert (B : forall c, c <> ":"%char -> is_digit c = false -> c <> "-"%char -> has_byte c (h ++ ":"%char :: t) = has_byte c h).
    { intros c C D M. destruct (has_byte c h) eqn:E; [apply has_byte_in in E; apply has_byte_in; apply in_or_app; left; exact E|]. apply has_byte_not. intro H. apply in_app_or in H. destruct H as [H|[H|H]]; [apply has_byte_in in H; congruence|congruence|exact (no_byte c D M H)]. }
    change (skipn 0 (h ++ ":"%char :: t)) with (h ++ ":"%char :: t). rewrite (B "["%char), (B "]"%char); [|discriminate|reflexivity|discriminate|discriminate|reflexivity|discriminate].
    destruct h as [|c h]; [reflexivity|]. cbn [app]. replace (Ascii.eqb c "[") with false; [reflexivity|]. symmetry. apply Ascii.eqb_neq. intros ->. exact (N h eq_refl).
  Qed.
  Lemma split_brackets a : ~ In "]"%char a -> split_host_port (("["%char :: a ++ $"]") ++ ":"%char :: t) =
    if has_byte "[" a then inl ($"unexpected '[' in address") else inr (a, t).
  Proof.
    intro N. set (s := ("["%char :: a ++ $"]") ++ ":"%char :: t). unfold split_host_port. unfold s at 1. rewrite last_colon. fold s.
    assert (Es : s = ("["%char :: a) ++ "]"%char :: ":"%char :: t) by (unfold s; cbn [app]; rewrite <- app_assoc; reflexivity).
    assert (I : index_byte "]" s = Some (S (length a))) by (rewrite Es; apply (index_at "]" ("["%char :: a)); intros [H|H]; [discriminate H|exact (N H)]).
    rewrite I. assert (Ls : length s = S (S (S (length a + length t)))) by (rewrite Es; rewrite app_length; cbn [length]; lia).
    change s with ("["%char :: (a ++ $"]") ++ ":"%char :: t) at 1. cbv iota beta. change (Ascii.eqb "[" "[") with true. cbv iota.
    replace (Nat.eqb (S (S (length a))) (length s)) with false by (symmetry; apply Nat.eqb_neq; rewrite Ls; lia).
    replace (length ("["%char :: a ++ $"]")) with (S (S (length a))) by (cbn [length]; rewrite app_length; cbn; lia). rewrite Nat.eqb_refl.
    assert (S1 : skipn 1 s = a ++ "]"%char :: ":"%char :: t) by (rewrite Es; reflexivity). rewrite S1. replace (S (length a) - 1)%nat with (length a) by lia. rewrite firstn_len.
    assert (S2 : skipn (S (S (length a))) s = ":"%char :: t).
    { rewrite Es. change (S (S (length a))) with (S (length ("["%char :: a))). replace (("["%char :: a) ++ "]"%char :: ":"%char :: t) with ((("["%char :: a) ++ $"]") ++ ":"%char :: t) by (rewrite <- app_assoc; reflexivity).
      replace (S (length ("["%char :: a))) with (length (("["%char :: a) ++ $"]")) by (rewrite app_length; cbn; lia). apply skipn_len. }
    rewrite S2. assert (S3 : skipn (S (S (S (length a)))) s = t).
    { replace (S (S (S (length a)))) with (S (length (("["%char :: a) ++ $"]"))) by (rewrite app_length; cbn; lia). change s with ((("["%char :: a) ++ $"]") ++ ":"%char :: t). apply behind. }
    rewrite S3. rewrite (has_byte_not "]" (":"%char :: t)) by (intros [H|H]; [discriminate H|revert H; apply no_byte; [reflexivity|discriminate]]).
    assert (B : has_byte "[" (a ++ "]"%char :: ":"%char :: t) = has_byte "[" a).
    { destruct (has_byte "[" a) eqn:E; [apply has_byte_in in E; apply has_byte_in; apply in_or_app; left; exact E|]. apply has_byte_not. intro H. apply in_app_or in H.
      destruct H as [H|[H|[H|H]]]; [apply has_byte_in in H; congruence|discriminate H|discriminate H|revert H; apply no_byte; [reflexivity|discriminate]]. }
    rewrite B. reflexivity.
  Qed.
  Lemma split_bad h a : h = "["%char :: a -> (forall b, h = "["%char :: b ++ $"]" -> In "]"%char b) -> exists why, split_host_port (h ++ ":"%char :: t) = inl why.
  Proof.
    intros -> N. unfold split_host_port. rewrite last_colon. set (s := ("["%char :: a) ++ ":"%char :: t). change s with ("["%char :: a ++ ":"%char :: t) at 1. cbv iota beta. change (Ascii.eqb "[" "[") with true. cbv iota.
    destruct (index_byte "]" s) as [e|] eqn:I; [|eauto]. destruct (Nat.eqb (S e) (length s)); [eauto|]. destruct (Nat.eqb (S e) (length ("["%char :: a))) eqn:Q.
    - exfalso. apply Nat.eqb_eq in Q. cbn [length] in Q. injection Q as Q. destruct (in_dec ascii_dec "]"%char a) as [H|H].
      + destruct (first_at _ _ H) as (x & y & Ea & X). subst a. unfold s in I. rewrite <- app_comm_cons, <- app_assoc in I. cbn [app] in I.
        change ("["%char :: x ++ "]"%char :: y ++ ":"%char :: t) with (("["%char :: x) ++ "]"%char :: (y ++ ":"%char :: t)) in I. rewrite index_at in I; [|intros [B|B]; [discriminate B|exact (X B)]].
        injection I as <-. rewrite app_length in Q. cbn [length] in Q. destruct y; [|cbn [length] in Q; lia]. exact (X (N x eq_refl)).
      + rewrite index_none in I; [discriminate I|]. unfold s. intro B. destruct B as [B|B]; [discriminate B|]. apply in_app_or in B. destruct B as [B|[B|B]]; [exact (H B)|discriminate B|revert B; apply no_byte; [reflexivity|discriminate]].
    - destruct (skipn (S e) s) as [|d r]; [eauto|]. destruct (Ascii.eqb d ":"); eauto.
  Qed.
End Address.
Theorem split_good t p : canonical_text t p -> forall h g u, split_host_port (h ++ $":" ++ t) = inr (g, u) <-> good_host h g /\ u = t.
Proof.
  intros T h g u. change ($":" ++ t) with (":"%char :: t). split.
  - intro H. destruct h as [|c h0] eqn:Eh.
    { rewrite (split_plain t p T []) in H by discriminate. injection H as <- <-. split; [apply gh_plain; intros []|reflexivity]. }
    destruct (Ascii.eqb c "[") eqn:E.
    + apply Ascii.eqb_eq in E. subst c. assert (D : (exists b, h0 = b ++ $"]" /\ ~ In "]"%char b) \/ forall b, "["%char :: h0 = "["%char :: b ++ $"]" -> In "]"%char b).
      { destruct (in_dec ascii_dec "]"%char h0) as [I|I].
        - destruct (first_at _ _ I) as (x & y & Ea & X). destruct y as [|d y]; [left; exists x; auto|]. right. intros b Q. injection Q as Q. subst h0.
          destruct (in_dec ascii_dec "]"%char b) as [B|B]; [exact B|]. exfalso. apply (f_equal (index_byte "]")) in Q as Q1. rewrite (index_at "]" x _ X) in Q1. change (b ++ $"]") with (b ++ "]"%char :: []) in Q1. rewrite (index_at "]" b _ B) in Q1. injection Q1 as Q1.
          apply (f_equal (@length ascii)) in Q. rewrite !app_length in Q. cbn [length] in Q. lia.
        - right. intros b Q. injection Q as ->. destruct I. apply in_or_app. right. left. reflexivity. }
      destruct D as [(b & -> & B)|D].
      * rewrite (split_brackets t p T b B) in H. destruct (has_byte "[" b) eqn:F; [discriminate H|]. injection H as <- <-. split; [|reflexivity]. apply (gh_brackets b); [|exact B]. intro Q. apply has_byte_in in Q. congruence.
      * destruct (split_bad t p T _ h0 eq_refl D) as (why & W). rewrite W in H. discriminate H.
    + apply Ascii.eqb_neq in E. rewrite (split_plain t p T (c :: h0)) in H by (intros w Q; injection Q as -> _; contradiction).
      destruct (has_byte ":" (c :: h0)) eqn:F1; [discriminate H|]. destruct (has_byte "[" (c :: h0)) eqn:F2; [discriminate H|]. destruct (has_byte "]" (c :: h0)) eqn:F3; [discriminate H|]. injection H as <- <-. split; [|reflexivity].
      apply gh_plain; intro Q; apply has_byte_in in Q; congruence.
  - intros (G & ->). destruct G as [h A B C|h A B].
    + rewrite (split_plain t p T h) by (intros w ->; apply B; left; reflexivity). rewrite (has_byte_not _ _ A), (has_byte_not _ _ B), (has_byte_not _ _ C). reflexivity.
    + change ($"[" ++ h ++ $"]") with ("["%char :: h ++ $"]"). rewrite (split_brackets t p T h B). rewrite (has_byte_not _ _ A). reflexivity.
Qed.
Theorem colons_refused t p h : canonical_text t p -> In ":"%char h -> (forall u, h <> "["%char :: u) ->
  listen_fault (h ++ $":" ++ t) = Some ($"Failed to start server, listen tcp: address " ++ (h ++ $":" ++ t) ++ $": too many colons in address").
Proof.
  intros T H N. unfold listen_fault. change ($":" ++ t) with (":"%char :: t). rewrite (split_plain t p T h N). apply has_byte_in in H. rewrite H. reflexivity.
Qed.
Theorem listens_at args a : main_server args = inr a -> (listen_fault a = None <-> exists h g p t, line ($"localhost") 8080 args h p /\ good_host h g /\ canonical_text t p /\ a = h ++ $":" ++ t /\ split_host_port a = inr (g, t)).
Proof.
  intro M. apply server_address in M. destruct M as (h & p & t & L & T & ->). unfold listen_fault. split.
  - destruct (split_host_port (h ++ $":" ++ t)) as [why|[g u]] eqn:E; [discriminate|]. intros _. apply (split_good t p T) in E as G. destruct G as (G & ->). exists h, g, p, t. auto.
  - intros (h' & g & p' & t' & _ & _ & _ & _ & E). rewrite E. reflexivity.
Qed.

(** ** Numbers in their usual form *)
Lemma digits_numeral t v : dec_digits t v -> numeral 10 t v.
Proof.
  induction 1 as [n H|s v n D IH H].
  - pose proof (code_digit_char n H) as C. pose proof (dg_digit (digit_char n) ltac:(lia)) as Q. rewrite C in Q. replace (48 + n - 48) with n in Q by lia. apply nu_one; [exact Q|lia].
  - pose proof (code_digit_char n H) as C. pose proof (dg_digit (digit_char n) ltac:(lia)) as Q. rewrite C in Q. replace (48 + n - 48) with n in Q by lia. replace (10 * v + n) with (v * 10 + n) by lia. apply nu_next; [exact IH|exact Q|lia].
Qed.
Lemma digits_nonzero c t v : dec_digits (c :: t) v -> c <> "0"%char -> literal (c :: t) v.
Proof. intros D N. apply li_decimal; [exact N|apply digits_numeral; exact D]. Qed.
Theorem usual_port t n : canonical_text t n -> in_int64 n -> port_text t n.
Proof.
  intros [(H & D & c & u & -> & Z0)|(H & u & -> & D & c & w & -> & N)] I; split; try exact I.
  - destruct (Ascii.eqb c "0") eqn:E.
    + apply Ascii.eqb_eq in E. rewrite (Z0 E) in *. subst c. pose proof (digits_numeral _ _ D) as Q. assert (n = 0) as ->.
      { remember ["0"%char] as z eqn:Ez. destruct D as [m M|s v m D M]; [injection Ez as Ez; pose proof (code_digit_char m M) as C; rewrite Ez in C; change (code "0") with 48 in C; lia|]. destruct s; [inversion D; destruct s; discriminate|destruct s; discriminate Ez]. }
      apply (num_literal ($"0") 0 [] false ($"0") 0); [apply as_none| |reflexivity|reflexivity]. apply li_octal. apply (nu_one 8 "0"%char 0); [exact (dg_digit "0"%char ltac:(split; discriminate))|reflexivity].
    + apply Ascii.eqb_neq in E. apply (num_literal (c :: u) n [] false (c :: u) n); [apply as_none|apply digits_nonzero; assumption|reflexivity|reflexivity].
  - apply (num_literal _ n ($"-") true (c :: w) (- n)); [apply as_minus|apply digits_nonzero; assumption|reflexivity|]. unfold signed. lia.
Qed.
Theorem usual_address h t n : canonical_text t n -> in_int64 n -> main_server [$"-host"; h; $"-port"; t] = inr (h ++ $":" ++ t).
Proof.
  intros T I. apply server_address. exists h, n, t. split; [|split; [exact T|reflexivity]].
  apply (ln_flag _ _ _ h 8080 [$"-port"; t]); [apply (of_host_next _ _ ($"-") h); left; reflexivity|]. apply (ln_flag _ _ _ h n []); [apply (of_port_next _ _ ($"-") t n []); [left; reflexivity|apply usual_port; assumption]|apply ln_end; apply nf_none].
Qed.

(** ** The messages *)
Theorem stop_said print x t : stop_text print x = t <-> said print x t.
Proof.
  split.
  - intros <-. destruct x as [s|n|n|v n w|]; cbn [stop_text]; [apply sd_syntax|apply sd_unknown|apply sd_missing| |apply sd_help].
    assert (Q : quoted_text print v (quoted_loop print v)) by (apply loop_iff; reflexivity). destruct w; [exact (sd_value print v n Syntax _ Q)|exact (sd_value print v n Range _ Q)].
  - intro T. destruct T as [s|n|n|v n w t Q|]; cbn [stop_text]; try reflexivity. apply loop_iff in Q. subst t. destruct w; reflexivity.
Qed.
Theorem plain_said print v n w : (forall z, 32 <= z <= 126 -> print z = true) -> unescaped v ->
  stop_text print (InvalidValue v n w) = $"invalid value " ++ in_quotes v ++ $" for flag -" ++ n ++ $": " ++ why_text w.
Proof. intros P U. cbn [stop_text]. unfold go_quote. rewrite (loop_plain print v P U). destruct w; reflexivity. Qed.
Lemma value_port args x : stops args x -> forall v n w, x = InvalidValue v n w -> n = $"port".
Proof.
  intro H. induction H as [s r x R|d n D N|d v w r D N|d v w r D N|h p args h' p' r x O _ IH]; intros v' n' w' E; subst.
  - inversion R.
  - discriminate E.
  - injection E as _ <- _. reflexivity.
  - injection E as _ <- _. reflexivity.
  - exact (IH _ _ _ eq_refl).
Qed.
Lemma why_once a b u v : a ++ $" for flag -port: " ++ why_text u = b ++ $" for flag -port: " ++ why_text v -> a = b /\ u = v.
Proof.
  intro E. assert (u = v) as ->.
  { apply (f_equal (@rev ascii)) in E. rewrite !rev_app_distr in E. destruct u, v; try reflexivity; discriminate E. }
  apply app_inv_tail in E. auto.
Qed.
(** Each fault has its own message. *)
Theorem stops_told print args args' x x' : main_server args = inl x -> main_server args' = inl x' -> stop_text print x = stop_text print x' -> x = x'.
Proof.
  intros H H' E. apply server_stops in H, H'. pose proof (value_port _ _ H) as P. pose proof (value_port _ _ H') as P'. clear H H'.
  destruct x as [s|n|n|v n w|]; destruct x' as [s'|n'|n'|v' n' w'|]; try discriminate E; try reflexivity.
  - apply app_inv_head in E. congruence.
  - apply app_inv_head in E. congruence.
  - apply app_inv_head in E. congruence.
  - rewrite (P _ _ _ eq_refl), (P' _ _ _ eq_refl) in *. cbn [stop_text] in E. apply app_inv_head in E.
    assert (F : go_quote print v ++ $" for flag -port: " ++ why_text w = go_quote print v' ++ $" for flag -port: " ++ why_text w') by (destruct w, w'; exact E).
    apply why_once in F. destruct F as (F & ->). apply quote_told in F. congruence.
Qed.
