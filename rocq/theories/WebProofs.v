(** The web page: C89. *)
From Coq Require Import Ascii String ZArith NArith Bool Lia ZifyBool List.
From Verif Require Import GoStr GoTime Regex Patterns SpecCal SpecText StrFacts TextFacts SpanFacts Edtf Calendar Common CalFacts ApiFacts Level0 Level1 Level2 Parser InvFacts ParseFacts InvProofs Json JsonText SpecJson SpecJsonText SpecWasi SpecMessage CommonProofs JsonProofs JsonTextProofs JsonReadProofs TypedProofs Cmd WasiProofs WasiLines Web SpecWeb.
Import ListNotations.
Open Scope Z_scope.

(** ** Texts and lines *)
Lemma margin_more n : margin n ++ $"  " = margin (S n).
Proof.
  unfold margin. change ($"  ") with (repeat " "%char 2). rewrite <- repeat_app. f_equal. lia.
Qed.
Lemma margin_blank n : blanks (margin n).
Proof. unfold margin, blanks. apply Forall_forall. intros c H. apply repeat_spec in H. left. exact H. Qed.
Lemma margin_free n : newline_free (margin n).
Proof. intro H. apply repeat_spec in H. discriminate H. Qed.
Lemma line_blank : blanks newline.
Proof. constructor; [|constructor]. right. right. left. reflexivity. Qed.
Lemma blanks_app a b : blanks a -> blanks b -> blanks (a ++ b).
Proof. intros. apply Forall_app. auto. Qed.
Lemma text_app a b x y : text_of a x -> text_of b y -> text_of (a ++ b) (x ++ newline ++ y).
Proof.
  intros A B. induction A as [t|t l u A IH]; cbn [app]; [apply to_more, B|].
  rewrite <- !app_assoc. apply (to_more t (l ++ b)). exact IH.
Qed.

(** ** Strings *)
Lemma js_char c : json_char c (js_esc c).
Proof.
  destruct c as [[] [] [] [] [] [] [] []];
    first [ exact jc_quote | exact jc_backslash | exact jc_b | exact jc_f | exact jc_n | exact jc_r | exact jc_t
          | match goal with |- json_char ?c _ =>
              let n := eval vm_compute in (N.to_nat (N_of_ascii c)) in
              let a := eval vm_compute in (Nat.div n 16) in
              let b := eval vm_compute in (Nat.modulo n 16) in
              exact (jc_u a b _ _ eq_refl eq_refl) end
          | match goal with |- json_char ?c _ =>
              refine (jc_plain c _ _ _); [vm_compute; discriminate|discriminate|discriminate] end ].
Qed.
Lemma js_chars s : json_chars s (flat_map js_esc s).
Proof. induction s as [|c s IH]; [constructor|]. cbn [flat_map]. constructor; [apply js_char|exact IH]. Qed.
Lemma chars_body b t : json_chars b t -> string_body b t.
Proof.
  intro H. apply read_chars with (r := []) in H. apply (body_read (length (t ++ [""""%char]))) in H; [|lia].
  destruct H as (t' & H & E). apply app_inj_tail in E. destruct E as (-> & _). exact H.
Qed.
Lemma js_body s : string_body s (flat_map js_esc s).
Proof. apply chars_body, js_chars. Qed.
Lemma js_free s : newline_free (flat_map js_esc s).
Proof. exact (chars_free _ _ (js_chars s)). Qed.

(** ** Values *)
Definition exact_num (z : Z) : Prop := -9007199254740992 <= z <= 9007199254740992.
Fixpoint small (v : json) : Prop :=
  match v with
  | JNum t => exists z, t = itoa z /\ exact_num z
  | JArr l => (fix all (l : list json) : Prop := match l with [] => True | v :: l' => small v /\ all l' end) l
  | JObj l => plain_keys (map fst l) = true /\
              (fix all (l : list (str * json)) : Prop := match l with [] => True | (_, v) :: l' => small v /\ all l' end) l
  | _ => True
  end.
Lemma num_small z : exact_num z -> js_num (itoa z) = Some (itoa z).
Proof.
  intro H. unfold js_num. rewrite atoi_itoa by (unfold exact_num in H; change min_int64 with (-9223372036854775808); change max_int64 with 9223372036854775807; lia).
  unfold exact_num in H. replace ((-9007199254740992 <=? z) && (z <=? 9007199254740992)) with true by lia. reflexivity.
Qed.
Definition strs_items (ind : str) : list json -> option (list str) :=
  fix items (l : list json) : option (list str) :=
    match l with
    | [] => Some []
    | v :: l' => match stringify (ind ++ $"  ") v, items l' with Some t, Some ts => Some (t :: ts) | _, _ => None end
    end.
Definition strs_members (ind : str) : list (str * json) -> option (list str) :=
  fix members (l : list (str * json)) : option (list str) :=
    match l with
    | [] => Some []
    | (k, v) :: l' => match stringify (ind ++ $"  ") v, members l' with
                      | Some t, Some ts => Some ((js_quote k ++ $": " ++ t) :: ts)
                      | _, _ => None
                      end
    end.
Lemma stringify_arr ind l : stringify ind (JArr l) = match strs_items ind l with Some parts => Some (enclose ($"[") ($"]") ind parts) | None => None end.
Proof. reflexivity. Qed.
Lemma stringify_obj ind l : stringify ind (JObj l) =
  if plain_keys (map fst l) then match strs_members ind l with Some parts => Some (enclose ($"{") ($"}") ind parts) | None => None end else None.
Proof. reflexivity. Qed.
Definition shows (d : nat) (v : json) (t : str) : Prop := value_text v t /\
  forall before after, newline_free before -> newline_free after ->
  exists ls, laid_out d before v after ls /\ text_of ls (margin d ++ before ++ t ++ after) /\ Forall newline_free ls.
Lemma scalar_shows d v t : scalar v -> value_text v t -> newline_free t -> shows d v t.
Proof.
  intros S V F. split; [exact V|]. intros before after B A. eexists. split; [apply (lo_scalar d before v t after S V F)|].
  split; [apply to_one|]. constructor; [|constructor]. repeat apply free_app; try assumption. apply margin_free.
Qed.
Lemma itoa_free z : newline_free (itoa z).
Proof. exact (proj1 compact_free (JNum (itoa z)) _ (ct_int _ (itoa_json z))). Qed.
Lemma number_int t : json_int t -> number_text t.
Proof. intro H. exists t, [], []. rewrite !app_nil_r. repeat split; try assumption; constructor. Qed.
Definition sep (d : nat) : str := $"," ++ newline ++ margin d ++ $"  ".
Lemma sep_line d : sep d = $"," ++ newline ++ margin (S d).
Proof. unfold sep. rewrite <- margin_more. reflexivity. Qed.
Lemma enclosed left right d parts ls : newline_free left -> newline_free right -> parts <> [] ->
  text_of ls (margin (S d) ++ join_lines (sep d) parts) -> Forall newline_free ls ->
  forall before after, newline_free before -> newline_free after ->
  text_of ([margin d ++ before ++ left] ++ ls ++ [margin d ++ right ++ after]) (margin d ++ before ++ enclose left right (margin d) parts ++ after) /\
  Forall newline_free ([margin d ++ before ++ left] ++ ls ++ [margin d ++ right ++ after]).
Proof.
  intros L R P T F before after B A. split.
  - unfold enclose. destruct parts as [|x parts]; [congruence|]. rewrite margin_more.
    replace (margin d ++ before ++ _ ++ after) with
      ((margin d ++ before ++ left) ++ newline ++ (margin (S d) ++ join_lines (sep d) (x :: parts)) ++ newline ++ (margin d ++ right ++ after))
      by (rewrite sep_line, <- !app_assoc; reflexivity).
    apply text_app; [apply to_one|]. apply text_app; [exact T|apply to_one].
  - apply Forall_app. split; [|apply Forall_app; split; [exact F|]]; (constructor; [|constructor]); (apply free_app; [apply margin_free|apply free_app; assumption]).
Qed.
Lemma items_show d l : l <> [] -> (forall v, In v l -> exists t, stringify (margin (S d)) v = Some t /\ shows (S d) v t) ->
  exists parts, parts <> [] /\ strs_items (margin d) l = Some parts /\
    (forall w, blanks w -> items_text l ((newline ++ margin (S d)) ++ join_lines (sep d) parts ++ w)) /\
    exists ls, items_on (S d) l ls /\ text_of ls (margin (S d) ++ join_lines (sep d) parts) /\ Forall newline_free ls.
Proof.
  intros N H. destruct l as [|v l]; [congruence|]. clear N. revert v H. induction l as [|u l IH]; intros v H.
  - destruct (H v (or_introl eq_refl)) as (t & E & V & L). exists [t]. split; [discriminate|]. unfold strs_items. rewrite margin_more, E.
    split; [reflexivity|]. split.
    + intros w W. apply it_one; [apply blanks_app; [apply line_blank|apply margin_blank]|exact V|exact W].
    + destruct (L [] []) as (ls & A & T & F); [intros []..|]. exists ls. split; [apply io_one, A|]. split; [|exact F].
      rewrite app_nil_r in T. exact T.
  - destruct (H v (or_introl eq_refl)) as (t & E & V & L). destruct (IH u) as (parts & P & Ep & Vp & ls' & A' & T' & F'); [intros x X; apply H; right; exact X|].
    exists (t :: parts). split; [discriminate|]. split; [|split].
    + cbn [strs_items] in Ep |- *. rewrite !margin_more in *. rewrite E, Ep. reflexivity.
    + intros w W. destruct parts as [|p parts]; [congruence|]. change (join_lines (sep d) (t :: p :: parts)) with (t ++ sep d ++ join_lines (sep d) (p :: parts)).
      replace (_ ++ (t ++ sep d ++ _) ++ w) with ((newline ++ margin (S d)) ++ t ++ [] ++ $"," ++ ((newline ++ margin (S d)) ++ join_lines (sep d) (p :: parts) ++ w))
        by (rewrite sep_line, <- !app_assoc; reflexivity).
      apply it_more; [apply blanks_app; [apply line_blank|apply margin_blank]|exact V|constructor|apply Vp, W].
    + destruct (L [] ($",")) as (ls & A & T & F); [intros []|intros [I|[]]; discriminate I|]. exists (ls ++ ls'). split; [apply io_more; assumption|].
      split; [|apply Forall_app; auto]. destruct parts as [|p parts]; [congruence|].
      change (join_lines (sep d) (t :: p :: parts)) with (t ++ sep d ++ join_lines (sep d) (p :: parts)).
      replace (margin (S d) ++ t ++ sep d ++ _) with ((margin (S d) ++ [] ++ t ++ $",") ++ newline ++ (margin (S d) ++ join_lines (sep d) (p :: parts)))
        by (rewrite sep_line, <- !app_assoc; reflexivity).
      apply text_app; assumption.
Qed.
Lemma members_show d l : l <> [] -> (forall k v, In (k, v) l -> exists t, stringify (margin (S d)) v = Some t /\ shows (S d) v t) ->
  exists parts, parts <> [] /\ strs_members (margin d) l = Some parts /\
    (forall w, blanks w -> members_text l ((newline ++ margin (S d)) ++ join_lines (sep d) parts ++ w)) /\
    exists ls, members_on (S d) l ls /\ text_of ls (margin (S d) ++ join_lines (sep d) parts) /\ Forall newline_free ls.
Proof.
  intros N H. destruct l as [|(k, v) l]; [congruence|]. clear N.
  assert (Q : forall k, newline_free ($"""" ++ flat_map js_esc k ++ $""": ")).
  { intro x. apply free_app; [intros [I|[]]; discriminate I|]. apply free_app; [apply js_free|]. intro I. repeat (destruct I as [I|I]; [discriminate I|]). destruct I. }
  assert (B : forall k t : str, js_quote k ++ $": " ++ t = ($"""" ++ flat_map js_esc k ++ $""": ") ++ t).
  { intros k0 t0. unfold js_quote. rewrite <- !app_assoc. reflexivity. }
  revert k v H. induction l as [|(k', u) l IH]; intros k v H.
  - destruct (H k v (or_introl eq_refl)) as (t & E & V & L). exists [js_quote k ++ $": " ++ t]. split; [discriminate|]. unfold strs_members. rewrite margin_more, E.
    split; [reflexivity|]. split.
    + intros w W. cbn [join_lines]. rewrite B.
      replace (_ ++ (_ ++ t) ++ w) with ((newline ++ margin (S d)) ++ $"""" ++ flat_map js_esc k ++ $"""" ++ [] ++ $":" ++ $" " ++ t ++ w)
        by (rewrite <- !app_assoc; reflexivity).
      apply mt_one; [apply blanks_app; [apply line_blank|apply margin_blank]|apply js_body|constructor|constructor; [left; reflexivity|constructor]|exact V|exact W].
    + destruct (L ($"""" ++ flat_map js_esc k ++ $""": ") []) as (ls & A & T & F); [apply Q|intros []|]. exists ls.
      split; [apply (mo_one _ _ (flat_map js_esc k)); [apply js_body|apply js_free|exact A]|]. split; [|exact F].
      cbn [join_lines]. rewrite B. rewrite app_nil_r in T. rewrite <- !app_assoc in *. exact T.
  - destruct (H k v (or_introl eq_refl)) as (t & E & V & L).
    destruct (IH k' u) as (parts & P & Ep & Vp & ls' & A' & T' & F'); [intros x y X; apply (H x y); right; exact X|].
    exists ((js_quote k ++ $": " ++ t) :: parts). split; [discriminate|]. split; [|split].
    + cbn [strs_members] in Ep |- *. rewrite !margin_more in *. rewrite E, Ep. reflexivity.
    + intros w W. destruct parts as [|p parts]; [congruence|].
      change (join_lines (sep d) (?x :: p :: parts)) with (x ++ sep d ++ join_lines (sep d) (p :: parts)). rewrite B.
      replace (_ ++ ((_ ++ t) ++ sep d ++ _) ++ w) with
        ((newline ++ margin (S d)) ++ $"""" ++ flat_map js_esc k ++ $"""" ++ [] ++ $":" ++ $" " ++ t ++ [] ++ $"," ++ ((newline ++ margin (S d)) ++ join_lines (sep d) (p :: parts) ++ w))
        by (rewrite sep_line, <- !app_assoc; reflexivity).
      apply mt_more; [apply blanks_app; [apply line_blank|apply margin_blank]|apply js_body|constructor|constructor; [left; reflexivity|constructor]|exact V|constructor|apply Vp, W].
    + destruct (L ($"""" ++ flat_map js_esc k ++ $""": ") ($",")) as (ls & A & T & F); [apply Q|intros [I|[]]; discriminate I|]. exists (ls ++ ls').
      split; [apply (mo_more _ _ (flat_map js_esc k)); [apply js_body|apply js_free|exact A|exact A']|].
      split; [|apply Forall_app; auto]. destruct parts as [|p parts]; [congruence|].
      change (join_lines (sep d) (?x :: p :: parts)) with (x ++ sep d ++ join_lines (sep d) (p :: parts)). rewrite B.
      replace (margin (S d) ++ (_ ++ t) ++ sep d ++ _) with ((margin (S d) ++ ($"""" ++ flat_map js_esc k ++ $""": ") ++ t ++ $",") ++ newline ++ (margin (S d) ++ join_lines (sep d) (p :: parts)))
        by (rewrite sep_line, <- !app_assoc; reflexivity).
      apply text_app; assumption.
Qed.
Lemma small_item l v : small (JArr l) -> In v l -> small v.
Proof. cbn [small]. induction l as [|a l IH]; intros H I; [destruct I|]. destruct H as (Ha & H). destruct I as [->|I]; [exact Ha|exact (IH H I)]. Qed.
Lemma small_member l k v : small (JObj l) -> In (k, v) l -> small v.
Proof. cbn [small]. intros (_ & H). revert H. induction l as [|(k', a) l IH]; intros H I; [destruct I|]. destruct H as (Ha & H). destruct I as [E|I]; [injection E as _ ->; exact Ha|exact (IH H I)]. Qed.
Lemma size_item l v : In v l -> (jsize v < jsize (JArr l))%nat.
Proof. cbn [jsize]. induction l as [|a l IH]; intro I; [destruct I|]. destruct I as [->|I]; [lia|specialize (IH I); lia]. Qed.
Lemma size_member l k v : In (k, v) l -> (jsize v < jsize (JObj l))%nat.
Proof. cbn [jsize]. induction l as [|(k', a) l IH]; intro I; [destruct I|]. destruct I as [E|I]; [injection E as _ ->; lia|specialize (IH I); lia]. Qed.
Lemma small_shows n : forall v, (jsize v <= n)%nat -> small v -> forall d, exists t, stringify (margin d) v = Some t /\ shows d v t.
Proof.
  induction n as [|n IH]; intros v L H d; [destruct v; cbn [jsize] in L; lia|].
  destruct v as [|[]|t|s|l|l].
  - eexists. split; [reflexivity|]. apply scalar_shows; [exact I|constructor|]. intro I. repeat (destruct I as [I|I]; [discriminate I|]). destruct I.
  - eexists. split; [reflexivity|]. apply scalar_shows; [exact I|constructor|]. intro I. repeat (destruct I as [I|I]; [discriminate I|]). destruct I.
  - eexists. split; [reflexivity|]. apply scalar_shows; [exact I|constructor|]. intro I. repeat (destruct I as [I|I]; [discriminate I|]). destruct I.
  - destruct H as (z & -> & Hz). exists (itoa z). split; [exact (num_small z Hz)|]. apply scalar_shows; [exact I|constructor; apply number_int, itoa_json|apply itoa_free].
  - eexists. split; [reflexivity|]. unfold js_quote. apply scalar_shows; [exact I|constructor; apply js_body|].
    apply free_app; [intros [J|[]]; discriminate J|]. apply free_app; [apply js_free|intros [J|[]]; discriminate J].
  - rewrite stringify_arr. destruct l as [|v l].
    { eexists. split; [reflexivity|]. split; [exact (vt_arr0 [] (Forall_nil _))|]. intros before after B A. eexists. split; [apply lo_arr0|]. split; [apply to_one|].
      constructor; [|constructor]. repeat apply free_app; try assumption; [apply margin_free|]. cbn. intros [J|[J|[]]]; discriminate J. }
    destruct (items_show d (v :: l)) as (parts & P & E & V & ls & A & T & F); [discriminate| |].
    { intros x X. apply IH; [pose proof (size_item _ _ X); lia|exact (small_item _ _ H X)]. }
    rewrite E. eexists. split; [reflexivity|]. split.
    + unfold enclose. destruct parts as [|p parts]; [congruence|]. rewrite margin_more.
      specialize (V (newline ++ margin d)). apply vt_arr in V; [|apply blanks_app; [apply line_blank|apply margin_blank]].
      rewrite <- margin_more in *. unfold sep in V. rewrite <- !app_assoc in *. exact V.
    + intros before after B' A'. exists ([margin d ++ before ++ $"["] ++ ls ++ [margin d ++ $"]" ++ after]).
      split; [apply lo_arr, A|]. apply enclosed; try assumption; intros [J|[]]; discriminate J.
  - rewrite stringify_obj. pose proof H as (Pk & _). rewrite Pk. destruct l as [|(k, v) l].
    { eexists. split; [reflexivity|]. split; [exact (vt_obj0 [] (Forall_nil _))|]. intros before after B A. eexists. split; [apply lo_obj0|]. split; [apply to_one|].
      constructor; [|constructor]. repeat apply free_app; try assumption; [apply margin_free|]. cbn. intros [J|[J|[]]]; discriminate J. }
    destruct (members_show d ((k, v) :: l)) as (parts & P & E & V & ls & A & T & F); [discriminate| |].
    { intros x y X. apply IH; [pose proof (size_member _ _ _ X); lia|exact (small_member _ _ _ H X)]. }
    rewrite E. eexists. split; [reflexivity|]. split.
    + unfold enclose. destruct parts as [|p parts]; [congruence|]. rewrite margin_more.
      specialize (V (newline ++ margin d)). apply vt_obj in V; [|apply blanks_app; [apply line_blank|apply margin_blank]].
      rewrite <- margin_more in *. unfold sep in V. rewrite <- !app_assoc in *. exact V.
    + intros before after B' A'. exists ([margin d ++ before ++ $"{"] ++ ls ++ [margin d ++ $"}" ++ after]).
      split; [apply lo_obj, A|]. apply enclosed; try assumption; intros [J|[]]; discriminate J.
Qed.

(** ** Dates *)
Definition small_members (l : list (str * json)) : Prop := Forall (fun kv => small (snd kv)) l.
Lemma small_obj l : plain_keys (map fst l) = true -> small_members l -> small (JObj l).
Proof.
  intros K H. cbn [small]. split; [exact K|]. clear K. induction H as [|(k, v) l H _ IH]; [exact I|]. split; [exact H|exact IH].
Qed.
Lemma small_app a b : small_members a -> small_members b -> small_members (a ++ b).
Proof. intros. apply Forall_app. auto. Qed.
Lemma prec_small k p : uint32 p -> small_members (enc_prec k p).
Proof.
  intro H. unfold enc_prec. destruct (N.eqb p 0); [constructor|]. constructor; [|constructor]. exists (Z.of_N p). split; [reflexivity|].
  unfold uint32 in H. unfold exact_num. lia.
Qed.
Lemma flag_small k b : small_members (enc_flag k b).
Proof. destruct b; repeat constructor. Qed.
Lemma small_exact z : -1000000000000 <= z <= 1000000000000 -> exact_num z.
Proof. unfold exact_num. lia. Qed.
Record small_date (d : date) : Prop := {
  sd_ts : forall t, d_timestamp d = Some t -> exact_num t;
  sd_ymd : forall v, d_ymd d = Some v -> exact_num (y_year v) /\ exact_num (y_month v) /\ exact_num (y_day v);
  sd_fl : flags_ok d }.
Lemma instant_exact y m d hh mi ss : real_date y m d -> clock hh mi ss -> -10000 <= y <= 10000 -> exact_num (instant y m d hh mi ss).
Proof.
  intros Hr Hc Hy. apply small_exact.
  assert (R1 : real_date (-10001) 1 1) by (vm_compute; repeat split; discriminate).
  assert (R2 : real_date 10001 1 1) by (vm_compute; repeat split; discriminate).
  assert (C0 : clock 0 0 0) by (unfold clock; lia).
  assert (instant (-10001) 1 1 0 0 0 <= instant y m d hh mi ss).
  { apply InvFacts.instant_le; try assumption; [left; lia|intros; lia]. }
  assert (instant y m d hh mi ss <= instant 10001 1 1 0 0 0).
  { apply InvFacts.instant_le; try assumption; [left; lia|intros; lia]. }
  assert (E1 : instant (-10001) 1 1 0 0 0 = -377768275200) by (vm_compute; reflexivity).
  assert (E2 : instant 10001 1 1 0 0 0 = 253433923200) by (vm_compute; reflexivity). lia.
Qed.
Lemma bound_small s d b : ParseString s = OK d -> In b (bounds d) -> flags_ok b -> small_date b.
Proof.
  intros H Hb F.
  destruct (parsed_bound _ _ _ H Hb) as [(_ & y & m & dd & hh & mi & ss & Hy & Hr & Hc & ->)|(_ & i & G)];
    [|inversion G as [E|E|y m dd hh mi ss u a p Hy Hr Hc _ E]; subst b; clear G]; constructor; try assumption; cbn [SetTime d_timestamp d_ymd zero_date set_inclusivity open_bound unknown_bound set_open set_unknown bound]; try discriminate.
  - intros t Et. injection Et as <-. exact (instant_exact _ _ _ _ _ _ Hr Hc Hy).
  - intros t Et. injection Et as <-. apply (instant_exact _ _ _ _ _ _ Hr Hc). lia.
  - intros v Ev. injection Ev as <-. cbn [y_year y_month y_day]. destruct Hr as (Hm & Hd). pose proof (month_len_31 y m).
    repeat split; apply small_exact; lia.
Qed.
Lemma date_small d : small_date d -> small (enc_date d).
Proof.
  intros [T Y (F1 & F2 & F3 & F4 & F5)]. unfold enc_date. apply small_obj.
  - destruct (d_datetime d), (d_timestamp d), (d_ymd d); unfold enc_prec, enc_flag;
    repeat match goal with |- context [N.eqb ?p 0] => destruct (N.eqb p 0) end; destruct (d_open d), (d_unknown d); reflexivity.
  - repeat apply small_app; try apply flag_small; try (apply prec_small; assumption).
    + destruct (d_datetime d); repeat constructor.
    + destruct (d_timestamp d) as [t|]; [|constructor]. constructor; [|constructor]. exists t. split; [reflexivity|apply T; reflexivity].
    + constructor; [|constructor]. cbn [snd]. destruct (d_ymd d) as [v|]; [|exact I]. destruct (Y v eq_refl) as (A & B & C).
      split; [reflexivity|]. repeat split; eexists; (split; [reflexivity|assumption]).
Qed.
Lemma edtf_small s d : ParseString s = OK d -> small (enc_edtf d).
Proof.
  intro H. destruct (parsed_flags _ _ H) as ((H1 & H2) & (H3 & H4) & Hl).
  assert (R : forall b, In b (bounds d) -> flags_ok b -> small (enc_date b)) by (intros b Hb F; apply date_small; exact (bound_small s d b H Hb F)).
  split; [reflexivity|].
  repeat split; try (apply R; [unfold bounds; cbn [In]; auto|assumption]). exists (e_level d). split; [reflexivity|]. apply small_exact. lia.
Qed.

(** ** The page *)
Lemma field_spec typed raw : unbroken typed raw <-> raw = field typed.
Proof.
  split.
  - intro H. induction H as [|c t u Hc H IH|c t u H1 H2 H IH]; [reflexivity| |]; unfold field, line_break; cbn [filter].
    + replace ((code c =? 10) || (code c =? 13)) with true by lia. exact IH.
    + replace ((code c =? 10) || (code c =? 13)) with false by lia. cbn [negb]. f_equal. exact IH.
  - intros ->. induction typed as [|c t IH]; [constructor|]. unfold field, line_break. cbn [filter].
    destruct ((code c =? 10) || (code c =? 13)) eqn:E; cbn [negb]; [apply ub_drop; [lia|exact IH]|apply ub_keep; [lia|lia|exact IH]].
Qed.
Lemma shown_text s d : ParseString s = OK d -> exists p, stringify [] (enc_edtf d) = Some p /\ page_text (enc_edtf d) p /\ json_text (enc_edtf d) p.
Proof.
  intro H. destruct (small_shows (jsize (enc_edtf d)) (enc_edtf d) (le_n _) (edtf_small s d H) 0) as (p & E & V & L).
  exists p. split; [exact E|]. split.
  - destruct (L [] []) as (ls & A & T & F); [intros []..|]. exists ls. split; [exact A|]. split; [|exact F]. cbn [app margin] in T. rewrite app_nil_r in T. exact T.
  - exists [], p, []. rewrite app_nil_r. split; [constructor|]. split; [exact V|]. split; [constructor|reflexivity].
Qed.
Theorem click_result typed raw d : unbroken typed raw -> ParseString raw = OK d ->
  exists p, click true typed = (Result p, true) /\ page_text (enc_edtf d) p /\ json_text (enc_edtf d) p /\ unmarshal_edtf p = OK d.
Proof.
  intros U H. apply field_spec in U. subst raw. destruct (shown_text _ _ H) as (p & E & L & J). exists p. split; [|split; [exact L|split; [exact J|]]].
  - unfold click, wasm_parse. rewrite H. cbn [settle]. change (print (enc_edtf d)) with (marshal_edtf d). rewrite marshal_read, E. reflexivity.
  - unfold unmarshal_edtf. rewrite (text_reads _ _ J). exact (parsed_roundtrip _ _ H).
Qed.
Theorem click_message typed raw e : unbroken typed raw -> ParseString raw = Err e ->
  exists w n, err_says e w /\ canonical_text n (Z.of_nat (length ($"Failed to parse '" ++ raw ++ $"', " ++ w ++ [chr 10]))) /\
    click true typed = (Message ($"There was a problem parsing your EDTF string:" ++ n), true).
Proof.
  intros U H. apply field_spec in U. subst raw.
  assert (W : exists m, wasm_parse (field typed) = OK (m, Rejected (Z.of_nat (length m)))) by (eexists; unfold wasm_parse; rewrite H; reflexivity).
  destruct W as (m & W). destruct (wasm_resolves _ _ _ W) as (_ & R). destruct (proj1 (R _) eq_refl) as (_ & e' & w & Ee & S & Eo).
  assert (e' = e) by congruence. subst e'. exists w, (itoa (Z.of_nat (length m))). rewrite <- Eo.
  split; [exact S|]. split; [apply itoa_canonical|]. unfold click. rewrite W. reflexivity.
Qed.
Theorem click_nothing typed raw : unbroken typed raw -> ParseString raw = Panic -> click true typed = (Nothing, false).
Proof. intros U H. apply field_spec in U. subst raw. unfold click, wasm_parse. rewrite H. reflexivity. Qed.
Theorem click_stopped typed : click false typed = (Nothing, false). Proof. reflexivity. Qed.
Theorem click_exactly typed raw s r : unbroken typed raw -> click true typed = (s, r) ->
  ((exists p, s = Result p) <-> exists d, ParseString raw = OK d) /\ ((exists m, s = Message m) <-> exists e, ParseString raw = Err e) /\
  (s = Nothing <-> ParseString raw = Panic) /\ (r = false <-> ParseString raw = Panic) /\ s <> Unreadable /\ s <> Other.
Proof.
  intros U C. destruct (ParseString raw) as [d|e|] eqn:H.
  - destruct (click_result _ _ _ U H) as (p & E & _). rewrite E in C. injection C as <- <-.
    repeat split; try discriminate; try (intros (? & ?); discriminate); intros _; eexists; reflexivity.
  - destruct (click_message _ _ _ U H) as (w & n & _ & _ & E). rewrite E in C. injection C as <- <-.
    repeat split; try discriminate; try (intros (? & ?); discriminate); intros _; eexists; reflexivity.
  - rewrite (click_nothing _ _ U H) in C. injection C as <- <-.
    repeat split; try discriminate; try (intros (? & ?); discriminate).
Qed.
Lemma visit_stopped l : visit false l = repeat Nothing (length l).
Proof. induction l as [|t l IH]; [reflexivity|]. cbn [visit click length repeat]. rewrite IH. reflexivity. Qed.
Lemma survivor typed : (exists raw, unbroken typed raw /\ ParseString raw <> Panic) -> exists s, click true typed = (s, true) /\ s <> Nothing.
Proof.
  intros (raw & U & P). destruct (click true typed) as (s, r) eqn:C. destruct (click_exactly _ _ _ _ U C) as (_ & _ & A & B & _).
  exists s. destruct r; [|destruct (P (proj1 B eq_refl))]. split; [reflexivity|tauto].
Qed.
Theorem visit_all l : Forall (fun t => exists raw, unbroken t raw /\ ParseString raw <> Panic) l ->
  visit true l = map (fun t => fst (click true t)) l /\ ~ In Nothing (visit true l).
Proof.
  intro H. induction H as [|t l H _ (E & N)]; [split; [reflexivity|intros []]|].
  destruct (survivor t H) as (s & C & Ns). cbn [visit map]. rewrite C. cbn [fst]. rewrite <- E. split; [reflexivity|]. intros [I|I]; [congruence|tauto].
Qed.
Theorem visit_stops l t raw rest : Forall (fun t => exists raw, unbroken t raw /\ ParseString raw <> Panic) l -> unbroken t raw -> ParseString raw = Panic ->
  visit true (l ++ t :: rest) = visit true l ++ repeat Nothing (S (length rest)).
Proof.
  intros H U P. induction H as [|a l H _ IH].
  - cbn [app visit]. rewrite (click_nothing _ _ U P), visit_stopped. reflexivity.
  - cbn [app visit]. destruct (survivor a H) as (s & C & _). rewrite C. cbn [app]. f_equal. exact IH.
Qed.
Theorem click_same : exists t t' e e', unbroken t t /\ unbroken t' t' /\ ParseString t = Err e /\ ParseString t' = Err e' /\ e <> e' /\ click true t = click true t'.
Proof.
  exists ($"1985-13"), ($"1985-14"). eexists. eexists. split; [apply field_spec; reflexivity|]. split; [apply field_spec; reflexivity|].
  split; [vm_compute; reflexivity|]. split; [vm_compute; reflexivity|]. split; [discriminate|]. vm_compute. reflexivity.
Qed.
Theorem visit_lost : exists t t' d, ParseString t' = OK d /\ unbroken t' t' /\ visit true [t'; t; t'] = [fst (click true t'); Nothing; Nothing] /\ fst (click true t') <> Nothing.
Proof.
  exists ($"0950S4"), ($"1985"). eexists. split; [vm_compute; reflexivity|]. split; [apply field_spec; reflexivity|]. split; [vm_compute; reflexivity|]. vm_compute. discriminate.
Qed.
(** A text that was shown gives back what it shows. *)
Theorem click_told t t' raw raw' p r r' : unbroken t raw -> unbroken t' raw' ->
  click true t = (Result p, r) -> click true t' = (Result p, r') -> ParseString raw = ParseString raw'.
Proof.
  intros U U' A B.
  destruct (click_exactly _ _ _ _ U A) as ((R & _) & _). destruct (click_exactly _ _ _ _ U' B) as ((R' & _) & _).
  destruct (R (ex_intro _ _ eq_refl)) as (d & H), (R' (ex_intro _ _ eq_refl)) as (d' & H').
  destruct (click_result _ _ _ U H) as (q & Eq & _ & _ & Dq), (click_result _ _ _ U' H') as (q' & Eq' & _ & _ & Dq').
  rewrite A in Eq. rewrite B in Eq'. injection Eq as <- _. injection Eq' as <- _. congruence.
Qed.
