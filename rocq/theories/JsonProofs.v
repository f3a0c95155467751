(** JSON round trip of dates: C45. *)
From Coq Require Import Ascii String ZArith NArith Bool Lia ZifyBool List.
From Verif Require Import GoStr GoTime SpecCal SpecText StrFacts TextFacts Edtf Calendar Common CalFacts ApiFacts Json CommonProofs.
Import ListNotations.
Open Scope Z_scope.

(** The values the Go types hold: 64 bit integers and 32 bit flag sets. *)
Definition int64 (z : Z) : Prop := min_int64 <= z <= max_int64.
Definition uint32 (n : N) : Prop := (n < 4294967296)%N.
Record typed_date (d : date) : Prop := {
  td_ts : forall t, d_timestamp d = Some t -> int64 t;
  td_ymd : forall v, d_ymd d = Some v -> int64 (y_year v) /\ int64 (y_month v) /\ int64 (y_day v);
  td_un : uint32 (d_uncertain d); td_ap : uint32 (d_approximate d); td_us : uint32 (d_unspecified d);
  td_pr : uint32 (d_precision d); td_in : uint32 (d_inclusivity d) }.
Definition typed (e : edtfdate) : Prop :=
  typed_date (r_lower (e_start e)) /\ typed_date (r_upper (e_start e)) /\
  typed_date (r_lower (e_end e)) /\ typed_date (r_upper (e_end e)) /\ int64 (e_level e).

Lemma member_app k a b : member k (a ++ b) = match member k b with Some v => Some v | None => member k a end.
Proof.
  induction a as [|(k' & v) a IH]; cbn [app member]; [destruct (member k b); reflexivity|].
  rewrite IH. destruct (member k b); reflexivity.
Qed.
Lemma member_prec k k' p : member k (enc_prec k' p) = if seqb k k' then (if N.eqb p 0 then None else Some (JNum (itoa (Z.of_N p)))) else None.
Proof. unfold enc_prec. destruct (N.eqb p 0); cbn [member]; destruct (seqb k k'); reflexivity. Qed.
Lemma member_flag k k' (b : bool) : member k (enc_flag k' b) = if seqb k k' then (if b then Some (JBool true) else None) else None.
Proof. unfold enc_flag. destruct b; cbn [member]; destruct (seqb k k'); reflexivity. Qed.
Definition opt_str (s : str) : option json := match s with [] => None | _ => Some (JStr s) end.
Definition enc_dt (s : str) : list (str * json) := match s with [] => [] | s => [($"datetime", JStr s)] end.
Definition enc_ts (o : option Z) : list (str * json) :=
  match o with None => [] | Some t => [($"timestamp", JNum (ts_marshal t))] end.
Lemma member_dt k s : member k (enc_dt s) =
  if seqb k ($"datetime") then opt_str s else None.
Proof. destruct s; cbn [enc_dt member]; destruct (seqb k ($"datetime")); reflexivity. Qed.
Lemma member_ts k o : member k (enc_ts o) =
  if seqb k ($"timestamp") then match o with None => None | Some t => Some (JNum (ts_marshal t)) end else None.
Proof. destruct o; cbn [enc_ts member]; destruct (seqb k ($"timestamp")); reflexivity. Qed.

Definition get {A} (o : option json) (zero : A) (f : json -> res A) : res A :=
  match o with None => OK zero | Some JNull => OK zero | Some v => f v end.
Lemma dec_field_get {A} k l (zero : A) f : dec_field k l zero f = get (member k l) zero f.
Proof. reflexivity. Qed.
Lemma itoa_nonneg z : 0 <= z -> itoa z = digits z.
Proof. intro H. unfold itoa. replace (z <? 0) with false by lia. reflexivity. Qed.
Lemma get_prec p : uint32 p -> get (if N.eqb p 0 then None else Some (JNum (itoa (Z.of_N p)))) 0%N dec_prec = OK p.
Proof.
  intro H. unfold uint32 in H. destruct (N.eqb p 0) eqn:E; [apply N.eqb_eq in E; subst; reflexivity|]. cbn [get dec_prec].
  rewrite itoa_nonneg by lia. destruct (digits_ok (Z.of_N p) ltac:(lia)) as (_ & _ & ->).
  replace (Z.of_N p <=? 4294967295) with true by lia. rewrite N2Z.id. reflexivity.
Qed.
Lemma get_flag (b : bool) : get (if b then Some (JBool true) else None) false dec_bool = OK b.
Proof. destruct b; reflexivity. Qed.
Lemma get_int z : int64 z -> get (Some (JNum (itoa z))) 0 dec_int = OK z.
Proof. intro H. cbn [get dec_int]. rewrite atoi_itoa by exact H. reflexivity. Qed.
Lemma get_str (s : str) : get (opt_str s) [] dec_str = OK s.
Proof. destruct s; reflexivity. Qed.
Lemma get_ts (o : option Z) : (forall t, o = Some t -> int64 t) ->
  get (match o with None => None | Some t => Some (JNum (ts_marshal t)) end) None dec_ts = OK o.
Proof.
  intro H. destruct o as [t|]; [|reflexivity]. cbn [get dec_ts].
  destruct (timestamp_roundtrip t (H t eq_refl)) as (_ & -> & _). reflexivity.
Qed.
Lemma get_ymd o : (forall v, o = Some v -> int64 (y_year v) /\ int64 (y_month v) /\ int64 (y_day v)) ->
  get (Some (enc_ymd o)) None dec_ymd = OK o.
Proof.
  intro H. destruct o as [[y m d]|]; [|reflexivity]. destruct (H _ eq_refl) as (H1 & H2 & H3). cbn [y_year y_month y_day] in *.
  unfold enc_ymd. cbn [get dec_ymd y_year y_month y_day]. rewrite !dec_field_get.
  change (member ($"year") _) with (Some (JNum (itoa y))). change (member ($"month") _) with (Some (JNum (itoa m))).
  change (member ($"day") _) with (Some (JNum (itoa d))). rewrite !get_int by assumption. reflexivity.
Qed.

Definition date_members (d : date) : list (str * json) :=
  enc_dt (d_datetime d) ++ enc_ts (d_timestamp d) ++
  [($"ymd", enc_ymd (d_ymd d))] ++
  enc_prec ($"uncertain") (d_uncertain d) ++ enc_prec ($"approximate") (d_approximate d) ++
  enc_prec ($"unspecified") (d_unspecified d) ++ enc_prec ($"precision") (d_precision d) ++
  enc_flag ($"open") (d_open d) ++ enc_flag ($"unknown") (d_unknown d) ++
  enc_prec ($"inclusivity") (d_inclusivity d).
Lemma one_member k k' v : member k [(k', v)] = if seqb k k' then Some v else None.
Proof. reflexivity. Qed.
Ltac find_member := unfold date_members; rewrite !member_app, !member_prec, !member_flag, member_dt, member_ts, one_member;
  repeat match goal with |- context [seqb ($?a) ($?b)] => let v := eval vm_compute in (seqb ($a) ($b)) in change (seqb ($a) ($b)) with v end; cbv iota.
Lemma mem_datetime d : member ($"datetime") (date_members d) = opt_str (d_datetime d).
Proof. find_member. destruct (d_datetime d); reflexivity. Qed.
Lemma mem_timestamp d : member ($"timestamp") (date_members d) = match d_timestamp d with None => None | Some t => Some (JNum (ts_marshal t)) end.
Proof. find_member. destruct (d_timestamp d); reflexivity. Qed.
Lemma mem_ymd d : member ($"ymd") (date_members d) = Some (enc_ymd (d_ymd d)).
Proof. find_member. reflexivity. Qed.
Lemma mem_un d : member ($"uncertain") (date_members d) = if N.eqb (d_uncertain d) 0 then None else Some (JNum (itoa (Z.of_N (d_uncertain d)))).
Proof. find_member. destruct (N.eqb _ 0); reflexivity. Qed.
Lemma mem_ap d : member ($"approximate") (date_members d) = if N.eqb (d_approximate d) 0 then None else Some (JNum (itoa (Z.of_N (d_approximate d)))).
Proof. find_member. destruct (N.eqb _ 0); reflexivity. Qed.
Lemma mem_us d : member ($"unspecified") (date_members d) = if N.eqb (d_unspecified d) 0 then None else Some (JNum (itoa (Z.of_N (d_unspecified d)))).
Proof. find_member. destruct (N.eqb _ 0); reflexivity. Qed.
Lemma mem_pr d : member ($"precision") (date_members d) = if N.eqb (d_precision d) 0 then None else Some (JNum (itoa (Z.of_N (d_precision d)))).
Proof. find_member. destruct (N.eqb _ 0); reflexivity. Qed.
Lemma mem_in d : member ($"inclusivity") (date_members d) = if N.eqb (d_inclusivity d) 0 then None else Some (JNum (itoa (Z.of_N (d_inclusivity d)))).
Proof. find_member. destruct (N.eqb _ 0); reflexivity. Qed.
Lemma mem_op d : member ($"open") (date_members d) = if d_open d then Some (JBool true) else None.
Proof. find_member. destruct (d_open d); reflexivity. Qed.
Lemma mem_uk d : member ($"unknown") (date_members d) = if d_unknown d then Some (JBool true) else None.
Proof. find_member. destruct (d_unknown d); reflexivity. Qed.
Lemma enc_members d : enc_date d = JObj (date_members d).
Proof. destruct d as [dt ts y u a us p o k i]. unfold enc_date, date_members, enc_dt, enc_ts. cbn [d_datetime d_timestamp]. destruct dt; reflexivity. Qed.
Lemma date_roundtrip d : typed_date d -> dec_date (enc_date d) = OK d.
Proof.
  intros [H1 H2 H3 H4 H5 H6 H7]. rewrite enc_members. unfold dec_date. rewrite !dec_field_get.
  rewrite mem_datetime, mem_timestamp, mem_ymd, mem_un, mem_ap, mem_us, mem_pr, mem_in, mem_op, mem_uk.
  rewrite get_str, get_ts, get_ymd, !get_prec, !get_flag by assumption. destruct d. reflexivity.
Qed.
Theorem json_roundtrip e : typed e -> dec_edtf (enc_edtf e) = OK e.
Proof.
  intros (H1 & H2 & H3 & H4 & H5). destruct e as [[se sl su] [ee el eu] s lv f]. cbn [e_start e_end r_lower r_upper e_level] in *.
  assert (R : forall x lo up, typed_date lo -> typed_date up -> dec_range (enc_range (mkRange x lo up)) = OK (mkRange x lo up)).
  { intros x lo up Hl Hu. unfold enc_range, dec_range. cbn [r_edtf r_lower r_upper]. rewrite dec_field_get. unfold dec_req.
    change (member ($"edtf") _) with (Some (JStr x)). change (member ($"lower") _) with (Some (enc_date lo)).
    change (member ($"upper") _) with (Some (enc_date up)). cbv iota beta. rewrite !date_roundtrip by assumption. reflexivity. }
  unfold enc_edtf, dec_edtf. cbn [e_start e_end e_edtf e_level e_feature]. rewrite !dec_field_get. unfold dec_req.
  change (member ($"start") _) with (Some (enc_range (mkRange se sl su))). change (member ($"end") _) with (Some (enc_range (mkRange ee el eu))).
  change (member ($"edtf") _) with (Some (JStr s)). change (member ($"level") _) with (Some (JNum (itoa lv))).
  change (member ($"feature") _) with (Some (JStr f)). cbv iota beta. rewrite !R by assumption. rewrite get_int by exact H5. reflexivity.
Qed.

