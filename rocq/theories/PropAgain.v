(** C83: the texts that a result carries for its bounds are dates again and give the
    same bounds. C84: every result is that of an interval of two complete dates. *)
From Coq Require Import Ascii String ZArith NArith Bool Lia List.
From Verif Require Import GoStr SpecCal SpecText SpecSame SpecAgain CalFacts InvProofs Edtf Parser AgainProofs.
Import ListNotations.
Open Scope Z_scope.

(** ** C83 *)
Theorem C83_stamp : forall s e b ts, ParseString s = OK e -> In b (bounds e) -> d_timestamp b = Some ts -> four_digit_time ts ->
  exists e' b', ParseString (d_datetime b) = OK e' /\ e_feature e' = $"Date and Time" /\ bounds e' = [b'; b'; b'; b'] /\ same_bound b b'.
Proof. exact bound_again. Qed.
Print Assumptions C83_stamp.
(** Only a date and time can leave those years. *)
Theorem C83_date : forall s e b, ParseString s = OK e -> In b (bounds e) -> e_feature e <> $"Date and Time" -> d_timestamp b <> None ->
  exists e' b', ParseString (d_datetime b) = OK e' /\ e_feature e' = $"Date and Time" /\ bounds e' = [b'; b'; b'; b'] /\ same_bound b b'.
Proof. exact date_again. Qed.
Print Assumptions C83_date.
Theorem C83_day : forall s e b t, ParseString s = OK e -> In b (bounds e) -> e_feature e <> $"Date and Time" -> day_of b t ->
  exists e' (lo hi ts : Z), ParseString t = OK e' /\ e_feature e' = $"Date" /\ Lower e' = OK lo /\ Upper e' = OK hi /\ hi = lo + 86399 /\
    d_timestamp b = Some ts /\ lo <= ts <= hi.
Proof. exact day_again. Qed.
Print Assumptions C83_day.
(** A time in the last hours of 9999, west of Greenwich, has a bound whose text is
    refused. *)
Theorem C83_stamp_refuted : exists s e b, ParseString s = OK e /\ In b (bounds e) /\ d_timestamp b <> None /\ forall e', ParseString (d_datetime b) <> OK e'.
Proof.
  exists ($"9999-12-31T23:59:59-01:00"). do 2 eexists. split; [vm_compute; reflexivity|]. split; [left; reflexivity|]. split; [discriminate|].
  intros e' H. vm_compute in H. discriminate H.
Qed.
Print Assumptions C83_stamp_refuted.
Example C83_case : exists e e', ParseString ($"-1985S2") = OK e /\ d_datetime (r_upper (e_end e)) = $"-1900-12-31T23:59:59Z" /\ e_feature e <> $"Date and Time" /\
  d_timestamp (r_upper (e_end e)) = Some (instant (-1900) 12 31 23 59 59) /\ day_of (r_upper (e_end e)) ($"-1900-12-31") /\
  ParseString ($"-1900-12-31T23:59:59Z") = OK e' /\ d_timestamp (r_lower (e_start e')) = Some (instant (-1900) 12 31 23 59 59).
Proof.
  do 2 eexists. split; [vm_compute; reflexivity|]. split; [vm_compute; reflexivity|]. split; [discriminate|]. split; [vm_compute; reflexivity|].
  split; [exists (-1900), 12, 31; repeat split; discriminate|]. split; vm_compute; reflexivity.
Qed.

(** ** C84 *)
Theorem C84_written : forall s e b, ParseString s = OK e -> In b (bounds e) -> e_feature e <> $"Date and Time" -> exists t, left_of b t.
Proof. exact always_written. Qed.
Print Assumptions C84_written.
Theorem C84_interval : forall s e a b, ParseString s = OK e -> e_feature e <> $"Date and Time" -> left_of (r_lower (e_start e)) a -> day_of (r_upper (e_end e)) b ->
  exists e', ParseString (a ++ $"/" ++ b) = OK e' /\ same_outer e e'.
Proof. exact interval_again. Qed.
Print Assumptions C84_interval.
Theorem C84_open_end : forall s e a, ParseString s = OK e -> e_feature e <> $"Date and Time" -> day_of (r_lower (e_start e)) a -> d_open (r_upper (e_end e)) = true ->
  (forall u, a <> "-"%char :: u) -> exists e', ParseString ($"[" ++ a ++ $"..]") = OK e' /\ same_outer e e'.
Proof. exact open_again. Qed.
Print Assumptions C84_open_end.
(** A complete date, a slash and two dots are taken for a season. *)
Theorem C84_open_end_refuted : exists s e a e', ParseString s = OK e /\ e_feature e <> $"Date and Time" /\ day_of (r_lower (e_start e)) a /\
  d_open (r_upper (e_end e)) = true /\ ParseString (a ++ $"/..") = OK e' /\ d_open (r_upper (e_end e')) = false /\ ~ same_outer e e'.
Proof.
  exists ($"[1985-04-12..]"). eexists. exists ($"1985-04-12"). eexists. split; [vm_compute; reflexivity|]. split; [discriminate|].
  split; [exists 1985, 4, 12; repeat split; discriminate|]. split; [reflexivity|]. split; [vm_compute; reflexivity|]. split; [reflexivity|].
  intros ((H & _) & _). vm_compute in H. discriminate H.
Qed.
Print Assumptions C84_open_end_refuted.
Example C84_case : exists e e' e2 e3, ParseString ($"winter, 1999") = OK e /\ e_feature e <> $"Date and Time" /\
  left_of (r_lower (e_start e)) ($"1999-12-01") /\ day_of (r_upper (e_end e)) ($"2000-02-29") /\
  ParseString ($"1999-12-01/2000-02-29") = OK e' /\ d_datetime (r_upper (e_end e')) = $"2000-02-29T23:59:59Z" /\
  ParseString ($"[..1760-12,1762]") = OK e2 /\ left_of (r_lower (e_start e2)) ($"..") /\ ParseString ($"../1762-12-31") = OK e3 /\
  d_datetime (r_upper (e_end e2)) = d_datetime (r_upper (e_end e3)).
Proof.
  do 4 eexists. split; [vm_compute; reflexivity|]. split; [discriminate|].
  split; [apply lf_day; exists 1999, 12, 1; repeat split; discriminate|]. split; [exists 2000, 2, 29; repeat split; discriminate|].
  split; [vm_compute; reflexivity|]. split; [vm_compute; reflexivity|]. split; [vm_compute; reflexivity|]. split; [apply lf_open; reflexivity|].
  split; vm_compute; reflexivity.
Qed.
