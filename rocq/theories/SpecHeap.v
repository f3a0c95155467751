(** What C77 says about objects: the date one gets by following the pointers, the
    objects a result reaches, and what one heap keeps of another. *)
From Coq Require Import Ascii String ZArith NArith Bool List.
From Verif Require Import GoStr GoTime Edtf Common Heap.
Import ListNotations.

(** Following pointers. *)
Definition read_ymd (h : heap) (p : option nat) : option (option ymd) :=
  match p with
  | None => Some None
  | Some y => match nth_error (h_ymds h) y with Some v => Some (Some v) | None => None end
  end.
Definition read_date (h : heap) (a : nat) : option date :=
  match nth_error (h_dates h) a with
  | Some c =>
      match read_ymd h (hd_ymd c) with
      | Some y => Some (mkDate (hd_datetime c) (hd_timestamp c) y (hd_uncertain c) (hd_approximate c)
                               (hd_unspecified c) (hd_precision c) (hd_open c) (hd_unknown c) (hd_inclusivity c))
      | None => None
      end
  | None => None
  end.
Definition read_range (h : heap) (r : nat) : option daterange :=
  match nth_error (h_ranges h) r with
  | Some c =>
      match read_date h (hr_lower c), read_date h (hr_upper c) with
      | Some l, Some u => Some (mkRange (hr_edtf c) l u)
      | _, _ => None
      end
  | None => None
  end.
Definition read_edtf (h : heap) (x : hedtf) : option edtfdate :=
  match read_range h (he_start x), read_range h (he_end x) with
  | Some s, Some e => Some (mkEDTF s e (he_edtf x) (he_level x) (he_feature x))
  | _, _ => None
  end.

(** The objects a result reaches. *)
Definition range_of (x : hedtf) (r : nat) : Prop := r = he_start x \/ r = he_end x.
Definition date_of (h : heap) (x : hedtf) (a : nat) : Prop :=
  exists r c, range_of x r /\ nth_error (h_ranges h) r = Some c /\ (a = hr_lower c \/ a = hr_upper c).
Definition ymd_of (h : heap) (x : hedtf) (y : nat) : Prop :=
  exists a c, date_of h x a /\ nth_error (h_dates h) a = Some c /\ hd_ymd c = Some y.

(** Every object of [h] is in [h'], and is the same there. *)
Definition keeps {A} (l l' : list A) : Prop := forall a v, nth_error l a = Some v -> nth_error l' a = Some v.
Definition extends (h h' : heap) : Prop :=
  keeps (h_ymds h) (h_ymds h') /\ keeps (h_dates h) (h_dates h') /\ keeps (h_ranges h) (h_ranges h').

(** No object of [x] is an object of [h]. *)
Definition all_new (h h' : heap) (x : hedtf) : Prop :=
  (forall r, range_of x r -> nth_error (h_ranges h) r = None) /\
  (forall a, date_of h' x a -> nth_error (h_dates h) a = None) /\
  (forall y, ymd_of h' x y -> nth_error (h_ymds h) y = None).

(** Two heaps that differ at most in the objects of [x]. *)
Definition same_but (h : heap) (x : hedtf) (h' : heap) : Prop :=
  (forall r, ~ range_of x r -> nth_error (h_ranges h') r = nth_error (h_ranges h) r) /\
  (forall a, ~ date_of h x a -> nth_error (h_dates h') a = nth_error (h_dates h) a) /\
  (forall y, ~ ymd_of h x y -> nth_error (h_ymds h') y = nth_error (h_ymds h) y).

(** The four dates of a result, as addresses. *)
Definition bounds (h : heap) (x : hedtf) (sl su el eu : nat) : Prop :=
  (exists e, nth_error (h_ranges h) (he_start x) = Some (mkHRange e sl su)) /\
  (exists e, nth_error (h_ranges h) (he_end x) = Some (mkHRange e el eu)).
(* x.Start.Lower *)
Definition start_lower (h : heap) (x : hedtf) : nat := match nth_error (h_ranges h) (he_start x) with Some c => hr_lower c | None => O end.
