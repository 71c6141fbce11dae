(** Specification of named arrays, independent of the model's helpers: an array
    is what one finds at named coordinates. *)
From Verif Require Import PyBase PyLemmas Nd ContainerSpec ArrayModel.

(** every axis has one name, no name is used twice, no axis is empty *)
Definition well_named {A} (x : array A) : Prop :=
  NoDup (anames x) /\ length (anames x) = length (shape (data x)) /\ Forall (fun n => 0 < n) (shape (data x)).
(** axis [d] of [x] has length [n] *)
Definition axis_len {A} (x : array A) (d : str) (n : nat) : Prop :=
  exists k, nth_error (anames x) k = Some d /\ nth_error (shape (data x)) k = Some n.
(** named coordinates *)
Definition coords := str -> nat.
Definition at_ {A} (x : array A) (c : coords) : A := elem (data x) (map c (anames x)).
Definition within {A} (x : array A) (c : coords) : Prop := forall d n, axis_len x d n -> c d < n.
(** coordinates along axes of length one do not matter *)
Definition clip {A} (x : array A) (c c' : coords) : Prop :=
  forall d n, axis_len x d n -> (n = 1 -> c' d = 0) /\ (n <> 1 -> c' d = c d).
(** the same array up to the order of its axes *)
Definition same_by_name {A} (x y : array A) : Prop :=
  (forall d n, axis_len x d n <-> axis_len y d n) /\ forall c, within x c -> at_ x c = at_ y c.
(** one element in all *)
Definition singleton {A} (x : array A) : Prop := Forall (fun n => n = 1) (shape (data x)).
(** [l] is a common order of the names of [a] and [b], with no other name *)
Definition common_order (a b l : list str) : Prop :=
  NoDup l /\ subseq a l /\ subseq b l /\ forall d, In d l <-> In d a \/ In d b.
(** [c] with coordinate [i] along [d] *)
Definition along (c : coords) (d : str) (i : nat) : coords := fun e => if str_eq_dec e d then i else c e.
(** the elements of [x] along axis [d] at the coordinates [c] *)
Definition line {A} (x : array A) (d : str) (c : coords) (v : list A) : Prop :=
  axis_len x d (length v) /\ forall i y, nth_error v i = Some y -> y = at_ x (along c d i).
