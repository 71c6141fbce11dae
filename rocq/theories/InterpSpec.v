(** * Linear interpolation, independent of the model *)
From Verif Require Import PyBase.

(** [v] is the value at [t] of the broken line through the points (x_i, y_i): the
    value of a point at [t]; or, between the neighbours [a] and [b] of [t] among
    the x_i, the value on the straight line through their points. *)
Definition interpolates (x y : list Qc) (t v : Qc) : Prop :=
  (exists i, nth_error x i = Some t /\ nth_error y i = Some v) \/
  (exists i j a b c d, nth_error x i = Some a /\ nth_error y i = Some c /\ nth_error x j = Some b /\ nth_error y j = Some d /\
     (a < t)%Qc /\ (t < b)%Qc /\ (forall w, In w x -> (w <= a)%Qc \/ (b <= w)%Qc) /\ (v = c + (d - c) * ((t - a) / (b - a)))%Qc).
(** [t] lies between the least and the greatest of [x] *)
Definition spanned (x : list Qc) (t : Qc) : Prop := (exists a, In a x /\ (a <= t)%Qc) /\ exists b, In b x /\ (t <= b)%Qc.
Definition column (rows : list (list Qc)) (j : nat) : list Qc := map (fun r => nth j r 0%Qc) rows.
(** the entry of a table *)
Definition entry (rows : list (list Qc)) (i j : nat) (v : Qc) : Prop := exists r, nth_error rows i = Some r /\ nth_error r j = Some v.
(** a table of [n] columns *)
Definition rectangular (rows : list (list Qc)) (n : nat) : Prop := Forall (fun r => length r = n) rows.
