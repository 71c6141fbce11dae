(** * Power laws and running integrals, independent of the model *)
From Coq Require Import Reals Sorted.
From Verif Require Import PyBase.

(** [v] is the value at [t] of the power law k E^beta through (a, c) and (b, d) *)
Definition power_law (a b c d t v : R) : Prop :=
  exists k beta, (c = k * Rpower a beta /\ d = k * Rpower b beta /\ v = k * Rpower t beta)%R.
Definition increasing (x : list Qc) : Prop := StronglySorted Qclt x.
(** [s n] is the integral of the step function of height [flux k] between the
    coordinates k-1 and k, from the first coordinate to the n-th *)
Fixpoint running (flux x : nat -> Qc) (n : nat) : Qc :=
  match n with O => 0%Qc | S m => (running flux x m + flux (S m) * (x (S m) - x m))%Qc end.
(** the smallest positive normal number of double precision, 2 to the power -1022 *)
Definition smallest_normal : Qc := Q2Qc (1 # 2 ^ 1022).
