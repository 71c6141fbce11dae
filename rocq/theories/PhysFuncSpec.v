(** * Vocabulary of the properties of numpy functions on physical objects (no eprempy code) *)
From Verif Require Import PyBase PyLemmas Nd ContainerSpec ArrayModel ArraySpec PhysicalModel PhysicalSpec.

(** sum and mean of numbers *)
Definition total (l : list Qc) : Qc := fold_right Qcplus 0%Qc l.
Definition average (l : list Qc) : Qc := (total l / zq (Z.of_nat (length l)))%Qc.
(** the composite trapezoidal rule with coordinates [xs] *)
Fixpoint trapezoid (xs l : list Qc) : Qc :=
  match xs, l with
  | x :: (x' :: _) as xs', f :: (f' :: _) as l' => ((x' - x) * (f + f') / zq 2 + trapezoid xs' l')%Qc
  | _, _ => 0%Qc
  end.
(** a scaled list has the scaled value: sums, means, integrals, extremes of positive multiples *)
Definition linear (g : list Qc -> Qc) : Prop := forall q l, g (map (Qcmult q) l) = (q * g l)%Qc.

Section Spec.
Context {U B : Type}.
Notation arr := (parr (U := U) (B := B)).
(** every axis of [z] is an axis of [x], under the same name *)
Definition axes_from (x z : arr) : Prop := forall k v, In (k, v) (paxes z) -> In (k, v) (paxes x).
(** [v] are the values of [x] along axis [d] from coordinate zero, at [c] *)
Definition values_along (x : arr) (d : str) (c : coords) (v : list Qc) : Prop :=
  forall i y, nth_error v i = Some y -> y = value_at x (along c d i).
Definition amounts_along (size : U -> Qc) (x : arr) (d : str) (c : coords) (v : list Qc) : Prop :=
  forall i y, nth_error v i = Some y -> y = amount_at size x (along c d i).
(** [z] is [x] with axis [d] reduced by [g]: the unit and the other axes stay *)
Definition reduction (g : list Qc -> Qc) (x : arr) (d : str) (z : arr) : Prop :=
  tidy z /\ aunit z = aunit x /\ axes_from x z /\ (forall k, In k (map fst (paxes z)) <-> In k (map fst (paxes x)) /\ k <> d) /\
  subseq (map fst (paxes z)) (map fst (paxes x)) /\
  (forall e n, axis_len (face z) e n <-> axis_len (face x) e n /\ e <> d) /\
  forall c, inside z c -> exists v, axis_len (face x) d (length v) /\ values_along x d c v /\ value_at z c = g v.
(** the named coordinates of position [ix] *)
Fixpoint coordinates_of (names : list str) (ix : list nat) : coords :=
  match names, ix with
  | k :: names', i :: ix' => fun d => if str_eq_dec d k then i else coordinates_of names' ix' d
  | _, _ => fun _ => 0
  end.
(** all amounts of an array, the last axis fastest *)
Definition all_values (x : arr) : list Qc := map (fun ix => value_at x (coordinates_of (map fst (paxes x)) ix)) (indices (shape (data (face x)))).
Definition all_amounts (size : U -> Qc) (x : arr) : list Qc := map (fun ix => amount_at size x (coordinates_of (map fst (paxes x)) ix)) (indices (shape (data (face x)))).
(** one number with a unit *)
Definition is_scalar (o : pobj (U := U)) (u : U) (q : Qc) : Prop := okind o = KScalar /\ shape (odata o) = [] /\ ounit o = u /\ elem (odata o) [] = q.
End Spec.

(** ** Gradients *)
(** the coordinate of position [i]: [i] steps, or the i-th of a list *)
Definition place (sp : Qc + list Qc) (i : nat) : Qc :=
  match sp with inl h => (zq (Z.of_nat i) * h)%Qc | inr l => nth i l 0%Qc end.
(** difference quotients of [f] at the places [p] of a line of [n] points: at the
    ends over one interval, else the mean of the quotients on both sides, weighted
    with the length of the opposite interval *)
Definition quotient (p f : nat -> Qc) (i j : nat) : Qc := ((f j - f i) / (p j - p i))%Qc.
Definition difference (p : nat -> Qc) (n : nat) (f : nat -> Qc) (i : nat) : Qc :=
  match i with
  | 0 => quotient p f 0 1
  | S j => if Nat.eqb (S i) n then quotient p f j i
           else ((p (S i) - p i) * quotient p f j i + (p i - p j) * quotient p f i (S i))%Qc / (p (S i) - p j)
  end%Qc.
