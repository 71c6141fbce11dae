(** * Vocabulary of the properties of observable quantities (no eprempy code) *)
From Verif Require Import PyBase PyLemmas ContainerModel Nd ArrayModel ArraySpec AxesModel AxisModel PhysicalModel PhysicalSpec ObservableModel.

Section Spec.
Context {U B : Type}.
(** [k] is one of the dimensions [ds], or the radius that stands for the shell *)
Definition concerns (ds : list str) (k : str) : Prop := In k ds \/ (k = s "radius" /\ In (s "shell") ds).
(** the same indices and assumptions for every dimension in [ds] *)
Definition same_for (ds : list str) (a b : arguments (U := U)) : Prop :=
  forall k, concerns ds k -> lookup str_eqb (aindices a) k = lookup str_eqb (aindices b) k /\ lookup str_eqb (aassumed a) k = lookup str_eqb (aassumed b) k.
(** the same array, however it is stored *)
Definition alike (a b : parr (U := U) (B := B)) : Prop :=
  aunit a = aunit b /\ paxes a = paxes b /\ (forall d n, axis_len (face a) d n <-> axis_len (face b) d n) /\ forall c, value_at a c = value_at b c.
(** What is asked of an operator: its results are tidy arrays that have not been
    converted to another unit (the results of arithmetic and of subscription are
    such arrays: C27, C28), and constraints on foreign dimensions do not matter. *)
Definition yields_arrays (q : quantity (U := U) (B := B)) : Prop :=
  forall args v, operator q args = Ok v -> exists a, v = PArr a /\ tidy a /\ scale a = 1%Qc.
Definition minds_its_dimensions (q : quantity (U := U) (B := B)) : Prop :=
  forall args args' a, same_for (qdims q) args args' -> operator q args = Ok (PArr a) -> exists a', operator q args' = Ok (PArr a') /\ alike a a'.
(** one constraint for every dimension, written out in the order of [ds] *)
Definition under (m : str -> uval (U := U)) (ds : list str) : given (U := U) := Tuple (map (fun d => It (m d)) ds).
(** dimensions are distinct; 'radius' is not one of them *)
Definition proper_dims (ds : list str) : Prop := NoDup ds /\ ~ In (s "radius") ds.
(** [a] is the result of [f] on the amounts of [a1] and [a2], paired by the names
    of the dimensions (an axis of length one is repeated) *)
Definition pairs_amounts (size : U -> Qc) (f : Qc -> Qc -> Qc) (a1 a2 a : parr (U := U) (B := B)) : Prop :=
  forall c c1 c2, inside a c -> clip (face a1) c c1 -> clip (face a2) c c2 -> amount_at size a c = f (amount_at size a1 c1) (amount_at size a2 c2).
End Spec.

(** ** Constraints *)
Section Asked.
Context {U : Type}.
Variables (ueq : U -> U -> bool) (uone : U) (factor : U -> U -> option Qc) (consistent : U -> U -> bool) (is_length : U -> bool).
(** Under the constraint [m d] for each dimension [d] of [ds], the operator of a
    quantity is asked for [args]. *)
Definition asked (c : context (U := U)) (ds : list str) (m : str -> uval (U := U)) (args : arguments (U := U)) : Prop :=
  exists user, constraints is_length (map (fun d => (d, m d)) ds) = Ok user /\ implement ueq uone factor consistent c user = Ok args.
(** dimension [d] is subscripted by [p] *)
Definition indexed_by (args : arguments (U := U)) (d : str) (p : positions) : Prop := lookup str_eqb (aindices args) d = Ok (PPos p).
Definition nothing_assumed (args : arguments (U := U)) (d : str) : Prop := lookup str_eqb (aassumed args) d = Raise KeyError.
Definition assumes (args : arguments (U := U)) (d : str) (l : list Qc) (u : U) : Prop := lookup str_eqb (aassumed args) d = Ok (PAssume (HMeas l u)).
(** the positions from [lo] to [hi] *)
Definition stretch (lo hi : nat) : positions := These (map Z.of_nat (seq lo (hi + 1 - lo))).
End Asked.
