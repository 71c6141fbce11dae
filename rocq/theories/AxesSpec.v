(** Specification of re-arranging named axes, independent of the model. *)
From Verif Require Import PyBase ContainerSpec.
From Coq Require Import Permutation.

Section Spec.
Context {B : Type}.
(** Named axes: pairs with different names *)
Definition named (a : list (str * B)) : Prop := NoDup (map fst a).
Definition has (a : list (str * B)) (d : str) : Prop := In d (map fst a).

(** [l] without the repeats that come after a first occurrence *)
Inductive firsts {A} : list A -> list A -> Prop :=
| F_nil : firsts [] []
| F_new l u x : firsts l u -> ~ In x l -> firsts (l ++ [x]) (u ++ [x])
| F_old l u x : firsts l u -> In x l -> firsts (l ++ [x]) u.
End Spec.
