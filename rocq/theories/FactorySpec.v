(** Specification for C82: when an object may be made from an existing object, and which function makes it. *)
From Verif Require Import PyBase AliasedModel FactoryModel.

Section Spec.
Context {X V R : Type}.
Variable is_object : X -> bool.
(** the keywords would change an attribute of an existing object that is not among those that may change *)
Definition changes (mutable : list str) (x : X) (kw : list (str * option V)) : Prop :=
  is_object x = true /\ exists k v, In (k, Some v) kw /\ ~ In k mutable.
(** the function makes the object unless that is so *)
Definition guards (f : X -> list (str * option V) -> result R) (mutable : list str) (g : X -> list (str * option V) -> result R) : Prop :=
  forall x kw, (changes mutable x kw -> g x kw = Raise ValueError) /\ (~ changes mutable x kw -> g x kw = f x kw).
(** the class and the function of a request that can be performed *)
Definition makes_for (derived numeric : nat -> bool) (q : request X V R) (c : nat) (mutable : list str) (f : annotated X V R) : Prop :=
  derived c = true /\ (q = ByRegister c mutable f \/ (numeric c = true /\ mutable = [] /\ exists st, q = ByReturns c st f)).
End Spec.
