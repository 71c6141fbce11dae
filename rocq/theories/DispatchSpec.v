(** Specification for C81: which function answers an operation on objects of a class. *)
From Verif Require Import PyBase AliasedModel OperatorsModel OperatorsSpec Nd ContainerModel ArrayModel DispatchModel.

(** the operation [o], given by name, alias or function, is the operator [op] *)
Definition standard (op : str) : Prop := exists als, In (op, als) operation_table.
Definition asks_for (o : operation) (op : str) : Prop :=
  (exists k, o = ByName k /\ denotes op k) \/ (o = ByFunc op /\ standard op).

(** the first class in the order of attribute lookup that has a collection of its own *)
Definition collection_of (mro : nat -> list nat) (has : nat -> bool) (c k : nat) : Prop :=
  exists l1 l2, mro c = l1 ++ k :: l2 /\ has k = true /\ (forall x, In x l1 -> has x = false).
(** the two classes use the same collection of implementations *)
Definition share (mro : nat -> list nat) (has : nat -> bool) (c d : nat) : Prop :=
  exists k, collection_of mro has c k /\ collection_of mro has d k.

Section Spec.
Context {F : Type}.
Variable mro : nat -> list nat.
Variable has_ops has_funcs : nat -> bool.
(** the request is an implementation of the operator for the class (or one that shares its collection) *)
Definition request_of (c : nat) (op : str) (q : nat * operation * F) : Prop :=
  share mro has_ops (fst (fst q)) c /\ asks_for (snd (fst q)) op.
(** the same for other functions, identified by a number *)
Definition function_request_of (c : nat) (n : nat) (q : nat * operation * F) : Prop :=
  share mro has_funcs (fst (fst q)) c /\ snd (fst q) = OtherCallable n.
(** [f] is the function of the last request in the history that satisfies [P] *)
Definition latest (P : nat * operation * F -> Prop) (h : list (nat * operation * F)) (f : F) : Prop :=
  exists h1 q h2, h = h1 ++ q :: h2 /\ P q /\ snd q = f /\ forall q', In q' h2 -> ~ P q'.
End Spec.

(** what the object [x] answers when asked for the operator [op] with the arguments [args], after a history of requests:
    the result of the function last given for its class, or nothing *)
Section Answers.
Context {F V : Type}.
Variable mro : nat -> list nat.
Variable has_ops : nat -> bool.
Variable call_f : F -> list V -> result (option V).
Variable class_of : V -> option nat.
Definition answers (h : list (nat * operation * F)) (x : V) (op : str) (args : list V) (r : result (option V)) : Prop :=
  (exists c f, class_of x = Some c /\ latest (request_of mro has_ops c op) h f /\ r = call_f f args) \/
  ((forall c q, class_of x = Some c -> In q h -> ~ request_of mro has_ops c op q) /\ r = Ok None).
End Answers.

(** the data of an argument of a numpy function *)
Definition plain_data {A} (x : aoperand A) : option (nd A) :=
  match x with AArr y => Some (data y) | ANum v => Some (nd_scalar v) | ANd y => Some y | AOther => None end.
