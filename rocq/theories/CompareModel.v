(** Comparison operators derived from [==] and [<].
    Source: /repo/src/eprempy/base/mixins.py 12-42 [Comparable] and
    /repo/src/eprempy/real/_objects.py 78-107 [Quantity].  The concrete class
    supplies [eq] and [lt]; both are assumed to return booleans (an exception or
    NotImplemented in them propagates unchanged and is not modelled). *)
From Verif Require Import PyBase.

(** what the concrete class supplies: [__eq__] and [__lt__].  Every operator
    below takes both, so none can use one for the other unnoticed. *)
Record ordering (T : Type) := mkordering { o_eq : T -> T -> bool; o_lt : T -> T -> bool }.
Arguments mkordering {T}.
Arguments o_eq {T}.
Arguments o_lt {T}.
Section Mixins.
Context {T : Type}.
Variable (o : ordering T).
(** mixins.py 32-33 [__ne__] *)
Definition mixin_ne (a b : T) : bool := negb (o_eq o a b).
(** mixins.py 35-36 [__le__] *)
Definition mixin_le (a b : T) : bool := o_lt o a b || o_eq o a b.
(** mixins.py 38-39 [__gt__] *)
Definition mixin_gt (a b : T) : bool := negb (o_lt o a b) && negb (o_eq o a b).
(** mixins.py 41-42 [__ge__] *)
Definition mixin_ge (a b : T) : bool := negb (o_lt o a b).
(** real/_objects.py 88-90 [__ne__], 96-98 [__le__], 100-102 [__gt__], 104-106 [__ge__] *)
Definition quantity_ne (a b : T) : bool := negb (o_eq o a b).
Definition quantity_le (a b : T) : bool := o_lt o a b || o_eq o a b.
Definition quantity_gt (a b : T) : bool := negb (o_lt o a b || o_eq o a b).
Definition quantity_ge (a b : T) : bool := negb (o_lt o a b).
End Mixins.
