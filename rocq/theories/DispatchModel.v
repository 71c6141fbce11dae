(** Model of custom operators and numpy functions of numeric objects.
    Source: /repo/src/eprempy/numeric/_mixins.py (Functions, Operators), _implementation.py,
    with the registrations of real/_array.py, physical/_operations.py and numeric/_index.py.

    A class is a number.  [mro c]: the class and its ancestors, in the order of attribute
    lookup.  [has_ops], [has_funcs]: whether the body of the class defines
    [_OPERATORS = {}] and [_FUNCTIONS = {}]; the base classes define both
    as None.  Functions given by the user are values of an arbitrary type [F]. *)
From Verif Require Import PyBase AliasedModel OperatorsModel Nd ContainerModel ArrayModel.

(** a callable as key of [_FUNCTIONS]: a standard operator, or another one (numpy's functions) *)
Inductive callable := Std (f : str) | Ext (n : nat).
Definition callable_eqb (a b : callable) : bool :=
  match a, b with Std f, Std g => str_eqb f g | Ext n, Ext k => Nat.eqb n k | _, _ => false end.

Section Registries.
Context {F : Type}.
Variable mro : nat -> list nat.
Variable has_ops has_funcs : nat -> bool.
Variable m : opmap.                                      (* numeric.OPERATORS *)

(** attribute lookup: the class whose dict [c] uses *)
Definition owner (has : nat -> bool) (c : nat) : option nat := find has (mro c).
(** the dicts, by owner and key *)
Record registries := { ops : nat -> str -> option F; funcs : nat -> callable -> option F }.
Definition no_registrations : registries := {| ops := fun _ _ => None; funcs := fun _ _ => None |}.
Definition set_op (r : registries) (k : nat) (o : str) (f : F) : registries :=
  {| ops := fun k' o' => if Nat.eqb k' k && str_eqb o' o then Some f else ops r k' o'; funcs := funcs r |}.
Definition set_func (r : registries) (k : nat) (n : callable) (f : F) : registries :=
  {| ops := ops r; funcs := fun k' n' => if Nat.eqb k' k && callable_eqb n' n then Some f else funcs r k' n' |}.

Definition as_callable (o : operation) : option callable :=
  match o with ByFunc f => Some (Std f) | OtherCallable n => Some (Ext n) | _ => None end.
(** _mixins.py 288-336 [Functions.implements], applied to a function *)
Definition implements_func (r : registries) (c : nat) (o : operation) (f : F) : result registries :=
  match as_callable o with
  | None => Raise TypeError
  | Some n => match owner has_funcs c with
              | None => Raise (OtherError "NotImplementedError")
              | Some k => Ok (set_func r k n f)
              end
  end.
(** 385-413 [Operators.implements]: a target among the standard operators goes to [_OPERATORS] *)
Definition implements (r : registries) (c : nat) (o : operation) (f : F) : result registries :=
  t <- resolve_operation m o false ;;
  match t with
  | Some (Plain op) =>
      if in_group op (map fst operation_table) then
        match owner has_ops c with
        | None => Raise (OtherError "NotImplementedError")
        | Some k => Ok (set_op r k op f)
        end
      else implements_func r c o f
  | _ => implements_func r c o f
  end.
(** a history of registrations: a failed one changes nothing *)
Definition run (r : registries) (h : list (nat * operation * F)) : registries :=
  fold_left (fun r q => match implements r (fst (fst q)) (snd (fst q)) (snd q) with Ok r' => r' | Raise _ => r end) h r.

(** 272-283 [Functions._implements] *)
Definition func_of (r : registries) (c : nat) (o : operation) : option F :=
  match as_callable o, owner has_funcs c with
  | Some n, Some k => funcs r k n
  | _, _ => None
  end.

Section Calls.
Context {V : Type}.
(** a call of a registered function; [None]: it returned NotImplemented *)
Variable call_f : F -> list V -> result (option V).

(** 349-363 [__object_operator__] with 366-380 [_implements] of an object of class [c] *)
Definition object_operator (r : registries) (c : nat) (o : operation) (args : list V) : result (option V) :=
  t <- resolve_operation m o false ;;
  match t with
  | Some (Plain op) =>
      match owner has_ops c with
      | None => Ok None
      | Some k => match ops r k op with Some f => call_f f args | None => Ok None end
      end
  | Some (Tup _) => Ok None                              (* a tuple is never a key *)
  | None => match func_of r c o with
            | None => Ok None
            | Some _ => match owner has_ops c with        (* _OPERATORS[None] *)
                        | None => Raise TypeError
                        | Some _ => Raise KeyError
                        end
            end
  end.

(** the class of a value; [None]: a number or other object whose own methods do
    not know the classes of this library *)
Variable class_of : V -> option nat.
(** _implementation.py 37-70 [unary], [binary], [doublet]: the special methods *)
Definition forward_method (r : registries) (op : str) (a b : V) : result (option V) :=
  match class_of a with
  | Some c => object_operator r c (ByFunc op) [a; b]
  | None => Ok None
  end.
Definition reverse_method (r : registries) (op : str) (a b : V) : result (option V) :=
  match class_of b with
  | Some c => object_operator r c (ByFunc op) [a; b]
  | None => Ok None
  end.
Definition same_class (a b : V) : bool :=
  match class_of a, class_of b with Some c, Some d => Nat.eqb c d | _, _ => false end.
(** Python's [a op b]: the method of [a]; then, if the types differ, the reflected method of [b]
    (the classes inherit the methods from a common base, so a subclass on the right has no
    precedence); then TypeError *)
Definition python_binary (r : registries) (op : str) (a b : V) : result V :=
  x <- forward_method r op a b ;;
  match x with
  | Some v => Ok v
  | None => if same_class a b then Raise TypeError
            else y <- reverse_method r op a b ;;
                 match y with Some v => Ok v | None => Raise TypeError end
  end.
(** Python's [op a] *)
Definition python_unary (r : registries) (op : str) (a : V) : result V :=
  match class_of a with
  | None => Raise TypeError
  | Some c => x <- object_operator r c (ByFunc op) [a] ;;
              match x with Some v => Ok v | None => Raise TypeError end
              (* for [abs] etc. a returned NotImplemented would be the result; the registered functions never return it *)
  end.
(** Python's comparisons: the reflection of an operator *)
Definition mirror (op : str) : str :=
  if str_eqb op (s "lt") then s "gt" else if str_eqb op (s "gt") then s "lt"
  else if str_eqb op (s "le") then s "ge" else if str_eqb op (s "ge") then s "le" else op.
Definition subclass (c d : nat) : bool := negb (Nat.eqb c d) && existsb (Nat.eqb d) (mro c).
(** the right operand goes first if its class is a proper subclass of the left one's *)
Definition right_first (a b : V) : bool :=
  match class_of a, class_of b with Some c, Some d => subclass d c | _, _ => false end.
Inductive verdict := Answer (v : V) | Identity (negated : bool).
Definition python_compare (r : registries) (op : str) (a b : V) : result verdict :=
  let left := forward_method r op a b in
  let right := forward_method r (mirror op) b a in
  let default := if str_eqb op (s "eq") then Ok (Identity false)
                 else if str_eqb op (s "ne") then Ok (Identity true) else Raise TypeError in
  let try1 := if right_first a b then right else left in
  let try2 := if right_first a b then left else right in
  x <- try1 ;;
  match x with
  | Some v => Ok (Answer v)
  | None => y <- try2 ;; match y with Some v => Ok (Answer v) | None => default end
  end.
End Calls.
End Registries.
Arguments registries F : clear implicits.
Arguments verdict V : clear implicits.

(** ** numpy's universal functions on real arrays *)
Section Ufuncs.
Context {A : Type}.
(** numpy's own computation, by name of the function and method ("__call__", "outer", ...), on plain arrays *)
Variable ufunc : str -> str -> list (nd A) -> result (nd A).
(** the elementary functions used by the operators *, /, //, % and ** *)
Variable elementary : str -> A -> A -> A.

(** real/_array.py 155-191: the functions registered for arrays; the second argument of [pow] must have the
    dimensions of the first.  [numpy.divide] is [numpy.true_divide], [numpy.mod] is [numpy.remainder]. *)
Definition registered : list str := [s "multiply"; s "true_divide"; s "floor_divide"; s "mod"; s "power"].
Definition array_pow (f : A -> A -> A) (a b : aoperand A) : result (ares A) :=
  match a, b with
  | AArr x, AArr y => if negb (dims_eq (adims x) (adims y)) then Raise ValueError else r <- multiplicative f a b ;; Ok (RArr r)
  | ANum v, AArr y => r <- nd_map2 f (nd_scalar v) (data y) ;; Ok (RNd r)
  | ANd x, AArr y => r <- nd_map2 f x (data y) ;; Ok (RNd r)
  | ANum _, _ | ANd _, _ => Raise AttributeError
  | _, _ => r <- multiplicative f a b ;; Ok (RArr r)
  end.
Definition registered_call (name : str) (args : list (aoperand A)) : result (ares A) :=
  match args with
  | [a; b] => if str_eqb name (s "power") then array_pow (elementary name) a b
              else r <- multiplicative (elementary name) a b ;; Ok (RArr r)
  | _ => Raise TypeError                                  (* wrong number of arguments *)
  end.
(** real/_array.py 53-56 [_get_arg_data]: of every array argument, the data of [self] *)
Definition get_arg_data (self : array A) (x : aoperand A) : result (nd A) :=
  match x with
  | AArr _ => Ok (data self)
  | ANum v => Ok (nd_scalar v)
  | ANd y => Ok y
  | AOther => Raise TypeError
  end.
(** _mixins.py 99-130 [_apply_ufunc] (method other than "at") *)
Definition apply_ufunc (self : array A) (name method : str) (args : list (aoperand A)) : result (ares A) :=
  values <- mapM (get_arg_data self) args ;;
  r <- ufunc name method values ;; Ok (RNd r).
Definition accepted (x : aoperand A) : bool := match x with AOther => false | _ => true end.
(** 60-97 [__array_ufunc__] without [out]; [None]: NotImplemented *)
Definition array_ufunc (self : array A) (name method : str) (args : list (aoperand A)) : result (option (ares A)) :=
  if negb (forallb accepted args) then Ok None
  else if in_group name registered then r <- registered_call name args ;; Ok (Some r)
  else r <- apply_ufunc self name method args ;; Ok (Some r).
(** numpy's dispatch: the methods of the arguments that override, from the left; plain arguments otherwise *)
Fixpoint overrides (args : list (aoperand A)) : list (array A) :=
  match args with
  | [] => []
  | AArr x :: args' => x :: overrides args'
  | _ :: args' => overrides args'
  end.
Fixpoint try_overrides (xs : list (array A)) (name method : str) (args : list (aoperand A)) : result (ares A) :=
  match xs with
  | [] => Raise TypeError
  | x :: xs' => r <- array_ufunc x name method args ;;
                match r with Some v => Ok v | None => try_overrides xs' name method args end
  end.
Definition numpy_call (name method : str) (args : list (aoperand A)) : result (ares A) :=
  match overrides args with
  | [] => values <- mapM (@get_operand A) args ;; r <- ufunc name method values ;; Ok (RNd r)
  | xs => try_overrides xs name method args
  end.

(** *** physical objects: a unit [U] with plain data (scalars, vectors, tensors) or with a real array.
    For a function without a registered implementation (all of [add], [subtract], [multiply], ...: see
    physical/_operations.py 411-700 for the others), [_get_arg_data] (_mixins.py 236-250) takes the data of every object. *)
Inductive pobject (U : Type) := PData (x : nd A) (u : U) | PArray (x : array A) (u : U) | PPlain (x : aoperand A).
Definition object_data {U} (x : pobject U) : aoperand A :=
  match x with PData _ d _ => ANd d | PArray _ d _ => AArr d | PPlain _ x => x end.
Definition numpy_physical {U} (name method : str) (args : list (pobject U)) : result (ares A) :=
  if negb (forallb accepted (map object_data args)) then Raise TypeError
  else numpy_call name method (map object_data args).
End Ufuncs.
Arguments PData {A U} x u.
Arguments PArray {A U} x u.
Arguments PPlain {A U} x.
