(** Model of object factories of numeric classes.
    Source: /repo/src/eprempy/numeric/_objects.py (Registry, Registered, Mixin, _wrap_factory)
    and _factory.py (strict, returns).

    A class is a number; [derived c] says that it is a proper subclass of [Object] or [Quantity], so that
    [__init_subclass__] gave it a registry.  Values given for keywords are [None] for Python's None. *)
From Verif Require Import PyBase AliasedModel.

Section Factories.
Context {X V R : Type}.                                  (* arguments, keyword values, objects *)
Variable is_object : X -> bool.                          (* isinstance(x, Object) *)
Definition kwargs := list (str * option V).
Definition maker := X -> kwargs -> result R.
(** a function with its return annotation: whether it has a [__qualname__] (classes do, texts and unions do not) *)
Record annotated := { body : maker; named_result : bool }.

(** the first keyword with a value that [allowed] refuses *)
Fixpoint refused_keyword (allowed : str -> bool) (kw : kwargs) : bool :=
  match kw with
  | [] => false
  | (k, v) :: kw' => (negb (allowed k) && match v with Some _ => true | None => false end) || refused_keyword allowed kw'
  end.
(** _objects.py 206-228 [_wrap_factory]; functools.wraps copies the annotations *)
Definition wrap_factory (f : annotated) (keys : list str) : annotated :=
  {| body := fun x kw =>
       if negb (named_result f) then Raise AttributeError
       else if is_object x && refused_keyword (fun k => in_group k keys) kw then Raise ValueError
       else body f x kw;
     named_result := named_result f |}.
(** [kwargs.get(key) is not None] *)
Fixpoint given (kw : kwargs) (key : str) : bool :=
  match kw with [] => false | (k, v) :: kw' => if str_eqb k key then match v with Some _ => true | None => false end else given kw' key end.
(** _factory.py 69-91 [_check_metadata] *)
Definition check_metadata (f : annotated) (keys : list str) : annotated :=
  {| body := fun x kw =>
       if negb (named_result f) then Raise AttributeError
       else if is_object x && (match keys with [] => refused_keyword (fun _ => false) kw | _ => existsb (given kw) keys end) then Raise ValueError
       else body f x kw;
     named_result := named_result f |}.

(** _factory.py 14-34 [strict]: texts and callables among the arguments *)
Inductive decorator_arg := AKey (k : str) | AFun (f : annotated) | AThing.
Definition is_key (a : decorator_arg) : bool := match a with AKey _ => true | _ => false end.
Definition keys_of (l : list decorator_arg) : list str := flat_map (fun a => match a with AKey k => [k] | _ => [] end) l.
Inductive decorated := Decorator (d : annotated -> annotated) | Ready (f : annotated).
Definition strict (l : list decorator_arg) : result decorated :=
  if forallb is_key l then Ok (Decorator (fun f => check_metadata f (keys_of l)))
  else match l with
       | [AFun f] => Ok (Ready (check_metadata f []))
       | [_] => Raise (OtherError "UnboundLocalError")
       | _ => Raise TypeError
       end.

(** ** registries *)
Variable derived : nat -> bool.
(** calling the class itself *)
Variable construct : nat -> maker.
(** 41-75 [Registry]: the registered factory of each class; [None]: the class *)
Definition registry := nat -> option annotated.
Definition fresh : registry := fun _ => None.
(** 54-75 [Registry.factory], as decorator; [cls.register] is None for the base classes *)
Definition register (r : registry) (c : nat) (mutable : list str) (f : annotated) : result registry :=
  if derived c then Ok (fun c' => if Nat.eqb c' c then Some (wrap_factory f mutable) else r c')
  else Raise AttributeError.
(** 116-132 [spawn], [_spawn], [has] *)
Definition spawn (r : registry) (c : nat) (x : X) (kw : kwargs) : result R :=
  if derived c then match r c with Some f => body f x kw | None => construct c x kw end
  else Raise (OtherError "NotImplementedError").
(** _factory.py 37-66 [returns]; [numeric c]: a subclass of Object (Quantity is not) *)
Variable numeric : nat -> bool.
Definition returns (r : registry) (c : nat) (is_strict : bool) (f : annotated) : result registry :=
  if numeric c then register r c [] (if is_strict then check_metadata f [] else f)
  else Raise TypeError.

(** a history of registrations: by the decorator of the class with some mutable keywords, or by [returns] *)
Inductive request := ByRegister (c : nat) (mutable : list str) (f : annotated) | ByReturns (c : nat) (is_strict : bool) (f : annotated).
Definition perform (r : registry) (q : request) : result registry :=
  match q with ByRegister c ms f => register r c ms f | ByReturns c st f => returns r c st f end.
Definition after (h : list request) : registry :=
  fold_left (fun r q => match perform r q with Ok r' => r' | Raise _ => r end) h fresh.
End Factories.
Arguments annotated X V R : clear implicits.
Arguments request X V R : clear implicits.
Arguments registry X V R : clear implicits.
Arguments decorated X V R : clear implicits.
Arguments decorator_arg X V R : clear implicits.
