(** * Model of the exception utilities (exceptions.py)

    An exception class is identified by a number; [sub c d] says that class [c]
    is [d] or derives from it.  An exception object has a class and arguments.
    Not modelled: tracebacks and chained causes ([from err]); classes whose
    constructor rejects the message; values other than arrays whose [!=] is
    overridden. *)
From Verif Require Import PyBase ContainerModel.

Definition cls := N.
(** Python values as far as this module inspects them. *)
Inductive pv :=
| PNone | PEllipsis
| PClass (c : cls)             (* a class *)
| PArray (n : nat)             (* a numpy array of [n] numbers *)
| POther (n : N)               (* any other object *)
| PStr (x : str)
| PTuple (l : list pv)
| PDict (l : list (str * pv)).
Record exc := { x_class : cls; x_args : list pv }.
Inductive outcome := Returns (v : pv) | Raises (e : exc).
(** What a callable does for given positional and keyword arguments. *)
Definition callable := list pv -> list (str * pv) -> outcome.

Section Exceptions.
(** [issubclass]; the built-in classes this module can itself raise or test. *)
Variable sub : cls -> cls -> bool.
Variables exception_class key_error value_error : cls.

(** 63-65 [Wrapper.__init__] *)
Record wrapper := { w_f : callable; w_subs : list (cls * pv) }.
Definition new_wrapper (f : callable) : wrapper := {| w_f := f; w_subs := [] |}.
(** 67-84 [Wrapper.catch]: a dictionary assignment; the default value is [None]. *)
Definition catch (w : wrapper) (e : cls) (value : pv) : wrapper :=
  {| w_f := w_f w; w_subs := dict_put N.eqb (w_subs w) e value |}.
(** [value != Ellipsis] used as a condition: comparing an array gives an array,
    whose truth value is an error unless it has one element. *)
Definition ne_ellipsis (v : pv) : option bool :=
  match v with
  | PEllipsis => Some false
  | PArray n => if Nat.eqb n 1 then Some true else None
  | _ => Some true
  end.
(** 128-135 the arguments as a value *)
Definition arguments (args : list pv) (kwargs : list (str * pv)) : pv :=
  match kwargs with
  | [] => match args with [x] => x | _ => PTuple args end
  | _ => match args with [] => PDict kwargs | _ => PTuple [PTuple args; PDict kwargs] end
  end.
(** 86-135 [Wrapper.compute] *)
Definition compute (w : wrapper) (args : list pv) (kwargs : list (str * pv)) : outcome :=
  match w_f w args kwargs with
  | Returns v => Returns v
  | Raises e =>
      if existsb (fun c => sub (x_class e) c) (map fst (w_subs w)) then
        match lookup N.eqb (w_subs w) (x_class e) with
        | Raise _ => Raises {| x_class := key_error; x_args := [PClass (x_class e)] |}
        | Ok value =>
            match ne_ellipsis value with
            | None => Raises {| x_class := value_error; x_args := [] |}
            | Some true => Returns value
            | Some false => Returns (arguments args kwargs)
            end
        end
      else Raises e
  end.
(** 192-199 [isexception] *)
Definition isexception (x : pv) : bool :=
  match x with PClass c => sub c exception_class | _ => false end.
(** 172-190 [convert]; [message] is [None] or a string, and the empty string
    counts as no message. *)
Definition convert (expected : cls) (replacement : pv) (message : option str) (f : callable) : callable :=
  fun args kwargs =>
    match f args kwargs with
    | Returns v => Returns v
    | Raises e =>
        if sub (x_class e) expected then
          if isexception replacement then
            match replacement with
            | PClass c => Raises {| x_class := c; x_args := match message with Some (a :: m) => [PStr (a :: m)] | _ => [] end |}
            | _ => Returns replacement
            end
          else Returns replacement
        else Raises e
    end.
End Exceptions.
