(** * Model of the printed forms of objects
    (etc.py 20-30, 120-160, 163-207, 239-268)

    Paths are relative to /repo/src/eprempy.  An object is known by the classes
    of its method resolution order, the first being its own; [object] comes last
    and is implicit.  Not modelled: the style 'numpy' of [autostr]. *)
From Verif Require Import PyBase ContainerModel SymbolicModel.

(** what a method is: it returns a text, or it is one of the generated ones;
    [SRepr] is a method that shows [repr] of the object *)
Inductive str_method := SText (t : str) | SRepr.
Inductive repr_method := RText (t : str) | RAuto | RStr2.
Record class := mkclass { cname : str; cstr : option str_method; crepr : option repr_method }.

(** 239-249, 163-207 [_autostr_default] as applied by [autostr] *)
Definition autostr (c : class) : class :=
  mkclass (cname c) (cstr c) (match crepr c with Some r => Some r | None => Some RAuto end).
(** 131-160 [str2repr] *)
Definition str2repr (c : class) : class := mkclass (cname c) (cstr c) (Some RStr2).

(** attribute lookup: the first class that has it *)
Definition find_str (mro : list class) : option str_method :=
  fold_right (fun c r => match cstr c with Some m => Some m | None => r end) None mro.
Definition find_repr (mro : list class) : option repr_method :=
  fold_right (fun c r => match crepr c with Some m => Some m | None => r end) None mro.
Definition own_name (mro : list class) : str := match mro with c :: _ => cname c | [] => s "object" end.
(** 252-268 [_defines_str] *)
Definition defines_str (mro : list class) : bool :=
  match mro with
  | c :: _ => match cstr c with Some _ => true | None => match find_str mro with Some _ => true | None => false end end
  | [] => false
  end.
Section Printing.
(** what [object.__repr__] shows *)
Variable default_text : str.
(** [str(x)] (true) and [repr(x)] (false); [object.__str__] shows [repr] *)
Fixpoint shown (fuel : nat) (mro : list class) (as_str : bool) : result str :=
  match fuel with
  | O => Raise RecursionError
  | S n =>
      if as_str then
        match find_str mro with
        | Some (SText t) => Ok t
        | Some SRepr | None => shown n mro false
        end
      else
        match find_repr mro with
        | Some (RText t) => Ok t
        | Some RAuto =>
            if defines_str mro then t <- shown n mro true ;; Ok (own_name mro ++ s "(" ++ t ++ s ")") else Ok (own_name mro)
        | Some RStr2 =>
            match mro with
            | c :: _ => match cstr c with
                        | None => Ok (own_name mro)
                        | Some _ => t <- shown n mro true ;; Ok (own_name mro ++ s "(" ++ t ++ s ")")
                        end
            | [] => Ok default_text
            end
        | None => Ok default_text
        end
  end.
End Printing.

(** ** 120-128 [apply]: the methods are called in order; [None]: one that raises
    ends it.  The log lists the calls that were made. *)
Section Apply.
Context {T : Type}.
Variable truth : T -> bool.
Fixpoint apply_methods (methods : list (result T)) : result (option T) * nat :=
  match methods with
  | [] => (Ok None, O)
  | Raise e :: _ => (Raise e, 1%nat)
  | Ok v :: rest =>
      if truth v then (Ok (Some v), 1%nat) else let (r, n) := apply_methods rest in (r, S n)
  end.
End Apply.
