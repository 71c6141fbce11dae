(** Model of the helpers of container.py for wrapped, typed and paired objects, and of help texts.
    Source: /repo/src/eprempy/container.py (163-345, 674-697), etc.py (39-84). *)
From Verif Require Import PyBase FsModel ParameterModel SystemsModel SymbolicModel.

(** ** container.py 251-345 [hastype], [find_first] *)
Section Types.
(** objects, classes, [isinstance], and the members that iteration yields ([None]: not iterable) *)
Context {O C : Type}.
Variable instance : O -> C -> bool.
Variable members : O -> option (list O).
(** [isinstance(x, types)] *)
Definition isinstance_any (x : O) (types : list C) : bool := existsb (instance x) types.
(** 333-337: the loop over the wrappers *)
Fixpoint try_wrappers (x : O) (types wrappers : list C) (strict : bool) : result bool :=
  match wrappers with
  | [] => Ok false
  | w :: ws =>
      if instance x w then
        match members x with
        | None => Raise TypeError
        | Some l => Ok ((if strict then forallb (fun i => isinstance_any i types) l else existsb (fun i => isinstance_any i types) l))
        end
      else try_wrappers x types ws strict
  end.
(** 251-338 [hastype] *)
Definition hastype (x : O) (types wrappers : list C) (strict : bool) : result bool :=
  if isinstance_any x types then Ok true else try_wrappers x types wrappers strict.
(** 341-345 [find_first]; [None]: no argument *)
Fixpoint find_first (type : C) (args : list O) : option O :=
  match args with
  | [] => None
  | x :: args' => if instance x type then Some x else find_first type args'
  end.
End Types.

(** ** 674-697 [distribute], with 233-248 [isseparable]: an argument is a single object
    (a text counts as one) or a collection of members *)
Inductive argument_of (A : Type) := Single (x : A) | Several (l : list A).
Arguments Single {A} x. Arguments Several {A} l.
(** [itertools.product(a, b)] *)
Definition product {A B} (a : list A) (b : list B) : list (A * B) := flat_map (fun x => map (fun y => (x, y)) b) a.
Definition distribute {A B} (a : argument_of A) (b : argument_of B) : result (list (A * B)) :=
  match a, b with
  | Single _, Single _ => Raise TypeError
  | Several l, Several m => Ok (product l m)
  | Single x, Several m => Ok (map (fun i => (x, i)) m)
  | Several l, Single y => Ok (map (fun i => (i, y)) l)
  end.

(** ** 187-230 [Wrapper], of numbers and texts *)
Inductive member := MNumber (q : Qc) | MText (t : str).
Definition member_eqb (a b : member) : bool :=
  match a, b with MNumber x, MNumber y => qc_eqb x y | MText x, MText y => str_eqb x y | _, _ => false end.
(** [a < b]; of a number and a text a TypeError *)
Definition member_lt (a b : member) : result bool :=
  match a, b with
  | MNumber x, MNumber y => Ok (qc_ltb x y)
  | MText x, MText y => Ok (str_ltb x y)
  | _, _ => Raise TypeError
  end.
Definition same_kind (a b : member) : bool := match a, b with MNumber _, MNumber _ | MText _, MText _ => true | _, _ => false end.
Definition lt_of (a b : member) : bool := match member_lt a b with Ok b => b | Raise _ => false end.
(** Python [sorted]: any sorting of two or more members compares members of different
    kinds if there are such *)
Definition sorted (l : list member) : result (list member) :=
  match l with
  | [] => Ok []
  | a :: l' => if forallb (same_kind a) l' then Ok (sort_by lt_of l) else Raise TypeError
  end.
Inductive wrap_arg := WNone | WMember (m : member) | WMany (l : list member).
(** 158-184 [wrap], 206-212 [__init__] *)
Definition wrapped (x : wrap_arg) : list member := match x with WNone => [] | WMember m => [m] | WMany l => l end.
(** 214-224 *)
Definition wrapper_len (x : wrap_arg) : nat := length (wrapped x).
Definition wrapper_contains (x : wrap_arg) (m : member) : bool := existsb (member_eqb m) (wrapped x).
Fixpoint members_eqb (a b : list member) : bool :=
  match a, b with
  | [], [] => true
  | x :: a', y :: b' => member_eqb x y && members_eqb a' b'
  | _, _ => false
  end.
(** 222-226 [__eq__] of two wrappers *)
Definition wrapper_eq (x y : wrap_arg) : result bool :=
  a <- sorted (wrapped x) ;; b <- sorted (wrapped y) ;; Ok (members_eqb a b).
(** 228-230 [__str__]: Python refuses a result that is not a text *)
Definition wrapper_str (x : wrap_arg) : result str := match x with WMember (MText t) => Ok t | _ => Raise TypeError end.

(** ** etc.py 39-84 [doc2help], in the modes 'summary' and 'phrase' *)
(** 68: the text, or the docstring of the object ([str] of None is a text) *)
Inductive documented := DText (t : str) | DObject (doc : option str).
Definition newline : ascii := ascii_of_nat 10.
Definition doc_target (x : documented) : str :=
  match x with DText t => t | DObject (Some t) => t | DObject None => s "None" end.
(** 70-71 *)
Definition replaced (x : str) (replacements : list (str * str)) : str := fold_left (fun t kv => str_replace (fst kv) (snd kv) t) replacements x.
Fixpoint first_line (x : str) : str :=
  match x with [] => [] | c :: x' => if Ascii.eqb c newline then [] else c :: first_line x' end.
(** 72-73 *)
Definition summary_of (x : str) : str := first_line (lstrip_chars (Ascii.eqb newline) x).
(** 80-81; Python [str.rstrip('.')] *)
Definition phrase_of (summary : str) : result str :=
  match summary with
  | [] => Raise IndexError
  | c :: t => Ok (lower_char c :: rev (lstrip_chars (Ascii.eqb ".") (rev t)))
  end.
Definition doc2help (x : documented) (phrase : bool) (replacements : list (str * str)) : result str :=
  let summary := summary_of (replaced (doc_target x) replacements) in
  if phrase then phrase_of summary else Ok summary.
