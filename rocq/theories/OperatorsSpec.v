(** Specification for C80: what the named numeric operators are. *)
From Verif Require Import PyBase AliasedModel OperatorsModel.

(** [k] is the canonical name or an alias of the operator [op] *)
Definition denotes (op k : str) : Prop := exists als, In (op, als) operation_table /\ (k = op \/ In k als).
(** [g] is the name of a group, of the operators [ns] in this order *)
Definition groups_of (g : str) (ns : list str) : Prop := In (g, ns) operator_groups.

Section Spec.
Context {Arg Res : Type}.
Variable apply : str -> list Arg -> result Res.
(** the results of several operators on the same arguments, in order; the
    first failure is the failure of the whole *)
Definition each (args : list Arg) (ns : list str) : result (list Res) := mapM (fun n => apply n args) ns.
(** the entry of an operator in the result of a group call with several
    arguments: operators of one argument apply to each argument *)
Definition entry (args : list Arg) (n : str) : result (str * outcome Res) :=
  if in_group n [s "abs"; s "pos"; s "neg"]
  then rs <- mapM (fun a => apply n [a]) args ;; Ok (n, Many rs)
  else r <- apply n args ;; Ok (n, One r).
End Spec.

(** ** The groups, in words
    Each operator has one kind; a group is the list of the kinds it covers. *)
Inductive kind := Cast | Sign | Order | Equality | Sum | Product | Power | Rest | Rounding | Digits.
Definition of_kind (k : kind) : list str :=
  match k with
  | Cast => [s "int"; s "float"; s "complex"]
  | Sign => [s "abs"; s "pos"; s "neg"]
  | Order => [s "lt"; s "le"; s "gt"; s "ge"]
  | Equality => [s "eq"; s "ne"]
  | Sum => [s "add"; s "sub"]
  | Product => [s "mul"; s "truediv"]
  | Power => [s "pow"]
  | Rest => [s "floordiv"; s "mod"]
  | Rounding => [s "floor"; s "ceil"; s "trunc"]
  | Digits => [s "round"]
  end.
Definition kinds_of_group : list (str * list kind) := [
  (s "cast", [Cast]); (s "unary", [Sign]); (s "ordering", [Order]); (s "additive", [Sum]); (s "multiplicative", [Product]);
  (s "math", [Rounding]); (s "comparative", [Order; Equality]); (s "algebraic", [Sum; Product; Power]);
  (s "binary", [Order; Equality; Sum; Product]); (s "real", [Order; Equality; Sum; Product; Power; Sign; Rest]);
  (s "scalar", [Order; Equality; Sum; Product; Power; Sign; Rest; Digits]) ].
(** the operators of two operands, and those with a reflected and an in-place form *)
Definition two_operands : list str := concat (map of_kind [Order; Equality; Sum; Product; Power; Rest]).
Definition arithmetic : list str := concat (map of_kind [Sum; Product; Power; Rest]).
(** the operators with an optional further argument: the modulus of a power, the digits of a rounding *)
Definition optional_argument : list str := [s "pow"; s "round"].
(** special methods *)
Definition reflected (op : str) : str := s "__r" ++ op ++ s "__".
Definition inplace (op : str) : str := s "__i" ++ op ++ s "__".
Definition forward (op : str) : str := s "__" ++ op ++ s "__".
