(** Model of the library's objects as members of sets and keys of mappings: [__hash__] and [==].
    Source: /repo/src/eprempy/symbolic/_operator.py (16-26), symbolic/_operand.py (65-82, 96-105,
    769-782), symbolic/_expression.py (149-177), metric/_units.py (138-167), metric/_defined.py
    (183-199, 649-658), aliased.py (30-53, 62-72), numeric/_array.py (41-51, 253-255), etc.py (421-435). *)
From Verif Require Import PyBase ContainerModel SymbolicModel AliasedModel MetricModel EtcModel.

(** Values of Python's own immutable types: None, texts, numbers, tuples. *)
Inductive builtin := BNone | BText (t : str) | BNumber (q : Qc) | BTuple (l : list builtin).

(** What is compared.  A set of aliases is given in the order of its iteration, which
    Python does not fix (it depends on the history of the set). *)
Inductive hobj :=
  | OText (t : str) | ONumber (q : Qc) | OTuple (l : list str)
  | OOperator (operation : str)
  | OTerm (t : operand)
  | OExpression (terms : list operand)
  | OUnit (terms : list operand)
  | OGroup (aliases : list str)
  | ODimensions (names : list str)
  | ONamedUnit (n : nunit)
  | OSentinel (x : sentinel_object)
  | OValue (v : svalue).

Section Hash.
(** Python's [hash] of its own types *)
Variable h : builtin -> Z.
(** _operand.py 78-81 [attrs] *)
Definition attrs (t : operand) : builtin := BTuple [BNumber (coef t); BText (base t); BNumber (expo t)].
Definition value_of (v : svalue) : option builtin :=
  match v with
  | SNone => Some BNone
  | SBool b => Some (BNumber (if b then 1 else 0))
  | SNum q => Some (BNumber q)
  | SStr t => Some (BText t)
  | SUnhashable _ | SSentinel _ => None
  end.
(** the built-in value whose hash is taken (the factor of a prefix is a power of ten).  The hash of a tuple is made from the hashes
    of its members, so a term counts as its [attrs].  A class that defines [__eq__]
    without [__hash__] has no hash: [Unit] (_units.py 138). *)
Definition hashed (x : hobj) : result builtin :=
  match x with
  | OText t => Ok (BText t)
  | ONumber q => Ok (BNumber q)
  | OTuple l => Ok (BTuple (map BText l))
  | OOperator t => Ok (BText t)                                        (* _operator.py 16-18 *)
  | OTerm t => Ok (attrs t)                                            (* _operand.py 777-782 *)
  | OExpression l => Ok (BTuple (map attrs l))                         (* _expression.py 149-151 *)
  | OUnit l => Raise TypeError
  | OGroup l => Ok (BTuple (map BText l))                              (* aliased.py 51-53 *)
  | ODimensions l => Ok (BTuple (map BText l))                         (* _array.py 253-255 *)
  | ONamedUnit n =>                                                    (* _defined.py 183-199, 656-658 *)
      Ok (BTuple [BTuple [BText (b_sym n); BText (b_name n); BText (b_quantity n)];
                  BTuple [BText (p_sym n); BText (p_name n); BNumber (qpowz (zq 10) (p_exp n))]])
  | OSentinel x => match value_of (n_value x) with Some b => Ok b | None => Raise TypeError end    (* etc.py 433-435 *)
  | OValue v => match value_of v with Some b => Ok b | None => Raise TypeError end
  end.
Definition hash (x : hobj) : result Z := b <- hashed x ;; Ok (h b).

(** [OperandFactory().create], [expression_factory] and [NamedUnit] of a text *)
Variable term_of : str -> result operand.
Variable expression_of : str -> result (list operand).
Variable named_of : str -> option nunit.

(** [a == b]; [None]: not modelled *)
Definition obj_eq (a b : hobj) : option (result bool) :=
  match a, b with
  | OOperator x, OOperator y | OOperator x, OText y => Some (Ok (str_eqb y x))          (* _operator.py 20-26 *)
  | OTerm x, OTerm y => Some (Ok (operand_eqb x y))                                     (* _operand.py 96-105, 775 *)
  | OTerm x, ONumber q =>                                                               (* 770-771, 762-767 *)
      Some (if str_eqb (base x) (s "1") then Ok (qc_eqb (fl (coef x)) (fl q)) else Raise TypeError)
  | OTerm x, OText t => Some (y <- term_of t ;; Ok (operand_eqb y x))                   (* 772-774 *)
  | OExpression x, OExpression y | OUnit x, OUnit y | OExpression x, OUnit y | OUnit x, OExpression y => Some (Ok (eeq x y))
  | OExpression x, OText t | OUnit x, OText t => Some (y <- expression_of t ;; Ok (eeq x y))   (* _expression.py 171-177 *)
  | OGroup x, OGroup y => Some (Ok (group_eqb x y))                                     (* aliased.py 62-72 *)
  | OGroup x, OText t => Some (Ok (group_eqb x [t]))
  | OGroup x, OTuple (y :: l) => Some (Ok (group_eqb x (y :: l)))
  | ODimensions x, ODimensions y | ODimensions x, OTuple y => Some (Ok (list_eqb str_eqb x y))    (* _array.py 41-51 *)
  | ODimensions [x], OText t => Some (Ok (str_eqb x t))
  | ODimensions x, OText t => Some (Ok (list_eqb str_eqb x (map (fun c => [c]) t)))
  | ONamedUnit x, ONamedUnit y => Some (Ok (nunit_eq x y))                              (* _defined.py 649-654 *)
  | ONamedUnit x, OText t => Some (match named_of t with Some y => Ok (nunit_eq x y) | None => Raise UnitParsingError end)
  | OSentinel x, OSentinel y => Some (Ok (sentinel_eq x y))                             (* etc.py 421-425 *)
  | OSentinel x, OValue v => Some (Ok (sentinel_eq_value x v))
  | _, _ => None
  end.
(** [x in {key}]: a set looks at equality only where the hashes agree *)
Definition in_set_of (key x : hobj) : option (result bool) :=
  match hash key, hash x with
  | Raise e, _ | _, Raise e => Some (Raise e)
  | Ok i, Ok j => if Z.eqb i j then obj_eq key x else Some (Ok false)
  end.
(** [x in members] and [set(xs)]: the members are kept in the order of their arrival *)
Fixpoint set_mem (members : list hobj) (x : hobj) : result bool :=
  match members with
  | [] => _ <- hash x ;; Ok false
  | k :: r => match in_set_of k x with
              | Some (Ok true) => Ok true
              | Some (Ok false) => set_mem r x
              | Some (Raise e) => Raise e
              | None => Raise (OtherError "not modelled")
              end
  end.
Fixpoint set_from (members xs : list hobj) : result (list hobj) :=
  match xs with
  | [] => Ok members
  | x :: r => m <- set_mem members x ;; set_from (if (m : bool) then members else members ++ [x]) r
  end.
Definition set_of (xs : list hobj) : result (list hobj) := set_from [] xs.
End Hash.
