(** * Model of the quantity of a unit and of its normal form in a metric system
    (metric/_defined.py 773-781, metric/_units.py 443-486).

    Paths are relative to /repo/src/eprempy.  A [Unit] is the list of its terms;
    the cache of [unit_factory] is left out (see UnitModel.v and C24): a unit is
    always made afresh. *)
From Verif Require Import PyBase SymbolicModel MetricModel MetricTables UnitModel.

Section Normalize.
Variable libm : Qc -> Qc -> option Qc.
(** the recursion limit of the interpreter *)
Variable limit : nat.

(** _defined.py 773-781 [get_quantity]: 'mass number' is written 'mass_number' *)
Definition quantity_term (t : operand) : result operand :=
  n <- identify named_unit (base t) ;;
  q <- term_factory 1%Qc (Some (blanks_to_underscores (b_quantity n))) 1%Qc ;;
  op_pow libm q (expo t).
Definition get_quantity (ts : list operand) : result (list operand) :=
  qs <- mapM quantity_term ts ;; expression_of_terms libm qs.

(** symbolic/_expression.py 336-383 [expression_factory] on a list of
    expressions: each is printed in parentheses *)
Definition standard_expressions (es : list (list operand)) : str :=
  join (s "*") (map (fun e => "("%char :: format_expression e ++ [")"%char]) es).

(** _units.py 480-483: the canonical unit of a quantity, raised to a power;
    symbolic/__init__.py 87-89 [power] *)
Definition canonical_power (y : system) (t : operand) : result (list operand) :=
  v <- property libm limit true y (base t) ;;
  e <- expression_of_str libm v ;;
  epow libm e (expo t).
(** _units.py 480-484: from the terms of a quantity *)
Definition quantity_in (y : system) (qs : list operand) : result (list operand) :=
  es <- mapM (canonical_power y) qs ;;
  e <- expression_of_str libm (standard_expressions es) ;;
  mapM (as_symbol libm named_unit) e.
(** _units.py 443-484 [normalize] with no explicit quantity *)
Definition normalize (y : system) (ts : list operand) : result (list operand) :=
  qs <- get_quantity ts ;; quantity_in y qs.
(** _units.py 443-484 [normalize] with an explicit quantity *)
Definition normalize_as (y : system) (quantity : str) : result (list operand) :=
  qs <- expression_of_str libm quantity ;; quantity_in y qs.
End Normalize.
