(** * Model of the equivalence ([&]) and the consistency ([|]) of units
    (metric/_units.py 169-334, 487-497).

    Paths are relative to /repo/src/eprempy.  A [Unit] is the list of its terms.
    Both operands are units; a string operand is turned into a unit first, and
    compared as a plain expression before (the two agree on every string that
    makes a unit). *)
From Verif Require Import PyBase SymbolicModel MetricModel UnitModel UnitOpsModel NormalizeModel MetricTables.

(** Terms are members of sets by the hash of their exact attributes
    (symbolic/_operand.py 777-782). *)
Definition same_term (t u : operand) : bool := str_eqb (base t) (base u) && qc_eqb (coef t) (coef u) && qc_eqb (expo t) (expo u).
Definition term_in (t : operand) (l : list operand) : bool := existsb (same_term t) l.
(** symbolic/_expression.py 140-147 [difference(symmetric=True)] *)
Definition sym_diff (a b : list operand) : list operand :=
  filter (fun t => negb (term_in t b)) a ++ filter (fun t => negb (term_in t a)) b.
Definition set_eq (a b : list operand) : bool := forallb (fun t => term_in t b) a && forallb (fun t => term_in t a) b.
(** _reference.py 42 [UNITY] *)
Definition unity_text (t : operand) : bool := str_eqb (format_term t) (s "#") || str_eqb (format_term t) (s "1").

Section UnitEq.
Variable libm : Qc -> Qc -> option Qc.
(** the iteration order of the set [SYSTEMS] *)
Variable sys_order : list system.
(** the answer of [conversion_factory(u0, u1)], whatever is in its cache, and
    the test [== 1.0] *)
Context {F : Type}.
Variable factor : str -> str -> result F.
Variable is_one : F -> bool.
Notation dim := (unit_dimension libm named_unit quantity_unit quantity_dim).

(** _units.py 306-313 [dimensions], with _dimensions.py 62-80: an error if no
    system has a dimension.  An empty dimension counts as none. *)
Definition some_dim (d : option (list operand)) : option (list operand) := match d with Some [] => None | d => d end.
Definition unit_dimensions (ts : list operand) : result (system -> option (list operand)) :=
  m <- dim Mks ts ;; c <- dim Cgs ts ;;
  match some_dim m, some_dim c with
  | None, None => Raise TypeError
  | m, c => Ok (fun y => match y with Mks => m | Cgs => c end)
  end.
(** _units.py 288-304 [dimensionless] *)
Definition is_one_dim (d : option (list operand)) : result bool :=
  match d with
  | None => Ok false
  | Some d => e <- expression_of_str libm (s "1") ;; Ok (eeq d e)
  end.
Definition dimensionless (ts : list operand) : result bool :=
  d <- unit_dimensions ts ;; m <- is_one_dim (d Mks) ;; c <- is_one_dim (d Cgs) ;; Ok (m && c).
(** _units.py 335-340 [decomposed] *)
Notation decomposed := (decompose_unit_terms libm named_unit sys_order quantity_unit quantity_dim).
(** [self << that == 1.0], with [UnitConversionError] suppressed *)
Definition factor_is_one (a b : list operand) : result bool :=
  match factor (format_expression b) (format_expression a) with
  | Ok f => Ok (is_one f)
  | Raise e => if is_exn e "UnitConversionError" then Ok false else Raise e
  end.
(** _units.py 169-220 [__and__] *)
Definition unit_and (a b : list operand) : result bool :=
  if eeq a b then Ok true
  else if forallb unity_text (sym_diff a b) then Ok true
  else da <- dimensionless a ;; db <- dimensionless b ;;
       if negb (Bool.eqb da db) then Ok false
       else ca <- decomposed a ;; cb <- decomposed b ;;
            if set_eq ca cb then Ok true
            else x <- expression_of_terms libm ca ;; y <- expression_of_terms libm cb ;;
                 if eeq x y then Ok true else factor_is_one a b.

(** _units.py 487-497 [_equivalent_quantities] *)
Definition equivalent_quantities (a b : list operand) : bool :=
  match get_quantity libm a, get_quantity libm b with
  | Ok q0, Ok q1 => eeq q0 q1
  | _, _ => false
  end.
Definition opt_dim_eq (x y : option (list operand)) : bool :=
  match x, y with Some x, Some y => eeq x y | _, _ => false end.
(** 257-261: a dimension of [a], in either system, is one of [b] *)
Definition shares_dimension (da db : system -> option (list operand)) : bool :=
  existsb (fun y => opt_dim_eq (db Mks) (da y) || opt_dim_eq (db Cgs) (da y)) sys_order.
(** _units.py 234-271 [__or__] *)
Definition unit_or (a b : list operand) : result bool :=
  if eeq a b then Ok true
  else e <- unit_and a b ;;
       if e then Ok true
       else da <- unit_dimensions a ;; db <- unit_dimensions b ;;
            if shares_dimension da db then Ok true
            else if equivalent_quantities a b then Ok true
            else match factor (format_expression b) (format_expression a) with
                 | Ok _ => Ok true
                 | Raise e => if is_exn e "UnitConversionError" then Ok false else Raise e
                 end.
End UnitEq.
