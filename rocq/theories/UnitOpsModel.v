(** * Model of the algebra of units (metric/_units.py 41-86, 343-392) and of their
    dimensions (metric/_units.py 306-333).

    Paths are relative to /repo/src/eprempy.  A [Unit] is the list of its terms.
    The cache of [unit_factory] is left out here (see UnitModel.v and C24): a
    unit is always made afresh. *)
From Verif Require Import PyBase SymbolicModel MetricModel UnitModel.

Section UnitOps.
Variable libm : Qc -> Qc -> option Qc.
Variable named : str -> option nunit.
(** the iteration order of the set [SYSTEMS] *)
Variable sys_order : list system.
Variable qunit : str -> system -> option str.
Variable qdim : str -> system -> option str.

(** _units.py 395-440 [unit_factory] on an [Expression], which is used as it is
    (_expression.py 337-339); UnitModel.arg_terms is the case of a string or of
    a list *)
Definition expression_unit (e : list operand) : result (list operand) := mapM (as_symbol libm named) e.

(** ** Decomposition into base units *)

Fixpoint first_system (f : system -> result bool) (l : list system) : result (option system) :=
  match l with
  | [] => Ok None
  | y :: l' => b <- f y ;; if b then Ok (Some y) else first_system f l'
  end.
(** _defined.py 469-498 [NamedUnit.decomposed], [_decompose] *)
Definition nu_decomposed (n : nunit) : result (option (list operand)) :=
  y <- first_system (is_fundamental_in qunit n) sys_order ;;
  match y with
  | None => Ok None
  | Some y =>
      def <- is_defined_in named qunit n y ;;
      if negb def then Ok None
      else d <- nu_dimensions libm named qunit qdim n ;;
           match d y with
           | None => Raise TypeError
           | Some e =>
               if Nat.eqb (length e) 1 then t <- term_factory 1%Qc (Some (n_symbol n)) 1%Qc ;; Ok (Some [t])
               else ts <- base_terms qunit y e ;; Ok (Some ts)
           end
  end.
(** _units.py 368-390 [_decompose_term] *)
Definition is_exn (e : exn) (x : string) : bool :=
  match e with OtherError y => String.eqb x y | _ => false end.
Definition decompose_term (t : operand) : result (list operand) :=
  match (n <- identify named (base t) ;; nu_decomposed n) with
  | Ok None => Ok [t]
  | Raise e => if is_exn e "UnitParsingError" || is_exn e "SystemAmbiguityError" then Ok [t] else Raise e
  | Ok (Some ts) => mapM (fun b => op_pow libm b (expo t)) ts
  end.
(** _units.py 358-365 [_decompose_unit] on the terms of an expression *)
Definition decompose_unit_terms (e : list operand) : result (list operand) :=
  parts <- mapM decompose_term e ;; reduce (concat parts).
(** _units.py 343-355 [_apply_operator] on two units; symbolic/__init__.py
    75-84 [product], [ratio] *)
Definition apply_operator (f : list operand -> list operand -> result (list operand)) (a b : list operand) : result (list operand) :=
  da <- decompose_unit_terms a ;; db <- decompose_unit_terms b ;;
  x <- expression_of_terms libm da ;; y <- expression_of_terms libm db ;;
  e <- f x y ;; expression_unit e.

(** ** Operators *)

(** _units.py 41-49 [__mul__] with a unit *)
Definition unit_mul (a b : list operand) : result (list operand) :=
  if eeq a b then e <- epow libm a (zq 2) ;; expression_unit e
  else apply_operator (emul libm) a b.
(** _units.py 59-67 [__truediv__] with a unit; [unit_factory(1)] *)
Definition unit_div (a b : list operand) : result (list operand) :=
  if eeq a b then arg_terms libm named (UStr (s "1"))
  else apply_operator (ediv libm) a b.
(** _units.py 69-75 [__rtruediv__]: [1 / unit] *)
Definition unit_inv (a : list operand) : result (list operand) :=
  e <- expression_of_str libm (s "1") ;; apply_operator (ediv libm) e a.
(** _units.py 77-81 [__pow__]: a list of terms raised to an exact power (an
    [int] or a [Fraction]) or to a [float] *)
Inductive power := Exact (p : Qc) | Float (p : Qc).
Definition term_pow (p : power) (t : operand) : result operand :=
  match p with Exact p => op_pow libm t p | Float p => op_powf libm t p end.
Definition unit_pow (a : list operand) (p : power) : result (list operand) :=
  ts <- mapM (term_pow p) a ;; arg_terms libm named (UTerms ts).

(** ** Dimensions *)

(** _units.py 315-333 [_dimensions_in]; [None] stands for the [ValueError] that
    [dimensions] turns into None (306-313).  A single term. *)
Definition term_dimension (y : system) (t : operand) : result (list operand * (bool * bool)) :=
  n <- identify named (base t) ;;
  am <- is_allowed_in named qunit n Mks ;; ac <- is_allowed_in named qunit n Cgs ;;
  d <- nu_dimensions libm named qunit qdim n ;;
  let dim := if am && ac then d y else if am then d Mks else d Cgs in
  match dim with
  | None => Raise TypeError
  | Some e => p <- epow libm e (expo t) ;; Ok (p, (am, ac))
  end.
Fixpoint dimension_loop (y : system) (ts : list operand) (e : list operand) (seen : bool) : result (list operand * bool) :=
  match ts with
  | [] => Ok (e, seen)
  | t :: ts' =>
      dt <- term_dimension y t ;;
      let '(d, (am, ac)) := (dt : list operand * (bool * bool)) in
      e' <- emul libm e d ;;
      dimension_loop y ts' e' (seen || (match y with Mks => am | Cgs => ac end))
  end.
Definition unit_dimension (y : system) (ts : list operand) : result (option (list operand)) :=
  one <- expression_of_str libm (s "1") ;;
  r <- dimension_loop y ts one false ;;
  Ok (if snd r then Some (fst r) else None).
End UnitOps.
