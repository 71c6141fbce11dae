(** * Vocabulary of the properties of the algebra of units (no eprempy code) *)
From Verif Require Import PyBase SymbolicModel SymbolicSpec MetricModel MetricTables.

(** [e] is a multiple of 1/k *)
Definition parts (k : positive) (e : Qc) : Prop := exists z, (e * zq (Zpos k))%Qc = zq z.
(** not astronomically large *)
Definition small (e : Qc) : Prop := (zq (- 2 ^ 40) <= e)%Qc /\ (e <= zq (2 ^ 40))%Qc.
(** symbols that can be written in an expression *)
Definition writable (b : str) : Prop := b = one_base \/ (is_symbol b = true /\ sqrt_prefix b = false).
(** a term of a unit object: a power of the symbol of a named unit *)
Definition unit_term (named : str -> option nunit) (k : positive) (t : operand) : Prop :=
  isterm t = true /\ coef t = 1%Qc /\ expo t <> 0%Qc /\ parts k (expo t) /\ small (expo t) /\ writable (base t) /\
  exists n, named (base t) = Some n /\ n_symbol n = base t.
(** a unit: the product of terms with exponents that are multiples of 1/k *)
Definition unit_of (named : str -> option nunit) (k : positive) (ts : list operand) : Prop :=
  ts <> [] /\ Forall (unit_term named k) ts.
(** not a unit of one of the given families (a family: a base unit and its
    prefixed forms) *)
Definition outside (families : list str) (u : str) : Prop := forall n, named_unit u = Some n -> ~ In (b_sym n) families.
(** Families whose decomposition into base units changes the size: the Gaussian
    electromagnetic units, the farad, and the lux *)
Definition inconsistent : list str := [s "statC"; s "statA"; s "statV"; s "F"; s "Mx"; s "Oe"; s "G"; s "lx"].
(** a unit of the package's tables, with half-integer exponents, outside the
    given families *)
Definition proper_unit (families : list str) (ts : list operand) : Prop :=
  unit_of named_unit 2 ts /\ Forall (fun t => outside families (base t)) ts.
