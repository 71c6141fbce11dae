(** * The canonical units of the metric systems (no eprempy code)

    A reference table, written from the definitions of the MKS (SI) and CGS
    (Gaussian) systems: for each physical quantity that has a named unit, its
    unit in each system as a product of powers of unit symbols.  The quantities
    "mass number" and "number" are pure numbers in both systems. *)
From Verif Require Import PyBase SymbolicModel MetricModel MetricTables.

Definition powers := list (str * Z).
Definition COHERENT : list (str * (powers * powers)) := [
  (s "length", ([(s "m", 1)], [(s "cm", 1)]));
  (s "mass", ([(s "kg", 1)], [(s "g", 1)]));
  (s "time", ([(s "s", 1)], [(s "s", 1)]));
  (s "temperature", ([(s "K", 1)], [(s "K", 1)]));
  (s "amount", ([(s "mol", 1)], [(s "mol", 1)]));
  (s "luminous intensity", ([(s "cd", 1)], [(s "cd", 1)]));
  (s "luminous flux", ([(s "cd", 1); (s "sr", 1)], [(s "cd", 1); (s "sr", 1)]));
  (s "plane angle", ([(s "rad", 1)], [(s "rad", 1)]));
  (s "solid angle", ([(s "sr", 1)], [(s "sr", 1)]));
  (s "frequency", ([(s "Hz", 1)], [(s "Hz", 1)]));
  (s "energy", ([(s "J", 1)], [(s "erg", 1)]));
  (s "force", ([(s "N", 1)], [(s "dyn", 1)]));
  (s "pressure", ([(s "Pa", 1)], [(s "dyn", 1); (s "cm", -2)]));
  (s "power", ([(s "W", 1)], [(s "erg", 1); (s "s", -1)]));
  (s "current", ([(s "A", 1)], [(s "statA", 1)]));
  (s "charge", ([(s "C", 1)], [(s "statC", 1)]));
  (s "potential", ([(s "V", 1)], [(s "statV", 1)]));
  (s "conductance", ([(s "S", 1)], [(s "cm", 1); (s "s", -1)]));
  (s "capacitance", ([(s "F", 1)], [(s "cm", 1)]));
  (s "inductance", ([(s "H", 1)], [(s "s", 2); (s "cm", -1)]));
  (s "magnetic flux", ([(s "Wb", 1)], [(s "Mx", 1)]));
  (s "magnetic induction", ([(s "T", 1)], [(s "G", 1)]));
  (s "magnetic intensity", ([(s "A", 1); (s "m", -1)], [(s "Oe", 1)]));
  (s "radioactivity", ([(s "Bq", 1)], [(s "Ci", 1)]));
  (s "dosage", ([(s "Gy", 1)], [(s "erg", 1); (s "g", -1)]));
  (s "viscosity", ([(s "kg", 1); (s "m", -1); (s "s", -1)], [(s "P", 1)]));
  (s "identity", ([], [])); (s "number", ([], [])); (s "mass number", ([], []))]%Z.

Fixpoint power_of (l : powers) (x : str) : Z :=
  match l with [] => 0 | (b, e) :: l' => ((if str_eqb b x then e else 0) + power_of l' x)%Z end.
Fixpoint entry (l : list (str * (powers * powers))) (q : str) (y : system) : powers :=
  match l with
  | [] => []
  | (k, (m, c)) :: l' => if str_eqb k q then match y with Mks => m | Cgs => c end else entry l' q y
  end.
(** the power of the symbol [x] in the canonical unit of the quantity [q] in the system [y] *)
Definition coherent (y : system) (q x : str) : Qc := zq (power_of (entry COHERENT q y) x).
(** the quantity that a named unit measures *)
Definition measured (u : str) : str := match named_unit u with Some n => b_quantity n | None => [] end.
(** the total power of the quantity [q] in a unit *)
Definition total_power (q : str) (ts : list operand) : Qc :=
  fold_right (fun t e => if str_eqb (measured (base t)) q then expo t + e else e)%Qc 0%Qc ts.
(** the power of the symbol [x] in the unit that replaces each unit by the
    canonical unit of its quantity *)
Definition replaced (y : system) (x : str) (ts : list operand) : Qc :=
  fold_right (fun t e => expo t * coherent y (measured (base t)) x + e)%Qc 0%Qc ts.
