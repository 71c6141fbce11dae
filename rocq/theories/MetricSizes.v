(** * The sizes of the units of the tables, in SI units (no eprempy code)

    A reference table, written from the definitions of the units: the size of a
    unit is its value in SI units.  The physical constants are those of
    metric/_reference.py, kept as formal generators.  A prefixed unit is the
    power of ten of its prefix times its base unit.  The luminous units, whose
    sizes never meet those of other units in a conversion, are the exception:
    the symbol "cd" stands for both the candela and the centiday, so the
    candela is given the size of the centiday. *)
From Verif Require Import PyBase SymbolicModel ContainerModel MetricModel MetricSpec MetricTables.

Definition gRS : mono := mkmono 0 0 0 0 0 0 1 0 0 0.
Definition gQE : mono := mkmono 0 0 0 0 0 0 0 1 0 0.
Definition gAU : mono := mkmono 0 0 0 0 0 0 0 0 1 0.
Definition gMN : mono := mkmono 0 0 0 0 0 0 0 0 0 1.

(** base units: those not listed have size 1 *)
Definition base_sizes : list (str * mono) := [
  (s "au", gAU); (s "Rs", gRS);
  (s "g", tenpow (-3)); (s "nuc", gMN); (s "amu", gMN);
  (s "min", m6 2 1 1 0 0 0); (s "h", m6 4 2 2 0 0 0); (s "d", m6 7 3 2 0 0 0);
  (s "cd", m6 5 3 0 0 0 0);
  (s "deg", m6 (-2) (-2) (-1) 0 1 0);
  (s "erg", tenpow (-7)); (s "eV", gQE); (s "dyn", tenpow (-5));
  (s "statC", m6 (-1) 0 (-1) 0 0 (-1)); (s "statA", m6 (-1) 0 (-1) 0 0 (-1)); (s "e", gQE);
  (s "statV", m6 (-6) 0 (-6) 0 0 1);
  (s "F", m6 (-11) 0 (-11) 0 0 2);       (* the table converts farads to centimetres *)
  (s "Mx", tenpow (-8)); (s "G", tenpow (-4)); (s "Oe", m6 1 0 3 0 (-1) 0);
  (s "Ci", m6 9 0 9 1 0 0); (s "P", tenpow (-1))].
(** compound unit strings among the nodes of the conversion graph *)
Definition compound_sizes : list (str * mono) := [
  (s "cm / s", m6 5 0 5 0 0 (-2)); (s "s / cm", m6 (-5) 0 (-5) 0 0 2); (s "s^2 / cm", m6 (-5) 0 (-5) 0 0 2);
  (s "erg / g", tenpow (-4)); (s "A / m", mono_one);
  (s "H / m", m6 5 0 7 0 1 0); (s "F / m", m6 11 2 9 0 1 0);
  (s "erg / s", tenpow (-7)); (s "dyn / cm^2", tenpow (-1));
  (s "A / Wb", mono_one); (s "1 / cm", m6 7 0 9 0 (-1) 0);
  (s "Wb / m", mono_one); (s "G * cm", tenpow (-6));
  (s "kg / (m * s)", mono_one)].
Fixpoint tabulated (t : list (str * mono)) (x : str) : mono :=
  match t with [] => mono_one | (k, v) :: t' => if str_eqb k x then v else tabulated t' x end.
Definition named_size (n : nunit) : mono := mono_mul (tenpow (p_exp n)) (tabulated base_sizes (b_sym n)).
Definition si_size (x : str) : mono :=
  match named_unit x with Some n => named_size n | None => tabulated compound_sizes x end.
