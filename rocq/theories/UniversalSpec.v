(** * What is known about physical constants (no eprempy code) *)
From Verif Require Import PyBase.

(** powers of mass, length, time and temperature *)
Record powers := mkpowers { p_mass : Z; p_length : Z; p_time : Z; p_temperature : Z }.
(** Constants of mechanics and heat: what each of them is made of. *)
Definition physics : list (string * powers) := [
  ("pi", mkpowers 0 0 0 0);            (* a number *)
  ("k", mkpowers 1 2 (-2) (-1));       (* energy per temperature *)
  ("me", mkpowers 1 0 0 0);            (* mass *)
  ("mp", mkpowers 1 0 0 0);
  ("G", mkpowers (-1) 3 (-2) 0);       (* force times area per squared mass *)
  ("g", mkpowers 0 1 (-2) 0);          (* acceleration *)
  ("h", mkpowers 1 2 (-1) 0);          (* energy times time *)
  ("c", mkpowers 0 1 (-1) 0);          (* speed *)
  ("Rinfinity", mkpowers 0 (-1) 0 0);  (* inverse length *)
  ("a0", mkpowers 0 1 0 0);            (* length *)
  ("re", mkpowers 0 1 0 0);
  ("alpha", mkpowers 0 0 0 0);
  ("c1", mkpowers 1 4 (-3) 0);         (* power times area *)
  ("c2", mkpowers 0 1 0 1);            (* length times temperature *)
  ("sigma", mkpowers 1 0 (-3) (-4));   (* power per area and fourth power of temperature *)
  ("eV", mkpowers 1 2 (-2) 0);         (* energy *)
  ("amu", mkpowers 1 0 0 0);
  ("au", mkpowers 0 1 0 0);
  ("H+", mkpowers 1 2 (-2) 0);
  ("MeV", mkpowers 1 2 (-2) 0)]%string.
(** a kilogram is 10^3 grams and a meter is 10^2 centimeters, so a number in
    kilograms, meters, seconds and kelvins is this many times larger in grams,
    centimeters, seconds and kelvins *)
Definition cgs_per_mks (p : powers) : Z := 3 * p_mass p + 2 * p_length p.
Definition ten_to (k : Z) : Qc := if (0 <=? k)%Z then zq (10 ^ k) else (/ zq (10 ^ (- k)))%Qc.
