(** * Names up to case (no eprempy code) *)
From Verif Require Import PyBase MetricModel.

(** two ASCII characters are the same letter, or the same character *)
Definition capital_of (a b : ascii) : Prop := 65 <= nat_of_ascii a <= 90 /\ nat_of_ascii b = nat_of_ascii a + 32.
Definition same_char (a b : ascii) : Prop := a = b \/ capital_of a b \/ capital_of b a.
Definition same_name (x y : str) : Prop := Forall2 same_char x y.

(** ** Faulty entries of the tables

    In the MKS system, the unit of impedance, resistance and resistivity is
    written with 'ohm', whose symbol cannot be written in a unit, and the
    dimension of permittivity is written with I instead of I^2. *)
Definition faulty (y : system) (q : str) : Prop := y = Mks /\ In q [s "impedance"; s "permittivity"; s "resistance"; s "resistivity"].
