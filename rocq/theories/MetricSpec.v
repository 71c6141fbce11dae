(** * Vocabulary of the properties of unit conversion (no eprempy code) *)
From Verif Require Import PyBase SymbolicModel MetricModel.

(** ** Multiplication and rational powers, as for positive real numbers *)
Record scale_laws (S : scales) : Prop := {
  mul_assoc : forall a b c : num S, mul a (mul b c) = mul (mul a b) c;
  mul_comm : forall a b : num S, mul a b = mul b a;
  mul_one : forall a : num S, mul one a = a;
  mul_inv : forall a : num S, mul a (inv a) = one;
  pw_one : forall a : num S, pw a 1%Qc = a;
  pw_add : forall (a : num S) p q, pw a (p + q)%Qc = mul (pw a p) (pw a q);
  pw_mul : forall (a : num S) p q, pw (pw a p) q = pw a (p * q)%Qc;
  pw_dist : forall (a b : num S) p, pw (mul a b) p = mul (pw a p) (pw b p) }.

(** a quotient of sizes *)
Definition over {S : scales} (a b : num S) : num S := mul a (inv b).

(** ** A size for every unit string *)

(** [size] fits the tables: every tabulated conversion factor is the quotient
    of the sizes; a unit has the size of its symbol and of its full name; units
    of one base unit differ by their prefixes. *)
Record fits (S : scales) (named : str -> option nunit) (conv : list ((str * str) * num S)) (size : str -> num S) : Prop := {
  fits_conv : forall u v w, In ((u, v), w) conv -> w = over (size u) (size v);
  fits_symbol : forall u n, named u = Some n -> size (n_symbol n) = size u;
  fits_name : forall u n, named u = Some n -> size (n_name n) = size u;
  fits_prefix : forall u v n m, named u = Some n -> named v = Some m -> same_base n m = true ->
    over (size u) (size v) = over (pw ten (zq (p_exp n))) (pw ten (zq (p_exp m))) }.

(** [v] can be reached from [u] through tabulated conversions *)
Inductive reach {S : scales} (conv : list ((str * str) * num S)) : str -> str -> Prop :=
| reach_here u : reach conv u u
| reach_step u x v w : In ((u, x), w) conv -> reach conv x v -> reach conv u v.

(** ** The size of a compound unit: the product of powers of sizes *)
Fixpoint compound {S : scales} (size : str -> num S) (ts : list operand) : num S :=
  match ts with
  | [] => one
  | t :: ts' => mul (pw (size (base t)) (expo t)) (compound size ts')
  end.
