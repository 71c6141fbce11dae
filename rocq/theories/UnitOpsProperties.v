(** * C23: the algebra of units *)
From Verif Require Import PyBase PyLemmas SymbolicModel SymbolicSpec ContainerModel ContainerSpec ContainerProofs ContainerProofs2 AliasedModel MetricModel MetricSpec MetricTables MetricSizes MetricProofs MetricProofs2 UnitModel UnitOpsModel UnitOpsSpec UnitOpsProofs UnitOpsProofs2 UnitOpsTables UnitOpsProofs3.

Section C23.
Variable libm : Qc -> Qc -> option Qc.
Variable order : list system.
Hypothesis both : order = [Mks; Cgs] \/ order = [Cgs; Mks].
Notation mulu := (unit_mul libm named_unit order quantity_unit quantity_dim).
Notation divu := (unit_div libm named_unit order quantity_unit quantity_dim).
Notation powu := (unit_pow libm named_unit).
Notation dimension_in y u := (unit_dimension libm named_unit quantity_unit quantity_dim y u).
Notation size := (compound (S := monos) si_size).
Notation moderate r := (Forall (fun t => small (expo t)) r).

(** The dimension of every unit is computed without an error, in either system. *)
Theorem C23_dimension_total y a : proper_unit [s "lx"] a -> exists od, dimension_in y a = Ok od /\ forall d, od = Some d -> canonical d.
Proof. intros A. exact (dim_total libm y a (proper_lit a A)). Qed.
(** The product of two units exists, and its dimension, where it has one, is the
    product of their dimensions. *)
Theorem C23_product y a b da db : proper_unit [s "lx"] a -> proper_unit [s "lx"] b ->
  dimension_in y a = Ok (Some da) -> dimension_in y b = Ok (Some db) ->
  exists r, mulu a b = Ok r /\ canonical r /\
    (moderate r -> exists od, dimension_in y r = Ok od /\ forall dr, od = Some dr -> is_product dr da db).
Proof. intros A B. exact (product_dim libm order both y a b da db (proper_lit a A) (proper_lit b B)). Qed.
Theorem C23_quotient y a b da db : proper_unit [s "lx"] a -> proper_unit [s "lx"] b ->
  dimension_in y a = Ok (Some da) -> dimension_in y b = Ok (Some db) ->
  exists r, divu a b = Ok r /\ canonical r /\
    (moderate r -> exists od, dimension_in y r = Ok od /\ forall dr, od = Some dr -> is_quotient dr da db).
Proof. intros A B. exact (quotient_dim libm order both y a b da db (proper_lit a A) (proper_lit b B)). Qed.
(** Powers, with an exact or a floating-point half-integer exponent other than 0 *)
Theorem C23_power y a da p q : proper_unit [s "lx"] a -> dimension_in y a = Ok (Some da) ->
  p = Exact q \/ p = Float q -> q <> 0%Qc -> parts 2 q -> (zq (-100) <= q)%Qc -> (q <= zq 100)%Qc ->
  exists r, powu a p = Ok r /\ canonical r /\
    (moderate r -> exists od, dimension_in y r = Ok od /\ forall dr, od = Some dr -> is_power dr da q).
Proof using both. intros A. exact (power_dim libm order both y a da p q (proper_lit a A)). Qed.
(** Equal units have equal dimensions. *)
Theorem C23_equal_units y a b da db : proper_unit [s "lx"] a -> proper_unit [s "lx"] b -> eeq a b = true ->
  dimension_in y a = Ok (Some da) -> dimension_in y b = Ok (Some db) ->
  mono_coef da = mono_coef db /\ forall x, x <> one_base -> mono_expo x da = mono_expo x db.
Proof. intros A B. exact (equal_dim libm y a b da db (proper_lit a A) (proper_lit b B)). Qed.

(** The size of a product, quotient or power is that of the sizes. *)
Theorem C23_product_size a b : proper_unit inconsistent a -> proper_unit inconsistent b ->
  exists r, mulu a b = Ok r /\ size r = mono_mul (size a) (size b).
Proof using both.
  intros A B. destruct (mul_value monos monos_laws _ _ _ _ _ _ _ (respects_size libm order both) a b A B) as (r & E & _ & V). exists r. auto.
Qed.
Theorem C23_quotient_size a b : proper_unit inconsistent a -> proper_unit inconsistent b ->
  exists r, divu a b = Ok r /\ size r = over (S := monos) (size a) (size b).
Proof using both.
  intros A B. destruct (div_value monos monos_laws _ _ _ _ _ _ _ (respects_size libm order both) a b A B) as (r & E & _ & V). exists r. auto.
Qed.
Theorem C23_power_size a p q : proper_unit inconsistent a -> p = Exact q \/ p = Float q -> q <> 0%Qc -> parts 2 q ->
  (zq (-100) <= q)%Qc -> (q <= zq 100)%Qc -> exists r, powu a p = Ok r /\ size r = mono_pw (size a) q.
Proof using both.
  intros A Hp N P B1 B2. destruct (pow_value monos monos_laws _ _ _ _ _ _ _ (respects_size libm order both) a p q A Hp N P B1 B2) as (r & E & _ & V). exists r. auto.
Qed.

(** ** What does not hold *)

(** The power 0 of a unit is the unit itself, not the unit '1'. *)
Definition u (b : string) (e : Qc) : operand := {| coef := 1; base := s b; expo := e; isterm := true |}.
Theorem C23_zero_power_refuted : powu [u "m" 1] (Exact 0) = Ok [u "m" 1] /\ powu [u "m" 1] (Float 0) = Ok [u "m" 1].
Proof. split; vm_compute; reflexivity. Qed.
(** The lux cannot take part in any product: its quantity is missing from the table of quantities. *)
Theorem C23_lux_refuted : mulu [u "lx" 1] [u "m" 1] = Raise KeyError /\ divu [u "m" 1] [u "lx" 1] = Raise KeyError
  /\ dimension_in Mks [u "lx" 1] = Raise KeyError.
Proof using both. destruct both as [-> | ->]; repeat split; vm_compute; reflexivity. Qed.
(** The size of a product with a Gaussian unit is wrong: a gauss centimetre is
    1e-6 tesla metre, but the product, in cm, g and s, has another size. *)
Theorem C23_gaussian_size_refuted : exists r, mulu [u "G" 1] [u "cm" 1] = Ok r /\ size r <> mono_mul (size [u "G" 1]) (size [u "cm" 1]).
Proof using both.
  destruct both as [-> | ->]; eexists; (split; [vm_compute; reflexivity|]); intros H; apply (f_equal e2) in H; vm_compute in H; discriminate.
Qed.
(** A product can lose its dimension in a system: ampere metres have one in the
    CGS system, and so have inverse metres, but their product has none. *)
Theorem C23_dimension_lost_refuted : exists r, mulu [u "A" 1; u "m" 1] [u "m" (- (1))%Qc] = Ok r /\
  (exists d, dimension_in Cgs [u "A" 1; u "m" 1] = Ok (Some d)) /\ (exists d, dimension_in Cgs [u "m" (- (1))%Qc] = Ok (Some d)) /\
  dimension_in Cgs r = Ok None.
Proof using both.
  destruct both as [-> | ->]; eexists; (split; [vm_compute; reflexivity|]); (split; [eexists; vm_compute; reflexivity|]); (split; [eexists; vm_compute; reflexivity|]); vm_compute; reflexivity.
Qed.
End C23.
Print Assumptions C23_dimension_total.
Print Assumptions C23_product.
Print Assumptions C23_quotient.
Print Assumptions C23_power.
Print Assumptions C23_equal_units.
Print Assumptions C23_product_size.
Print Assumptions C23_quotient_size.
Print Assumptions C23_power_size.
Print Assumptions C23_zero_power_refuted.
Print Assumptions C23_lux_refuted.
Print Assumptions C23_gaussian_size_refuted.
Print Assumptions C23_dimension_lost_refuted.

(** ** The hypotheses are met *)
Ltac outside_tac := let n := fresh "n" in let H := fresh "H" in let I := fresh "I" in
  intros n H I; vm_compute in H; injection H as <-; apply (mem_spec str_eqb str_decides) in I; vm_compute in I; discriminate I.
Ltac term_tac := split; [reflexivity|split; [reflexivity|split; [discriminate|split; [match goal with |- parts _ ?e => exists (qnum (e * zq 2)%Qc); apply Qc_is_canon; vm_compute; reflexivity end|split;
  [split; vm_compute; discriminate|split; [right; split; reflexivity|eexists; split; vm_compute; reflexivity]]]]]].
(** erg * cm^(1/2) / s^2 and km *)
Example C23_units_proper : proper_unit inconsistent [u "erg" 1; u "cm" (mkq 1 2); u "s" (- (1 + 1))%Qc] /\ proper_unit inconsistent [u "km" 1].
Proof.
  split; (split; [split; [discriminate|]|]); repeat (constructor; [first [term_tac | outside_tac]|]); constructor.
Qed.
Example C23_product_case : exists r d, unit_mul (fun _ _ => None) named_unit [Mks; Cgs] quantity_unit quantity_dim [u "erg" 1; u "cm" (mkq 1 2); u "s" (- (1 + 1))%Qc] [u "km" 1] = Ok r
  /\ unit_dimension (fun _ _ => None) named_unit quantity_unit quantity_dim Cgs r = Ok (Some d) /\ d <> [] /\ Forall (fun t => small (expo t)) r
  /\ mono_expo (s "L") d = mkq 7 2.
Proof.
  do 2 eexists. split; [vm_compute; reflexivity|]. split; [vm_compute; reflexivity|]. split; [discriminate|]. split; [|vm_compute; reflexivity].
  repeat (constructor; [split; vm_compute; discriminate|]). constructor.
Qed.
