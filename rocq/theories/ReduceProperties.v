(** * C71: reducing a named unit *)
From Verif Require Import PyBase PyLemmas SymbolicModel SymbolicSpec ContainerModel ContainerSpec ContainerProofs ContainerProofs2 AliasedModel MetricModel MetricSpec MetricTables MetricSizes MetricProofs MetricProofs2 UnitModel UnitOpsModel UnitOpsSpec UnitOpsProofs UnitOpsProofs2 UnitOpsTables UnitOpsProofs3.

(** The units that are not made of base units of either system. *)
Definition irreducible : list str := map s ["au"; "Rs"; "nuc"; "amu"; "min"; "h"; "d"; "#"; "deg"; "eV"; "lm"]%string.

Section C71.
Set Default Proof Using "Type".
Variable libm : Qc -> Qc -> option Qc.
Notation reduction n := (nu_reduce libm named_unit quantity_unit quantity_dim n).
Definition reduce_check (n : nunit) : bool :=
  match reduction n with
  | Ok (Some (k, ts)) => (mem str_eqb (b_sym n) inconsistent || mono_eqb (mono_mul (tenpow k) (compound (S := monos) si_size ts)) (named_size n)) && negb (mem str_eqb (b_sym n) irreducible)
  | Ok None => mem str_eqb (b_sym n) irreducible
  | Raise e => mem str_eqb (b_sym n) [s "e"; s "lx"]
  end.
Lemma reduce_checks : forallb (fun e => reduce_check (snd e)) NAMED = true.
Proof. vm_compute. reflexivity. Qed.
Lemma size_named u n : named_unit u = Some n -> si_size u = named_size n.
Proof. intros H. unfold si_size. rewrite H. reflexivity. Qed.

(** A reduced unit - a power of ten times a product of powers of base units - has
    the size of the unit. *)
Theorem C71_size u n k ts : named_unit u = Some n -> UnitOpsSpec.outside inconsistent u -> reduction n = Ok (Some (k, ts)) ->
  mono_mul (tenpow k) (compound (S := monos) si_size ts) = si_size u.
Proof.
  intros H O E. pose proof (of_entries reduce_check reduce_checks u n H) as K. unfold reduce_check in K. rewrite E in K. apply andb_true_iff in K as (K & _). apply orb_true_iff in K as [K|K].
  - apply (mem_spec str_eqb str_decides) in K. destruct (O n H K).
  - rewrite (size_named u n H). apply mono_eqb_eq, K.
Qed.
(** Outside two families, every unit can be reduced or is known not to be
    reducible, and which of the two depends on its family alone. *)
Theorem C71_reducible u n : named_unit u = Some n -> b_sym n <> s "e" -> b_sym n <> s "lx" ->
  (In (b_sym n) irreducible -> reduction n = Ok None) /\ (~ In (b_sym n) irreducible -> exists k ts, reduction n = Ok (Some (k, ts))).
Proof.
  intros H N1 N2. pose proof (of_entries reduce_check reduce_checks u n H) as K. unfold reduce_check in K. destruct (reduction n) as [[(k, ts)|]|].
  - apply andb_true_iff in K as (_ & K). apply negb_true_iff in K. split; [|eauto]. intros I. apply (mem_spec str_eqb str_decides) in I. rewrite I in K. discriminate K.
  - apply (mem_spec str_eqb str_decides) in K. split; [reflexivity|contradiction].
  - apply (mem_spec str_eqb str_decides) in K. destruct K as [K|[K|[]]]; congruence.
Qed.

(** ** What does not hold *)
(** The elementary charge and the lux cannot be reduced. *)
Theorem C71_charge_refuted : exists n m, named_unit (s "e") = Some n /\ named_unit (s "lx") = Some m /\ reduction n = Raise (OtherError "SystemAmbiguityError") /\ reduction m = Raise KeyError.
Proof. do 2 eexists. repeat split; vm_compute; reflexivity. Qed.
(** The reduced gauss is not a gauss. *)
Theorem C71_gauss_refuted : exists n k ts, named_unit (s "G") = Some n /\ reduction n = Ok (Some (k, ts)) /\ mono_mul (tenpow k) (compound (S := monos) si_size ts) <> si_size (s "G").
Proof.
  destruct (named_unit (s "G")) as [n|] eqn:N; [|vm_compute in N; discriminate N].
  assert (B : match named_unit (s "G") with Some n => match reduction n with Ok (Some (k, ts)) => negb (mono_eqb (mono_mul (tenpow k) (compound (S := monos) si_size ts)) (si_size (s "G"))) | _ => false end | None => false end = true) by (vm_compute; reflexivity).
  rewrite N in B. destruct (reduction n) as [[(k, ts)|]|] eqn:R; try discriminate B. exists n, k, ts. split; [reflexivity|]. split; [exact R|]. intros E. rewrite E in B. unfold mono_eqb in B. rewrite !qc_eqb_refl in B. discriminate B.
Qed.
End C71.
Print Assumptions C71_size.
Print Assumptions C71_reducible.
Print Assumptions C71_charge_refuted.
Print Assumptions C71_gauss_refuted.

(** ** The hypotheses are met *)
(** the millinewton is 10^-3 kg m s^-2; the kilometre is 10^3 m *)
Example C71_case : exists n m ts us, named_unit (s "mN") = Some n /\ named_unit (s "km") = Some m /\
  nu_reduce (fun _ _ => None) named_unit quantity_unit quantity_dim n = Ok (Some ((-3)%Z, ts)) /\ map base ts = [s "m"; s "kg"; s "s"] /\
  nu_reduce (fun _ _ => None) named_unit quantity_unit quantity_dim m = Ok (Some (3%Z, us)) /\ map base us = [s "m"].
Proof. do 4 eexists. repeat split; vm_compute; reflexivity. Qed.
Example C71_outside_case : UnitOpsSpec.outside inconsistent (s "mN") /\ UnitOpsSpec.outside inconsistent (s "km").
Proof. split; intros n H I; vm_compute in H; injection H as <-; apply (mem_spec str_eqb str_decides) in I; vm_compute in I; discriminate I. Qed.
