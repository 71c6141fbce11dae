(** * Properties of unit objects: C24 *)
From Verif Require Import PyBase PyLemmas SymbolicModel SymbolicSpec SymbolicProofs SymbolicAlgebra ContainerModel AliasedModel AliasedSpec AliasedProofs MetricModel MetricTables UnitModel UnitSpec UnitProofs UnitProofs2.

(** Two requests, [a] after the history [before] and [b] after a further history
    [between], get the same object if and only if they denote the same name. *)
Theorem C24_one_object_per_unit_partial libm named same_u same_n before between a b o o' name name' st1 st2 :
  (forall g h, same_u g h = true -> same_names g h) -> (forall g h, same_n g h = true -> same_names g h) ->
  regular libm named ->
  Forall (settled_call libm named) before -> Forall (settled_call libm named) between -> settled libm named a -> settled libm named b ->
  denotes libm named a name -> denotes libm named b name' ->
  unit_factory libm named same_u same_n (unit_history libm named same_u same_n no_units before) a = (Ok o, st1) ->
  unit_factory libm named same_u same_n (unit_history libm named same_u same_n st1 between) b = (Ok o', st2) ->
  (name = name' -> o = o') /\ (name <> name' -> u_id o <> u_id o').
Proof.
  intros SU SN R F1 F2 Sa Sb (ts & Ta & _ & <-) (us & Tb & _ & <-) Ea Eb.
  destruct (history_ok libm named same_u same_n SU SN R before no_units (inv_start libm named same_u same_n SU SN R) F1) as (I1 & _).
  destruct (ufact_ok libm named same_u same_n SU SN R _ _ _ _ I1 Sa Ea) as (I2 & _ & G1 & N1).
  destruct (history_ok libm named same_u same_n SU SN R between st1 I2 F2) as (I3 & L3).
  destruct (ufact_ok libm named same_u same_n SU SN R _ _ _ _ I3 Sb Eb) as (I4 & L4 & G2 & N2).
  destruct (N1 ts Ta) as (x & [= <-] & <-). destruct (N2 us Tb) as (y & [= <-] & <-).
  destruct (G1 o eq_refl) as (g & Hg). destruct (proj2 L3 g o Hg) as (g3 & Hg3 & _). destruct (proj2 L4 g3 o Hg3) as (g4 & Hg4 & _).
  destruct (G2 o' eq_refl) as (g' & Hg'). exact (same_object libm named same_u same_n SU SN R st2 o o' g4 g' I4 Hg4 Hg').
Qed.
Print Assumptions C24_one_object_per_unit_partial.
(** A request that denotes a unit succeeds, at any time, with the denoted terms'
    name. *)
Theorem C24_requests_succeed_partial libm named same_u same_n before a name :
  (forall g h, same_u g h = true -> same_names g h) -> (forall g h, same_n g h = true -> same_names g h) ->
  regular libm named -> Forall (settled_call libm named) before -> settled libm named a -> denotes libm named a name ->
  exists o st, unit_factory libm named same_u same_n (unit_history libm named same_u same_n no_units before) a = (Ok o, st) /\
               format_expression (u_terms o) = name.
Proof.
  intros SU SN R F1 Sa (ts & Ta & _ & <-). destruct (unit_factory libm named same_u same_n _ a) as (r, st) eqn:E.
  destruct (history_ok libm named same_u same_n SU SN R before no_units (inv_start libm named same_u same_n SU SN R) F1) as (I1 & _).
  destruct (ufact_ok libm named same_u same_n SU SN R _ _ _ _ I1 Sa E) as (_ & _ & _ & N). destruct (N ts Ta) as (o & -> & <-). eauto.
Qed.
Print Assumptions C24_requests_succeed_partial.
(** eprempy's table is regular, and a string is settled if its symbols come out
    in canonical order (without repetitions) and can be printed *)
Theorem C24_table_is_regular libm : regular libm named_unit.
Proof. exact (actual_regular libm). Qed.
Print Assumptions C24_table_is_regular.
Theorem C24_canonical_strings_are_settled libm x ts : arg_terms libm named_unit (UStr x) = Ok ts -> canonical ts -> printable ts = true ->
  settled libm named_unit (UStr x).
Proof. exact (actual_settled libm x ts). Qed.
Print Assumptions C24_canonical_strings_are_settled.

Definition metre_per_second : list operand := [var_term (s "m") 1%Qc; var_term (s "s") (zq (-1))].
Lemma mps_canonical : canonical metre_per_second.
Proof.
  exists 1%Qc, metre_per_second. split; [reflexivity|]. split; [discriminate|]. split.
  - repeat constructor; do 2 eexists; (split; [reflexivity|]; repeat split; discriminate).
  - split; [repeat constructor; left; reflexivity|]. cbn. repeat constructor; cbn; intuition discriminate.
Qed.
Example C24_case : forall libm,
  settled libm named_unit (UStr (s "meter / second")) /\ settled libm named_unit (UStr (s "m s^-1")) /\ settled libm named_unit (UStr (s "second^-1 * meter")) /\
  denotes libm named_unit (UStr (s "meter / second")) (s "m s^-1") /\ denotes libm named_unit (UStr (s "second^-1 * meter")) (s "m s^-1").
Proof.
  intros libm.
  assert (A : forall x, arg_terms libm named_unit (UStr x) = Ok metre_per_second -> settled libm named_unit (UStr x)).
  { intros x H. exact (actual_settled libm x _ H mps_canonical eq_refl). }
  assert (E1 : arg_terms libm named_unit (UStr (s "meter / second")) = Ok metre_per_second) by (vm_compute; reflexivity).
  assert (E2 : arg_terms libm named_unit (UStr (s "second^-1 * meter")) = Ok metre_per_second) by (vm_compute; reflexivity).
  split; [apply A, E1|]. split; [apply A; vm_compute; reflexivity|]. split; [apply A, E2|].
  split; exists metre_per_second; (split; [assumption|]; split; [discriminate|reflexivity]).
Qed.

Ltac parts := repeat (match goal with |- _ /\ _ => split; [vm_compute; (reflexivity || discriminate)|] end); vm_compute; (reflexivity || discriminate).
Definition unit_after (history : list ucall) (x : str) : result uobj :=
  fst (unit_factory no_libm named_unit group_eqb group_eqb (unit_history no_libm named_unit group_eqb group_eqb no_units history) (UStr x)).
(** The order of the symbols is not normalized: two objects for one unit, and
    which of them a string gets depends on the history. *)
Theorem C24_unsorted_symbols_refuted :
  exists o o' o'', unit_after [] (s "erg farad") = Ok o /\ unit_after [CUnit (UStr (s "erg farad"))] (s "F erg") = Ok o' /\ u_id o <> u_id o' /\
    unit_after [CUnit (UStr (s "erg farad"))] (s "erg F") = Ok o /\
    unit_after [] (s "erg F") = Ok o'' /\ u_terms o <> u_terms o''.
Proof. do 3 eexists. parts. Qed.
Print Assumptions C24_unsorted_symbols_refuted.
(** Different names of the same unit are not combined. *)
Theorem C24_mixed_names_refuted :
  exists o o', unit_after [] (s "meter / m") = Ok o /\ unit_after [] (s "1") = Ok o' /\ format_expression (u_terms o) = s "m m^-1" /\ format_expression (u_terms o') = s "1".
Proof. do 2 eexists. parts. Qed.
Print Assumptions C24_mixed_names_refuted.
(** Whether a unit exists depends on the history; the micro prefix (by its
    Greek letter) and the ohm can never be units. *)
Theorem C24_existence_refuted :
  unit_after [] (s "astronomical unit") = Raise KeyError /\ (exists o, unit_after [CUnit (UStr (s "au"))] (s "astronomical unit") = Ok o) /\
  unit_after [] (s "microsecond") = Raise ValueError /\ unit_after [] (s "ohm") = Raise ValueError.
Proof. split; [vm_compute; reflexivity|]. split; [eexists; vm_compute; reflexivity|]. parts. Qed.
Print Assumptions C24_existence_refuted.
(** The candela and the centiday are one object. *)
Theorem C24_candela_refuted :
  exists o, unit_after [] (s "candela") = Ok o /\ unit_after [CUnit (UStr (s "candela"))] (s "centiday") = Ok o.
Proof. eexists. parts. Qed.
Print Assumptions C24_candela_refuted.
(** Named units: which unit the symbol "cd" names depends on the history. *)
Theorem C24_named_history_refuted :
  let named_after h x := fst (named_factory named_unit group_eqb (unit_history no_libm named_unit group_eqb group_eqb no_units h) x) in
  exists o o', named_after [] (s "cd") = Ok o /\ n_name (o_unit o) = s "candela" /\
    named_after [CNamed (s "centiday")] (s "cd") = Ok o' /\ n_name (o_unit o') = s "centiday".
Proof. do 2 eexists. parts. Qed.
Print Assumptions C24_named_history_refuted.
