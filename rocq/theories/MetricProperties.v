(** * Properties of unit conversion: C21, C22

    Factors are exact: products of rational powers (see MetricSpec.scale_laws),
    not doubles. *)
From Verif Require Import PyBase PyLemmas SymbolicModel SymbolicSpec SymbolicAlgebra ContainerModel ContainerSpec MetricModel MetricSpec MetricTables MetricSizes MetricProofs MetricProofs2.

(** ** C21: conversion factors are quotients of sizes *)

(** For all tables that fit some sizes; the search is that of two unit strings,
    through the conversion table, aliases and prefixes. *)
Theorem C21_factor_is_size_ratio_partial (S : scales) named conv order (size : str -> num S) :
  scale_laws S -> fits S named conv size ->
  forall u v w, convert_as_strings S named conv order u v = Ok (Some w) -> w = over (size u) (size v).
Proof. intros L F u v w. exact (strings_sound S L named conv order size F u v w). Qed.
Print Assumptions C21_factor_is_size_ratio_partial.

(** eprempy's own tables fit the SI sizes of MetricSizes.v, whatever the order in
    which Python iterates over the nodes *)
Theorem C21_tables_fit_SI_sizes : fits monos named_unit CONVERSIONS si_size.
Proof. exact si_fits. Qed.
Print Assumptions C21_tables_fit_SI_sizes.
Theorem C21_actual_factor_is_size_ratio_partial order u v w :
  strings_factor order u v = Ok (Some w) -> w = over (S := monos) (si_size u) (si_size v).
Proof. exact (strings_sound monos monos_laws named_unit CONVERSIONS order si_size si_fits u v w). Qed.
Print Assumptions C21_actual_factor_is_size_ratio_partial.
Theorem C21_identity (S : scales) named conv order u : convert_as_strings S named conv order u u = Ok (Some one).
Proof.
  unfold convert_as_strings. change (2 + ?n) with (Datatypes.S (1 + n)). rewrite rc_unfold. cbn [mem]. unfold standard_conversion. rewrite simple_refl. reflexivity.
Qed.
Print Assumptions C21_identity.
Theorem C21_reciprocal_partial order order' u v w w' :
  strings_factor order u v = Ok (Some w) -> strings_factor order' v u = Ok (Some w') -> mono_mul w w' = mono_one.
Proof.
  intros H H'. rewrite (C21_actual_factor_is_size_ratio_partial _ _ _ _ H), (C21_actual_factor_is_size_ratio_partial _ _ _ _ H').
  transitivity (over (S := monos) (si_size u) (si_size u)); [apply (over_chain monos monos_laws)|apply (over_self monos monos_laws)].
Qed.
Print Assumptions C21_reciprocal_partial.
Theorem C21_chain_partial order order' order'' u v x f g h :
  strings_factor order u v = Ok (Some f) -> strings_factor order' v x = Ok (Some g) ->
  strings_factor order'' u x = Ok (Some h) -> mono_mul f g = h.
Proof.
  intros H H' H''. rewrite (C21_actual_factor_is_size_ratio_partial _ _ _ _ H), (C21_actual_factor_is_size_ratio_partial _ _ _ _ H'), (C21_actual_factor_is_size_ratio_partial _ _ _ _ H'').
  apply (over_chain monos monos_laws).
Qed.
Print Assumptions C21_chain_partial.
(** the search always ends, without an error *)
Theorem C21_search_ends (S : scales) named conv order u v : exists o, convert_as_strings S named conv order u v = Ok o.
Proof. apply strings_total. Qed.
Print Assumptions C21_search_ends.
(** ... and finds a factor whenever the table connects the units, up to a prefix *)
Theorem C21_search_complete (S : scales) named conv order u x v n m : reach conv u x ->
  x = v \/ (named x = Some n /\ named v = Some m /\ same_base n m = true) ->
  exists w, convert_as_strings S named conv order u v = Ok (Some w).
Proof.
  intros R H. apply (strings_complete S named conv order u x v R). destruct H as [<- | (H1 & H2 & H3)].
  - unfold standard_conversion. rewrite simple_refl. discriminate.
  - eapply standard_base; eassumption.
Qed.
Print Assumptions C21_search_complete.
Example C21_case :
  strings_factor NODES (s "au") (s "Rs") = Ok (Some (mkmono 0 0 0 0 0 0 (- (1)) 0 1 0)) /\
  strings_factor NODES (s "MeV") (s "J") = Ok (Some (mkmono (zq 6) 0 (zq 6) 0 0 0 0 1 0 0)) /\
  unit_factor no_libm NODES [Mks; Cgs] (s "MeV") (s "erg") = Ok (mkmono (zq 13) 0 (zq 13) 0 0 0 0 1 0 0) /\
  strings_factor NODES (s "fortnight") (s "s") = Ok None.
Proof. vm_compute. repeat split; reflexivity. Qed.

(** Compound units.  When the factors of the quotient can be paired off, the
    factor found is the quotient of the sizes of the compound units, provided
    that those of them without dimension have size one (angles do not). *)
Theorem C21_paired_factors_partial libm (S : scales) named conv order qunit qdim (size : str -> num S) e0 e1 q w :
  scale_laws S -> fits S named conv size -> size (s "1") = one -> size (s "#") = one ->
  is_quotient q e0 e1 -> (forall t, In t q -> dimensionless_unit libm named qunit qdim (base t) = Ok true -> size (base t) = one) -> Forall (fun t => is_double (expo t) = true) q ->
  resolve_terms libm S named conv order qunit qdim (filter (fun t => negb (is_unity (base t))) q) = Ok (Some w) ->
  w = over (compound size e0) (compound size e1).
Proof.
  intros L F U1 U2 (_ & _ & Q) D Ex R. apply (resolve_terms_sound S L named conv order qunit qdim libm size F) in R.
  - rewrite R, (compound_filter S L); [apply (compound_quotient S L size _ _ _ U1 Q)|].
    intros t _ H. unfold is_unity in H. apply negb_false_iff, orb_true_iff in H as [H|H]; apply str_eqb_eq in H as ->; assumption.
  - rewrite Forall_forall in Ex |- *. intros t H. apply filter_In in H as (H & _). apply Ex, H.
  - apply Forall_forall. intros t H. apply filter_In in H as (H & _). exact (D t H).
Qed.
Print Assumptions C21_paired_factors_partial.
(** [metric.conversion] returns this factor: strings first, then pairs *)
Theorem C21_conversion_is_size_ratio_partial libm (S : scales) named conv order ys qunit qdim (size : str -> num S) u0 u1 e0 e1 q f :
  scale_laws S -> fits S named conv size -> size (s "1") = one -> size (s "#") = one ->
  size u0 = compound size e0 -> size u1 = compound size e1 ->
  expression_of_str libm u0 = Ok e0 -> expression_of_str libm u1 = Ok e1 -> canonical e0 -> canonical e1 ->
  is_quotient q e0 e1 -> (forall t, In t q -> dimensionless_unit libm named qunit qdim (base t) = Ok true -> size (base t) = one) -> printable q = true -> Forall (fun t => is_double (expo t) = true) q -> eeq e0 e1 = false ->
  resolve_terms libm S named conv order qunit qdim (filter (fun t => negb (is_unity (base t))) q) = Ok (Some f) ->
  exists w, convert libm S named conv order ys qunit qdim u0 u1 = Ok w /\ w = over (size u0) (size u1).
Proof.
  intros L F U1 U2 Z0 Z1 E0 E1 C0 C1 Q D P Ex Ne R. unfold convert.
  destruct (strings_total S named conv order u0 u1) as ([w|] & T); rewrite T; cbn [bind].
  - exists w. split; [reflexivity|]. exact (strings_sound S L named conv order size F u0 u1 w T).
  - unfold convert_as_expressions. rewrite E0, E1. cbn [bind]. rewrite Ne, (ediv_quotient libm e0 e1 q C0 C1 Q P). cbn [bind]. rewrite R. cbn [bind].
    exists f. split; [reflexivity|]. rewrite Z0, Z1. eapply C21_paired_factors_partial; eassumption.
Qed.
Print Assumptions C21_conversion_is_size_ratio_partial.
Example C21_compound_case :
  unit_factor no_libm NODES [Mks; Cgs] (s "J / au^2") (s "eV / km^2") = Ok (mkmono (zq 6) 0 (zq 6) 0 0 0 0 (zq (-1)) (zq (-2)) 0).
Proof. vm_compute. reflexivity. Qed.

(** The property fails for compound units that have to be compared by their
    dimensions, or contain an angle.  10^3 instead of 10^6, and instead of 1: *)
Theorem C21_compound_refuted : forall libm,
  unit_factor libm NODES [Mks; Cgs] (s "kN") (s "g m s^-2") = Ok (tenpow 3) /\
  unit_factor libm NODES [Mks; Cgs] (s "mN") (s "g m s^-2") = Ok (tenpow 3) /\
  unit_factor libm NODES [Mks; Cgs] (s "kN") (s "mN") = Ok (tenpow 6).
Proof. intros libm. vm_compute. repeat split; reflexivity. Qed.
Print Assumptions C21_compound_refuted.
(** one degree per second is converted to one radian per second *)
Theorem C21_angle_refuted : forall libm,
  unit_factor libm NODES [Mks; Cgs] (s "deg / s") (s "rad / s") = Ok mono_one /\
  unit_factor libm NODES [Mks; Cgs] (s "deg") (s "rad") = Ok (m6 (-2) (-2) (-1) 0 1 0).
Proof. intros libm. vm_compute. split; reflexivity. Qed.
Print Assumptions C21_angle_refuted.
(** units of different quantities are converted, and equal units are not *)
Theorem C21_dimensions_refuted : forall libm,
  unit_factor libm NODES [Mks; Cgs] (s "V") (s "ohm") = Ok mono_one /\
  unit_factor libm NODES [Mks; Cgs] (s "Hz") (s "s^-1") = Raise UnitConversionError /\
  unit_factor libm NODES [Mks; Cgs] (s "J") (s "kg m^2 s^-2") = Ok mono_one /\
  unit_factor libm NODES [Mks; Cgs] (s "kJ") (s "kg m^2 s^-2") = Raise UnitConversionError.
Proof. intros libm. vm_compute. repeat split; reflexivity. Qed.
Print Assumptions C21_dimensions_refuted.

(** The cache: after any history of requests, an answer is the computed factor
    or the inverse of the factor computed for the reverse conversion. *)
Theorem C21_cache_is_faithful libm (S : scales) named conv order ys qunit qdim requests u v f :
  snd (conversion_factory libm S named conv order ys qunit qdim
        (conversion_history libm S named conv order ys qunit qdim [] requests) u v) = Ok f ->
  convert libm S named conv order ys qunit qdim u v = Ok f \/
  exists g, convert libm S named conv order ys qunit qdim v u = Ok g /\ f = inv g.
Proof.
  set (k := conversion_history _ _ _ _ _ _ _ _ _ _). assert (K : faithful libm S named conv order ys qunit qdim k).
  { apply history_faithful. intros x y g. discriminate. }
  unfold conversion_factory. destruct conv_get eqn:G; cbn [snd]; [intros [= <-]; apply K, G|].
  destruct convert as [g|] eqn:C; cbn [snd]; intros H; [left; congruence|discriminate].
Qed.
Print Assumptions C21_cache_is_faithful.
(** hence, for units connected by the table, the answer never depends on the
    history *)
Theorem C21_history_independent_partial libm order ys requests requests' u v :
  let answer r := snd (conversion_factory libm monos named_unit CONVERSIONS order ys quantity_unit quantity_dim
        (conversion_history libm monos named_unit CONVERSIONS order ys quantity_unit quantity_dim [] r) u v) in
  (exists w, strings_factor order u v = Ok (Some w)) -> (exists w, strings_factor order v u = Ok (Some w)) ->
  answer requests = answer requests' /\ answer requests = Ok (over (S := monos) (si_size u) (si_size v)).
Proof.
  intros answer (w & Hw) (w' & Hw').
  assert (G : forall r, answer r = Ok (over (S := monos) (si_size u) (si_size v))).
  2: { split; [rewrite !G; reflexivity|apply G]. }
  intros r. assert (Cu : convert libm monos named_unit CONVERSIONS order ys quantity_unit quantity_dim u v = Ok w).
  { unfold convert. unfold strings_factor in Hw. rewrite Hw. reflexivity. }
  assert (Cv : convert libm monos named_unit CONVERSIONS order ys quantity_unit quantity_dim v u = Ok w').
  { unfold convert. unfold strings_factor in Hw'. rewrite Hw'. reflexivity. }
  assert (A : exists f, answer r = Ok f).
  { unfold answer, conversion_factory. destruct conv_get; cbn [snd]; [eauto|]. rewrite Cu. cbn [snd]. eauto. }
  destruct A as (f & A). rewrite A. f_equal. destruct (C21_cache_is_faithful _ _ _ _ _ _ _ _ _ _ _ _ A) as [H|(g & H & ->)].
  - rewrite Cu in H. injection H as <-. exact (C21_actual_factor_is_size_ratio_partial _ _ _ _ Hw).
  - rewrite Cv in H. injection H as <-. rewrite (C21_actual_factor_is_size_ratio_partial _ _ _ _ Hw'). apply (over_inv monos monos_laws).
Qed.
Print Assumptions C21_history_independent_partial.
Example C21_history_case : exists w w', strings_factor NODES (s "km") (s "au") = Ok (Some w) /\ strings_factor NODES (s "au") (s "km") = Ok (Some w').
Proof. do 2 eexists. split; vm_compute; reflexivity. Qed.

(** ** C22: units of one base unit *)

Theorem C22_ratio_is_prefix_quotient (S : scales) (a b : nunit) : scale_laws S -> same_base a b = true ->
  ratio S a b = Ok (pw ten (zq (p_exp a - p_exp b))).
Proof.
  intros L B. unfold ratio. assert (B' : same_base b a = true) by (unfold same_base in *; rewrite !andb_true_iff, !str_eqb_eq in *; intuition congruence).
  destruct nunit_eq eqn:E.
  - unfold nunit_eq, same_prefix in E. rewrite !andb_true_iff, Z.eqb_eq in E. destruct E as (((_ & _) & ->) & _). rewrite Z.sub_diag, zq_0, (pw_0 S L). reflexivity.
  - rewrite B'. cbn [negb]. f_equal. exact (ten_over S L (p_exp a) (p_exp b)).
Qed.
Print Assumptions C22_ratio_is_prefix_quotient.
Theorem C22_ratio_reciprocal (S : scales) (a b : nunit) r : scale_laws S -> ratio S a b = Ok r -> ratio S b a = Ok (inv r).
Proof.
  intros L H. assert (B : same_base a b = true).
  { unfold ratio in H. destruct nunit_eq eqn:E; [unfold nunit_eq in E; apply andb_true_iff in E; destruct E as (_ & E)|clear E; destruct (same_base b a) eqn:E; [|discriminate]];
    unfold same_base in *; rewrite !andb_true_iff, !str_eqb_eq in *; intuition congruence. }
  rewrite C22_ratio_is_prefix_quotient in H |- * by (try assumption; unfold same_base in *; rewrite !andb_true_iff, !str_eqb_eq in *; intuition congruence).
  injection H as <-. f_equal. rewrite <- (pw_opp S L). f_equal. rewrite zq_opp. f_equal. lia.
Qed.
Print Assumptions C22_ratio_reciprocal.
Theorem C22_ratio_transitive (S : scales) (a b c : nunit) r t : scale_laws S -> ratio S a b = Ok r -> ratio S b c = Ok t -> ratio S a c = Ok (mul r t).
Proof.
  assert (G : forall x y q, ratio S x y = Ok q -> same_base x y = true).
  { intros x y q H. unfold ratio in H. destruct nunit_eq eqn:E; [unfold nunit_eq in E; apply andb_true_iff in E; destruct E as (_ & E)|clear E; destruct (same_base y x) eqn:E; [|discriminate]];
    unfold same_base in *; rewrite !andb_true_iff, !str_eqb_eq in *; intuition congruence. }
  intros L H1 H2. pose proof (G _ _ _ H1) as B1. pose proof (G _ _ _ H2) as B2.
  rewrite C22_ratio_is_prefix_quotient in H1, H2 by assumption.
  rewrite C22_ratio_is_prefix_quotient by (try assumption; unfold same_base in *; rewrite !andb_true_iff, !str_eqb_eq in *; intuition congruence).
  injection H1 as <-. injection H2 as <-. f_equal. rewrite <- (pw_add S L), zq_add. do 2 f_equal. lia.
Qed.
Print Assumptions C22_ratio_transitive.
Theorem C22_ratio_refuses_other_bases (S : scales) (a b : nunit) : same_base a b = false -> ratio S a b = Raise ValueError.
Proof.
  intros B. unfold ratio. assert (B' : same_base b a = false).
  { apply not_true_iff_false. apply not_true_iff_false in B. intros E. apply B. unfold same_base in *. rewrite !andb_true_iff, !str_eqb_eq in *. intuition congruence. }
  unfold nunit_eq. rewrite B', andb_false_r. reflexivity.
Qed.
Print Assumptions C22_ratio_refuses_other_bases.
(** every name of the tables: the ratio agrees with the sizes, and unknown names
    are refused *)
Lemma identify_ratio named conv size u v n m r : fits monos named conv size -> identify named u = Ok n -> identify named v = Ok m ->
  ratio monos n m = Ok r -> r = over (S := monos) (size u) (size v).
Proof.
  intros F. unfold identify. destruct (named u) eqn:Eu; [|discriminate]. destruct (named v) eqn:Ev; [|discriminate]. intros [= ->] [= ->].
  exact (ratio_sound monos monos_laws named conv size F u v n m r Eu Ev).
Qed.
Theorem C22_named_ratio_is_size_ratio u v n m r : identify named_unit u = Ok n -> identify named_unit v = Ok m ->
  ratio monos n m = Ok r -> r = over (S := monos) (si_size u) (si_size v).
Proof. exact (identify_ratio named_unit CONVERSIONS si_size u v n m r si_fits). Qed.
Print Assumptions C22_named_ratio_is_size_ratio.
Theorem C22_unknown_name (named : str -> option nunit) u : named u = None -> identify named u = Raise UnitParsingError.
Proof. unfold identify. intros ->. reflexivity. Qed.
Print Assumptions C22_unknown_name.
Example C22_case : exists n m, identify named_unit (s "km") = Ok n /\ identify named_unit (s "centimeter") = Ok m /\
  same_base n m = true /\ ratio monos n m = Ok (tenpow 5) /\ ratio monos m n = Ok (tenpow (-5)) /\
  identify named_unit (s "furlong") = Raise UnitParsingError.
Proof. do 2 eexists. split; [vm_compute; reflexivity|]. split; [vm_compute; reflexivity|]. repeat split; vm_compute; reflexivity. Qed.
(** The symbol "cd" is the candela; the centiday cannot be named by its symbol. *)
Theorem C22_symbol_collision_refuted : exists n m, identify named_unit (s "centiday") = Ok n /\ identify named_unit (n_symbol n) = Ok m /\
  same_base n m = false.
Proof. do 2 eexists. split; [vm_compute; reflexivity|]. split; [vm_compute; reflexivity|]. repeat split; vm_compute; reflexivity. Qed.
Print Assumptions C22_symbol_collision_refuted.
