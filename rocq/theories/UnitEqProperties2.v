(** * C73: dimensionless units, and why units are consistent *)
From Verif Require Import PyBase PyLemmas SymbolicModel SymbolicSpec SymbolicProofs SymbolicRegex SymbolicParse SymbolicTotal SymbolicRoundTrip SymbolicAlgebra ContainerModel ContainerSpec ContainerProofs ContainerProofs2 AliasedModel MetricModel MetricSpec MetricTables MetricSizes MetricProofs MetricProofs2 UnitModel UnitOpsModel UnitOpsSpec UnitOpsProofs UnitOpsProofs2 UnitOpsTables UnitOpsProofs3 NormalizeModel NormalizeProofs2 NormalizeProperties UnitEqModel UnitEqProofs UnitEqProperties.

Section C73b.
Set Default Proof Using "Type".
Variable libm : Qc -> Qc -> option Qc.
Variable order : list system.
Hypothesis both : order = [Mks; Cgs] \/ order = [Cgs; Mks].
Variable F : Type.
Variable factor : str -> str -> result F.
Variable is_one : F -> bool.
Notation equivalent := (unit_and libm order factor is_one).
Notation consistent_with := (unit_or libm order factor is_one).
Notation dimension_in y u := (unit_dimension libm named_unit quantity_unit quantity_dim y u).

Lemma one_dim d : canonical d -> plain 8 d -> (eeq d [const_term 1] = true <-> d = [const_term 1]).
Proof.
  intros C P. split; [|intros ->; apply eeq_refl]. intros E. unfold eeq in E. apply andb_true_iff in E as (L & E).
  destruct d as [|t [|u d]]; [discriminate L| |discriminate L]. cbn in E. rewrite andb_true_r in E. unfold operand_eqb in E. apply andb_true_iff in E as (E & _). apply andb_true_iff in E as (E & _).
  apply str_eqb_eq in E. destruct C as (c & vs & R & _ & V & _). inversion P as [|? ? (_ & K & _) _]; subst.
  destruct vs as [|v vs].
  - injection R as ->. cbn in K. rewrite K. reflexivity.
  - exfalso. inversion V as [|? ? (b & e & -> & B & _) _]; subst. destruct (qc_eqb c 1); injection R as R; subst; [apply B; exact E|discriminate].
Qed.
Lemma dims_plain y a d : proper_unit [s "lx"] a -> dimension_in y a = Ok (Some d) -> canonical d /\ plain 8 d.
Proof.
  intros A E. destruct (dimension_ok libm y a (lit_terms a (proper_lit a A))) as (od & E' & H). rewrite E in E'. injection E' as <-. destruct (H d eq_refl) as (H1 & H2 & _). split; assumption.
Qed.
(** A unit is dimensionless if its dimension is "1" in every metric system. *)
Theorem C73_dimensionless a : proper_unit [s "lx"] a ->
  (dimensionless libm a = Ok true <-> forall y, dimension_in y a = Ok (Some [const_term 1])) /\
  (dimensionless libm a = Ok false <-> exists y, dimension_in y a <> Ok (Some [const_term 1])).
Proof.
  clear both order factor is_one F. intros A. destruct (dims_ok libm a A) as (m & c & Em & Ec & E).
  assert (T : forall y d, dimension_in y a = Ok d -> (is_one_dim libm d = Ok true /\ d = Some [const_term 1]) \/ (is_one_dim libm d = Ok false /\ d <> Some [const_term 1])).
  { intros y d H. destruct d as [d|]; [|right; split; [reflexivity|discriminate]]. unfold is_one_dim.
    change (s "1") with (format_expression [const_term 1]). rewrite (parse_format libm) by first [apply canonical_one|reflexivity]. cbn [bind].
    destruct (dims_plain y a d A H) as (C & P). destruct (eeq d [const_term 1]) eqn:Q.
    - left. split; [reflexivity|]. f_equal. apply one_dim; assumption.
    - right. split; [reflexivity|]. intros X. injection X as ->. rewrite eeq_refl in Q. discriminate Q. }
  assert (R : (dimensionless libm a = Ok true /\ m = Some [const_term 1] /\ c = Some [const_term 1]) \/
              (dimensionless libm a = Ok false /\ (m <> Some [const_term 1] \/ c <> Some [const_term 1]))).
  { unfold dimensionless. rewrite E. cbn [bind]. destruct (T Mks m Em) as [(-> & M)|(-> & M)], (T Cgs c Ec) as [(-> & K)|(-> & K)]; cbn [bind andb]; tauto. }
  split; split.
  - intros H y. destruct R as [(_ & M & K)|(R & _)]; [|rewrite R in H; discriminate H]. destruct y; congruence.
  - intros H. destruct R as [(R & _)|(_ & [N|N])]; [exact R| |]; [pose proof (H Mks) as X; rewrite Em in X|pose proof (H Cgs) as X; rewrite Ec in X]; injection X as X; contradiction.
  - intros H. destruct R as [(R & _)|(_ & [N|N])]; [rewrite R in H; discriminate H|exists Mks|exists Cgs]; congruence.
  - intros (y & H). destruct R as [(_ & M & K)|(R & _)]; [|exact R]. exfalso. apply H. destruct y; congruence.
Qed.
(** Consistent units are equivalent, have a common dimension, measure the same
    quantity, or have a conversion. *)
Theorem C73_consistent_reasons a b : refuses F factor -> proper_unit [s "lx"] a -> proper_unit [s "lx"] b -> consistent_with a b = Ok true ->
  equivalent a b = Ok true \/
  (exists y y' da db, dimension_in y a = Ok (Some da) /\ dimension_in y' b = Ok (Some db) /\ eeq db da = true) \/
  (exists qa qb, get_quantity libm a = Ok qa /\ get_quantity libm b = Ok qb /\ eeq qa qb = true) \/
  (exists f, factor (format_expression b) (format_expression a) = Ok f).
Proof using both.
  intros W A B H. destruct (C73_answers libm order both F factor is_one a b W A B) as ((r & Er) & _).
  destruct r; [left; exact Er|right]. unfold unit_or in H. destruct (eeq a b) eqn:EQ. { unfold unit_and in Er. rewrite EQ in Er. discriminate Er. }
  rewrite Er in H. cbn [bind] in H.
  destruct (dims_ok libm a A) as (ma & ca & Ema & Eca & Ea). destruct (dims_ok libm b B) as (mb & cb & Emb & Ecb & Eb). rewrite Ea, Eb in H. cbn [bind] in H.
  destruct (shares_dimension _ _ _) eqn:SD.
  - left. unfold shares_dimension in SD. apply existsb_exists in SD as (y & _ & SD).
    assert (S : exists y', opt_dim_eq (match y' with Mks => mb | Cgs => cb end) (match y with Mks => ma | Cgs => ca end) = true) by (apply orb_true_iff in SD as [SD|SD]; [exists Mks|exists Cgs]; exact SD).
    destruct S as (y' & S). destruct (match y' with Mks => mb | Cgs => cb end) as [db|] eqn:Xb; [|discriminate S]. destruct (match y with Mks => ma | Cgs => ca end) as [da|] eqn:Xa; [|discriminate S].
    exists y, y', da, db. split; [destruct y; congruence|]. split; [destruct y'; congruence|exact S].
  - right. destruct (equivalent_quantities libm a b) eqn:EQ'.
    + left. destruct (proper_terms a A) as (NA & PA). destruct (proper_terms b B) as (NB & PB).
      destruct (get_quantity_ok libm a NA PA) as (qa & Ga & _). destruct (get_quantity_ok libm b NB PB) as (qb & Gb & _).
      unfold equivalent_quantities in EQ'. rewrite Ga, Gb in EQ'. eauto.
    + right. destruct (factor _ _) as [f|e]; [eauto|]. destruct (is_exn e "UnitConversionError"); discriminate H.
Qed.
End C73b.
Print Assumptions C73_dimensionless.
Print Assumptions C73_consistent_reasons.

(** An angle is dimensionless; a speed, and a unit without a dimension in one of
    the systems, are not. *)
Example C73_dimensionless_case : forall libm,
  dimensionless libm [v "rad" 1] = Ok true /\ dimensionless libm [v "m" 1; v "s" (- (1))%Qc] = Ok false /\
  dimensionless libm [v "m" 1; v "cm" (- (1))%Qc] = Ok true.
Proof. intros libm. repeat split; vm_compute; reflexivity. Qed.
