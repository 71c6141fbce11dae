(** * C23: reciprocals of units, and units with plain numbers *)
From Verif Require Import PyBase PyLemmas SymbolicModel SymbolicSpec SymbolicProofs SymbolicRegex SymbolicParse SymbolicTotal SymbolicRoundTrip SymbolicAlgebra ContainerModel ContainerSpec ContainerProofs ContainerProofs2 AliasedModel MetricModel MetricSpec MetricTables MetricSizes MetricProofs MetricProofs2 UnitModel UnitOpsModel UnitOpsSpec UnitOpsProofs UnitOpsProofs2 UnitOpsTables UnitOpsProofs3 UnitOpsProperties.

Section C23.
Variable libm : Qc -> Qc -> option Qc.
Variable order : list system.
Hypothesis both : order = [Mks; Cgs] \/ order = [Cgs; Mks].
Notation invu := (unit_inv libm named_unit order quantity_unit quantity_dim).
Notation dimu y u := (unit_dimension libm named_unit quantity_unit quantity_dim y u).
Notation size := (compound (S := monos) si_size).
Notation moderate r := (Forall (fun t => small (expo t)) r).

Lemma one_text : expression_of_str libm (s "1") = Ok [const_term 1].
Proof using. change (s "1") with (format_expression [const_term 1]). apply (parse_format libm); first [apply canonical_one|reflexivity]. Qed.
Lemma one_proper families : ~ In (s "1") families -> proper_unit families [const_term 1].
Proof using.
  intros N. split.
  - split; [discriminate|]. constructor; [|constructor]. split; [reflexivity|]. split; [reflexivity|]. split; [discriminate|]. split; [exact (parts_int 2 1)|].
    split; [split; vm_compute; discriminate|]. split; [left; reflexivity|]. eexists. split; vm_compute; reflexivity.
  - constructor; [|constructor]. intros n E. assert (X : b_sym n = s "1"). { vm_compute in E. injection E as <-. reflexivity. } rewrite X. exact N.
Qed.
(** One over a unit exists, and its dimension, where it has one, has the
    opposite exponents. *)
Theorem C23_reciprocal y a da : proper_unit [s "lx"] a -> dimu y a = Ok (Some da) ->
  exists r, invu a = Ok r /\ canonical r /\
    (moderate r -> exists od, dimu y r = Ok od /\ forall dr, od = Some dr ->
       canonical dr /\ mono_coef dr = 1%Qc /\ forall x, x <> one_base -> mono_expo x dr = (- mono_expo x da)%Qc).
Proof using both.
  intros PA Ea. pose proof (proper_lit a PA) as A. assert (NL : ~ In (s "1") [s "lx"]) by (intros [E|[]]; discriminate E).
  pose proof (proper_lit _ (one_proper [s "lx"] NL)) as B. unfold unit_inv. rewrite one_text. cbn [bind].
  destruct (known_dim libm y a da A Ea) as (Ca & Ma & Xa).
  assert (I0 : In (s "M") DIMS) by (left; reflexivity). assert (N0 : s "M" <> one_base) by discriminate.
  destruct (apply_div expos expos_laws _ _ _ _ _ _ _ (respects_dim libm order both y (s "M") N0 I0) [const_term 1] a B A) as (r & E & PR & _).
  exists r. split; [exact E|]. split; [apply PR|]. intros Sm. destruct (result_dim libm r y PR Sm) as (od & Ed & H). exists od. split; [exact Ed|]. intros dr Hd. destruct (H dr Hd) as (C & M & X).
  split; [exact C|]. split; [exact M|]. apply by_dims; intros x Nx Ix; rewrite (X x Nx), (Xa x Nx).
  - destruct (apply_div expos expos_laws _ _ _ _ _ _ _ (respects_dim libm order both y x Nx Ix) [const_term 1] a B A) as (r' & E' & _ & V). rewrite E in E'. injection E' as <-. rewrite V.
    assert (O : compound (S := expos) (dim_val libm y x) [const_term 1] = 0%Qc).
    { change (dim_val libm y x one_base * 1 + 0 = 0)%Qc. rewrite (v_one _ _ _ _ _ _ _ _ (respects_dim libm order both y x Nx Ix)). change (0 * 1 + 0 = 0)%Qc. ring. }
    rewrite O. unfold over. cbn [mul inv expos]. ring.
  - rewrite !(outside libm y x) by first [assumption | apply A | apply proper_good, PR]. ring.
Qed.
(** ... and its size is the reciprocal, outside the families whose
    decomposition changes sizes. *)
Theorem C23_reciprocal_size a : proper_unit inconsistent a ->
  exists r, invu a = Ok r /\ mono_mul (size r) (size a) = one (s := monos).
Proof using both.
  intros A. assert (NL : ~ In (s "1") inconsistent) by (vm_compute; intros E; repeat (destruct E as [E|E]; [discriminate E|]); exact E).
  pose proof (one_proper inconsistent NL) as B. unfold unit_inv. rewrite one_text. cbn [bind].
  destruct (apply_div monos monos_laws _ _ _ _ _ _ _ (respects_size libm order both) [const_term 1] a B A) as (r & E & _ & V).
  exists r. split; [exact E|]. rewrite V. unfold over.
  assert (O : size [const_term 1] = one (s := monos)).
  { change (mul (s := monos) (pw (s := monos) (si_size one_base) 1%Qc) (one (s := monos)) = one (s := monos)). rewrite (v_one _ _ _ _ _ _ _ _ (respects_size libm order both)), (one_pw monos monos_laws). apply (mul_one monos monos_laws). }
  rewrite O. change (mul (s := monos) (mul (s := monos) one (inv (s := monos) (size a))) (size a) = one (s := monos)).
  rewrite (mul_one monos monos_laws), (mul_comm monos monos_laws). apply (mul_inv monos monos_laws).
Qed.
End C23.
Example C23_reciprocal_case : exists r, unit_inv (fun _ _ => None) named_unit [Mks; Cgs] quantity_unit quantity_dim [u "km" 1; u "s" (- (1))%Qc] = Ok r /\
  format_expression r = s "s km^-1" /\ proper_unit inconsistent [u "km" 1; u "s" (- (1))%Qc].
Proof.
  eexists. split; [vm_compute; reflexivity|]. split; [vm_compute; reflexivity|].
  (split; [split; [discriminate|]|]); repeat (constructor; [first [term_tac | outside_tac]|]); constructor.
Qed.
Print Assumptions C23_reciprocal.
Print Assumptions C23_reciprocal_size.
