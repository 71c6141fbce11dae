(** Proofs about normal forms of units *)
From Verif Require Import PyBase PyLemmas SymbolicModel SymbolicSpec SymbolicProofs SymbolicRegex SymbolicParse SymbolicTotal SymbolicRoundTrip SymbolicAlgebra ContainerModel ContainerSpec ContainerProofs ContainerProofs2 AliasedModel MetricModel MetricSpec MetricTables MetricSizes MetricProofs MetricProofs2 UnitModel UnitOpsModel UnitOpsSpec UnitOpsProofs UnitOpsProofs2 UnitOpsTables UnitOpsProofs3 NormalizeModel NormalizeSpec.

(** ** products of expressions *)
Section Products.
Set Default Proof Using "Type".
Variable libm : Qc -> Qc -> option Qc.
Definition group_written (t : operand) (ts : list operand) : factor := FGroup (blank_written t ts) 1%Qc.
Fixpoint groups_written (f : factor) (fs : list factor) : written :=
  match fs with [] => WOne f | g :: gs => WMore f (Times 0 0) (groups_written g gs) end.
Definition group_of (e : list operand) : factor := match e with [] => FConst 1 | t :: ts => group_written t ts end.
Lemma group_ok e : canonical e -> printable e = true ->
  "("%char :: format_expression e ++ [")"%char] = factor_text (group_of e) /\ factor_ok true (group_of e) = true /\
  factor_coef (group_of e) = mono_coef e /\ forall b, b <> one_base -> factor_expo b (group_of e) = mono_expo b e.
Proof.
  intros C P. destruct (canonical_ok e C) as [NE _]. destruct e as [|t ts]; [congruence|]. pose proof (canonical_simple _ C) as Si.
  destruct (blank_text t ts Si P) as (E & O). destruct (blank_meaning t ts Si) as (M1 & M2). cbn [group_of group_written factor_text factor_ok factor_coef factor_expo].
  rewrite E. split; [reflexivity|]. split; [change (true && q_isint 1) with true; rewrite O; reflexivity|]. split; [change (qnum 1) with 1%Z; rewrite qpowz_1_r; exact M1|].
  intros b Hb. rewrite M2 by exact Hb. ring.
Qed.
Lemma groups_ok e es : Forall (fun e => canonical e /\ printable e = true) (e :: es) ->
  standard_expressions (e :: es) = written_text (groups_written (group_of e) (map group_of es)) /\
  written_ok true (groups_written (group_of e) (map group_of es)) = true /\
  written_coef false (groups_written (group_of e) (map group_of es)) = mono_coef (concat (e :: es)) /\
  forall b, b <> one_base -> written_expo b false (groups_written (group_of e) (map group_of es)) = mono_expo b (concat (e :: es)).
Proof.
  unfold standard_expressions. revert e. induction es as [|e' es IH]; intros e F; inversion F as [|? ? (C & P) F']; subst;
    destruct (group_ok e C P) as (E & O & M1 & M2).
  - cbn [map join groups_written written_text written_ok written_coef written_expo inverted signed concat]. rewrite app_nil_r. auto.
  - destruct (IH e' F') as (E' & O' & M1' & M2').
    cbn [map groups_written written_text written_ok written_coef written_expo inverted signed is_over sep_ok sep_text blanks repeat app concat] in *.
    split; [|split; [|split]].
    + rewrite <- E', <- E. reflexivity.
    + rewrite O. exact O'.
    + rewrite mono_coef_app, M1'. f_equal. exact M1.
    + intros b Hb. rewrite mono_expo_app, (M2' b Hb), (M2 b Hb). reflexivity.
Qed.
Lemma product_of_expressions es : es <> [] -> Forall (fun e => canonical e /\ plain 8 e) es ->
  exists r, expression_of_str libm (standard_expressions es) = Ok r /\ reduced_to 8 (concat es) r.
Proof.
  intros N F. destruct es as [|e es]; [congruence|].
  assert (F' : Forall (fun e => canonical e /\ printable e = true) (e :: es)).
  { eapply Forall_impl; [|exact F]. intros a (C & P). split; [exact C|]. apply plain_printable; assumption. }
  assert (PC : plain 8 (concat (e :: es)) /\ concat (e :: es) <> []).
  { split; [apply Forall_concat; eapply Forall_impl; [|exact F]; intros a Ha; exact (proj2 Ha)|].
    inversion F as [|? ? (C & _) _]; subst. destruct (canonical_ok e C) as [NE _]. destruct e; [congruence|discriminate]. }
  destruct PC as (PC & NC). destruct (reduce_plain 8 _ NC PC) as (r & R). exists r. split; [|exact R].
  destruct (groups_ok e es F') as (E & O & M1 & M2). rewrite E. destruct (expression_meaning libm _ O) as (r' & -> & C' & K1 & K2). f_equal.
  apply canonical_eq; [exact C'|apply R|]. split.
  - rewrite K1, M1, (rt_coef _ _ _ R). apply (plain_coef 8), PC.
  - intros b Hb. rewrite (K2 b Hb), (M2 b Hb), (rt_expo _ _ _ R b Hb). reflexivity.
Qed.
End Products.
