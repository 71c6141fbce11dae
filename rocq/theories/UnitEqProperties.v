(** * C73: equivalence and consistency of units *)
From Verif Require Import PyBase PyLemmas SymbolicModel SymbolicSpec SymbolicProofs SymbolicRegex SymbolicParse SymbolicTotal SymbolicRoundTrip SymbolicAlgebra ContainerModel ContainerSpec ContainerProofs ContainerProofs2 AliasedModel MetricModel MetricSpec MetricTables MetricSizes MetricProofs MetricProofs2 UnitModel UnitOpsModel UnitOpsSpec UnitOpsProofs UnitOpsProofs2 UnitOpsTables UnitOpsProofs3 NormalizeModel UnitEqModel UnitEqProofs.

Section C73.
Set Default Proof Using "Type".
Variable libm : Qc -> Qc -> option Qc.
Variable order : list system.
Hypothesis both : order = [Mks; Cgs] \/ order = [Cgs; Mks].
(** the conversion factor between two unit strings, whatever was converted before *)
Variable F : Type.
Variable factor : str -> str -> result F.
Variable is_one : F -> bool.
Notation equivalent := (unit_and libm order factor is_one).
Notation consistent_with := (unit_or libm order factor is_one).
Notation dec := (decompose_unit_terms libm named_unit order quantity_unit quantity_dim).
Notation dimension_in y u := (unit_dimension libm named_unit quantity_unit quantity_dim y u).
Notation size := (compound (S := monos) si_size).
Notation moderate r := (Forall (fun t => small (expo t)) r).
(** the factor from [b] to [a] is one *)
Definition ratio_one (a b : list operand) : Prop := exists f, factor (format_expression b) (format_expression a) = Ok f /\ is_one f = true.
Definition one_dimension (da db : list operand) : Prop := mono_coef da = mono_coef db /\ forall x, x <> one_base -> mono_expo x da = mono_expo x db.

Lemma hash_dim y x : x <> one_base -> In x DIMS -> dim_val libm y x (s "#") = 0%Qc.
Proof. intros N I. apply Qc_is_canon. destruct y; repeat (destruct I as [<-|I]; [vm_compute; reflexivity|]); destruct I. Qed.
Lemma ratio_dec a b : ratio_one a b \/ ~ ratio_one a b.
Proof.
  unfold ratio_one. destruct (factor _ _) as [f|e]; [|right; intros (f & H & _); discriminate H].
  destruct (is_one f) eqn:E; [left; eauto|right; intros (g & H & H'); injection H as <-; congruence].
Qed.
(** Equivalent units have the same size, and the same dimension wherever both
    have one, unless the conversion factor alone says so. *)
Theorem C73_equivalent a b : proper_unit inconsistent a -> proper_unit inconsistent b -> canonical a -> canonical b ->
  (forall x, dec a = Ok x \/ dec b = Ok x -> moderate x) -> equivalent a b = Ok true ->
  (size a = size b /\ forall y da db, dimension_in y a = Ok (Some da) -> dimension_in y b = Ok (Some db) -> one_dimension da db) \/ ratio_one a b.
Proof using both.
  intros A B CA CB M E. destruct (ratio_dec a b) as [Y|N]; [right; exact Y|left].
  assert (GA : okay named_unit gooddim a).
  { destruct A as (A1 & A2). split; [exact A1|]. eapply Forall_impl; [|exact A2]. intros t. apply consistent_dim. }
  assert (GB : okay named_unit gooddim b).
  { destruct B as (B1 & B2). split; [exact B1|]. eapply Forall_impl; [|exact B2]. intros t. apply consistent_dim. }
  split.
  - assert (V : si_size (s "#") = one (s := monos)) by (vm_compute; reflexivity).
    destruct (and_value monos monos_laws si_size libm order consistent (respects_size libm order both) V F factor is_one a b A B CA CB M E) as [H|H]; [exact H|contradiction].
  - intros y da db Da Db.
    destruct (known_dim libm y a da GA Da) as (_ & Ca & Xa). destruct (known_dim libm y b db GB Db) as (_ & Cb & Xb).
    split; [congruence|]. intros x Nx. rewrite (Xa x Nx), (Xb x Nx). revert x Nx. apply by_dims; intros x Nx I.
    + destruct (and_value expos expos_laws (dim_val libm y x) libm order gooddim (respects_dim libm order both y x Nx I) (hash_dim y x Nx I) F factor is_one a b GA GB CA CB M E) as [H|H]; [exact H|contradiction].
    + rewrite !(UnitOpsProofs3.outside libm y x) by (try assumption; apply GA || apply GB). reflexivity.
Qed.
(** A unit is equivalent to itself, and to any unit that differs from it only in
    the terms [1] and [#]. *)
Definition counts (t : operand) : Prop := base t = one_base \/ (base t = s "#" /\ expo t = 1%Qc).
Theorem C73_counts k a b : plain k a -> plain k b ->
  (forall t, In t a -> In t b \/ counts t) -> (forall t, In t b -> In t a \/ counts t) -> equivalent a b = Ok true /\ consistent_with a b = Ok true.
Proof.
  intros A B HA HB.
  assert (C : forall t, plain_term k t -> counts t -> unity_text t = true).
  { intros t (_ & C & _) [H|(H & H')]; unfold unity_text, format_term; rewrite H; cbn [str_eqb].
    - unfold format_coefficient. rewrite H, C. reflexivity.
    - unfold format_coefficient, format_exponent. rewrite H, H', C. reflexivity. }
  assert (E : equivalent a b = Ok true).
  { unfold unit_and. destruct (eeq a b); [reflexivity|]. replace (forallb unity_text (sym_diff a b)) with true; [reflexivity|symmetry].
    unfold plain in A, B. unfold sym_diff. rewrite forallb_app, andb_true_iff, !forallb_forall. split; intros t I; apply filter_In in I as (I & T).
    - pose proof (proj1 (Forall_forall _ _) A t I) as Pt. destruct (HA t I) as [H|H]; [|exact (C t Pt H)].
      apply (term_in_spec k t b Pt B) in H. rewrite H in T. discriminate T.
    - pose proof (proj1 (Forall_forall _ _) B t I) as Pt. destruct (HB t I) as [H|H]; [|exact (C t Pt H)].
      apply (term_in_spec k t a Pt A) in H. rewrite H in T. discriminate T. }
  split; [exact E|]. unfold unit_or. rewrite E. destruct (eeq a b); reflexivity.
Qed.

(** ** No errors *)
Definition refuses : Prop := forall x y e, factor x y = Raise e -> e = OtherError "UnitConversionError".
Lemma allowed_somewhere : forallb (fun e : list str * nunit => match is_allowed_in named_unit quantity_unit (snd e) Mks, is_allowed_in named_unit quantity_unit (snd e) Cgs with
  | Ok a, Ok b => a || b | _, _ => true end) NAMED = true.
Proof. vm_compute. reflexivity. Qed.
Lemma loop_seen y ts : forall e d b, dimension_loop libm named_unit quantity_unit quantity_dim y ts e true = Ok (d, b) -> b = true.
Proof.
  induction ts as [|t ts IH]; intros e d b H; cbn [dimension_loop] in H; [injection H as _ <-; reflexivity|].
  apply bind_ok in H as ((dt & (am & ac)) & _ & H). apply bind_ok in H as (e' & _ & H). cbn [orb] in H. exact (IH _ _ _ H).
Qed.
Lemma some_dimension a : proper_unit [s "lx"] a -> exists m c, dimension_in Mks a = Ok m /\ dimension_in Cgs a = Ok c /\ (m <> None \/ c <> None) /\
  (forall d, m = Some d \/ c = Some d -> canonical d).
Proof.
  intros A. destruct (dim_total libm Mks a (proper_lit a A)) as (m & Em & Cm). destruct (dim_total libm Cgs a (proper_lit a A)) as (c & Ec & Cc).
  exists m, c. split; [exact Em|]. split; [exact Ec|]. split; [|intros d [H|H]; auto].
  destruct A as ((NE & A1) & A2). destruct a as [|t a]; [contradiction NE; reflexivity|].
  unfold unit_dimension in Em, Ec. apply bind_ok in Em as (one1 & _ & Em). apply bind_ok in Ec as (one2 & _ & Ec).
  apply bind_ok in Em as ((dm & bm) & Em & Hm). apply bind_ok in Ec as ((dc & bc) & Ec & Hc). cbn [fst snd] in *.
  cbn [dimension_loop] in Em, Ec. apply bind_ok in Em as ((d1 & (am1 & ac1)) & T1 & Em). apply bind_ok in Ec as ((d2 & (am2 & ac2)) & T2 & Ec).
  apply bind_ok in Em as (e1 & _ & Em). apply bind_ok in Ec as (e2 & _ & Ec). cbn [orb] in Em, Ec.
  unfold term_dimension in T1, T2.
  apply bind_ok in T1 as (n & N1 & T1). apply bind_ok in T1 as (x1 & X1 & T1). apply bind_ok in T1 as (z1 & Z1 & T1). apply bind_ok in T1 as (dd & D1 & T1).
  apply bind_ok in T2 as (n' & N2 & T2). rewrite N1 in N2. injection N2 as <-. apply bind_ok in T2 as (x2 & X2 & T2). apply bind_ok in T2 as (z2 & Z2 & T2). rewrite X1 in X2. injection X2 as <-. rewrite Z1 in Z2. injection Z2 as <-.
  apply bind_ok in T2 as (dd2 & D2 & T2).
  assert (am1 = x1 /\ ac1 = z1) as (-> & ->).
  { clear - T1. destruct (if x1 && z1 then dd Mks else if x1 then dd Mks else dd Cgs); [|discriminate T1]. apply bind_ok in T1 as (p & _ & T1). injection T1 as _ <- <-. auto. }
  assert (am2 = x1 /\ ac2 = z1) as (-> & ->).
  { clear - T2. destruct (if x1 && z1 then dd2 Cgs else if x1 then dd2 Mks else dd2 Cgs); [|discriminate T2]. apply bind_ok in T2 as (p & _ & T2). injection T2 as _ <- <-. auto. }
  assert (XZ : x1 || z1 = true).
  { unfold identify in N1. destruct (named_unit (base t)) as [n0|] eqn:NU; [|discriminate N1]. injection N1 as <-.
    pose proof (of_entries (fun n => match is_allowed_in named_unit quantity_unit n Mks, is_allowed_in named_unit quantity_unit n Cgs with | Ok a, Ok b => a || b | _, _ => true end) allowed_somewhere _ _ NU) as H.
    cbv beta in H. rewrite X1, Z1 in H. exact H. }
  apply orb_true_iff in XZ as [-> | ->].
  - apply loop_seen in Em. subst bm. left. injection Hm as <-. cbn. discriminate.
  - apply loop_seen in Ec. subst bc. right. injection Hc as <-. cbn. discriminate.
Qed.
Lemma dims_ok a : proper_unit [s "lx"] a -> exists m c, dimension_in Mks a = Ok m /\ dimension_in Cgs a = Ok c /\
  unit_dimensions libm a = Ok (fun y => match y with Mks => m | Cgs => c end).
Proof.
  intros A. destruct (some_dimension a A) as (m & c & Em & Ec & D & K). exists m, c. split; [exact Em|]. split; [exact Ec|].
  unfold unit_dimensions. rewrite Em, Ec. cbn [bind].
  assert (X : forall d, (m = Some d \/ c = Some d) -> d <> []) by (intros d H; exact (proj1 (canonical_ok d (K d H)))).
  destruct m as [[|t m]|]; [exfalso; apply (X []); auto| |]; (destruct c as [[|t' c]|]; [exfalso; apply (X []); auto| |]); cbn [some_dim]; try reflexivity. destruct D as [D|D]; contradiction D; reflexivity.
Qed.
Lemma dimensionless_ok a : proper_unit [s "lx"] a -> exists b, dimensionless libm a = Ok b.
Proof.
  intros A. destruct (dims_ok a A) as (m & c & _ & _ & E). unfold dimensionless. rewrite E. cbn [bind].
  assert (T : forall d, exists b, is_one_dim libm d = Ok b).
  { intros [d|]; [|eexists; reflexivity]. unfold is_one_dim. destruct (expression_of_str libm (s "1")) as [e|e] eqn:P; [eexists; reflexivity|vm_compute in P; discriminate P]. }
  destruct (T m) as (b1 & ->), (T c) as (b2 & ->). eexists. reflexivity.
Qed.
Lemma decompose_total a : proper_unit [s "lx"] a -> exists x, dec a = Ok x /\ canonical x /\ plain 4 x.
Proof using both.
  intros A. assert (X : s "M" <> one_base) by discriminate.
  destruct (dec_unit_ok expos expos_laws _ libm named_unit order quantity_unit quantity_dim gooddim (respects_dim libm order both Mks (s "M") X (or_introl eq_refl)) a (proper_lit a A)) as (x & E & C & P & _). eauto.
Qed.
(** Comparing units never raises, if conversions fail only with a conversion error. *)
Theorem C73_answers a b : refuses -> proper_unit [s "lx"] a -> proper_unit [s "lx"] b ->
  (exists r, equivalent a b = Ok r) /\ (exists r, consistent_with a b = Ok r).
Proof using both.
  intros W A B.
  assert (E : exists r, equivalent a b = Ok r).
  { unfold unit_and. destruct (eeq a b); [eauto|]. destruct (forallb _ _); [eauto|].
    destruct (dimensionless_ok a A) as (da & ->), (dimensionless_ok b B) as (db & ->). cbn [bind]. destruct (negb _); [eauto|].
    destruct (decompose_total a A) as (x & -> & Cx & Px), (decompose_total b B) as (y & -> & Cy & Py). cbn [bind]. destruct (set_eq x y); [eauto|].
    apply (plain_more 4 2) in Px, Py. rewrite !(of_terms_printable libm) by first [assumption | apply plain_printable; assumption]. cbn [bind].
    destruct (eeq x y); [eauto|]. unfold factor_is_one. destruct (factor _ _) as [f|e] eqn:Ff; [eauto|]. apply W in Ff as ->. eexists. reflexivity. }
  split; [exact E|]. unfold unit_or. destruct (eeq a b); [eauto|]. destruct E as (r & ->). cbn [bind]. destruct r; [eauto|].
  destruct (dims_ok a A) as (m & c & _ & _ & ->), (dims_ok b B) as (m' & c' & _ & _ & ->). cbn [bind].
  destruct (shares_dimension _ _ _); [eauto|]. destruct (equivalent_quantities _ _ _); [eauto|].
  destruct (factor _ _) as [f|e] eqn:Ff; [eauto|]. apply W in Ff as ->. eexists. reflexivity.
Qed.
(** Units with a dimension in common are consistent, and so are units with a
    conversion factor. *)
Theorem C73_consistent a b : refuses -> proper_unit [s "lx"] a -> proper_unit [s "lx"] b ->
  (forall y y' d, dimension_in y a = Ok (Some d) -> dimension_in y' b = Ok (Some d) -> consistent_with a b = Ok true) /\
  (forall f, factor (format_expression b) (format_expression a) = Ok f -> consistent_with a b = Ok true).
Proof using both.
  intros W A B. destruct (C73_answers a b W A B) as ((r & Er) & (r' & Er')). split.
  - intros y y' d Da Db. unfold unit_or in *. rewrite Er in *. cbn [bind] in *. destruct (eeq a b); [reflexivity|]. destruct r; [reflexivity|].
    destruct (dims_ok a A) as (m & c & Em & Ec & Ea), (dims_ok b B) as (m' & c' & Em' & Ec' & Eb). rewrite Ea, Eb in *. cbn [bind] in *.
    replace (shares_dimension order _ _) with true; [reflexivity|symmetry].
    unfold shares_dimension. apply existsb_exists. exists y. split; [destruct both as [-> | ->], y; cbn; auto|].
    assert (H1 : (match y with Mks => m | Cgs => c end) = Some d) by (destruct y; congruence). rewrite H1.
    assert (H2 : (match y' with Mks => m' | Cgs => c' end) = Some d) by (destruct y'; congruence).
    destruct y'; rewrite H2; cbn [opt_dim_eq]; rewrite eeq_refl, ?orb_true_r; reflexivity.
  - intros f Ef. unfold unit_or in *. rewrite Er in *. cbn [bind] in *. destruct (eeq a b); [reflexivity|]. destruct r; [reflexivity|].
    destruct (dims_ok a A) as (m & c & _ & _ & Ea), (dims_ok b B) as (m' & c' & _ & _ & Eb). rewrite Ea, Eb in *. cbn [bind] in *.
    destruct (shares_dimension _ _ _); [reflexivity|]. destruct (equivalent_quantities _ _ _); [reflexivity|]. rewrite Ef. reflexivity.
Qed.
(** Inconsistent units have no dimension in common and cannot be converted. *)
Theorem C73_inconsistent a b : refuses -> proper_unit [s "lx"] a -> proper_unit [s "lx"] b -> consistent_with a b = Ok false ->
  factor (format_expression b) (format_expression a) = Raise (OtherError "UnitConversionError") /\
  forall y y' d, dimension_in y a = Ok (Some d) -> dimension_in y' b <> Ok (Some d).
Proof using both.
  intros W A B E. destruct (C73_consistent a b W A B) as (H1 & H2). split.
  - destruct (factor _ _) as [f|e] eqn:Ff; [rewrite (H2 f eq_refl) in E; discriminate E|]. f_equal. exact (W _ _ _ Ff).
  - intros y y' d Da Db. rewrite (H1 y y' d Da Db) in E. discriminate E.
Qed.
End C73.
Print Assumptions C73_equivalent.
Print Assumptions C73_counts.
Print Assumptions C73_answers.
Print Assumptions C73_consistent.
Print Assumptions C73_inconsistent.

(** ** What does not hold, with the package's own conversions *)
Notation mono_is_one w := (mono_eqb w mono_one).
Notation actual libm := (unit_factor libm NODES [Mks; Cgs]).
Definition v (b : string) (e : Qc) : operand := {| coef := 1; base := s b; expo := e; isterm := true |}.
(** A degree per second is equivalent to a radian per second, which is not its size. *)
Theorem C73_angle_refuted : forall libm,
  unit_and libm [Mks; Cgs] (actual libm) (fun w => mono_is_one w) [v "deg" 1; v "s" (- (1))%Qc] [v "rad" 1; v "s" (- (1))%Qc] = Ok true /\
  compound (S := monos) si_size [v "deg" 1; v "s" (- (1))%Qc] <> compound (S := monos) si_size [v "rad" 1; v "s" (- (1))%Qc].
Proof.
  intros libm. split; [vm_compute; reflexivity|]. intros H. apply (f_equal (fun w => mono_eqb w (compound (S := monos) si_size [v "rad" 1; v "s" (- (1))%Qc]))) in H. vm_compute in H. discriminate H.
Qed.
Print Assumptions C73_angle_refuted.
(** A hertz is consistent with an inverse second, but cannot be converted to it,
    although "consistency provides a way to determine if this unit can convert". *)
Theorem C73_hertz_refuted : forall libm,
  unit_or libm [Mks; Cgs] (actual libm) (fun w => mono_is_one w) [v "Hz" 1] [v "s" (- (1))%Qc] = Ok true /\
  actual libm (format_expression [v "s" (- (1))%Qc]) (format_expression [v "Hz" 1]) = Raise (OtherError "UnitConversionError").
Proof. intros libm. split; vm_compute; reflexivity. Qed.
Print Assumptions C73_hertz_refuted.
(** The hypotheses are met by a newton and its base units. *)
Definition newton := [v "N" 1].
Definition kgms := [v "kg" 1; v "m" 1; v "s" (-(1+1))%Qc].
Example C73_case : forall libm,
  unit_and libm [Mks; Cgs] (actual libm) (fun w => mono_is_one w) newton kgms = Ok true /\
  unit_and libm [Mks; Cgs] (actual libm) (fun w => mono_is_one w) newton [v "kg" 1; v "m" 1] = Ok false /\
  unit_or libm [Mks; Cgs] (actual libm) (fun w => mono_is_one w) newton [v "dyn" 1] = Ok true /\
  unit_or libm [Mks; Cgs] (actual libm) (fun w => mono_is_one w) newton [v "s" 1] = Ok false /\
  unit_and libm [Mks; Cgs] (actual libm) (fun w => mono_is_one w) [v "s" (- (1))%Qc] [v "#" 1; v "s" (- (1))%Qc] = Ok true.
Proof. intros libm. repeat (split; [vm_compute; reflexivity|]). vm_compute; reflexivity. Qed.
Ltac outside_tac := let n := fresh "n" in let H := fresh "H" in let I := fresh "I" in
  intros n H I; vm_compute in H; injection H as <-; apply (mem_spec str_eqb str_decides) in I; vm_compute in I; discriminate I.
Ltac term_tac := split; [reflexivity|split; [reflexivity|split; [discriminate|split; [match goal with |- parts _ ?e => exists (qnum (e * zq 2)%Qc); apply Qc_is_canon; vm_compute; reflexivity end|split;
  [split; vm_compute; discriminate|split; [right; split; reflexivity|eexists; split; vm_compute; reflexivity]]]]]].
Example C73_proper : proper_unit inconsistent newton /\ proper_unit inconsistent kgms.
Proof. split; (split; [split; [discriminate|]|]; repeat (constructor; [first [term_tac | outside_tac]|]); constructor). Qed.
Example C73_canonical : canonical newton /\ canonical kgms.
Proof.
  split; [exists 1%Qc, newton|exists 1%Qc, kgms]; (split; [reflexivity|]; split; [discriminate|]; split; [|split]).
  1, 4: repeat (constructor; [eexists _, _; split; [reflexivity|]; split; [discriminate|]; split; [discriminate|reflexivity]|]); constructor.
  1, 3: repeat first [apply Sorted.SSorted_nil | apply Sorted.SSorted_cons]; repeat first [apply Forall_nil | apply Forall_cons]; vm_compute; auto.
  all: repeat first [apply NoDup_nil | apply NoDup_cons]; cbn; intuition discriminate.
Qed.
Example C73_moderate libm x : decompose_unit_terms libm named_unit [Mks; Cgs] quantity_unit quantity_dim newton = Ok x \/
  decompose_unit_terms libm named_unit [Mks; Cgs] quantity_unit quantity_dim kgms = Ok x -> Forall (fun t => small (expo t)) x.
Proof. intros [H|H]; vm_compute in H; injection H as <-; repeat constructor; vm_compute; discriminate. Qed.
Example C73_refuses : refuses nat (fun _ _ => Raise (OtherError "UnitConversionError")).
Proof. intros x y e H. injection H as <-. reflexivity. Qed.
