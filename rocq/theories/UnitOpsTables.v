(** * The tables of the package respect dimensions and, with exceptions, sizes *)
From Verif Require Import PyBase PyLemmas SymbolicModel SymbolicSpec SymbolicProofs SymbolicRegex SymbolicParse SymbolicTotal SymbolicRoundTrip SymbolicAlgebra ContainerModel ContainerSpec ContainerProofs ContainerProofs2 AliasedModel MetricModel MetricSpec MetricTables MetricSizes MetricProofs MetricProofs2 UnitModel UnitOpsModel UnitOpsSpec UnitOpsProofs UnitOpsProofs2.

(** exponents of one base dimension *)
Definition expos : scales := {| num := Qc; one := 0%Qc; mul := Qcplus; inv := Qcopp; pw := Qcmult; ten := 0%Qc |}.
Lemma expos_laws : scale_laws expos.
Proof. constructor; cbn; intros; ring. Qed.
Definition DIMS : list str := [s "M"; s "L"; s "T"; s "I"; s "H"; s "N"; s "J"].

Section Tables.
Set Default Proof Using "Type".
Variable libm : Qc -> Qc -> option Qc.
Notation dims n := (nu_dimensions libm named_unit quantity_unit quantity_dim n).
(** the dimension [Unit.dimensions] uses for a named unit in a system *)
Definition dim_at (y : system) (n : nunit) : result (list operand) :=
  am <- is_allowed_in named_unit quantity_unit n Mks ;; ac <- is_allowed_in named_unit quantity_unit n Cgs ;;
  d <- dims n ;;
  match (if am && ac then d y else if am then d Mks else d Cgs) with None => Raise TypeError | Some e => Ok e end.
Definition dim_val (y : system) (x u : str) : Qc :=
  match named_unit u with
  | Some n => match dim_at y n with Ok e => mono_expo x e | Raise _ => 0%Qc end
  | None => 0%Qc
  end.
Definition plain_check (k : positive) (t : operand) : bool :=
  isterm t && qc_eqb (coef t) 1 && negb (qc_eqb (expo t) 0) && q_isint (expo t * zq (Zpos k))%Qc
  && (str_eqb (base t) one_base || (is_symbol (base t) && negb (sqrt_prefix (base t)))).
Lemma isint_zq e : q_isint e = true -> exists z, e = zq z.
Proof. intros H. exists (qnum e). rewrite <- (mkq_this e) at 1. unfold q_isint in H. apply Pos.eqb_eq in H. rewrite H. reflexivity. Qed.
Lemma plain_check_ok k t : plain_check k t = true -> plain_term k t.
Proof.
  unfold plain_check. rewrite !andb_true_iff, negb_true_iff, orb_true_iff, andb_true_iff, negb_true_iff. intros ((((H1 & H2) & H3) & H4) & H5).
  split; [exact H1|]. split; [apply qc_eqb_eq, H2|]. split; [intros E; apply qc_eqb_eq in E; congruence|]. split; [exact (isint_zq _ H4)|].
  destruct H5 as [E|E]; [left; apply str_eqb_eq, E|right; exact E].
Qed.
Definition known_check (t : operand) : bool :=
  match named_unit (base t) with Some n => str_eqb (n_symbol n) (base t) && negb (mem str_eqb (b_sym n) inconsistent) | None => false end.
Definition consistent (u : str) : Prop := outside inconsistent u.
Lemma known_check_ok t : known_check t = true -> known named_unit (base t) /\ consistent (base t).
Proof.
  unfold known_check, known, consistent, outside. destruct named_unit as [n|]; [|discriminate]. intros H. apply andb_true_iff in H as (H & K). apply str_eqb_eq in H. split; [exists n; auto|].
  intros m [= <-] I. apply (mem_spec str_eqb str_decides) in I. rewrite I in K. discriminate.
Qed.
Definition lx (n : nunit) : bool := str_eqb (b_sym n) (s "lx").
Variable order : list system.
Notation dec n := (nu_decomposed libm named_unit order quantity_unit quantity_dim n).
Definition dec_check (n : nunit) : bool :=
  match dec n with
  | Ok None => true
  | Ok (Some ts) =>
      match ts with [] => false | _ => true end && forallb (plain_check 2) ts && forallb known_check ts &&
      (forallb (fun y => forallb (fun x => qc_eqb (compound (S := expos) (dim_val y x) ts) (match dim_at y n with Ok e => mono_expo x e | Raise _ => 0%Qc end)) DIMS) [Mks; Cgs])
  | Raise e => lx n
  end.
(** dimensions in the tables: canonical products of base dimensions *)
Definition dim_ok (e : list operand) : bool :=
  forallb (plain_check 2) e && forallb (fun t => str_eqb (base t) one_base || mem str_eqb (base t) DIMS) e
  && forallb (fun t => qc_leb (zq (-10)) (expo t) && qc_leb (expo t) (zq 10)) e
  && match e with [] => false | _ => true end.
Definition dim_check (n : nunit) : bool :=
  lx n || forallb (fun y => match dim_at y n with Ok e => dim_ok e | Raise _ => false end) [Mks; Cgs].
Definition size_check (n : nunit) : bool :=
  match dec n with
  | Ok (Some ts) => mono_eqb (compound (S := monos) si_size ts) (named_size n)
  | _ => true
  end.
End Tables.
Lemma dec_checks libm order : order = [Mks; Cgs] \/ order = [Cgs; Mks] -> forallb (fun e => dec_check libm order (snd e)) NAMED = true.
Proof. intros [-> | ->]; vm_compute; reflexivity. Qed.
Lemma dim_checks libm : forallb (fun e => dim_check libm (snd e)) NAMED = true.
Proof. vm_compute; reflexivity. Qed.
Lemma size_checks libm order : order = [Mks; Cgs] \/ order = [Cgs; Mks] ->
  forallb (fun e => mem str_eqb (b_sym (snd e)) inconsistent || size_check libm order (snd e)) NAMED = true.
Proof. intros [-> | ->]; vm_compute; reflexivity. Qed.
