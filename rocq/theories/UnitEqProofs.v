(** Proofs for C73: equivalent units have one size and one dimension. *)
From Verif Require Import PyBase PyLemmas SymbolicModel SymbolicSpec SymbolicProofs SymbolicRegex SymbolicParse SymbolicTotal SymbolicRoundTrip SymbolicAlgebra ContainerModel ContainerSpec ContainerProofs ContainerProofs2 AliasedModel MetricModel MetricSpec MetricTables MetricSizes MetricProofs MetricProofs2 UnitModel UnitOpsModel UnitOpsSpec UnitOpsProofs UnitOpsProofs2 UnitOpsTables UnitOpsProofs3 NormalizeModel UnitEqModel.
From Coq Require Import Permutation.

Lemma same_term_eq k t u : plain_term k t -> plain_term k u -> (same_term t u = true <-> t = u).
Proof.
  intros (T1 & T2 & _) (U1 & U2 & _). unfold same_term. rewrite !andb_true_iff, str_eqb_eq, !qc_eqb_eq. split; [|intros ->; auto].
  destruct t, u. cbn in *. intros ((-> & ->) & ->). congruence.
Qed.
Lemma term_in_spec k t l : plain_term k t -> plain k l -> (term_in t l = true <-> In t l).
Proof.
  intros T P. unfold term_in. rewrite existsb_exists. unfold plain in P. rewrite Forall_forall in P. split.
  - intros (u & I & E). apply (same_term_eq k t u T (P u I)) in E. subst u. exact I.
  - intros I. exists t. split; [exact I|]. apply (same_term_eq k t t T T). reflexivity.
Qed.
Lemma canonical_distinct r : canonical r -> NoDup r.
Proof.
  intros (c & vs & -> & _ & F & _ & N). apply NoDup_map_inv in N.
  destruct vs as [|v vs]; [repeat constructor; intros []|]. destruct (qc_eqb c 1); [exact N|].
  constructor; [|exact N]. intros I. rewrite Forall_forall in F. destruct (F _ I) as (b & e & E & B & _). apply B. unfold const_term, var_term in E. injection E as _ <- _. reflexivity.
Qed.
(** a term that prints as [#] or [1] *)
Lemma unity_base k t : plain_term k t -> unity_text t = true -> base t = one_base \/ base t = s "#".
Proof.
  intros (_ & C & _ & _ & W) H. destruct W as [W|(W & _)]; [left; exact W|]. unfold unity_text, format_term in H.
  destruct (str_eqb (base t) (s "1")) eqn:E; [left; apply str_eqb_eq, E|].
  assert (NE : base t <> []) by (intros X; rewrite X in W; discriminate W).
  unfold format_coefficient in H. rewrite E, C in H.
  destruct (base t) as [|c l] eqn:B; [contradiction|].
  right. apply orb_true_iff in H as [H|H]; apply str_eqb_eq in H; cbn in H; injection H as -> H.
  - destruct l; [reflexivity|discriminate H].
  - exfalso. destruct l; [|discriminate H]. discriminate E.
Qed.

Section Generic.
Set Default Proof Using "Type".
Variable S : scales.
Hypothesis L : scale_laws S.
Variable val : str -> num S.
Notation cmp := (compound (S := S) val).
Lemma set_eq_cmp k a b : NoDup a -> NoDup b -> plain k a -> plain k b -> set_eq a b = true -> cmp a = cmp b.
Proof using L.
  intros NA NB A B E. apply (cmp_perm S L). apply NoDup_Permutation; [exact NA|exact NB|].
  unfold set_eq in E. rewrite andb_true_iff, !forallb_forall in E. destruct E as (E1 & E2).
  unfold plain in A, B. intros t. split; intros I; apply (term_in_spec k); auto; rewrite Forall_forall in *; auto.
Qed.
Lemma cmp_unity l : val one_base = one -> val (s "#") = one -> (forall t, In t l -> base t = one_base \/ base t = s "#") -> cmp l = one.
Proof using L.
  intros V1 V2 H. induction l as [|t l IH]; [reflexivity|]. cbn [compound]. rewrite IH by (intros u I; apply H; right; exact I).
  destruct (H t (or_introl eq_refl)) as [-> | ->]; rewrite ?V1, ?V2, (one_pw S L), (mul_one S L); reflexivity.
Qed.
Lemma cmp_parts f l : cmp l = mul (cmp (filter f l)) (cmp (filter (fun t => negb (f t)) l)).
Proof using L.
  rewrite <- (cmp_app S L). apply (cmp_perm S L). induction l as [|t l IH]; [constructor|]. cbn [filter].
  destruct (f t); cbn [negb app]; [constructor; exact IH|]. apply Permutation_cons_app, IH.
Qed.
Lemma unity_cmp k a b : val one_base = one -> val (s "#") = one -> NoDup a -> NoDup b -> plain k a -> plain k b ->
  forallb unity_text (sym_diff a b) = true -> cmp a = cmp b.
Proof using L.
  intros V1 V2 NA NB A B E. unfold sym_diff in E. rewrite forallb_app, andb_true_iff, !forallb_forall in E. destruct E as (E1 & E2).
  assert (PA : forall t, In t a -> plain_term k t) by (apply Forall_forall, A). assert (PB : forall t, In t b -> plain_term k t) by (apply Forall_forall, B).
  rewrite (cmp_parts (fun t => term_in t b) a), (cmp_parts (fun t => term_in t a) b).
  rewrite (cmp_unity (filter (fun t => negb (term_in t b)) a) V1 V2), (cmp_unity (filter (fun t => negb (term_in t a)) b) V1 V2).
  - f_equal. apply (cmp_perm S L). apply NoDup_Permutation; [apply NoDup_filter, NA|apply NoDup_filter, NB|].
    intros t. rewrite !filter_In. split; intros (I & T).
    + pose proof T as T'. apply (term_in_spec k) in T'; [|auto|exact B]. split; [exact T'|]. apply (term_in_spec k); auto.
    + pose proof T as T'. apply (term_in_spec k) in T'; [|auto|exact A]. split; [exact T'|]. apply (term_in_spec k); auto.
  - intros t I. apply (unity_base k); [apply PB; apply filter_In in I; tauto|apply E2, I].
  - intros t I. apply (unity_base k); [apply PA; apply filter_In in I; tauto|apply E1, I].
Qed.

Variable libm : Qc -> Qc -> option Qc.
Variable order : list system.
Variable good : str -> Prop.
Hypothesis R : respects S val libm named_unit order quantity_unit quantity_dim good.
Hypothesis V : val (s "#") = one.
Notation dec := (decompose_unit_terms libm named_unit order quantity_unit quantity_dim).
(** Every way to be equivalent, but by conversion, keeps the value. *)
Lemma and_value F (factor : str -> str -> result F) is_one a b : okay named_unit good a -> okay named_unit good b -> canonical a -> canonical b ->
  (forall x, dec a = Ok x \/ dec b = Ok x -> Forall (fun t => small (expo t)) x) ->
  unit_and libm order factor is_one a b = Ok true ->
  cmp a = cmp b \/ exists f, factor (format_expression b) (format_expression a) = Ok f /\ is_one f = true.
Proof using L R V.
  intros A B CA CB M E. destruct (okay_plain _ _ _ A) as (PA & _). destruct (okay_plain _ _ _ B) as (PB & _).
  unfold unit_and in E. destruct (eeq a b) eqn:E1.
  { left. apply (cmp_eeq S L); [apply (okay_doubles named_unit), A|apply (okay_doubles named_unit), B|exact E1]. }
  destruct (forallb unity_text (sym_diff a b)) eqn:E2.
  { left. apply (unity_cmp 2); auto using canonical_distinct. exact (v_one _ _ _ _ _ _ _ _ R). }
  destruct (dimensionless libm a) as [da|]; [|discriminate E]. destruct (dimensionless libm b) as [db|]; [|discriminate E]. cbn [bind] in E.
  destruct (negb (Bool.eqb da db)); [discriminate E|].
  destruct (dec_unit_ok S L val libm named_unit order quantity_unit quantity_dim good R a A) as (x & Ex & X1 & X2 & X3 & X4).
  destruct (dec_unit_ok S L val libm named_unit order quantity_unit quantity_dim good R b B) as (y & Ey & Y1 & Y2 & Y3 & Y4).
  pose proof (M x (or_introl Ex)) as MX. pose proof (M y (or_intror Ey)) as MY.
  rewrite Ex, Ey in E. cbn [bind] in E. destruct (set_eq x y) eqn:E3.
  { left. rewrite <- X4, <- Y4. apply (set_eq_cmp 4); auto using canonical_distinct. }
  pose proof (plain_more 4 2 _ X2) as X2'. pose proof (plain_more 4 2 _ Y2) as Y2'.
  rewrite !(of_terms_printable libm) in E by first [assumption | apply plain_printable; assumption]. cbn [bind] in E.
  assert (D : forall l, plain 4 l -> Forall (fun t => small (expo t)) l -> Forall (fun t => is_double (expo t) = true) l).
  { intros l Pl Ml. apply (plain_more 4 2) in Pl. unfold plain in Pl. rewrite Forall_forall in *. intros t I. apply small_double; [|exact (Ml t I)]. destruct (Pl t I) as (_ & _ & _ & H & _). exact H. }
  destruct (eeq x y) eqn:E4.
  { left. rewrite <- X4, <- Y4. apply (cmp_eeq S L); auto. }
  right. unfold factor_is_one in E. destruct (factor _ _) as [f|e]; [|destruct (is_exn e _); discriminate E]. exists f. split; [reflexivity|]. injection E as E. exact E.
Qed.
End Generic.
