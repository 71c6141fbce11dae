(** Valuations of units, and the operators. *)
From Verif Require Import PyBase PyLemmas SymbolicModel SymbolicSpec SymbolicProofs SymbolicRegex SymbolicParse SymbolicTotal SymbolicRoundTrip SymbolicAlgebra MetricModel MetricSpec MetricProofs MetricProofs2 UnitModel UnitOpsModel UnitOpsSpec UnitOpsProofs.
From Coq Require Import Sorting.Sorted Permutation.

Section Values.
Set Default Proof Using "Type".
Variable S : scales.
Hypothesis L : scale_laws S.
Variable val : str -> num S.
Notation cmp := (compound (S := S) val).

Lemma cmp_raise p ts : cmp (map (raise p) ts) = pw (cmp ts) p.
Proof using L.
  induction ts as [|t ts IH]; cbn; [symmetry; apply (one_pw S L)|]. rewrite IH, (pw_dist S L), (pw_mul S L). reflexivity.
Qed.
Lemma cmp_app a b : cmp (a ++ b) = mul (cmp a) (cmp b).
Proof using L. apply (compound_app S L). Qed.
Lemma cmp_reduced k ts r : val one_base = one -> reduced_to k ts r -> cmp r = cmp ts.
Proof using L. intros V R. apply (compound_same S L val); [exact V|]. apply R. Qed.
Lemma cmp_perm a b : Permutation a b -> cmp a = cmp b.
Proof using L.
  induction 1; cbn; try congruence. rewrite !(m_assoc S L), (m_comm S L (pw _ _)). reflexivity.
Qed.
Lemma cmp_eeq a b : Forall (fun t => is_double (expo t) = true) a -> Forall (fun t => is_double (expo t) = true) b ->
  eeq a b = true -> cmp a = cmp b.
Proof using L.
  intros Da Db H. unfold eeq in H. apply andb_true_iff in H as [_ H].
  rewrite (cmp_perm _ _ (sort_by_perm key_lt a)), (cmp_perm _ _ (sort_by_perm key_lt b)).
  assert (Fa : Forall (fun t => is_double (expo t) = true) (sort_by key_lt a)) by (eapply Permutation_Forall; [apply sort_by_perm|exact Da]).
  assert (Fb : Forall (fun t => is_double (expo t) = true) (sort_by key_lt b)) by (eapply Permutation_Forall; [apply sort_by_perm|exact Db]).
  revert H Fa Fb. generalize (sort_by key_lt a) (sort_by key_lt b). clear. intros l. induction l as [|x l IH]; intros [|y m] H Fa Fb; try discriminate; [reflexivity|].
  cbn in H. apply andb_true_iff in H as [H1 H2]. inversion Fa; subst. inversion Fb; subst. cbn. rewrite (IH m) by assumption.
  unfold operand_eqb in H1. apply andb_true_iff in H1 as [H1 _]. apply andb_true_iff in H1 as [H1 H1']. apply str_eqb_eq in H1. apply qc_eqb_eq in H1'.
  rewrite !is_double_fl in H1' by assumption. rewrite H1, H1'. reflexivity.
Qed.

Variable libm : Qc -> Qc -> option Qc.
Variable named : str -> option nunit.
Variable order : list system.
Variable qunit : str -> system -> option str.
Variable qdim : str -> system -> option str.
Notation decomposed := (nu_decomposed libm named order qunit qdim).
Definition known (b : str) : Prop := exists n, named b = Some n /\ n_symbol n = b.
Variable good : str -> Prop.
Definition fine (b : str) : Prop := known b /\ good b.
Record respects : Prop := {
  v_one : val one_base = one;
  v_one_known : fine one_base;
  v_dec : forall u n, good u -> named u = Some n ->
    match decomposed n with
    | Ok None => True
    | Ok (Some ts) => ts <> [] /\ plain 2 ts /\ Forall (fun t => fine (base t)) ts /\ cmp ts = val u
    | Raise e => is_exn e "UnitParsingError" || is_exn e "SystemAmbiguityError" = true
    end }.
Hypothesis R : respects.

Lemma as_symbol_known k t : plain_term k t -> known (base t) -> as_symbol libm named t = Ok t.
Proof.
  intros P (n & Hn & E). unfold as_symbol. rewrite Hn, E. pose proof P as (H1 & H2 & H3 & H4 & H5). unfold term_factory.
  rewrite (writable_valid _ H5). cbn [bind]. pose proof (base_valid_nonempty _ (writable_valid _ H5)) as NE.
  assert (M : mk_operand true 1 (base t) 1 = raise 1 {| coef := 1; base := base t; expo := 1; isterm := true |}).
  { unfold mk_operand, raise. destruct (base t); [congruence|]. reflexivity. }
  rewrite M. rewrite (op_pow_plain libm k).
  - unfold raise. cbn [base expo]. f_equal. destruct t as [c b e i]. cbn in *. subst. f_equal. ring.
  - split; [reflexivity|]. split; [reflexivity|]. split; [discriminate|]. split; [|exact H5]. exact (parts_int k 1).
  - exact H3.
Qed.
Lemma expression_unit_known k e : plain k e -> Forall (fun t => fine (base t)) e -> expression_unit libm named e = Ok e.
Proof.
  intros P K. unfold expression_unit. rewrite (mapM_const _ (fun t => t)); [rewrite map_id; reflexivity|].
  intros t Ht. apply (as_symbol_known k); [exact (proj1 (Forall_forall _ _) P t Ht)|exact (proj1 (proj1 (Forall_forall _ _) K t Ht))].
Qed.
Lemma known_reduced k ts r : Forall (fun t => fine (base t)) ts -> reduced_to k ts r -> Forall (fun t => fine (base t)) r.
Proof using R.
  intros K RT. apply Forall_forall. intros t Ht. destruct (rt_base _ _ _ RT t Ht) as [->|(u & Hu & <-)]; [apply R|].
  exact (proj1 (Forall_forall _ _) K u Hu).
Qed.
Lemma known_raise p ts : Forall (fun t => fine (base t)) ts -> Forall (fun t => fine (base t)) (map (raise p) ts).
Proof. intros K. apply Forall_map. exact K. Qed.

Definition okay (ts : list operand) : Prop := unit_of named 2 ts /\ Forall (fun t => good (base t)) ts.
Lemma okay_plain ts : okay ts -> plain 2 ts /\ Forall (fun t => fine (base t)) ts.
Proof.
  intros ((_ & F) & G). split.
  - eapply Forall_impl; [|exact F]. intros t (H1 & H2 & H3 & H4 & _ & H6 & _). repeat (split; [assumption|]). assumption.
  - rewrite Forall_forall in *. intros t Ht. split; [|exact (G t Ht)]. destruct (F t Ht) as (_ & _ & _ & _ & _ & _ & n & H). exists n. exact H.
Qed.
Lemma small_mul e p : small e -> (zq (-100) <= p)%Qc -> (p <= zq 100)%Qc -> (zq (- 2 ^ 48) <= e * p)%Qc /\ (e * p <= zq (2 ^ 48))%Qc.
Proof.
  intros (S1 & S2) B1 B2. destruct (bound_mul e p (2 ^ 40) 100 S1 S2 B1 B2) as (C1 & C2).
  split; [eapply Qcle_trans; [|exact C1]|eapply Qcle_trans; [exact C2|]]; vm_compute; discriminate.
Qed.
Lemma small_double e : parts 8 e -> small e -> is_double e = true.
Proof.
  intros P (S1 & S2). apply parts_small_double; [exact P| |]; [eapply Qcle_trans; [|exact S1]|eapply Qcle_trans; [exact S2|]]; vm_compute; discriminate.
Qed.
Lemma okay_doubles ts : unit_of named 2 ts -> Forall (fun t => is_double (expo t) = true) ts.
Proof.
  intros (_ & F). eapply Forall_impl; [|exact F]. intros t (_ & _ & _ & H4 & H5 & _). apply small_double; [exact (parts_more 2 4 _ H4)|exact H5].
Qed.
Lemma okay_tame ts p : unit_of named 2 ts -> parts 4 p -> (zq (-100) <= p)%Qc -> (p <= zq 100)%Qc -> tame p ts.
Proof.
  intros U Pp B1 B2. pose proof (okay_doubles ts U) as D. destruct U as (_ & F). unfold tame. rewrite Forall_forall in *. intros t Ht. split; [apply D, Ht|].
  destruct (F t Ht) as (_ & _ & _ & H4 & H5 & _). destruct (small_mul _ _ H5 B1 B2). apply parts_small_double; [exact (parts_mul 2 4 _ _ H4 Pp)| |]; assumption.
Qed.

(** ** decomposition *)
Notation dec_term := (decompose_term libm named order qunit qdim).
Notation dec_unit := (decompose_unit_terms libm named order qunit qdim).
Lemma dec_term_ok t : unit_term named 2 t -> good (base t) ->
  exists ps, dec_term t = Ok ps /\ ps <> [] /\ plain 4 ps /\ Forall (fun t => fine (base t)) ps /\ cmp ps = pw (val (base t)) (expo t).
Proof using R L.
  intros (H1 & H2 & H3 & H4 & H5 & H6 & n & Hn & Es) G. unfold decompose_term, identify. rewrite Hn. cbn [bind].
  pose proof (v_dec R _ n G Hn) as V.
  assert (Self : [t] <> [] /\ plain 4 [t] /\ Forall (fun t => fine (base t)) [t] /\ cmp [t] = pw (val (base t)) (expo t)).
  { split; [discriminate|]. split; [|split].
    - apply (plain_more 2 2). constructor; [|constructor]. repeat (split; [assumption|]). assumption.
    - constructor; [|constructor]. split; [exists n; auto|exact G].
    - cbn. apply (m_1r S L). }
  destruct (decomposed n) as [[ts|]|e].
  - destruct V as (V1 & V2 & V3 & V4). exists (map (raise (expo t)) ts). split; [apply (pow_list libm 2); assumption|].
    split; [destruct ts; [congruence|discriminate]|]. split; [apply (raise_list_plain 2 2); assumption|]. split; [apply known_raise, V3|].
    rewrite cmp_raise, V4. reflexivity.
  - exists [t]. auto.
  - exists [t]. rewrite V. auto.
Qed.
Lemma dec_unit_ok ts : okay ts ->
  exists r, dec_unit ts = Ok r /\ canonical r /\ plain 4 r /\ Forall (fun t => fine (base t)) r /\ cmp r = cmp ts.
Proof using R L.
  intros ((N & F) & G).
  assert (exists ps, mapM dec_term ts = Ok ps /\ (ts <> [] -> concat ps <> []) /\ plain 4 (concat ps) /\ Forall (fun t => fine (base t)) (concat ps) /\ cmp (concat ps) = cmp ts) as (ps & E & P1 & P2 & P3 & P4).
  { clear N. induction F as [|t ts Ft F IH]; [exists []; repeat split; try constructor; congruence|].
    inversion G as [|? ? Gt G']; subst. destruct (IH G') as (ps & E & P1 & P2 & P3 & P4). destruct (dec_term_ok t Ft Gt) as (p & Ep & Q1 & Q2 & Q3 & Q4).
    exists (p :: ps). cbn [mapM]. rewrite Ep. cbn [bind]. rewrite E. cbn [bind concat]. split; [reflexivity|]. split; [intros _ H; apply app_eq_nil in H as [H _]; contradiction|].
    split; [apply plain_app; assumption|]. split; [apply Forall_app; auto|]. rewrite cmp_app, P4, Q4. reflexivity. }
  unfold decompose_unit_terms. rewrite E. cbn [bind]. destruct (reduce_plain 4 (concat ps) (P1 N) P2) as (r & RT). exists r.
  split; [apply RT|]. split; [apply RT|]. split; [apply RT|]. split; [eapply known_reduced; eassumption|]. rewrite (cmp_reduced _ _ _ (v_one R) RT). exact P4.
Qed.

(** ** operators *)
Lemma reduced_sub k l ts r : ts <> [] -> reduced_to k ts r -> plain l ts -> plain l r.
Proof.
  intros N RT P. destruct (reduce_plain l ts N P) as (r' & RT'). pose proof (rt_reduce _ _ _ RT) as E. rewrite (rt_reduce _ _ _ RT') in E. injection E as <-. apply RT'.
Qed.
Definition proper (r : list operand) : Prop := canonical r /\ plain 4 r /\ Forall (fun t => fine (base t)) r.
Lemma apply_mul a b : okay a -> okay b -> exists r, apply_operator libm named order qunit qdim (emul libm) a b = Ok r /\ proper r /\ cmp r = mul (cmp a) (cmp b).
Proof using R L.
  intros A B. destruct (dec_unit_ok a A) as (da & Ea & A1 & A2 & A3 & A4). destruct (dec_unit_ok b B) as (db & Eb & B1 & B2 & B3 & B4).
  pose proof A2 as A2'. pose proof B2 as B2'. apply (plain_more 4 2) in A2, B2. unfold apply_operator. rewrite Ea, Eb. cbn [bind].
  rewrite !(of_terms_printable libm) by first [assumption | apply plain_printable; assumption]. cbn [bind].
  destruct (emul_plain libm da db A1 B1 A2 B2) as (r & -> & RT). cbn [bind]. exists r.
  assert (K : Forall (fun t => fine (base t)) r) by (eapply known_reduced; [|exact RT]; apply Forall_app; auto).
  split; [apply (expression_unit_known 8); [apply RT|exact K]|]. split; [split; [apply RT|split; [|exact K]]|].
  { eapply reduced_sub; [|exact RT|apply plain_app; assumption]. destruct (canonical_ok da A1). destruct da; [congruence|discriminate]. }
  rewrite (cmp_reduced _ _ _ (v_one R) RT), cmp_app, A4, B4. reflexivity.
Qed.
Lemma apply_div a b : okay a -> okay b -> exists r, apply_operator libm named order qunit qdim (ediv libm) a b = Ok r /\ proper r /\ cmp r = over (cmp a) (cmp b).
Proof using R L.
  intros A B. destruct (dec_unit_ok a A) as (da & Ea & A1 & A2 & A3 & A4). destruct (dec_unit_ok b B) as (db & Eb & B1 & B2 & B3 & B4).
  pose proof A2 as A2'. pose proof B2 as B2'. apply (plain_more 4 2) in A2, B2. unfold apply_operator. rewrite Ea, Eb. cbn [bind].
  rewrite !(of_terms_printable libm) by first [assumption | apply plain_printable; assumption]. cbn [bind].
  destruct (ediv_plain libm da db A1 B1 A2 B2) as (r & -> & RT). cbn [bind]. exists r.
  assert (K : Forall (fun t => fine (base t)) r) by (eapply known_reduced; [|exact RT]; apply Forall_app; split; [exact A3|apply known_raise, B3]).
  split; [apply (expression_unit_known 8); [apply RT|exact K]|]. split; [split; [apply RT|split; [|exact K]]|].
  { eapply reduced_sub; [|exact RT|apply plain_app; [assumption|]]; [destruct (canonical_ok da A1); destruct da; [congruence|discriminate]|].
    change 4%positive with (4 * 1)%positive. apply raise_list_plain; [assumption|discriminate|apply parts_int]. }
  rewrite (cmp_reduced _ _ _ (v_one R) RT), cmp_app, cmp_raise, A4, B4. unfold over. f_equal.
  change (zq (-1)) with (zq (- (1))%Z). rewrite <- zq_opp, zq_1, (pw_opp S L), (pw_one S L). reflexivity.
Qed.
Theorem mul_value a b : okay a -> okay b -> exists r, unit_mul libm named order qunit qdim a b = Ok r /\ proper r /\ cmp r = mul (cmp a) (cmp b).
Proof using R L.
  intros A B. unfold unit_mul. destruct (eeq a b) eqn:E; [|apply apply_mul; assumption].
  pose proof A as (UA & _). pose proof B as (UB & _). destruct (okay_plain a A) as (P & K).
  destruct (epow_plain libm 2 1 a (zq 2)) as (r & -> & RT); try assumption; try reflexivity.
  - apply UA.
  - discriminate.
  - apply parts_int.
  - exists 4%positive. reflexivity.
  - apply okay_tame; [exact UA|apply parts_int| |]; vm_compute; discriminate.
  - cbn [bind]. exists r. assert (K' : Forall (fun t => fine (base t)) r) by (eapply known_reduced; [|exact RT]; apply known_raise, K).
    split; [apply (expression_unit_known 8); [apply RT|exact K']|]. split; [split; [apply RT|split; [|exact K']]|].
    { eapply reduced_sub; [|exact RT|]; [destruct UA as (NA & _); destruct a; [congruence|discriminate]|]. apply (plain_more 2 2). change 2%positive with (2 * 1)%positive. apply raise_list_plain; [assumption|discriminate|apply parts_int]. }
    rewrite (cmp_reduced _ _ _ (v_one R) RT), cmp_raise, <- (cmp_eeq a b (okay_doubles a UA) (okay_doubles b UB) E).
    change (zq 2) with (zq (1 + 1)). rewrite <- zq_add, zq_1, (pw_add S L), (pw_one S L). reflexivity.
Qed.
Theorem div_value a b : okay a -> okay b -> exists r, unit_div libm named order qunit qdim a b = Ok r /\ proper r /\ cmp r = over (cmp a) (cmp b).
Proof using R L.
  intros A B. unfold unit_div. destruct (eeq a b) eqn:E; [|apply apply_div; assumption].
  pose proof A as (UA & _). pose proof B as (UB & _).
  assert (P : plain 8 [const_term 1]).
  { constructor; [|constructor]. split; [reflexivity|]. split; [reflexivity|]. split; [discriminate|]. split; [exact (parts_int 8 1)|left; reflexivity]. }
  assert (P4 : plain 4 [const_term 1]).
  { constructor; [|constructor]. split; [reflexivity|]. split; [reflexivity|]. split; [discriminate|]. split; [exact (parts_int 4 1)|left; reflexivity]. }
  assert (K : Forall (fun t => fine (base t)) [const_term 1]) by (constructor; [apply R|constructor]).
  exists [const_term 1]. split; [|split; [split; [apply canonical_one|split; [exact P4|exact K]]|]].
  - unfold arg_terms. cbn [arg_expression]. change (s "1") with (format_expression [const_term 1]). rewrite (parse_format libm) by first [apply canonical_one|reflexivity].
    cbn [bind]. exact (expression_unit_known 8 _ P K).
  - rewrite (cmp_eeq a b (okay_doubles a UA) (okay_doubles b UB) E), (over_self S L). change (mul (pw (val one_base) 1%Qc) one = one). rewrite (v_one R), (one_pw S L). apply (m_1l S L).
Qed.
Theorem pow_value a p q : okay a -> p = Exact q \/ p = Float q -> q <> 0%Qc -> parts 2 q -> (zq (-100) <= q)%Qc -> (q <= zq 100)%Qc ->
  exists r, unit_pow libm named a p = Ok r /\ proper r /\ cmp r = pw (cmp a) q.
Proof using R L.
  intros A Hp N Q0 B1 B2. pose proof A as (U & _). destruct (okay_plain a A) as (P & K). pose proof (parts_more 2 2 _ Q0) as Q. unfold unit_pow.
  assert (E : mapM (term_pow libm p) a = Ok (map (raise q) a)).
  { destruct Hp as [-> | ->]; cbn [term_pow]; [apply (pow_list libm 2); assumption|apply (powf_list libm 2); try assumption; apply okay_tame; assumption]. }
  rewrite E. cbn [bind]. unfold arg_terms. cbn [arg_expression].
  destruct (of_terms_plain libm (map (raise q) a)) as (r & -> & RT).
  - destruct U as (U & _). destruct a; [congruence|discriminate].
  - apply (raise_list_plain 2 4); assumption.
  - cbn [bind]. exists r. assert (K' : Forall (fun t => fine (base t)) r) by (eapply known_reduced; [|exact RT]; apply known_raise, K).
    split; [apply (expression_unit_known 8); [apply RT|exact K']|]. split; [split; [apply RT|split; [|exact K']]|].
    { eapply reduced_sub; [|exact RT|]; [destruct U as (NA & _); destruct a; [congruence|discriminate]|]. apply (raise_list_plain 2 2); assumption. }
    rewrite (cmp_reduced _ _ _ (v_one R) RT), cmp_raise. reflexivity.
Qed.
End Values.
