(** The algebra of expressions (C03): products, quotients and powers go through
    reduction, printing and parsing. *)
From Verif Require Import PyBase PyLemmas SymbolicModel SymbolicSpec SymbolicProofs SymbolicRegex SymbolicParse SymbolicRoundTrip.
From Coq Require Import Permutation.

Section Algebra.
Variable libm_pow : Qc -> Qc -> option Qc.
Set Default Proof Using "Type".
Notation emul := (emul libm_pow).
Notation ediv := (ediv libm_pow).
Notation epow := (epow libm_pow).
Notation op_pow := (op_pow libm_pow).

Lemma canonical_cons r : canonical r -> exists t ts, r = t :: ts.
Proof. intros C. destruct (canonical_ok r C) as [N _]. destruct r as [|t ts]; [congruence | eauto]. Qed.

Lemma emul_eq a b : canonical a -> canonical b ->
  emul a b = (r <- reduce (a ++ b) ;; expression_of_terms libm_pow r).
Proof. intros _ C. destruct (canonical_cons b C) as (t & ts & ->). reflexivity. Qed.

Lemma emul_comm a b : canonical a -> canonical b -> emul a b = emul b a.
Proof.
  intros Ca Cb. rewrite !emul_eq by assumption.
  destruct (canonical_ok a Ca) as [Na Fa]. destruct (canonical_ok b Cb) as [Nb Fb].
  rewrite (reduce_unique (a ++ b) (b ++ a)); [reflexivity| | | | |].
  - destruct a; [congruence|discriminate].
  - destruct b; [congruence|discriminate].
  - apply Forall_app; auto.
  - apply Forall_app; auto.
  - split; [rewrite !mono_coef_app; ring | intros x _; rewrite !mono_expo_app; ring].
Qed.

Lemma reduce_to ts r : ts <> [] -> Forall term_ok ts -> canonical r -> same_monomial r ts -> reduce ts = Ok r.
Proof.
  intros N F C S. destruct (canonical_ok r C) as [Nr Fr].
  rewrite <- (reduce_unique r ts Nr N Fr F S). apply canonical_fixed, C.
Qed.

Lemma emul_product a b r : canonical a -> canonical b -> is_product r a b -> printable r = true ->
  emul a b = Ok r.
Proof.
  intros Ca Cb (Cr & M & X) P. rewrite emul_eq by assumption.
  destruct (canonical_ok a Ca) as [Na Fa]. destruct (canonical_ok b Cb) as [Nb Fb].
  rewrite (reduce_to _ r); auto.
  - cbn [bind]. apply of_terms_printable; assumption.
  - destruct a; [congruence|discriminate].
  - apply Forall_app; auto.
  - split; [rewrite mono_coef_app; exact M | intros x Hx; rewrite mono_expo_app; auto].
Qed.

(** a canonical product, quotient always exists *)
Lemma product_exists a b : canonical a -> canonical b -> exists r, is_product r a b.
Proof.
  intros Ca Cb. destruct (canonical_ok a Ca) as [Na Fa]. destruct (canonical_ok b Cb) as [Nb Fb].
  assert (N : a ++ b <> []) by (destruct a; [congruence|discriminate]).
  assert (F : Forall term_ok (a ++ b)) by (apply Forall_app; auto).
  destruct (reduce_ok _ N F) as (r & R). exists r.
  destruct (reduce_same _ _ N F R) as [S1 S2].
  split; [eapply reduce_canonical; eassumption|]. split.
  - rewrite S1. apply mono_coef_app.
  - intros x Hx. rewrite S2 by exact Hx. apply mono_expo_app.
Qed.

(** terms raised to minus one *)
Lemma inverse_terms b : Forall term_ok b ->
  exists b', mapM (fun t => op_pow t (zq (-1))) b = Ok b' /\ Forall term_ok b' /\ length b' = length b /\
    mono_coef b' = Qcinv (mono_coef b) /\ forall x, mono_expo x b' = (- mono_expo x b)%Qc.
Proof.
  induction 1 as [|t b Ht Hb IH].
  - exists []. repeat split; try constructor; intros; try (simpl; ring).
  - destruct IH as (b' & E & F & L & M & X). destruct Ht as (T1 & T2 & T3 & T4).
    pose proof (base_valid_nonempty _ T4) as T5.
    assert (O : op_pow t (zq (-1)) = Ok (raised t (zq (-1)))).
    { apply op_pow_raised; auto; try discriminate. }
    exists (raised t (zq (-1)) :: b'). cbn [mapM]. rewrite O. cbn [bind]. rewrite E. cbn [bind].
    destruct (raised_ok t (zq (-1)) T2 T3) as [R1 R2]; [discriminate|].
    repeat split; auto.
    + constructor; [|exact F]. unfold term_ok. repeat split; auto.
    + simpl. rewrite L. reflexivity.
    + cbn [mono_coef fold_right] in *. fold (mono_coef b'). rewrite M.
      cbn [raised coef]. rewrite zq_num, qpowz_m1. fold (mono_coef b).
      field. split; [apply mono_coef_nonzero, Hb | exact T2].
    + intros x. cbn [mono_expo fold_right raised base expo]. fold (mono_expo x b') (mono_expo x b).
      rewrite X, zq_m1_mul. destruct (str_eqb (base t) x); ring.
Qed.

Lemma ediv_quotient a b r : canonical a -> canonical b -> is_quotient r a b -> printable r = true ->
  ediv a b = Ok r.
Proof.
  intros Ca Cb (Cr & M & X) P.
  destruct (canonical_ok a Ca) as [Na Fa]. destruct (canonical_ok b Cb) as [Nb Fb].
  destruct (inverse_terms b Fb) as (b' & E & F & _ & M' & X').
  unfold SymbolicModel.ediv. destruct b as [|t ts]; [congruence|]. rewrite E. cbn [bind].
  rewrite (reduce_to _ r); auto.
  - cbn [bind]. apply of_terms_printable; assumption.
  - destruct a; [congruence|discriminate].
  - apply Forall_app; auto.
  - split; [rewrite mono_coef_app, M', M; reflexivity | intros x Hx; rewrite mono_expo_app, X', X by exact Hx; ring].
Qed.

Lemma canonical_one : canonical [const_term 1].
Proof. exists 1%Qc, []. repeat split; try constructor. discriminate. Qed.

Lemma ediv_self a : canonical a -> ediv a a = Ok [const_term 1].
Proof.
  intros C. apply ediv_quotient; auto.
  split; [apply canonical_one|]. destruct (canonical_ok a C) as [_ F]. split.
  - cbn [mono_coef fold_right coef const_term]. fold (mono_coef a). field. apply mono_coef_nonzero, F.
  - intros x Hx. cbn [mono_expo fold_right base const_term].
    destruct (str_eqb_spec one_base x); [congruence|]. ring.
Qed.

(** dividing by a factor *)
Lemma emul_ediv a b r : canonical a -> canonical b -> printable a = true -> printable r = true ->
  emul a b = Ok r -> is_product r a b -> ediv r b = Ok a.
Proof.
  intros Ca Cb Pa Pr _ (Cr & M & X). apply ediv_quotient; auto.
  destruct (canonical_ok b Cb) as [_ Fb]. split; [exact Ca|]. split.
  - rewrite M. field. apply mono_coef_nonzero, Fb.
  - intros x Hx. rewrite X by exact Hx. ring.
Qed.

Lemma emul_assoc a b c ab bc abc :
  canonical a -> canonical b -> canonical c ->
  is_product ab a b -> is_product bc b c -> is_product abc ab c ->
  printable ab = true -> printable bc = true -> printable abc = true ->
  (x <- emul a b ;; emul x c) = Ok abc /\ (x <- emul b c ;; emul a x) = Ok abc.
Proof.
  intros Ca Cb Cc Hab Hbc Habc Pab Pbc Pabc.
  rewrite (emul_product a b ab), (emul_product b c bc) by assumption. cbn [bind].
  destruct Hab as (Cab & Mab & Xab). destruct Hbc as (Cbc & Mbc & Xbc). destruct Habc as (Cabc & Mabc & Xabc).
  split; apply emul_product; auto; repeat split; auto.
  - rewrite Mabc, Mab, Mbc. ring.
  - intros x Hx. rewrite Xabc, Xab, Xbc by exact Hx. ring.
Qed.

(** powers of an expression without numeric coefficient *)
Lemma canonical_unit_coef a : canonical a -> mono_coef a = 1%Qc -> Forall (fun t => coef t = 1%Qc) a.
Proof.
  intros (c & vs & -> & Nc & F & _) M.
  assert (FV : Forall (fun t => coef t = 1%Qc) vs).
  { eapply Forall_impl; [|exact F]. intros t (b & e & -> & _). reflexivity. }
  assert (EC : c = 1%Qc).
  { rewrite <- M. symmetry. apply (assemble_mono c vs), mono_coef_vars, F. }
  subst c. destruct vs; [repeat constructor|]. rewrite qc_eqb_refl. exact FV.
Qed.

Lemma op_powf_exact t p : coef t = 1%Qc -> expo t <> 0%Qc -> base t <> [] -> p <> 0%Qc ->
  is_double (expo t) = true -> is_double (expo t * p)%Qc = true ->
  op_powf libm_pow t p = Ok {| coef := 1; base := base t; expo := (expo t * p)%Qc; isterm := isterm t |}.
Proof.
  intros C E B P D1 D2. unfold op_powf, float_pow. rewrite C, fl_1. cbn [bind].
  change (qc_eqb 1 1) with true. cbn [bind].
  rewrite (is_double_fl _ D1), (is_double_fl _ D2). unfold mk_operand.
  rewrite (or1_id (expo t * p)%Qc) by (apply qc_mul_nonzero; assumption).
  destruct (base t); [congruence|reflexivity].
Qed.

Lemma power_terms a p : p <> 0%Qc -> Forall term_ok a -> Forall (fun t => coef t = 1%Qc) a -> exact_expos p a = true ->
  exists a', mapM (fun t => op_powf libm_pow t p) a = Ok a' /\ Forall term_ok a' /\ length a' = length a /\
    mono_coef a' = 1%Qc /\ forall x, mono_expo x a' = (p * mono_expo x a)%Qc.
Proof.
  intros P. induction a as [|t a IH]; intros F C D.
  - exists []. repeat split; try constructor. intros x. simpl. ring.
  - inversion F as [|? ? (T1 & T2 & T3 & T4) F']; subst. inversion C as [|? ? C1 C']; subst.
    cbn [exact_expos forallb] in D. apply andb_true_iff in D as [D D']. apply andb_true_iff in D as [D1 D2].
    destruct (IH F' C' D') as (a' & E & Fa & L & M & X).
    pose proof (base_valid_nonempty _ T4) as T5.
    eexists. cbn [mapM]. rewrite op_powf_exact by assumption. cbn [bind]. rewrite E. cbn [bind].
    split; [reflexivity|]. repeat split.
    + constructor; [|exact Fa]. unfold term_ok. cbn [isterm coef expo base]. repeat split; auto; try discriminate.
      apply qc_mul_nonzero; assumption.
    + simpl. rewrite L. reflexivity.
    + cbn [mono_coef fold_right coef]. fold (mono_coef a'). rewrite M. ring.
    + intros x. cbn [mono_expo fold_right base expo]. fold (mono_expo x a') (mono_expo x a). rewrite X.
      destruct (str_eqb (base t) x); ring.
Qed.

Lemma epow_power a p r : canonical a -> mono_coef a = 1%Qc -> p <> 0%Qc -> is_double p = true ->
  exact_expos p a = true -> is_power r a p -> printable r = true -> epow a p = Ok r.
Proof.
  intros Ca M P Dp D (Cr & Mr & X) Pr.
  destruct (canonical_ok a Ca) as [Na Fa].
  destruct (power_terms a p P Fa (canonical_unit_coef a Ca M) D) as (a' & E & F & L & M' & X').
  unfold SymbolicModel.epow. rewrite (is_double_fl p Dp).
  rewrite (proj2 (qc_eqb_neq _ _) P). rewrite E. cbn [bind].
  rewrite (reduce_to _ r); auto.
  - cbn [bind]. apply of_terms_printable; assumption.
  - destruct a; [congruence|]. destruct a'; [discriminate|discriminate].
  - split; [congruence|]. intros x Hx. rewrite X, X' by exact Hx. ring.
Qed.
End Algebra.
