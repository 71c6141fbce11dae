(** C01-C04, C53: symbolic expressions.  [libm_pow] is any behaviour of the
    platform's floating-point power; every theorem holds for all of them. *)
From Verif Require Import PyBase PyLemmas SymbolicModel SymbolicSpec SymbolicProofs SymbolicParse
  SymbolicRoundTrip SymbolicAlgebra SymbolicTotal.
From Coq Require Import Sorting.Sorted.

(** ** C01: reduction preserves meaning.  Every list of terms reduces, and the
    reduced terms have the same coefficient and the same total exponent for
    every symbol. *)
Theorem C01_reduction_preserves_meaning (ts : list operand) :
  ts <> [] -> Forall term_ok ts ->
  exists r, reduce ts = Ok r /\ mono_coef r = mono_coef ts /\
            forall b, b <> one_base -> mono_expo b r = mono_expo b ts.
Proof.
  intros N F. destruct (reduce_ok ts N F) as (r & R). exists r.
  destruct (reduce_same ts r N F R). auto.
Qed.
Print Assumptions C01_reduction_preserves_meaning.
(** no symbol is invented: every symbol of the result occurs in the input *)
Theorem C01_no_new_symbols (ts r : list operand) :
  ts <> [] -> Forall term_ok ts -> reduce ts = Ok r ->
  forall b, b <> one_base -> In b (map base r) -> In b (map base ts).
Proof.
  intros N F R b Hb H. pose proof (reduce_canonical ts r N F R) as C.
  destruct (reduce_same ts r N F R) as [_ S]. specialize (S b Hb).
  destruct C as (c & vs & E & _ & FV & _ & ND).
  assert (HV : In b (map base vs)).
  { rewrite E in H. destruct vs; [destruct H as [H|[]]; simpl in H; congruence|].
    destruct (qc_eqb c 1); [exact H|]. destruct H as [H|H]; [simpl in H; congruence|exact H]. }
  apply in_map_iff in HV as (t & <- & Ht).
  assert (X : mono_expo (base t) r <> 0%Qc).
  { rewrite E. change (mono_expo (base t) (assemble c vs) <> 0%Qc).
    rewrite assemble_expo by exact Hb. rewrite mono_expo_single by assumption.
    rewrite Forall_forall in FV. destruct (FV t Ht) as (b' & e & -> & _ & He & _). exact He. }
  rewrite S in X. apply mono_expo_in in X as (u & Hu & <-). apply in_map, Hu.
Qed.
Print Assumptions C01_no_new_symbols.
(** every term object the library can build satisfies [term_ok] *)
Theorem C01_terms_are_ok c b e t : term_factory c b e = Ok t -> term_ok t.
Proof. exact (term_factory_ok c b e t). Qed.
Print Assumptions C01_terms_are_ok.

Definition t1 := var_term (s "m") (zq 2).
Definition t2 := const_term (mkq 3 2).
Definition t3 := var_term (s "m") (zq (-2)).
Definition t4 := var_term (s "s") (mkq 1 2).
Example C01_case : Forall term_ok [t1; t2; t4; t3; t2] /\
  reduce [t1; t2; t4; t3; t2] = Ok [const_term (mkq 9 4); t4].
Proof. split; [repeat constructor; discriminate | reflexivity]. Qed.

(** ** C02: canonical form *)
Theorem C02_reduced_is_canonical (ts r : list operand) :
  ts <> [] -> Forall term_ok ts -> reduce ts = Ok r -> canonical r.
Proof. exact (reduce_canonical ts r). Qed.
Print Assumptions C02_reduced_is_canonical.
Theorem C02_same_meaning_same_terms (ts us : list operand) :
  ts <> [] -> us <> [] -> Forall term_ok ts -> Forall term_ok us ->
  same_monomial ts us ->
  exists r, reduce ts = Ok r /\ reduce us = Ok r /\ eeq r r = true.
Proof.
  intros N1 N2 F1 F2 S. destruct (reduce_ok ts N1 F1) as (r & R). exists r.
  rewrite <- (reduce_unique ts us N1 N2 F1 F2 S). repeat split; auto. apply eeq_refl.
Qed.
Print Assumptions C02_same_meaning_same_terms.
Theorem C02_reduction_idempotent (r : list operand) : canonical r -> reduce r = Ok r.
Proof. exact (canonical_fixed r). Qed.
Print Assumptions C02_reduction_idempotent.
Theorem C02_distinct_meaning_distinct_terms (r r' : list operand) :
  canonical r -> canonical r' -> (r = r' <-> same_monomial r r').
Proof.
  intros C C'. split; [intros ->; apply same_monomial_refl | apply canonical_eq; assumption].
Qed.
Print Assumptions C02_distinct_meaning_distinct_terms.
Example C02_case : same_monomial [t1; t2; t4] [t4; t2; t1; t1; t3] /\ [t1;t2;t4] <> [t4; t2; t1; t1; t3].
Proof.
  split; [|discriminate]. split; [reflexivity|]. intros b Hb.
  change [t4; t2; t1; t1; t3] with ([t4; t2; t1; t1] ++ [t3]).
  unfold mono_expo, fold_right, t1, t2, t3, t4, app. cbn [base expo var_term const_term].
  destruct (str_eqb_spec one_base b); [congruence|].
  destruct (str_eqb (s "m") b), (str_eqb (s "s") b); apply Qc_is_canon; reflexivity.
Qed.

(** ** C03: the algebra of expressions *)
Theorem C03_mul_commutative libm a b : canonical a -> canonical b ->
  emul libm a b = emul libm b a.
Proof. exact (emul_comm libm a b). Qed.
Print Assumptions C03_mul_commutative.
Theorem C03_self_quotient_is_one libm a : canonical a -> ediv libm a a = Ok [const_term 1].
Proof. exact (ediv_self libm a). Qed.
Print Assumptions C03_self_quotient_is_one.
(** Products and quotients are exact, provided the exact result can be carried
    by the notation ([printable]); see the refutations below. *)
Theorem C03_mul_is_product_partial libm a b r : canonical a -> canonical b ->
  is_product r a b -> printable r = true -> emul libm a b = Ok r.
Proof. exact (emul_product libm a b r). Qed.
Print Assumptions C03_mul_is_product_partial.
Theorem C03_div_is_quotient_partial libm a b r : canonical a -> canonical b ->
  is_quotient r a b -> printable r = true -> ediv libm a b = Ok r.
Proof. exact (ediv_quotient libm a b r). Qed.
Print Assumptions C03_div_is_quotient_partial.
Theorem C03_pow_is_power_partial libm a p r : canonical a -> mono_coef a = 1%Qc ->
  p <> 0%Qc -> is_double p = true -> exact_expos p a = true ->
  is_power r a p -> printable r = true -> epow libm a p = Ok r.
Proof. exact (epow_power libm a p r). Qed.
Print Assumptions C03_pow_is_power_partial.
Theorem C03_mul_associative_partial libm a b c ab bc abc :
  canonical a -> canonical b -> canonical c ->
  is_product ab a b -> is_product bc b c -> is_product abc ab c ->
  printable ab = true -> printable bc = true -> printable abc = true ->
  (x <- emul libm a b ;; emul libm x c) = Ok abc /\ (x <- emul libm b c ;; emul libm a x) = Ok abc.
Proof. exact (emul_assoc libm a b c ab bc abc). Qed.
Print Assumptions C03_mul_associative_partial.
Theorem C03_mul_then_div_partial libm a b r : canonical a -> canonical b ->
  printable a = true -> printable r = true -> is_product r a b ->
  (x <- emul libm a b ;; ediv libm x b) = Ok a.
Proof.
  intros Ca Cb Pa Pr H. pose proof (emul_product libm a b r Ca Cb H Pr) as E.
  rewrite E. cbn [bind]. eapply emul_ediv; eassumption.
Qed.
Print Assumptions C03_mul_then_div_partial.
Theorem C03_pow_pow_partial libm a m n am amn : canonical a -> mono_coef a = 1%Qc ->
  m <> 0%Qc -> n <> 0%Qc -> is_double m = true -> is_double n = true -> is_double (n * m)%Qc = true ->
  exact_expos m a = true -> exact_expos n am = true -> exact_expos (n * m) a = true ->
  is_power am a m -> is_power amn am n -> printable am = true -> printable amn = true ->
  (x <- epow libm a m ;; epow libm x n) = Ok amn /\ epow libm a (n * m)%Qc = Ok amn.
Proof.
  intros Ca M Hm Hn Dm Dn Dnm E1 E2 E3 P1 P2 Q1 Q2.
  rewrite (epow_power libm a m am) by assumption. cbn [bind].
  destruct P1 as (C1 & M1 & X1). split; [apply epow_power; auto|].
  apply epow_power; auto; [apply qc_mul_nonzero; assumption|].
  destruct P2 as (C2 & M2 & X2). repeat split; auto. intros x Hx. rewrite X2, X1 by exact Hx. ring.
Qed.
Print Assumptions C03_pow_pow_partial.
Theorem C03_pow_mul_partial libm a b ab n an bn abn : canonical a -> canonical b ->
  mono_coef a = 1%Qc -> mono_coef b = 1%Qc -> n <> 0%Qc -> is_double n = true ->
  exact_expos n a = true -> exact_expos n b = true -> exact_expos n ab = true ->
  is_product ab a b -> is_power an a n -> is_power bn b n -> is_power abn ab n ->
  printable ab = true -> printable an = true -> printable bn = true -> printable abn = true ->
  (x <- emul libm a b ;; epow libm x n) = Ok abn /\
  (x <- epow libm a n ;; y <- epow libm b n ;; emul libm x y) = Ok abn.
Proof.
  intros Ca Cb Ma Mb Hn Dn E1 E2 E3 Pab Pan Pbn Pabn Q1 Q2 Q3 Q4.
  rewrite (emul_product libm a b ab), (epow_power libm a n an), (epow_power libm b n bn) by assumption. cbn [bind].
  destruct Pab as (Cab & Mab & Xab). destruct Pan as (Can & Man & Xan). destruct Pbn as (Cbn & Mbn & Xbn).
  split; [apply epow_power; auto; rewrite Mab, Ma, Mb; reflexivity|].
  destruct Pabn as (Cabn & Mabn & Xabn). apply emul_product; auto. repeat split; auto.
  - rewrite Mabn, Man, Mbn. reflexivity.
  - intros x Hx. rewrite Xabn, Xab, Xan, Xbn by exact Hx. ring.
Qed.
Print Assumptions C03_pow_mul_partial.

Definition va := [var_term (s "a") 1%Qc].
Definition vb := [const_term (zq 2); var_term (s "b") (mkq (-1) 2)].
Definition vab := [const_term (zq 2); var_term (s "a") 1%Qc; var_term (s "b") (mkq (-1) 2)].
Lemma single_canonical b e : base_is_valid b = true -> b <> one_base -> e <> 0%Qc -> canonical [var_term b e].
Proof.
  intros V N E. exists 1%Qc, [var_term b e]. repeat split.
  - discriminate.
  - repeat constructor. eexists _, _. eauto.
  - repeat constructor.
  - repeat constructor. intros [].
Qed.
Example C03_case : canonical va /\ canonical vb /\ is_product vab va vb /\ printable vab = true.
Proof.
  assert (Ca : canonical va) by (apply single_canonical; [reflexivity | discriminate | discriminate]).
  assert (Cb : canonical vb).
  { exists (zq 2), [var_term (s "b") (mkq (-1) 2)]. repeat split.
    - discriminate.
    - repeat constructor. eexists _, _. repeat split; discriminate.
    - repeat constructor.
    - repeat constructor. intros []. }
  split; [exact Ca|]. split; [exact Cb|]. split; [|reflexivity]. repeat split.
  - exists (zq 2), [var_term (s "a") 1%Qc; var_term (s "b") (mkq (-1) 2)]. repeat split.
    + discriminate.
    + repeat constructor; eexists _, _; repeat split; discriminate.
    + repeat constructor.
    + repeat constructor; [intros [H|[]]; discriminate | intros []].
  - intros x Hx. unfold vab, va, vb, mono_expo, fold_right. cbn [base expo var_term const_term].
    destruct (str_eqb_spec one_base x); [congruence|].
    destruct (str_eqb (s "a") x), (str_eqb (s "b") x); apply Qc_is_canon; reflexivity.
Qed.
Example C03_pow_case : canonical va /\ mono_coef va = 1%Qc /\ exact_expos (mkq 1 2) va = true /\
  is_power [var_term (s "a") (mkq 1 2)] va (mkq 1 2) /\ printable [var_term (s "a") (mkq 1 2)] = true /\
  is_double (mkq 1 2) = true.
Proof.
  repeat split.
  - apply single_canonical; [reflexivity | discriminate | discriminate].
  - apply single_canonical; [reflexivity | discriminate | discriminate].
  - intros x Hx. unfold va, mono_expo, fold_right. cbn [base expo var_term].
    destruct (str_eqb (s "a") x); apply Qc_is_canon; reflexivity.
Qed.

(** Outside the class the laws fail.  The square root of [a^1/8] is [6 a]
    rather than [a^1/16]: the result is printed and parsed again, and the parser
    reads one digit of a denominator. *)
Theorem C03_power_law_refuted : forall libm,
  canonical [var_term (s "a") (mkq 1 8)] /\
  epow libm [var_term (s "a") (mkq 1 8)] (mkq 1 2) = Ok [const_term (zq 6); var_term (s "a") 1%Qc] /\
  epow libm [var_term (s "a") 1%Qc] (mkq 1 3) =
    Ok [const_term (zq 8014398509481984); var_term (s "a") (zq 6004799503160661)].
Proof.
  intros libm. split; [apply single_canonical; [reflexivity | discriminate | discriminate]|].
  split; vm_compute; reflexivity.
Qed.
Print Assumptions C03_power_law_refuted.
(** [a ** 0] is not one: the operator returns [NotImplemented]. *)
Theorem C03_zeroth_power_refuted : forall libm a, epow libm a 0%Qc = Raise NotImplementedResult.
Proof. reflexivity. Qed.
Print Assumptions C03_zeroth_power_refuted.
(** The quotient by [b] of the product with [b] is not the original, when the
    coefficients are not doubles. *)
Theorem C03_mul_then_div_refuted : forall libm,
  let a := [const_term (mkq 1 3); var_term (s "a") 1%Qc] in
  let b := [const_term (mkq 1 3); var_term (s "b") 1%Qc] in
  exists r, (x <- emul libm a b ;; ediv libm x b) = Ok r /\ r <> a /\ mono_coef r <> mono_coef a.
Proof.
  intros libm a b. eexists. split; [vm_compute; reflexivity|]. split; discriminate.
Qed.
Print Assumptions C03_mul_then_div_refuted.

(** ** C04: strings *)
(** Every text of the grammar in SymbolicSpec is parsed, to the canonical
    expression with the usual meaning of the text. *)
Theorem C04_parse_meaning libm (x : written) : written_ok true x = true ->
  exists r, expression_of_str libm (written_text x) = Ok r /\ canonical r /\
    mono_coef r = written_coef false x /\
    forall b, b <> one_base -> mono_expo b r = written_expo b false x.
Proof. exact (expression_meaning libm x). Qed.
Print Assumptions C04_parse_meaning.
(** "f / g h" means f g^-1 h. *)
Theorem C04_division_takes_one_factor libm f g h i j k :
  let x := WMore f (Over i j) (WMore g (Blank k) (WOne h)) in
  written_ok true x = true ->
  exists r, expression_of_str libm (factor_text f ++ blanks i ++ s "/" ++ blanks j ++ factor_text g
                                    ++ blanks (S k) ++ factor_text h) = Ok r /\
    mono_coef r = (factor_coef f / factor_coef g * factor_coef h)%Qc /\
    forall b, b <> one_base -> mono_expo b r = (factor_expo b f - factor_expo b g + factor_expo b h)%Qc.
Proof.
  intros x O. destruct (expression_meaning libm x O) as (r & E & _ & C & X). exists r. split; [|split].
  - rewrite <- E. unfold x. cbn [written_text sep_text]. f_equal. rewrite <- ?app_assoc. reflexivity.
  - rewrite C. cbn [x written_coef inverted is_over]. unfold Qcdiv. ring.
  - intros b Hb. rewrite X by exact Hb. cbn [x written_expo signed is_over]. ring.
Qed.
Print Assumptions C04_division_takes_one_factor.
(** Printing then parsing is the identity, on expressions whose numbers fit. *)
Theorem C04_print_parse_partial libm r : canonical r -> printable r = true ->
  expression_of_str libm (format_expression r) = Ok r.
Proof. exact (parse_format libm r). Qed.
Print Assumptions C04_print_parse_partial.
(** An expression of a printable list of terms is the list. *)
Theorem C04_of_terms_partial libm r : canonical r -> printable r = true ->
  expression_of_terms libm r = Ok r.
Proof. exact (of_terms_printable libm r). Qed.
Print Assumptions C04_of_terms_partial.
Definition w1 : written := (* 3 a^1/2 / (b * c^-2)^2 d *)
  WMore (FConst (zq 3)) (Blank 0) (WMore (FVar (s "a") (mkq 1 2)) (Over 1 1)
    (WMore (FGroup (WMore (FVar (s "b") 1%Qc) (Times 1 1) (WOne (FVar (s "c") (zq (-2))))) (zq 2)) (Blank 0)
       (WOne (FVar (s "d") 1%Qc)))).
Example C04_case : written_text w1 = s "3 a^1/2 / (b * c^-2)^2 d" /\ written_ok true w1 = true
  /\ written_coef false w1 = zq 3 /\ written_expo (s "c") false w1 = zq 4.
Proof. repeat split. Qed.
(** Denominators with two digits and zero exponents are misread. *)
Theorem C04_print_parse_refuted : forall libm,
  canonical [var_term (s "a") (mkq 1 12)] /\
  format_expression [var_term (s "a") (mkq 1 12)] = s "a^1/12" /\
  expression_of_str libm (s "a^1/12") = Ok [const_term (zq 2); var_term (s "a") 1%Qc] /\
  expression_of_str libm (s "a^0") = Ok [var_term (s "a") 1%Qc].
Proof.
  intros libm. split; [apply single_canonical; [reflexivity | discriminate | discriminate]|].
  repeat split; vm_compute; reflexivity.
Qed.
Print Assumptions C04_print_parse_refuted.

(** ** C53: the parser terminates on every string (the fuel of the model is
    never what stops it) *)
Theorem C53_parse_terminates libm (x : str) : parse libm x <> Raise OutOfFuel.
Proof. exact (parse_total libm x). Qed.
Print Assumptions C53_parse_terminates.
Example C53_case : forall libm, parse libm (s "a ** (b)") = Raise ParsingValueError
  /\ is_ok (parse libm (s "((a)b)^2 /(c)")) = true.
Proof. intros libm. split; vm_compute; reflexivity. Qed.
