(** * Conversion of products of units, found by pairing factors (C21) *)
From Verif Require Import PyBase PyLemmas ContainerModel ContainerSpec ContainerProofs SymbolicModel SymbolicSpec SymbolicProofs SymbolicRoundTrip SymbolicAlgebra SymbolicProperties MetricModel MetricSpec MetricTables MetricSizes MetricProofs MetricProofs2 UnitOpsProofs2 MetricProperties.
From Coq Require Import Permutation.

(** ** Vocabulary *)
(** how many factors are units of kind [k] to the power [e] *)
Definition factors_of (kind : str -> nat) (k : nat) (e : Qc) (ts : list operand) : nat :=
  length (filter (fun t => Nat.eqb (kind (base t)) k && qc_eqb (expo t) e) ts).
(** for every power of every kind of unit there are as many factors as for the
    opposite power *)
Definition balanced (kind : str -> nat) (ts : list operand) : Prop := forall k e, factors_of kind k e ts = factors_of kind k (- e)%Qc ts.
(** the factors that are proper units *)
Definition units_in (ts : list operand) : list operand := filter (fun t => negb (str_eqb (base t) (s "1")) && negb (str_eqb (base t) (s "#"))) ts.

Lemma factors_perm kind k e a b : Permutation a b -> factors_of kind k e a = factors_of kind k e b.
Proof. unfold factors_of. induction 1; cbn; try congruence; repeat destruct (_ && _); cbn; congruence. Qed.
Lemma factors_cons kind k e t l : factors_of kind k e (t :: l) = (if Nat.eqb (kind (base t)) k && qc_eqb (expo t) e then 1 else 0) + factors_of kind k e l.
Proof. unfold factors_of. cbn. destruct (_ && _); reflexivity. Qed.
Lemma opp_eqb a b : qc_eqb (- a)%Qc b = qc_eqb a (- b)%Qc.
Proof.
  destruct (qc_eqb a (- b)%Qc) eqn:E; [apply qc_eqb_eq in E; subst; apply qc_eqb_eq; ring|].
  destruct (qc_eqb (- a)%Qc b) eqn:E'; [|reflexivity]. apply qc_eqb_eq in E'. subst b. rewrite (proj2 (qc_eqb_eq a (- - a)%Qc)) in E by ring. discriminate.
Qed.
Lemma opp_zero (a : Qc) : a = (- a)%Qc -> a = 0%Qc.
Proof.
  intros E. assert (H : (zq 2 * a = 0)%Qc). { replace (zq 2) with (1 + 1)%Qc by reflexivity. replace ((1 + 1) * a)%Qc with (a + a)%Qc by ring. rewrite E at 1. ring. }
  destruct (Qcmult_integral _ _ H) as [X|X]; [discriminate X|exact X].
Qed.
Lemma same_base_in (l : list operand) a b : NoDup (map base l) -> In a l -> In b l -> base a = base b -> a = b.
Proof.
  induction l as [|x l IH]; [intros _ []|]. cbn [map]. intros N [->|Ia] [->|Ib] E; inversion N as [|? ? N1 N2]; subst; [reflexivity| | |auto].
  - exfalso. apply N1. rewrite E. apply in_map, Ib.
  - exfalso. apply N1. rewrite <- E. apply in_map, Ia.
Qed.
Lemma eqb_base a b : operand_eqb a b = true -> base a = base b.
Proof. unfold operand_eqb. rewrite !andb_true_iff, str_eqb_eq. tauto. Qed.
Lemma eqb_refl a : operand_eqb a a = true.
Proof. unfold operand_eqb. rewrite str_eqb_refl, !qc_eqb_refl. reflexivity. Qed.
Lemma remove_in t : forall l, NoDup (map base l) -> In t l -> exists r, list_remove t l = Ok r /\ Permutation l (t :: r).
Proof.
  induction l as [|x l IH]; intros N I; [destruct I|]. cbn [list_remove]. destruct (operand_eqb x t) eqn:E.
  - apply eqb_base in E. assert (x = t) as -> by (apply (same_base_in (x :: l)); auto; left; reflexivity). exists l. auto.
  - destruct I as [->|I]; [rewrite eqb_refl in E; discriminate|]. inversion N; subst. destruct (IH H2 I) as (r & -> & P). cbn [bind]. exists (x :: r). split; [reflexivity|]. rewrite P. apply perm_swap.
Qed.

Section Found.
Variables (libm : Qc -> Qc -> option Qc) (S : scales) (named : str -> option nunit) (conv : list ((str * str) * num S)) (order : list str) (qunit qdim : str -> system -> option str).
Variables (kind : str -> nat) (all : list operand).
Notation known a b := (exists w, convert_as_strings S named conv order a b = Ok (Some w)).
Hypothesis NZ : forall t, In t all -> expo t <> 0%Qc.
Hypothesis ND : NoDup (map base all).
Hypothesis DL : forall t, In t all -> dimensionless_unit libm named qunit qdim (base t) = Ok false.
Hypothesis KN : forall a b, In a all -> In b all -> (known (base a) (base b) <-> kind (base a) = kind (base b)).

Lemma first_found u e : forall l x, In x l -> known u (base x) -> exists f y, first_conversion S named conv order u e l = Ok (Some (f, y)) /\ In y l /\ known u (base y).
Proof using.
  clear. induction l as [|z l IH]; intros x I K; [destruct I|]. cbn [first_conversion]. destruct (strings_total S named conv order u (base z)) as ([w|] & T); rewrite T; cbn [bind].
  - exists (pw w e), z. split; [reflexivity|]. split; [left; reflexivity|]. exists w. exact T.
  - destruct I as [->|I]; [destruct K as (w & K); congruence|]. destruct (IH x I K) as (f & y & E & Iy & Ky). exists f, y. split; [exact E|]. split; [right; exact Iy|exact Ky].
Qed.
Lemma resolve_found : forall todo matched unmatched factor,
  incl unmatched todo -> incl todo all -> NoDup (map base todo) -> NoDup (map base unmatched) ->
  (forall t, In t todo -> In t unmatched \/ tmem t matched = true) -> (forall t, In t unmatched -> tmem t matched = false) -> balanced kind unmatched ->
  exists w, resolve_loop libm S named conv order qunit qdim todo matched unmatched factor = Ok (Some w).
Proof using NZ ND DL KN.
  induction todo as [|t todo IH]; intros matched unmatched factor I1 I2 N1 N2 C1 C2 B; cbn [resolve_loop].
  - destruct unmatched as [|x l]; [eexists; reflexivity|]. destruct (I1 x (or_introl eq_refl)).
  - inversion N1 as [|? ? Nt N1']; subst. destruct (tmem t matched) eqn:M.
    { apply IH; auto; [|intros x Ix; apply I2; right; exact Ix|intros x Ix; apply C1; right; exact Ix]. intros x Ix. destruct (I1 x Ix) as [<-|]; [|assumption]. rewrite (C2 t Ix) in M. discriminate. }
    destruct (C1 t (or_introl eq_refl)) as [It|X]; [|congruence]. assert (At : In t all) by (apply I2; left; reflexivity).
    unfold match_exponents. rewrite (DL t At). cbn [bind].
    assert (P : exists x, In x unmatched /\ kind (base x) = kind (base t) /\ expo x = (- expo t)%Qc).
    { pose proof (B (kind (base t)) (expo t)) as E. assert (L : factors_of kind (kind (base t)) (expo t) unmatched <> 0).
      { unfold factors_of. assert (In t (filter (fun u => Nat.eqb (kind (base u)) (kind (base t)) && qc_eqb (expo u) (expo t)) unmatched)) as H by (apply filter_In; rewrite Nat.eqb_refl, qc_eqb_refl; auto). destruct filter; [destruct H|discriminate]. }
      rewrite E in L. unfold factors_of in L. destruct (filter (fun u => Nat.eqb (kind (base u)) (kind (base t)) && qc_eqb (expo u) (- expo t)%Qc) unmatched) as [|x l] eqn:F; [destruct (L eq_refl)|].
      exists x. assert (H : In x (x :: l)) by (left; reflexivity). rewrite <- F in H. apply filter_In in H as (H & K). apply andb_true_iff in K as (K1 & K2). apply Nat.eqb_eq in K1. apply qc_eqb_eq in K2. auto. }
    destruct P as (x & Ix & Kx & Ex). assert (Ax : forall y, In y unmatched -> In y all) by (intros y Iy; apply I2, I1, Iy).
    assert (Neq : forall y, In y unmatched -> expo y = (- expo t)%Qc -> operand_eqb y t = false).
    { intros y Iy Ey. destruct (operand_eqb y t) eqn:E; [|reflexivity]. apply eqb_base in E. assert (y = t) as -> by (apply (same_base_in unmatched); auto). exfalso. apply (NZ t At), opp_zero, Ey. }
    destruct (first_found (base t) (expo t) (inverse_powers t unmatched) x) as (f & y & Fy & Iy & Ky).
    { unfold inverse_powers. apply filter_In. split; [exact Ix|]. rewrite (Neq x Ix Ex), Ex, qc_eqb_refl. reflexivity. }
    { apply KN; auto. }
    rewrite Fy. cbn [bind]. unfold inverse_powers in Iy. apply filter_In in Iy as (Iy & Ey). apply andb_true_iff in Ey as (_ & Ey). apply qc_eqb_eq in Ey. rewrite (Neq y Iy Ey).
    apply KN in Ky; auto. destruct (remove_in t unmatched N2 It) as (u & -> & Pu). cbn [bind].
    assert (Nu : NoDup (map base (t :: u))) by (eapply Permutation_NoDup; [apply Permutation_map, Pu|exact N2]). cbn [map] in Nu. inversion Nu as [|? ? Nt' Nu']; subst.
    assert (Yt : y <> t) by (intros ->; apply (NZ t At), opp_zero, Ey).
    assert (Iu : In y u) by (eapply Permutation_in in Iy; [|exact Pu]; destruct Iy as [X|X]; [congruence|exact X]). destruct (remove_in y u Nu' Iu) as (u' & -> & Pu'). cbn [bind].
    assert (Nu2 : NoDup (map base (y :: u'))) by (eapply Permutation_NoDup; [apply Permutation_map, Pu'|exact Nu']). cbn [map] in Nu2. inversion Nu2 as [|? ? Ny Nu2']; subst.
    assert (Sub : forall z, In z u' -> In z unmatched /\ z <> t /\ z <> y /\ base z <> base t /\ base z <> base y).
    { intros z Iz. assert (In z u) as Zu by (eapply Permutation_in; [apply Permutation_sym, Pu'|right; exact Iz]). assert (In z unmatched) as Zm by (eapply Permutation_in; [apply Permutation_sym, Pu|right; exact Zu]).
      assert (base z <> base t) by (intros X; apply Nt'; rewrite <- X; apply in_map, Zu). assert (base z <> base y) by (intros X; apply Ny; rewrite <- X; apply in_map, Iz). split; [exact Zm|]. split; [congruence|]. split; [congruence|auto]. }
    apply IH; auto.
    + intros z Iz. destruct (Sub z Iz) as (Zm & Zt & _). destruct (I1 z Zm) as [X|X]; [congruence|exact X].
    + intros z Iz. apply I2. right. exact Iz.
    + intros z Iz. unfold tmem. rewrite existsb_app. cbn [existsb]. destruct (C1 z (or_intror Iz)) as [Zm|Zm]; [|right; unfold tmem in Zm; rewrite Zm; reflexivity].
      eapply Permutation_in in Zm; [|exact Pu]. destruct Zm as [<-|Zm]; [right; rewrite eqb_refl; apply orb_true_r|]. eapply Permutation_in in Zm; [|exact Pu']. destruct Zm as [<-|Zm]; [right; rewrite eqb_refl, !orb_true_r; reflexivity|]. left. exact Zm.
    + intros z Iz. destruct (Sub z Iz) as (Zm & _ & _ & Bt & By). unfold tmem. rewrite existsb_app. pose proof (C2 z Zm) as Cz. unfold tmem in Cz. rewrite Cz. cbn [existsb orb].
      destruct (operand_eqb t z) eqn:E; [apply eqb_base in E; congruence|]. destruct (operand_eqb y z) eqn:E'; [apply eqb_base in E'; congruence|reflexivity].
    + intros k e. pose proof (B k e) as H. rewrite !(factors_perm _ _ _ _ _ Pu), !factors_cons, !(factors_perm _ _ _ _ _ Pu'), !factors_cons, Ey, <- Ky, !opp_eqb, Qcopp_involutive in H.
      destruct (Nat.eqb (kind (base t)) k); cbn [andb] in H; [|lia]. destruct (qc_eqb (expo t) e), (qc_eqb (expo t) (- e)%Qc); lia.
Qed.
Lemma pairs_found : all <> [] -> balanced kind all -> exists w, resolve_terms libm S named conv order qunit qdim all = Ok (Some w).
Proof using NZ ND DL KN.
  intros NE B. unfold resolve_terms. destruct (Nat.leb (length all) 1) eqn:E.
  - exfalso. apply Nat.leb_le in E. destruct all as [|t [|x l]]; [congruence| |cbn in E; lia]. pose proof (B (kind (base t)) (expo t)) as H. rewrite !factors_cons, Nat.eqb_refl, qc_eqb_refl in H. cbn [andb factors_of filter length] in H.
    destruct (qc_eqb (expo t) (- expo t)%Qc) eqn:Q; [|discriminate H]. apply qc_eqb_eq in Q. apply (NZ t (or_introl eq_refl)), opp_zero, Q.
  - apply resolve_found; auto; try apply incl_refl.
Qed.
End Found.

Lemma units_filter ts : filter (fun t => negb (is_unity (base t))) ts = units_in ts.
Proof. unfold units_in. apply filter_ext. intros t. unfold is_unity. rewrite negb_orb. apply andb_comm. Qed.
Lemma canonical_bases r : canonical r -> NoDup (map base (units_in r)) /\ (forall t, In t (units_in r) -> expo t <> 0%Qc).
Proof.
  intros (c & vs & E & C & F & _ & N). assert (U : units_in r = units_in vs).
  { rewrite E. destruct vs as [|v vs]; [reflexivity|]. destruct (qc_eqb c 1); reflexivity. }
  rewrite U. split.
  - clear - N. unfold units_in. induction vs as [|v vs IH]; cbn; [constructor|]. inversion N; subst. destruct (_ && _); [|auto]. cbn. constructor; [|auto]. intros X. apply H1. apply in_map_iff in X as (w & <- & X). apply in_map. apply filter_In in X as (X & _). exact X.
  - intros t I. apply filter_In in I as (I & _). rewrite Forall_forall in F. destruct (F t I) as (b & e & -> & _ & X & _). exact X.
Qed.

(** ** Theorems *)
(** Let the factors of the quotient of two compound units be units with a
    dimension, such that two of them have a known conversion exactly if they are
    of the same kind.  If opposite powers of every kind are equally many, then
    the conversion is found and is the quotient of the sizes. *)
Theorem C21_products_converted libm (S : scales) named conv order ys qunit qdim (size : str -> num S) (kind : str -> nat) u0 u1 e0 e1 q :
  scale_laws S -> fits S named conv size -> size (s "1") = one -> size (s "#") = one ->
  expression_of_str libm u0 = Ok e0 -> expression_of_str libm u1 = Ok e1 -> canonical e0 -> canonical e1 -> mono_coef e0 = mono_coef e1 ->
  size u0 = compound size e0 \/ convert_as_strings S named conv order u0 u1 = Ok None -> size u1 = compound size e1 \/ convert_as_strings S named conv order u0 u1 = Ok None ->
  Forall (fun t => is_double (expo t) = true) e0 -> Forall (fun t => is_double (expo t) = true) e1 ->
  is_quotient q e0 e1 -> printable q = true -> Forall (fun t => is_double (expo t) = true) q ->
  (forall t, In t (units_in q) -> dimensionless_unit libm named qunit qdim (base t) = Ok false) ->
  (forall a b, In a (units_in q) -> In b (units_in q) -> ((exists w, convert_as_strings S named conv order (base a) (base b) = Ok (Some w)) <-> kind (base a) = kind (base b))) ->
  balanced kind (units_in q) ->
  units_in q <> [] \/ e0 = e1 ->
  convert libm S named conv order ys qunit qdim u0 u1 = Ok (over (compound size e0) (compound size e1)).
Proof.
  intros L F U1 U2 E0 E1 C0 C1 MC Z0 Z1 D0 D1 Q P Dq DL KN B NE. unfold convert.
  destruct (strings_total S named conv order u0 u1) as ([w|] & T); rewrite T; cbn [bind].
  - destruct Z0 as [Z0|]; [|congruence]. destruct Z1 as [Z1|]; [|congruence]. rewrite <- Z0, <- Z1. f_equal. exact (strings_sound S L named conv order size F u0 u1 w T).
  - unfold convert_as_expressions. rewrite E0, E1. cbn [bind]. destruct (eeq e0 e1) eqn:Eq.
    + rewrite (cmp_eeq S L size e0 e1 D0 D1 Eq), (over_self S L). reflexivity.
    + destruct NE as [NE|X]; [|subst; rewrite eeq_refl in Eq; discriminate].
      rewrite (ediv_quotient libm e0 e1 q C0 C1 Q P). cbn [bind]. destruct (canonical_bases q (proj1 Q)) as (ND & NZ).
      assert (R : exists w, resolve_terms libm S named conv order qunit qdim (filter (fun t => negb (is_unity (base t))) q) = Ok (Some w)).
      { rewrite units_filter. apply (pairs_found libm S named conv order qunit qdim kind (units_in q)); auto. }
      destruct R as (w & R). rewrite R. cbn [bind]. f_equal. eapply (C21_paired_factors_partial libm S named conv order qunit qdim size e0 e1 q w); eauto.
      intros t It Dt. destruct (is_unity (base t)) eqn:I; [unfold is_unity in I; apply orb_true_iff in I as [I|I]; apply str_eqb_eq in I as ->; assumption|].
      rewrite DL in Dt; [discriminate|]. rewrite <- units_filter. apply filter_In. rewrite I. auto.
Qed.
Print Assumptions C21_products_converted.

(** ** With the tables of eprempy *)
(** a text that is neither the name of a unit nor in the table of conversions,
    such as "J / au^2" *)
Definition composed (u : str) : Prop := named_unit u = None /\ forall v w, ~ In ((u, v), w) CONVERSIONS /\ ~ In ((v, u), w) CONVERSIONS.
Lemma conv_get_none (S : scales) (c : list ((str * str) * num S)) a b : (forall w, ~ In ((a, b), w) c) -> conv_get S c (a, b) = None.
Proof. intros N. destruct (conv_get S c (a, b)) eqn:E; [|reflexivity]. apply conv_get_in in E. destruct (N _ E). Qed.
Lemma first_none {A B} (f : A -> option B) l : (forall x, In x l -> f x = None) -> first_some f l = None.
Proof. induction l as [|x l IH]; intros H; [reflexivity|]. cbn. rewrite (H x (or_introl eq_refl)). apply IH. intros y I. apply H. right. exact I. Qed.
Lemma no_search (S : scales) named (conv : list ((str * str) * num S)) order u v : named u = None -> (forall v w, ~ In ((u, v), w) conv /\ ~ In ((v, u), w) conv) -> u <> v ->
  convert_as_strings S named conv order u v = Ok None.
Proof.
  intros Nu C D. unfold convert_as_strings. change (2 + ?n) with (Datatypes.S (1 + n)). rewrite rc_unfold. cbn [mem].
  assert (S1 : forall a, search S named conv u a = None).
  { intros a. unfold search. rewrite conv_get_none by (intros w; apply C). apply first_none. intros x I. apply first_none. intros y _. unfold aliases_of in I. rewrite Nu in I. destruct I as [<-|[]]. apply conv_get_none. intros w. apply C. }
  assert (S2 : forall a, search S named conv a u = None).
  { intros a. unfold search. rewrite conv_get_none by (intros w; apply C). apply first_none. intros x _. apply first_none. intros y I. unfold aliases_of in I. rewrite Nu in I. destruct I as [<-|[]]. apply conv_get_none. intros w. apply C. }
  assert (E : standard_conversion S named conv order u v = None).
  { unfold standard_conversion, simple_conversion. rewrite (proj2 (str_eqb_neq u v) D), S1, Nu. unfold rescale_conversion, rescale. rewrite Nu.
    replace (if mem str_eqb u (conv_nodes S conv) then None else None) with (None (A := num S)) by (destruct mem; reflexivity).
    destruct (mem str_eqb v (conv_nodes S conv)); [reflexivity|]. destruct (named v) as [n|]; [|reflexivity]. rewrite first_none; [reflexivity|].
    intros x _. destruct (named x); [|reflexivity]. destruct same_base; [|reflexivity]. rewrite S2. reflexivity. }
  rewrite E. assert (A : adjacencies S conv u = []).
  { destruct (adjacencies S conv u) as [|(x, w) l] eqn:Q; [reflexivity|]. exfalso. apply (proj1 (C x w)). apply adjacent. rewrite Q. left. reflexivity. }
  rewrite A. reflexivity.
Qed.
Lemma composed_search order u v : composed u -> u <> v -> strings_factor order u v = Ok None.
Proof. intros (Nu & C) D. exact (no_search monos named_unit CONVERSIONS order u v Nu C D). Qed.
Lemma canonical_expo r t : canonical r -> In t r -> base t <> one_base -> mono_expo (base t) r = expo t.
Proof.
  intros (c & vs & E & Hc & Fv & Sv & Nv) I N. fold (assemble c vs) in E. assert (Ht : In t vs).
  { rewrite E in I. unfold assemble in I. destruct vs as [|v vs]; [destruct I as [<-|[]]; destruct (N eq_refl)|]. destruct (qc_eqb c 1); [exact I|]. destruct I as [<-|I]; [destruct (N eq_refl)|exact I]. }
  rewrite E, assemble_expo by exact N. apply mono_expo_single; assumption.
Qed.
Lemma size_one : si_size (s "1") = one (s := monos).
Proof. vm_compute. reflexivity. Qed.
Lemma size_number : si_size (s "#") = one (s := monos).
Proof. vm_compute. reflexivity. Qed.
(** a product of powers of units, in SI units *)
Definition si_product (ts : list operand) : mono := compound (S := monos) si_size ts.
Theorem C21_compound_converted_partial libm order ys (kind : str -> nat) u0 u1 e0 e1 q :
  composed u0 -> expression_of_str libm u0 = Ok e0 -> expression_of_str libm u1 = Ok e1 -> canonical e0 -> canonical e1 -> mono_coef e0 = mono_coef e1 ->
  Forall (fun t => is_double (expo t) = true) (e0 ++ e1 ++ q) -> is_quotient q e0 e1 -> printable q = true ->
  (* no factor of the quotient is a pure number, such as an angle *)
  (forall t, In t (units_in q) -> dimensionless_unit libm named_unit quantity_unit quantity_dim (base t) = Ok false) ->
  (* units of the same kind have a known conversion *)
  (forall a b, In a (units_in q) -> In b (units_in q) -> ((exists w, strings_factor order (base a) (base b) = Ok (Some w)) <-> kind (base a) = kind (base b))) ->
  balanced kind (units_in q) -> units_in q <> [] ->
  unit_factor libm order ys u0 u1 = Ok (over (S := monos) (si_product e0) (si_product e1)).
Proof.
  intros C E0 E1 C0 C1 MC D Q P DL KN B NE. apply Forall_app in D as (D0 & D). apply Forall_app in D as (D1 & D2).
  assert (Z : u0 <> u1).
  { intros ->. apply NE. assert (e0 = e1) by congruence. subst e1. destruct Q as (Cq & _ & X). destruct (units_in q) as [|t l] eqn:U; [reflexivity|]. exfalso. assert (I : In t (units_in q)) by (rewrite U; left; reflexivity).
    destruct (canonical_bases q Cq) as (_ & NZ). apply (NZ t I). clear NZ. unfold units_in in I. apply filter_In in I as (I & It). apply andb_true_iff in It as (It & _). apply negb_true_iff, str_eqb_neq in It.
    rewrite <- (canonical_expo q t Cq I It), X by exact It. ring. }
  pose proof (composed_search order u0 u1 C Z) as N.
  apply (C21_products_converted libm monos named_unit CONVERSIONS order ys quantity_unit quantity_dim si_size kind u0 u1 e0 e1 q monos_laws si_fits size_one size_number E0 E1 C0 C1 MC (or_intror N) (or_intror N) D0 D1 Q P D2 DL KN B (or_introl NE)).
Qed.
Print Assumptions C21_compound_converted_partial.

(** The hypotheses are met: one joule per square astronomical unit, in electron
    volts per square kilometre. *)
Definition case_kind (u : str) : nat := if str_eqb u (s "J") || str_eqb u (s "eV") then 0 else 1.
Definition case_term (b : string) (e : Z) : operand := var_term (s b) (zq e).
Example C21_products_case : forall libm,
  let e0 := [case_term "J" 1; case_term "au" (-2)] in let e1 := [case_term "eV" 1; case_term "km" (-2)] in
  let q := [case_term "km" 2; case_term "J" 1; case_term "eV" (-1); case_term "au" (-2)] in
  composed (s "J / au^2") /\ expression_of_str libm (s "J / au^2") = Ok e0 /\ expression_of_str libm (s "eV / km^2") = Ok e1 /\
  Forall (fun t => is_double (expo t) = true) (e0 ++ e1 ++ q) /\ printable q = true /\
  (forall t, In t (units_in q) -> dimensionless_unit libm named_unit quantity_unit quantity_dim (base t) = Ok false) /\
  (forall a b, In a (units_in q) -> In b (units_in q) -> ((exists w, strings_factor NODES (base a) (base b) = Ok (Some w)) <-> case_kind (base a) = case_kind (base b))) /\
  balanced case_kind (units_in q) /\ units_in q <> [].
Proof.
  intros libm e0 e1 q. split; [|split; [|split; [|split; [|split; [|split; [|split; [|split]]]]]]].
  - split; [vm_compute; reflexivity|]. assert (K : forallb (fun e => negb (str_eqb (fst (fst e)) (s "J / au^2")) && negb (str_eqb (snd (fst e)) (s "J / au^2"))) CONVERSIONS = true) by (vm_compute; reflexivity).
    rewrite forallb_forall in K. intros v w. split; intros I; specialize (K _ I); cbn [fst snd] in K; rewrite str_eqb_refl in K; [discriminate K|]. rewrite andb_false_r in K. discriminate K.
  - vm_compute. reflexivity.
  - vm_compute. reflexivity.
  - repeat constructor; vm_compute; reflexivity.
  - vm_compute. reflexivity.
  - intros t [<-|[<-|[<-|[<-|[]]]]]; vm_compute; reflexivity.
  - intros a b [<-|[<-|[<-|[<-|[]]]]] [<-|[<-|[<-|[<-|[]]]]]; (split; [intros (w & E); try reflexivity; exfalso; vm_compute in E; discriminate E|intros E; try (exfalso; vm_compute in E; discriminate E); eexists; vm_compute; reflexivity]).
  - intros k e. unfold units_in, q. cbn [filter case_term var_term base].
    repeat (match goal with |- context [str_eqb ?x (s "1")] => change (str_eqb x (s "1")) with false | |- context [str_eqb ?x (s "#")] => change (str_eqb x (s "#")) with false end). cbn [negb andb].
    rewrite !factors_cons. cbn [base expo case_term var_term]. change (case_kind (s "km")) with 1. change (case_kind (s "J")) with 0. change (case_kind (s "eV")) with 0. change (case_kind (s "au")) with 1.
    replace (zq (-2)) with (- zq 2)%Qc by reflexivity. replace (zq (-1)) with (- zq 1)%Qc by reflexivity. rewrite !opp_eqb, !Qcopp_involutive.
    destruct (Nat.eqb 1 k), (Nat.eqb 0 k), (qc_eqb (zq 2) e), (qc_eqb (zq 2) (- e)%Qc), (qc_eqb (zq 1) e), (qc_eqb (zq 1) (- e)%Qc); reflexivity.
  - vm_compute. discriminate.
Qed.
