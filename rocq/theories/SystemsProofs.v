(** * Proofs about metric systems *)
From Verif Require Import PyBase PyLemmas SymbolicModel SymbolicSpec SymbolicProofs SymbolicRoundTrip SymbolicAlgebra AliasedModel MetricModel MetricTables UnitModel UnitOpsModel UnitOpsProofs UnitOpsTables UnitOpsProofs3 NormalizeModel SystemsModel SystemsSpec.

(** ** Names *)
Lemma lower_code a : nat_of_ascii (lower_char a) = if Nat.leb 65 (nat_of_ascii a) && Nat.leb (nat_of_ascii a) 90 then nat_of_ascii a + 32 else nat_of_ascii a.
Proof.
  unfold lower_char. destruct (Nat.leb 65 (nat_of_ascii a) && Nat.leb (nat_of_ascii a) 90) eqn:E; [|reflexivity].
  apply andb_true_iff in E as (E1 & E2). apply Nat.leb_le in E1, E2. apply nat_ascii_embedding. lia.
Qed.
Lemma code_inj a b : nat_of_ascii a = nat_of_ascii b -> a = b.
Proof. intros H. rewrite <- (ascii_nat_embedding a), <- (ascii_nat_embedding b), H. reflexivity. Qed.
Lemma lower_char_same a b : lower_char a = lower_char b <-> same_char a b.
Proof.
  assert (K : lower_char a = lower_char b <-> nat_of_ascii (lower_char a) = nat_of_ascii (lower_char b)) by (split; [intros ->; reflexivity|apply code_inj]).
  assert (I : a = b <-> nat_of_ascii a = nat_of_ascii b) by (split; [intros ->; reflexivity|apply code_inj]).
  rewrite K, !lower_code. unfold same_char, capital_of. rewrite I. clear K I. generalize (nat_of_ascii a) (nat_of_ascii b). clear. intros a b.
  destruct (Nat.leb_spec 65 a), (Nat.leb_spec a 90), (Nat.leb_spec 65 b), (Nat.leb_spec b 90); cbn [andb]; lia.
Qed.
Lemma lower_same : forall x y, lower x = lower y <-> same_name x y.
Proof.
  unfold lower, same_name. induction x as [|a x IH]; intros [|b y]; cbn [map]; split; intros H; try discriminate H; try (inversion H; fail); try constructor; try reflexivity.
  - apply lower_char_same. congruence.
  - apply IH. congruence.
  - inversion H; subst. f_equal; [apply lower_char_same; assumption|apply IH; assumption].
Qed.

(** ** Singletons *)
Definition registered (st : sstate) : Prop :=
  (forall k o, In (k, o) (objects st) -> s_name o = k /\ s_id o < next st) /\
  (forall k o k' o', In (k, o) (objects st) -> In (k', o') (objects st) -> s_id o = s_id o' -> k = k').
Lemma find_object_in l x o : find_object l x = Some o -> In (x, o) l.
Proof. induction l as [|(k, p) l IH]; [discriminate|]. cbn. destruct (str_eqb k x) eqn:E; [intros [= ->]; left; apply str_eqb_eq in E; congruence|right; auto]. Qed.
Lemma find_object_app l m x : find_object (l ++ m) x = match find_object l x with Some o => Some o | None => find_object m x end.
Proof. induction l as [|(k, p) l IH]; [reflexivity|]. cbn. destruct (str_eqb k x); auto. Qed.
Definition extends (st st' : sstate) : Prop := forall k o, find_object (objects st) k = Some o -> find_object (objects st') k = Some o.
Lemma singleton_ok st x o st' : registered st -> singleton st x = (o, st') -> registered st' /\ extends st st' /\ find_object (objects st') (lower x) = Some o.
Proof.
  intros (R1 & R2). unfold singleton. destruct (find_object (objects st) (lower x)) as [p|] eqn:E; intros [= <- <-].
  - split; [split; assumption|]. split; [intros k q H; exact H|exact E].
  - split; [split|split].
    + cbn [objects next]. intros k p I. apply in_app_or in I as [I|[[= <- <-]|[]]]; [destruct (R1 k p I); split; [assumption|lia]|]. split; [reflexivity|cbn; lia].
    + cbn [objects next]. intros k p k' p' I I'. apply in_app_or in I as [I|[[= <- <-]|[]]]; apply in_app_or in I' as [I'|[[= <- <-]|[]]]; intros H; cbn [s_id] in H.
      * exact (R2 _ _ _ _ I I' H).
      * destruct (R1 _ _ I). lia.
      * destruct (R1 _ _ I'). lia.
      * reflexivity.
    + intros k p H. cbn [objects]. rewrite find_object_app, H. reflexivity.
    + cbn [objects]. rewrite find_object_app, E. cbn. rewrite str_eqb_refl. reflexivity.
Qed.
Lemma singletons_ok : forall xs st os st', registered st -> singletons st xs = (os, st') ->
  registered st' /\ extends st st' /\ Forall2 (fun x o => find_object (objects st') (lower x) = Some o) xs os.
Proof.
  induction xs as [|x xs IH]; cbn; intros st os st' R.
  - intros [= <- <-]. split; [exact R|]. split; [intros k o H; exact H|constructor].
  - destruct (singleton st x) as (o, st1) eqn:E1. destruct (singletons st1 xs) as (os', st2) eqn:E2. intros [= <- <-].
    destruct (singleton_ok _ _ _ _ R E1) as (R1 & X1 & F1). destruct (IH _ _ _ R1 E2) as (R2 & X2 & F2).
    split; [exact R2|]. split; [intros k p H; apply X2, X1, H|]. constructor; [apply X2, F1|exact F2].
Qed.
Lemma registered_none : registered no_objects.
Proof. split; [intros ? ? []|intros ? ? ? ? []]. Qed.

(** ** The tables *)
Definition term_same (a b : operand) : bool := str_eqb (base a) (base b) && qc_eqb (coef a) (coef b) && qc_eqb (expo a) (expo b) && Bool.eqb (isterm a) (isterm b).
Fixpoint terms_same (a b : list operand) : bool :=
  match a, b with [], [] => true | x :: a, y :: b => term_same x y && terms_same a b | _, _ => false end.
Lemma terms_same_eq : forall a b, terms_same a b = true -> a = b.
Proof.
  induction a as [|[c x e i] a IH]; intros [|[c' x' e' i'] b]; cbn [terms_same]; try discriminate; [reflexivity|]. intros H. apply andb_true_iff in H as (H & K). rewrite (IH _ K). f_equal.
  unfold term_same in H. cbn in H. apply andb_true_iff in H as (H & H4). apply andb_true_iff in H as (H & H3). apply andb_true_iff in H as (H1 & H2).
  apply str_eqb_eq in H1. apply qc_eqb_eq in H2, H3. apply Bool.eqb_prop in H4. congruence.
Qed.

Section Tables.
Set Default Proof Using "Type".
Variable libm : Qc -> Qc -> option Qc.
(** what the tables give for a quantity *)
Definition dim_text (y : system) (e : str * (result str * result str)) : result str := match y with Mks => fst (snd e) | Cgs => snd (snd e) end.
Definition row_dim (y : system) (e : str * (result str * result str)) : list operand :=
  match dim_text y e with Ok v => match expression_of_str libm v with Ok e => e | Raise _ => [] end | Raise _ => [] end.
Definition row_unit (y : system) (q : str) : list operand :=
  match quantity_unit q y with Some w => match arg_terms libm named_unit (UStr w) with Ok u => u | Raise _ => [] end | None => [] end.
Definition odd_quantities : list str := [s "impedance"; s "permittivity"; s "resistance"; s "resistivity"].
Definition odd (y : system) (q : str) : bool := match y with Mks => existsb (str_eqb q) odd_quantities | Cgs => false end.
Definition dim_row_check (y : system) (e : str * (result str * result str)) : bool :=
  match dim_text y e with
  | Ok v => match expression_of_str libm v with
            | Ok d => match d with [] => false | _ => true end && forallb (plain_check 2) d && forallb (fun t => qc_eqb (fl (coef t)) (coef t) && qc_eqb (fl (expo t)) (expo t)) d &&
                      match SymbolicModel.reduce d with Ok r => terms_same r d | Raise _ => false end
            | Raise _ => false end
  | Raise _ => false end.
Definition unit_row_check (y : system) (e : str * (result str * result str)) : bool :=
  odd y (fst e) ||
  match quantity_unit (fst e) y with
  | Some w => match arg_terms libm named_unit (UStr w) with
              | Ok (t :: u) => match unit_dimension libm named_unit quantity_unit quantity_dim y (t :: u) with Ok (Some d) => terms_same d (row_dim y e) | _ => false end
              | _ => false end
  | None => false end.
Lemma dim_rows : forallb (fun y => forallb (dim_row_check y) CANONICAL_DIMS) [Mks; Cgs] = true.
Proof. vm_compute. reflexivity. Qed.
Lemma unit_rows : forallb (fun y => forallb (unit_row_check y) CANONICAL_DIMS) [Mks; Cgs] = true.
Proof. vm_compute. reflexivity. Qed.
Definition property_check (k : nat) (y : system) (e : str * (result str * result str)) : bool :=
  match property libm (8 + k) true y (fst e), quantity_unit (fst e) y with Ok v, Some w => str_eqb v w | _, _ => false end.
Lemma property_rows k : forallb (fun y => forallb (property_check k y) CANONICAL_DIMS) [Mks; Cgs] = true.
Proof. vm_compute. reflexivity. Qed.
Definition first_row (y : system) (d : list operand) (T : list (str * (result str * result str))) := find (fun e => terms_same (row_dim y e) d) T.
Definition first_check (y : system) (e : str * (result str * result str)) : bool :=
  match first_row y (row_dim y e) CANONICAL_DIMS with
  | Some f => negb (odd y (fst f)) || existsb (str_eqb (fst f)) [s "resistivity"; s "permittivity"]
  | None => false
  end.
Lemma first_rows : forallb (fun y => forallb (first_check y) CANONICAL_DIMS) [Mks; Cgs] = true.
Proof. vm_compute. reflexivity. Qed.
End Tables.
Lemma terms_same_refl d : terms_same d d = true.
Proof. induction d as [|t d IH]; [reflexivity|]. cbn. rewrite IH. unfold term_same. rewrite str_eqb_refl, !qc_eqb_refl, Bool.eqb_reflx. reflexivity. Qed.
Lemma odd_faulty y q : odd y q = true <-> faulty y q.
Proof.
  unfold odd, faulty. destruct y; [|split; [discriminate|intros (? & _); discriminate]].
  rewrite existsb_exists. split.
  - intros (z & I & E). apply str_eqb_eq in E. subst z. split; [reflexivity|exact I].
  - intros (_ & I). exists q. split; [exact I|apply str_eqb_refl].
Qed.
Lemma assoc_in {A} (l : list (str * A)) k a : assoc l k = Some a -> In (k, a) l.
Proof. induction l as [|(x, b) l IH]; [discriminate|]. cbn. destruct (str_eqb x k) eqn:E; [intros [= ->]; left; apply str_eqb_eq in E; congruence|]. intros H. right. apply IH, H. Qed.
