(** * Lemmas for C78. *)
From Verif Require Import PyBase PyLemmas ContainerModel Nd IndexModel IndexSpec IndexProofs2 MeasuredModel MeasuredSpec.
From Coq Require Import Lia.
Local Open Scope nat_scope.

(** ** Row-major order *)
Lemma seq_blocks p n : forall s0, flat_map (fun i => map (fun j => s0 + i * p + j) (seq 0 p)) (seq 0 n) = seq s0 (n * p).
Proof.
  assert (S1 : forall b k, map (fun j => b + j) (seq 0 k) = seq b k).
  { intros b k. revert b. induction k; intro b; [reflexivity|]. cbn [seq map]. rewrite Nat.add_0_r. f_equal.
    rewrite <- seq_shift, map_map. rewrite <- (IHk (S b)). apply map_ext. intro. lia. }
  induction n; intro s0; [reflexivity|].
  rewrite seq_S, flat_map_app, IHn. cbn [flat_map]. rewrite app_nil_r, Nat.add_0_l.
  rewrite S1. rewrite <- seq_app. f_equal. lia.
Qed.
Lemma ravel_indices sh : map (ravel sh) (indices sh) = seq 0 (count sh).
Proof.
  induction sh as [|n sh IH]; [reflexivity|]. cbn [indices]. rewrite flat_map_concat_map, concat_map, map_map, <- flat_map_concat_map.
  rewrite (flat_map_ext _ (fun i => map (fun j => 0 + i * count sh + j) (seq 0 (count sh)))).
  - rewrite seq_blocks. reflexivity.
  - intro i. rewrite map_map. rewrite <- IH, map_map. apply map_ext. intro ix. reflexivity.
Qed.
Lemma valid_indices sh : forall ix, In ix (indices sh) -> valid ix sh.
Proof.
  induction sh as [|n sh IH]; intros ix H; cbn [indices] in H.
  - destruct H as [<-|[]]. constructor.
  - apply in_flat_map in H as (i & I & H). apply in_map_iff in H as (jx & <- & J). constructor; [apply in_seq in I; lia|exact (IH _ J)].
Qed.
Lemma flat_unravel {A} (f : list nat -> A) sh : map (fun k => f (unravel sh k)) (seq 0 (count sh)) = map f (indices sh).
Proof.
  rewrite <- ravel_indices, map_map. apply map_ext_in. intros ix H. f_equal.
  apply unravel_ravel. apply valid_indices. exact H.
Qed.
Lemma indices_one n : indices [n] = map (fun i => [i]) (seq 0 n).
Proof.
  cbn [indices]. induction (seq 0 n) as [|x l IH]; [reflexivity|]. cbn in *. f_equal.
Qed.
Lemma flat_flatten (a : nd Qc) : flat (flatten a) = flat a.
Proof.
  unfold flat, flatten. cbn [shape elem]. rewrite indices_one, map_map. cbn [nth]. apply (flat_unravel (elem a)).
Qed.
Lemma flat_ndmin1 (a : nd Qc) : flat (nd_ndmin 1 a) = flat a /\ (shape (nd_ndmin 1 a) = match shape a with [] => [1] | s => s end).
Proof.
  unfold flat, nd_ndmin, ndim. destruct (shape a) as [|n sh] eqn:E; cbn [length Nat.sub repeat app shape elem].
  - split; reflexivity.
  - split; [|reflexivity]. apply map_ext. intro ix. reflexivity.
Qed.
(** data of one number *)
Lemma count_one sh : count sh = 1 -> sh = repeat 1 (length sh).
Proof.
  induction sh as [|n sh IH]; intro H; [reflexivity|]. cbn [count fold_right] in H. fold (count sh) in H.
  apply Nat.eq_mul_1 in H as [-> H]. cbn. f_equal. auto.
Qed.
Lemma indices_ones k : indices (repeat 1 k) = [repeat 0 k].
Proof. induction k; [reflexivity|]. cbn [repeat indices seq flat_map]. rewrite IHk. reflexivity. Qed.
Lemma flat_single (a : nd Qc) : count (shape a) = 1 -> flat a = [flat_first a].
Proof.
  intro H. unfold flat, flat_first, ndim. apply count_one in H. rewrite H at 1. rewrite indices_ones. reflexivity.
Qed.
Lemma indices_length sh : length (indices sh) = count sh.
Proof. rewrite <- (map_length (ravel sh)), ravel_indices, seq_length. reflexivity. Qed.
Lemma size_count {A} (a : nd A) : nd_size a = count (shape a).
Proof. reflexivity. Qed.

Lemma first_item_one (a : nd Qc) : count (shape a) = 1 -> shape a <> [] -> exists d, first_item a = Ok d /\ flat (arr_of d) = flat a /\
  shape (arr_of d) = tl (shape a) /\ (shape a = [1] <-> exists q, d = DNum q).
Proof.
  intros C N. unfold first_item. destruct (shape a) as [|n [|m sh]] eqn:E; [congruence| |].
  - cbn in C. rewrite Nat.mul_1_r in C. subst n. eexists. split; [reflexivity|]. cbn [arr_of]. split.
    + unfold flat. rewrite E. reflexivity.
    + split; [reflexivity|]. split; eauto.
  - cbn [count fold_right] in C. fold (count sh) in C. assert (n = 1) as -> by (apply Nat.eq_mul_1 in C; tauto).
    eexists. split; [reflexivity|]. cbn [arr_of shape]. split; [|split; [reflexivity|]].
    + unfold flat. cbn [shape elem]. rewrite E. change (indices (1 :: m :: sh)) with (map (cons 0) (indices (m :: sh)) ++ []).
      rewrite app_nil_r, map_map. reflexivity.
    + split; [congruence|intros (q & Q); discriminate Q].
Qed.

Section Proofs.
Context {U : Type}.
Variable uone : U.
Notation obj := (@mobj U).
Notation make := (make uone).
Set Default Proof Using "Type".

Lemma values_flat (o : obj) : values o = flat (arr_of (dat o)).
Proof. unfold values. destruct (dat o); reflexivity. Qed.
Lemma shape_arr (o : obj) : shape_of o = shape (arr_of (dat o)).
Proof. unfold shape_of. destruct (dat o); reflexivity. Qed.

Definition the_unit (u : option U) : U := match u with Some v => v | None => uone end.

(** *** Numbers and arrays *)
Lemma make_plain k (x : @arg U) (u : option U) : plain k x -> accepts k x ->
  exists y, make k x u = Ok y /\ knd y = k /\ proper y /\ values y = raw_values x /\ unt y = the_unit u.
Proof.
  intros P A. unfold MeasuredModel.make, wrapped.
  assert (R : refused x u = false) by (destruct x; [reflexivity..|destruct P]). rewrite R.
  assert (NS : forall (a : nd Qc), shape a = [] -> nd_size a = 1) by (intros a E; unfold nd_size; rewrite E; reflexivity).
  destruct k; cbn [plain accepts] in *.
  - (* value *) destruct x as [q|a|a|o]; [| | |destruct P]; cbn [value_args bind].
    + eexists; repeat split; cbn; eauto; discriminate.
    + unfold value_of_array. rewrite size_count. cbn [raw_shape] in A. rewrite A. cbn. eexists; repeat split; cbn; eauto; try discriminate.
      symmetry. apply flat_single. exact A.
    + unfold value_of_array. rewrite size_count. cbn [raw_shape] in A. rewrite A. cbn. eexists; repeat split; cbn; eauto; try discriminate.
      symmetry. apply flat_single. exact A.
  - (* sequence *) assert (K : forall a : nd Qc, shape a <> [] -> exists y, (r <- (if Nat.eqb (ndim a) 0 then Raise TypeError else Ok (DArr (flatten a), u));;
        Ok (mkm MSequence (fst r) (unit_or_one uone (snd r)))) = Ok y /\ knd y = MSequence /\ proper y /\ values y = flat a /\ unt y = the_unit u).
    { intros a N. assert (ndim a <> 0) by (unfold ndim; destruct (shape a); cbn; congruence). apply Nat.eqb_neq in H. rewrite H. cbn [bind].
      eexists. split; [reflexivity|]. split; [reflexivity|]. split; [|split; [apply flat_flatten|reflexivity]].
      split; [cbn; discriminate|]. split; [discriminate|]. cbn. eauto. }
    destruct x as [q|a|a|o]; [| | |destruct P]; cbn [sequence_args raw_values].
    + eexists; repeat split; cbn; eauto; discriminate.
    + destruct A as [A|A]; [discriminate A|]. apply K. exact A.
    + apply K. exact P.
  - (* measurement *) assert (K : forall a : nd Qc, exists y : obj, Ok (mkm MMeasurement (DArr (nd_ndmin 1 a)) (the_unit u)) = Ok y /\
        knd y = MMeasurement /\ proper y /\ values y = flat a /\ unt y = the_unit u).
    { intro a. destruct (flat_ndmin1 a) as [F S]. eexists. split; [reflexivity|]. split; [reflexivity|]. split; [|split; [exact F|reflexivity]].
      split; [|split; [discriminate|cbn; eauto]]. unfold shape_of. cbn [dat knd proper_shape]. rewrite S. destruct (shape a); discriminate. }
    destruct x as [q|a|a|o]; [| | |destruct P]; cbn [measurement_args raw_values bind fst snd].
    + eexists; repeat split; cbn; eauto; discriminate.
    + apply K.
    + apply K.
  - (* scalar *) assert (K : forall (a : nd Qc) (x : @arg U), asarray x = Some a -> (forall o, x <> XObj o) -> (forall q, x <> XNum q) -> shape a = [1] -> exists y,
       (r <- scalar_args x u ;; Ok (mkm MScalar (fst r) (unit_or_one uone (snd r)))) = Ok y /\ knd y = MScalar /\ proper y /\ values y = flat a /\ unt y = the_unit u).
    { intros a x' E NO NN S. unfold scalar_args. rewrite E. unfold first_item. rewrite size_count, S. cbn [count fold_right Nat.mul Nat.add Nat.eqb bind].
      destruct x' as [q'|a'|a'|o']; try (exfalso; eapply NN; reflexivity); try (exfalso; eapply NO; reflexivity);
      (eexists; split; [reflexivity|]; split; [reflexivity|]; split; [split; [reflexivity|split; [cbn; eauto|cbn; discriminate]]|split; [unfold flat; rewrite S; reflexivity|reflexivity]]). }
    destruct x as [q|a|a|o]; [| | |destruct P]; cbn [raw_values].
    + eexists; repeat split; cbn; eauto; discriminate.
    + destruct A as [A|A]; [discriminate A|]. apply K; auto; discriminate.
    + destruct A as [A|A]; [discriminate A|]. apply K; auto; discriminate.
  - (* vector *) assert (K : forall a : nd Qc, (exists n, shape a = [n]) -> exists y, (r <- vector_of_array a u;;
        Ok (mkm MVector (fst r) (unit_or_one uone (snd r)))) = Ok y /\ knd y = MVector /\ proper y /\ values y = flat a /\ unt y = the_unit u).
    { intros a (n & S). unfold vector_of_array, ndim. rewrite S. cbn. eexists. split; [reflexivity|]. split; [reflexivity|].
      split; [split; [cbn; eauto|split; [discriminate|cbn; eauto]]|split; reflexivity]. }
    destruct x as [q|a|a|o]; [| | |destruct P]; cbn [vector_args raw_values].
    + destruct A as (n & A); discriminate A.
    + apply K. exact A.
    + apply K. exact A.
  - (* variable *) assert (K : forall a : nd Qc, shape a = [] \/ (exists n, shape a = [n]) -> exists y, (r <- vector_of_array (nd_ndmin 1 a) u;;
        Ok (mkm MVariable (fst r) (unit_or_one uone (snd r)))) = Ok y /\ knd y = MVariable /\ proper y /\ values y = flat a /\ unt y = the_unit u).
    { intros a E. destruct (flat_ndmin1 a) as [F S]. assert (S' : exists n, shape (nd_ndmin 1 a) = [n]) by (destruct E as [E|(n & E)]; rewrite E in S; eauto).
      destruct S' as (n & S'). unfold vector_of_array, ndim. rewrite S'. cbn [length Nat.eqb bind fst snd]. eexists. split; [reflexivity|]. split; [reflexivity|].
      split; [split; [cbn; eauto|split; [discriminate|cbn; eauto]]|split; [exact F|reflexivity]]. }
    destruct x as [q|a|a|o]; [| | |destruct P]; cbn [variable_args raw_values].
    + eexists; repeat split; cbn; eauto; discriminate.
    + apply K. exact A.
    + apply K. exact A.
  - (* tensor *) assert (K : forall a : nd Qc, shape a <> [] -> exists y, (r <- tensor_of_array a u;;
        Ok (mkm MTensor (fst r) (unit_or_one uone (snd r)))) = Ok y /\ knd y = MTensor /\ proper y /\ values y = flat a /\ unt y = the_unit u).
    { intros a N. assert (ndim a <> 0) by (unfold ndim; destruct (shape a); cbn; congruence). apply Nat.eqb_neq in H. unfold tensor_of_array. rewrite H. cbn [bind].
      eexists. split; [reflexivity|]. split; [reflexivity|]. split; [|split; reflexivity].
      split; [exact N|]. split; [discriminate|]. cbn. eauto. }
    destruct x as [q|a|a|o]; [| | |destruct P]; cbn [tensor_args raw_values].
    + cbn in A. congruence.
    + apply K. exact A.
    + apply K. exact A.
  - (* array *) destruct x as [q|a|a|o]; [| | |destruct P]; cbn [array_args raw_values bind fst snd].
    + eexists; repeat split; cbn; eauto; discriminate.
    + destruct P as [P|P]; [congruence|]. eexists. split; [reflexivity|]. split; [reflexivity|]. split; [|split; reflexivity].
      split; [exact P|]. split; [discriminate|]. cbn. eauto.
    + eexists. split; [reflexivity|]. split; [reflexivity|]. split; [|split; reflexivity].
      split; [exact P|]. split; [discriminate|]. cbn. eauto.
Qed.

Lemma make_plain_fails k (x : @arg U) (u : option U) : plain k x -> ~ accepts k x ->
  make k x u = Raise (match k, raw_shape x with MScalar, [] => IndexError | _, _ => TypeError end).
Proof.
  intros P A. unfold MeasuredModel.make, wrapped.
  assert (R : refused x u = false) by (destruct x; [reflexivity..|destruct P]). rewrite R.
  destruct k; cbn [plain accepts] in *; try (exfalso; apply A; exact I).
  - destruct x as [q|a|a|o]; [exfalso; apply A; reflexivity| | |destruct P]; cbn [value_args raw_shape] in *; unfold value_of_array;
      rewrite size_count; apply Nat.eqb_neq in A; rewrite A; reflexivity.
  - destruct x as [q|a|a|o]; [exfalso; apply A; left; reflexivity| | |destruct P]; cbn [sequence_args raw_shape is_num] in *.
    + unfold ndim. destruct (shape a) eqn:E; [reflexivity|]. exfalso. apply A. right. discriminate.
    + exfalso. apply A. right. exact P.
  - destruct x as [q|a|a|o]; [exfalso; apply A; left; reflexivity| | |destruct P]; cbn [raw_shape is_num] in *.
    + unfold scalar_args. cbn [asarray]. rewrite size_count. unfold first_item. destruct (shape a) as [|n [|m sh]] eqn:E.
      * reflexivity.
      * destruct (Nat.eq_dec n 1) as [->|N]; [exfalso; apply A; right; reflexivity|].
        cbn [count fold_right]. rewrite Nat.mul_1_r. apply Nat.eqb_neq in N. rewrite N. reflexivity.
      * destruct (Nat.eqb (count (n :: m :: sh)) 1) eqn:C; [|reflexivity]. apply Nat.eqb_eq in C. cbn [count fold_right] in C. apply Nat.eq_mul_1 in C as [-> _]. reflexivity.
    + unfold scalar_args. cbn [asarray]. rewrite size_count. unfold first_item. destruct (shape a) as [|n [|m sh]] eqn:E.
      * reflexivity.
      * destruct (Nat.eq_dec n 1) as [->|N]; [exfalso; apply A; right; reflexivity|].
        cbn [count fold_right]. rewrite Nat.mul_1_r. apply Nat.eqb_neq in N. rewrite N. reflexivity.
      * destruct (Nat.eqb (count (n :: m :: sh)) 1) eqn:C; [|reflexivity]. apply Nat.eqb_eq in C. cbn [count fold_right] in C. apply Nat.eq_mul_1 in C as [-> _]. reflexivity.
  - assert (K : forall a : nd Qc, (~ exists n, shape a = [n]) -> vector_of_array a u = Raise TypeError).
    { intros a N. unfold vector_of_array, ndim. destruct (shape a) as [|n [|m sh]]; try reflexivity. exfalso. eauto. }
    destruct x as [q|a|a|o]; [reflexivity| | |destruct P]; cbn [vector_args raw_shape] in *; rewrite (K a A); reflexivity.
  - assert (K : forall a : nd Qc, (~ (shape a = [] \/ exists n, shape a = [n])) -> vector_of_array (nd_ndmin 1 a) u = Raise TypeError).
    { intros a N. unfold vector_of_array, ndim. destruct (flat_ndmin1 a) as [_ S]. rewrite S.
      destruct (shape a) as [|n [|m sh]]; try reflexivity; exfalso; eauto. }
    destruct x as [q|a|a|o]; [exfalso; apply A; left; reflexivity| | |destruct P]; cbn [variable_args raw_shape] in *; rewrite (K a A); reflexivity.
  - assert (K : forall a : nd Qc, (~ shape a <> []) -> tensor_of_array a u = Raise TypeError).
    { intros a N. unfold tensor_of_array, ndim. destruct (shape a) as [|n sh]; [reflexivity|]. exfalso. apply N. discriminate. }
    destruct x as [q|a|a|o]; [reflexivity| | |destruct P]; cbn [tensor_args raw_shape] in *; rewrite (K a A); reflexivity.
Qed.

(** *** Objects *)
Lemma usable_cases (o : obj) : usable o -> match knd o with
  | MValue => (exists q, dat o = DNum q) \/ (exists a, dat o = DArr a /\ shape a <> [] /\ count (shape a) = 1)
  | MScalar => exists q, dat o = DNum q
  | MVector | MVariable => exists a n, dat o = DArr a /\ shape a = [n]
  | _ => exists a, dat o = DArr a /\ shape a <> []
  end.
Proof.
  destruct o as [k d u0]. unfold usable, proper, shape_of. cbn [knd dat]. intros [(S & A & B)|(K & N & C)].
  - destruct k; cbn [single proper_shape] in *;
      try (destruct (A eq_refl) as (q & ->); eauto; fail);
      try (destruct (B eq_refl) as (a & ->); eauto; fail).
    + destruct (B eq_refl) as (a & ->). destruct S as (n & S). eauto.
    + destruct (B eq_refl) as (a & ->). destruct S as (n & S). eauto.
  - subst k. destruct d as [q|a]; [congruence|]. right. eauto.
Qed.

(** the result of a conversion: the class, usable data, the same numbers, the unit *)
Definition made (k : mkind) (o : obj) (v : U) (y : obj) : Prop :=
  knd y = k /\ usable y /\ values y = values o /\ unt y = v /\ (single k = false -> shape_of o <> [] -> shape_of y = shape_of o).
Lemma proper_array k a (v : U) : single k = false -> proper_shape k (shape a) -> usable (mkm k (DArr a) v).
Proof. intros S P. left. unfold proper, shape_of. cbn [knd dat]. rewrite S. split; [exact P|]. split; [discriminate|eauto]. Qed.
Lemma proper_number k q (v : U) : single k = true -> usable (mkm k (DNum q) v).
Proof. intro S. left. unfold proper, shape_of. cbn [knd dat]. rewrite S. split; [destruct k; try discriminate S; reflexivity|]. split; [eauto|discriminate]. Qed.

Lemma make_value (o : obj) : usable o -> effect_of MValue (knd o) = Keeps ->
  if Nat.eqb (count (shape_of o)) 1 then exists y, make MValue (XObj o) None = Ok y /\ made MValue o (unt o) y /\ ((length (shape_of o) <= 1)%nat -> proper o -> proper y)
  else make MValue (XObj o) None = Raise TypeError.
Proof.
  intros W E. pose proof (usable_cases o W) as C. destruct o as [k d v]. cbn [knd dat unt] in *.
  unfold MeasuredModel.make, wrapped, refused, value_args. cbn [knd dat unt].
  assert (K : forall k', single k' = false -> (exists a, d = DArr a /\ shape a <> []) ->
    if Nat.eqb (count (shape_of (mkm k' d v))) 1 then exists y, (r <- (n <- data_size d ;; if Nat.eqb n 1 then d0 <- first_item (arr_of d) ;; Ok (d0, Some v) else Raise TypeError) ;;
       Ok (mkm MValue (fst r) (unit_or_one uone (snd r)))) = Ok y /\ made MValue (mkm k' d v) v y /\ ((length (shape_of (mkm k' d v)) <= 1)%nat -> proper (mkm k' d v) -> proper y)
    else (r <- (n <- data_size d ;; if Nat.eqb n 1 then d0 <- first_item (arr_of d) ;; Ok (d0, Some v) else Raise TypeError) ;;
       Ok (mkm MValue (fst r) (unit_or_one uone (snd r)))) = Raise TypeError).
  { intros k' Sk (a & -> & N). unfold shape_of. cbn [dat data_size arr_of]. assert (X : (match shape a with [] => Raise TypeError | _ => Ok (nd_size a) end) = Ok (count (shape a))) by (destruct (shape a) eqn:E'; [congruence|rewrite <- E'; reflexivity]).
    rewrite X. cbn [bind]. destruct (Nat.eqb (count (shape a)) 1) eqn:C1; [|reflexivity]. apply Nat.eqb_eq in C1.
    destruct (first_item_one a C1 N) as (d0 & F & V & S & Q). rewrite F. cbn [bind fst snd unit_or_one].
    eexists. split; [reflexivity|]. split.
    - unfold made. cbn [knd unt]. repeat split; [|rewrite !values_flat; exact V|discriminate].
      destruct (list_eq_dec Nat.eq_dec (shape a) [1]) as [E1|N1].
      + apply Q in E1 as (q & ->). apply proper_number. reflexivity.
      + right. unfold shape_of. cbn [knd dat]. destruct d0 as [q|b]; [exfalso; apply N1; apply Q; eauto|]. cbn [arr_of] in S.
        destruct (shape a) as [|n sh]; [congruence|]. cbn [tl] in S. cbn [count fold_right] in C1. apply Nat.eq_mul_1 in C1 as [-> C1]. rewrite S.
        repeat split; [congruence|exact C1].
    - intros L _. assert (E1 : shape a = [1]).
      { destruct (shape a) as [|n [|m sh]]; [congruence| |cbn in L; lia]. cbn in C1. rewrite Nat.mul_1_r in C1. congruence. }
      apply Q in E1 as (q & ->). split; [reflexivity|]. split; [cbn; eauto|discriminate]. }
  destruct k; try discriminate E.
  - cbn [bind fst snd unit_or_one]. assert (C1 : count (shape_of (mkm MValue d v)) = 1) by (destruct C as [(q & ->)|(a & -> & _ & C1)]; [reflexivity|exact C1]).
    rewrite C1. cbn [Nat.eqb]. eexists. split; [reflexivity|]. split; [|auto]. unfold made. split; [reflexivity|]. split; [exact W|]. split; [reflexivity|]. split; [reflexivity|]. intro X; discriminate X.
  - apply (K MSequence); auto.
  - apply (K MMeasurement); auto.
Qed.

(** classes that hold arrays *)
Lemma keep_array k k' a (v w : U) sh : single k = false -> shape a = sh -> proper_shape k sh -> made k (mkm k' (DArr a) v) w (mkm k (DArr a) w).
Proof.
  intros S E P. unfold made. cbn [knd unt]. repeat split; [|reflexivity..]. apply proper_array; [exact S|]. rewrite E. exact P.
Qed.
Lemma keep_one k k' d (v w : U) : usable (mkm k' d v) -> single k' = true -> single k = false ->
  made k (mkm k' d v) w (mkm k (DArr (nd_ndmin 1 (arr_of d))) w) \/ (exists n m sh, shape (arr_of d) = n :: m :: sh).
Proof.
  intros W S1 S0. apply usable_cases in W. cbn [knd dat] in W. destruct (flat_ndmin1 (arr_of d)) as [F S].
  destruct (shape (arr_of d)) as [|n [|m sh]] eqn:E; [left..|right; eauto].
  - unfold made. cbn [knd unt]. split; [reflexivity|]. split; [apply proper_array; [exact S0|]; rewrite S; destruct k; try discriminate S0; cbn; eauto; discriminate|].
    split; [rewrite !values_flat; exact F|]. split; [reflexivity|]. intros _ N. rewrite shape_arr in N. cbn [dat] in N. congruence.
  - unfold made. cbn [knd unt]. split; [reflexivity|]. split; [apply proper_array; [exact S0|]; rewrite S; destruct k; try discriminate S0; cbn; eauto; discriminate|].
    split; [rewrite !values_flat; exact F|]. split; [reflexivity|]. intros _ N. rewrite !shape_arr. cbn [dat arr_of]. rewrite S, E. reflexivity.
Qed.
Lemma keep_more k k' d (v w : U) : usable (mkm k' d v) -> single k' = true -> single k = false -> k <> MVector -> k <> MVariable ->
  made k (mkm k' d v) w (mkm k (DArr (nd_ndmin 1 (arr_of d))) w).
Proof.
  intros W S1 S0 N1 N2. destruct (flat_ndmin1 (arr_of d)) as [F S]. unfold made. cbn [knd unt]. split; [reflexivity|].
  split; [|split; [rewrite !values_flat; exact F|split; [reflexivity|]]].
  - apply proper_array; [exact S0|]. rewrite S. destruct k; try discriminate S0; try congruence; cbn; destruct (shape (arr_of d)); discriminate.
  - intros _ N. rewrite !shape_arr in *. cbn [dat arr_of] in *. rewrite S. destruct (shape (arr_of d)); congruence.
Qed.

Lemma make_sequence k (o : obj) : usable o -> k = MSequence \/ k = MMeasurement \/ k = MArray -> effect_of k (knd o) = Keeps ->
  exists y, make k (XObj o) None = Ok y /\ made k o (unt o) y.
Proof.
  intros W K E. pose proof (usable_cases o W) as C. destruct o as [k' d v]. cbn [knd dat unt] in *.
  unfold MeasuredModel.make, wrapped, refused.
  assert (X : forall (f : @arg U -> option U -> result (mdata * option U)),
    f (XObj (mkm k' d v)) None = Ok (if single k' then DArr (nd_ndmin 1 (arr_of d)) else d, Some v) ->
    exists y, (r <- f (XObj (mkm k' d v)) None ;; Ok (mkm k (fst r) (unit_or_one uone (snd r)))) = Ok y /\ made k (mkm k' d v) v y).
  { intros f ->. cbn [bind fst snd unit_or_one]. eexists. split; [reflexivity|]. destruct (single k') eqn:Sk.
    - apply keep_more; auto; destruct K as [->|[->| ->]]; try reflexivity; discriminate.
    - assert (A : exists a, d = DArr a /\ shape a <> []).
      { destruct k'; try discriminate Sk; try exact C; destruct C as (a & n & -> & S); exists a; (split; [reflexivity|rewrite S; discriminate]). }
      destruct A as (a & -> & N). eapply keep_array; [destruct K as [->|[->| ->]]; reflexivity|reflexivity|].
      destruct K as [->|[->| ->]]; exact N. }
  destruct K as [->|[->| ->]]; apply X; destruct k'; try discriminate E; reflexivity.
Qed.

Lemma make_tensor (o : obj) : usable o -> effect_of MTensor (knd o) <> Fails ->
  exists y, make MTensor (XObj o) None = Ok y /\ made MTensor o (match effect_of MTensor (knd o) with Keeps => unt o | _ => uone end) y.
Proof.
  intros W E. pose proof (usable_cases o W) as C. destruct o as [k' d v]. cbn [knd dat unt] in *.
  unfold MeasuredModel.make, wrapped, refused, tensor_args. cbn [knd dat unt].
  assert (X : forall a u, shape a <> [] -> tensor_of_array a u = Ok (DArr a, u : option U)).
  { intros a u N. unfold tensor_of_array, ndim. destruct (shape a); [congruence|reflexivity]. }
  assert (Y : forall k'' a u, d = DArr a -> shape a <> [] -> exists y,
    (r <- tensor_of_array (arr_of d) u ;; Ok (mkm MTensor (fst r) (unit_or_one uone (snd r)))) = Ok y /\ made MTensor (mkm k'' d v) (unit_or_one uone u) y).
  { intros k'' a u -> N. cbn [arr_of]. rewrite (X a u N). cbn [bind fst snd]. eexists. split; [reflexivity|]. eapply keep_array; [reflexivity|reflexivity|exact N]. }
  destruct k'; cbn [effect_of] in *; try congruence;
    try (destruct C as (a & D & N); first [exact (Y _ a None D N)|exact (Y _ a (Some v) D N)]);
    try (destruct C as (a & n & D & S); apply (Y _ a None D); rewrite S; discriminate).
  - (* scalar *) rewrite X; [|destruct (flat_ndmin1 (arr_of d)) as [_ ->]; destruct (shape (arr_of d)); discriminate].
    cbn [bind fst snd unit_or_one]. eexists. split; [reflexivity|]. apply keep_more; auto; discriminate.
  - destruct C as (a & D & N). cbn [bind fst snd unit_or_one]. eexists. split; [reflexivity|]. rewrite D. eapply keep_array; [reflexivity|reflexivity|exact N].
  - destruct C as (a & D & N). cbn [bind fst snd unit_or_one]. eexists. split; [reflexivity|]. rewrite D. eapply keep_array; [reflexivity|reflexivity|exact N].
Qed.

Lemma vector_step k0 k'' d a (v : U) (u : option U) : k0 = MVector \/ k0 = MVariable -> d = DArr a ->
  if Nat.eqb (length (shape a)) 1 then exists r, vector_of_array a u = Ok r /\ made k0 (mkm k'' d v) (unit_or_one uone u) (mkm k0 (fst r) (unit_or_one uone (snd r)))
  else vector_of_array a u = Raise TypeError.
Proof.
  intros K ->. unfold vector_of_array, ndim. destruct (Nat.eqb (length (shape a)) 1) eqn:L; [|reflexivity].
  eexists. split; [reflexivity|]. cbn [fst snd]. destruct (shape a) as [|n [|m sh]] eqn:E; try discriminate L.
  eapply keep_array; [destruct K as [->| ->]; reflexivity|exact E|destruct K as [->| ->]; cbn; eauto].
Qed.
Lemma make_vector_args k0 (o : obj) : k0 = MVector \/ k0 = MVariable -> usable o -> effect_of MVector (knd o) <> Fails ->
  if Nat.leb (length (shape_of o)) 1 then exists r, vector_args (XObj o) None = Ok r /\
     made k0 o (match effect_of MVector (knd o) with Keeps => unt o | _ => uone end) (mkm k0 (fst r) (unit_or_one uone (snd r)))
  else vector_args (XObj o) None = Raise TypeError.
Proof.
  intros K W E. pose proof (usable_cases o W) as C. destruct o as [k' d v]. cbn [knd dat unt] in *.
  unfold vector_args. cbn [knd dat unt].
  assert (Y : forall u, single k' = false -> (exists a, d = DArr a /\ shape a <> []) ->
    if Nat.leb (length (shape_of (mkm k' d v))) 1 then exists r, vector_of_array (arr_of d) u = Ok r /\ made k0 (mkm k' d v) (unit_or_one uone u) (mkm k0 (fst r) (unit_or_one uone (snd r)))
    else vector_of_array (arr_of d) u = Raise TypeError).
  { intros u Sk (a & D & N). pose proof (vector_step k0 k' d a v u K D) as V. rewrite shape_arr. cbn [dat]. rewrite D in *. cbn [arr_of].
    assert (L : Nat.leb (length (shape a)) 1 = Nat.eqb (length (shape a)) 1) by (destruct (shape a) as [|? [|]]; [congruence|reflexivity|reflexivity]).
    rewrite L. exact V. }
  destruct k'; cbn [effect_of] in *; try congruence; try (first [exact (Y None eq_refl C)|exact (Y (Some v) eq_refl C)]).
  - (* scalar *) destruct C as (q & ->). unfold shape_of. cbn [dat length Nat.leb].
    eexists. split; [reflexivity|]. cbn [fst snd unit_or_one]. split; [reflexivity|]. split; [apply proper_array; destruct K as [->| ->]; cbn; eauto|].
    split; [reflexivity|]. split; [reflexivity|]. intros _ N. exfalso. apply N. reflexivity.
  - destruct C as (a & n & D & S). unfold shape_of. cbn [dat]. rewrite D, S. cbn [length Nat.leb]. eexists. split; [reflexivity|]. cbn [fst snd unit_or_one].
    eapply keep_array; [destruct K as [->| ->]; reflexivity|exact S|destruct K as [->| ->]; cbn; eauto].
  - destruct C as (a & n & D & S). unfold shape_of. cbn [dat]. rewrite D, S. cbn [length Nat.leb]. eexists. split; [reflexivity|]. cbn [fst snd unit_or_one].
    eapply keep_array; [destruct K as [->| ->]; reflexivity|exact S|destruct K as [->| ->]; cbn; eauto].
Qed.
Lemma make_vector k (o : obj) : k = MVector \/ k = MVariable -> usable o -> effect_of k (knd o) <> Fails ->
  if Nat.leb (length (shape_of o)) 1 then exists y, make k (XObj o) None = Ok y /\
     made k o (match effect_of k (knd o) with Keeps => unt o | _ => uone end) y
  else make k (XObj o) None = Raise TypeError.
Proof.
  intros K W E. assert (E' : effect_of k (knd o) = effect_of MVector (knd o)) by (destruct K as [->| ->]; destruct (knd o); reflexivity).
  rewrite E' in *. pose proof (make_vector_args k o K W E) as V.
  unfold MeasuredModel.make, wrapped, refused. destruct (Nat.leb (length (shape_of o)) 1).
  - destruct V as (r & R & M). eexists. destruct K as [->| ->].
    + rewrite R. cbn [bind]. split; [reflexivity|]. exact M.
    + unfold variable_args, wrapped, refused. rewrite R. cbn [bind fst snd dat unt unit_or_one]. split; [reflexivity|]. exact M.
  - destruct K as [->| ->]; [rewrite V; reflexivity|]. unfold variable_args, wrapped, refused. rewrite V. reflexivity.
Qed.

Lemma make_scalar (o : obj) : usable o -> effect_of MScalar (knd o) <> Fails ->
  if match shape_of o with [] | [1] => true | _ => false end then exists y, make MScalar (XObj o) None = Ok y /\
     made MScalar o (match effect_of MScalar (knd o) with Keeps => unt o | _ => uone end) y
  else make MScalar (XObj o) None = Raise TypeError.
Proof.
  intros W E. pose proof (usable_cases o W) as C. destruct o as [k' d v]. cbn [knd dat unt] in *.
  unfold MeasuredModel.make, wrapped, refused.
  assert (Y : single k' = false -> (exists a, d = DArr a /\ shape a <> []) ->
    if match shape_of (mkm k' d v) with [] | [1] => true | _ => false end then exists y,
      (r <- scalar_args (XObj (mkm k' d v)) None ;; Ok (mkm MScalar (fst r) (unit_or_one uone (snd r)))) = Ok y /\
      made MScalar (mkm k' d v) (match effect_of MScalar k' with Keeps => v | _ => uone end) y
    else (r <- scalar_args (XObj (mkm k' d v)) None ;; Ok (mkm MScalar (fst r) (unit_or_one uone (snd r)))) = Raise TypeError).
  { intros Sk (a & -> & N). unfold shape_of. cbn [dat].
    assert (A : asarray (XObj (mkm k' (DArr a) v)) = Some a) by (destruct k'; try discriminate Sk; reflexivity).
    assert (X : scalar_args (XObj (mkm k' (DArr a) v)) None = (if Nat.eqb (nd_size a) 1 then d <- first_item a ;; match d with DArr _ => Raise TypeError | DNum _ => Ok (d, if is_tensor k' then Some v else None) end else Raise TypeError)).
    { unfold scalar_args. destruct k'; try discriminate Sk; rewrite A; reflexivity. }
    rewrite X, size_count. unfold first_item. destruct (shape a) as [|n [|m sh]] eqn:S; [congruence| |].
    - destruct n as [|[|n]]; [reflexivity| |reflexivity].
      cbn [count fold_right Nat.mul Nat.add Nat.eqb bind fst snd]. eexists. split; [reflexivity|]. unfold made. cbn [knd unt].
      split; [reflexivity|]. split; [apply proper_number; reflexivity|]. split; [unfold values; cbn [dat]; rewrite S; reflexivity|].
      split; [destruct k'; try discriminate Sk; reflexivity|discriminate].
    - assert (H : match n with 1 => false | _ => false end = false) by (destruct n as [|[|]]; reflexivity).
      replace (match n with 1 => false | _ => false end) with false.
      destruct (Nat.eqb (count (n :: m :: sh)) 1) eqn:Q; [|reflexivity]. apply Nat.eqb_eq in Q. cbn [count fold_right] in Q. apply Nat.eq_mul_1 in Q as [-> _]. reflexivity. }
  destruct k'; cbn [effect_of] in *; try congruence; try (apply (Y eq_refl C));
    try (destruct C as (a & n & D & S); apply (Y eq_refl); exists a; (split; [exact D|rewrite S; discriminate])).
  destruct C as (q & ->). unfold shape_of. cbn [dat]. eexists. split; [reflexivity|]. split; [reflexivity|]. split; [apply proper_number; reflexivity|]. repeat split.
Qed.

End Proofs.
