(** Proofs about physical objects: arithmetic *)
From Verif Require Import PyBase PyLemmas ContainerModel ContainerSpec ContainerProofs ContainerProofs2 Nd IndexModel ArrayModel ArraySpec ArrayProofs ArrayProofs2 ArrayProofs3 ArrayProofs4 ArrayProperties AxesModel AxesSpec AxesProofs PhysicalModel PhysicalSpec PhysicalProofs.

Lemma bcast_rev_length a : forall b r, bcast_rev a b = Some r -> length r = Nat.max (length a) (length b).
Proof.
  induction a as [|x a IH]; intros b r.
  - cbn. intros [= <-]. lia.
  - destruct b as [|y b]; cbn [bcast_rev].
    + intros [= <-]. cbn. lia.
    + destruct (bcast_rev a b) as [t|] eqn:E; [|discriminate]. specialize (IH b t E). intros H.
      assert (length r = S (length t)) by (destruct (Nat.eqb x y), (Nat.eqb x 1), (Nat.eqb y 1); try discriminate; injection H as <-; reflexivity).
      cbn [length]. lia.
Qed.
Lemma bcast_length a b r : bcast_shape a b = Some r -> length r = Nat.max (length a) (length b).
Proof.
  unfold bcast_shape. destruct (bcast_rev (rev a) (rev b)) as [t|] eqn:E; [|discriminate]. cbn. intros [= <-].
  rewrite rev_length. apply bcast_rev_length in E. rewrite !rev_length in E. exact E.
Qed.

Lemma well_formed_dims {U : Type} k d (u : U) : well_formed (mkobj k d u) <->
  match k with KScalar => length (shape d) = 0 | KVector => length (shape d) = 1 | KTensor => 0 < length (shape d) end.
Proof.
  unfold well_formed. cbn [okind odata]. destruct k; [|tauto|].
  - rewrite length_zero_iff_nil. tauto.
  - destruct (shape d); cbn; split; intros; try contradiction; try lia; try congruence; discriminate.
Qed.
Lemma max_formed {U : Type} (x y : pobj (U := U)) sh g (u : U) : well_formed x -> well_formed y -> bcast_shape (shape (odata x)) (shape (odata y)) = Some sh ->
  well_formed (mkobj (kind_max (okind x) (okind y)) (mknd sh g) u).
Proof.
  destruct x as [kx dx ux], y as [ky dy uy]. cbn [odata okind]. intros Wx Wy H. apply bcast_length in H.
  apply well_formed_dims in Wx, Wy. apply well_formed_dims. cbn [shape]. destruct kx, ky; cbn [kind_max]; lia.
Qed.
Lemma map2_cases {A C D} (f : A -> C -> D) (a : nd A) (b : nd C) :
  (bcast_shape (shape a) (shape b) = None /\ nd_map2 f a b = Raise ValueError) \/
  exists sh, bcast_shape (shape a) (shape b) = Some sh /\
    nd_map2 f a b = Ok (mknd sh (fun ix => f (elem a (operand_index (shape a) ix)) (elem b (operand_index (shape b) ix)))).
Proof. unfold nd_map2. destruct bcast_shape as [sh|]; [right; exists sh; auto|left; auto]. Qed.
(** the index of an operand is valid for it *)
Lemma bcast_rev_valid a : forall b r, bcast_rev a b = Some r -> Forall2 (fun n m => m = n \/ n = 1) a (firstn (length a) r) .
Proof.
  induction a as [|x a IH]; intros b r; [constructor|]. destruct b as [|y b]; cbn [bcast_rev].
  - intros [= <-]. rewrite firstn_all. apply Forall2_nth; [reflexivity|]. intros k n m E1 E2. left. congruence.
  - destruct (bcast_rev a b) as [t|] eqn:E; [|discriminate]. specialize (IH b t E).
    intros H. destruct (Nat.eqb_spec x y) as [->|]; [injection H as <-; cbn; constructor; auto|].
    destruct (Nat.eqb_spec x 1) as [->|]; [injection H as <-; cbn; constructor; auto|].
    destruct (Nat.eqb_spec y 1) as [->|]; [injection H as <-; cbn; constructor; auto|discriminate].
Qed.
Lemma pin_valid sh : forall ix sh', Forall2 (fun n m => m = n \/ n = 1) sh sh' -> valid ix sh' -> valid (pin sh ix) sh.
Proof.
  induction sh as [|n sh IH]; intros ix sh' F V; inversion F as [|? m ? ms H F']; subst; inversion V as [|i ? is ? Hi V']; subst; [constructor|].
  cbn [pin]. constructor; [|exact (IH _ _ F' V')]. destruct (Nat.eqb_spec n 1); [lia|]. destruct H; [congruence|contradiction].
Qed.
Lemma skipn_valid k : forall ix sh, valid ix sh -> valid (skipn k ix) (skipn k sh).
Proof. induction k as [|k IH]; intros ix sh V; [exact V|]. inversion V; subst; [constructor|]. cbn. apply IH. assumption. Qed.
Lemma Forall2_rev' {X Y} (R : X -> Y -> Prop) l : forall m, Forall2 R l m -> Forall2 R (rev l) (rev m).
Proof. induction l; intros m F; inversion F; subst; [constructor|]. cbn. apply Forall2_app; [auto|repeat constructor; assumption]. Qed.
Lemma bcast_shape_comm a b : bcast_shape a b = bcast_shape b a.
Proof.
  unfold bcast_shape. f_equal. generalize (rev a) (rev b). clear. intros a. induction a as [|x a IH]; intros [|y b]; try reflexivity. cbn [bcast_rev]. rewrite (IH b).
  destruct (bcast_rev b a); [|reflexivity]. rewrite (Nat.eqb_sym y x). destruct (Nat.eqb_spec x y) as [->|]; [reflexivity|].
  destruct (Nat.eqb_spec x 1) as [->|], (Nat.eqb_spec y 1) as [->|]; try reflexivity; contradiction.
Qed.
Lemma operand_valid a b sh ix : bcast_shape a b = Some sh -> valid ix sh -> valid (operand_index a ix) a.
Proof.
  intros H V. pose proof (bcast_length _ _ _ H) as L. unfold operand_index. rewrite (Forall2_len _ _ _ V).
  unfold bcast_shape in H. destruct (bcast_rev (rev a) (rev b)) as [t|] eqn:E; [|discriminate]. injection H as <-.
  apply bcast_rev_valid in E. rewrite rev_length in E. apply Forall2_rev' in E. rewrite rev_involutive in E.
  eapply pin_valid; [exact E|]. rewrite firstn_skipn_rev, rev_involutive, rev_length.
  apply skipn_valid. exact V.
Qed.
Lemma operand_valid_r a b sh ix : bcast_shape a b = Some sh -> valid ix sh -> valid (operand_index b ix) b.
Proof. rewrite bcast_shape_comm. apply operand_valid. Qed.

Section P.
Set Default Proof Using "Type".
Context {U B : Type}.
Variables (ueq : U -> U -> bool) (umul udiv : U -> U -> result U) (upow : U -> Qc -> result U) (uone : U).
Variables (factor : U -> U -> option Qc) (consistent : U -> U -> bool) (uinv : U -> result U).
Variables (beq : B -> B -> bool) (blen : B -> nat) (bin : B -> B -> bool).
Notation obj := (pobj (U := U)).
Notation arr := (parr (U := U) (B := B)).
Notation val := (pval (U := U) (B := B)).
Notation add := (padditive ueq uone beq blen bin).
Notation mult := (pmultiplicative (B := B) umul udiv uinv).

(** ** objects *)
(** two objects: what the result is *)
Lemma obj_add_cases f (x y : obj) : well_formed x -> well_formed y ->
  (add f (PObj x) (PObj y) = Raise ValueError /\ (ueq (ounit x) (ounit y) = false \/ bcast_shape (shape (odata x)) (shape (odata y)) = None)) \/
  exists sh, bcast_shape (shape (odata x)) (shape (odata y)) = Some sh /\ ueq (ounit x) (ounit y) = true /\
    let z := mkobj (kind_max (okind x) (okind y)) (mknd sh (fun ix => f (elem (odata x) (operand_index (shape (odata x)) ix)) (elem (odata y) (operand_index (shape (odata y)) ix)))) (ounit x) in
    add f (PObj x) (PObj y) = Ok (PObj z) /\ well_formed z.
Proof.
  intros Wx Wy. cbn [padditive]. destruct (map2_cases f (odata x) (odata y)) as [(E & ->)|(sh & E & ->)].
  - left. cbn [bind]. auto.
  - cbn [bind]. destruct (ueq (ounit x) (ounit y)); [|left; auto]. right. exists sh. split; [exact E|]. split; [reflexivity|]. cbv zeta.
    match goal with |- context [build ?k (mknd sh ?g) ?u] => pose proof (max_formed x y sh g u Wx Wy E) as W; rewrite (build_ok k _ u W) end.
    split; [reflexivity|exact W].
Qed.
Lemma obj_mul_cases op f (x y : obj) : well_formed x -> well_formed y ->
  (exists e, mult op f (PObj x) (PObj y) = Raise e /\ ((unit_op umul udiv op (ounit x) (ounit y) = Raise e) \/ (e = ValueError /\ bcast_shape (shape (odata x)) (shape (odata y)) = None))) \/
  exists sh u, bcast_shape (shape (odata x)) (shape (odata y)) = Some sh /\ unit_op umul udiv op (ounit x) (ounit y) = Ok u /\
    let z := mkobj (kind_max (okind x) (okind y)) (mknd sh (fun ix => f (elem (odata x) (operand_index (shape (odata x)) ix)) (elem (odata y) (operand_index (shape (odata y)) ix)))) u in
    mult op f (PObj x) (PObj y) = Ok (PObj z) /\ well_formed z.
Proof.
  intros Wx Wy. cbn [pmultiplicative]. destruct (unit_op umul udiv op (ounit x) (ounit y)) as [u|e]; [|left; exists e; split; [reflexivity|left; reflexivity]].
  cbn [bind]. destruct (map2_cases f (odata x) (odata y)) as [(E & ->)|(sh & E & ->)].
  - left. exists ValueError. auto.
  - right. cbn [bind]. exists sh, u. split; [exact E|]. split; [reflexivity|]. cbv zeta.
    match goal with |- context [build ?k (mknd sh ?g) ?u] => pose proof (max_formed x y sh g u Wx Wy E) as W; rewrite (build_ok k _ u W) end.
    split; [reflexivity|exact W].
Qed.
End P.
