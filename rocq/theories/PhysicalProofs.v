(** Proofs about physical objects *)
From Verif Require Import PyBase PyLemmas ContainerModel ContainerSpec ContainerProofs ContainerProofs2 Nd IndexModel ArrayModel ArraySpec ArrayProofs ArrayProofs2 ArrayProofs3 ArrayProofs4 AxesModel AxesSpec AxesProofs PhysicalModel PhysicalSpec.

Lemma nd_map_eta {A} (f : A -> A) (d : nd A) : shape (nd_map f d) = shape d. Proof. reflexivity. Qed.

Section P.
Set Default Proof Using "Type".
Context {U B : Type}.
Variables (ueq : U -> U -> bool) (factor : U -> U -> option Qc) (consistent : U -> U -> bool) (size : U -> Qc).
Hypothesis M : measures ueq factor size.
Notation obj := (pobj (U := U)).
Notation arr := (parr (U := U) (B := B)).

(** ** objects *)
Lemma build_ok k d u : well_formed (mkobj (U := U) k d u) -> build k d u = Ok (mkobj k d u).
Proof.
  unfold well_formed, build. cbn [okind odata]. destruct k.
  - intros ->. reflexivity.
  - unfold ndim. intros ->. reflexivity.
  - unfold ndim. intros H. destruct (shape d) eqn:E; [contradiction|]. reflexivity.
Qed.
Lemma withunit_cases (x : obj) v : well_formed x ->
  match factor (ounit x) v with
  | None => obj_withunit ueq factor consistent x v = Raise (if consistent (ounit x) v then OtherError "UnitConversionError" else ValueError)
  | Some w => obj_withunit ueq factor consistent x v = Ok (if ueq (ounit x) v then x else mkobj (okind x) (nd_map (Qcmult w) (odata x)) v)
  end.
Proof.
  intros W. unfold obj_withunit, conversion_factor. destruct (factor (ounit x) v) as [w|].
  - cbn [bind]. destruct (ueq (ounit x) v); [reflexivity|]. apply build_ok. exact W.
  - destruct (consistent (ounit x) v); reflexivity.
Qed.
Lemma withunit_same (x y : obj) v : well_formed x -> obj_withunit ueq factor consistent x v = Ok y ->
  well_formed y /\ same_quantity size x y /\ (ounit y = v \/ (y = x /\ ueq (ounit x) v = true)) /\ size (ounit y) = size v.
Proof using M.
  intros W H. pose proof (withunit_cases x v W) as C. destruct (factor (ounit x) v) as [w|] eqn:F; rewrite H in C; [|discriminate]. injection C as ->.
  destruct (ueq (ounit x) v) eqn:E.
  - split; [exact W|]. split; [split; [reflexivity|split; reflexivity]|]. split; [right; auto|]. apply (equal_sizes _ _ _ M), E.
  - split; [exact W|]. split; [|split; [left; reflexivity|reflexivity]]. split; [reflexivity|]. split; [reflexivity|]. intros ix _. unfold amount. cbn [ounit odata nd_map elem].
    rewrite <- (factor_sizes _ _ _ M _ _ _ F). ring.
Qed.
Lemma same_refl (x : obj) : same_quantity size x x.
Proof. split; [reflexivity|split; reflexivity]. Qed.
Lemma same_trans (x y z : obj) : same_quantity size x y -> same_quantity size y z -> same_quantity size x z.
Proof. intros (A1 & A2 & A3) (B1 & B2 & B3). split; [congruence|]. split; [congruence|]. intros ix V. rewrite A3 by exact V. apply B3. rewrite <- A2. exact V. Qed.
Lemma same_sym (x y : obj) : same_quantity size x y -> same_quantity size y x.
Proof. intros (A1 & A2 & A3). split; [congruence|]. split; [congruence|]. intros ix V. symmetry. apply A3. rewrite A2. exact V. Qed.
Lemma same_data (x y : obj) : same_quantity size x y -> size (ounit x) = size (ounit y) -> nd_eq (odata x) (odata y).
Proof using M.
  intros (A1 & A2 & A3) E. split; [exact A2|]. intros ix V. specialize (A3 ix V). unfold amount in A3. rewrite E in A3.
  apply (f_equal (fun q => (/ size (ounit y) * q)%Qc)) in A3. rewrite !Qcmult_assoc, !(Qcmult_comm (/ _)), !Qcmult_inv_r, !Qcmult_1_l in A3 by apply M. exact A3.
Qed.

(** ** arrays *)
Lemma adata_ok (a : arr) : well_named (face a) -> exists d, adata a = Ok d /\ adims d = Named (anames (face a)) /\ shape (data d) = shape (data (face a)) /\ well_named d /\
  (forall d' n, axis_len d d' n <-> axis_len (face a) d' n) /\ forall c, within (face a) c -> at_ d c = (scale a * at_ (face a) c)%Qc.
Proof.
  intros W. unfold adata, multiplicative, get_operands. cbn [get_operand bind fst snd].
  destruct (scalar_left Qc Qcmult (face a) (scale a)) as (r & -> & S & E). cbn [bind]. destruct (same_shape_named (face a) r W S) as (-> & W' & AX).
  eexists. split; [reflexivity|]. split; [reflexivity|]. split; [exact S|]. split; [exact W'|]. split; [exact AX|]. intros c H. exact (E W c H).
Qed.
Lemma shows_iff (a : arr) c q : well_named (face a) -> inside a c -> (shows size a c q <-> q = (size (aunit a) * (scale a * at_ (face a) c))%Qc).
Proof.
  intros W I. destruct (adata_ok a W) as (d & E & _ & _ & _ & _ & V). unfold shows. rewrite E. split.
  - intros (d' & [= <-] & ->). rewrite (V c I). reflexivity.
  - intros ->. exists d. split; [reflexivity|]. rewrite (V c I). reflexivity.
Qed.
Lemma tidy_names (a : arr) : tidy a -> anames (face a) = map fst (paxes a).
Proof. intros (_ & E & _). unfold anames. rewrite E. reflexivity. Qed.
Lemma tidy_nodup (a : arr) : tidy a -> NoDup (map fst (paxes a)).
Proof. intros T. rewrite <- (tidy_names a T). apply T. Qed.
(** making an array again from data of the same shape *)
Lemma factory_tidy (d : nd Qc) u (ax : list (str * B)) : NoDup (map fst ax) -> ax <> [] -> length (shape d) = length ax -> Forall (fun n => 0 < n) (shape d) ->
  exists r, parray_factory (U := U) d u ax = Ok r /\ tidy r /\ data (face r) = d /\ scale r = 1%Qc /\ aunit r = u /\ paxes r = ax.
Proof.
  intros N Ne L P. unfold parray_factory. destruct ax as [|kv ax]; [contradiction|]. unfold array_factory, dimensions_factory. change (anames_of (kv :: ax)) with (map fst (kv :: ax)).
  cbn [names]. rewrite unique_id by exact N. unfold ndim. rewrite (map_length fst (kv :: ax)), L, Nat.eqb_refl. cbn [negb bind]. eexists. split; [reflexivity|].
  cbn [face data scale aunit paxes]. split; [|repeat split]. split; [|split; [reflexivity|discriminate]].
  split; [exact N|]. split; [|exact P]. unfold anames. cbn [face adims names data]. rewrite (map_length fst (kv :: ax)). symmetry. exact L.
Qed.
Lemma tidy_length (a : arr) : tidy a -> length (shape (data (face a))) = length (paxes a).
Proof. intros T. pose proof (tidy_names a T) as E. destruct T as ((_ & L & _) & _). rewrite <- L, E, map_length. reflexivity. Qed.
Lemma arr_withunit_cases (x : arr) v : tidy x ->
  match factor (aunit x) v with
  | None => arr_withunit ueq factor consistent x v = Raise (if consistent (aunit x) v then OtherError "UnitConversionError" else ValueError)
  | Some w => if ueq (aunit x) v then arr_withunit ueq factor consistent x v = Ok x
              else exists y, arr_withunit ueq factor consistent x v = Ok y /\ tidy y /\ data (face y) = data (face x) /\ scale y = w /\ aunit y = v /\ paxes y = paxes x
  end.
Proof.
  intros T. unfold arr_withunit, conversion_factor. destruct (factor (aunit x) v) as [w|]; [|destruct (consistent (aunit x) v); reflexivity].
  cbn [bind]. destruct (ueq (aunit x) v); [reflexivity|].
  destruct (factory_tidy (data (face x)) v (paxes x)) as (r & -> & Tr & Dr & Sr & Ur & Pr).
  - apply tidy_nodup, T.
  - apply T.
  - apply tidy_length, T.
  - apply T.
  - cbn [bind]. eexists. split; [reflexivity|]. cbn [face scale aunit paxes]. split; [exact Tr|]. auto.
Qed.
Lemma same_face (x y : arr) : tidy x -> tidy y -> paxes y = paxes x -> data (face y) = data (face x) -> face y = face x.
Proof. intros (_ & E1 & _) (_ & E2 & _) P D. destruct (face x), (face y). cbn in *. congruence. Qed.
End P.
