(** Proofs about physical arrays: arithmetic *)
From Verif Require Import PyBase PyLemmas ContainerModel ContainerSpec ContainerProofs ContainerProofs2 Nd IndexModel ArrayModel ArraySpec ArrayProofs ArrayProofs2 ArrayProofs3 ArrayProofs4 ArrayProperties AxesModel AxesSpec AxesProofs PhysicalModel PhysicalSpec PhysicalProofs PhysicalProofs2.

Lemma pin_clipped {A} (x : array A) (c : coords) : well_named x -> (forall d, axis_len x d 1 -> c d = 0) ->
  operand_index (shape (data x)) (map c (anames x)) = map c (anames x).
Proof.
  intros (N & L & _) H. unfold operand_index. rewrite map_length, L, Nat.sub_diag. cbn [skipn].
  assert (G : forall ns sh, length ns = length sh -> (forall k d, nth_error ns k = Some d -> nth_error sh k = Some 1 -> c d = 0) -> pin sh (map c ns) = map c ns).
  { induction ns as [|d ns IH]; intros [|n sh] E Q; try discriminate; [reflexivity|]. cbn [map pin]. rewrite IH.
    - f_equal. destruct (Nat.eqb_spec n 1) as [->|]; [|reflexivity]. symmetry. exact (Q 0 d eq_refl eq_refl).
    - now injection E.
    - intros k e. exact (Q (S k) e). }
  apply G; [exact L|]. intros k d E1 E2. apply H. exists k. auto.
Qed.
Lemma clip_ext {A C} (x : array A) (y : array C) c c' : (forall d n, axis_len x d n <-> axis_len y d n) -> clip x c c' -> clip y c c'.
Proof. intros E K d n H. apply (K d n), E, H. Qed.
Lemma clip_ones {A} (x : array A) c c' : clip x c c' -> forall d, axis_len x d 1 -> c' d = 0.
Proof. intros K d H. apply (K d 1 H). reflexivity. Qed.
Lemma longer_ext {A} (a a' b b' : array A) : (forall d n, axis_len a d n <-> axis_len a' d n) -> (forall d n, axis_len b d n <-> axis_len b' d n) ->
  forall d n, longer a b d n <-> longer a' b' d n.
Proof.
  intros E F d n. unfold longer. rewrite E, F. split; (intros [(H & K)|(H & K)]; [left|right]); (split; [exact H|]; intros m Hm; apply K); first [apply F | apply E]; exact Hm.
Qed.
Lemma axis_len_names {A C} (x : array A) (y : array C) : anames x = anames y -> shape (data x) = shape (data y) -> forall d n, axis_len x d n <-> axis_len y d n.
Proof. intros E S d n. unfold axis_len. rewrite E, S. reflexivity. Qed.

Section P.
Set Default Proof Using "Type".
Context {U B : Type}.
Variables (ueq : U -> U -> bool) (umul udiv : U -> U -> result U) (uone : U).
Variables (uinv : U -> result U).
Variables (beq : B -> B -> bool) (blen : B -> nat) (bin : B -> B -> bool).
Notation arr := (parr (U := U) (B := B)).
Notation add := (padditive ueq uone beq blen bin).
Notation mult := (pmultiplicative (B := B) umul udiv uinv).

(** the data of an array, also at clipped coordinates *)
Lemma adata_clip (a : arr) : well_named (face a) -> exists d, adata a = Ok d /\ adims d = Named (anames (face a)) /\ shape (data d) = shape (data (face a)) /\ well_named d /\
  (forall d' n, axis_len d d' n <-> axis_len (face a) d' n) /\ forall c, (forall d, axis_len (face a) d 1 -> c d = 0) -> at_ d c = (scale a * at_ (face a) c)%Qc.
Proof.
  intros W. unfold adata, multiplicative, get_operands. cbn [get_operand bind fst snd].
  unfold nd_map2. cbn [nd_scalar shape]. rewrite (proj2 (bcast_nil _)). cbn [bind].
  set (r := mknd _ _). destruct (same_shape_named (face a) r W eq_refl) as (-> & W' & AX).
  eexists. split; [reflexivity|]. split; [reflexivity|]. split; [reflexivity|]. split; [exact W'|]. split; [exact AX|]. intros c H.
  unfold at_. cbn [anames adims names data r elem]. f_equal. f_equal. fold (anames (face a)). apply pin_clipped; assumption.
Qed.

(** making an array again, with names known to be those of the data *)
Lemma refactory (d : array Qc) u (ax : list (str * B)) : well_named d -> map fst ax = anames d -> ax <> [] ->
  exists r : arr, parray_factory (data d) u ax = Ok r /\ tidy r /\ scale r = 1%Qc /\ aunit r = u /\ paxes r = ax /\ data (face r) = data d /\ anames (face r) = anames d.
Proof.
  intros (N & L & P) E Ne. destruct (factory_tidy (U := U) (data d) u ax) as (r & R & T & D & S & Ur & A); [rewrite E; exact N|exact Ne|rewrite <- L, <- E; apply map_length|exact P|].
  exists r. split; [exact R|]. split; [exact T|]. split; [exact S|]. split; [exact Ur|]. split; [exact A|]. split; [exact D|].
  rewrite (tidy_names r T), A. exact E.
Qed.
Lemma refactory_at (d : array Qc) (r : arr) : data (face r) = data d -> anames (face r) = anames d ->
  (forall e n, axis_len (face r) e n <-> axis_len d e n) /\ forall c, at_ (face r) c = at_ d c.
Proof. intros D N. split; [intros e n; unfold axis_len; rewrite D, N; reflexivity|]. intros c. unfold at_. rewrite D, N. reflexivity. Qed.

Lemma arr_add f (x y : arr) v : tidy x -> tidy y -> add f (PArr x) (PArr y) = Ok v ->
  exists z, v = PArr z /\ tidy z /\ ueq (aunit x) (aunit y) = true /\ aunit z = aunit x /\ scale z = 1%Qc /\
    map fst (paxes x) = map fst (paxes y) /\ map fst (paxes z) = map fst (paxes x) /\
    ((axes_eq beq (paxes x) (paxes y) = true /\ paxes z = paxes x) \/ axes_add beq blen bin (paxes x) (paxes y) = Ok (paxes z)) /\
    (forall d n, axis_len (face z) d n <-> longer (face x) (face y) d n) /\
    forall c ca cb, clip (face x) c ca -> clip (face y) c cb -> at_ (face z) c = f (scale x * at_ (face x) ca)%Qc (scale y * at_ (face y) cb)%Qc.
Proof.
  intros Tx Ty. cbn [padditive].
  destruct (adata_clip x (proj1 Tx)) as (dx & -> & Nx & Sx & Wx & Ax & Vx). destruct (adata_clip y (proj1 Ty)) as (dy & -> & Ny & Sy & Wy & Ay & Vy). cbn [bind].
  destruct (additive f (AArr dx) (AArr dy)) as [r|e] eqn:E; cbn [bind]; [|discriminate].
  destruct (proj1 (proj2 (C20_sum Qc f dx dy Wx Wy)) r E) as (d & -> & Nxy & Nd & Wd & Ld & Vd).
  assert (Ex : anames dx = map fst (paxes x)) by (unfold anames; rewrite Nx; apply tidy_names, Tx).
  assert (Ey : anames dy = map fst (paxes y)) by (unfold anames; rewrite Ny; apply tidy_names, Ty).
  destruct (ueq (aunit x) (aunit y)); [|discriminate].
  assert (Done : forall ax, map fst ax = map fst (paxes x) ->
    exists z : arr, parray_factory (data d) (aunit x) ax = Ok z /\ tidy z /\ aunit z = aunit x /\ scale z = 1%Qc /\ paxes z = ax /\
      (forall d n, axis_len (face z) d n <-> longer (face x) (face y) d n) /\
      forall c ca cb, clip (face x) c ca -> clip (face y) c cb -> at_ (face z) c = f (scale x * at_ (face x) ca)%Qc (scale y * at_ (face y) cb)%Qc).
  { intros ax Eax. destruct (refactory d (aunit x) ax Wd) as (z & R & T & S & Uz & A & D & Nz).
    - rewrite Nd, Ex. exact Eax.
    - destruct Tx as (_ & _ & Ne). intros ->. apply Ne. destruct (paxes x); [reflexivity|discriminate].
    - exists z. split; [exact R|]. split; [exact T|]. split; [exact Uz|]. split; [exact S|]. split; [exact A|].
      destruct (refactory_at d z D Nz) as (AL & AT). split; [intros e n; rewrite AL, Ld; apply longer_ext; assumption|].
      intros c ca cb Ca Cb. rewrite AT, (Vd c ca cb); [|eapply clip_ext; [|exact Ca]; intros; symmetry; apply Ax|eapply clip_ext; [|exact Cb]; intros; symmetry; apply Ay].
      rewrite Vx by (eapply clip_ones, Ca). rewrite Vy by (eapply clip_ones, Cb). reflexivity. }
  destruct (axes_eq beq (paxes x) (paxes y)) eqn:Q.
  - destruct (Done (paxes x) eq_refl) as (z & -> & T & Uz & S & A & R). cbn [bind]. intros [= <-]. exists z. split; [reflexivity|]. split; [exact T|]. split; [reflexivity|].
    split; [exact Uz|]. split; [exact S|]. split; [congruence|]. rewrite A. split; [reflexivity|]. split; [left; split; reflexivity|]. exact R.
  - destruct (axes_add beq blen bin (paxes x) (paxes y)) as [ax|e] eqn:Q'; [|discriminate].
    assert (Eax : map fst ax = map fst (paxes x)).
    { unfold axes_add in Q'. destruct (_ && _); [|discriminate]. apply mapM_Forall2 in Q'. clear -Q'. induction Q' as [|[k w] [k' w'] l l' H _ IH]; [reflexivity|]. cbn [map fst] in *. rewrite IH. f_equal.
      destruct (axis_named _ _); [|discriminate]. cbn [bind] in H. destruct (fill _ _ _ _ _); [|discriminate]. cbn [bind] in H. congruence. }
    destruct (Done ax Eax) as (z & -> & T & Uz & S & A & R). intros [= <-]. exists z. split; [reflexivity|]. split; [exact T|]. split; [reflexivity|].
    split; [exact Uz|]. split; [exact S|]. split; [congruence|]. rewrite A. split; [exact Eax|]. split; [right; reflexivity|]. exact R.
Qed.

Lemma arr_mul op f (x y : arr) v : tidy x -> tidy y -> mult op f (PArr x) (PArr y) = Ok v ->
  exists z, v = PArr z /\ tidy z /\ unit_op umul udiv op (aunit x) (aunit y) = Ok (aunit z) /\ scale z = 1%Qc /\
    common_order (map fst (paxes x)) (map fst (paxes y)) (map fst (paxes z)) /\
    (forall k v, In (k, v) (paxes z) <-> In (k, v) (paxes y) \/ (In (k, v) (paxes x) /\ ~ has (paxes y) k)) /\
    compatible (face x) (face y) /\
    (forall d n, axis_len (face z) d n <-> longer (face x) (face y) d n) /\
    forall c ca cb, within (face z) c -> clip (face x) c ca -> clip (face y) c cb -> at_ (face z) c = f (scale x * at_ (face x) ca)%Qc (scale y * at_ (face y) cb)%Qc.
Proof.
  intros Tx Ty. cbn [pmultiplicative]. destruct (unit_op umul udiv op (aunit x) (aunit y)) as [u|] eqn:Eu; cbn [bind]; [|discriminate].
  destruct (adata_clip x (proj1 Tx)) as (dx & -> & Nx & Sx & Wx & Ax & Vx). destruct (adata_clip y (proj1 Ty)) as (dy & -> & Ny & Sy & Wy & Ay & Vy). cbn [bind].
  destruct (multiplicative f (AArr dx) (AArr dy)) as [d|e] eqn:E; cbn [bind]; [|discriminate].
  assert (P : ~ both_plain (adims dx) (adims dy)) by (rewrite Nx; exact (fun H => H)).
  assert (Ex : anames dx = map fst (paxes x)) by (unfold anames; rewrite Nx; apply tidy_names, Tx).
  assert (Ey : anames dy = map fst (paxes y)) by (unfold anames; rewrite Ny; apply tidy_names, Ty).
  destruct (proj1 (proj1 (C19_product_exactly_when Qc f dx dy Wx Wy P)) (ex_intro _ d E)) as ((l0 & N0 & S1 & S2) & Co).
  destruct (dims_or_names_complete _ _ l0 (proj1 Wx) (proj1 Wy) N0 S1 S2) as (d' & D).
  destruct (dims_or_names_ok _ _ _ (proj1 Wx) (proj1 Wy) D) as (l & -> & C).
  destruct (product_spec f dx dy l Wx Wy P D C Co) as (r & E' & Dr & Sr & Er). rewrite E in E'. injection E' as <-.
  assert (An : anames d = l) by (unfold anames; rewrite Dr; reflexivity).
  destruct (longer_spec dx dy l (data d) (adims d) Wx Wy (proj1 C)) as (LG & Wd); [rewrite Dr; reflexivity|apply C|exact Sr|].
  assert (Rr : mkarray (data d) (adims d) = d) by (destruct d; reflexivity). rewrite Rr in LG, Wd.
  pose proof (merge_names (paxes x) (paxes y) (tidy_nodup x Tx) (tidy_nodup y Ty)) as Mn.
  destruct (axes_merge (paxes x) (paxes y)) as [ax|] eqn:Em; cbn [bind]; [|discriminate].
  destruct (axes_merge_ok _ _ _ (tidy_nodup x Tx) (tidy_nodup y Ty) Em) as (Na & _ & _ & Ia).
  assert (Eax : map fst ax = anames d).
  { rewrite An. unfold dims_or_names in D. rewrite Ex, Ey, Mn in D. unfold dimensions_factory in D. injection D as D. rewrite unique_id in D by exact Na. exact D. }
  destruct (refactory d u ax Wd Eax) as (z & -> & T & Sz & Uz & A & Dz & Nz).
  { intros ->. pose proof (proj1 (proj2 C)) as Q. rewrite <- An, <- Eax, Ex in Q. apply Tx. destruct (paxes x); [reflexivity|]. cbn in Q. inversion Q. }
  cbn [bind]. intros [= <-]. exists z. split; [reflexivity|]. split; [exact T|]. split; [rewrite Uz; reflexivity|]. split; [exact Sz|].
  split; [rewrite A, Eax, An, <- Ex, <- Ey; exact C|]. split; [rewrite A; exact Ia|].
  split; [|]. { destruct Co as [H|[H|H]]; [left; unfold singleton in *; rewrite <- Sx; exact H|right; left; unfold singleton in *; rewrite <- Sy; exact H|right; right].
    intros e n m H1 H2. apply (H e n m); [apply Ax, H1|apply Ay, H2]. }
  destruct (refactory_at d z Dz Nz) as (AL & AT).
  split; [intros e n; rewrite AL, LG; apply longer_ext; assumption|].
  intros c ca cb Wc Ca Cb. rewrite AT. unfold at_ at 1. rewrite An. rewrite (Er c ca cb).
  - rewrite Vx by (eapply clip_ones, Ca). rewrite Vy by (eapply clip_ones, Cb). reflexivity.
  - intros e He. rewrite <- An in He. destruct (axis_exists d e Wd He) as (n & Hn & _). specialize (Wc e n (proj2 (AL e n) Hn)).
    apply LG in Hn as [(Hn & _)|(Hn & _)]; first [rewrite (len_axis dx e n Wx Hn)|rewrite (len_axis dy e n Wy Hn)]; apply (Nat.lt_le_trans _ _ _ Wc); [apply Nat.le_max_l|apply Nat.le_max_r].
  - eapply clip_ext; [|exact Ca]; intros; symmetry; apply Ax.
  - eapply clip_ext; [|exact Cb]; intros; symmetry; apply Ay.
Qed.
End P.
