(** Proofs about physical arrays: transposition, subscription, scalar operands *)
From Verif Require Import PyBase PyLemmas ContainerModel ContainerSpec ContainerProofs ContainerProofs2 Nd IndexModel IndexSpec IndexProofs IndexProofs2 IndexProperties ArrayModel ArraySpec ArrayProofs ArrayProofs2 ArrayProofs3 ArrayProofs4 ArrayProperties AxesModel AxesSpec AxesProofs PhysicalModel PhysicalSpec PhysicalProofs PhysicalProofs2 PhysicalProofs3 PhysicalProofs4.
From Coq Require Import Permutation.

Lemma same_by_name_ext {A} (x y z : array A) : same_by_name x y -> data z = data y -> anames z = anames y -> same_by_name x z.
Proof.
  intros (L & V) D N. split; [intros d n; rewrite L; unfold axis_len; rewrite D, N; reflexivity|].
  intros c H. rewrite (V c H). unfold at_. rewrite D, N. reflexivity.
Qed.

Section P.
Set Default Proof Using "Type".
Context {U B : Type}.
Variable (blen : B -> nat).
Notation arr := (parr (U := U) (B := B)).

(** ** transposition *)
Lemma transpose_by_name (x : arr) d : tidy x -> Permutation (names d) (map fst (paxes x)) ->
  exists z, ptranspose x (TNames d) (ByName (names d)) = Ok z /\ tidy z /\ aunit z = aunit x /\ scale z = 1%Qc /\
    map fst (paxes z) = names d /\ Permutation (paxes x) (paxes z) /\ same_by_name (face x) (face z).
Proof.
  intros T P. pose proof T as (W & D & Ne).
  destruct (proj1 (C49_by_name Qc (face x) _ d W D) P) as (r & E & An & Sn & Wr). cbn [ptranspose]. rewrite E. cbn [bind].
  assert (Nd : NoDup (names d)) by (apply (Permutation_NoDup (l := map fst (paxes x))); [symmetry; exact P|apply tidy_nodup, T]).
  destruct (proj2 (permute_names_accepts (paxes x) (names d) (tidy_nodup x T))) as (ax & Ea).
  { split; [|intros y; split; intros H; [exact (Permutation_in _ P H)|exact (Permutation_in _ (Permutation_sym P) H)]].
    intros Q. rewrite Q in P. apply Permutation_nil in P. apply Ne. destruct (paxes x); [reflexivity|discriminate]. }
  rewrite Ea. cbn [bind]. destruct (permute_names_ok _ _ _ (tidy_nodup x T) Ea) as (Pa & Fi & _). apply firsts_spec in Fi as (_ & _ & Fi). specialize (Fi Nd).
  destruct (refactory r (aunit x) ax Wr) as (z & -> & Tz & Sz & Uz & Az & Dz & Nz); [congruence| |].
  { intros ->. apply Permutation_sym, Permutation_nil in Pa. contradiction. }
  exists z. split; [reflexivity|]. split; [exact Tz|]. split; [exact Uz|]. split; [exact Sz|]. rewrite Az. split; [exact Fi|]. split; [exact Pa|].
  exact (same_by_name_ext _ r _ Sn Dz Nz).
Qed.
Lemma transpose_by_axes (x : arr) axes k : tidy x -> Forall2 (fun z i => norm_index (length (paxes x)) z = Some i) axes k -> Permutation k (seq 0 (length (paxes x))) ->
  exists z, ptranspose x (TAxes axes) (ByIndex axes) = Ok z /\ tidy z /\ aunit z = aunit x /\ scale z = 1%Qc /\
    map fst (paxes z) = map (fun i => nth i (map fst (paxes x)) []) k /\ Permutation (paxes x) (paxes z) /\ same_by_name (face x) (face z).
Proof.
  intros T F P. pose proof T as (W & D & Ne). set (l := map fst (paxes x)) in *.
  assert (Ll : length l = length (paxes x)) by (unfold l; apply map_length). rewrite <- Ll in F, P.
  destruct (transpose_axes (face x) l axes k W D F P) as (r & E & An & Sn & Wr).
  cbn [ptranspose]. rewrite E. cbn [bind]. rewrite Ll in F, P.
  assert (Kin : forall i, In i k -> i < length l) by (intros i Hi; apply (Permutation_in _ P) in Hi; apply in_seq in Hi; rewrite Ll; apply Hi).
  assert (Lk : length k = length (paxes x)) by (rewrite (Permutation_length P); apply seq_length).
  destruct (proj2 (permute_index_accepts (paxes x) axes (tidy_nodup x T))) as (ax & Ea).
  { split.
    - intros ->. inversion F; subst k. cbn in Lk. symmetry in Lk. apply length_zero_iff_nil in Lk. contradiction.
    - exists k. split; [exact F|]. intros i Hi. apply (Permutation_in _ (Permutation_sym P)). apply in_seq. split; [apply Nat.le_0_l|exact Hi]. }
  rewrite Ea. cbn [bind]. destruct (permute_index_ok _ _ _ (tidy_nodup x T) Ea) as (Pa & ds & Fd & Fi).
  assert (Ds : ds = map (fun i => nth i l []) k).
  { clear -Fd F Kin. revert ds Fd. induction F as [|z i zs is H F IH]; intros ds Fd; inversion Fd as [|? d ? ds' (j & H1 & H2) Fd']; subst; [reflexivity|]. cbn [map]. f_equal.
    - rewrite H in H1. injection H1 as <-. symmetry. apply nth_error_nth. exact H2.
    - apply IH; [|exact Fd']. intros y Hy. apply Kin. right. exact Hy. }
  assert (Nds : NoDup ds).
  { rewrite Ds. assert (Pl : Permutation (map (fun i => nth i l []) k) l).
    { rewrite (Permutation_map (fun i => nth i l []) P). rewrite <- Ll. clear. assert (G : forall (m : list str) o, map (fun i => nth (i - o) m []) (seq o (length m)) = m).
      { induction m as [|y m IH]; intros o; [reflexivity|]. cbn [length seq map]. rewrite Nat.sub_diag. f_equal. rewrite <- (IH (S o)) at 2. apply map_ext_in. intros i Hi. apply in_seq in Hi.
        replace (i - o) with (S (i - S o)) by (destruct Hi; lia). reflexivity. }
      rewrite <- (G l 0) at 2. apply Permutation_refl'. apply map_ext. intros i. rewrite Nat.sub_0_r. reflexivity. }
    apply (Permutation_NoDup (Permutation_sym Pl)). apply tidy_nodup, T. }
  apply firsts_spec in Fi as (_ & _ & Fi). specialize (Fi Nds).
  destruct (refactory r (aunit x) ax Wr) as (z & -> & Tz & Sz & Uz & Az & Dz & Nz); [congruence| |].
  { intros ->. apply Permutation_sym, Permutation_nil in Pa. contradiction. }
  exists z. split; [reflexivity|]. split; [exact Tz|]. split; [exact Uz|]. split; [exact Sz|]. rewrite Az. split; [congruence|]. split; [exact Pa|].
  exact (same_by_name_ext _ r _ Sn Dz Nz).
Qed.

(** ** subscription *)
Variables (bget : B -> sub -> result B).
Lemma zip_axes_ok idx : forall ax ws, Forall2 (fun i (kw : (str * B) * B) => bget (snd (fst kw)) i = Ok (snd kw)) idx (combine ax ws) -> length ws = length ax ->
  zip_axes bget idx ax = Ok (combine (map fst ax) ws).
Proof.
  induction idx as [|i idx IH]; intros ax ws F L; destruct ax as [|[k v] ax], ws as [|w ws]; try discriminate; inversion F as [|? ? ? ? H F']; subst; [reflexivity|].
  cbn [fst snd] in H. cbn [zip_axes]. rewrite H. cbn [bind]. rewrite (IH ax ws F'); [reflexivity|]. now injection L.
Qed.
Lemma getitem_block (x : arr) args idx ps ws : tidy x -> expand (length (paxes x)) args = Ok idx ->
  (forall a : nd Qc, shape a = shape (data (face x)) -> exists r, array_getitem a (ATuple idx) = Ok r /\ sub_block a ps r) ->
  length ps = length (paxes x) ->
  Forall2 (fun i (kw : (str * B) * B) => bget (snd (fst kw)) i = Ok (snd kw)) idx (combine (paxes x) ws) -> length ws = length (paxes x) ->
  exists z, pgetitem bget x args = Ok z /\ aunit z = aunit x /\ scale z = 1%Qc /\ paxes z = combine (map fst (paxes x)) ws /\
    shape (data (face z)) = map (@length nat) ps /\ anames (face z) = map fst (paxes x) /\
    forall ix jx, picks ps ix jx -> valid jx (shape (data (face x))) -> elem (data (face z)) ix = (scale x * elem (data (face x)) jx)%Qc.
Proof.
  intros T E G Lp F Lw. pose proof (tidy_names x T) as Nx. pose proof (tidy_length x T) as Lx.
  unfold pgetitem, ndim. rewrite Lx, E. cbn [bind].
  unfold adata, multiplicative, get_operands. cbn [get_operand bind fst snd]. unfold nd_map2. cbn [nd_scalar shape]. rewrite (proj2 (bcast_nil _)). cbn [bind].
  set (d0 := mknd _ _). destruct (same_shape_named (face x) d0 (proj1 T) eq_refl) as (-> & _ & _). cbn [bind data].
  destruct (G d0 eq_refl) as (r & -> & Sh & V). cbn [bind anames adims names].
  rewrite names_nodup_factory; [|apply (proj1 T)|unfold ndim; rewrite Sh, map_length, Nx, map_length; symmetry; exact Lp]. cbn [bind data].
  rewrite (zip_axes_ok idx (paxes x) ws F Lw). cbn [bind].
  assert (Nw : map fst (combine (map fst (paxes x)) ws) = map fst (paxes x)).
  { clear -Lw. revert ws Lw. induction (paxes x) as [|kv ax IH]; intros [|w ws] L; try discriminate; [reflexivity|]. cbn [map combine fst]. f_equal. apply IH. now injection L. }
  unfold parray_factory. destruct (combine (map fst (paxes x)) ws) as [|kv ax] eqn:Ec.
  { exfalso. destruct T as (_ & _ & Ne). apply Ne. destruct (paxes x); [reflexivity|discriminate]. }
  unfold anames_of. rewrite Nw. rewrite names_nodup_factory; [|apply tidy_nodup, T|unfold ndim; rewrite Sh, !map_length; symmetry; exact Lp]. cbn [bind].
  eexists. split; [reflexivity|]. cbn [aunit scale paxes face data anames adims names]. split; [reflexivity|]. split; [reflexivity|]. split; [reflexivity|]. split; [exact Sh|]. split; [reflexivity|].
  intros ix jx P Vj. rewrite (V ix jx P). cbn [d0 elem]. f_equal. f_equal. rewrite operand_index_same by (symmetry; apply (Forall2_len _ _ _ Vj)). apply pin_id. exact Vj.
Qed.

(** ** operations that keep the shape *)
Variables (ueq : U -> U -> bool) (umul udiv : U -> U -> result U) (upow : U -> Qc -> result U) (uone : U).
Variables (uinv : U -> result U) (beq : B -> B -> bool) (bin : B -> B -> bool).
Notation add := (padditive ueq uone beq blen bin).
Notation mult := (pmultiplicative (B := B) umul udiv uinv).
Lemma arr_map (x : arr) (d : nd Qc) u (g : Qc -> Qc) : tidy x -> shape d = shape (data (face x)) ->
  (forall c, within (face x) c -> elem d (map c (anames (face x))) = g (scale x * at_ (face x) c)%Qc) ->
  exists z, parray_factory d u (paxes x) = Ok z /\ elementwise x z u g.
Proof.
  intros T S V. pose proof T as (W & D & Ne).
  destruct (factory_tidy (U := U) d u (paxes x)) as (z & E & Tz & Dz & Sz & Uz & Az); [apply tidy_nodup, T|exact Ne|rewrite S; apply tidy_length, T|rewrite S; apply W|].
  assert (An : anames (face z) = anames (face x)) by (rewrite (tidy_names z Tz), (tidy_names x T), Az; reflexivity).
  exists z. split; [exact E|]. split; [exact Tz|]. split; [exact Uz|]. split; [exact Sz|]. split; [exact Az|]. split.
  - intros e n. unfold axis_len. rewrite An, Dz, S. reflexivity.
  - intros c H. unfold at_ at 1. rewrite An, Dz. apply V, H.
Qed.
Lemma bcast_nil_l s : bcast_shape [] s = Some s. Proof. exact (proj2 (bcast_nil s)). Qed.
Lemma bcast_nil_r s : bcast_shape s [] = Some s. Proof. exact (proj1 (bcast_nil s)). Qed.
Ltac datum x T := let d := fresh "d" in let E := fresh "E" in let N := fresh "N" in let S := fresh "S" in let W := fresh "W" in let V := fresh "V" in
  destruct (adata_ok x (proj1 T)) as (d & E & N & S & W & _ & V); rewrite E; cbn [bind].
Lemma elem_same (x : arr) (d : array Qc) c : tidy x -> adims d = Named (anames (face x)) -> shape (data d) = shape (data (face x)) -> well_named d ->
  (forall c, within (face x) c -> at_ d c = (scale x * at_ (face x) c)%Qc) -> within (face x) c ->
  elem (data d) (operand_index (shape (data d)) (map c (anames (face x)))) = (scale x * at_ (face x) c)%Qc.
Proof.
  intros T N S W V H. assert (An : anames d = anames (face x)) by (unfold anames; rewrite N; reflexivity).
  rewrite operand_index_same by (rewrite map_length, S; symmetry; apply (proj1 T)). rewrite pin_id.
  - rewrite <- (V c H). unfold at_. rewrite An. reflexivity.
  - rewrite S. apply within_valid; [apply T|exact H].
Qed.
Lemma mul_number f op (x : arr) q : tidy x -> exists z, mult op f (PArr x) (PNum q) = Ok (PArr z) /\ elementwise x z (aunit x) (fun v => f v q).
Proof.
  intros T. cbn [pmultiplicative]. datum x T. unfold nd_map2. cbn [nd_scalar shape]. rewrite bcast_nil_r. cbn [bind].
  set (r := mknd _ _). destruct (arr_map x r (aunit x) (fun v => f v q) T) as (z & -> & R); [exact S|intros c H; cbn [r elem]; f_equal; apply elem_same; assumption|].
  exists z. split; [reflexivity|exact R].
Qed.
Lemma number_mul f op (x : arr) q u : tidy x -> (match op with OMul => Ok (aunit x) | ODiv => uinv (aunit x) end) = Ok u ->
  exists z, mult op f (PNum q) (PArr x) = Ok (PArr z) /\ elementwise x z u (fun v => f q v).
Proof.
  intros T Eu. cbn [pmultiplicative]. rewrite Eu. cbn [bind]. datum x T. unfold nd_map2. cbn [nd_scalar shape]. rewrite bcast_nil_l. cbn [bind].
  set (r := mknd _ _). destruct (arr_map x r u (fun v => f q v) T) as (z & -> & R); [exact S|intros c H; cbn [r elem]; f_equal; apply elem_same; assumption|].
  exists z. split; [reflexivity|exact R].
Qed.
Lemma mul_scalar f op (x : arr) (y : pobj (U := U)) u : tidy x -> shape (odata y) = [] -> unit_op umul udiv op (aunit x) (ounit y) = Ok u ->
  exists z, mult op f (PArr x) (PObj y) = Ok (PArr z) /\ elementwise x z u (fun v => f v (elem (odata y) [])).
Proof.
  intros T Sy Eu. cbn [pmultiplicative]. rewrite Eu. cbn [bind]. datum x T. unfold nd_map2. rewrite Sy, bcast_nil_r. cbn [bind].
  set (r := mknd _ _). destruct (arr_map x r u (fun v => f v (elem (odata y) [])) T) as (z & -> & R); [exact S|intros c H; cbn [r elem]; f_equal; apply elem_same; assumption|].
  exists z. split; [reflexivity|exact R].
Qed.
Lemma scalar_mul f op (x : arr) (y : pobj (U := U)) u : tidy x -> shape (odata y) = [] -> unit_op umul udiv op (ounit y) (aunit x) = Ok u ->
  exists z, mult op f (PObj y) (PArr x) = Ok (PArr z) /\ elementwise x z u (fun v => f (elem (odata y) []) v).
Proof.
  intros T Sy Eu. cbn [pmultiplicative]. rewrite Eu. cbn [bind]. datum x T. unfold nd_map2. rewrite Sy, bcast_nil_l. cbn [bind].
  set (r := mknd _ _). destruct (arr_map x r u (fun v => f (elem (odata y) []) v) T) as (z & -> & R); [exact S|intros c H; cbn [r elem]; f_equal; apply elem_same; assumption|].
  exists z. split; [reflexivity|exact R].
Qed.
Lemma add_scalar f (x : arr) (y : pobj (U := U)) : tidy x -> okind y = KScalar -> shape (odata y) = [] ->
  (ueq (aunit x) (ounit y) = false -> add f (PArr x) (PObj y) = Raise ValueError) /\
  (ueq (aunit x) (ounit y) = true -> exists z, add f (PArr x) (PObj y) = Ok (PArr z) /\ elementwise x z (aunit x) (fun v => f v (elem (odata y) []))) /\
  (ueq (ounit y) (aunit x) = false -> add f (PObj y) (PArr x) = Raise ValueError) /\
  (ueq (ounit y) (aunit x) = true -> exists z, add f (PObj y) (PArr x) = Ok (PArr z) /\ elementwise x z (ounit y) (fun v => f (elem (odata y) []) v)).
Proof.
  intros T Ky Sy. cbn [padditive]. rewrite Ky. datum x T. unfold nd_map2. rewrite Sy, bcast_nil_r, bcast_nil_l. cbn [bind].
  split; [intros ->; reflexivity|]. split.
  - intros ->. set (r := mknd _ _). destruct (arr_map x r (aunit x) (fun v => f v (elem (odata y) [])) T) as (z & -> & R); [exact S|intros c H; cbn [r elem]; f_equal; apply elem_same; assumption|].
    exists z. split; [reflexivity|exact R].
  - split; [intros ->; reflexivity|]. intros ->.
    match goal with |- context [parray_factory ?r _ _] => destruct (arr_map x r (ounit y) (fun v => f (elem (odata y) []) v) T) as (z & -> & R); [exact S|intros c H; cbn [elem]; f_equal; apply elem_same; assumption|] end.
    exists z. split; [reflexivity|exact R].
Qed.
Lemma unary_arr f (x : arr) : tidy x -> exists z, punary f (PArr x) = Ok (PArr z) /\ elementwise x z (aunit x) f.
Proof.
  intros T. cbn [punary]. datum x T. assert (An : anames d = anames (face x)) by (unfold anames; rewrite N; reflexivity).
  unfold unary. rewrite names_nodup_factory; [|apply W|unfold ndim; apply W]. cbn [bind data].
  destruct (arr_map x (nd_map f (data d)) (aunit x) f T) as (z & -> & R); [exact S|intros c H; cbn [nd_map elem]; f_equal; rewrite <- (V c H); unfold at_; rewrite An; reflexivity|].
  exists z. split; [reflexivity|exact R].
Qed.
Lemma power_arr f (x : arr) b p u : tidy x -> exponent ueq uone b = Ok p -> upow (aunit x) p = Ok u ->
  exists z, pexponential ueq upow uone f (PArr x) b = Ok (PArr z) /\ elementwise x z u (fun v => f v p).
Proof.
  intros T Ep Eu. unfold pexponential. rewrite Ep. cbn [bind]. rewrite Eu. cbn [bind]. datum x T. assert (An : anames d = anames (face x)) by (unfold anames; rewrite N; reflexivity).
  destruct (arr_map x (nd_map (fun v => f v p) (data d)) u (fun v => f v p) T) as (z & -> & R); [exact S|intros c H; cbn [nd_map elem]; f_equal; rewrite <- (V c H); unfold at_; rewrite An; reflexivity|].
  exists z. split; [reflexivity|exact R].
Qed.
Lemma elementwise_lengths (x z : arr) u g : tidy x -> elementwise x z u g -> lengths_agree blen x -> lengths_agree blen z.
Proof.
  intros T (Tz & _ & _ & A & L & _). rewrite (lengths_axis blen x T), (lengths_axis blen z Tz). intros H k v Hk. apply L. apply H. rewrite <- A. exact Hk.
Qed.
End P.
