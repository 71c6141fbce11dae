(** Transposition, sums, comparisons and reductions of named arrays. *)
From Verif Require Import PyBase PyLemmas ContainerModel ContainerSpec ContainerProofs ContainerProofs2 Nd IndexModel IndexProofs IndexProofs2 ArrayModel ArraySpec ArrayProofs ArrayProofs2.
From Coq Require Import Permutation.
Set Default Proof Using "Type".

(** ** Permutations of axes *)
Lemma natnodup_spec l : natnodup l = true <-> NoDup l.
Proof.
  induction l as [|x l IH]; simpl; [split; auto; constructor|]. rewrite andb_true_iff, negb_true_iff, IH, NoDup_cons_iff.
  split; intros (H1 & H2); split; auto.
  - intros H. assert (existsb (Nat.eqb x) l = true); [|congruence]. apply existsb_exists. exists x. split; [exact H|apply Nat.eqb_refl].
  - destruct (existsb (Nat.eqb x) l) eqn:E; [|reflexivity]. apply existsb_exists in E as (y & Hy & E). apply Nat.eqb_eq in E as ->. contradiction.
Qed.
Lemma is_perm_spec n axes : is_perm n axes = true <-> Permutation axes (seq 0 n).
Proof.
  unfold is_perm. rewrite !andb_true_iff, Nat.eqb_eq, forallb_forall, natnodup_spec. split.
  - intros ((L & B) & N). apply NoDup_Permutation_bis; [exact N|rewrite seq_length; lia|].
    intros k Hk. apply in_seq. specialize (B k Hk). apply Nat.ltb_lt in B. lia.
  - intros P. repeat split.
    + rewrite (Permutation_length P), seq_length. reflexivity.
    + intros k Hk. apply (Permutation_in _ P) in Hk. apply in_seq in Hk. apply Nat.ltb_lt. lia.
    + apply (Permutation_NoDup (Permutation_sym P)), seq_NoDup.
Qed.
Lemma position_nth m axes : In m axes -> nth_error axes (position m axes) = Some m.
Proof.
  induction axes as [|k axes IH]; [intros []|]. cbn [position]. destruct (Nat.eqb_spec m k) as [->|Q]; [reflexivity|].
  intros [->|H]; [congruence|]. simpl. apply IH, H.
Qed.
Lemma map_nth_seq {B} (l : list B) (o : B) : map (fun m => nth m l o) (seq 0 (length l)) = l.
Proof. induction l as [|x l IH]; [reflexivity|]. cbn [length seq map nth]. f_equal. rewrite <- seq_shift, map_map. exact IH. Qed.

Section Tr.
Context {A : Type}.

Lemma transpose_by_name (x : array A) axes r d : well_named x -> nd_transpose axes (data x) = Ok r ->
  names d = map (fun k => nth k (anames x) []) axes -> same_by_name x (mkarray r d) /\ well_named (mkarray r d).
Proof.
  intros (N & L & Ps) T D. unfold nd_transpose in T. destruct (is_perm (ndim (data x)) axes) eqn:P; [|discriminate].
  apply is_perm_spec in P. injection T as <-. unfold ndim in *.
  assert (AX : forall k, In k axes <-> k < length (anames x)).
  { intros k. rewrite L. split; intros H; [apply (Permutation_in _ P) in H; apply in_seq in H; lia|].
    apply (Permutation_in _ (Permutation_sym P)), in_seq. lia. }
  assert (LA : forall e n, axis_len x e n <-> axis_len (mkarray (mknd (map (fun k => nth k (shape (data x)) 0) axes)
     (fun ix => elem (data x) (map (fun m => nth (position m axes) ix 0) (seq 0 (length (shape (data x))))))) d) e n).
  { intros e n. unfold axis_len, anames. cbn [adims data shape]. rewrite D. split.
    - intros (k & E1 & E2). exists (position k axes).
      assert (K : In k axes) by (apply AX; apply nth_error_Some; unfold anames; congruence).
      rewrite (map_nth_error (fun k => nth k (anames x) []) _ _ (position_nth k axes K)).
      rewrite (map_nth_error (fun k => nth k (shape (data x)) 0) _ _ (position_nth k axes K)).
      split; f_equal; apply nth_error_nth; assumption.
    - intros (j & E1 & E2). rewrite nth_error_map in E1, E2. destruct (nth_error axes j) as [k|] eqn:E; [|discriminate].
      cbn [option_map] in E1, E2. injection E1 as <-. injection E2 as <-. exists k.
      assert (K : k < length (anames x)) by (apply AX; eapply nth_error_In, E).
      split; [apply nth_error_nth', K|apply nth_error_nth'; rewrite <- L; exact K]. }
  split; [split; [exact LA|]|].
  - intros c _. unfold at_. unfold anames at 2. cbn [adims data elem]. rewrite D. f_equal. rewrite map_map, <- L. symmetry.
    transitivity (map (fun m => c (nth m (anames x) [])) (seq 0 (length (anames x)))).
    + apply map_ext_in. intros m Hm. assert (M : In m axes) by (apply AX; apply in_seq in Hm; lia).
      apply nth_error_nth. rewrite (map_nth_error (fun k => c (nth k (anames x) [])) _ _ (position_nth m axes M)). reflexivity.
    + rewrite <- (map_map (fun m => nth m (anames x) []) c), map_nth_seq. reflexivity.
  - unfold well_named, anames. cbn [adims data shape]. rewrite D. repeat split.
    + apply (Permutation_NoDup (l := anames x)); [|exact N]. transitivity (map (fun k => nth k (anames x) []) (seq 0 (length (anames x)))).
      * rewrite map_nth_seq. reflexivity.
      * apply Permutation_map. rewrite L. symmetry. exact P.
    + rewrite !map_length. reflexivity.
    + rewrite Forall_forall in *. intros n Hn. apply in_map_iff in Hn as (k & <- & Hk). apply Ps, nth_In. rewrite <- L. apply AX, Hk.
Qed.

Lemma index_of_pos a l : In a l -> index_of str_eqb a l = Ok (pos a l).
Proof.
  induction l as [|y l IH]; [intros []|]. cbn [index_of pos]. destruct (str_eqb y a) eqn:E; [reflexivity|].
  intros [->|H]; [rewrite str_eqb_refl in E; discriminate|]. rewrite IH by exact H. reflexivity.
Qed.
Lemma index_of_missing a l : ~ In a l -> index_of str_eqb a l = Raise ValueError.
Proof.
  induction l as [|y l IH]; intros H; [reflexivity|]. cbn [index_of]. destruct (str_eqb y a) eqn:E; [apply str_eqb_eq in E as ->; exfalso; apply H; left; reflexivity|].
  rewrite IH; [reflexivity|]. intros Q. apply H. right. exact Q.
Qed.
Lemma indices_of d l : (forall x, In x d -> In x l) -> mapM (fun a => index_of str_eqb a l) d = Ok (map (fun a => pos a l) d).
Proof.
  induction d as [|x d IH]; intros H; [reflexivity|]. cbn [mapM map]. rewrite index_of_pos by (apply H; left; reflexivity). cbn [bind].
  rewrite IH by (intros y Hy; apply H; right; exact Hy). reflexivity.
Qed.
Lemma indices_fail d l x : In x d -> ~ In x l -> mapM (fun a => index_of str_eqb a l) d = Raise ValueError.
Proof.
  induction d as [|y d IH]; intros Hx N; [destruct Hx|]. cbn [mapM]. destruct (in_dec str_eq_dec y l) as [Hy|Hy].
  - rewrite index_of_pos by exact Hy. cbn [bind]. destruct Hx as [->|Hx]; [contradiction|]. rewrite (IH Hx N). reflexivity.
  - rewrite index_of_missing by exact Hy. reflexivity.
Qed.
Lemma mismatch_ok a b : (forall x, In x a <-> In x b) -> mismatch a b = Ok tt.
Proof.
  intros H. unfold mismatch, dims_lt, dims_gt. rewrite (proj2 (subset_spec a b)) by (intros x; apply H). rewrite (proj2 (subset_spec b a)) by (intros x; apply H).
  reflexivity.
Qed.
Lemma mismatch_cases a b : mismatch a b = Ok tt \/ mismatch a b = Raise ValueError.
Proof. unfold mismatch. destruct dims_lt; [auto|]. destruct dims_gt; auto. Qed.
Lemma mismatch_subset a b : mismatch a b = Ok tt -> (forall x, In x b -> In x a) -> forall x, In x a -> In x b.
Proof.
  unfold mismatch, dims_lt, dims_gt. intros M H. destruct (subset a b) eqn:E; [apply subset_spec, E|].
  rewrite (proj2 (subset_spec b a) H) in M. discriminate.
Qed.
Lemma names_of_positions d l : (forall x, In x d -> In x l) -> map (fun k => nth k l []) (map (fun a => pos a l) d) = d.
Proof.
  intros H. rewrite map_map. rewrite <- (map_id d) at 2. apply map_ext_in. intros x Hx. apply nth_error_nth, pos_nth, H, Hx.
Qed.
Lemma pos_perm d l : NoDup l -> Permutation d l -> Permutation (map (fun a => pos a l) d) (seq 0 (length l)).
Proof.
  intros N P. transitivity (map (fun a => pos a l) l); [apply Permutation_map, P|]. replace (map (fun a => pos a l) l) with (seq 0 (length l)); [reflexivity|].
  symmetry. clear d P. induction l as [|x l IH]; [reflexivity|]. apply NoDup_cons_iff in N as (Nx & N). cbn [length seq map pos]. rewrite str_eqb_refl. f_equal.
  rewrite <- seq_shift, <- (IH N), map_map. apply map_ext_in. intros y Hy. destruct (str_eqb x y) eqn:E; [apply str_eqb_eq in E as ->; contradiction|reflexivity].
Qed.

Lemma transpose_names (x : array A) l d : well_named x -> adims x = Named l -> Permutation (names d) l ->
  exists r, array_transpose x (TNames d) = Ok (mkarray r d) /\ same_by_name x (mkarray r d) /\ well_named (mkarray r d).
Proof.
  intros W D P. assert (An : anames x = l) by (unfold anames; rewrite D; reflexivity).
  assert (I : forall y, In y (names d) <-> In y l) by (intros y; split; [apply Permutation_in, P|apply Permutation_in, Permutation_sym, P]).
  cbn [array_transpose]. rewrite D, mismatch_ok by (intros y; symmetry; apply I). cbn [bind].
  rewrite indices_of by apply I. cbn [bind].
  assert (T : exists r, nd_transpose (map (fun a => pos a l) (names d)) (data x) = Ok r).
  { unfold nd_transpose. replace (is_perm _ _) with true; [eauto|]. symmetry. apply is_perm_spec. unfold ndim.
    destruct W as (N & L & _). rewrite An in N, L. rewrite <- L. apply pos_perm; auto. }
  destruct T as (r & T). rewrite T. cbn [bind]. exists r. split; [reflexivity|].
  apply (transpose_by_name x _ r d W T). rewrite An. symmetry. apply names_of_positions, I.
Qed.
Lemma transpose_names_only (x : array A) l d : well_named x -> adims x = Named l -> ~ Permutation (names d) l ->
  array_transpose x (TNames d) = Raise ValueError.
Proof.
  intros W D NP. assert (An : anames x = l) by (unfold anames; rewrite D; reflexivity). cbn [array_transpose]. rewrite D.
  destruct (mismatch_cases l (names d)) as [M|M]; rewrite M; cbn [bind]; [|reflexivity].
  destruct (subset (names d) l) eqn:S.
  - assert (I : forall y, In y (names d) -> In y l) by (apply subset_spec, S).
    rewrite indices_of by exact I. cbn [bind]. unfold nd_transpose. replace (is_perm _ _) with false; [reflexivity|]. symmetry.
    destruct (is_perm _ _) eqn:Q; [|reflexivity]. exfalso. apply NP. apply is_perm_spec in Q. unfold ndim in Q.
    destruct W as (N & L & _). rewrite An in N, L. rewrite <- L in Q.
    pose proof (Permutation_map (fun k => nth k l []) Q) as R. rewrite map_nth_seq in R. erewrite <- (names_of_positions _ l I). exact R.
  - assert (E : exists y, In y (names d) /\ ~ In y l).
    { destruct (existsb (fun y => negb (smem y l)) (names d)) eqn:E.
      - apply existsb_exists in E as (y & Hy & E). exists y. split; [exact Hy|]. apply smem_false. apply negb_true_iff, E.
      - exfalso. assert (subset (names d) l = true); [|congruence]. apply subset_spec. intros y Hy. apply smem_spec.
        destruct (smem y l) eqn:F; [reflexivity|]. assert (existsb (fun y => negb (smem y l)) (names d) = true); [|congruence].
        apply existsb_exists. exists y. rewrite F. auto. }
    destruct E as (y & Hy & Ny). rewrite (indices_fail _ _ y Hy Ny). reflexivity.
Qed.

(** by axis numbers *)
Lemma norm_axes_spec n axes : forall k, norm_axes n axes = Ok k -> Forall2 (fun z i => norm_index n z = Some i) axes k.
Proof.
  induction axes as [|z axes IH]; intros k; cbn [norm_axes]; [intros [= <-]; constructor|].
  destruct (norm_index n z) as [i|] eqn:E; [|discriminate]. destruct (norm_axes n axes) as [r|] eqn:F; [|discriminate]. cbn [bind]. intros [= <-].
  constructor; [exact E|apply IH; reflexivity].
Qed.
Lemma norm_axes_complete n axes k : Forall2 (fun z i => norm_index n z = Some i) axes k -> norm_axes n axes = Ok k.
Proof. induction 1 as [|z i axes k E F IH]; [reflexivity|]. cbn [norm_axes]. rewrite E, IH. reflexivity. Qed.
Lemma norm_axes_cases n axes : (exists k, norm_axes n axes = Ok k) \/ norm_axes n axes = Raise ValueError.
Proof.
  induction axes as [|z axes IH]; [left; eexists; reflexivity|]. cbn [norm_axes]. destruct (norm_index n z); [|right; reflexivity].
  destruct IH as [(k & ->)| ->]; [left; eexists; reflexivity|right; reflexivity].
Qed.
Lemma norm_index_lt n z i : norm_index n z = Some i -> i < n.
Proof.
  unfold norm_index. set (j := if (z <? 0)%Z then (z + Z.of_nat n)%Z else z). destruct (Z.ltb_spec j 0); [discriminate|].
  destruct (Z.leb_spec (Z.of_nat n) j); [discriminate|]. intros [= <-]. lia.
Qed.
Lemma names_at l axes k : Forall2 (fun z i => norm_index (length l) z = Some i) axes k -> mapM (name_at l) axes = Ok (map (fun i => nth i l []) k).
Proof.
  induction 1 as [|z i axes k E F IH]; [reflexivity|]. cbn [mapM map]. unfold name_at at 1. rewrite E.
  rewrite (nth_error_nth' l []) by (apply (norm_index_lt _ _ _ E)). cbn [bind]. rewrite IH. reflexivity.
Qed.
Lemma permute_ok l axes k : NoDup l -> Forall2 (fun z i => norm_index (length l) z = Some i) axes k -> Permutation k (seq 0 (length l)) ->
  dims_permute l axes = Ok (Named (map (fun i => nth i l []) k)) /\ Permutation (map (fun i => nth i l []) k) l.
Proof.
  intros N F P. assert (Q : Permutation (map (fun i => nth i l []) k) l) by (pose proof (Permutation_map (fun i => nth i l []) P) as R; rewrite map_nth_seq in R; exact R).
  split; [|exact Q]. unfold dims_permute. rewrite (names_at l axes k F). cbn [bind].
  rewrite mismatch_ok by (intros y; split; [apply Permutation_in, Permutation_sym, Q|apply Permutation_in, Q]). cbn [bind].
  unfold dimensions_factory. rewrite unique_id by (apply (Permutation_NoDup (Permutation_sym Q)), N). reflexivity.
Qed.
Lemma transpose_axes (x : array A) l axes k : well_named x -> adims x = Named l ->
  Forall2 (fun z i => norm_index (length l) z = Some i) axes k -> Permutation k (seq 0 (length l)) ->
  exists r, array_transpose x (TAxes axes) = Ok r /\ anames r = map (fun i => nth i l []) k /\ same_by_name x r /\ well_named r.
Proof.
  intros W D F P. assert (An : anames x = l) by (unfold anames; rewrite D; reflexivity). pose proof W as (N & L & _). rewrite An in N, L.
  cbn [array_transpose]. unfold ndim. rewrite <- L, (norm_axes_complete _ _ _ F). cbn [bind].
  assert (T : exists r, nd_transpose k (data x) = Ok r).
  { unfold nd_transpose, ndim. rewrite <- L. rewrite (proj2 (is_perm_spec _ _) P). eauto. }
  destruct T as (r & T). rewrite T. cbn [bind]. rewrite D. destruct (permute_ok l axes k N F P) as (E & _). rewrite E. cbn [bind].
  eexists. split; [reflexivity|]. split; [reflexivity|]. apply (transpose_by_name x k r _ W T). rewrite An. reflexivity.
Qed.
Lemma transpose_axes_only (x : array A) axes r : array_transpose x (TAxes axes) = Ok r ->
  exists k, Forall2 (fun z i => norm_index (ndim (data x)) z = Some i) axes k /\ Permutation k (seq 0 (ndim (data x))).
Proof.
  cbn [array_transpose]. destruct (norm_axes_cases (ndim (data x)) axes) as [(k & E)|E]; rewrite E; cbn [bind]; [|discriminate].
  intros H. exists k. split; [apply norm_axes_spec, E|]. unfold nd_transpose in H. destruct (is_perm _ _) eqn:P; [|discriminate]. apply is_perm_spec, P.
Qed.

(** reversal *)
Lemma reverse_by_name (x : array A) : well_named x ->
  exists r, numpy_transpose x None = Ok r /\ anames r = rev (anames x) /\ same_by_name x r /\ well_named r.
Proof.
  intros (N & L & Ps). unfold numpy_transpose. rewrite names_nodup_factory; [|apply NoDup_rev, N|unfold ndim; cbn [nd_reverse_axes shape]; rewrite !rev_length; exact L].
  eexists. split; [reflexivity|]. split; [reflexivity|].
  assert (RV : forall {X} (l : list X) k v, nth_error l k = Some v -> nth_error (rev l) (length l - S k) = Some v).
  { intros X l k v E. assert (K : k < length l) by (apply nth_error_Some; congruence).
    rewrite (nth_error_nth' _ v) by (rewrite rev_length; lia). f_equal. rewrite rev_nth by lia. replace (length l - S (length l - S k)) with k by lia.
    apply nth_error_nth, E. }
  split; [split|].
  - intros d n. unfold axis_len, anames. cbn [adims names data shape nd_reverse_axes]. split; intros (k & E1 & E2); exists (length (anames x) - S k).
    + split; [apply RV, E1|]. rewrite L. apply RV, E2.
    + pose proof (RV _ _ _ _ E1) as F1. pose proof (RV _ _ _ _ E2) as F2. rewrite rev_involutive in F1, F2. rewrite rev_length in F1, F2.
      split; [exact F1|]. rewrite L. exact F2.
  - intros c _. unfold at_, anames. cbn [adims names data elem nd_reverse_axes]. rewrite map_rev, rev_involutive. reflexivity.
  - unfold well_named, anames. cbn [adims names data shape nd_reverse_axes]. split; [apply NoDup_rev, N|]. split; [rewrite !rev_length; exact L|].
    apply Forall_rev, Ps.
Qed.
End Tr.

(** ** Element-wise operations on arrays with the same names *)
Section Add.
Context {A : Type}.

Lemma dims_eq_names a b : dims_eq a b = true -> names a = names b.
Proof. destruct a, b; cbn [dims_eq names]; intros H; try discriminate; apply list_eqb_str, H. Qed.
Lemma dims_eq_iff a b : (exists l, a = Named l) \/ (exists l, b = Named l) -> (dims_eq a b = true <-> names a = names b).
Proof. intros [(l & ->)|(l & ->)]; split; try apply dims_eq_names; intros H; [|destruct a]; cbn [dims_eq]; apply list_eqb_str, H. Qed.

Lemma bcast_rev_some u : forall v r, length u = length v -> bcast_rev u v = Some r -> Forall2 (fun x y => x = y \/ x = 1 \/ y = 1) u v.
Proof.
  induction u as [|x u IH]; intros [|y v] r L; try discriminate; [constructor|]. cbn [bcast_rev]. destruct (bcast_rev u v) as [r'|] eqn:E; [|discriminate].
  intros H. constructor; [|apply (IH v r'); [simpl in L; lia|exact E]]. destruct (Nat.eqb_spec x y); [auto|]. destruct (Nat.eqb_spec x 1); [auto|].
  destruct (Nat.eqb_spec y 1); [auto|discriminate].
Qed.
Lemma bcast_some u v r : length u = length v -> bcast_shape u v = Some r -> Forall2 (fun x y => x = y \/ x = 1 \/ y = 1) u v.
Proof.
  intros L H. unfold bcast_shape in H. destruct (bcast_rev (rev u) (rev v)) as [q|] eqn:E; [|discriminate].
  apply bcast_rev_some in E; [|rewrite !rev_length; exact L]. apply Forall2_rev in E. rewrite !rev_involutive in E. exact E.
Qed.
Definition broadcastable (a b : array A) : Prop := forall d n m, axis_len a d n -> axis_len b d m -> n = m \/ n = 1 \/ m = 1.
Lemma Forall2_nth {X Y} (R : X -> Y -> Prop) l m : length l = length m ->
  (forall k x y, nth_error l k = Some x -> nth_error m k = Some y -> R x y) <-> Forall2 R l m.
Proof.
  revert m. induction l as [|x l IH]; intros [|y m] L; try discriminate.
  - split; [constructor|]. intros _ [|k] ? ? E; discriminate.
  - split.
    + intros H. constructor; [apply (H 0 x y eq_refl eq_refl)|]. apply IH; [simpl in L; lia|]. intros k u v E1 E2. apply (H (S k) u v E1 E2).
    + intros F. inversion_clear F. intros [|k] u v E1 E2; simpl in *; [injection E1 as <-; injection E2 as <-; assumption|].
      eapply (proj2 (IH m ltac:(lia))); eauto.
Qed.
Lemma broadcastable_shapes (a b : array A) : well_named a -> well_named b -> anames a = anames b ->
  (broadcastable a b <-> Forall2 (fun x y => x = y \/ x = 1 \/ y = 1) (shape (data a)) (shape (data b))).
Proof.
  intros (Na & La & _) (Nb & Lb & _) E. rewrite <- Forall2_nth by congruence. split.
  - intros B k n m E1 E2. assert (K : k < length (anames a)) by (rewrite La; apply nth_error_Some; congruence).
    apply nth_error_Some in K. destruct (nth_error (anames a) k) as [d|] eqn:Ed; [|congruence]. apply (B d); exists k; [auto|]. rewrite <- E. auto.
  - intros H d n m (k & E1 & E2) (j & E3 & E4). assert (k = j) as <-; [|eapply H; eauto].
    rewrite <- E in E3. apply (proj1 (NoDup_nth_error (anames a)) Na); [apply nth_error_Some; congruence|congruence].
Qed.

(** the element of an operand that broadcasting pairs with coordinates [c] *)
Lemma pin_clip (a : array A) c ca : well_named a -> clip a c ca -> pin (shape (data a)) (map c (anames a)) = map ca (anames a).
Proof.
  intros W C. rewrite (shape_lens a W). assert (H : forall d, In d (anames a) -> ca d = if Nat.eqb (len_of a d) 1 then 0 else c d).
  { intros d Hd. destruct (axis_exists a d W Hd) as (n & An & _). rewrite (len_axis a d n W An). destruct (C d n An) as (C1 & C2).
    destruct (Nat.eqb_spec n 1); auto. }
  revert H. generalize (anames a) as l. induction l as [|d l IH]; intros H; [reflexivity|]. cbn [map pin]. rewrite (H d (or_introl eq_refl)). f_equal.
  apply IH. intros e He. apply H. right. exact He.
Qed.
(** the longer of two axes *)
Definition longer (a b : array A) (d : str) (n : nat) : Prop :=
  (axis_len a d n /\ forall m, axis_len b d m -> m <= n) \/ (axis_len b d n /\ forall m, axis_len a d m -> m <= n).

Lemma longer_spec (a b : array A) l (r : nd A) d' : well_named a -> well_named b -> NoDup l -> names d' = l ->
  (forall d, In d l <-> In d (anames a) \/ In d (anames b)) -> shape r = map (fun d => Nat.max (len_of a d) (len_of b d)) l ->
  (forall d n, axis_len (mkarray r d') d n <-> longer a b d n) /\ well_named (mkarray r d').
Proof.
  intros Wa Wb N D I S.
  assert (W : well_named (mkarray r d')).
  { unfold well_named, anames. cbn [adims data]. rewrite D, S, map_length. repeat split; [exact N|]. apply Forall_forall. intros n Hn.
    apply in_map_iff in Hn as (d & <- & _). pose proof (len_pos a d Wa). lia. }
  assert (LR : forall d, In d l -> len_of (mkarray r d') d = Nat.max (len_of a d) (len_of b d)).
  { intros d Hd. apply In_nth_error in Hd as (k & E). eapply len_axis; [exact W|]. exists k. unfold anames. cbn [adims data]. rewrite D, S.
    split; [exact E|]. apply (map_nth_error (fun d => Nat.max (len_of a d) (len_of b d))), E. }
  split; [|exact W]. intros d n. split.
  - intros H. assert (Hd : In d l) by (apply axis_in in H; unfold anames in H; cbn [adims] in H; rewrite D in H; exact H).
    assert (En : n = Nat.max (len_of a d) (len_of b d)) by (rewrite <- (LR d Hd); symmetry; apply (len_axis _ _ _ W H)).
    assert (Ba : forall m, axis_len a d m -> m <= n) by (intros m Hm; rewrite <- (len_axis a d m Wa Hm); lia).
    assert (Bb : forall m, axis_len b d m -> m <= n) by (intros m Hm; rewrite <- (len_axis b d m Wb Hm); lia).
    pose proof (len_pos a d Wa) as Pa. pose proof (len_pos b d Wb) as Pb.
    destruct (in_dec str_eq_dec d (anames a)) as [Ha|Ha]; destruct (in_dec str_eq_dec d (anames b)) as [Hb|Hb].
    + destruct (Nat.le_ge_cases (len_of a d) (len_of b d)).
      * right. split; [|exact Ba]. replace n with (len_of b d) by lia. apply len_axis_iff; auto.
      * left. split; [|exact Bb]. replace n with (len_of a d) by lia. apply len_axis_iff; auto.
    + left. split; [|exact Bb]. rewrite (len_missing b d Hb) in En. replace n with (len_of a d) by lia. apply len_axis_iff; auto.
    + right. split; [|exact Ba]. rewrite (len_missing a d Ha) in En. replace n with (len_of b d) by lia. apply len_axis_iff; auto.
    + apply I in Hd. tauto.
  - intros H. assert (Hd : In d l) by (apply I; destruct H as [(H & _)|(H & _)]; apply axis_in in H; auto).
    replace n with (len_of (mkarray r d') d); [apply len_axis_iff; [exact W|unfold anames; cbn [adims]; rewrite D; exact Hd]|].
    rewrite (LR d Hd). destruct H as [(H & B)|(H & B)].
    + rewrite (len_axis a d n Wa H). pose proof (len_pos a d Wa). rewrite (len_axis a d n Wa H) in *.
      destruct (in_dec str_eq_dec d (anames b)) as [Hb|Hb]; [specialize (B _ (len_axis_iff b d Wb Hb)); lia|rewrite (len_missing b d Hb); lia].
    + rewrite (len_axis b d n Wb H). pose proof (len_pos b d Wb). rewrite (len_axis b d n Wb H) in *.
      destruct (in_dec str_eq_dec d (anames a)) as [Ha|Ha]; [specialize (B _ (len_axis_iff a d Wa Ha)); lia|rewrite (len_missing a d Ha); lia].
Qed.

Lemma map2_same (B : Type) (f : A -> A -> B) (a b : array A) : well_named a -> well_named b -> anames a = anames b -> broadcastable a b ->
  exists r, nd_map2 f (data a) (data b) = Ok r /\ shape r = map (fun d => Nat.max (len_of a d) (len_of b d)) (anames a) /\
    forall c ca cb, clip a c ca -> clip b c cb -> elem r (map c (anames a)) = f (at_ a ca) (at_ b cb).
Proof.
  intros Wa Wb E Br. pose proof (proj1 (broadcastable_shapes a b Wa Wb E) Br) as F. unfold nd_map2. rewrite (bcast_join _ _ F).
  eexists. split; [reflexivity|]. cbn [shape elem]. split.
  - rewrite (shape_lens a Wa), (shape_lens b Wb), <- E. apply join_max. intros d Hd. split; [|split; apply len_pos; auto].
    apply (Br d); apply len_axis_iff; auto. rewrite <- E. exact Hd.
  - intros c ca cb Ca Cb. rewrite operand_index_same by (rewrite map_length; symmetry; apply Wa).
    rewrite operand_index_same by (rewrite map_length, E; symmetry; apply Wb). unfold at_. rewrite (pin_clip a c ca Wa Ca). rewrite E, (pin_clip b c cb Wb Cb). reflexivity.
Qed.
Lemma map2_fails (B : Type) (f : A -> A -> B) (a b : array A) : well_named a -> well_named b -> anames a = anames b -> ~ broadcastable a b ->
  nd_map2 f (data a) (data b) = Raise ValueError.
Proof.
  intros Wa Wb E NB. unfold nd_map2. destruct (bcast_shape (shape (data a)) (shape (data b))) as [r|] eqn:Q; [|reflexivity].
  exfalso. apply NB, (broadcastable_shapes a b Wa Wb E). apply bcast_some in Q; [exact Q|]. destruct Wa as (_ & La & _), Wb as (_ & Lb & _). congruence.
Qed.

Lemma within_self_clip (x : array A) c : within x c -> clip x c c.
Proof. intros W d n H. split; [intros ->; specialize (W d 1 H); lia|reflexivity]. Qed.
Lemma clip_exists (x : array A) c : well_named x -> exists c', clip x c c'.
Proof.
  intros W. exists (fun d => if Nat.eqb (len_of x d) 1 then 0 else c d). intros d n H. rewrite (len_axis x d n W H).
  split; intros Q; destruct (Nat.eqb_spec n 1); congruence.
Qed.
Lemma clip_at (x : array A) c c1 c2 : well_named x -> clip x c c1 -> clip x c c2 -> at_ x c1 = at_ x c2.
Proof.
  intros W H1 H2. unfold at_. f_equal. apply map_ext_in. intros d Hd. destruct (axis_exists x d W Hd) as (n & H & _).
  destruct (H1 d n H) as (A1 & A2), (H2 d n H) as (B1 & B2). destruct (Nat.eq_dec n 1); [rewrite A1, B1|rewrite A2, B2]; auto.
Qed.

(** numbers and one-argument functions *)
Lemma bcast_nil sh : bcast_shape sh [] = Some sh /\ bcast_shape [] sh = Some sh.
Proof.
  unfold bcast_shape. cbn [rev]. split; [|rewrite <- (rev_involutive sh) at 2; reflexivity].
  assert (H : forall u, bcast_rev u [] = Some u) by (intros [|]; reflexivity). rewrite H. cbn [option_map]. rewrite rev_involutive. reflexivity.
Qed.
Lemma within_valid (x : array A) c : well_named x -> within x c -> Forall2 (fun i n => i < n) (map c (anames x)) (shape (data x)).
Proof.
  intros W B. rewrite (shape_lens x W). assert (H : forall d, In d (anames x) -> c d < len_of x d).
  { intros d Hd. apply (B d). apply len_axis_iff; auto. }
  revert H. generalize (anames x) as l. induction l as [|d l IH]; intros H; constructor; [apply H; left; reflexivity|apply IH; intros e He; apply H; right; exact He].
Qed.
Lemma scalar_right (B : Type) (f : A -> A -> B) (x : array A) v : exists r, nd_map2 f (data x) (nd_scalar v) = Ok r /\ shape r = shape (data x) /\
  (well_named x -> forall c, within x c -> elem r (map c (anames x)) = f (at_ x c) v).
Proof.
  unfold nd_map2. cbn [nd_scalar shape]. rewrite (proj1 (bcast_nil _)). eexists. split; [reflexivity|]. split; [reflexivity|].
  intros W c H. cbn [elem]. rewrite operand_index_same by (rewrite map_length; symmetry; apply W). rewrite pin_id by (apply within_valid; auto). reflexivity.
Qed.
Lemma scalar_left (B : Type) (f : A -> A -> B) (x : array A) v : exists r, nd_map2 f (nd_scalar v) (data x) = Ok r /\ shape r = shape (data x) /\
  (well_named x -> forall c, within x c -> elem r (map c (anames x)) = f v (at_ x c)).
Proof.
  unfold nd_map2. cbn [nd_scalar shape]. rewrite (proj2 (bcast_nil _)). eexists. split; [reflexivity|]. split; [reflexivity|].
  intros W c H. cbn [elem]. rewrite (operand_index_same (shape (data x))) by (rewrite map_length; symmetry; apply W). rewrite pin_id by (apply within_valid; auto). reflexivity.
Qed.
Lemma same_shape_named (x : array A) (r : nd A) : well_named x -> shape r = shape (data x) ->
  array_factory r (anames x) = Ok (mkarray r (Named (anames x))) /\ well_named (mkarray r (Named (anames x))) /\
  forall d n, axis_len (mkarray r (Named (anames x))) d n <-> axis_len x d n.
Proof.
  intros (N & L & P) S. split; [apply names_nodup_factory; [exact N|unfold ndim; rewrite S; exact L]|].
  split; [unfold well_named, anames; cbn [adims names data]; rewrite S; auto|].
  intros d n. unfold axis_len, anames. cbn [adims names data]. rewrite S. reflexivity.
Qed.
End Add.
