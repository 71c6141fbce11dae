From Verif Require Import PyBase PyLemmas ContainerModel ContainerSpec ContainerProofs ContainerProofs2 Nd IndexModel IndexProofs ArrayModel ArraySpec.
Set Default Proof Using "Type".

Lemma smem_spec x l : smem x l = true <-> In x l.
Proof. unfold smem. apply mem_spec, str_decides. Qed.
Lemma smem_false x l : smem x l = false <-> ~ In x l.
Proof. rewrite <- smem_spec. destruct (smem x l); split; congruence. Qed.
Lemma list_eqb_str a b : list_eqb str_eqb a b = true <-> a = b.
Proof. apply list_eqb_spec, str_decides. Qed.

Lemma unique_spec l : NoDup (unique_items str_eqb l) /\ (forall x, In x (unique_items str_eqb l) <-> In x l) /\ subseq (unique_items str_eqb l) l.
Proof. exact (unique_items_spec str_eqb str_decides l). Qed.
Lemma subseq_length {A} (a l : list A) : subseq a l -> length a <= length l.
Proof. induction 1; simpl; lia. Qed.
Lemma subseq_full {A} (a l : list A) : subseq a l -> length l <= length a -> a = l.
Proof.
  induction 1 as [|x a l S IH|x a l S IH]; simpl; intros L; [reflexivity|f_equal; apply IH; lia|].
  apply subseq_length in S. lia.
Qed.
Lemma unique_id l : NoDup l -> unique_items str_eqb l = l.
Proof.
  intros N. destruct (unique_spec l) as (_ & _ & S). apply subseq_full; [exact S|].
  rewrite (proj2 (unique_length str_eqb str_decides l) N). apply le_n.
Qed.
Lemma subset_spec a b : subset a b = true <-> forall x, In x a -> In x b.
Proof. unfold subset. rewrite forallb_forall. split; intros H x Hx; apply smem_spec, H, Hx. Qed.

(** ** Unions *)
Lemma dims_or_names_ok a b d : NoDup a -> NoDup b -> dims_or_names a b = Ok d ->
  exists l, d = Named l /\ common_order a b l.
Proof.
  intros NA NB. unfold dims_or_names. destruct (merge str_eqb a b) as [m|e] eqn:E; [|destruct e; discriminate].
  intros [= <-]. destruct (merge_ok str_eqb str_decides a b m NA NB E) as (S1 & S2 & I & N).
  exists m. unfold dimensions_factory. rewrite unique_id by exact N. repeat split; auto; apply I.
Qed.
Lemma dims_or_names_total a b : NoDup a -> NoDup b -> (exists d, dims_or_names a b = Ok d) \/ dims_or_names a b = Raise ValueError.
Proof.
  intros NA NB. unfold dims_or_names. destruct (merge_total str_eqb str_decides a b NA NB) as (r & E & [->|(l & ->)]); rewrite E; eauto.
Qed.
Lemma dims_or_names_complete a b l : NoDup a -> NoDup b -> NoDup l -> subseq a l -> subseq b l -> exists d, dims_or_names a b = Ok d.
Proof.
  intros NA NB NL SA SB. unfold dims_or_names. destruct (merge_complete str_eqb str_decides a b l NA NB NL SA SB) as (m & ->). eauto.
Qed.

(** ** Named axes *)
Section Arr.
Context {A : Type}.
Implicit Types (x a b r : array A).

Lemma shapemap_nth l : forall sh k d n, NoDup l -> nth_error l k = Some d -> nth_error sh k = Some n -> shapemap_get l sh d = n.
Proof.
  induction l as [|y l IH]; intros sh k d n N El Es; [destruct k; discriminate|].
  apply NoDup_cons_iff in N as (Ny & N). destruct sh as [|m sh]; [destruct k; discriminate|]. cbn [shapemap_get].
  destruct k as [|k]; simpl in El, Es.
  - injection El as ->. injection Es as ->. rewrite str_eqb_refl. reflexivity.
  - destruct (str_eqb y d) eqn:E; [|eapply IH; eauto]. apply str_eqb_eq in E as ->. exfalso. apply Ny. eapply nth_error_In, El.
Qed.
Lemma shapemap_missing l : forall sh d, ~ In d l -> shapemap_get l sh d = 1.
Proof.
  induction l as [|y l IH]; intros sh d N; [reflexivity|]. destruct sh as [|m sh]; [reflexivity|]. cbn [shapemap_get].
  destruct (str_eqb y d) eqn:E; [apply str_eqb_eq in E as ->; exfalso; apply N; left; reflexivity|]. apply IH. intros H. apply N. right. exact H.
Qed.
Lemma len_axis x d n : well_named x -> axis_len x d n -> len_of x d = n.
Proof. intros (N & L & _) (k & E1 & E2). unfold len_of. eapply shapemap_nth; eauto. Qed.
Lemma len_missing x d : ~ In d (anames x) -> len_of x d = 1.
Proof. apply shapemap_missing. Qed.
Lemma axis_exists x d : well_named x -> In d (anames x) -> exists n, axis_len x d n /\ 0 < n.
Proof.
  intros (N & L & P) H. apply In_nth_error in H as (k & E). assert (K : k < length (shape (data x))) by (rewrite <- L; apply nth_error_Some; congruence).
  apply nth_error_Some in K. destruct (nth_error (shape (data x)) k) as [n|] eqn:E'; [|congruence]. exists n. split; [exists k; auto|].
  rewrite Forall_forall in P. apply P. eapply nth_error_In, E'.
Qed.
Lemma axis_in x d n : axis_len x d n -> In d (anames x).
Proof. intros (k & E & _). eapply nth_error_In, E. Qed.
Lemma axis_functional x d n m : well_named x -> axis_len x d n -> axis_len x d m -> n = m.
Proof. intros W H1 H2. rewrite <- (len_axis x d n W H1). apply (len_axis x d m W H2). Qed.
Lemma len_axis_iff x d : well_named x -> In d (anames x) -> axis_len x d (len_of x d).
Proof. intros W H. destruct (axis_exists x d W H) as (n & E & _). rewrite (len_axis x d n W E). exact E. Qed.
Lemma len_pos x d : well_named x -> 0 < len_of x d.
Proof.
  intros W. destruct (in_dec str_eq_dec d (anames x)) as [H|H]; [|rewrite len_missing by exact H; lia].
  destruct (axis_exists x d W H) as (n & E & P). rewrite (len_axis x d n W E). exact P.
Qed.
Lemma shape_lens x : well_named x -> shape (data x) = map (len_of x) (anames x).
Proof.
  intros (N & L & _). unfold len_of. revert N L. generalize (anames x) (shape (data x)). intros l. induction l as [|d l IH]; intros sh N L.
  - destruct sh; [reflexivity|discriminate].
  - destruct sh as [|n sh]; [discriminate|]. apply NoDup_cons_iff in N as (Nd & N). cbn [map shapemap_get]. rewrite str_eqb_refl. f_equal.
    rewrite (IH sh N) at 1 by (simpl in L; lia). apply map_ext_in. intros e He. destruct (str_eqb d e) eqn:E; [|reflexivity].
    apply str_eqb_eq in E as ->. contradiction.
Qed.
Lemma size_one (sh : list nat) : Forall (fun n => 0 < n) sh -> fold_right Nat.mul 1 sh = 1 <-> Forall (fun n => n = 1) sh.
Proof.
  induction 1 as [|n sh P F IH]; simpl; [split; auto|]. split.
  - intros E. apply Nat.eq_mul_1 in E as (-> & E). constructor; [reflexivity|apply IH, E].
  - intros H. inversion_clear H as [|? ? H1 H2]. subst n. rewrite (proj2 IH H2). reflexivity.
Qed.
Lemma size_singleton x : well_named x -> Nat.eqb (nd_size (data x)) 1 = true <-> singleton x.
Proof. intros (_ & _ & P). rewrite Nat.eqb_eq. apply size_one, P. Qed.
Lemma singleton_len x d : well_named x -> singleton x -> len_of x d = 1.
Proof.
  intros W S. destruct (in_dec str_eq_dec d (anames x)) as [H|H]; [|apply len_missing, H].
  destruct (axis_exists x d W H) as (n & (k & E1 & E2) & _). rewrite (len_axis x d n W (ex_intro _ k (conj E1 E2))).
  unfold singleton in S. rewrite Forall_forall in S. apply S. eapply nth_error_In, E2.
Qed.

End Arr.

(** ** Positions of names *)
Lemma pos_nth d l : In d l -> nth_error l (pos d l) = Some d.
Proof.
  induction l as [|y l IH]; [intros []|]. cbn [pos]. destruct (str_eqb y d) eqn:E; [apply str_eqb_eq in E as ->; reflexivity|].
  intros [->|H]; [rewrite str_eqb_refl in E; discriminate|]. simpl. apply IH, H.
Qed.
Lemma pos_lt d l : In d l -> pos d l < length l.
Proof. intros H. apply nth_error_Some. rewrite pos_nth by exact H. discriminate. Qed.
Lemma nth_map_pos {B} (g : str -> B) d l (o : B) : In d l -> nth (pos d l) (map g l) o = g d.
Proof. intros H. apply nth_error_nth. apply map_nth_error with (f := g). apply pos_nth, H. Qed.

(** ** Broadcasting arrays of the same number of axes *)
Fixpoint join (u v : list nat) : list nat :=
  match u, v with x :: u', y :: v' => (if Nat.eqb x 1 then y else x) :: join u' v' | _, _ => [] end.
Lemma bcast_rev_join u v : Forall2 (fun x y => x = y \/ x = 1 \/ y = 1) u v -> bcast_rev u v = Some (join u v).
Proof.
  induction 1 as [|x y u v H F IH]; [reflexivity|]. cbn [bcast_rev join]. rewrite IH.
  destruct (Nat.eqb_spec x y) as [->|]; [destruct (Nat.eqb_spec y 1); congruence|].
  destruct (Nat.eqb_spec x 1); [reflexivity|]. destruct (Nat.eqb_spec y 1) as [->|]; [reflexivity|]. exfalso. lia.
Qed.
Lemma join_app u v u' v' : length u = length v -> join (u ++ u') (v ++ v') = join u v ++ join u' v'.
Proof. revert v. induction u as [|x u IH]; intros [|y v] L; try discriminate; [reflexivity|]. simpl. rewrite IH by (simpl in L; lia). reflexivity. Qed.
Lemma join_rev u : forall v, length u = length v -> join (rev u) (rev v) = rev (join u v).
Proof.
  induction u as [|x u IH]; intros [|y v] L; try discriminate; [reflexivity|]. simpl. simpl in L.
  rewrite join_app by (rewrite !rev_length; lia). rewrite IH by lia. reflexivity.
Qed.
Lemma Forall2_app_r {X Y} (R : X -> Y -> Prop) l1 l2 m1 m2 : Forall2 R l1 m1 -> Forall2 R l2 m2 -> Forall2 R (l1 ++ l2) (m1 ++ m2).
Proof. induction 1; simpl; auto. Qed.
Lemma Forall2_rev {X Y} (R : X -> Y -> Prop) l m : Forall2 R l m -> Forall2 R (rev l) (rev m).
Proof. induction 1; simpl; [constructor|]. apply Forall2_app_r; auto. Qed.
Lemma Forall2_len {X Y} (R : X -> Y -> Prop) l m : Forall2 R l m -> length l = length m.
Proof. induction 1; simpl; congruence. Qed.
Lemma bcast_join u v : Forall2 (fun x y => x = y \/ x = 1 \/ y = 1) u v -> bcast_shape u v = Some (join u v).
Proof.
  intros F. unfold bcast_shape. rewrite bcast_rev_join by (apply Forall2_rev, F). simpl.
  rewrite join_rev by (eapply Forall2_len, F). rewrite rev_involutive. reflexivity.
Qed.
Lemma operand_index_same sh ix : length sh = length ix -> operand_index sh ix = pin sh ix.
Proof. intros L. unfold operand_index. rewrite L, Nat.sub_diag. reflexivity. Qed.
Lemma nth_pin sh : forall ix k, length sh = length ix -> k < length sh -> nth k (pin sh ix) 0 = if Nat.eqb (nth k sh 0) 1 then 0 else nth k ix 0.
Proof.
  induction sh as [|n sh IH]; intros [|i ix] [|k] L K; simpl in *; try lia; try reflexivity; apply IH; lia.
Qed.
Lemma length_pin sh : forall ix, length sh = length ix -> length (pin sh ix) = length sh.
Proof. induction sh as [|n sh IH]; intros [|i ix] L; simpl in *; try lia. rewrite IH; lia. Qed.
Lemma nth_join u : forall v k, length u = length v -> k < length u -> nth k (join u v) 0 = if Nat.eqb (nth k u 0) 1 then nth k v 0 else nth k u 0.
Proof. induction u as [|x u IH]; intros [|y v] [|k] L K; simpl in *; try lia; try reflexivity; apply IH; lia. Qed.
Lemma length_join u : forall v, length u = length v -> length (join u v) = length u.
Proof. induction u as [|x u IH]; intros [|y v] L; simpl in *; try lia. rewrite IH; lia. Qed.
Lemma pin_id sh ix : Forall2 (fun i n => i < n) ix sh -> pin sh ix = ix.
Proof. induction 1 as [|i n ix sh H F IH]; [reflexivity|]. simpl. rewrite IH. destruct (Nat.eqb_spec n 1); [f_equal; lia|reflexivity]. Qed.
