(** Properties C18-C20, C48, C49, C55: named dimensions and arrays. *)
From Verif Require Import PyBase PyLemmas ContainerModel ContainerSpec ContainerProofs ContainerProofs2 Nd IndexSpec IndexModel IndexProofs IndexProofs2 ArrayModel ArraySpec ArrayProofs ArrayProofs2 ArrayProofs3 ArrayProofs4 CompareModel.
From Coq Require Import Permutation.

(** ** C18: dimension names *)
Theorem C18_names_unique (l : list str) : NoDup (names (dimensions_factory l)) /\
  (forall d, In d (names (dimensions_factory l)) <-> In d l) /\ subseq (names (dimensions_factory l)) l.
Proof. exact (unique_spec l). Qed.
Print Assumptions C18_names_unique.
Theorem C18_union (a b : dims) : NoDup (names a) -> NoDup (names b) -> (exists l, a = Named l) ->
  (forall d, dims_or a b = Ok d -> exists l, d = Named l /\ common_order (names a) (names b) l) /\
  ((exists d, dims_or a b = Ok d) <-> exists l, NoDup l /\ subseq (names a) l /\ subseq (names b) l) /\
  (forall e, dims_or a b = Raise e -> e = ValueError).
Proof.
  intros NA NB (l & ->). cbn [dims_or names]. split; [|split].
  - intros d H. apply (dims_or_names_ok _ _ _ NA NB H).
  - split; [|intros (m & Nm & S1 & S2); eapply dims_or_names_complete; eauto].
    intros (d & H). destruct (dims_or_names_ok _ _ _ NA NB H) as (m & _ & (H1 & H2 & H3 & _)). eauto.
  - intros e H. destruct (dims_or_names_total l (names b) NA NB) as [(d & E)|E]; congruence.
Qed.
Print Assumptions C18_union.
Example C18_union_case : dims_or (Named [s "t"; s "x"]) (Named [s "x"; s "y"]) = Ok (Named [s "t"; s "x"; s "y"]) /\
  dims_or (Named [s "x"; s "y"]) (Named [s "y"; s "x"]) = Raise ValueError.
Proof. split; vm_compute; reflexivity. Qed.
Lemma unique_absorb l : forall c, (forall x, In x l -> In x c) -> unique_loop str_eqb c l = c.
Proof.
  induction l as [|x l IH]; intros c H; [reflexivity|]. cbn [unique_loop]. rewrite (proj2 (mem_spec str_eqb str_decides x c)) by (apply H; left; reflexivity).
  apply IH. intros y Hy. apply H. right. exact Hy.
Qed.
Lemma unique_loop_app a : forall c b, unique_loop str_eqb c (a ++ b) = unique_loop str_eqb (unique_loop str_eqb c a) b.
Proof. induction a as [|x a IH]; intros c b; [reflexivity|]. cbn [app unique_loop]. destruct mem; apply IH. Qed.
Theorem C18_intersection (a b : list str) : NoDup a ->
  NoDup (names (dims_and a b)) /\ (forall d, In d (names (dims_and a b)) <-> In d a /\ In d b) /\ subseq (names (dims_and a b)) a.
Proof.
  intros N. unfold dims_and. cbn [names dimensions_factory]. destruct (unique_spec (filter (fun n => smem n a && smem n b) (a ++ b))) as (H1 & H2 & _).
  split; [exact H1|]. split.
  - intros d. rewrite H2, filter_In, in_app_iff, andb_true_iff, !smem_spec. tauto.
  - replace (unique_items _ _) with (filter (fun n => smem n a && smem n b) a).
    + clear. generalize (fun n => smem n a && smem n b). intros f. induction a as [|x a IH]; [constructor|]. cbn [filter]. destruct (f x); constructor; exact IH.
    + symmetry. unfold unique_items. rewrite filter_app, unique_loop_app. fold (unique_items str_eqb (filter (fun n => smem n a && smem n b) a)).
      assert (Nf : NoDup (filter (fun n => smem n a && smem n b) a)) by (apply NoDup_filter, N). rewrite (unique_id _ Nf).
      apply unique_absorb. intros x Hx. apply filter_In in Hx as (_ & Hx). apply filter_In. split; [|exact Hx].
      apply andb_true_iff in Hx as (Hx & _). apply smem_spec, Hx.
Qed.
Print Assumptions C18_intersection.
Theorem C18_difference (a b : list str) : NoDup a ->
  NoDup (names (dims_sub a b)) /\ (forall d, In d (names (dims_sub a b)) <-> In d a /\ ~ In d b) /\ subseq (names (dims_sub a b)) a.
Proof.
  intros N. unfold dims_sub. cbn [names dimensions_factory]. rewrite unique_id by (apply NoDup_filter, N). split; [apply NoDup_filter, N|]. split.
  - intros d. rewrite filter_In, negb_true_iff, smem_false. tauto.
  - clear. induction a as [|x a IH]; [constructor|]. cbn [filter]. destruct (negb _); constructor; exact IH.
Qed.
Print Assumptions C18_difference.
(** [a ^ b] never gives a result *)
Theorem C18_symmetric_difference_refuted (a b : list str) : dims_xor a b = Raise TypeError.
Proof. reflexivity. Qed.
Print Assumptions C18_symmetric_difference_refuted.
Theorem C18_replace (a : list str) (old new : str) : NoDup a -> ~ In new a ->
  length (names (dims_replace a old new)) = length a /\
  forall k d, nth_error a k = Some d -> (d = old -> nth_error (names (dims_replace a old new)) k = Some new) /\
                                       (d <> old -> nth_error (names (dims_replace a old new)) k = Some d).
Proof.
  intros N Nw. unfold dims_replace. cbn [names dimensions_factory]. set (f := fun n => if str_eqb n old then new else n).
  assert (ND : NoDup (map f a)).
  { clear -N Nw. induction a as [|x a IH]; [constructor|]. apply NoDup_cons_iff in N as (Nx & N). cbn [map]. constructor.
    - intros H. apply in_map_iff in H as (y & E & Hy). unfold f in E. destruct (str_eqb y old) eqn:Ey, (str_eqb x old) eqn:Ex.
      + apply str_eqb_eq in Ey, Ex. subst. contradiction.
      + subst x. apply Nw. left. reflexivity.
      + subst y. apply Nw. right. exact Hy.
      + subst y. contradiction.
    - apply IH; [exact N|]. intros H. apply Nw. right. exact H. }
  rewrite unique_id by exact ND. rewrite map_length. split; [reflexivity|]. intros k d E. rewrite (map_nth_error f k a E). unfold f.
  split; intros H; [subst; rewrite str_eqb_refl; reflexivity|]. destruct (str_eqb d old) eqn:Q; [apply str_eqb_eq in Q; contradiction|reflexivity].
Qed.
Print Assumptions C18_replace.
Example C18_replace_case : dims_replace [s "t"; s "x"] (s "x") (s "y") = Named [s "t"; s "y"].
Proof. reflexivity. Qed.
(** inserting a new name puts it at the requested index (from the end if
    negative, clipped to the ends) and keeps the others in order *)
Theorem C18_insert (a : list str) (x : str) (i : option Z) : NoDup a -> ~ In x a ->
  exists pre post, a = pre ++ post /\ names (dims_insert a x i) = pre ++ x :: post /\
    Z.of_nat (length pre) = match i with
      | None => Z.of_nat (length a)
      | Some z => clamp 0 (Z.of_nat (length a)) (from_end (Z.of_nat (length a)) z)
      end.
Proof.
  intros N Nx. set (j := match i with None => length a | Some z => Z.to_nat (clamp 0 (Z.of_nat (length a)) (from_end (Z.of_nat (length a)) z)) end).
  assert (J : j <= length a) by (unfold j, clamp; destruct i; lia).
  assert (E : (match i with Some i => list_insert i x a | None => a ++ [x] end) = firstn j a ++ x :: skipn j a).
  { destruct i as [z|]; unfold j.
    - unfold list_insert, clamp, from_end. replace (Z.to_nat (if (z <? 0)%Z then _ else _)) with (Z.to_nat (Z.max 0 (Z.min (Z.of_nat (length a)) (if (z <? 0)%Z then z + Z.of_nat (length a) else z)))); [reflexivity|].
      destruct (Z.ltb_spec z 0); lia.
    - rewrite firstn_all, skipn_all. reflexivity. }
  exists (firstn j a), (skipn j a). split; [symmetry; apply firstn_skipn|]. split.
  - unfold dims_insert. cbn [names dimensions_factory]. rewrite E. apply unique_id. apply (Permutation_NoDup (l := x :: a)); [|constructor; auto].
    rewrite <- (firstn_skipn j a) at 1. apply Permutation_middle.
  - rewrite firstn_length, Nat.min_l by exact J. unfold j. destruct i; [|reflexivity]. apply Z2Nat.id. unfold clamp. lia.
Qed.
Print Assumptions C18_insert.
Example C18_insert_case : dims_insert [s "t"; s "x"] (s "y") (Some (-1)%Z) = Named [s "t"; s "y"; s "x"].
Proof. vm_compute. reflexivity. Qed.
Theorem C18_permute (l : list str) (axes : list Z) (k : list nat) : NoDup l ->
  Forall2 (fun z i => selects_axis (SInt z) (length l) [i]) axes k -> Permutation k (seq 0 (length l)) ->
  exists p, dims_permute l axes = Ok (Named p) /\ Permutation p l /\ forall j i, nth_error k j = Some i -> nth_error p j = nth_error l i.
Proof.
  intros N F P. assert (F' : Forall2 (fun z i => norm_index (length l) z = Some i) axes k).
  { clear P. induction F as [|z i ? ? H F IH]; constructor; [|apply IH]. apply norm_index_iff in H as (i' & E & H & _). injection E as ->. exact H. }
  destruct (permute_ok l axes k N F' P) as (E & Q). eexists. split; [exact E|]. split; [exact Q|]. intros j i Ej.
  rewrite (map_nth_error (fun i => nth i l []) j k Ej). symmetry. apply nth_error_nth'.
  assert (In i k) by (eapply nth_error_In, Ej). apply (Permutation_in _ P) in H. apply in_seq in H. lia.
Qed.
Print Assumptions C18_permute.
Example C18_permute_case : dims_permute [s "x"; s "y"; s "z"] [2; 0; -2]%Z = Ok (Named [s "z"; s "x"; s "y"]).
Proof. vm_compute. reflexivity. Qed.
(** Not only permutations are accepted: a repeated index is dropped silently. *)
Theorem C18_permute_repeats_refuted : exists l axes d, dims_permute l axes = Ok d /\ length axes <> length l /\ ~ NoDup axes.
Proof.
  exists [s "x"; s "y"], [0; 1; 0]%Z, (Named [s "x"; s "y"]). split; [vm_compute; reflexivity|]. split; [simpl; lia|].
  intros N. inversion_clear N as [|? ? H _]. apply H. simpl. auto.
Qed.
Print Assumptions C18_permute_repeats_refuted.
(** [<], [<=], [>], [>=] of dimensions are inclusion of the name sets *)
Theorem C18_inclusion (a b : list str) :
  (dims_le a b = true <-> forall d, In d a -> In d b) /\ (dims_ge a b = true <-> forall d, In d b -> In d a) /\
  (dims_lt a b = true <-> (forall d, In d a -> In d b) /\ exists d, In d b /\ ~ In d a) /\
  (dims_gt a b = true <-> (forall d, In d b -> In d a) /\ exists d, In d a /\ ~ In d b).
Proof.
  assert (NS : forall u v, subset u v = false <-> exists d, In d u /\ ~ In d v).
  { intros u v. split.
    - intros H. destruct (existsb (fun d => negb (smem d v)) u) eqn:E.
      + apply existsb_exists in E as (d & H1 & H2). apply negb_true_iff, smem_false in H2. eauto.
      + assert (subset u v = true); [|congruence]. apply subset_spec. intros d Hd. apply smem_spec. destruct (smem d v) eqn:Q; [reflexivity|].
        assert (existsb (fun d => negb (smem d v)) u = true); [|congruence]. apply existsb_exists. exists d. rewrite Q. auto.
    - intros (d & H1 & H2). destruct (subset u v) eqn:E; [|reflexivity]. exfalso. apply H2. exact (proj1 (subset_spec u v) E d H1). }
  unfold dims_le, dims_ge, dims_lt, dims_gt. rewrite !andb_true_iff, !negb_true_iff, !NS, !subset_spec. tauto.
Qed.
Print Assumptions C18_inclusion.

(** ** C19: products pair values by dimension name *)
Theorem C19_product (A : Type) (f : A -> A -> A) (a b : array A) : well_named a -> well_named b -> ~ both_plain (adims a) (adims b) ->
  (exists l, NoDup l /\ subseq (anames a) l /\ subseq (anames b) l) ->
  (forall d n m, axis_len a d n -> axis_len b d m -> n = m) ->
  exists r, multiplicative f (AArr a) (AArr b) = Ok r /\ well_named r /\ common_order (anames a) (anames b) (anames r) /\
    (forall d n, axis_len r d n <-> axis_len a d n \/ axis_len b d n) /\
    forall c, within r c -> at_ r c = f (at_ a c) (at_ b c).
Proof.
  intros Wa Wb P (l0 & N0 & S1 & S2) Eq. destruct (dims_or_names_complete _ _ l0 (proj1 Wa) (proj1 Wb) N0 S1 S2) as (d & D).
  destruct (dims_or_names_ok _ _ _ (proj1 Wa) (proj1 Wb) D) as (l & -> & C).
  destruct (product_spec f a b l Wa Wb P D C) as (r & E & Dr & Sr & Er); [right; right; exact Eq|].
  assert (An : anames r = l) by (unfold anames; rewrite Dr; reflexivity).
  destruct (longer_spec a b l (data r) (adims r) Wa Wb (proj1 C)) as (LG & Wr); [rewrite Dr; reflexivity|apply C|exact Sr|].
  assert (Rr : mkarray (data r) (adims r) = r) by (destruct r; reflexivity). rewrite Rr in LG, Wr.
  exists r. split; [exact E|]. split; [exact Wr|]. rewrite An. split; [exact C|].
  assert (AX : forall d n, axis_len r d n <-> axis_len a d n \/ axis_len b d n).
  { intros d n. rewrite LG. split; [intros [(H & _)|(H & _)]; auto|]. intros [H|H]; [left|right]; split; auto; intros m Hm.
    - rewrite (Eq d n m H Hm). apply le_n.
    - rewrite <- (Eq d m n Hm H). apply le_n. }
  split; [exact AX|]. intros c Wc. unfold at_ at 1. rewrite An. apply Er.
  - intros d Hd. rewrite <- An in Hd. destruct (axis_exists r d Wr Hd) as (n & Hn & _). specialize (Wc d n Hn).
    apply AX in Hn as [Hn|Hn]; first [rewrite (len_axis a d n Wa Hn)|rewrite (len_axis b d n Wb Hn)]; lia.
  - intros d n H. assert (c d < n) by (apply Wc, AX; auto). split; [lia|reflexivity].
  - intros d n H. assert (c d < n) by (apply Wc, AX; auto). split; [lia|reflexivity].
Qed.
Print Assumptions C19_product.
(** If one array holds a single element, it is paired with every element. *)
Theorem C19_product_singleton (A : Type) (f : A -> A -> A) (a b : array A) : well_named a -> well_named b -> ~ both_plain (adims a) (adims b) ->
  (exists l, NoDup l /\ subseq (anames a) l /\ subseq (anames b) l) -> singleton a \/ singleton b ->
  exists r, multiplicative f (AArr a) (AArr b) = Ok r /\ well_named r /\ common_order (anames a) (anames b) (anames r) /\
    (forall d n, axis_len r d n <-> longer a b d n) /\
    forall c ca cb, within r c -> clip a c ca -> clip b c cb -> at_ r c = f (at_ a ca) (at_ b cb).
Proof.
  intros Wa Wb P (l0 & N0 & S1 & S2) Sg. destruct (dims_or_names_complete _ _ l0 (proj1 Wa) (proj1 Wb) N0 S1 S2) as (d & D).
  destruct (dims_or_names_ok _ _ _ (proj1 Wa) (proj1 Wb) D) as (l & -> & C).
  destruct (product_spec f a b l Wa Wb P D C) as (r & E & Dr & Sr & Er); [destruct Sg; [left|right; left]; assumption|].
  assert (An : anames r = l) by (unfold anames; rewrite Dr; reflexivity).
  destruct (longer_spec a b l (data r) (adims r) Wa Wb (proj1 C)) as (LG & Wr); [rewrite Dr; reflexivity|apply C|exact Sr|].
  assert (Rr : mkarray (data r) (adims r) = r) by (destruct r; reflexivity). rewrite Rr in LG, Wr.
  exists r. split; [exact E|]. split; [exact Wr|]. rewrite An. split; [exact C|]. split; [exact LG|].
  intros c ca cb Wc Ca Cb. unfold at_ at 1. rewrite An. apply Er; [|exact Ca|exact Cb]. intros d Hd. rewrite <- An in Hd.
  destruct (axis_exists r d Wr Hd) as (n & Hn & _). specialize (Wc d n Hn). apply LG in Hn as [(Hn & _)|(Hn & _)]; first [rewrite (len_axis a d n Wa Hn)|rewrite (len_axis b d n Wb Hn)]; lia.
Qed.
Print Assumptions C19_product_singleton.
(** Exactly when a product exists, and what is raised otherwise *)
Theorem C19_product_exactly_when (A : Type) (f : A -> A -> A) (a b : array A) : well_named a -> well_named b -> ~ both_plain (adims a) (adims b) ->
  ((exists r, multiplicative f (AArr a) (AArr b) = Ok r) <->
   (exists l, NoDup l /\ subseq (anames a) l /\ subseq (anames b) l) /\
   (singleton a \/ singleton b \/ forall d n m, axis_len a d n -> axis_len b d m -> n = m)) /\
  (forall e, multiplicative f (AArr a) (AArr b) = Raise e -> e = ValueError \/ e = IndexError).
Proof.
  intros Wa Wb P.
  destruct (dims_or_names_total (anames a) (anames b) (proj1 Wa) (proj1 Wb)) as [(d & D)|D].
  - destruct (dims_or_names_ok _ _ _ (proj1 Wa) (proj1 Wb) D) as (l & -> & C).
    assert (CO : exists l, NoDup l /\ subseq (anames a) l /\ subseq (anames b) l) by (exists l; split; [apply C|split; apply C]).
    assert (Dec : compatible a b \/ exists d, ~ singleton a /\ ~ singleton b /\ In d (anames a) /\ In d (anames b) /\ len_of a d <> len_of b d).
    { unfold compatible. destruct (dec_singleton a) as [|Na]; [auto|]. destruct (dec_singleton b) as [|Nb]; [auto|].
      destruct (existsb (fun d => smem d (anames b) && negb (Nat.eqb (len_of a d) (len_of b d))) (anames a)) eqn:X.
      - right. apply existsb_exists in X as (d & Hd & X). rewrite andb_true_iff, negb_true_iff, smem_spec, Nat.eqb_neq in X. exists d. tauto.
      - left. right. right. intros d n m H1 H2. destruct (Nat.eq_dec n m) as [|Q]; [assumption|]. exfalso.
        assert (existsb (fun d => smem d (anames b) && negb (Nat.eqb (len_of a d) (len_of b d))) (anames a) = true); [|congruence].
        apply existsb_exists. exists d. split; [eapply axis_in, H1|]. rewrite andb_true_iff, negb_true_iff, smem_spec, Nat.eqb_neq.
        rewrite (len_axis a d n Wa H1), (len_axis b d m Wb H2). split; [eapply axis_in, H2|exact Q]. }
    destruct Dec as [Co|(d & Na & Nb & Ha & Hb & Hd)].
    + destruct (product_spec f a b l Wa Wb P D C Co) as (r & E & _). split; [|rewrite E; discriminate]. split; [intros _; split; [exact CO|exact Co]|eauto].
    + pose proof (product_fails f a b l d Wa Wb P D C Na Nb Ha Hb Hd) as F. split.
      * split; [intros (r & E); destruct F; congruence|]. intros (_ & [S|[S|S]]); [contradiction|contradiction|].
        exfalso. apply Hd. apply (S d); apply len_axis_iff; auto.
      * intros e E. destruct F as [F|F]; rewrite F in E; injection E as <-; auto.
  - assert (R : multiplicative f (AArr a) (AArr b) = Raise ValueError).
    { unfold multiplicative, get_operands, remesh. rewrite dims_or_dispatch by exact P. fold (anames a) (anames b). rewrite D. reflexivity. }
    rewrite R. split; [|intros e [= <-]; auto]. split; [intros (r & E); discriminate|]. intros ((l & N & S1 & S2) & _).
    destruct (dims_or_names_complete _ _ l (proj1 Wa) (proj1 Wb) N S1 S2) as (d & Q). congruence.
Qed.
Print Assumptions C19_product_exactly_when.
(** [a*b] and [b*a] agree by name *)
Theorem C19_commutes (A : Type) (f : A -> A -> A) (a b r : array A) : (forall u v, f u v = f v u) ->
  well_named a -> well_named b -> ~ both_plain (adims a) (adims b) ->
  multiplicative f (AArr a) (AArr b) = Ok r -> exists r', multiplicative f (AArr b) (AArr a) = Ok r' /\ same_by_name r r'.
Proof.
  intros Cf Wa Wb P E. destruct (proj1 (proj1 (C19_product_exactly_when A f a b Wa Wb P)) (ex_intro _ r E)) as ((l0 & N0 & S1 & S2) & Co).
  assert (P' : ~ both_plain (adims b) (adims a)) by (destruct (adims a), (adims b); simpl in *; tauto).
  assert (Co' : compatible a b) by exact Co. clear Co.
  destruct (dims_or_names_complete _ _ l0 (proj1 Wa) (proj1 Wb) N0 S1 S2) as (d & D).
  destruct (dims_or_names_ok _ _ _ (proj1 Wa) (proj1 Wb) D) as (l & -> & C).
  destruct (dims_or_names_complete _ _ l0 (proj1 Wb) (proj1 Wa) N0 S2 S1) as (d' & D').
  destruct (dims_or_names_ok _ _ _ (proj1 Wb) (proj1 Wa) D') as (l' & -> & C').
  destruct (product_spec f a b l Wa Wb P D C Co') as (r1 & E1 & Dr & Sr & Er). rewrite E in E1. injection E1 as <-.
  destruct (product_spec f b a l' Wb Wa P' D' C' (compatible_sym _ _ Co')) as (r' & E' & Dr' & Sr' & Er').
  exists r'. split; [exact E'|].
  destruct (longer_spec a b l (data r) (adims r) Wa Wb (proj1 C)) as (LG & Wr); [rewrite Dr; reflexivity|apply C|exact Sr|].
  destruct (longer_spec b a l' (data r') (adims r') Wb Wa (proj1 C')) as (LG' & Wr'); [rewrite Dr'; reflexivity|apply C'|exact Sr'|].
  assert (Rr : mkarray (data r) (adims r) = r) by (destruct r; reflexivity). rewrite Rr in LG, Wr.
  assert (Rr' : mkarray (data r') (adims r') = r') by (destruct r'; reflexivity). rewrite Rr' in LG', Wr'.
  split; [intros e n; rewrite LG, LG'; unfold longer; tauto|]. intros c Wc.
  assert (B : forall e, In e l -> c e < Nat.max (len_of a e) (len_of b e)).
  { intros e He. assert (Hr : In e (anames r)) by (unfold anames; rewrite Dr; exact He). destruct (axis_exists r e Wr Hr) as (n & Hn & _). specialize (Wc e n Hn).
    apply LG in Hn as [(Hn & _)|(Hn & _)]; first [rewrite (len_axis a e n Wa Hn)|rewrite (len_axis b e n Wb Hn)]; lia. }
  destruct (clip_exists a c Wa) as (ca & Ca). destruct (clip_exists b c Wb) as (cb & Cb).
  unfold at_. unfold anames. rewrite Dr, Dr'. cbn [names]. rewrite (Er c ca cb B Ca Cb). rewrite (Er' c cb ca); [apply Cf| |exact Cb|exact Ca].
  intros e He. rewrite Nat.max_comm. apply B. apply C. apply C' in He. tauto.
Qed.
Print Assumptions C19_commutes.
(** a number is paired with every element and keeps the names *)
Theorem C19_number (A : Type) (f : A -> A -> A) (a : array A) (v : A) : well_named a ->
  (exists r, multiplicative f (AArr a) (ANum v) = Ok r /\ anames r = anames a /\ (forall d n, axis_len r d n <-> axis_len a d n) /\
     forall c, within a c -> at_ r c = f (at_ a c) v) /\
  (exists r, multiplicative f (ANum v) (AArr a) = Ok r /\ anames r = anames a /\ (forall d n, axis_len r d n <-> axis_len a d n) /\
     forall c, within a c -> at_ r c = f v (at_ a c)).
Proof.
  intros W. unfold multiplicative, get_operands. cbn [get_operand bind fst snd]. split.
  - destruct (scalar_right A f a v) as (r & -> & S & E). cbn [bind]. destruct (same_shape_named a r W S) as (-> & _ & AX).
    eexists. split; [reflexivity|]. split; [reflexivity|]. split; [exact AX|]. exact (E W).
  - destruct (scalar_left A f a v) as (r & -> & S & E). cbn [bind]. destruct (same_shape_named a r W S) as (-> & _ & AX).
    eexists. split; [reflexivity|]. split; [reflexivity|]. split; [exact AX|]. exact (E W).
Qed.
Print Assumptions C19_number.
(** unary operations act element by element and keep the names *)
Theorem C19_unary (A : Type) (f : A -> A) (a : array A) : well_named a ->
  exists r, unary f (AArr a) = Ok r /\ anames r = anames a /\ (forall d n, axis_len r d n <-> axis_len a d n) /\ forall c, at_ r c = f (at_ a c).
Proof.
  intros W. unfold unary. destruct (same_shape_named a (nd_map f (data a)) W eq_refl) as (-> & _ & AX).
  eexists. split; [reflexivity|]. split; [reflexivity|]. split; [exact AX|]. reflexivity.
Qed.
Print Assumptions C19_unary.
Definition counting (sh : list nat) (d : dims) : array Z := mkarray (mknd sh (fun ix => Z.of_nat (ravel sh ix))) d.
Example C19_case : let a := counting [2; 3] (Named [s "t"; s "x"]) in let b := counting [3; 2] (Named [s "x"; s "y"]) in
  well_named a /\ well_named b /\
  exists r, multiplicative Z.mul (AArr a) (AArr b) = Ok r /\ anames r = [s "t"; s "x"; s "y"] /\ shape (data r) = [2; 3; 2] /\
    elem (data r) [1; 2; 1] = 25%Z.
Proof.
  cbv zeta. split; [|split].
  - split; [|split]; [repeat constructor; simpl; intuition discriminate|reflexivity|repeat constructor].
  - split; [|split]; [repeat constructor; simpl; intuition discriminate|reflexivity|repeat constructor].
  - eexists. split; [vm_compute; reflexivity|]. repeat split.
Qed.
(** Lengths 1 and n of one name broadcast in numpy, but not here (unless the
    whole array has one element): IndexError. *)
Theorem C19_length_one_refuted : exists a b : array Z, well_named a /\ well_named b /\
  broadcastable a b /\ anames a = anames b /\ multiplicative Z.mul (AArr a) (AArr b) = Raise IndexError.
Proof.
  exists (counting [1; 3] (Named [s "x"; s "y"])), (counting [5; 3] (Named [s "x"; s "y"])).
  split; [|split; [|split; [|split]]].
  - split; [|split]; [repeat constructor; simpl; intuition discriminate|reflexivity|repeat constructor].
  - split; [|split]; [repeat constructor; simpl; intuition discriminate|reflexivity|repeat constructor; lia].
  - intros d n m (k & E1 & E2) (j & E3 & E4). unfold anames in *. cbn in *.
    destruct k as [|[|[|k]]]; cbn in *; try discriminate; destruct j as [|[|[|j]]]; cbn in *; try discriminate; try congruence;
      injection E2 as <-; injection E4 as <-; auto.
  - reflexivity.
  - vm_compute. reflexivity.
Qed.
Print Assumptions C19_length_one_refuted.
(** Two arrays with default names cannot be multiplied at all. *)
Theorem C19_default_names_refuted (A : Type) (f : A -> A -> A) (x y : nd A) :
  multiplicative f (AArr (array_default x)) (AArr (array_default y)) = Raise OperandTypeError.
Proof. reflexivity. Qed.
Print Assumptions C19_default_names_refuted.

(** ** C20: sums and comparisons need equal names *)
Theorem C20_sum (A : Type) (f : A -> A -> A) (a b : array A) : well_named a -> well_named b ->
  (anames a <> anames b -> additive f (AArr a) (AArr b) = Raise ValueError) /\
  (forall r, additive f (AArr a) (AArr b) = Ok r -> exists z, r = RArr z /\ anames a = anames b /\ anames z = anames a /\ well_named z /\
     (forall d n, axis_len z d n <-> longer a b d n) /\
     forall c ca cb, clip a c ca -> clip b c cb -> at_ z c = f (at_ a ca) (at_ b cb)) /\
  (forall e, additive f (AArr a) (AArr b) = Raise e -> e = ValueError).
Proof.
  intros Wa Wb. cbn [additive].
  assert (G : anames a = anames b -> broadcastable a b -> exists z, (r <- nd_map2 f (data a) (data b);; z <- array_factory r (anames a);; Ok (RArr z)) = Ok (RArr z) /\
     anames z = anames a /\ well_named z /\ (forall d n, axis_len z d n <-> longer a b d n) /\ forall c ca cb, clip a c ca -> clip b c cb -> at_ z c = f (at_ a ca) (at_ b cb)).
  { intros E Br. destruct (map2_same A f a b Wa Wb E Br) as (r & -> & S & H). cbn [bind].
    rewrite names_nodup_factory; [|apply Wa|unfold ndim; rewrite S, map_length; reflexivity]. cbn [bind]. eexists. split; [reflexivity|]. split; [reflexivity|].
    destruct (longer_spec a b (anames a) r (Named (anames a)) Wa Wb (proj1 Wa) eq_refl) as (LG & W); [rewrite E; tauto|exact S|].
    split; [exact W|]. split; [exact LG|]. exact H. }
  split; [|split].
  - intros N. destruct (dims_eq (adims a) (adims b)) eqn:E; [|reflexivity]. apply dims_eq_names in E. contradiction.
  - intros r. destruct (dims_eq (adims a) (adims b)) eqn:E; cbn [negb]; [|discriminate]. apply dims_eq_names in E.
    assert (Br : broadcastable a b \/ ~ broadcastable a b).
    { rewrite (broadcastable_shapes a b Wa Wb E). assert (D : forall u v : list nat, Forall2 (fun x y => x = y \/ x = 1 \/ y = 1) u v \/ ~ Forall2 (fun x y => x = y \/ x = 1 \/ y = 1) u v).
      { intros u. induction u as [|x u IH]; intros [|y v]; [left; constructor|right; intros H; inversion H|right; intros H; inversion H|].
        destruct (IH v) as [H|H]; [|right; intros Q; inversion_clear Q; contradiction].
        destruct (Nat.eq_dec x y); [left; constructor; auto|]. destruct (Nat.eq_dec x 1); [left; constructor; auto|]. destruct (Nat.eq_dec y 1); [left; constructor; auto|].
        right. intros Q. inversion_clear Q. lia. }
      apply D. }
    destruct Br as [Br|Br]; [|rewrite (map2_fails A f a b Wa Wb E Br); discriminate].
    destruct (G E Br) as (z & -> & H). intros [= <-]. exists z. split; [reflexivity|]. split; [exact E|]. exact H.
  - intros e. destruct (dims_eq (adims a) (adims b)) eqn:E; cbn [negb]; [|congruence]. unfold nd_map2. destruct bcast_shape as [sh|]; cbn [bind]; [|congruence].
    unfold array_factory. destruct negb; cbn [bind]; congruence.
Qed.
Print Assumptions C20_sum.
(** equal names and equal lengths: the sum exists and is element-wise *)
Theorem C20_sum_defined (A : Type) (f : A -> A -> A) (a b : array A) l : well_named a -> well_named b -> adims a = Named l -> anames b = l ->
  (forall d n, axis_len a d n <-> axis_len b d n) ->
  exists z, additive f (AArr a) (AArr b) = Ok (RArr z) /\ anames z = l /\ (forall d n, axis_len z d n <-> axis_len a d n) /\
    forall c, within z c -> at_ z c = f (at_ a c) (at_ b c).
Proof.
  intros Wa Wb Da Db AX. assert (E : anames a = anames b) by (unfold anames at 1; rewrite Da; symmetry; exact Db).
  assert (Q : dims_eq (adims a) (adims b) = true) by (apply dims_eq_iff; [left; eauto|exact E]).
  assert (Br : broadcastable a b) by (intros d n m H1 H2; left; apply AX in H1; eapply axis_functional; eauto).
  destruct (map2_same A f a b Wa Wb E Br) as (r & M & S & H).
  assert (R : additive f (AArr a) (AArr b) = Ok (RArr (mkarray r (Named (anames a))))).
  { cbn [additive]. rewrite Q, M. cbn [negb bind]. rewrite names_nodup_factory; [reflexivity|apply Wa|unfold ndim; rewrite S, map_length; reflexivity]. }
  destruct (proj1 (proj2 (C20_sum A f a b Wa Wb)) _ R) as (z & Z & _ & H1 & H2 & H3 & H4). injection Z as <-.
  eexists. split; [exact R|]. split; [rewrite H1; unfold anames; rewrite Da; reflexivity|].
  assert (AZ : forall d n, axis_len (mkarray r (Named (anames a))) d n <-> axis_len a d n).
  { intros d n. rewrite H3. unfold longer. rewrite <- AX. split; [intros [(K & _)|(K & _)]; exact K|]. intros K. left. split; [exact K|].
    intros m Hm. apply AX in Hm. rewrite (axis_functional a d n m Wa K Hm). apply le_n. }
  split; [exact AZ|]. intros c Wc. apply H4.
  - apply within_self_clip. intros d n K. apply Wc, AZ, K.
  - apply within_self_clip. intros d n K. apply Wc, AZ, AX, K.
Qed.
Print Assumptions C20_sum_defined.
Theorem C20_comparison (A : Type) (f : A -> A -> bool) (a b : array A) : well_named a -> well_named b ->
  (anames a <> anames b -> comparative f (AArr a) (AArr b) = Raise ValueError) /\
  (forall r, comparative f (AArr a) (AArr b) = Ok r -> anames a = anames b /\
     shape r = map (fun d => Nat.max (len_of a d) (len_of b d)) (anames a) /\
     forall c ca cb, clip a c ca -> clip b c cb -> elem r (map c (anames a)) = f (at_ a ca) (at_ b cb)).
Proof.
  intros Wa Wb. cbn [comparative]. split.
  - intros N. destruct (dims_eq (adims a) (adims b)) eqn:E; [|reflexivity]. apply dims_eq_names in E. contradiction.
  - intros r. destruct (dims_eq (adims a) (adims b)) eqn:E; cbn [negb]; [|discriminate]. apply dims_eq_names in E. intros R. split; [exact E|].
    assert (Br : broadcastable a b).
    { apply (broadcastable_shapes a b Wa Wb E). unfold nd_map2 in R. destruct (bcast_shape (shape (data a)) (shape (data b))) as [q|] eqn:Q; [|discriminate].
      eapply bcast_some; [|exact Q]. destruct Wa as (_ & La & _), Wb as (_ & Lb & _). unfold anames in *. congruence. }
    destruct (map2_same bool f a b Wa Wb E Br) as (r' & M & H). rewrite M in R. injection R as <-. exact H.
Qed.
Print Assumptions C20_comparison.
(** [==] holds exactly for the same elements under the same names *)
Theorem C20_equality (A : Type) (eqb : A -> A -> bool) (a b : array A) : decides eqb -> (exists l, adims a = Named l) ->
  (array_eq eqb (AArr a) (AArr b) = true <-> anames a = anames b /\ nd_eq (data a) (data b)) /\
  (array_ne eqb (AArr a) (AArr b) = true <-> ~ (anames a = anames b /\ nd_eq (data a) (data b))).
Proof.
  intros D (l & Da). assert (H : array_eq eqb (AArr a) (AArr b) = true <-> anames a = anames b /\ nd_eq (data a) (data b)).
  { unfold array_eq. rewrite andb_true_iff, dims_eq_iff by (left; eauto). unfold nd_array_equal, nd_eq. rewrite andb_true_iff, forallb_forall.
    assert (NE : forall u v, nats_eqb u v = true <-> u = v).
    { induction u as [|x u IH]; intros [|y v]; cbn [nats_eqb]; split; try congruence; try discriminate.
      - rewrite andb_true_iff, Nat.eqb_eq, IH. intros (-> & ->). reflexivity.
      - intros [= -> ->]. rewrite andb_true_iff, Nat.eqb_eq, IH. auto. }
    assert (IV : forall sh ix, In ix (indices sh) <-> valid ix sh).
    { clear. induction sh as [|n sh IH]; intros ix; cbn [indices].
      - split; [intros [<-|[]]; constructor|]. intros V. inversion V. left. reflexivity.
      - rewrite in_flat_map. split.
        + intros (i & Hi & H). apply in_map_iff in H as (ix' & <- & H). apply in_seq in Hi. constructor; [lia|apply IH, H].
        + intros V. inversion V as [|i m ix' sh' Hi Hv]; subst. exists i. split; [apply in_seq; lia|]. apply in_map_iff. exists ix'. split; [reflexivity|apply IH, Hv]. }
    rewrite NE. split.
    - intros ((S & E) & N). split; [exact N|]. split; [exact S|]. intros ix V. apply D, E, IV, V.
    - intros (N & S & E). split; [|exact N]. split; [exact S|]. intros ix V. apply D, E, IV, V. }
  split; [exact H|]. unfold array_ne. rewrite negb_true_iff, <- H. destruct (array_eq eqb (AArr a) (AArr b)); split; congruence.
Qed.
Print Assumptions C20_equality.
Example C20_case : let a := counting [2; 3] (Named [s "t"; s "x"]) in let b := counting [2; 3] (Named [s "x"; s "t"]) in
  additive Z.add (AArr a) (AArr b) = Raise ValueError /\ comparative Z.ltb (AArr a) (AArr b) = Raise ValueError /\
  array_eq Z.eqb (AArr a) (AArr a) = true /\ array_eq Z.eqb (AArr a) (AArr b) = false /\
  exists z, additive Z.add (AArr a) (AArr a) = Ok (RArr z) /\ anames z = [s "t"; s "x"] /\ elem (data z) [1; 2] = 10%Z.
Proof. cbv zeta. split; [|split; [|split; [|split]]]; try (vm_compute; reflexivity). eexists. split; [vm_compute; reflexivity|]. repeat split. Qed.
(** Adding a number loses the names: the result is a bare numpy array. *)
Theorem C20_number_loses_names_refuted (A : Type) (f : A -> A -> A) (a : array A) (v : A) :
  exists r, additive f (AArr a) (ANum v) = Ok (RNd r) /\ shape r = shape (data a).
Proof. cbn [additive]. destruct (scalar_right A f a v) as (r & -> & S & _). exists r. split; [reflexivity|exact S]. Qed.
Print Assumptions C20_number_loses_names_refuted.

(** ** C49: transposition *)
Theorem C49_by_name (A : Type) (x : array A) l d : well_named x -> adims x = Named l ->
  (Permutation (names d) l -> exists r, array_transpose x (TNames d) = Ok r /\ anames r = names d /\ same_by_name x r /\ well_named r) /\
  (~ Permutation (names d) l -> array_transpose x (TNames d) = Raise ValueError).
Proof.
  intros W D. split; [|apply transpose_names_only; auto]. intros P. destruct (transpose_names x l d W D P) as (r & E & H). eexists. split; [exact E|]. split; [reflexivity|exact H].
Qed.
Print Assumptions C49_by_name.
Theorem C49_by_axes (A : Type) (x : array A) l axes : well_named x -> adims x = Named l ->
  (forall k, Forall2 (fun z i => selects_axis (SInt z) (length l) [i]) axes k -> Permutation k (seq 0 (length l)) ->
     exists r, array_transpose x (TAxes axes) = Ok r /\ anames r = map (fun i => nth i l []) k /\ same_by_name x r /\ well_named r /\ exists l', adims r = Named l') /\
  (forall r, array_transpose x (TAxes axes) = Ok r -> exists k, Forall2 (fun z i => norm_index (length l) z = Some i) axes k /\ Permutation k (seq 0 (length l))).
Proof.
  intros W D. assert (An : anames x = l) by (unfold anames; rewrite D; reflexivity). pose proof W as (_ & L & _). rewrite An in L. split.
  - intros k F P. assert (F' : Forall2 (fun z i => norm_index (length l) z = Some i) axes k).
    { clear P. induction F as [|z i ? ? H F IH]; constructor; [|apply IH]. apply norm_index_iff in H as (i' & E & H & _). injection E as ->. exact H. }
    destruct (transpose_axes x l axes k W D F' P) as (r & E & H1 & H2 & H3). exists r. repeat split; auto; try apply H2; try apply H3.
    cbn [array_transpose] in E. destruct norm_axes; [|discriminate]. cbn [bind] in E. destruct nd_transpose; [|discriminate]. cbn [bind] in E. rewrite D in E.
    destruct (dims_permute l axes) as [d|] eqn:Q; [|discriminate]. injection E as <-. unfold dims_permute in Q. destruct mapM; [|discriminate]. cbn [bind] in Q.
    destruct mismatch; [|discriminate]. injection Q as <-. eexists. reflexivity.
  - intros r E. destruct (transpose_axes_only x axes r E) as (k & F & P). unfold ndim in F, P. rewrite <- L in F, P. eauto.
Qed.
Print Assumptions C49_by_axes.
Lemma nth_perm_compose {X} (l : list X) (o : X) k j : Permutation k (seq 0 (length l)) -> Permutation j (seq 0 (length l)) ->
  (forall m i, nth_error j m = Some i -> nth_error k i = Some m) ->
  map (fun m => nth m (map (fun i => nth i l o) k) o) j = l.
Proof.
  intros Pk Pj H. apply nth_ext with (d := o) (d' := o).
  - rewrite map_length, (Permutation_length Pj), seq_length. reflexivity.
  - intros n Hn. rewrite map_length in Hn. destruct (nth_error j n) as [i|] eqn:E; [|apply nth_error_None in E; lia].
    rewrite (nth_error_nth _ _ o (map_nth_error (fun m => nth m (map (fun i => nth i l o) k) o) n j E)).
    rewrite (nth_error_nth _ _ o (map_nth_error (fun i => nth i l o) i k (H n i E))). reflexivity.
Qed.
(** transposing back restores the array: same names in order, same data *)
Theorem C49_inverse (A : Type) (x r : array A) l k j : well_named x -> adims x = Named l ->
  Permutation k (seq 0 (length l)) -> Permutation j (seq 0 (length l)) -> (forall m i, nth_error j m = Some i -> nth_error k i = Some m) ->
  array_transpose x (TAxes (map Z.of_nat k)) = Ok r ->
  exists y, array_transpose r (TAxes (map Z.of_nat j)) = Ok y /\ adims y = Named l /\ nd_eq (data y) (data x).
Proof.
  intros W D Pk Pj H E.
  assert (SA : forall p n, Permutation p (seq 0 n) -> Forall2 (fun z i => selects_axis (SInt z) n [i]) (map Z.of_nat p) p).
  { intros p n P. assert (B : forall i, In i p -> i < n) by (intros i Hi; apply (Permutation_in _ P) in Hi; apply in_seq in Hi; lia). clear P.
    induction p as [|i p IH]; constructor; [|apply IH; intros y Hy; apply B; right; exact Hy].
    replace i with (Z.to_nat (Z.of_nat i)) at 2 by apply Nat2Z.id. constructor. specialize (B i (or_introl eq_refl)). lia. }
  destruct (proj1 (C49_by_axes A x l _ W D) k (SA k _ Pk) Pk) as (r0 & E0 & N1 & S1 & W1 & (l' & D1)). rewrite E in E0. injection E0 as <-.
  assert (L' : l' = map (fun i => nth i l []) k) by (rewrite <- N1; unfold anames; rewrite D1; reflexivity).
  assert (Ll : length l' = length l) by (rewrite L', map_length, (Permutation_length Pk), seq_length; reflexivity).
  rewrite <- Ll in Pj. destruct (proj1 (C49_by_axes A r l' _ W1 D1) j (SA j _ Pj) Pj) as (y & E2 & N2 & S2 & W2 & (l2 & D2)).
  exists y. split; [exact E2|].
  assert (Ln : anames y = l).
  { rewrite N2, L'. rewrite Ll in Pj. apply nth_perm_compose; auto. }
  split; [rewrite D2; f_equal; rewrite <- Ln; unfold anames; rewrite D2; reflexivity|].
  assert (An : anames x = l) by (unfold anames; rewrite D; reflexivity).
  assert (AX : forall d n, axis_len y d n <-> axis_len x d n) by (intros d n; rewrite <- (proj1 S2), <- (proj1 S1); reflexivity).
  assert (Sh : shape (data y) = shape (data x)).
  { rewrite (shape_lens y W2), (shape_lens x W), Ln, An. apply map_ext_in. intros d Hd. rewrite <- An in Hd.
    apply (len_axis y d _ W2). apply AX. apply len_axis_iff; auto. }
  split; [exact Sh|]. intros ix V. pose (c := fun d => nth (pos d l) ix 0).
  assert (Ix : map c l = ix).
  { symmetry. apply (names_eq_map l c 0); [rewrite <- An; apply W| |reflexivity].
    rewrite (Forall2_len _ _ _ V), (shape_lens y W2), map_length, Ln. reflexivity. }
  assert (Wy : within y c).
  { intros d n K. pose proof (axis_in y d n K) as Hd. rewrite Ln in Hd. destruct K as (i & K1 & K2). rewrite Ln in K1. unfold c.
    rewrite (pos_of_nth l i d); [|rewrite <- An; apply W|exact K1].
    clear -V K2. revert i K2. unfold valid in V. induction V as [|u v ix' sh' Huv V IH]; intros [|i] K2; simpl in *; try discriminate; [congruence|]. apply IH, K2. }
  assert (Wr : within r c) by (intros d n K; apply Wy; apply (proj1 S2), K).
  assert (Wx : within x c) by (intros d n K; apply Wr; apply (proj1 S1), K).
  rewrite <- Ix. pose proof (proj2 S1 c Wx) as Q1. pose proof (proj2 S2 c Wr) as Q2. rewrite Q2 in Q1. unfold at_ in Q1. rewrite An, Ln in Q1. symmetry. exact Q1.
Qed.
Print Assumptions C49_inverse.
Theorem C49_numpy_reversal (A : Type) (x : array A) : well_named x ->
  exists r, numpy_transpose x None = Ok r /\ anames r = rev (anames x) /\ same_by_name x r /\ well_named r.
Proof. apply reverse_by_name. Qed.
Print Assumptions C49_numpy_reversal.
Example C49_case : let x := counting [2; 3; 4] (Named [s "t"; s "x"; s "y"]) in
  exists r, array_transpose x (TAxes [1; 2; 0]%Z) = Ok r /\ anames r = [s "x"; s "y"; s "t"] /\ shape (data r) = [3; 4; 2] /\ elem (data r) [2; 3; 1] = elem (data x) [1; 2; 3].
Proof. cbv zeta. eexists. split; [vm_compute; reflexivity|]. repeat split. Qed.
(** [numpy.transpose(x, axes=...)] permutes the names but reverses the data. *)
Theorem C49_numpy_axes_refuted : exists (x r : array Z) axes, well_named x /\ Permutation axes [0; 1]%Z /\ numpy_transpose x (Some axes) = Ok r /\ ~ same_by_name x r.
Proof.
  exists (counting [2; 3] (Named [s "x"; s "y"])). eexists. exists [0; 1]%Z. split.
  { split; [|split]; [repeat constructor; simpl; intuition discriminate|reflexivity|repeat constructor]. }
  split; [reflexivity|]. split; [vm_compute; reflexivity|]. intros (H & _). destruct (proj1 (H (s "x") 2)) as (k & E1 & E2); [exists 0; split; reflexivity|].
  unfold anames in E1. cbn in E1, E2. destruct k as [|[|[|k]]]; try discriminate.
Qed.
Print Assumptions C49_numpy_axes_refuted.
(** After a transposition by names the stored dimensions are the bare argument:
    the array cannot be transposed again. *)
Theorem C49_twice_by_name_refuted (A : Type) (x r : array A) d e : array_transpose x (TNames (PTuple d)) = Ok r ->
  array_transpose r (TNames e) = Raise AttributeError.
Proof.
  cbn [array_transpose]. destruct (adims x); try discriminate. destruct mismatch; [|discriminate]. cbn [bind]. destruct mapM; [|discriminate]. cbn [bind].
  destruct nd_transpose; [|discriminate]. intros [= <-]. reflexivity.
Qed.
Print Assumptions C49_twice_by_name_refuted.

(** ** C55: reductions by name *)
Theorem C55_squeeze (A : Type) (x : array A) : well_named x ->
  (singleton x -> exists v, array_squeeze x = Ok (SqNum v) /\ v = at_ x (fun _ => 0)) /\
  (~ singleton x -> exists r, array_squeeze x = Ok (SqArr r) /\ well_named r /\ subseq (anames r) (anames x) /\
     (forall d n, axis_len r d n <-> axis_len x d n /\ n <> 1) /\
     forall c c', clip x c c' -> at_ r c = at_ x c').
Proof. apply squeeze_ok. Qed.
Print Assumptions C55_squeeze.
Theorem C55_sum_mean (A : Type) (g : list A -> A) (x : array A) (axis : Z) (k : nat) : well_named x -> selects_axis (SInt axis) (ndim (data x)) [k] ->
  (exists r, array_sum g x axis None = Ok r /\ reduced g x k r) /\ (exists r, array_mean g x axis None = Ok r /\ reduced g x k r) /\
  (exists r, array_trapz g x (Some axis) = Ok r /\ reduced g x k r) /\ array_trapz g x None = array_trapz g x (Some (-1)%Z).
Proof.
  intros W S. apply norm_index_iff in S as (k' & E & K & Kl). injection E as <-. destruct (norm_index_mod _ _ _ K) as (M1 & M2).
  destruct (reduce_ok g x k W Kl) as (r & R & H). pose proof R as R0. destruct H as (d & Ed & H). assert (Nx : NoDup (anames x)) by apply W.
  rewrite <- (without_axis_spec _ _ _ Nx Ed) in R. unfold array_sum, array_mean, array_trapz. rewrite K, M1, M2.
  split; [exists r; split; [exact R|exists d; auto]|]. split; [exists r; split; [exact R|exists d; auto]|]. split; [exists r; split; [exact R|exists d; auto]|].
  set (n := ndim (data x)) in *. assert (Ln : length (anames x) = n) by apply W.
  assert (Km : norm_index n (-1) = Some (n - 1)).
  { unfold norm_index. cbn [Z.ltb Z.compare]. destruct (Z.ltb_spec (-1 + Z.of_nat n) 0); [lia|]. destruct (Z.leb_spec (Z.of_nat n) (-1 + Z.of_nat n)); [lia|]. f_equal. lia. }
  rewrite Km. destruct (norm_index_mod _ _ _ Km) as (M3 & _). rewrite M3.
  destruct (nth_error (anames x) (n - 1)) as [e|] eqn:Ee; [|apply nth_error_None in Ee; lia].
  rewrite (without_axis_spec _ _ e Nx Ee), (removelast_firstn (anames x) (n - 1)) by lia. reflexivity.
Qed.
Print Assumptions C55_sum_mean.
Theorem C55_cumsum (A : Type) (g : list A -> A) (x : array A) axis k : well_named x -> selects_axis (SInt axis) (ndim (data x)) [k] ->
  exists r d, array_cumsum g x axis = Ok r /\ nth_error (anames x) k = Some d /\ anames r = anames x /\ (forall e m, axis_len r e m <-> axis_len x e m) /\
    forall c, exists v, at_ r c = g v /\ length v = S (c d) /\ forall i y, nth_error v i = Some y -> y = at_ x (along c d i).
Proof.
  intros W S. apply norm_index_iff in S as (k' & E & K & _). injection E as <-. destruct (cumsum_ok g x axis k W K) as (r & d & H1 & H2 & H3 & H4 & H5 & H6).
  exists r, d. auto.
Qed.
Print Assumptions C55_cumsum.
Example C55_case : let x := counting [2; 3] (Named [s "t"; s "x"]) in
  exists r, array_sum (fold_right Z.add 0%Z) x (-1) None = Ok r /\ anames r = [s "t"] /\ elem (data r) [1] = 12%Z.
Proof. cbv zeta. eexists. split; [vm_compute; reflexivity|]. repeat split. Qed.
(** [keepdims]: [mean] always fails with it, [sum] with the value False *)
Theorem C55_keepdims_refuted (A : Type) (g : list A -> A) (x : array A) axis k : well_named x -> norm_index (ndim (data x)) axis = Some k ->
  array_mean g x axis (Some true) = Raise ValueError /\ array_sum g x axis (Some false) = Raise ValueError /\
  exists r, array_sum g x axis (Some true) = Ok r /\ anames r = anames x.
Proof.
  intros W K. pose proof (norm_index_lt _ _ _ K) as Kl. destruct (norm_index_mod _ _ _ K) as (M1 & _). pose proof W as (N & L & P). unfold ndim in Kl.
  unfold array_mean, array_sum. rewrite K. cbn [is_true]. rewrite M1.
  destruct (nth_error (anames x) k) as [d|] eqn:Ed; [|apply nth_error_None in Ed; lia]. rewrite (without_axis_spec _ _ d N Ed).
  unfold array_factory, dimensions_factory. cbn [names].
  assert (N' : NoDup (firstn k (anames x) ++ skipn (S k) (anames x))) by (rewrite (remove_nth_spec _ _ _ Ed) in N; apply NoDup_remove_1 in N; exact N).
  rewrite (unique_id _ N'), (unique_id _ N). unfold ndim. cbn [nd_reduce nd_reduce_keep shape]. rewrite !app_length. cbn [length].
  rewrite !firstn_length, !skipn_length, L. split; [|split].
  - destruct (Nat.eqb_spec (Nat.min k (length (shape (data x))) + (length (shape (data x)) - S k)) (Nat.min k (length (shape (data x))) + S (length (shape (data x)) - S k))); [lia|reflexivity].
  - destruct (Nat.eqb_spec (length (shape (data x))) (Nat.min k (length (shape (data x))) + (length (shape (data x)) - S k))); [lia|reflexivity].
  - replace (Nat.min k (length (shape (data x))) + S (length (shape (data x)) - S k)) with (length (shape (data x))) by lia. rewrite Nat.eqb_refl. cbn [negb].
    eexists. split; reflexivity.
Qed.
Print Assumptions C55_keepdims_refuted.

(** ** C48: derived comparisons *)
(** [eq] is equality and exactly one of [a < b], [a == b], [b < a] holds *)
Definition total_order {T} (eq lt : T -> T -> bool) : Prop :=
  (forall a b, eq a b = true <-> a = b) /\ (forall a b c, lt a b = true -> lt b c = true -> lt a c = true) /\
  (forall a, lt a a = false) /\ (forall a b, lt a b = true \/ a = b \/ lt b a = true).
Theorem C48_definitions (T : Type) (eq lt : T -> T -> bool) (a b : T) :
  (mixin_ne (mkordering eq lt) a b = true <-> ~ eq a b = true) /\ (mixin_le (mkordering eq lt) a b = true <-> lt a b = true \/ eq a b = true) /\
  (mixin_ge (mkordering eq lt) a b = true <-> ~ lt a b = true) /\ (mixin_gt (mkordering eq lt) a b = true <-> ~ mixin_le (mkordering eq lt) a b = true) /\
  (quantity_ne (mkordering eq lt) a b = mixin_ne (mkordering eq lt) a b) /\ quantity_le (mkordering eq lt) a b = mixin_le (mkordering eq lt) a b /\ quantity_ge (mkordering eq lt) a b = mixin_ge (mkordering eq lt) a b /\ quantity_gt (mkordering eq lt) a b = mixin_gt (mkordering eq lt) a b.
Proof. unfold mixin_ne, mixin_le, mixin_ge, mixin_gt, quantity_ne, quantity_le, quantity_ge, quantity_gt. cbn [o_eq o_lt]. destruct (lt a b), (eq a b); cbn; intuition congruence. Qed.
Print Assumptions C48_definitions.
(** for a totally ordered type all six operators describe the one order *)
Theorem C48_total_order (T : Type) (eq lt : T -> T -> bool) (a b c : T) : total_order eq lt ->
  (mixin_gt (mkordering eq lt) a b = lt b a) /\ (mixin_ge (mkordering eq lt) a b = mixin_le (mkordering eq lt) b a) /\
  (mixin_le (mkordering eq lt) a b = true -> mixin_le (mkordering eq lt) b a = true -> a = b) /\
  (mixin_le (mkordering eq lt) a b = true -> mixin_le (mkordering eq lt) b c = true -> mixin_le (mkordering eq lt) a c = true) /\
  (mixin_le (mkordering eq lt) a b = true \/ mixin_le (mkordering eq lt) b a = true).
Proof.
  intros (E & Tr & Ir & To). unfold mixin_gt, mixin_ge, mixin_le. cbn [o_eq o_lt].
  assert (Er : forall x, eq x x = true) by (intros x; apply E; reflexivity).
  assert (As : forall x y, lt x y = true -> lt y x = false) by (intros x y H; destruct (lt y x) eqn:Q; [|reflexivity]; rewrite <- (Ir x), (Tr x y x H Q); reflexivity).
  assert (Ne : forall x y, lt x y = true -> eq x y = false) by (intros x y H; destruct (eq x y) eqn:Q; [apply E in Q as ->; rewrite Ir in H; discriminate|reflexivity]).
  split; [|split; [|split; [|split]]].
  - destruct (To a b) as [H|[->|H]]; [rewrite H, (As _ _ H); reflexivity|rewrite Er, Ir; reflexivity|rewrite H, (As _ _ H)].
    destruct (eq a b) eqn:Q; [apply E in Q as ->; rewrite Ir in H; discriminate|reflexivity].
  - destruct (To a b) as [H|[->|H]]; [|rewrite Er, Ir; reflexivity|rewrite H, (As _ _ H); reflexivity].
    rewrite H, (As _ _ H). destruct (eq b a) eqn:Q; [apply E in Q as ->; rewrite Ir in H; discriminate|reflexivity].
  - rewrite !orb_true_iff. intros [H|H] [H'|H']; try (apply E; assumption); try (apply E in H' as ->; reflexivity).
    rewrite (As _ _ H) in H'. discriminate.
  - rewrite !orb_true_iff. intros [H|H] [H'|H']; try (apply E in H as ->; auto); try (apply E in H' as <-; auto). left. eapply Tr; eauto.
  - rewrite !orb_true_iff. destruct (To a b) as [H|[->|H]]; rewrite ?Er; auto.
Qed.
Print Assumptions C48_total_order.
Example C48_case : total_order Z.eqb Z.ltb.
Proof. split; [intros; apply Z.eqb_eq|]. split; [intros a b c H1 H2; apply Z.ltb_lt in H1, H2; apply Z.ltb_lt; lia|]. split; [apply Z.ltb_irrefl|]. intros a b. rewrite !Z.ltb_lt. lia. Qed.
(** with incomparable values (NaN, sets) [>] and [>=] hold between them in both
    directions *)
Theorem C48_incomparable_refuted (T : Type) (eq lt : T -> T -> bool) (a b : T) :
  lt a b = false -> lt b a = false -> eq a b = false -> eq b a = false ->
  mixin_gt (mkordering eq lt) a b = true /\ mixin_gt (mkordering eq lt) b a = true /\ mixin_ge (mkordering eq lt) a b = true.
Proof. intros H1 H2 H3 H4. unfold mixin_gt, mixin_ge. cbn [o_eq o_lt]. rewrite H1, H2, H3, H4. auto. Qed.
Print Assumptions C48_incomparable_refuted.
