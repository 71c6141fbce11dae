(** Products of named arrays. *)
From Verif Require Import PyBase PyLemmas ContainerModel ContainerSpec ContainerProofs ContainerProofs2 Nd IndexModel IndexProofs IndexProofs2 ArrayModel ArraySpec ArrayProofs.
Set Default Proof Using "Type".

Section Prod.
Context {A : Type}.

Lemma names_eq_map {B} (l : list str) (g : str -> B) (o : B) (m : list B) : NoDup l -> length m = length l ->
  (forall d, In d l -> nth (pos d l) m o = g d) -> m = map g l.
Proof.
  revert m. induction l as [|d l IH]; intros m N L H; [destruct m; [reflexivity|discriminate]|].
  destruct m as [|v m]; [discriminate|]. apply NoDup_cons_iff in N as (Nd & N). cbn [map]. f_equal.
  - pose proof (H d (or_introl eq_refl)) as E. cbn [pos] in E. rewrite str_eqb_refl in E. exact E.
  - apply IH; [exact N|simpl in L; lia|]. intros e He. pose proof (H e (or_intror He)) as E. cbn [pos] in E.
    destruct (str_eqb d e) eqn:Q; [apply str_eqb_eq in Q as ->; contradiction|]. exact E.
Qed.

Lemma in_bounds_mesh_spec shp l : forall names sh, length names = length sh ->
  in_bounds_mesh shp (map (fun d => pos d l) names) sh = true <->
  (forall k d n, nth_error names k = Some d -> nth_error sh k = Some n -> nth (pos d l) shp 0 <= n).
Proof.
  induction names as [|d names IH]; intros sh L; [split; [intros _ [|k] ? ? E; discriminate|reflexivity]|].
  destruct sh as [|n sh]; [discriminate|]. cbn [map in_bounds_mesh]. rewrite andb_true_iff, Nat.leb_le, IH by (simpl in L; lia). split.
  - intros (H1 & H2) [|k] e m E1 E2; simpl in E1, E2; [injection E1 as <-; injection E2 as <-; exact H1 | eapply H2; eauto].
  - intros H. split; [apply (H 0 d n eq_refl eq_refl)|]. intros k e m E1 E2. apply (H (S k) e m E1 E2).
Qed.

Lemma map_seq_nth {B} (g : nat -> B) n k (o : B) : k < n -> nth k (map g (seq 0 n)) o = g k.
Proof. intros H. apply nth_error_nth. rewrite (map_nth_error g k (seq 0 n) (d := k)); [reflexivity|]. rewrite (nth_error_nth' _ 0) by (rewrite seq_length; exact H). rewrite seq_nth by exact H. reflexivity. Qed.

Lemma operand_ok (l : list str) (m : str -> nat) (a : array A) : well_named a -> NoDup l -> (forall d, In d (anames a) -> In d l) ->
  (singleton a \/ forall d, In d (anames a) -> m d = len_of a d) ->
  exists x, remesh_operand l (map m l) a = Ok x /\ shape x = map (len_of a) l /\
    forall c ca, (forall d, In d l -> c d < Nat.max (m d) 1) -> clip a c ca ->
      elem x (pin (shape x) (map c l)) = at_ a ca.
Proof.
  intros W N I C. unfold remesh_operand. destruct (Nat.eqb (nd_size (data a)) 1) eqn:S.
  - apply (size_singleton a W) in S. exists (nd_ndmin (length l) (data a)). split; [reflexivity|].
    assert (Ln : ndim (data a) <= length l).
    { destruct W as (N' & L & _). unfold ndim. rewrite <- L. apply NoDup_incl_length; [exact N'|exact I]. }
    assert (Sh : shape (nd_ndmin (length l) (data a)) = map (len_of a) l).
    { cbn [nd_ndmin shape]. transitivity (repeat 1 (length l)).
      - assert (E : shape (data a) = repeat 1 (ndim (data a))).
        { unfold ndim, singleton in *. revert S. generalize (shape (data a)). induction 1 as [|n sh -> F IH]; [reflexivity|]. simpl. f_equal. exact IH. }
        rewrite E at 1. rewrite <- repeat_app. f_equal. lia.
      - symmetry. erewrite map_ext; [|intros d; apply (singleton_len a d W S)]. clear. induction l as [|d l IH]; [reflexivity|]. simpl. f_equal. exact IH. }
    split; [exact Sh|]. intros c ca Cc Cl. rewrite Sh.
    assert (P : pin (map (len_of a) l) (map c l) = repeat 0 (length l)).
    { clear -W S. induction l as [|d l IH]; [reflexivity|]. cbn [map pin length repeat]. rewrite (singleton_len a d W S). cbn. f_equal. exact IH. }
    rewrite P. cbn [nd_ndmin elem]. replace (skipn (length l - ndim (data a)) (repeat 0 (length l))) with (map ca (anames a)); [reflexivity|].
    transitivity (repeat 0 (ndim (data a))).
    + destruct W as (N' & L & Ps). unfold ndim. rewrite <- L. assert (Z : forall d, In d (anames a) -> ca d = 0).
      { intros d Hd. assert (Hd' := Hd). apply In_nth_error in Hd' as (k & E). assert (K : k < length (shape (data a))) by (rewrite <- L; apply nth_error_Some; congruence).
        apply nth_error_Some in K. destruct (nth_error (shape (data a)) k) as [n|] eqn:E'; [|congruence].
        apply (Cl d n (ex_intro _ k (conj E E'))). unfold singleton in S. rewrite Forall_forall in S. apply S. eapply nth_error_In, E'. }
      revert Z. generalize (anames a). intros q Z. induction q as [|d q IH]; [reflexivity|]. simpl. rewrite Z by (left; reflexivity). f_equal. apply IH. intros e He. apply Z. right. exact He.
    + replace (length l) with ((length l - ndim (data a)) + ndim (data a)) at 2 by lia. rewrite repeat_app, skipn_repeat_app. reflexivity.
  - assert (NS : ~ singleton a) by (intros H; apply (size_singleton a W) in H; congruence).
    destruct C as [C|C]; [contradiction|]. unfold nd_gather.
    assert (B : in_bounds_mesh (map m l) (map (fun d => pos d l) (anames a)) (shape (data a)) = true).
    { apply in_bounds_mesh_spec; [apply W|]. intros k d n E1 E2. assert (Hd : In d (anames a)) by (eapply nth_error_In, E1).
      rewrite nth_map_pos by (apply I, Hd). rewrite C by exact Hd. rewrite (len_axis a d n W (ex_intro _ k (conj E1 E2))). apply le_n. }
    rewrite B. cbn [negb]. eexists. split; [reflexivity|]. cbn [shape elem].
    assert (Sh : map (fun k => if existsb (Nat.eqb k) (map (fun d => pos d l) (anames a)) then nth k (map m l) 0 else 1)
                   (seq 0 (length (map m l))) = map (len_of a) l).
    { apply (names_eq_map l (len_of a) 0); [exact N|rewrite !map_length, seq_length; reflexivity|]. intros d Hd.
      rewrite map_seq_nth by (rewrite map_length; apply pos_lt, Hd). rewrite nth_map_pos by exact Hd.
      destruct (in_dec str_eq_dec d (anames a)) as [Ha|Ha].
      - replace (existsb _ _) with true; [apply C, Ha|]. symmetry. apply existsb_exists. exists (pos d l). split; [|apply Nat.eqb_refl].
        apply in_map_iff. exists d. auto.
      - replace (existsb _ _) with false; [symmetry; apply len_missing, Ha|]. symmetry. destruct (existsb _ _) eqn:Q; [|reflexivity].
        apply existsb_exists in Q as (p & Hp & E). apply Nat.eqb_eq in E. subst p. apply in_map_iff in Hp as (e & E & He). exfalso. apply Ha.
        replace d with e; [exact He|]. assert (nth_error l (pos e l) = Some e) by (apply pos_nth, I, He). rewrite E in H. rewrite pos_nth in H by exact Hd. congruence. }
    split; [exact Sh|]. intros c ca Cc Cl. rewrite Sh. unfold at_. rewrite map_map. f_equal. apply map_ext_in. intros d Hd.
    rewrite nth_pin; [|rewrite !map_length; reflexivity|rewrite map_length; apply pos_lt, I, Hd]. rewrite !nth_map_pos by (apply I, Hd).
    destruct (axis_exists a d W Hd) as (n & An & Pn). rewrite (len_axis a d n W An). destruct (Cl d n An) as (C1 & C2).
    destruct (Nat.eqb_spec n 1) as [->|Q]; [rewrite C1; reflexivity|symmetry; apply C2, Q].
Qed.

Lemma operand_fails (l : list str) (m : str -> nat) (a : array A) d : well_named a -> NoDup l -> (forall d, In d (anames a) -> In d l) ->
  ~ singleton a -> In d (anames a) -> len_of a d < m d -> remesh_operand l (map m l) a = Raise IndexError.
Proof.
  intros W N I NS Hd Hm. unfold remesh_operand. destruct (Nat.eqb (nd_size (data a)) 1) eqn:S; [apply (size_singleton a W) in S; contradiction|].
  unfold nd_gather. replace (in_bounds_mesh _ _ _) with false; [reflexivity|]. symmetry. destruct (in_bounds_mesh _ _ _) eqn:B; [|reflexivity].
  exfalso. assert (L : length (anames a) = length (shape (data a))) by apply W.
  destruct (axis_exists a d W Hd) as (n & An & _). pose proof (len_axis a d n W An) as E. destruct An as (k & E1 & E2).
  pose proof (proj1 (in_bounds_mesh_spec (map m l) l (anames a) (shape (data a)) L) B k d n E1 E2) as Q.
  rewrite nth_map_pos in Q by (apply I, Hd). lia.
Qed.

Definition both_plain (a b : dims) : Prop := match a, b with Named _, _ | _, Named _ => False | _, _ => True end.
Lemma dims_or_dispatch a b : ~ both_plain a b -> dims_or a b = dims_or_names (names a) (names b).
Proof. destruct a, b; simpl; intros H; try reflexivity; destruct (H I). Qed.

(** shared axes agree, or one of the arrays has a single element *)
Definition compatible (a b : array A) : Prop :=
  singleton a \/ singleton b \/ forall d n m, axis_len a d n -> axis_len b d m -> n = m.

Lemma compatible_lens (a b : array A) : well_named a -> well_named b -> compatible a b ->
  forall d, len_of a d = len_of b d \/ len_of a d = 1 \/ len_of b d = 1.
Proof.
  intros Wa Wb C d. destruct C as [C|[C|C]]; [right; left; apply singleton_len; auto|right; right; apply singleton_len; auto|].
  destruct (in_dec str_eq_dec d (anames a)) as [Ha|Ha]; [|right; left; apply len_missing, Ha].
  destruct (in_dec str_eq_dec d (anames b)) as [Hb|Hb]; [|right; right; apply len_missing, Hb].
  left. apply (C d); apply len_axis_iff; auto.
Qed.
Lemma operand_condition (a b : array A) : well_named a -> well_named b -> compatible a b ->
  singleton a \/ forall d, In d (anames a) -> Nat.max (len_of a d) (len_of b d) = len_of a d.
Proof.
  intros Wa Wb C. destruct C as [C|[C|C]]; [left; exact C| |]; right; intros d Hd.
  - rewrite (singleton_len b d Wb C). pose proof (len_pos a d Wa). lia.
  - destruct (in_dec str_eq_dec d (anames b)) as [Hb|Hb].
    + rewrite (C d (len_of a d) (len_of b d)); [apply Nat.max_id|apply len_axis_iff; auto..].
    + rewrite (len_missing b d Hb). pose proof (len_pos a d Wa). lia.
Qed.
Lemma compatible_sym (a b : array A) : compatible a b -> compatible b a.
Proof. intros [C|[C|C]]; [right; left; exact C|left; exact C|]. right. right. intros d n m H1 H2. symmetry. eapply C; eauto. Qed.

Lemma join_max (u v : str -> nat) l : (forall d, In d l -> (u d = v d \/ u d = 1 \/ v d = 1) /\ 0 < u d /\ 0 < v d) ->
  join (map u l) (map v l) = map (fun d => Nat.max (u d) (v d)) l /\ Forall2 (fun x y => x = y \/ x = 1 \/ y = 1) (map u l) (map v l).
Proof.
  induction l as [|d l IH]; intros H; [split; constructor|]. destruct IH as (E & F); [intros e He; apply H; right; exact He|].
  destruct (H d (or_introl eq_refl)) as (H1 & H2 & H3). cbn [map join]. rewrite E. split; [|constructor; auto].
  f_equal. destruct (Nat.eqb_spec (u d) 1); lia.
Qed.

Lemma names_nodup_factory l (x : nd A) : NoDup l -> length l = ndim x -> array_factory x l = Ok (mkarray x (Named l)).
Proof. intros N L. unfold array_factory, dimensions_factory. cbn [names]. rewrite unique_id by exact N. rewrite L, Nat.eqb_refl. reflexivity. Qed.

Lemma max_comm_map (u v : str -> nat) l : map (fun d => Nat.max (u d) (v d)) l = map (fun d => Nat.max (v d) (u d)) l.
Proof. apply map_ext. intros d. apply Nat.max_comm. Qed.

Theorem product_spec (f : A -> A -> A) (a b : array A) l : well_named a -> well_named b -> ~ both_plain (adims a) (adims b) ->
  dims_or_names (anames a) (anames b) = Ok (Named l) -> common_order (anames a) (anames b) l -> compatible a b ->
  exists r, multiplicative f (AArr a) (AArr b) = Ok r /\ adims r = Named l /\
    shape (data r) = map (fun d => Nat.max (len_of a d) (len_of b d)) l /\
    forall c ca cb, (forall d, In d l -> c d < Nat.max (len_of a d) (len_of b d)) -> clip a c ca -> clip b c cb ->
      elem (data r) (map c l) = f (at_ a ca) (at_ b cb).
Proof.
  intros Wa Wb P D (N & Sa & Sb & I) C. unfold multiplicative, get_operands, remesh.
  rewrite dims_or_dispatch by exact P. fold (anames a) (anames b). rewrite D. cbn [bind names].
  replace (existsb (lengths_clash a b) l) with false.
  2:{ symmetry. destruct (existsb _ _) eqn:E; [|reflexivity]. apply existsb_exists in E as (d & _ & E). unfold lengths_clash in E.
      rewrite !andb_true_iff, negb_true_iff, !Nat.ltb_lt, Nat.eqb_neq in E. destruct (compatible_lens a b Wa Wb C d) as [Q|[Q|Q]]; lia. }
  destruct (operand_ok l (fun d => Nat.max (len_of a d) (len_of b d)) a Wa N) as (x & -> & Sx & Ex).
  { intros d Hd. apply I. left. exact Hd. }
  { apply operand_condition; auto. }
  destruct (operand_ok l (fun d => Nat.max (len_of a d) (len_of b d)) b Wb N) as (y & -> & Sy & Ey).
  { intros d Hd. apply I. right. exact Hd. }
  { destruct (operand_condition b a Wb Wa (compatible_sym _ _ C)) as [Q|Q]; [left; exact Q|right]. intros d Hd. rewrite Nat.max_comm. apply Q, Hd. }
  cbn [bind fst snd]. unfold nd_map2. rewrite Sx, Sy.
  destruct (join_max (len_of a) (len_of b) l) as (J & F).
  { intros d _. split; [apply compatible_lens; auto|]. split; apply len_pos; auto. }
  rewrite (bcast_join _ _ F), J. cbn [bind]. rewrite names_nodup_factory; [|exact N|unfold ndim; cbn [shape]; rewrite map_length; reflexivity].
  eexists. split; [reflexivity|]. cbn [adims data shape elem]. split; [reflexivity|]. split; [reflexivity|].
  intros c ca cb Cc Ca Cb. rewrite !operand_index_same by (rewrite !map_length; reflexivity).
  rewrite <- Sx at 1. rewrite <- Sy. rewrite (Ex c ca), (Ey c cb); [reflexivity|auto..].
  - intros d Hd. specialize (Cc d Hd). lia.
  - intros d Hd. specialize (Cc d Hd). lia.
Qed.

Lemma dec_singleton (a : array A) : singleton a \/ ~ singleton a.
Proof.
  unfold singleton. induction (shape (data a)) as [|n sh IH]; [left; constructor|].
  destruct (Nat.eq_dec n 1) as [->|Q]; [|right; intros H; inversion_clear H; contradiction].
  destruct IH as [H|H]; [left; constructor; auto|right; intros Q; inversion_clear Q; contradiction].
Qed.

(** a shared axis of different lengths in two arrays of several elements *)
Lemma product_fails (f : A -> A -> A) (a b : array A) l d : well_named a -> well_named b -> ~ both_plain (adims a) (adims b) ->
  dims_or_names (anames a) (anames b) = Ok (Named l) -> common_order (anames a) (anames b) l ->
  ~ singleton a -> ~ singleton b -> In d (anames a) -> In d (anames b) -> len_of a d <> len_of b d ->
  multiplicative f (AArr a) (AArr b) = Raise ValueError \/ multiplicative f (AArr a) (AArr b) = Raise IndexError.
Proof.
  intros Wa Wb P D (N & Sa & Sb & I) Na Nb Ha Hb Hd. unfold multiplicative, get_operands, remesh.
  rewrite dims_or_dispatch by exact P. fold (anames a) (anames b). rewrite D. cbn [bind names].
  destruct (existsb (lengths_clash a b) l) eqn:E; [left; reflexivity|right].
  pose (m := fun d => Nat.max (len_of a d) (len_of b d)). fold m.
  assert (Ia : forall d, In d (anames a) -> In d l) by (intros e He; apply I; auto).
  assert (Ib : forall d, In d (anames b) -> In d l) by (intros e He; apply I; auto).
  assert (Ra : forall z : array A, (well_named z /\ (forall d, In d (anames z) -> In d l)) -> remesh_operand l (map m l) z = Raise IndexError \/ exists x, remesh_operand l (map m l) z = Ok x).
  { intros z (Wz & Iz). unfold remesh_operand. destruct Nat.eqb; [eauto|]. unfold nd_gather. destruct negb; eauto. }
  destruct (Nat.lt_ge_cases (len_of a d) (len_of b d)) as [Q|Q].
  - rewrite (operand_fails l m a d Wa N Ia Na Ha) by (unfold m; lia). reflexivity.
  - destruct (Ra a (conj Wa Ia)) as [->|(x & ->)]; [reflexivity|]. cbn [bind].
    rewrite (operand_fails l m b d Wb N Ib Nb Hb) by (unfold m; lia). reflexivity.
Qed.
End Prod.
