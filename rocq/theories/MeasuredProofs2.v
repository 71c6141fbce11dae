(** * Lemmas for C78: subscripts, casts, conversion. *)
From Verif Require Import PyBase PyLemmas ContainerModel Nd IndexModel IndexSpec IndexProofs2 MeasuredModel MeasuredSpec MeasuredProofs.
From Coq Require Import Lia.
Local Open Scope nat_scope.

Lemma reads_valid l sh ix jx : reads l sh ix jx -> forall r, leaves l sh r -> valid ix r.
Proof.
  induction 1 as [sh ix V|z n j l sh ix jx S R IH|sl n p i j l sh ix jx S N R IH]; intros r L; inversion L; subst.
  - exact V.
  - apply IH. assumption.
  - constructor; [|apply IH; assumption]. pose proof (slice_positions_iff _ _ _ S) as A.
    match goal with H : selects_axis (SSlice sl) n ?q |- _ => pose proof (slice_positions_iff _ _ _ H) as B end.
    rewrite A in B. injection B as <-. apply nth_error_Some. congruence.
Qed.
Lemma numpy_basic {A} (a : nd A) l r : leaves l (shape a) r -> exists b, numpy_getitem a l = Ok b /\ shape b = r /\
  forall ix jx, reads l (shape a) ix jx -> elem b ix = elem a jx.
Proof.
  intro L. unfold numpy_getitem, nd_basic.
  assert (K : forall sh, leaves l sh r -> exists bs, basics sh l = Ok bs /\ basic_shape sh bs = Some r /\ forall ix jx, reads l sh ix jx -> basic_index sh bs ix = jx).
  { clear L a. intros sh L. induction L as [sh|z n j l sh r S L (bs & B1 & B2 & B3)|sl n p l sh r S L (bs & B1 & B2 & B3)].
    - exists []. split; [reflexivity|]. split; [destruct sh; reflexivity|]. intros ix jx R. inversion R; subst. destruct sh; reflexivity.
    - exists (BInt z :: bs). cbn [basics tl]. rewrite B1. cbn [bind]. split; [reflexivity|].
      destruct (norm_index_iff z n [j] S) as (i & E & N & _). injection E as <-. cbn [basic_shape]. rewrite N. split; [exact B2|].
      intros ix jx R. inversion R; subst. cbn [basic_index]. rewrite N.
      match goal with H : selects_axis (SInt z) n [?j'] |- _ => destruct (norm_index_iff z n [j'] H) as (i' & E' & N' & _) end. injection E' as <-.
      rewrite N in N'. injection N' as ->. f_equal. auto.
    - exists (BList p :: bs). cbn [basics tl]. rewrite B1. cbn [bind]. pose proof (slice_positions_iff _ _ _ S) as P. rewrite P. cbn [bind]. split; [reflexivity|].
      cbn [basic_shape]. rewrite B2. split; [reflexivity|]. intros ix jx R. inversion R; subst. cbn [basic_index nth tl].
      match goal with H : selects_axis (SSlice sl) n ?q |- _ => pose proof (slice_positions_iff _ _ _ H) as P' end. rewrite P in P'. injection P' as <-.
      f_equal; [apply nth_error_nth; assumption|auto]. }
  destruct (K _ L) as (bs & B1 & B2 & B3). rewrite B1. cbn [bind]. rewrite B2. eexists. split; [reflexivity|]. split; [reflexivity|].
  intros ix jx R. cbn [elem]. rewrite (B3 _ _ R). reflexivity.
Qed.
Lemma leaves_no_ell l sh r : leaves l sh r -> existsb is_ell l = false.
Proof. induction 1; cbn; auto. Qed.
Lemma subscript_leaves a l r : leaves l (shape a) r -> exists d, subscript (DArr a) l = Ok d /\ shape (arr_of d) = r /\ (r = [] <-> exists q, d = DNum q) /\
  forall ix jx, reads l (shape a) ix jx -> elem (arr_of d) ix = elem a jx.
Proof.
  intro L. destruct (numpy_basic a l r L) as (b & B & S & R). unfold subscript. rewrite (leaves_no_ell _ _ _ L), B. cbn [bind].
  eexists. split; [reflexivity|]. destruct (shape b) as [|n sh] eqn:E.
  - subst r. cbn [arr_of nd_num shape elem]. split; [reflexivity|]. split; [split; eauto|]. intros ix jx X. pose proof (reads_valid _ _ _ _ X _ L) as V. inversion V; subst. apply R. exact X.
  - cbn [arr_of]. split; [congruence|]. split; [|exact R]. split; [congruence|intros (q & Q); discriminate Q].
Qed.
Lemma valid_ones sh ix : count sh = 1 -> valid ix sh -> ix = repeat 0 (length sh).
Proof.
  revert ix. induction sh as [|n sh IH]; intros ix C V; inversion V; subst; [reflexivity|]. cbn [count fold_right] in C. apply Nat.eq_mul_1 in C as [-> C].
  cbn. f_equal; [lia|]. apply IH; assumption.
Qed.

Section Proofs.
Context {U : Type}.
Variable uone : U.
Notation obj := (@mobj U).
Notation getitem := (getitem uone).
Set Default Proof Using "Type".

(** the selected data as an object: of class [k], or of the class of single numbers *)
Definition holds (y : obj) (k : mkind) (v : U) (d : mdata) : Prop :=
  knd y = k /\ unt y = v /\ match dat y with DNum q => count (shape (arr_of d)) = 1 /\ q = flat_first (arr_of d) | DArr b => shape b = shape (arr_of d) /\ forall ix, valid ix (shape b) -> elem b ix = elem (arr_of d) ix end.
Lemma spawn_scalar own d (v : U) : own = MVector \/ own = MTensor -> (shape (arr_of d) = [] -> exists q, d = DNum q) -> (own = MVector -> length (shape (arr_of d)) <= 1) ->
  exists y, spawn_or uone MScalar own d v = Ok y /\ holds y (match shape (arr_of d) with [] | [1] => MScalar | _ => own end) v d.
Proof.
  intros K Z L. destruct d as [q|a].
  - eexists. split; [reflexivity|]. repeat split.
  - unfold spawn_or. cbn [arr_of raw] in *. destruct (shape a) as [|n sh] eqn:E; [destruct (Z eq_refl) as (q & Q); discriminate Q|]. clear Z.
    assert (A : [n] = [1] /\ sh = [] \/ ~ accepts MScalar (@XArr U a)).
    { cbn [accepts is_num raw_shape]. rewrite E. destruct sh as [|m sh]; [|right; intros [H|H]; discriminate H].
      destruct (Nat.eq_dec n 1) as [->|N]; [left; auto|right]. intros [H|H]; [discriminate H|congruence]. }
    destruct A as [[N ->]|A].
    + injection N as ->. unfold make, wrapped, refused, scalar_args. cbn [asarray]. cbv beta iota. rewrite size_count. unfold first_item. rewrite E. cbn [count fold_right Nat.mul Nat.add Nat.eqb bind fst snd unit_or_one].
      eexists. split; [reflexivity|]. unfold holds. cbn [knd unt dat arr_of]. repeat split; try (rewrite E; reflexivity). unfold flat_first, ndim. rewrite E. reflexivity.
    + assert (PL : plain MScalar (@XArr U a)) by (left; discriminate). pose proof (make_plain_fails uone MScalar (XArr a) (Some v) PL A) as F. cbn [raw_shape] in F. rewrite E in F. rewrite F. clear F.
      assert (M : make uone own (XArr a) (Some v) = Ok (mkm own (DArr a) v)).
      { unfold make, wrapped, refused. destruct K as [->| ->]; cbn [vector_args tensor_args]; [unfold vector_of_array|unfold tensor_of_array]; unfold ndim; rewrite E; [|reflexivity].
        destruct sh as [|m sh]; [reflexivity|]. specialize (L eq_refl). cbn in L. lia. }
      rewrite M. eexists. split; [reflexivity|]. unfold holds. cbn [knd unt dat arr_of].
      split; [|split; [reflexivity|split; [reflexivity|reflexivity]]].
      destruct sh as [|m sh]; [|destruct n as [|[|]]; reflexivity]. destruct n as [|[|n]]; try reflexivity. exfalso. apply A. right. exact E.
Qed.
Lemma spawn_value own d (v : U) : own = MSequence \/ own = MMeasurement -> (shape (arr_of d) = [] -> exists q, d = DNum q) -> (own = MSequence -> length (shape (arr_of d)) <= 1) ->
  exists y, spawn_or uone MValue own d v = Ok y /\ holds y (if Nat.eqb (count (shape (arr_of d))) 1 then MValue else own) v d.
Proof.
  intros K Z L. destruct d as [q|a].
  - eexists. split; [reflexivity|]. repeat split.
  - unfold spawn_or. cbn [arr_of raw] in *. destruct (Nat.eqb (count (shape a)) 1) eqn:C.
    + unfold make, wrapped, refused, value_args, value_of_array. rewrite size_count, C. cbn [bind fst snd unit_or_one]. eexists. split; [reflexivity|].
      unfold holds. cbn [knd unt dat arr_of]. repeat split. apply Nat.eqb_eq. exact C.
    + assert (F : make uone MValue (XArr a) (Some v) = Raise TypeError).
      { unfold make, wrapped, refused, value_args, value_of_array. rewrite size_count, C. reflexivity. }
      rewrite F. clear F. destruct (shape a) as [|n sh] eqn:E; [destruct (Z eq_refl) as (q & Q); discriminate Q|]. clear Z. destruct K as [->| ->].
      * specialize (L eq_refl). destruct sh as [|m sh]; [|cbn in L; lia].
        unfold make, wrapped, refused, sequence_args. unfold ndim. rewrite E. cbn [length Nat.eqb bind fst snd unit_or_one]. eexists. split; [reflexivity|].
        unfold holds, flatten. cbn [knd unt dat arr_of shape elem]. rewrite size_count, E. cbn [count fold_right]. rewrite Nat.mul_1_r. repeat split.
        intros ix V. inversion V as [|i n' ix' sh' I V' X1 X2]; subst. inversion V'; subst. cbn [nth unravel fold_right]. rewrite Nat.div_1_r. reflexivity.
      * unfold make, wrapped, refused, measurement_args. cbn [bind fst snd unit_or_one]. eexists. split; [reflexivity|].
        unfold holds. cbn [knd unt dat arr_of]. split; [reflexivity|]. split; [reflexivity|].
        unfold nd_ndmin, ndim. rewrite E. cbn [length Nat.sub repeat app shape elem]. split; reflexivity.
Qed.

Lemma holds_selection (o y : obj) l a d k sh : dat o = DArr a -> leaves l (shape a) sh -> shape (arr_of d) = sh -> (forall ix jx, reads l (shape a) ix jx -> elem (arr_of d) ix = elem a jx) ->
  holds y k (unt o) d -> knd y = k /\ selection o l sh y.
Proof.
  intros D L S R (K & V & H). split; [exact K|]. split; [exact V|]. exists a. split; [exact D|]. intros ix jx X. pose proof (reads_valid _ _ _ _ X _ L) as W.
  rewrite S in H. destruct (dat y) as [q|b].
  - destruct H as [C ->]. rewrite <- (R _ _ X). unfold flat_first, ndim. rewrite S. rewrite (valid_ones _ _ C W). reflexivity.
  - destruct H as [Sb E]. split; [congruence|]. rewrite E; [apply R; exact X|]. rewrite Sb. exact W.
Qed.

Lemma leaves_length l sh r : leaves l sh r -> length r <= length sh.
Proof. induction 1; cbn; lia. Qed.

Lemma getitem_many (o : obj) l sh : proper o -> leaves l (shape_of o) sh ->
  match knd o with
  | MTensor | MVector => exists y, getitem o l = Ok y /\ knd y = (match sh with [] | [1] => MScalar | _ => knd o end) /\ selection o l sh y
  | MMeasurement => exists y, getitem o l = Ok y /\ knd y = (if Nat.eqb (count sh) 1 then MValue else MMeasurement) /\ selection o l sh y
  | MSequence => length (shape_of o) = 1 -> exists y, getitem o l = Ok y /\ knd y = (if Nat.eqb (count sh) 1 then MValue else MSequence) /\ selection o l sh y
  | _ => True
  end.
Proof.
  intros P L. assert (P' : usable o) by (left; exact P). pose proof (usable_cases o P') as C. rewrite shape_arr in L.
  assert (Z : forall d r, (r = [] <-> exists q, d = DNum q) -> shape (arr_of d) = r -> shape (arr_of d) = [] -> exists q, d = DNum q) by (intros d r I -> E; apply I; exact E).
  destruct o as [k d0 v]. cbn [knd dat unt] in *. destruct k; auto; unfold MeasuredModel.getitem; cbn [knd dat unt].
  - intro L1. rewrite shape_arr in L1. cbn [dat] in L1. destruct C as (a & -> & N). cbn [arr_of] in L, L1. destruct (subscript_leaves a l sh L) as (d & D & S & Q & R). rewrite D. cbn [bind].
    destruct (spawn_value MSequence d v (or_introl eq_refl) (Z d sh Q S)) as (y & Y & H).
    { intros _. rewrite S. apply leaves_length in L. lia. }
    exists y. split; [exact Y|]. rewrite S in H. eapply holds_selection; eauto; reflexivity.
  - destruct C as (a & -> & N). cbn [arr_of] in L. destruct (subscript_leaves a l sh L) as (d & D & S & Q & R). rewrite D. cbn [bind].
    destruct (spawn_value MMeasurement d v (or_intror eq_refl) (Z d sh Q S)) as (y & Y & H); [discriminate|].
    exists y. split; [exact Y|]. rewrite S in H. eapply holds_selection; eauto; reflexivity.
  - destruct C as (a & n & -> & N). cbn [arr_of] in L. destruct (subscript_leaves a l sh L) as (d & D & S & Q & R). rewrite D. cbn [bind].
    destruct (spawn_scalar MVector d v (or_introl eq_refl) (Z d sh Q S)) as (y & Y & H).
    { intros _. rewrite S. apply leaves_length in L. rewrite N in L. exact L. }
    exists y. split; [exact Y|]. rewrite S in H. eapply holds_selection; eauto; reflexivity.
  - destruct C as (a & -> & N). cbn [arr_of] in L. destruct (subscript_leaves a l sh L) as (d & D & S & Q & R). rewrite D. cbn [bind].
    destruct (spawn_scalar MTensor d v (or_intror eq_refl) (Z d sh Q S)) as (y & Y & H); [discriminate|].
    exists y. split; [exact Y|]. rewrite S in H. eapply holds_selection; eauto; reflexivity.
Qed.

(** *** Variables *)
Lemma variable_slice (o : obj) sl p : knd o = MVariable -> proper o -> selects_axis (SSlice sl) (hd 0 (shape_of o)) p ->
  exists a, dat o = DArr a /\
  if Nat.eqb (length p) 0 then getitem o [SSlice sl] = Raise TypeError
  else exists y, getitem o [SSlice sl] = Ok y /\ knd y = MVariable /\ selection o [SSlice sl] [length p] y.
Proof.
  intros K P S. assert (P' : usable o) by (left; exact P). pose proof (usable_cases o P') as C. rewrite K in C. destruct C as (a & n & D & E).
  exists a. split; [exact D|]. destruct o as [k d0 v]. cbn [knd dat unt] in *. subst k d0. unfold shape_of in S. cbn [dat] in S. rewrite E in S. cbn [hd] in S.
  unfold MeasuredModel.getitem. cbn [knd dat unt shifted].
  assert (L : leaves [SSlice sl] (shape a) [length p]) by (rewrite E; constructor; [exact S|constructor]).
  destruct (subscript_leaves a _ _ L) as (d & Dd & Sd & Q & R). rewrite Dd. cbn [bind].
  destruct d as [q|b]; [exfalso; assert (H : [length p] = []) by (apply Q; eauto); discriminate H|]. cbn [arr_of] in *.
  destruct (Nat.eqb (length p) 0) eqn:Z; rewrite Sd.
  - apply Nat.eqb_eq in Z. rewrite Z in *. cbn [raw]. unfold make, wrapped, refused, scalar_args. cbn [asarray]. rewrite size_count, Sd. reflexivity.
  - destruct (length p) as [|m] eqn:Lp; [discriminate Z|]. unfold make, wrapped, refused. cbn [raw variable_args]. unfold vector_of_array.
    assert (N1 : ndim (nd_ndmin 1 b) = 1) by (unfold ndim, nd_ndmin; rewrite <- Lp in Sd; unfold ndim; rewrite Sd; reflexivity). rewrite N1. cbn [Nat.eqb bind fst snd unit_or_one].
    eexists. split; [reflexivity|]. split; [reflexivity|]. split; [reflexivity|]. exists a. split; [reflexivity|]. intros ix jx X. cbn [dat].
    unfold nd_ndmin, ndim. rewrite Sd. cbn [length Nat.sub repeat app shape elem skipn]. split; [reflexivity|]. apply R. exact X.
Qed.
Lemma variable_int (o : obj) z : knd o = MVariable -> proper o -> exists a n, dat o = DArr a /\ shape a = [n] /\
  getitem o [SInt z] = match norm_index n (if (z <? 0)%Z then z + Z.of_nat n else z)%Z with
                       | Some i => Ok (mkm MScalar (DNum (elem a [i])) (unt o))
                       | None => Raise IndexError
                       end.
Proof.
  intros K P. assert (P' : usable o) by (left; exact P). pose proof (usable_cases o P') as C. rewrite K in C. destruct C as (a & n & D & E).
  exists a, n. split; [exact D|]. split; [exact E|]. destruct o as [k d0 v]. cbn [knd dat unt] in *. subst k d0.
  unfold MeasuredModel.getitem. cbn [knd dat unt shifted arr_of]. rewrite E. cbn [hd].
  assert (X : forall y, subscript (DArr a) [SInt y] = match norm_index n y with Some i => Ok (DNum (elem a [i])) | None => Raise IndexError end).
  { intro y. unfold subscript. cbn [existsb is_ell orb]. unfold numpy_getitem, nd_basic. rewrite E. cbn [basics tl bind basic_shape].
    destruct (norm_index n y) eqn:NI; [|reflexivity]. cbn [bind shape elem basic_index]. rewrite NI. reflexivity. }
  destruct (z <? 0)%Z; rewrite X; destruct (norm_index n _); reflexivity.
Qed.
(** the same for vectors *)
Lemma vector_int (o : obj) z : knd o = MVector -> proper o -> exists a n, dat o = DArr a /\ shape a = [n] /\
  getitem o [SInt z] = match norm_index n z with
                       | Some i => Ok (mkm MScalar (DNum (elem a [i])) (unt o))
                       | None => Raise IndexError
                       end.
Proof.
  intros K P. assert (P' : usable o) by (left; exact P). pose proof (usable_cases o P') as C. rewrite K in C. destruct C as (a & n & D & E).
  exists a, n. split; [exact D|]. split; [exact E|]. destruct o as [k d0 v]. cbn [knd dat unt] in *. subst k d0.
  unfold MeasuredModel.getitem. cbn [knd dat unt]. unfold subscript. cbn [existsb is_ell orb]. unfold numpy_getitem, nd_basic. rewrite E. cbn [basics tl bind basic_shape].
  destruct (norm_index n z) eqn:NI; [|reflexivity]. cbn [bind shape elem basic_index]. rewrite NI. reflexivity.
Qed.
Lemma sequence_int (o : obj) z a n : knd o = MSequence \/ knd o = MMeasurement -> dat o = DArr a -> shape a = [n] ->
  getitem o [SInt z] = match norm_index n z with
                       | Some i => Ok (mkm MValue (DNum (elem a [i])) (unt o))
                       | None => Raise IndexError
                       end.
Proof.
  intros K D E. destruct o as [k d0 v]. cbn [knd dat unt] in *. subst d0.
  unfold MeasuredModel.getitem. cbn [knd dat unt]. unfold subscript. cbn [existsb is_ell orb]. unfold numpy_getitem, nd_basic. rewrite E. cbn [basics tl bind basic_shape].
  destruct (norm_index n z) eqn:NI; [|destruct K as [->| ->]; reflexivity]. cbn [bind shape elem basic_index]. rewrite NI. destruct K as [->| ->]; reflexivity.
Qed.

(** *** Iteration *)
Lemma items_numbers (l : list Qc) (v : U) : mapM (fun q => make uone MScalar (XNum q) (Some v)) l = Ok (map (fun q => mkm MScalar (DNum q) v) l).
Proof. induction l as [|q l IH]; [reflexivity|]. cbn [mapM]. rewrite IH. reflexivity. Qed.
Lemma items_seq (o : obj) a n : knd o = MSequence \/ knd o = MMeasurement -> dat o = DArr a -> shape a = [n] ->
  forall k i fuel, i + k = n -> k < fuel -> items_from uone fuel o i = Ok (map (fun j => mkm MValue (DNum (elem a [j])) (unt o)) (seq i k)).
Proof.
  intros K D E. induction k as [|k IH]; intros i fuel I F; (destruct fuel as [|fuel]; [lia|]); cbn [items_from]; rewrite (sequence_int o _ a n K D E).
  - assert (X : norm_index n (Z.of_nat i) = None).
    { unfold norm_index. assert (H1 : (Z.of_nat i <? 0)%Z = false) by (apply Z.ltb_ge; lia). rewrite H1, H1. assert (H2 : (Z.of_nat n <=? Z.of_nat i)%Z = true) by (apply Z.leb_le; lia). rewrite H2. reflexivity. }
    rewrite X. reflexivity.
  - assert (X : norm_index n (Z.of_nat i) = Some i).
    { unfold norm_index. assert (H1 : (Z.of_nat i <? 0)%Z = false) by (apply Z.ltb_ge; lia). rewrite H1, H1. assert (H2 : (Z.of_nat n <=? Z.of_nat i)%Z = false) by (apply Z.leb_gt; lia). rewrite H2. rewrite Nat2Z.id. reflexivity. }
    rewrite X. rewrite (IH (i + 1) fuel); [|lia|lia]. cbn [bind seq map]. rewrite Nat.add_1_r. reflexivity.
Qed.
End Proofs.
