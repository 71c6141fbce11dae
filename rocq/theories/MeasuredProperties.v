(** * Properties of measured objects: making, subscripting, casting and converting them (C78).
    The unit type and its equality and conversion factors are arbitrary. *)
From Verif Require Import PyBase PyLemmas ContainerModel Nd IndexModel IndexSpec IndexProofs2 MeasuredModel MeasuredSpec MeasuredProofs MeasuredProofs2 MeasuredRounding.
From Coq Require Import Lia.
Local Open Scope Qc_scope.

Section Properties.
Context {U : Type}.
Variable uone : U.
Notation obj := (@mobj U).
Notation make := (make uone).
Notation getitem := (getitem uone).
Set Default Proof Using "Type".

(** ** Making objects *)
(** An explicit unit for an object that has one is refused, for every class. *)
Theorem C78_refuses_units k (o : obj) u : make k (XObj o) (Some u) = Raise ValueError.
Proof. reflexivity. Qed.

(** From numbers: which shapes each class accepts, and that the object has exactly the given
    numbers in their order and the given unit, or '1'. *)
Theorem C78_from_numbers k (x : @arg U) (u : option U) : plain k x ->
  (accepts k x -> exists y, make k x u = Ok y /\ knd y = k /\ proper y /\ values y = raw_values x /\
     unt y = match u with Some v => v | None => uone end) /\
  (~ accepts k x -> make k x u = Raise (match k, raw_shape x with MScalar, [] => IndexError | _, _ => TypeError end)).
Proof. intro P. split; [apply make_plain; exact P|apply make_plain_fails; exact P]. Qed.

(** A sequence made from numbers has one axis, whatever their shape; the others keep the shape. *)
Theorem C78_shapes k (x : @arg U) u y : plain k x -> single k = false -> make k x u = Ok y ->
  shape_of y = if match k with MSequence => true | _ => match raw_shape x with [] => true | _ => false end end then [length (raw_values x)] else raw_shape x.
Proof.
  intros P S H. assert (L : forall a : nd Qc, length (map (elem a) (indices (shape a))) = count (shape a)) by (intro a; rewrite map_length; apply indices_length).
  unfold MeasuredModel.make, wrapped in H. assert (R : refused x u = false) by (destruct x; [reflexivity..|contradiction P]). rewrite R in H.
  assert (N : forall a : nd Qc, shape (nd_ndmin 1 a) = match shape a with [] => [1%nat] | sh => sh end) by (intro a; unfold nd_ndmin, ndim; destruct (shape a); reflexivity).
  destruct k; try discriminate S; (destruct x as [q|a|a|o]; [| | |contradiction P]); cbn [raw_shape raw_values plain] in *; rewrite ?L; cbn in H;
    unfold vector_of_array, tensor_of_array, ndim in H; try discriminate H;
    try (injection H as <-; cbn [shape_of dat flatten shape]; rewrite ?N, ?size_count; destruct (shape a); reflexivity);
    try (injection H as <-; reflexivity);
    try (rewrite N in H); destruct (shape a) as [|n [|m sh]] eqn:E; cbn in H; try discriminate H; try (injection H as <-; cbn [shape_of dat flatten shape]; rewrite ?N, ?size_count, ?E; reflexivity);
    exfalso; intuition congruence.
Qed.
Lemma convertible_scalar sh : convertible MScalar sh -> match sh with [] | [1%nat] => true | _ => false end = true.
Proof. intros [->| ->]; reflexivity. Qed.
(** From an object whose unit the class knows how to keep: same numbers, same unit; the only
    obstacle is the shape. *)
Theorem C78_keeps k (o : obj) : usable o -> effect_of k (knd o) = Keeps ->
  (convertible k (shape_of o) -> exists y, make k (XObj o) None = Ok y /\ knd y = k /\ usable y /\ values y = values o /\ unt y = unt o /\
     (single k = false -> shape_of o <> [] -> shape_of y = shape_of o)) /\
  (~ convertible k (shape_of o) -> make k (XObj o) None = Raise TypeError).
Proof.
  intros W E.
  assert (Sq : k = MSequence \/ k = MMeasurement \/ k = MArray -> convertible k (shape_of o) /\ exists y, make k (XObj o) None = Ok y /\ made k o (unt o) y).
  { intro K. split; [destruct K as [->|[->| ->]]; exact I|]. apply make_sequence; assumption. }
  assert (Vc : k = MVector \/ k = MVariable -> (convertible k (shape_of o) -> exists y, make k (XObj o) None = Ok y /\ made k o (unt o) y) /\
    (~ convertible k (shape_of o) -> make k (XObj o) None = Raise TypeError)).
  { intro K. assert (E' : effect_of k (knd o) <> Fails) by congruence. pose proof (make_vector uone k o K W E') as H. rewrite E in H.
    assert (C : convertible k (shape_of o) <-> (length (shape_of o) <= 1)%nat) by (destruct K as [->| ->]; reflexivity). rewrite C.
    destruct (Nat.leb_spec (length (shape_of o)) 1); split; intro X; try lia; exact H. }
  destruct k.
  - pose proof (make_value uone o W E) as H. cbn [convertible]. destruct (Nat.eqb_spec (count (shape_of o)) 1) as [N|N]; split; intro C; try congruence.
    destruct H as (y & Y & M & _). exists y. split; [exact Y|]. exact M.
  - destruct Sq as (C & y & Y & M); [auto|]. split; [|contradiction]. intros _. exists y. split; [exact Y|]. exact M.
  - destruct Sq as (C & y & Y & M); [auto|]. split; [|contradiction]. intros _. exists y. split; [exact Y|]. exact M.
  - assert (E' : effect_of MScalar (knd o) <> Fails) by congruence. pose proof (make_scalar uone o W E') as H. rewrite E in H. split; intro C.
    + rewrite (convertible_scalar _ C) in H. exact H.
    + cbn [convertible] in C. destruct (shape_of o) as [|[|[|n]] [|m sh]]; try exact H; exfalso; apply C; auto.
  - apply Vc. auto.
  - apply Vc. auto.
  - assert (E' : effect_of MTensor (knd o) <> Fails) by congruence. pose proof (make_tensor uone o W E') as H. rewrite E in H. split; [|intro C; exfalso; apply C; exact I]. intros _. exact H.
  - destruct Sq as (C & y & Y & M); [auto|]. split; [|contradiction]. intros _. exists y. split; [exact Y|]. exact M.
Qed.
(** A scalar made from a vector, a sequence, a measurement or a variable, a vector or variable
    made from a plain sequence, and a tensor made from a vector, a variable or a sequence keep
    the numbers and silently lose the unit. *)
Theorem C78_unit_lost_refuted k (o : obj) : usable o -> effect_of k (knd o) = Drops -> convertible k (shape_of o) ->
  exists y, make k (XObj o) None = Ok y /\ knd y = k /\ values y = values o /\ unt y = uone.
Proof.
  intros W E C. assert (E' : effect_of k (knd o) <> Fails) by congruence.
  assert (Vc : k = MVector \/ k = MVariable -> exists y, make k (XObj o) None = Ok y /\ knd y = k /\ values y = values o /\ unt y = uone).
  { intro K. pose proof (make_vector uone k o K W E') as H. rewrite E in H.
    assert (C' : (length (shape_of o) <= 1)%nat) by (destruct K as [->| ->]; exact C). apply Nat.leb_le in C'. rewrite C' in H. destruct H as (y & Y & M1 & M2 & M3 & M4 & _). eauto. }
  destruct k; try (destruct (knd o); discriminate E).
  - pose proof (make_scalar uone o W E') as H. rewrite E, (convertible_scalar _ C) in H. destruct H as (y & Y & M1 & M2 & M3 & M4 & _). eauto.
  - apply Vc. auto.
  - apply Vc. auto.
  - pose proof (make_tensor uone o W E') as H. rewrite E in H. destruct H as (y & Y & M1 & M2 & M3 & M4 & _). eauto.
Qed.
(** Values cannot be made from physical objects, nor physical scalars, vectors and tensors
    from values. *)
Theorem C78_fails k (o : obj) : effect_of k (knd o) = Fails ->
  make k (XObj o) None = Raise (match k with MScalar => IndexError | _ => TypeError end).
Proof. destruct o as [k' d v]. cbn [knd]. intro E. destruct k, k'; try discriminate E; reflexivity. Qed.
(** A sequence or measurement made from a scalar is broken: it holds a bare number, has no
    length and cannot be subscripted. *)
Theorem C78_sequence_of_scalar_refuted k (o : obj) : proper o -> effect_of k (knd o) = Breaks ->
  exists y, make k (XObj o) None = Ok y /\ values y = values o /\ unt y = unt o /\ ~ proper y /\
    mlen y = Raise TypeError /\ forall l, getitem y l = Raise TypeError.
Proof.
  intros P E. assert (P' : usable o) by (left; exact P). pose proof (usable_cases o P') as C. destruct o as [k' d v]. cbn [knd dat unt] in *.
  assert (K : k' = MScalar) by (destruct k, k'; try discriminate E; reflexivity). subst k'. destruct C as (q & ->).
  destruct k; try discriminate E; (eexists; split; [reflexivity|]; split; [reflexivity|]; split; [reflexivity|]; split;
    [intros (A & _); apply A; reflexivity|split; [reflexivity|]; intro l; reflexivity]).
Qed.
(** A value made from a table with one number holds an array, not a number; a scalar cannot be
    made from such a tensor at all, although one can be made from a tensor with one axis. *)
Theorem C78_value_of_table_refuted (o : obj) : proper o -> sequence_like (knd o) = true -> count (shape_of o) = 1%nat -> (2 <= length (shape_of o))%nat ->
  exists y, make MValue (XObj o) None = Ok y /\ values y = values o /\ unt y = unt o /\ shape_of y = tl (shape_of o) /\ ~ proper y.
Proof.
  intros P S C L. assert (P' : usable o) by (left; exact P). assert (E : effect_of MValue (knd o) = Keeps) by (destruct (knd o); try discriminate S; reflexivity).
  pose proof (usable_cases o P') as D. destruct o as [k' d v]. cbn [knd dat unt] in *.
  assert (D' : exists a, d = DArr a /\ shape a <> []) by (destruct k'; try discriminate S; exact D). clear D. destruct D' as (a & -> & N).
  unfold shape_of in C, L |- *. cbn [dat] in C, L |- *. destruct (first_item_one a C N) as (d' & F & Fl & _).
  unfold MeasuredModel.make, wrapped, refused, value_args. cbn [knd dat unt data_size arr_of].
  assert (Sh : shape (arr_of d') = tl (shape a) /\ exists b, d' = DArr b).
  { unfold first_item in F. destruct (shape a) as [|n [|m sh]] eqn:E'; [congruence|cbn in L; lia|]. destruct n; [discriminate F|]. injection F as <-. cbn. eauto. }
  destruct Sh as (Sh & b & ->). cbn [arr_of] in *.
  assert (R : (r <- (n <- match shape a with [] => Raise TypeError | _ => Ok (nd_size a) end ;; if Nat.eqb n 1 then d <- first_item a ;; Ok (d, Some v) else Raise TypeError) ;;
               Ok (mkm MValue (fst r) (unit_or_one uone (snd r)))) = Ok (mkm MValue (DArr b) v)).
  { rewrite size_count, C. destruct (shape a); [congruence|]. cbn [bind Nat.eqb]. rewrite F. reflexivity. }
  exists (mkm MValue (DArr b) v). split; [destruct k'; try discriminate S; exact R|].
  split; [rewrite !values_flat; exact Fl|]. split; [reflexivity|]. cbn [shape_of dat]. split; [exact Sh|].
  intros (_ & A & _). destruct (A eq_refl) as (q & Q). discriminate Q.
Qed.
Theorem C78_scalar_of_table (o : obj) : usable o -> tensor_like (knd o) = true -> count (shape_of o) = 1%nat ->
  (length (shape_of o) = 1%nat -> exists y, make MScalar (XObj o) None = Ok y /\ values y = values o /\ unt y = unt o) /\
  ((2 <= length (shape_of o))%nat -> make MScalar (XObj o) None = Raise TypeError).
Proof.
  intros W S C. assert (E : effect_of MScalar (knd o) = Keeps) by (destruct (knd o); try discriminate S; reflexivity).
  destruct (C78_keeps MScalar o W E) as (H1 & H2). split; intro L.
  - destruct H1 as (y & Y & _ & _ & V & T & _); [|eauto]. cbn [convertible]. right. destruct (shape_of o) as [|n [|m sh]]; try discriminate L. cbn in C. f_equal. lia.
  - apply H2. cbn [convertible]. intros [X|X]; rewrite X in L; cbn in L; lia.
Qed.
(** Any chain of conversions that keep the unit keeps the numbers and the unit. *)
Fixpoint through (o : obj) (ks : list mkind) : result obj :=
  match ks with [] => Ok o | k :: r => y <- make k (XObj o) None ;; through y r end.
Theorem C78_chain ks : forall (o y : obj), usable o -> keeping (knd o) ks -> through o ks = Ok y ->
  usable y /\ values y = values o /\ unt y = unt o.
Proof.
  induction ks as [|k ks IH]; intros o y W K H; cbn [keeping through] in K, H; [injection H as <-; auto|]. destruct K as [K1 K2].
  destruct (make k (XObj o) None) as [t|] eqn:E; [|discriminate H]. cbn [bind] in H. destruct (C78_keeps k o W K1) as (A & B).
  assert (X : knd t = k /\ usable t /\ values t = values o /\ unt t = unt o).
  { assert (D : convertible k (shape_of o) \/ ~ convertible k (shape_of o)).
    { unfold convertible. destruct k; cbv beta iota; auto; try (destruct (Nat.eq_dec (count (shape_of o)) 1); auto; fail); try (destruct (le_dec (length (shape_of o)) 1); auto; fail).
      destruct (list_eq_dec Nat.eq_dec (shape_of o) []); [auto|]. destruct (list_eq_dec Nat.eq_dec (shape_of o) [1%nat]); [auto|]. tauto. }
    destruct D as [D|D]; [|rewrite (B D) in E; discriminate E]. destruct (A D) as (y' & Y & R1 & R2 & R3 & R4 & _). rewrite Y in E. injection E as <-. auto. }
  destruct X as (X1 & X2 & X3 & X4). subst k. destruct (IH t y X2 K2 H) as (Z1 & Z2 & Z3). split; [exact Z1|]. split; congruence.
Qed.
(** [measure] always gives a measurement with the same numbers and unit. *)
Theorem C78_measure (o : obj) : proper o -> exists y, measure uone o = Ok y /\ knd y = MMeasurement /\ proper y /\ values y = values o /\ unt y = unt o.
Proof.
  intro P. unfold measure.
  assert (G : exists y, make MMeasurement (raw (dat o)) (Some (unt o)) = Ok y /\ knd y = MMeasurement /\ proper y /\ values y = values o /\ unt y = unt o).
  { destruct (make_plain uone MMeasurement (raw (dat o)) (Some (unt o))) as (y & Y & K & Py & V & T).
    - destruct (dat o); cbn; [exact I|left; discriminate].
    - destruct (dat o); exact I.
    - exists y. repeat split; auto; try apply Py. rewrite V. unfold values. destruct (dat o); reflexivity. }
  destruct (knd o) eqn:K; try exact G. exists o. auto.
Qed.

(** ** Subscripts *)
(** Integers and slices: the object that is returned holds exactly what they select, in the
    unit of the original.  A single number gives a Scalar (vectors, tensors: only if at most
    one axis is left) or a Value (measurements and sequences), anything else an object of the
    same class. *)
Theorem C78_subscripts (o : obj) l sh : proper o -> tensor_like (knd o) = true \/ knd o = MVector -> knd o <> MArray -> leaves l (shape_of o) sh ->
  exists y, getitem o l = Ok y /\ knd y = (match sh with [] | [1%nat] => MScalar | _ => knd o end) /\ selection o l sh y.
Proof. intros P K N L. pose proof (getitem_many uone o l sh P L) as G. destruct (knd o); try exact G; destruct K as [K|K]; try discriminate K; congruence. Qed.
Theorem C78_sequence_subscripts (o : obj) l sh : proper o -> knd o = MMeasurement \/ (knd o = MSequence /\ length (shape_of o) = 1%nat) -> leaves l (shape_of o) sh ->
  exists y, getitem o l = Ok y /\ knd y = (if Nat.eqb (count sh) 1 then MValue else knd o) /\ selection o l sh y.
Proof. intros P K L. pose proof (getitem_many uone o l sh P L) as G. destruct K as [K|[K N]]; rewrite K in *; [exact G|exact (G N)]. Qed.
Lemma norm_in n z : (- Z.of_nat n <= z < Z.of_nat n)%Z -> norm_index n z = Some (Z.to_nat (if (z <? 0)%Z then z + Z.of_nat n else z)%Z).
Proof.
  intro H. unfold norm_index. destruct (z <? 0)%Z eqn:L; [apply Z.ltb_lt in L|apply Z.ltb_ge in L].
  - assert (A : (z + Z.of_nat n <? 0)%Z = false) by (apply Z.ltb_ge; lia). assert (B : (Z.of_nat n <=? z + Z.of_nat n)%Z = false) by (apply Z.leb_gt; lia). rewrite A, B. reflexivity.
  - assert (A : (z <? 0)%Z = false) by (apply Z.ltb_ge; lia). assert (B : (Z.of_nat n <=? z)%Z = false) by (apply Z.leb_gt; lia). rewrite A, B. reflexivity.
Qed.
Lemma norm_out n z : (z < - Z.of_nat n \/ Z.of_nat n <= z)%Z -> norm_index n z = None.
Proof.
  intro H. unfold norm_index. destruct (z <? 0)%Z eqn:L; [apply Z.ltb_lt in L|apply Z.ltb_ge in L].
  - assert (A : (z + Z.of_nat n <? 0)%Z = true) by (apply Z.ltb_lt; lia). rewrite A. reflexivity.
  - assert (A : (z <? 0)%Z = false) by (apply Z.ltb_ge; lia). assert (B : (Z.of_nat n <=? z)%Z = true) by (apply Z.leb_le; lia). rewrite A, B. reflexivity.
Qed.
Lemma values_line (o : obj) a n : dat o = DArr a -> shape a = [n] -> values o = map (fun i => elem a [i]) (seq 0 n).
Proof.
  intros D E. unfold values. rewrite D, E. cbn [indices]. generalize (seq 0 n) as l. induction l as [|i l IH]; [reflexivity|]. cbn [flat_map map app]. f_equal. exact IH.
Qed.
Lemma line_nth (o : obj) a n i : dat o = DArr a -> shape a = [n] -> (i < n)%nat -> nth_error (values o) i = Some (elem a [i]).
Proof. intros D E I. rewrite (values_line o a n D E). rewrite nth_error_map, nth_error_nth' with (d := 0%nat) by (rewrite seq_length; exact I). rewrite seq_nth by exact I. reflexivity. Qed.
(** One integer on an object with one axis, from the end if negative. *)
Theorem C78_index (o : obj) z : proper o -> length (shape_of o) = 1%nat -> knd o = MVector \/ sequence_like (knd o) = true ->
  (forall i, (i < length (values o))%nat -> z = Z.of_nat i \/ z = (Z.of_nat i - Z.of_nat (length (values o)))%Z ->
     exists q, nth_error (values o) i = Some q /\ getitem o [SInt z] = Ok (mkm (if sequence_like (knd o) then MValue else MScalar) (DNum q) (unt o))) /\
  ((z < - Z.of_nat (length (values o)) \/ Z.of_nat (length (values o)) <= z)%Z -> getitem o [SInt z] = Raise IndexError).
Proof.
  intros P L K.
  assert (X : exists a n, dat o = DArr a /\ shape a = [n] /\ getitem o [SInt z] = match norm_index n z with
    | Some i => Ok (mkm (if sequence_like (knd o) then MValue else MScalar) (DNum (elem a [i])) (unt o)) | None => Raise IndexError end).
  { destruct K as [K|K].
    - destruct (vector_int uone o z K P) as (a & n & D & E & G). exists a, n. split; [exact D|]. split; [exact E|]. rewrite K. exact G.
    - assert (P' : usable o) by (left; exact P). pose proof (usable_cases o P') as C. assert (C' : exists a, dat o = DArr a /\ shape a <> []) by (destruct (knd o); try discriminate K; exact C).
      destruct C' as (a & D & N). unfold shape_of in L. rewrite D in L. destruct (shape a) as [|n [|m sh]] eqn:E; try discriminate L. exists a, n. split; [exact D|]. split; [exact E|].
      rewrite K. assert (K' : knd o = MSequence \/ knd o = MMeasurement) by (destruct (knd o); try discriminate K; auto). exact (sequence_int uone o z a n K' D E). }
  destruct X as (a & n & D & E & G). assert (Ln : length (values o) = n) by (rewrite (values_line o a n D E), map_length, seq_length; reflexivity). rewrite Ln. split.
  - intros i I Z. exists (elem a [i]). split; [apply (line_nth o a n); assumption|]. rewrite G, norm_in by lia. do 3 f_equal.
    assert (X : Z.to_nat (if (z <? 0)%Z then (z + Z.of_nat n)%Z else z) = i) by (destruct (z <? 0)%Z eqn:Lz; [apply Z.ltb_lt in Lz|apply Z.ltb_ge in Lz]; lia). rewrite X. reflexivity.
  - intro Z. rewrite G, norm_out by exact Z. reflexivity.
Qed.
(** The same with an ellipsis in front: a measurement or sequence gives the same value; a vector
    does not give a scalar, but raises IndexError for an index that exists. *)
Theorem C78_ellipsis_refuted (o : obj) z : proper o -> knd o = MVector -> (- Z.of_nat (length (values o)) <= z < Z.of_nat (length (values o)))%Z ->
  getitem o [SEll; SInt z] = Raise IndexError /\ exists y, getitem o [SInt z] = Ok y.
Proof.
  intros P K Z. destruct (vector_int uone o z K P) as (a & n & D & E & G). assert (Ln : length (values o) = n) by (rewrite (values_line o a n D E), map_length, seq_length; reflexivity). rewrite Ln in Z.
  rewrite G, norm_in by exact Z. split; [|eauto]. destruct o as [k d v]. cbn [knd dat unt] in *. subst k d. unfold MeasuredModel.getitem. cbn [knd dat unt]. unfold subscript.
  unfold ndim. rewrite E. cbn [existsb is_ell orb length]. unfold numpy_ellipsis. cbn. unfold numpy_getitem, nd_basic. rewrite E. cbn [basics tl bind basic_shape]. rewrite norm_in by exact Z. reflexivity.
Qed.

(** Variables: like vectors for indices that exist, except that the result is always a Scalar. *)
Theorem C78_variable_index (o : obj) z : proper o -> knd o = MVariable ->
  let n := Z.of_nat (length (values o)) in
  (forall i, (i < length (values o))%nat -> z = Z.of_nat i \/ z = (Z.of_nat i - n)%Z ->
     exists q, nth_error (values o) i = Some q /\ getitem o [SInt z] = Ok (mkm MScalar (DNum q) (unt o))) /\
  ((z < - (2 * n) \/ n <= z)%Z -> getitem o [SInt z] = Raise IndexError).
Proof.
  intros P K. destruct (variable_int uone o z K P) as (a & n & D & E & G). assert (Ln : length (values o) = n) by (rewrite (values_line o a n D E), map_length, seq_length; reflexivity).
  cbv zeta. rewrite Ln. split.
  - intros i I Z. exists (elem a [i]). split; [apply (line_nth o a n); assumption|]. rewrite G. destruct (z <? 0)%Z eqn:L; [apply Z.ltb_lt in L|apply Z.ltb_ge in L].
    + rewrite norm_in by lia. assert (X : (z + Z.of_nat n <? 0)%Z = false) by (apply Z.ltb_ge; lia). rewrite X. assert (Y : Z.to_nat (z + Z.of_nat n) = i) by lia. rewrite Y. reflexivity.
    + rewrite norm_in by lia. assert (X : (z <? 0)%Z = false) by (apply Z.ltb_ge; lia). rewrite X. assert (Y : Z.to_nat z = i) by lia. rewrite Y. reflexivity.
  - intro Z. rewrite G. destruct (z <? 0)%Z eqn:L; [apply Z.ltb_lt in L|apply Z.ltb_ge in L]; rewrite norm_out by lia; reflexivity.
Qed.
(** An index up to one length before the first element is not refused: it wraps around. *)
Theorem C78_variable_wraps_refuted (o : obj) i : proper o -> knd o = MVariable -> (i < length (values o))%nat ->
  exists q, nth_error (values o) i = Some q /\
    getitem o [SInt (Z.of_nat i - 2 * Z.of_nat (length (values o)))] = Ok (mkm MScalar (DNum q) (unt o)).
Proof.
  intros P K I. destruct (variable_int uone o (Z.of_nat i - 2 * Z.of_nat (length (values o)))%Z K P) as (a & n & D & E & G).
  assert (Ln : length (values o) = n) by (rewrite (values_line o a n D E), map_length, seq_length; reflexivity). rewrite Ln in *.
  exists (elem a [i]). split; [apply (line_nth o a n); assumption|]. rewrite G.
  assert (X : (Z.of_nat i - 2 * Z.of_nat n <? 0)%Z = true) by (apply Z.ltb_lt; lia). rewrite X. rewrite norm_in by lia.
  assert (Y : (Z.of_nat i - 2 * Z.of_nat n + Z.of_nat n <? 0)%Z = true) by (apply Z.ltb_lt; lia). rewrite Y.
  assert (Y' : Z.to_nat (Z.of_nat i - 2 * Z.of_nat n + Z.of_nat n + Z.of_nat n) = i) by lia. rewrite Y'. reflexivity.
Qed.
(** A slice gives a Variable with exactly what it selects, even if that is one number; a slice
    that selects nothing fails. *)
Theorem C78_variable_slice (o : obj) sl p : proper o -> knd o = MVariable -> selects_axis (SSlice sl) (length (values o)) p ->
  if Nat.eqb (length p) 0 then getitem o [SSlice sl] = Raise TypeError
  else exists y, getitem o [SSlice sl] = Ok y /\ knd y = MVariable /\ selection o [SSlice sl] [length p] y.
Proof.
  intros P K S. assert (X : hd 0%nat (shape_of o) = length (values o)).
  { assert (P' : usable o) by (left; exact P). pose proof (usable_cases o P') as C. rewrite K in C. destruct C as (a & n & D & E).
    rewrite (values_line o a n D E), map_length, seq_length. unfold shape_of. rewrite D, E. reflexivity. }
  rewrite <- X in S. destruct (variable_slice uone o sl p K P S) as (a & _ & G). exact G.
Qed.

(** ** Iteration *)
(** Vectors, variables, tensors and arrays give one scalar for each number, in order, however
    many axes they have. *)
Theorem C78_iteration fuel (o : obj) : vector_like (knd o) = true \/ tensor_like (knd o) = true ->
  items uone fuel o = Ok (map (fun q => mkm MScalar (DNum q) (unt o)) (values o)).
Proof.
  intro K. unfold items. rewrite items_numbers. rewrite values_flat. destruct K as [K|K]; destruct (knd o); try discriminate K; reflexivity.
Qed.
(** Sequences and measurements with one axis give one value for each number, in order. *)
Theorem C78_sequence_iteration fuel (o : obj) : proper o -> sequence_like (knd o) = true -> length (shape_of o) = 1%nat -> (length (values o) < fuel)%nat ->
  items uone fuel o = Ok (map (fun q => mkm MValue (DNum q) (unt o)) (values o)).
Proof.
  intros P K L Fu. assert (P' : usable o) by (left; exact P). pose proof (usable_cases o P') as C. assert (C' : exists a, dat o = DArr a /\ shape a <> []) by (destruct (knd o); try discriminate K; exact C).
  destruct C' as (a & D & N). unfold shape_of in L. rewrite D in L. destruct (shape a) as [|n [|m sh]] eqn:E; try discriminate L. rewrite (values_line o a n D E) in Fu |- *. rewrite map_length, seq_length in Fu.
  assert (K' : knd o = MSequence \/ knd o = MMeasurement) by (destruct (knd o); try discriminate K; auto).
  pose proof (items_seq uone o a n K' D E n 0 fuel eq_refl Fu) as I. rewrite map_map. unfold items. destruct K' as [-> | ->]; exact I.
Qed.

(** ** Casts *)
(** float(x): the number itself, if the object has exactly one; plain sequences, vectors and
    tensors have no casts; a variable does not check how many numbers it has. *)
Theorem C78_casts (o : obj) : proper o -> mfloat o =
  match knd o with
  | MSequence | MVector | MTensor => Raise TypeError
  | MVariable => match values o with [] => Raise IndexError | q :: _ => Ok q end
  | _ => match values o with [q] => Ok q | _ => Raise TypeError end
  end.
Proof.
  intro P. assert (P' : usable o) by (left; exact P). pose proof (usable_cases o P') as C. unfold mfloat, cast_number.
  assert (Many : forall a, dat o = DArr a -> shape a <> [] -> (n <- data_size (dat o) ;; if Nat.eqb n 1 then Ok (flat_first (arr_of (dat o))) else Raise TypeError)
    = match values o with [q] => Ok q | _ => Raise TypeError end).
  { intros a D N. rewrite values_flat, D. cbn [arr_of data_size]. destruct (Nat.eqb (nd_size a) 1) eqn:E.
    - apply Nat.eqb_eq in E. rewrite size_count in E. rewrite (flat_single a E), size_count, E. destruct (shape a); [congruence|reflexivity].
    - assert (L : length (flat a) = nd_size a) by (unfold flat; rewrite map_length, indices_length; reflexivity).
      destruct (shape a); [congruence|]. cbn [bind]. rewrite E. rewrite <- L in E. destruct (flat a) as [|q [|q' ll]]; [reflexivity|discriminate E|reflexivity]. }
  unfold proper in P. destruct (knd o) eqn:K; try reflexivity.
  - destruct P as (_ & Q & _). destruct (Q eq_refl) as (q & D). unfold values. rewrite D. reflexivity.
  - destruct C as (a & D & N). apply (Many a D N).
  - destruct C as (q & D). unfold values. rewrite D. reflexivity.
  - destruct C as (a & n & D & E). rewrite (values_line o a n D E). rewrite D. cbn [arr_of]. unfold first_item. rewrite E. destruct n; reflexivity.
  - destruct C as (a & D & N). apply (Many a D N).
Qed.
(** So float() of a variable with many numbers gives the first, instead of failing. *)
Theorem C78_variable_cast_refuted (o : obj) q l : proper o -> knd o = MVariable -> values o = q :: l -> mfloat o = Ok q.
Proof. intros P K V. rewrite C78_casts by exact P. rewrite K, V. reflexivity. Qed.
(** int(x) truncates float(x), and fails when float(x) does. *)
Theorem C78_int (o : obj) : (forall q, mfloat o = Ok q -> exists z, mint o = Ok z /\ rounds Rtrunc q z) /\
  (forall e, mfloat o = Raise e -> mint o = Raise e).
Proof.
  unfold mint. fold (mfloat o). split; intros q H; rewrite H; [|reflexivity]. cbn [bind]. destruct (rounded_spec Rtrunc q) as (z & E & R). cbn [rounded] in E. apply zq_inj in E. rewrite E. eauto.
Qed.
(** complex(x) gives the same number, but never works for scalars. *)
Theorem C78_complex_refuted (o : obj) : mcomplex o = if match knd o with MScalar => true | _ => false end then Raise TypeError else mfloat o.
Proof. unfold mcomplex, mfloat. destruct (knd o); reflexivity. Qed.
(** round, floor, ceil and trunc of a scalar or of a variable: the rounded number, in the same
    unit. *)
Theorem C78_rounding r (o : obj) q : knd o = MScalar \/ knd o = MVariable -> mfloat o = Ok q ->
  exists z, mround uone r o = Ok (mkm MScalar (DNum (zq z)) (unt o)) /\ rounds r q z /\ forall z', rounds r q z' -> z' = z.
Proof.
  intros K F. unfold mfloat in F. destruct (rounded_spec r q) as (z & E & R). exists z. split; [|split; [exact R|intros z' R'; eapply rounds_unique; eassumption]].
  unfold mround. destruct K as [-> | ->]; rewrite F; cbn [bind]; rewrite E; reflexivity.
Qed.

(** ** Conversion *)
Section Conversion.
Variables (ueq : U -> U -> bool) (factor : U -> U -> option Qc) (consistent : U -> U -> bool).
Notation withunit := (mwithunit ueq uone factor consistent).
(** The numbers are multiplied by the conversion factor and the unit is the new one; an equal
    unit gives the object itself; without a factor there is an error. *)
Theorem C78_withunit (o : obj) v : proper o ->
  match factor (unt o) v with
  | Some w => exists y, withunit o v = Ok y /\ knd y = knd o /\ proper y /\
      (ueq (unt o) v = true -> y = o) /\ (ueq (unt o) v = false -> unt y = v /\ values y = map (Qcmult w) (values o))
  | None => withunit o v = Raise (if consistent (unt o) v then OtherError "UnitConversionError" else ValueError)
  end.
Proof.
  intro P. unfold mwithunit, mfactor. destruct (factor (unt o) v) as [w|]; [|destruct (consistent (unt o) v); reflexivity]. cbn [bind].
  destruct (ueq (unt o) v); [exists o; repeat split; try apply P; try reflexivity; discriminate|].
  assert (X : plain (knd o) (@raw U (scaled w (dat o))) /\ accepts (knd o) (@raw U (scaled w (dat o)))).
  { assert (P' : usable o) by (left; exact P). pose proof (usable_cases o P') as C. destruct P as (_ & Q & _). destruct (knd o);
      try (destruct (Q eq_refl) as (q & ->)); try (destruct C as (a & n & -> & E)); try (destruct C as (a & -> & E)); cbn; rewrite ?E; eauto; (split; eauto; try (left; discriminate)). }
  destruct X as [X1 X2]. destruct (make_plain uone (knd o) (raw (scaled w (dat o))) (Some v) X1 X2) as (y & Y & K & Py & V & T).
  exists y. split; [exact Y|]. split; [exact K|]. split; [exact Py|]. split; [discriminate|]. intros _. split; [exact T|]. rewrite V. unfold values. destruct (dat o); [reflexivity|]. cbn [scaled raw raw_values nd_map shape elem].
  rewrite map_map. reflexivity.
Qed.
(** float() and conversion commute. *)
Theorem C78_withunit_float (o y : obj) v w q : proper o -> factor (unt o) v = Some w -> ueq (unt o) v = false -> withunit o v = Ok y -> mfloat o = Ok q ->
  mfloat y = Ok (w * q).
Proof.
  intros P Fa E H Fl. pose proof (C78_withunit o v P) as W. rewrite Fa in W. destruct W as (y' & Y & K & Py & _ & R). rewrite Y in H. injection H as <-. destruct (R E) as (_ & V).
  rewrite C78_casts in Fl |- * by assumption. rewrite K, V. destruct (values o) as [|a [|b l]]; cbn [map]; destruct (knd o); try discriminate Fl; injection Fl as <-; reflexivity.
Qed.
End Conversion.
End Properties.
Print Assumptions C78_refuses_units.
Print Assumptions C78_from_numbers.
Print Assumptions C78_shapes.
Print Assumptions C78_keeps.
Print Assumptions C78_unit_lost_refuted.
Print Assumptions C78_fails.
Print Assumptions C78_sequence_of_scalar_refuted.
Print Assumptions C78_value_of_table_refuted.
Print Assumptions C78_scalar_of_table.
Print Assumptions C78_chain.
Print Assumptions C78_measure.
Print Assumptions C78_subscripts.
Print Assumptions C78_sequence_subscripts.
Print Assumptions C78_index.
Print Assumptions C78_ellipsis_refuted.
Print Assumptions C78_variable_index.
Print Assumptions C78_variable_wraps_refuted.
Print Assumptions C78_variable_slice.
Print Assumptions C78_iteration.
Print Assumptions C78_sequence_iteration.
Print Assumptions C78_casts.
Print Assumptions C78_variable_cast_refuted.
Print Assumptions C78_int.
Print Assumptions C78_complex_refuted.
Print Assumptions C78_rounding.
Print Assumptions C78_withunit.
Print Assumptions C78_withunit_float.

(** ** The hypotheses are met: units are numbers here, 1 is '1' *)
Definition three : nd Qc := mknd [3%nat] (fun ix => zq (Z.of_nat (nth 0 ix 0%nat) + 1)).
Definition table : nd Qc := mknd [2%nat; 3%nat] (fun ix => zq (Z.of_nat (3 * nth 0 ix 0 + nth 1 ix 0)%nat)).
Definition one_one : nd Qc := mknd [1%nat; 1%nat] (fun _ => zq 7).
Definition vec : @mobj nat := mkm MVector (DArr three) 5%nat.
Definition var : @mobj nat := mkm MVariable (DArr three) 5%nat.
Definition meas : @mobj nat := mkm MMeasurement (DArr table) 5%nat.
Definition tens : @mobj nat := mkm MTensor (DArr table) 5%nat.
Ltac show := split; [try reflexivity; try discriminate; try (eexists; reflexivity)|split; intro; try discriminate; eexists; reflexivity].
Example vec_proper : proper vec. Proof. show. Qed.
Example var_proper : proper var. Proof. show. Qed.
Example meas_proper : proper meas. Proof. show. Qed.
Example tens_proper : proper tens. Proof. show. Qed.
Example ex_plain : plain MVector (@XArr nat three) /\ accepts MVector (@XArr nat three) /\ ~ accepts MVector (@XArr nat table) /\
  exists y, make 1%nat MVector (XArr three) (Some 5%nat) = Ok y /\ values y = [zq 1; zq 2; zq 3] /\ unt y = 5%nat.
Proof.
  split; [left; discriminate|]. split; [eexists; reflexivity|]. split; [intros (n & H); discriminate H|]. eexists. split; [reflexivity|]. split; reflexivity.
Qed.
Example ex_chain : keeping (knd meas) [MTensor; MArray; MSequence; MMeasurement] /\
  match through 1%nat meas [MTensor; MArray; MSequence; MMeasurement] with Ok y => unt y = 5%nat /\ length (values y) = 6%nat | _ => False end.
Proof. split; [cbn; auto 10|split; reflexivity]. Qed.
Example ex_lost : effect_of MTensor (knd vec) = Drops /\ convertible MTensor (shape_of vec) /\
  match make 1%nat MTensor (XObj vec) None with Ok y => unt y = 1%nat | _ => False end.
Proof. split; [reflexivity|]. split; [exact I|reflexivity]. Qed.
Example ex_breaks : proper (@mkm nat MScalar (DNum (zq 2)) 5%nat) /\ effect_of MSequence MScalar = Breaks. Proof. split; [show|reflexivity]. Qed.
Example ex_table : let o := @mkm nat MMeasurement (DArr one_one) 5%nat in proper o /\ count (shape_of o) = 1%nat /\ length (shape_of o) = 2%nat. Proof. split; [show|split; reflexivity]. Qed.
(** table[1, ::2] *)
Definition every_other : pyslice := {| sl_start := None; sl_stop := None; sl_step := Some 2%Z |}.
Example ex_leaves : leaves [SInt 1; SSlice every_other] (shape_of tens) [2%nat].
Proof.
  apply leaves_int with (j := 1%nat); [exact (sel_int 1 2 ltac:(lia))|].
  apply leaves_slice with (p := [0; 2]%nat); [constructor; apply slice_positions_selects; vm_compute; reflexivity|constructor].
Qed.
Example ex_getitem : match getitem 1%nat tens [SInt 1; SSlice every_other] with Ok y => values y = [zq 3; zq 5] /\ unt y = 5%nat | _ => False end.
Proof. split; reflexivity. Qed.
Example ex_index : match getitem 1%nat vec [SInt (-1)] with Ok y => values y = [zq 3] /\ knd y = MScalar | _ => False end /\
  getitem 1%nat vec [SInt (-4)] = Raise IndexError /\ match getitem 1%nat var [SInt (-4)] with Ok y => values y = [zq 3] | _ => False end.
Proof. split; [split; reflexivity|]. split; reflexivity. Qed.
Example ex_cast : mfloat var = Ok (zq 1) /\ mfloat vec = Raise TypeError /\ mint (@mkm nat MScalar (DNum (mkq (-7) 2)) 5%nat) = Ok (-3)%Z.
Proof. repeat split. Qed.
Example ex_round : match mround 1%nat Rround (@mkm nat MScalar (DNum (mkq 5 2)) 5%nat) with Ok y => values y = [zq 2] | _ => False end.
Proof. reflexivity. Qed.
Example ex_withunit : match mwithunit Nat.eqb 1%nat (fun u v => Some (zq 1000)) (fun _ _ => true) vec 6%nat with Ok y => values y = [zq 1000; zq 2000; zq 3000] /\ unt y = 6%nat | _ => False end.
Proof. split; [|reflexivity]. cbv [values mwithunit mfactor bind Nat.eqb vec unt knd dat scaled raw make wrapped refused vector_args vector_of_array]. vm_compute. repeat f_equal; apply Qc_is_canon; reflexivity. Qed.
