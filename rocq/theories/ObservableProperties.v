(** * Properties of observable quantities: C44, C66 *)
From Verif Require Import PyBase PyLemmas ContainerModel ContainerSpec ContainerProofs ContainerProofs2 ContainerProperties Nd IndexModel IndexSpec IndexProofs IndexProofs2 IndexProperties ArrayModel ArraySpec ArrayProofs ArrayProofs2 AxesModel AxesSpec AxisModel AxisSpec AxisProofs AxesProperties PhysicalModel PhysicalSpec PhysicalProofs PhysicalProofs2 PhysicalProofs3 PhysicalProperties AtomicModel ObservableModel ObservableSpec ObservableProofs.

Section C44.
Set Default Proof Using "Type".
Context {U B : Type}.
Variables (ueq : U -> U -> bool) (umul udiv : U -> U -> result U) (upow : U -> Qc -> result U) (uone : U) (uinv : U -> result U).
Variables (factor : U -> U -> option Qc) (consistent : U -> U -> bool) (size : U -> Qc).
Variables (beq : B -> B -> bool) (blen : B -> nat) (bin : B -> B -> bool) (is_length : U -> bool).
(** conversion factors are the ratios of the sizes of the units (C21, C22) *)
Hypothesis M : measures ueq factor size.
Notation qty := (quantity (U := U) (B := B)).
Notation arr := (parr (U := U) (B := B)).
Notation ctx := (context (U := U)).
Notation at_constraints := (getitem (B := B) ueq uone factor consistent is_length).
Notation addq := (qadditive (B := B) ueq uone beq blen bin).
Notation mulq := (qmultiplicative (B := B) umul udiv uinv).
Notation powq := (qpower (B := B) upow).
Notation convertq := (qwithunit (B := B) ueq consistent).

(** ** What an observation is: the operator's array, in the unit of the quantity *)
Lemma getitem_inv c q g a : at_constraints c q g = Ok a -> exists l user args r,
  normalize_given (length (qdims q)) g = Ok l /\ length l = length (qdims q) /\ constraints is_length (combine (qdims q) l) = Ok user /\
  implement ueq uone factor consistent c user = Ok args /\ operator q args = Ok r /\ in_unit ueq factor consistent q r = Ok a.
Proof.
  unfold getitem, observe. intros H. destruct (normalize_given _ g) as [l|]; [|discriminate]. cbn [bind] in H.
  destruct (Nat.eqb_spec (length l) (length (qdims q))) as [E|]; [|discriminate]. cbn [negb] in H.
  destruct (constraints is_length _) as [user|] eqn:E1; [|discriminate]. cbn [bind] in H.
  destruct (implement _ _ _ _ c user) as [args|] eqn:E2; [|discriminate]. cbn [bind] in H.
  destruct (operator q args) as [r|] eqn:E3; [|discriminate]. cbn [bind] in H. exists l, user, args, r. auto 7.
Qed.
Lemma getitem_eval c q g l user args r : normalize_given (length (qdims q)) g = Ok l -> length l = length (qdims q) -> constraints is_length (combine (qdims q) l) = Ok user ->
  implement ueq uone factor consistent c user = Ok args -> operator q args = Ok r -> at_constraints c q g = in_unit ueq factor consistent q r.
Proof. intros H1 H2 H3 H4 H5. unfold getitem, observe. rewrite H1. cbn [bind]. rewrite H2, Nat.eqb_refl. cbn [negb]. rewrite H3. cbn [bind]. rewrite H4. cbn [bind]. rewrite H5. reflexivity. Qed.
Lemma in_unit_ok (q : qty) (x y : arr) : tidy x -> scale x = 1%Qc -> in_unit ueq factor consistent q (PArr x) = Ok y ->
  tidy y /\ size (aunit y) = size (qunit q) /\ (aunit y = qunit q \/ ueq (aunit y) (qunit q) = true) /\ paxes y = paxes x /\
  (forall d n, axis_len (face y) d n <-> axis_len (face x) d n) /\ forall c, amount_at size y c = amount_at size x c.
Proof using M.
  intros T S H. unfold in_unit in H. destruct (consistent (aunit x) (qunit q)); [|discriminate].
  destruct (C27_first_conversion_partial ueq factor consistent size M x y (qunit q) T S H) as (Ty & Uy & Ay & Ly & Vy).
  split; [exact Ty|]. split; [|split; [|auto]].
  - destruct Uy as [->|[-> E]]; [reflexivity|exact (equal_sizes _ _ _ M _ _ E)].
  - destruct Uy as [->|[-> E]]; auto.
Qed.
Theorem C44_observation_unit c (q : qty) g a : yields_arrays q -> at_constraints c q g = Ok a ->
  tidy a /\ size (aunit a) = size (qunit q) /\ (aunit a = qunit q \/ ueq (aunit a) (qunit q) = true).
Proof using M.
  intros Y H. destruct (getitem_inv c q g a H) as (l & user & args & r & _ & _ & _ & _ & O & I). destruct (Y args r O) as (x & -> & T & S).
  destruct (in_unit_ok q x a T S I) as (H1 & H2 & H3 & _). auto.
Qed.
(** the number of subscripts must be the number of dimensions *)
Theorem C44_too_many_subscripts c (q : qty) (m : str -> uval) l : length (qdims q) < length l -> at_constraints c q (Tuple (map (fun d => It (m d)) l)) = Raise IndexError.
Proof.
  intros H. unfold getitem, normalize_given, expand_items. rewrite map_length, (proj2 (Nat.ltb_lt _ _) H).
  assert (E : is_ellipsis (last (map (fun d : str => It (m d)) l) Ell) = false).
  { destruct l as [|x l] using rev_ind; [cbn in H; inversion H|]. rewrite map_app. cbn [map]. rewrite last_last. reflexivity. }
  rewrite E. reflexivity.
Qed.

(** ** Sums and differences *)
Lemma names_eqb_eq a b : names_eqb a b = true -> a = b.
Proof. revert b. induction a as [|x a IH]; intros [|y b]; cbn [names_eqb]; try discriminate; [reflexivity|]. intros H. apply andb_true_iff in H as (H1 & H2). apply str_eqb_eq in H1. rewrite H1, (IH b H2). reflexivity. Qed.
Lemma names_eqb_refl a : names_eqb a a = true.
Proof. induction a as [|x a IH]; [reflexivity|]. cbn [names_eqb]. rewrite str_eqb_refl. exact IH. Qed.
Theorem C44_sum_exactly_when (f : Qc -> Qc -> Qc) (q1 q2 : qty) :
  ((exists q, addq f q1 q2 = Ok q) <-> ueq (qunit q1) (qunit q2) = true /\ qdims q1 = qdims q2) /\
  (forall q, addq f q1 q2 = Ok q -> qunit q = qunit q1 /\ qdims q = qdims q1) /\
  (forall e, addq f q1 q2 = Raise e -> e = ValueError).
Proof.
  unfold qadditive, equal_metadata. destruct (ueq (qunit q1) (qunit q2)); cbn [andb].
  - destruct (names_eqb (qdims q1) (qdims q2)) eqn:E.
    + apply names_eqb_eq in E. split; [split; [auto|eauto]|]. split; [intros q [= <-]; auto|discriminate].
    + split; [split; [intros (q & H); discriminate|intros (_ & H); rewrite H, names_eqb_refl in E; discriminate]|]. split; [discriminate|congruence].
  - split; [split; [intros (q & H); discriminate|intros (H & _); discriminate]|]. split; [discriminate|congruence].
Qed.
Lemma sum_operator f (q1 q2 q : qty) args r : addq f q1 q2 = Ok q -> operator q args = Ok r ->
  exists r1 r2, operator q1 args = Ok r1 /\ operator q2 args = Ok r2 /\ padditive ueq uone beq blen bin f r1 r2 = Ok r.
Proof.
  unfold qadditive. destruct equal_metadata; [|discriminate]. intros [= <-]. cbn [apply_op operator].
  destruct (operator q1 args) as [r1|]; [|discriminate]. cbn [bind]. destruct (operator q2 args) as [r2|]; [|discriminate]. cbn [bind]. eauto.
Qed.
Theorem C44_sum (f : Qc -> Qc -> Qc) (q1 q2 q : qty) c g a a1 a2 : additive_op f -> yields_arrays q1 -> yields_arrays q2 ->
  addq f q1 q2 = Ok q -> at_constraints c q g = Ok a -> at_constraints c q1 g = Ok a1 -> at_constraints c q2 g = Ok a2 ->
  pairs_amounts size f a1 a2 a.
Proof using M.
  intros A Y1 Y2 Q H H1 H2. destruct (proj1 (C44_sum_exactly_when f q1 q2)) as (D & _). destruct (D (ex_intro _ q Q)) as (_ & Ed).
  destruct (proj1 (proj2 (C44_sum_exactly_when f q1 q2)) q Q) as (Eu & Ed').
  destruct (getitem_inv c q g a H) as (l & user & args & r & N & L & Cs & I & O & R). rewrite Ed' in N, L, Cs.
  destruct (sum_operator f q1 q2 q args r Q O) as (r1 & r2 & O1 & O2 & P).
  rewrite (getitem_eval c q1 g l user args r1 N L Cs I O1) in H1.
  assert (N2 := N). assert (L2 := L). assert (Cs2 := Cs). rewrite Ed in N2, L2, Cs2. rewrite (getitem_eval c q2 g l user args r2 N2 L2 Cs2 I O2) in H2.
  destruct (Y1 args r1 O1) as (x1 & -> & T1 & S1). destruct (Y2 args r2 O2) as (x2 & -> & T2 & S2).
  destruct (arr_add ueq uone beq blen bin f x1 x2 r T1 T2 P) as (x & -> & T & Ex & Ux & Sx & _).
  destruct (in_unit_ok q x a T Sx R) as (_ & _ & _ & _ & Lx & Vx). destruct (in_unit_ok q1 x1 a1 T1 S1 H1) as (_ & _ & _ & _ & L1 & V1).
  destruct (in_unit_ok q2 x2 a2 T2 S2 H2) as (_ & _ & _ & _ & L2' & V2).
  destruct (C28_sum_arrays ueq uone factor size beq blen bin M f x1 x2 (PArr x) A T1 T2 P) as (x' & [= <-] & _ & _ & _ & _ & V).
  intros k k1 k2 _ K1 K2. rewrite Vx, V1, V2. apply V; [exact (clip_ext _ _ k k1 L1 K1)|exact (clip_ext _ _ k k2 L2' K2)].
Qed.
(** a sum is observed whenever the two arrays have equal units and equal axes,
    and the first one can be observed *)
Theorem C44_sum_observed (f : Qc -> Qc -> Qc) (q1 q2 q : qty) c g a1 args x1 x2 l user : yields_arrays q1 -> yields_arrays q2 ->
  addq f q1 q2 = Ok q -> at_constraints c q1 g = Ok a1 ->
  normalize_given (length (qdims q1)) g = Ok l -> constraints is_length (combine (qdims q1) l) = Ok user -> implement ueq uone factor consistent c user = Ok args ->
  operator q1 args = Ok (PArr x1) -> operator q2 args = Ok (PArr x2) -> padditive ueq uone beq blen bin f (PArr x1) (PArr x2) <> Raise ValueError ->
  (forall e, padditive ueq uone beq blen bin f (PArr x1) (PArr x2) = Raise e -> e = ValueError) ->
  exists a, at_constraints c q g = Ok a.
Proof.
  intros Y1 Y2 Q H1 N Cs I O1 O2 P1 P2. destruct (proj1 (proj2 (C44_sum_exactly_when f q1 q2)) q Q) as (Eu & Ed').
  destruct (getitem_inv c q1 g a1 H1) as (l' & user' & args' & r1 & N' & L & Cs' & I' & O1' & R1).
  assert (l' = l) as -> by congruence. assert (user' = user) as -> by congruence. assert (args' = args) as -> by congruence. assert (r1 = PArr x1) as -> by congruence.
  destruct (padditive ueq uone beq blen bin f (PArr x1) (PArr x2)) as [r|e] eqn:P; [|elim P1; f_equal; apply P2; reflexivity].
  assert (O : operator q args = Ok r).
  { unfold qadditive in Q. destruct equal_metadata; [|discriminate]. injection Q as <-. cbn [apply_op operator]. rewrite O1, O2. exact P. }
  rewrite (getitem_eval c q g l user args r); rewrite ?Ed'; try assumption.
  destruct (Y1 args _ O1) as (y1 & [= <-] & T1 & S1). destruct (Y2 args _ O2) as (y2 & [= <-] & T2 & S2).
  destruct (arr_add ueq uone beq blen bin f x1 x2 r T1 T2 P) as (x & -> & T & Ex & Ux & Sx & _).
  unfold in_unit in R1 |- *. rewrite Ux, Eu. destruct (consistent (aunit x1) (qunit q1)); [|discriminate].
  apply (proj1 (C27_exactly_when ueq factor consistent x (qunit q1) T)). rewrite Ux.
  apply (proj1 (C27_exactly_when ueq factor consistent x1 (qunit q1) T1)). eauto.
Qed.

(** ** Products and quotients *)
Lemma values_items (m : str -> uval (U := U)) (ds : list str) : values_of (map (fun d => It (m d)) ds) = map m ds.
Proof. unfold values_of. rewrite map_map. reflexivity. Qed.
Lemma no_ellipsis m (ds : list str) : filter is_ellipsis (map (fun d => It (U := U) (m d)) ds) = [].
Proof. induction ds as [|d ds IH]; [reflexivity|exact IH]. Qed.
Lemma normalize_under m ds : normalize_given (length ds) (under (U := U) m ds) = Ok (map m ds).
Proof. unfold under, normalize_given, expand_items. rewrite map_length, Nat.ltb_irrefl. cbn [andb]. rewrite no_ellipsis. cbn [length Nat.eqb]. rewrite values_items. reflexivity. Qed.
Lemma combine_map m (ds : list str) : combine ds (map m ds) = map (fun d => (d, m d : uval (U := U))) ds.
Proof. induction ds as [|d ds IH]; [reflexivity|]. cbn [map combine]. rewrite IH. reflexivity. Qed.
Lemma filter_map_fst (p : str -> bool) m (ds : list str) : filter (fun kv => p (fst kv)) (map (fun d => (d, m d : uval (U := U))) ds) = map (fun d => (d, m d)) (filter p ds).
Proof. induction ds as [|d ds IH]; [reflexivity|]. cbn [map filter fst]. destruct (p d); cbn [map]; rewrite IH; reflexivity. Qed.
Lemma mem_str x l : mem str_eqb x l = true <-> In x l.
Proof. apply mem_spec. exact str_decides. Qed.
Lemma concerns_keys ds k : proper_dims ds -> concerns ds k -> keys_of ds k = true.
Proof.
  intros (_ & NR). unfold concerns, keys_of. intros [H|[-> H]].
  - destruct (str_eqb_spec k (s "radius")) as [->|_]; [contradiction|]. apply mem_str, H.
  - rewrite str_eqb_refl. apply mem_str, H.
Qed.
Lemma all_true {A} (l : list A) : filter (fun _ => true) l = l.
Proof. induction l as [|x l IH]; [reflexivity|]. cbn [filter]. rewrite IH. reflexivity. Qed.
Lemma unique_same d : NoDup d -> unique_items str_eqb d = d.
Proof.
  intros N. destruct (C11_unique_items str str_eqb d str_decides) as (_ & H2 & H3 & _).
  rewrite <- (subseq_filter (fun _ => true) _ _ H3); [apply all_true|reflexivity| |exact N]. intros x Hx _. apply H2, Hx.
Qed.
Theorem C44_product_exactly_when op (f : Qc -> Qc -> Qc) (q1 q2 : qty) : proper_dims (qdims q1) -> proper_dims (qdims q2) ->
  ((exists q, mulq op f q1 q2 = Ok q) <-> (exists u, unit_op umul udiv op (qunit q1) (qunit q2) = Ok u) /\ exists l, NoDup l /\ subseq (qdims q1) l /\ subseq (qdims q2) l) /\
  (forall q, mulq op f q1 q2 = Ok q -> unit_op umul udiv op (qunit q1) (qunit q2) = Ok (qunit q) /\ common_order (qdims q1) (qdims q2) (qdims q)).
Proof.
  intros (N1 & _) (N2 & _). unfold qmultiplicative, dims_or_names.
  destruct (unit_op umul udiv op (qunit q1) (qunit q2)) as [u|e] eqn:Eu; cbn [bind].
  - destruct (C09_raises_exactly_on_conflict str str_eqb (qdims q1) (qdims q2) str_decides N1 N2) as (Cf & Oe).
    destruct (merge str_eqb (qdims q1) (qdims q2)) as [d|e] eqn:Em; cbn [bind].
    + destruct (C09_merge_is_common_supersequence str str_eqb (qdims q1) (qdims q2) d str_decides N1 N2 Em) as (S1 & S2 & Nd & Hd).
      split; [split; [intros _; split; [eauto|exists d; auto]|eauto]|]. intros q [= <-]. split; [reflexivity|]. cbn [apply_op qdims dimensions_factory names].
      rewrite unique_same by exact Nd. repeat split; [exact Nd|exact S1|exact S2|apply Hd|apply Hd].
    + rewrite (Oe e eq_refl) in *. cbn [bind]. split; [|discriminate]. split; [intros (q & H); discriminate|]. intros (_ & X). exfalso. exact (proj1 Cf eq_refl X).
  - split; [|discriminate]. split; [intros (q & H); discriminate|]. intros ((u & H) & _). discriminate.
Qed.
Lemma alike_amount (x y : arr) c : alike x y -> amount_at size x c = amount_at size y c.
Proof. intros (Eu & _ & _ & V). unfold amount_at. rewrite Eu, V. reflexivity. Qed.
(** the arguments of the factors are the arguments of the product *)
Lemma factor_raw c (q qi : qty) m args user x a : proper_dims (qdims q) -> subseq (qdims qi) (qdims q) -> yields_arrays qi -> minds_its_dimensions qi ->
  constraints is_length (map (fun d => (d, m d)) (qdims q)) = Ok user -> implement ueq uone factor consistent c user = Ok args ->
  operator qi args = Ok (PArr x) -> at_constraints c qi (under m (qdims qi)) = Ok a ->
  (forall d n, axis_len (face a) d n <-> axis_len (face x) d n) /\ forall k, amount_at size a k = amount_at size x k.
Proof using M.
  intros (ND & NR) S Y Mi Cs I O H.
  assert (Si : forall d, In d (qdims qi) -> In d (qdims q)).
  { intros d Hd. clear - S Hd. induction S; [exact Hd| |]; [destruct Hd as [->|Hd]; [left; reflexivity|right; auto]|right; auto]. }
  assert (Fi : filter (fun d => mem str_eqb d (qdims qi)) (qdims q) = qdims qi).
  { apply subseq_filter; [exact S|intros d Hd; apply mem_str, Hd|intros d _ Hd; apply mem_str, Hd|exact ND]. }
  destruct (arguments_sub ueq uone factor consistent is_length c (qdims qi) (map (fun d => (d, m d)) (qdims q)) user args) as (user' & args' & Cs' & I' & Ag); [|exact Cs|exact I|].
  { rewrite map_map. cbn [fst]. rewrite map_id. exact NR. }
  rewrite (filter_map_fst (fun d => mem str_eqb d (qdims qi)) m (qdims q)), Fi, <- combine_map in Cs'.
  destruct (Mi args args' x) as (x' & O' & Al).
  { intros k Hk. apply Ag. apply concerns_keys; [|exact Hk]. split.
    - clear - S ND. induction S; [constructor| |]; inversion ND as [|? ? Nx Nl]; subst; [constructor; [|auto]|auto].
      intros Hx. apply Nx. clear - S Hx. induction S; [exact Hx| |]; [destruct Hx as [->|Hx]; [left; reflexivity|right; auto]|right; auto].
    - intros Hr. apply NR, Si, Hr. }
  { exact O. }
  rewrite (getitem_eval c qi (under m (qdims qi)) (map m (qdims qi)) user' args' _ (normalize_under m _) (map_length _ _) Cs' I' O') in H.
  destruct (Y args' _ O') as (x'' & [= <-] & T & Sc). destruct (in_unit_ok qi x' a T Sc H) as (_ & _ & _ & _ & L & V).
  split; [intros d n; rewrite L; symmetry; apply Al|]. intros k. rewrite V. symmetry. apply alike_amount, Al.
Qed.
Theorem C44_product (op : mulop) (q1 q2 q : qty) c m a a1 a2 : sound_units umul udiv uinv size -> proper_dims (qdims q1) -> proper_dims (qdims q2) ->
  yields_arrays q1 -> yields_arrays q2 -> minds_its_dimensions q1 -> minds_its_dimensions q2 -> mulq op (op_fun op) q1 q2 = Ok q ->
  at_constraints c q (under m (qdims q)) = Ok a -> at_constraints c q1 (under m (qdims q1)) = Ok a1 -> at_constraints c q2 (under m (qdims q2)) = Ok a2 ->
  pairs_amounts size (op_fun op) a1 a2 a.
Proof using M.
  intros Sd P1 P2 Y1 Y2 M1 M2 Q H H1 H2. destruct (proj2 (C44_product_exactly_when op (op_fun op) q1 q2 P1 P2) q Q) as (Qu & Nd & S1 & S2 & Hd).
  assert (Pq : proper_dims (qdims q)). { split; [exact Nd|]. rewrite Hd. intros [X|X]; [exact (proj2 P1 X)|exact (proj2 P2 X)]. }
  destruct (getitem_inv c q _ a H) as (l & user & args & r & N & L & Cs & I & O & R). rewrite normalize_under in N. injection N as <-. rewrite combine_map in Cs.
  assert (exists r1 r2, operator q1 args = Ok r1 /\ operator q2 args = Ok r2 /\ pmultiplicative umul udiv uinv op (op_fun op) r1 r2 = Ok r) as (r1 & r2 & O1 & O2 & P).
  { unfold qmultiplicative in Q. destruct (unit_op umul udiv op (qunit q1) (qunit q2)); [|discriminate]. cbn [bind] in Q. destruct (dims_or_names (qdims q1) (qdims q2)); [|discriminate]. cbn [bind] in Q.
    injection Q as <-. cbn [apply_op operator] in O. destruct (operator q1 args) as [r1|]; [|discriminate]. cbn [bind] in O. destruct (operator q2 args) as [r2|]; [|discriminate]. cbn [bind] in O. eauto. }
  destruct (Y1 args r1 O1) as (x1 & -> & T1 & Sc1). destruct (Y2 args r2 O2) as (x2 & -> & T2 & Sc2).
  destruct (arr_mul umul udiv uinv op (op_fun op) x1 x2 r T1 T2 P) as (x & -> & T & Ux & Sx & _ & _ & _ & _ & V).
  destruct (in_unit_ok q x a T Sx R) as (_ & _ & _ & _ & Lx & Vx).
  destruct (factor_raw c q q1 m args user x1 a1 Pq S1 Y1 M1 Cs I O1 H1) as (L1 & V1).
  destruct (factor_raw c q q2 m args user x2 a2 Pq S2 Y2 M2 Cs I O2 H2) as (L2 & V2).
  intros k k1 k2 Ik K1 K2. rewrite Vx, V1, V2. unfold amount_at, value_at. rewrite Sx, (op_unit umul udiv uinv size op _ _ _ Sd Ux).
  rewrite (V k k1 k2); [|intros d n Hn; apply Ik, Lx, Hn|exact (clip_ext _ _ k k1 L1 K1)|exact (clip_ext _ _ k k2 L2 K2)].
  rewrite Qcmult_1_l, op_scales. reflexivity.
Qed.

(** ** Units *)
Theorem C44_withunit (q q' : qty) u c g a a' : yields_arrays q -> convertq q u = Ok q' -> at_constraints c q g = Ok a -> at_constraints c q' g = Ok a' ->
  size (aunit a') = size u /\ qdims q' = qdims q /\ forall k, amount_at size a' k = amount_at size a k.
Proof using M.
  intros Y W H H'. destruct (getitem_inv c q g a H) as (l & user & args & r & N & L & Cs & I & O & R).
  assert (E : operator q' = operator q /\ qdims q' = qdims q /\ size (qunit q') = size u).
  { unfold qwithunit in W. destruct (ueq (qunit q) u) eqn:Q; [injection W as <-; split; [reflexivity|split; [reflexivity|exact (equal_sizes _ _ _ M _ _ Q)]]|].
    destruct (consistent (qunit q) u); [|discriminate]. injection W as <-. auto. }
  destruct E as (Eo & Ed & Es). rewrite (getitem_eval c q' g l user args r) in H'; rewrite ?Ed, ?Eo; try assumption.
  destruct (Y args r O) as (x & -> & T & S). destruct (in_unit_ok q x a T S R) as (_ & _ & _ & _ & _ & V). destruct (in_unit_ok q' x a' T S H') as (_ & Sz & _ & _ & _ & V').
  split; [congruence|]. split; [first [reflexivity|exact Ed]|]. intros k. rewrite V, V'. reflexivity.
Qed.

(** ** Powers: every observation of a power raises an exception *)
Definition unobservable (q : qty) : Prop := forall c g, exists e, at_constraints c q g = Raise e.
Lemma never_observed (q : qty) : (forall args, exists e, operator q args = Raise e) -> unobservable q.
Proof.
  intros H c g. destruct (at_constraints c q g) as [a|e] eqn:E; [|eauto]. exfalso.
  destruct (getitem_inv c q g a E) as (l & user & args & r & _ & _ & _ & _ & O & _). destruct (H args) as (e & X). congruence.
Qed.
Lemma power_fails q p q' : powq q p = Ok q' -> forall args, exists e, operator q' args = Raise e.
Proof. unfold qpower. destruct (upow (qunit q) p); [|discriminate]. intros [= <-] args. cbn [operator]. destruct (operator q args); cbn [bind]; eauto. Qed.
Theorem C44_power_refuted (q q' : qty) p : powq q p = Ok q' -> unobservable q'.
Proof. intros H. apply never_observed, (power_fails q p q' H). Qed.
Lemma terms_fail get : forall terms (this q : qty), (forall args, exists e, operator this args = Raise e) -> multiply_terms umul udiv upow uinv get this terms = Ok q ->
  forall args, exists e, operator q args = Raise e.
Proof.
  induction terms as [|[b e] terms IH]; intros this q F H; cbn [multiply_terms] in H; [injection H as <-; exact F|].
  destruct (get b) as [t|]; [|discriminate]. cbn [bind] in H. destruct (powq t e) as [p|]; [|discriminate]. cbn [bind] in H.
  destruct (mulq OMul Qcmult this p) as [w|] eqn:E; [|discriminate]. cbn [bind] in H. apply (IH w q); [|exact H].
  intros args. unfold qmultiplicative in E. destruct (unit_op umul udiv OMul (qunit this) (qunit p)); [|discriminate]. cbn [bind] in E.
  destruct (dims_or_names (qdims this) (qdims p)); [|discriminate]. cbn [bind] in E. injection E as <-. cbn [apply_op operator]. destruct (F args) as (x & ->). cbn [bind]. eauto.
Qed.
(** ... so a quantity looked up by a symbolic expression, such as 'r * ur' or
    'umag ** 2', can be built but not observed. *)
Theorem C44_symbolic_keys_refuted get terms (q : qty) : build_observable umul udiv upow uinv get terms = Ok q ->
  (exists b, terms = [(b, 1%Qc)] /\ get b = Ok q) \/ unobservable q.
Proof.
  destruct terms as [|[b e] rest]; cbn [build_observable]; [discriminate|]. destruct (get b) as [t|] eqn:G; [|discriminate]. cbn [bind].
  destruct rest as [|x rest].
  - destruct (qc_eqb e 1) eqn:E; intros H; [apply qc_eqb_eq in E; subst e; injection H as <-; left; eauto|right; exact (C44_power_refuted t q e H)].
  - destruct (powq t e) as [p|] eqn:P; [|discriminate]. cbn [bind]. intros H. right. apply never_observed. eapply terms_fail; [|exact H]. exact (power_fails t e p P).
Qed.
End C44.
