(** * Property C96: observables that are formulas over stored arrays *)
From Verif Require Import PyBase PyLemmas ContainerModel ContainerSpec ContainerProofs ContainerProofs2 Nd IndexModel IndexSpec IndexProofs IndexProofs2 ArrayModel ArraySpec ArrayProofs ArrayProofs2 ArrayProofs3 ArrayProofs4 ArrayProperties AxesModel AxisModel PhysicalModel PhysicalSpec PhysicalProofs PhysicalProofs2 PhysicalProofs3 PhysicalProofs4 PhysicalProofs5 PhysicalProperties PhysicalExamples AtomicModel PhysFuncModel PhysFuncSpec PhysFuncProofs PhysFuncProperties ObservableModel ObservableSpec ObservableProofs ObservableProperties ObservableExamples AngleModel AngleProperties FormulaModel.

(** ** What is said of the numbers *)
(** [a] is the square root of [q], computed in a unit of the size [k] *)
Definition root_of (root : Qc -> Qc) (a q : Qc) : Prop := exists k, k <> 0%Qc /\ a = (k * root (q / (k * k)))%Qc.
(** the square root of [q] is exact in every unit *)
Definition exact_root (root : Qc -> Qc) (q : Qc) : Prop := forall k, k <> 0%Qc -> (root (q / (k * k)) * root (q / (k * k)))%Qc = (q / (k * k))%Qc.
Lemma exact_square root a q : root_of root a q -> exact_root root q -> (a * a)%Qc = q.
Proof.
  intros (k & K & ->) E. specialize (E k K). transitivity (k * k * (root (q / (k * k)) * root (q / (k * k))))%Qc; [ring|]. rewrite E. field. exact K.
Qed.
(** [t] is the cosine nearest to [v] *)
Definition nearest_cosine (v t : Qc) : Prop := (- (1) <= t /\ t <= 1)%Qc /\ ((- (1) <= v /\ v <= 1)%Qc -> t = v) /\ ((v < - (1))%Qc -> t = (- (1))%Qc) /\ ((1 < v)%Qc -> t = 1%Qc).
Lemma clamp_nearest v : nearest_cosine v (clamp v).
Proof.
  unfold clamp, nearest_cosine. destruct (qc_ltb_spec v (- (1))) as [L|L].
  - destruct (qc_ltb_spec 1 (- (1))) as [H|_]; [discriminate H|]. split; [split; [apply Qcle_refl|discriminate]|]. split; [intros (H & _); exfalso; exact (Qclt_not_le _ _ L H)|]. split; [reflexivity|].
    intros H. exfalso. pose proof (Qclt_trans _ _ _ H L) as K. discriminate K.
  - destruct (qc_ltb_spec 1 v) as [H|H].
    + split; [split; [discriminate|apply Qcle_refl]|]. split; [intros (_ & K); exfalso; exact (Qclt_not_le _ _ H K)|]. split; [intros K; contradiction|reflexivity].
    + split; [split; apply Qcnot_lt_le; assumption|]. split; [reflexivity|]. split; intros K; contradiction.
Qed.

Section Formula.
Set Default Proof Using "All".
Context {U B : Type}.
Variables (ueq : U -> U -> bool) (umul udiv : U -> U -> result U) (upow : U -> Qc -> result U) (uone : U) (uinv : U -> result U) (ustr : U -> str).
Variables (factor : U -> U -> option Qc) (consistent : U -> U -> bool) (size : U -> Qc).
Variables (beq : B -> B -> bool) (blen : B -> nat) (bin : B -> B -> bool) (is_length : U -> bool).
Variable pw : Qc -> Qc -> Qc.
Variable fns : functions.
Notation root := (f_root fns).
Notation sine := (f_sine fns).
Notation cosine := (f_cosine fns).
Notation arc := (f_arc fns).
Notation arr := (parr (U := U) (B := B)).
Notation val := (pval (U := U) (B := B)).
Notation qty := (quantity (U := U) (B := B)).
Notation ctx := (context (U := U)).
Notation store := (stored (U := U) (B := B)).
Notation times_ := (times (B := B) umul udiv uinv).
Notation over_ := (over (B := B) umul udiv uinv).
Notation plus_ := (plus ueq uone beq blen bin).
Notation minus_ := (minus ueq uone beq blen bin).
Notation square_ := (square (B := B) ueq upow uone pw).
Notation npsqrt_ := (npsqrt (B := B) upow fns).
Notation npsin_ := (npsin (B := B) uone ustr fns).
Notation npcos_ := (npcos (B := B) uone ustr fns).

(** What is asked of units and numbers: conversion factors are the ratios of the
    sizes (C21, C22); products, quotients, squares and square roots of units
    have the products, quotients, squares and square roots of the sizes (C23);
    sizes are positive; radians and the unit one have the size one; the power of
    two is the square; an axis equals itself. *)
Record sound : Prop := mksound {
  sound_measures : measures ueq factor size;
  sound_ops : sound_units umul udiv uinv size;
  sound_square : forall u w, upow u (zq 2) = Ok w -> size w = (size u * size u)%Qc;
  sound_root : forall u w, upow u (mkq 1 2) = Ok w -> (size w * size w)%Qc = size u;
  sound_positive : forall u, (0 < size u)%Qc;
  sound_radian : forall u, ustr u = s "rad" -> size u = 1%Qc;
  sound_one : size uone = 1%Qc;
  sound_power : forall v, pw v (zq 2) = (v * v)%Qc;
  sound_axes : forall b, beq b b = true }.

(** [x] has the axes of [g] *)
Definition on_grid (g x : arr) : Prop := tidy x /\ paxes x = paxes g /\ forall d n, axis_len (face x) d n <-> axis_len (face g) d n.
(** [v] is an array on the grid of [g] with the unit [u] and the amounts [am] *)
Definition gives (g : arr) (v : val) (u : U) (am : coords -> Qc) : Prop :=
  exists z, v = PArr z /\ on_grid g z /\ scale z = 1%Qc /\ aunit z = u /\ forall c, inside g c -> amount_at size z c = am c.

Lemma clip_self (g x : arr) c : on_grid g x -> inside g c -> clip (face x) c c.
Proof. intros (_ & _ & L) H d n A. split; [|reflexivity]. intros ->. apply Nat.lt_1_r, (H d 1), L, A. Qed.
Lemma inside_grid (g x : arr) c : on_grid g x -> inside g c -> inside x c.
Proof. intros (_ & _ & L) H d n A. apply H, L, A. Qed.
Lemma longer_same (g x y : arr) d n : on_grid g x -> on_grid g y -> longer (face x) (face y) d n <-> axis_len (face g) d n.
Proof.
  intros (Tx & _ & Lx) (Ty & _ & Ly). unfold longer. split.
  - intros [(H & _)|(H & _)]; [apply Lx, H|apply Ly, H].
  - intros H. left. split; [apply Lx, H|]. intros m K. apply Ly, Lx in K. apply Lx in H. rewrite (axis_len_fun _ _ _ _ (proj1 Tx) H K). apply le_n.
Qed.
Lemma same_items {V} : forall a b : list (str * V), map fst a = map fst b -> NoDup (map fst a) -> (forall k v, In (k, v) a -> In (k, v) b) -> a = b.
Proof using.
  clear. induction a as [|[k v] a IH]; intros [|[h w] b] E N I; try discriminate E; [reflexivity|]. cbn [map fst] in E, N. injection E as <- E. inversion N as [|? ? Nk Na]; subst.
  assert (v = w) as <-. { destruct (I k v (or_introl eq_refl)) as [[= ->]|H]; [reflexivity|]. exfalso. apply Nk. rewrite E. apply (in_map fst) in H. exact H. }
  f_equal. apply IH; [exact E|exact Na|]. intros h x H. destruct (I h x (or_intror H)) as [[= <- <-]|K]; [|exact K]. exfalso. apply Nk. apply (in_map fst) in H. exact H.
Qed.
Lemma same_order (l r : list str) : NoDup l -> common_order l l r -> r = l.
Proof using.
  clear. intros N (Nr & S & _ & I). symmetry. apply subseq_full; [exact S|]. apply NoDup_incl_length; [exact Nr|]. intros d H. apply I in H. tauto.
Qed.
Lemma add_same_axes (a r : list (str * B)) : (forall b, beq b b = true) -> NoDup (map fst a) -> axes_add beq blen bin a a = Ok r -> r = a.
Proof using.
  clear. intros R N. unfold axes_add. destruct (_ && _); [|discriminate]. intros H. apply mapM_Forall2 in H.
  assert (G : forall l l', (forall kv, In kv l -> In kv a) -> Forall2 (fun kv kv' => (v <- axis_named a (fst kv) ;; w <- fill beq blen bin (snd kv) v ;; Ok (fst kv, w)) = Ok kv') l l' -> l' = l).
  { intros l l' I F. induction F as [|[k v] kv' l l' E F IH]; [reflexivity|]. f_equal; [|apply IH; intros kv K; apply I; right; exact K].
    cbn [fst snd] in E. unfold axis_named in E. rewrite (proj2 (lookup_in str_eqb str_decides a k v N) (I _ (or_introl eq_refl))) in E. cbn [bind] in E. unfold fill in E. rewrite R in E. cbn [bind] in E. injection E as <-. reflexivity. }
  apply (G a r); [auto|exact H].
Qed.
Lemma grid_nodup (g x : arr) : on_grid g x -> NoDup (map fst (paxes g)).
Proof. intros (T & E & _). rewrite <- E. apply tidy_nodup, T. Qed.

Section Steps.
Hypothesis S : sound.
Lemma mul_gives op (g x y : arr) v : on_grid g x -> on_grid g y -> pmultiplicative umul udiv uinv op (op_fun op) (PArr x) (PArr y) = Ok v ->
  exists u, gives g v u (fun c => op_fun op (amount_at size x c) (amount_at size y c)) /\ size u = op_fun op (size (aunit x)) (size (aunit y)).
Proof.
  intros Gx Gy H. destruct (arr_mul umul udiv uinv op (op_fun op) x y v (proj1 Gx) (proj1 Gy) H) as (z & -> & Tz & Q & Sz & C & I & _ & L & V).
  exists (aunit z). split; [|exact (op_unit umul udiv uinv size op _ _ _ (sound_ops S) Q)]. exists z. split; [reflexivity|].
  assert (Gz : on_grid g z).
  { split; [exact Tz|]. split; [|intros d n; rewrite L; apply longer_same; assumption].
    pose proof (grid_nodup g x Gx) as N. destruct Gx as (_ & Ex & _), Gy as (_ & Ey & _). rewrite Ex, Ey in C, I. apply same_order in C; [|exact N].
    apply same_items; [exact C|rewrite C; exact N|]. intros k w K. apply I in K. tauto. }
  split; [exact Gz|]. split; [exact Sz|]. split; [reflexivity|]. intros c Ic.
  unfold amount_at, value_at. rewrite (V c c c (inside_grid g z c Gz Ic) (clip_self g x c Gx Ic) (clip_self g y c Gy Ic)), Sz, (op_unit umul udiv uinv size op _ _ _ (sound_ops S) Q), Qcmult_1_l. apply op_scales.
Qed.
Lemma add_gives f (g x y : arr) v : additive_op f -> on_grid g x -> on_grid g y -> padditive ueq uone beq blen bin f (PArr x) (PArr y) = Ok v ->
  gives g v (aunit x) (fun c => f (amount_at size x c) (amount_at size y c)).
Proof.
  intros A Gx Gy H. destruct (arr_add ueq uone beq blen bin f x y v (proj1 Gx) (proj1 Gy) H) as (z & -> & Tz & E & Uz & Sz & _ & _ & Ax & L & V).
  exists z. split; [reflexivity|].
  assert (Gz : on_grid g z).
  { split; [exact Tz|]. split; [|intros d n; rewrite L; apply longer_same; assumption].
    pose proof (grid_nodup g x Gx) as N. destruct Gx as (_ & Ex & _), Gy as (_ & Ey & _). rewrite Ex, Ey in Ax. destruct Ax as [(_ & Ax)|Ax]; [exact Ax|]. exact (add_same_axes _ _ (sound_axes S) N Ax). }
  split; [exact Gz|]. split; [exact Sz|]. split; [exact Uz|]. intros c Ic.
  unfold amount_at, value_at. rewrite (V c c c (clip_self g x c Gx Ic) (clip_self g y c Gy Ic)), Sz, Uz, <- (equal_sizes _ _ _ (sound_measures S) _ _ E), additive_scales by exact A. ring.
Qed.
Lemma elementwise_grid (g x z : arr) u f : on_grid g x -> elementwise x z u f -> on_grid g z.
Proof. intros (Tx & Ex & Lx) (Tz & _ & _ & Ez & Lz & _). split; [exact Tz|]. split; [rewrite Ez; exact Ex|]. intros d n. rewrite Lz. apply Lx. Qed.
Lemma square_gives (g x : arr) v : on_grid g x -> square_ (PArr x) = Ok v ->
  exists u, gives g v u (fun c => (amount_at size x c * amount_at size x c)%Qc) /\ size u = (size (aunit x) * size (aunit x))%Qc.
Proof.
  intros Gx H. unfold square in H. assert (exists u, upow (aunit x) (zq 2) = Ok u) as (u & E).
  { unfold pexponential in H. cbn [exponent bind] in H. destruct (upow (aunit x) (zq 2)) as [u|]; [eauto|discriminate H]. }
  destruct (power_arr ueq upow uone pw x (PNum (zq 2)) (zq 2) u (proj1 Gx) eq_refl E) as (z & Hz & Ez). rewrite Hz in H. injection H as <-.
  exists u. split; [|exact (sound_square S _ _ E)]. exists z. split; [reflexivity|]. split; [exact (elementwise_grid g x z _ _ Gx Ez)|]. destruct Ez as (_ & Uz & Sz & _ & _ & V). split; [exact Sz|]. split; [exact Uz|].
  intros c Ic. unfold amount_at, value_at. rewrite (V c (inside_grid g x c Gx Ic)), Sz, Uz, (sound_square S _ _ E), (sound_power S). ring.
Qed.
Lemma sqrt_gives (g x : arr) v : on_grid g x -> npsqrt_ (PArr x) = Ok v ->
  exists z, v = PArr z /\ on_grid g z /\ scale z = 1%Qc /\ (size (aunit z) * size (aunit z))%Qc = size (aunit x) /\
    forall c, inside g c -> root_of root (amount_at size z c) (amount_at size x c).
Proof.
  intros Gx H. unfold npsqrt, apply_sqrt in H. cbn [unit_of punit bind] in H. destruct (upow (aunit x) (mkq 1 2)) as [u|] eqn:E; [|discriminate H]. cbn [bind] in H.
  destruct (apply_arr (B := B) root x u (proj1 Gx)) as (z & Hz & Ez). rewrite Hz in H. injection H as <-.
  exists z. split; [reflexivity|]. split; [exact (elementwise_grid g x z _ _ Gx Ez)|]. destruct Ez as (_ & Uz & Sz & _ & _ & V). split; [exact Sz|]. pose proof (sound_root S _ _ E) as R. split; [rewrite Uz; exact R|].
  intros c Ic. exists (size u). split; [apply (size_nonzero _ _ _ (sound_measures S))|].
  unfold amount_at at 1. unfold value_at. rewrite (V c (inside_grid g x c Gx Ic)), Sz, Uz, Qcmult_1_l. do 2 f_equal. fold (value_at x c). unfold amount_at. rewrite R. field. apply (size_nonzero _ _ _ (sound_measures S)).
Qed.
Lemma trig_gives f (g x : arr) v : on_grid g x -> ustr (aunit x) = s "rad" -> apply_trig uone ustr f (PArr x) = Ok v -> gives g v uone (fun c => f (amount_at size x c)).
Proof.
  intros Gx E H. unfold apply_trig in H. cbn [unit_of punit bind] in H. rewrite E, str_eqb_refl in H. cbn [orb] in H.
  destruct (apply_arr (B := B) f x uone (proj1 Gx)) as (z & Hz & Ez). rewrite Hz in H. injection H as <-.
  exists z. split; [reflexivity|]. split; [exact (elementwise_grid g x z _ _ Gx Ez)|]. destruct Ez as (_ & Uz & Sz & _ & _ & V). split; [exact Sz|]. split; [exact Uz|].
  intros c Ic. unfold amount_at, value_at. rewrite (V c (inside_grid g x c Gx Ic)), Sz, Uz, (sound_one S), (sound_radian S _ E), !Qcmult_1_l. reflexivity.
Qed.
End Steps.

(** ** The formulas, on arrays of one grid *)
Notation fx_ := (fx (B := B) umul udiv uone uinv ustr fns).
Notation fy_ := (fy (B := B) umul udiv uone uinv ustr fns).
Notation fz_ := (fz (B := B) umul udiv uone uinv ustr fns).
Notation squares_ := (sum_of_squares ueq upow uone beq blen bin pw).
Notation fbmag_ := (fbmag ueq upow uone beq blen bin pw fns).
Notation fumag_ := (fumag ueq upow uone beq blen bin pw fns).
Notation fubmag_ := (fubmag ueq umul udiv upow uone uinv beq blen bin pw fns).
Notation fudotb_ := (fudotb ueq umul udiv uone uinv beq blen bin).
Notation fupara_ := (fupara ueq umul udiv upow uone uinv beq blen bin pw fns).
Notation fuperp_ := (fuperp ueq umul udiv upow uone uinv beq blen bin pw fns).
Section Operators.
Hypothesis S : sound.
Lemma grid_self (g x y : arr) : on_grid g x -> on_grid g y -> on_grid x y.
Proof. intros (_ & Ex & Lx) (Ty & Ey & Ly). split; [exact Ty|]. split; [congruence|]. intros d n. rewrite Ly, Lx. reflexivity. Qed.
Lemma squares_gives (g x y z : arr) v : on_grid g x -> on_grid g y -> on_grid g z -> squares_ (PArr x) (PArr y) (PArr z) = Ok v ->
  exists r, v = PArr r /\ on_grid g r /\ scale r = 1%Qc /\ size (aunit r) = (size (aunit x) * size (aunit x))%Qc /\
    forall c, inside g c -> amount_at size r c = (amount_at size x c * amount_at size x c + amount_at size y c * amount_at size y c + amount_at size z c * amount_at size z c)%Qc.
Proof.
  intros Gx Gy Gz H. unfold sum_of_squares in H. destruct (square_ (PArr x)) as [a|] eqn:E1; [|discriminate H]. cbn [bind] in H.
  destruct (square_ (PArr y)) as [b|] eqn:E2; [|discriminate H]. cbn [bind] in H. destruct (plus_ a b) as [d|] eqn:E3; [|discriminate H]. cbn [bind] in H.
  destruct (square_ (PArr z)) as [e|] eqn:E4; [|discriminate H]. cbn [bind] in H.
  destruct (square_gives S g x a Gx E1) as (u1 & (a' & -> & Ga & Sa & Ua & Va) & Z1). destruct (square_gives S g y b Gy E2) as (u2 & (b' & -> & Gb & Sb & Ub & Vb) & Z2).
  destruct (square_gives S g z e Gz E4) as (u3 & (e' & -> & Ge & Se & Ue & Ve) & Z3).
  destruct (add_gives S Qcplus g a' b' d (or_introl eq_refl) Ga Gb E3) as (d' & -> & Gd & Sd & Ud & Vd).
  destruct (add_gives S Qcplus g d' e' v (or_introl eq_refl) Gd Ge H) as (r & -> & Gr & Sr & Ur & Vr).
  exists r. split; [reflexivity|]. split; [exact Gr|]. split; [exact Sr|]. split; [rewrite Ur, Ud, Ua; exact Z1|]. intros c Ic. rewrite (Vr c Ic), (Vd c Ic), (Va c Ic), (Vb c Ic), (Ve c Ic). reflexivity.
Qed.
Lemma same_root w k : (0 < w)%Qc -> (0 < k)%Qc -> (w * w)%Qc = (k * k)%Qc -> w = k.
Proof using.
  clear. intros W K E. assert (((w - k) * (w + k))%Qc = 0%Qc) as Z by (transitivity (w * w - k * k)%Qc; [ring|rewrite E; ring]).
  apply Qcmult_integral in Z as [Z|Z].
  - transitivity (w - k + k)%Qc; [ring|rewrite Z; ring].
  - exfalso. assert (w = (- k)%Qc) by (transitivity (w + k - k)%Qc; [ring|rewrite Z; ring]). subst w.
    apply Qclt_not_le in W. apply W. rewrite <- (Qcplus_0_l (- k)). apply (Qcplus_le_compat 0 0 (-k) 0); [apply Qcle_refl|].
    apply Qclt_le_weak, Qcopp_le_compat in K. exact K.
Qed.
Lemma magnitude_gives (g x y z : arr) v w : on_grid g x -> on_grid g y -> on_grid g z -> squares_ (PArr x) (PArr y) (PArr z) = Ok w -> npsqrt_ w = Ok v ->
  exists r, v = PArr r /\ on_grid g r /\ scale r = 1%Qc /\ size (aunit r) = size (aunit x) /\
    forall c, inside g c -> root_of root (amount_at size r c) (amount_at size x c * amount_at size x c + amount_at size y c * amount_at size y c + amount_at size z c * amount_at size z c)%Qc.
Proof.
  intros Gx Gy Gz H K. destruct (squares_gives g x y z w Gx Gy Gz H) as (q & -> & Gq & Sq & Zq & Vq).
  destruct (sqrt_gives S g q v Gq K) as (r & -> & Gr & Sr & Zr & Vr). exists r. split; [reflexivity|]. split; [exact Gr|]. split; [exact Sr|]. split.
  - rewrite Zq in Zr. apply same_root; [apply (sound_positive S)|apply (sound_positive S)|exact Zr].
  - intros c Ic. rewrite <- (Vq c Ic). apply Vr, Ic.
Qed.
Lemma dot_gives (g b1 b2 b3 u1 u2 u3 : arr) v : on_grid g b1 -> on_grid g b2 -> on_grid g b3 -> on_grid g u1 -> on_grid g u2 -> on_grid g u3 ->
  (a <- times_ (PArr b1) (PArr u1) ;; b <- times_ (PArr b2) (PArr u2) ;; d <- plus_ a b ;; c <- times_ (PArr b3) (PArr u3) ;; plus_ d c) = Ok v ->
  exists r, v = PArr r /\ on_grid g r /\ scale r = 1%Qc /\ size (aunit r) = (size (aunit b1) * size (aunit u1))%Qc /\
    forall c, inside g c -> amount_at size r c = (amount_at size b1 c * amount_at size u1 c + amount_at size b2 c * amount_at size u2 c + amount_at size b3 c * amount_at size u3 c)%Qc.
Proof.
  intros G1 G2 G3 K1 K2 K3 H. destruct (times_ (PArr b1) (PArr u1)) as [a|] eqn:E1; [|discriminate H]. cbn [bind] in H.
  destruct (times_ (PArr b2) (PArr u2)) as [b|] eqn:E2; [|discriminate H]. cbn [bind] in H. destruct (plus_ a b) as [d|] eqn:E3; [|discriminate H]. cbn [bind] in H.
  destruct (times_ (PArr b3) (PArr u3)) as [e|] eqn:E4; [|discriminate H]. cbn [bind] in H.
  destruct (mul_gives S OMul g b1 u1 a G1 K1 E1) as (w1 & (a' & -> & Ga & Sa & Ua & Va) & Z1). destruct (mul_gives S OMul g b2 u2 b G2 K2 E2) as (w2 & (b' & -> & Gb & Sb & Ub & Vb) & Z2).
  destruct (mul_gives S OMul g b3 u3 e G3 K3 E4) as (w3 & (e' & -> & Ge & Se & Ue & Ve) & Z3).
  destruct (add_gives S Qcplus g a' b' d (or_introl eq_refl) Ga Gb E3) as (d' & -> & Gd & Sd & Ud & Vd).
  destruct (add_gives S Qcplus g d' e' v (or_introl eq_refl) Gd Ge H) as (r & -> & Gr & Sr & Ur & Vr).
  exists r. split; [reflexivity|]. split; [exact Gr|]. split; [exact Sr|]. split; [rewrite Ur, Ud, Ua; exact Z1|]. intros c Ic. rewrite (Vr c Ic), (Vd c Ic), (Va c Ic), (Vb c Ic), (Ve c Ic). reflexivity.
Qed.
End Operators.

(** ** What is observed *)
Notation at_constraints := (getitem (B := B) ueq uone factor consistent is_length).
Definition all_stored (st : store) : list qty := [q_r st; q_theta st; q_phi st; q_br st; q_btheta st; q_bphi st; q_ur st; q_utheta st; q_uphi st].
(** What is asked of the stored quantities: they have the same dimensions, yield
    arrays with the same axes when asked for the same, and angles are in radians. *)
Definition well_stored (st : store) : Prop :=
  (forall q, In q (all_stored st) -> yields_arrays q /\ qdims q = qdims (q_r st)) /\
  (forall args q1 q2 x1 x2, In q1 (all_stored st) -> In q2 (all_stored st) -> operator q1 args = Ok (PArr x1) -> operator q2 args = Ok (PArr x2) ->
     paxes x1 = paxes x2 /\ forall d n, axis_len (face x1) d n <-> axis_len (face x2) d n) /\
  (forall args x, operator (q_theta st) args = Ok (PArr x) \/ operator (q_phi st) args = Ok (PArr x) -> ustr (aunit x) = s "rad").

Definition asked_args (c : ctx) (ds : list str) (g : given (U := U)) : result (arguments (U := U)) :=
  l <- normalize_given (length ds) g ;;
  if negb (Nat.eqb (length l) (length ds)) then Raise IndexError
  else user <- constraints is_length (combine ds l) ;; implement ueq uone factor consistent c user.
Section Observed.
Hypothesis S : sound.
Lemma observed_args c (q : qty) g a : at_constraints c q g = Ok a -> exists args r, asked_args c (qdims q) g = Ok args /\ operator q args = Ok r /\ in_unit ueq factor consistent q r = Ok a.
Proof.
  intros H. destruct (getitem_inv ueq uone factor consistent is_length c q g a H) as (l & user & args & r & N & L & C & I & O & R). exists args, r. split; [|auto].
  unfold asked_args. rewrite N. cbn [bind]. rewrite L, Nat.eqb_refl. cbn [negb]. rewrite C. cbn [bind]. exact I.
Qed.
Lemma seen c g ds (q : qty) args a : yields_arrays q -> qdims q = ds -> asked_args c ds g = Ok args -> at_constraints c q g = Ok a ->
  exists x, operator q args = Ok (PArr x) /\ on_grid x x /\ on_grid x a /\ forall k, amount_at size a k = amount_at size x k.
Proof.
  intros Y D A H. destruct (observed_args c q g a H) as (args' & r & A' & O & I). rewrite D, A in A'. injection A' as <-.
  destruct (Y args r O) as (x & -> & T & Sx). exists x. split; [exact O|]. destruct (in_unit_ok ueq factor consistent size (sound_measures S) q x a T Sx I) as (Ta & _ & _ & Ax & Lx & V).
  split; [split; [exact T|split; reflexivity]|]. split; [split; [exact Ta|split; [exact Ax|exact Lx]]|]. exact V.
Qed.
(** the array of a formula, in the unit of the quantity *)
Lemma shown_grid (q : qty) g0 z a : on_grid g0 z -> scale z = 1%Qc -> in_unit ueq factor consistent q (PArr z) = Ok a ->
  on_grid g0 a /\ size (aunit a) = size (qunit q) /\ forall k, amount_at size a k = amount_at size z k.
Proof.
  intros (T & Ez & Lz) Sz I. destruct (in_unit_ok ueq factor consistent size (sound_measures S) q z a T Sz I) as (Ta & Ua & _ & Aa & La & Va).
  split; [split; [exact Ta|split; [congruence|intros d n; rewrite La; apply Lz]]|]. split; [exact Ua|exact Va].
Qed.
Section Stored.
Variable st : store.
Hypothesis W : well_stored st.
Lemma stored_grid args q1 q2 x1 x2 : In q1 (all_stored st) -> In q2 (all_stored st) -> operator q1 args = Ok (PArr x1) -> operator q2 args = Ok (PArr x2) -> on_grid x1 x1 -> on_grid x2 x2 -> on_grid x1 x2.
Proof.
  intros I1 I2 O1 O2 G1 G2. destruct W as (_ & K & _). destruct (K args q1 q2 x1 x2 I1 I2 O1 O2) as (E & L).
  split; [exact (proj1 G2)|]. split; [symmetry; exact E|]. intros d n. symmetry. apply L.
Qed.
Ltac stored_in := unfold all_stored; cbn [In]; auto 12.
(** what is known of the stored quantity [q], seen as [a] *)
Ltac see q H x O G K V := destruct (seen _ _ (qdims (q_r st)) q _ _ (proj1 (proj1 W q ltac:(stored_in))) (proj2 (proj1 W q ltac:(stored_in))) ltac:(eassumption) H) as (x & O & G & K & V).

Notation x_q := (x_quantity (B := B) umul udiv uone uinv ustr fns st).
Notation y_q := (y_quantity (B := B) umul udiv uone uinv ustr fns st).
Notation z_q := (z_quantity (B := B) umul udiv uone uinv ustr fns st).
Notation bmag_q := (bmag_quantity ueq upow uone beq blen bin pw fns st).
Notation umag_q := (umag_quantity ueq upow uone beq blen bin pw fns st).
Notation upara_q := (upara_quantity ueq umul udiv upow uone uinv beq blen bin pw fns st).
Notation uperp_q := (uperp_quantity ueq umul udiv upow uone uinv beq blen bin pw fns st).

(** [a] is an array like [ar], in a unit of the size of [u], with the amounts [am] *)
Definition shows_formula (ar a : arr) (u : U) (am : coords -> Qc -> Prop) : Prop :=
  tidy a /\ paxes a = paxes ar /\ (forall d n, axis_len (face a) d n <-> axis_len (face ar) d n) /\ size (aunit a) = size u /\
  forall k, inside a k -> am k (amount_at size a k).


(** every step of a formula that gave a result gave one *)
Ltac step O E := match type of O with bind ?x _ = Ok _ => destruct x eqn:E; [|discriminate O]; cbn [bind] in O end.
Ltac grid O1 O2 G1 G2 := refine (stored_grid _ _ _ _ _ _ _ O1 O2 G1 G2); stored_in.
Lemma shown_as (q : qty) (X z ax a : arr) (am : coords -> Qc -> Prop) : on_grid X X -> on_grid X ax -> on_grid X z -> scale z = 1%Qc -> in_unit ueq factor consistent q (PArr z) = Ok a ->
  (forall k, inside X k -> am k (amount_at size z k)) -> shows_formula ax a (qunit q) am.
Proof.
  intros Gx Gax Gz Sz I H. destruct (shown_grid q X z a Gz Sz I) as (Ga & Ua & Va). destruct (grid_self S X ax a Gax Ga) as (Ta & Ea & La).
  split; [exact Ta|]. split; [exact Ea|]. split; [exact La|]. split; [exact Ua|]. intros k Ik. rewrite Va. apply H. intros d n L. apply Ik. apply (proj2 (proj2 Ga)). exact L.
Qed.
(** The coordinates: x = r sin(theta) cos(phi), y = r sin(theta) sin(phi) and
    z = r cos(theta) at every point, in a unit and with the axes of r. *)
Theorem C96_cartesian c g ar at_ ap : at_constraints c (q_r st) g = Ok ar -> at_constraints c (q_theta st) g = Ok at_ -> at_constraints c (q_phi st) g = Ok ap ->
  (forall a, at_constraints c x_q g = Ok a -> shows_formula ar a (qunit (q_r st)) (fun k v => v = (amount_at size ar k * sine (amount_at size at_ k) * cosine (amount_at size ap k))%Qc)) /\
  (forall a, at_constraints c y_q g = Ok a -> shows_formula ar a (qunit (q_r st)) (fun k v => v = (amount_at size ar k * sine (amount_at size at_ k) * sine (amount_at size ap k))%Qc)) /\
  (forall a, at_constraints c z_q g = Ok a -> shows_formula ar a (qunit (q_r st)) (fun k v => v = (amount_at size ar k * cosine (amount_at size at_ k))%Qc)).
Proof.
  intros Hr Ht Hp. split; [|split].
  - intros a H. destruct (observed_args c _ g a H) as (args & r & A & O & I). cbn [qdims x_quantity] in A.
    see (q_r st) Hr R OR GR KR VR. see (q_theta st) Ht T OT GT KT VT. see (q_phi st) Hp P OP GP KP VP.
    assert (GRT : on_grid R T) by (grid OR OT GR GT). assert (GRP : on_grid R P) by (grid OR OP GR GP).
    pose proof (proj2 (proj2 W) args T (or_introl OT)) as RT. pose proof (proj2 (proj2 W) args P (or_intror OP)) as RP.
    cbn [operator x_quantity] in O. unfold fx in O. rewrite OR, OT, OP in O. cbn [bind] in O. step O E1. step O E2. step O E3.
    destruct (trig_gives S sine R T _ GRT RT E1) as (z1 & -> & G1 & _ & _ & V1). destruct (mul_gives S OMul R R z1 _ GR G1 E2) as (u2 & (z2 & -> & G2 & _ & _ & V2) & _).
    destruct (trig_gives S cosine R P _ GRP RP E3) as (z3 & -> & G3 & _ & _ & V3). destruct (mul_gives S OMul R z2 z3 _ G2 G3 O) as (u4 & (z4 & -> & G4 & S4 & _ & V4) & _).
    refine (shown_as x_q R z4 ar a _ GR KR G4 S4 I _). intros k Ik. rewrite VR, VT, VP, (V4 k Ik), (V2 k Ik), (V1 k Ik), (V3 k Ik). reflexivity.
  - intros a H. destruct (observed_args c _ g a H) as (args & r & A & O & I). cbn [qdims y_quantity] in A.
    see (q_r st) Hr R OR GR KR VR. see (q_theta st) Ht T OT GT KT VT. see (q_phi st) Hp P OP GP KP VP.
    assert (GRT : on_grid R T) by (grid OR OT GR GT). assert (GRP : on_grid R P) by (grid OR OP GR GP).
    pose proof (proj2 (proj2 W) args T (or_introl OT)) as RT. pose proof (proj2 (proj2 W) args P (or_intror OP)) as RP.
    cbn [operator y_quantity] in O. unfold fy in O. rewrite OR, OT, OP in O. cbn [bind] in O. step O E1. step O E2. step O E3.
    destruct (trig_gives S sine R T _ GRT RT E1) as (z1 & -> & G1 & _ & _ & V1). destruct (mul_gives S OMul R R z1 _ GR G1 E2) as (u2 & (z2 & -> & G2 & _ & _ & V2) & _).
    destruct (trig_gives S sine R P _ GRP RP E3) as (z3 & -> & G3 & _ & _ & V3). destruct (mul_gives S OMul R z2 z3 _ G2 G3 O) as (u4 & (z4 & -> & G4 & S4 & _ & V4) & _).
    refine (shown_as y_q R z4 ar a _ GR KR G4 S4 I _). intros k Ik. rewrite VR, VT, VP, (V4 k Ik), (V2 k Ik), (V1 k Ik), (V3 k Ik). reflexivity.
  - intros a H. destruct (observed_args c _ g a H) as (args & r & A & O & I). cbn [qdims z_quantity] in A.
    see (q_r st) Hr R OR GR KR VR. see (q_theta st) Ht T OT GT KT VT.
    assert (GRT : on_grid R T) by (grid OR OT GR GT).
    pose proof (proj2 (proj2 W) args T (or_introl OT)) as RT.
    cbn [operator z_quantity] in O. unfold fz in O. rewrite OR, OT in O. cbn [bind] in O. step O E1.
    destruct (trig_gives S cosine R T _ GRT RT E1) as (z1 & -> & G1 & _ & _ & V1). destruct (mul_gives S OMul R R z1 _ GR G1 O) as (u4 & (z4 & -> & G4 & S4 & _ & V4) & _).
    refine (shown_as z_q R z4 ar a _ GR KR G4 S4 I _). intros k Ik. rewrite VR, VT, (V4 k Ik), (V1 k Ik). reflexivity.
Qed.

(** ** Vectors *)
Definition square_sum (x y z : arr) (k : coords) : Qc := (amount_at size x k * amount_at size x k + amount_at size y k * amount_at size y k + amount_at size z k * amount_at size z k)%Qc.
Definition scalar_product (b1 b2 b3 u1 u2 u3 : arr) (k : coords) : Qc := (amount_at size b1 k * amount_at size u1 k + amount_at size b2 k * amount_at size u2 k + amount_at size b3 k * amount_at size u3 k)%Qc.
(** the stored components of the field and of the velocity for one set of arguments *)
Record read (args : arguments (U := U)) (b1 b2 b3 u1 u2 u3 : arr) : Prop := mkread {
  read_br : operator (q_br st) args = Ok (PArr b1); read_bt : operator (q_btheta st) args = Ok (PArr b2); read_bp : operator (q_bphi st) args = Ok (PArr b3);
  read_ur : operator (q_ur st) args = Ok (PArr u1); read_ut : operator (q_utheta st) args = Ok (PArr u2); read_up : operator (q_uphi st) args = Ok (PArr u3);
  read_b1 : on_grid b1 b1; read_b2 : on_grid b1 b2; read_b3 : on_grid b1 b3; read_u1 : on_grid b1 u1; read_u2 : on_grid b1 u2; read_u3 : on_grid b1 u3 }.
Lemma read_all args v1 v2 v3 w1 w2 w3 : operator (q_br st) args = Ok v1 -> operator (q_btheta st) args = Ok v2 -> operator (q_bphi st) args = Ok v3 ->
  operator (q_ur st) args = Ok w1 -> operator (q_utheta st) args = Ok w2 -> operator (q_uphi st) args = Ok w3 ->
  exists b1 b2 b3 u1 u2 u3, v1 = PArr b1 /\ v2 = PArr b2 /\ v3 = PArr b3 /\ w1 = PArr u1 /\ w2 = PArr u2 /\ w3 = PArr u3 /\ read args b1 b2 b3 u1 u2 u3.
Proof.
  intros H1 H2 H3 K1 K2 K3.
  destruct (proj1 (proj1 W (q_br st) ltac:(stored_in)) args v1 H1) as (b1 & -> & T1 & _). destruct (proj1 (proj1 W (q_btheta st) ltac:(stored_in)) args v2 H2) as (b2 & -> & T2 & _).
  destruct (proj1 (proj1 W (q_bphi st) ltac:(stored_in)) args v3 H3) as (b3 & -> & T3 & _). destruct (proj1 (proj1 W (q_ur st) ltac:(stored_in)) args w1 K1) as (u1 & -> & R1 & _).
  destruct (proj1 (proj1 W (q_utheta st) ltac:(stored_in)) args w2 K2) as (u2 & -> & R2 & _). destruct (proj1 (proj1 W (q_uphi st) ltac:(stored_in)) args w3 K3) as (u3 & -> & R3 & _).
  assert (Self : forall x : arr, tidy x -> on_grid x x) by (intros x T; split; [exact T|split; reflexivity]).
  exists b1, b2, b3, u1, u2, u3. repeat (split; [reflexivity|]). split; try assumption; [apply Self, T1|..].
  - grid H1 H2 (Self b1 T1) (Self b2 T2).
  - grid H1 H3 (Self b1 T1) (Self b3 T3).
  - grid H1 K1 (Self b1 T1) (Self u1 R1).
  - grid H1 K2 (Self b1 T1) (Self u2 R2).
  - grid H1 K3 (Self b1 T1) (Self u3 R3).
Qed.
(** an array on the grid, with a unit of the given size *)
Definition yields (g : arr) (v : val) (k : Qc) (am : coords -> Qc -> Prop) : Prop :=
  exists z, v = PArr z /\ on_grid g z /\ scale z = 1%Qc /\ size (aunit z) = k /\ forall c, inside g c -> am c (amount_at size z c).
Lemma bmag_yields args b1 b2 b3 u1 u2 u3 v : read args b1 b2 b3 u1 u2 u3 -> fbmag_ st args = Ok v -> yields b1 v (size (aunit b1)) (fun k m => root_of root m (square_sum b1 b2 b3 k)).
Proof.
  intros Rd H. unfold fbmag in H. rewrite (read_br _ _ _ _ _ _ _ Rd), (read_bt _ _ _ _ _ _ _ Rd), (read_bp _ _ _ _ _ _ _ Rd) in H. cbn [bind] in H. step H E.
  exact (magnitude_gives S b1 b1 b2 b3 v _ (read_b1 _ _ _ _ _ _ _ Rd) (read_b2 _ _ _ _ _ _ _ Rd) (read_b3 _ _ _ _ _ _ _ Rd) E H).
Qed.
Lemma umag_yields args b1 b2 b3 u1 u2 u3 v : read args b1 b2 b3 u1 u2 u3 -> fumag_ st args = Ok v -> yields b1 v (size (aunit u1)) (fun k m => root_of root m (square_sum u1 u2 u3 k)).
Proof.
  intros Rd H. unfold fumag in H. rewrite (read_ur _ _ _ _ _ _ _ Rd), (read_ut _ _ _ _ _ _ _ Rd), (read_up _ _ _ _ _ _ _ Rd) in H. cbn [bind] in H. step H E.
  exact (magnitude_gives S b1 u1 u2 u3 v _ (read_u1 _ _ _ _ _ _ _ Rd) (read_u2 _ _ _ _ _ _ _ Rd) (read_u3 _ _ _ _ _ _ _ Rd) E H).
Qed.
Lemma udotb_yields args b1 b2 b3 u1 u2 u3 v : read args b1 b2 b3 u1 u2 u3 -> fudotb_ st args = Ok v -> yields b1 v (size (aunit b1) * size (aunit u1))%Qc (fun k m => m = scalar_product b1 b2 b3 u1 u2 u3 k).
Proof.
  intros Rd H. unfold fudotb in H. rewrite (read_br _ _ _ _ _ _ _ Rd), (read_bt _ _ _ _ _ _ _ Rd), (read_bp _ _ _ _ _ _ _ Rd), (read_ur _ _ _ _ _ _ _ Rd), (read_ut _ _ _ _ _ _ _ Rd), (read_up _ _ _ _ _ _ _ Rd) in H. cbn [bind] in H.
  exact (dot_gives S b1 b1 b2 b3 u1 u2 u3 v (read_b1 _ _ _ _ _ _ _ Rd) (read_b2 _ _ _ _ _ _ _ Rd) (read_b3 _ _ _ _ _ _ _ Rd) (read_u1 _ _ _ _ _ _ _ Rd) (read_u2 _ _ _ _ _ _ _ Rd) (read_u3 _ _ _ _ _ _ _ Rd) H).
Qed.
Lemma ubmag_yields args b1 b2 b3 u1 u2 u3 v : read args b1 b2 b3 u1 u2 u3 -> fubmag_ st args = Ok v ->
  yields b1 v (size (aunit b1) * size (aunit u1))%Qc (fun k p => exists m n, root_of root m (square_sum b1 b2 b3 k) /\ root_of root n (square_sum u1 u2 u3 k) /\ p = (m * n)%Qc).
Proof.
  intros Rd H. unfold fubmag in H. step H E1. step H E2.
  destruct (bmag_yields _ _ _ _ _ _ _ _ Rd E1) as (z1 & -> & G1 & S1 & U1 & V1). destruct (umag_yields _ _ _ _ _ _ _ _ Rd E2) as (z2 & -> & G2 & S2 & U2 & V2).
  destruct (mul_gives S OMul b1 z1 z2 v G1 G2 H) as (u & (z & -> & G & Sz & Uz & V) & Zu). exists z. split; [reflexivity|]. split; [exact G|]. split; [exact Sz|].
  split; [rewrite Uz, Zu, U1, U2; reflexivity|]. intros k Ik. exists (amount_at size z1 k), (amount_at size z2 k). split; [apply V1, Ik|]. split; [apply V2, Ik|apply V, Ik].
Qed.
Lemma upara_yields args b1 b2 b3 u1 u2 u3 v : read args b1 b2 b3 u1 u2 u3 -> fupara_ st args = Ok v ->
  yields b1 v (size (aunit u1)) (fun k p => exists m, root_of root m (square_sum b1 b2 b3 k) /\ p = (scalar_product b1 b2 b3 u1 u2 u3 k / m)%Qc).
Proof.
  intros Rd H. unfold fupara in H. step H E1. step H E2.
  destruct (udotb_yields _ _ _ _ _ _ _ _ Rd E1) as (z1 & -> & G1 & S1 & U1 & V1). destruct (bmag_yields _ _ _ _ _ _ _ _ Rd E2) as (z2 & -> & G2 & S2 & U2 & V2).
  destruct (mul_gives S ODiv b1 z1 z2 v G1 G2 H) as (u & (z & -> & G & Sz & Uz & V) & Zu). exists z. split; [reflexivity|]. split; [exact G|]. split; [exact Sz|].
  split. { rewrite Uz, Zu, U1, U2. cbn [op_fun]. field. apply (size_nonzero _ _ _ (sound_measures S)). }
  intros k Ik. exists (amount_at size z2 k). split; [apply V2, Ik|]. rewrite <- (V1 k Ik). apply V, Ik.
Qed.
Lemma uperp_yields args b1 b2 b3 u1 u2 u3 v : read args b1 b2 b3 u1 u2 u3 -> fuperp_ st args = Ok v ->
  yields b1 v (size (aunit u1)) (fun k p => exists m n, root_of root m (square_sum b1 b2 b3 k) /\ root_of root n (square_sum u1 u2 u3 k) /\
    root_of root p (n * n - (scalar_product b1 b2 b3 u1 u2 u3 k / m) * (scalar_product b1 b2 b3 u1 u2 u3 k / m))%Qc).
Proof.
  intros Rd H. unfold fuperp in H. step H E1. step H E2.
  destruct (umag_yields _ _ _ _ _ _ _ _ Rd E1) as (z1 & -> & G1 & S1 & U1 & V1). destruct (upara_yields _ _ _ _ _ _ _ _ Rd E2) as (z2 & -> & G2 & S2 & U2 & V2).
  step H E3. step H E4. step H E5. destruct (square_gives S b1 z1 _ G1 E3) as (w3 & (z3 & -> & G3 & S3 & U3 & V3) & Z3). destruct (square_gives S b1 z2 _ G2 E4) as (w4 & (z4 & -> & G4 & S4 & U4 & V4) & Z4).
  destruct (add_gives S Qcminus b1 z3 z4 _ (or_intror eq_refl) G3 G4 E5) as (z5 & -> & G5 & S5 & U5 & V5). destruct (sqrt_gives S b1 z5 v G5 H) as (z & -> & G & Sz & Zu & V).
  exists z. split; [reflexivity|]. split; [exact G|]. split; [exact Sz|]. split.
  - apply same_root; [apply (sound_positive S)|apply (sound_positive S)|]. rewrite Zu, U5, U3, Z3, U1. reflexivity.
  - intros k Ik. destruct (V2 k Ik) as (m & Hm & Pm). exists m, (amount_at size z1 k). split; [exact Hm|]. split; [apply V1, Ik|]. rewrite <- Pm, <- (V3 k Ik), <- (V4 k Ik), <- (V5 k Ik). apply V, Ik.
Qed.

Lemma magnitude_observed (q qa qb qc : qty) c g a aa ab ac : In qa (all_stored st) -> In qb (all_stored st) -> In qc (all_stored st) -> qdims q = qdims (q_r st) ->
  (forall args, operator q args = (x <- operator qa args ;; y <- operator qb args ;; z <- operator qc args ;; w <- squares_ x y z ;; npsqrt_ w)) ->
  at_constraints c qa g = Ok aa -> at_constraints c qb g = Ok ab -> at_constraints c qc g = Ok ac -> at_constraints c q g = Ok a ->
  shows_formula aa a (qunit q) (fun k m => root_of root m (square_sum aa ab ac k)).
Proof.
  intros Ia Ib Ic D Q Ha Hb Hc H. destruct (observed_args c q g a H) as (args & r & A & O & I). rewrite D in A. rewrite Q in O.
  destruct (seen c g _ qa args aa (proj1 (proj1 W qa Ia)) (proj2 (proj1 W qa Ia)) A Ha) as (x & Ox & Gx & Kx & Vx).
  destruct (seen c g _ qb args ab (proj1 (proj1 W qb Ib)) (proj2 (proj1 W qb Ib)) A Hb) as (y & Oy & Gy & Ky & Vy).
  destruct (seen c g _ qc args ac (proj1 (proj1 W qc Ic)) (proj2 (proj1 W qc Ic)) A Hc) as (z & Oz & Gz & Kz & Vz).
  rewrite Ox, Oy, Oz in O. cbn [bind] in O. step O E.
  destruct (magnitude_gives S x x y z r _ Gx (stored_grid _ _ _ _ _ Ia Ib Ox Oy Gx Gy) (stored_grid _ _ _ _ _ Ia Ic Ox Oz Gx Gz) E O) as (m & -> & Gm & Sm & _ & Vm).
  refine (shown_as q x m aa a _ Gx Kx Gm Sm I _). intros k Ik. unfold square_sum. rewrite Vx, Vy, Vz. apply Vm, Ik.
Qed.
(** The magnitudes of the field and of the velocity: the root of the sum of the
    squares of the components, in a unit and with the axes of the radial one. *)
Theorem C96_magnitudes c g :
  (forall a1 a2 a3 a, at_constraints c (q_br st) g = Ok a1 -> at_constraints c (q_btheta st) g = Ok a2 -> at_constraints c (q_bphi st) g = Ok a3 -> at_constraints c bmag_q g = Ok a ->
     shows_formula a1 a (qunit (q_br st)) (fun k m => root_of root m (square_sum a1 a2 a3 k) /\ (exact_root root (square_sum a1 a2 a3 k) -> (m * m)%Qc = square_sum a1 a2 a3 k))) /\
  (forall a1 a2 a3 a, at_constraints c (q_ur st) g = Ok a1 -> at_constraints c (q_utheta st) g = Ok a2 -> at_constraints c (q_uphi st) g = Ok a3 -> at_constraints c umag_q g = Ok a ->
     shows_formula a1 a (qunit (q_ur st)) (fun k m => root_of root m (square_sum a1 a2 a3 k) /\ (exact_root root (square_sum a1 a2 a3 k) -> (m * m)%Qc = square_sum a1 a2 a3 k))).
Proof.
  split; intros a1 a2 a3 a H1 H2 H3 H.
  - destruct (magnitude_observed bmag_q (q_br st) (q_btheta st) (q_bphi st) c g a a1 a2 a3 ltac:(stored_in) ltac:(stored_in) ltac:(stored_in) (proj2 (proj1 W (q_br st) ltac:(stored_in))) (fun args => eq_refl) H1 H2 H3 H) as (T & E & L & Z & V).
    split; [exact T|]. split; [exact E|]. split; [exact L|]. split; [exact Z|]. intros k Ik. split; [apply V, Ik|]. apply exact_square, V, Ik.
  - destruct (magnitude_observed umag_q (q_ur st) (q_utheta st) (q_uphi st) c g a a1 a2 a3 ltac:(stored_in) ltac:(stored_in) ltac:(stored_in) (proj2 (proj1 W (q_ur st) ltac:(stored_in))) (fun args => eq_refl) H1 H2 H3 H) as (T & E & L & Z & V).
    split; [exact T|]. split; [exact E|]. split; [exact L|]. split; [exact Z|]. intros k Ik. split; [apply V, Ik|]. apply exact_square, V, Ik.
Qed.
(** The parallel velocity is the scalar product over the magnitude of the field;
    the perpendicular one is the root of what is left of the square. *)
Theorem C96_components c g b1 b2 b3 u1 u2 u3 :
  at_constraints c (q_br st) g = Ok b1 -> at_constraints c (q_btheta st) g = Ok b2 -> at_constraints c (q_bphi st) g = Ok b3 ->
  at_constraints c (q_ur st) g = Ok u1 -> at_constraints c (q_utheta st) g = Ok u2 -> at_constraints c (q_uphi st) g = Ok u3 ->
  (forall a, at_constraints c upara_q g = Ok a -> shows_formula u1 a (qunit (q_ur st)) (fun k p =>
     exists m, root_of root m (square_sum b1 b2 b3 k) /\ p = (scalar_product b1 b2 b3 u1 u2 u3 k / m)%Qc)) /\
  (forall a, at_constraints c uperp_q g = Ok a -> shows_formula u1 a (qunit (q_ur st)) (fun k p =>
     exists m n, root_of root m (square_sum b1 b2 b3 k) /\ root_of root n (square_sum u1 u2 u3 k) /\
       let para := (scalar_product b1 b2 b3 u1 u2 u3 k / m)%Qc in
       root_of root p (n * n - para * para)%Qc /\
       (exact_root root (square_sum u1 u2 u3 k) -> exact_root root (n * n - para * para)%Qc -> (p * p + para * para)%Qc = square_sum u1 u2 u3 k))).
Proof.
  intros H1 H2 H3 K1 K2 K3.
  assert (P : forall args, asked_args c (qdims (q_r st)) g = Ok args -> exists x1 x2 x3 y1 y2 y3, read args x1 x2 x3 y1 y2 y3 /\ on_grid x1 u1 /\
    (forall k, square_sum b1 b2 b3 k = square_sum x1 x2 x3 k) /\ (forall k, square_sum u1 u2 u3 k = square_sum y1 y2 y3 k) /\ (forall k, scalar_product b1 b2 b3 u1 u2 u3 k = scalar_product x1 x2 x3 y1 y2 y3 k)).
  { intros args A. see (q_br st) H1 x1 O1 Gb1 L1 V1. see (q_btheta st) H2 x2 O2 Gb2 L2 V2. see (q_bphi st) H3 x3 O3 Gb3 L3 V3.
    see (q_ur st) K1 y1 P1 Q1 R1 X1. see (q_utheta st) K2 y2 P2 Q2 R2 X2. see (q_uphi st) K3 y3 P3 Q3 R3 X3.
    destruct (read_all args _ _ _ _ _ _ O1 O2 O3 P1 P2 P3) as (? & ? & ? & ? & ? & ? & [= <-] & [= <-] & [= <-] & [= <-] & [= <-] & [= <-] & Rd).
    exists x1, x2, x3, y1, y2, y3. split; [exact Rd|]. split.
    - destruct (read_u1 _ _ _ _ _ _ _ Rd) as (_ & Ey & Ly). destruct R1 as (Tu & Eu & Lu). split; [exact Tu|]. split; [congruence|]. intros d n. rewrite Lu. apply Ly.
    - unfold square_sum, scalar_product. split; [|split]; intros k; rewrite ?V1, ?V2, ?V3, ?X1, ?X2, ?X3; reflexivity. }
  split; intros a H.
  - destruct (observed_args c _ g a H) as (args & r & A & O & I). cbn [qdims upara_quantity] in A. rewrite (proj2 (proj1 W (q_ur st) ltac:(stored_in))) in A.
    destruct (P args A) as (x1 & x2 & x3 & y1 & y2 & y3 & Rd & Gu & E1 & E2 & E3). destruct (upara_yields _ _ _ _ _ _ _ _ Rd O) as (z & -> & Gz & Sz & _ & V).
    refine (shown_as upara_q x1 z u1 a _ (read_b1 _ _ _ _ _ _ _ Rd) Gu Gz Sz I _). intros k Ik. rewrite E1, E3. apply V, Ik.
  - destruct (observed_args c _ g a H) as (args & r & A & O & I). cbn [qdims uperp_quantity] in A. rewrite (proj2 (proj1 W (q_ur st) ltac:(stored_in))) in A.
    destruct (P args A) as (x1 & x2 & x3 & y1 & y2 & y3 & Rd & Gu & E1 & E2 & E3). destruct (uperp_yields _ _ _ _ _ _ _ _ Rd O) as (z & -> & Gz & Sz & _ & V).
    refine (shown_as uperp_q x1 z u1 a _ (read_b1 _ _ _ _ _ _ _ Rd) Gu Gz Sz I _). intros k Ik. rewrite E1, E2, E3. destruct (V k Ik) as (m & n & Hm & Hn & Hp). exists m, n.
    split; [exact Hm|]. split; [exact Hn|]. cbv zeta. split; [exact Hp|]. intros X Y. rewrite (exact_square root _ _ Hp Y), (exact_square root _ _ Hn X). ring.
Qed.
(** The angle: wherever the axes of the whole dataset fit, the inverse cosine of
    the cosine nearest to the scalar product over the magnitudes. *)
Theorem C96_angle rad (ur : arr) args v b1 b2 b3 u1 u2 u3 :
  operator (q_br st) args = Ok (PArr b1) -> operator (q_btheta st) args = Ok (PArr b2) -> operator (q_bphi st) args = Ok (PArr b3) ->
  operator (q_ur st) args = Ok (PArr u1) -> operator (q_utheta st) args = Ok (PArr u2) -> operator (q_uphi st) args = Ok (PArr u3) ->
  map fst (paxes ur) = map fst (paxes u1) -> fangle ueq umul udiv upow uone uinv beq blen bin pw fns st rad ur args = Ok v ->
  exists z, v = PArr z /\ aunit z = rad /\ paxes z = paxes ur /\ (forall d n, axis_len (face z) d n <-> axis_len (face u1) d n) /\
    forall k, inside u1 k -> exists m n t, root_of root m (square_sum b1 b2 b3 k) /\ root_of root n (square_sum u1 u2 u3 k) /\
      nearest_cosine (scalar_product b1 b2 b3 u1 u2 u3 k / (m * n))%Qc t /\ value_at z k = arc t.
Proof.
  intros H1 H2 H3 K1 K2 K3 En H. destruct (read_all args _ _ _ _ _ _ H1 H2 H3 K1 K2 K3) as (? & ? & ? & ? & ? & ? & [= <-] & [= <-] & [= <-] & [= <-] & [= <-] & [= <-] & Rd).
  unfold fangle, angle_operator in H. step H E1. step H E2. step H E3.
  destruct (udotb_yields _ _ _ _ _ _ _ _ Rd E1) as (z1 & -> & G1 & S1 & U1 & V1). destruct (ubmag_yields _ _ _ _ _ _ _ _ Rd E2) as (z2 & -> & G2 & S2 & U2 & V2).
  destruct (mul_gives S ODiv b1 z1 z2 _ G1 G2 E3) as (u & (z & -> & G & Sz & Uz & V) & Zu). cbv beta iota in H. destruct (adata z) as [a|] eqn:E4; [|discriminate H]. cbn [bind] in H.
  match type of H with bind ?x _ = Ok _ => destruct x as [p|] eqn:E5; [|discriminate H]; cbn [bind] in H end. injection H as <-.
  destruct (adata_ok z (proj1 (proj1 G))) as (d & Ed & Nd & Sd & Wd & Ld & Vd). rewrite E4 in Ed. injection Ed as <-.
  pose proof (read_u1 _ _ _ _ _ _ _ Rd) as Gu.
  assert (Ean : anames a = map fst (paxes ur)). { unfold anames. rewrite Nd. rewrite (tidy_names z (proj1 G)), En. destruct G as (_ & -> & _), Gu as (_ & -> & _). reflexivity. }
  assert (One : size (aunit z) = 1%Qc).
  { rewrite Uz, Zu, U1, U2. cbn [op_fun]. field. split; apply (size_nonzero _ _ _ (sound_measures S)). }
  assert (F : data (face p) = nd_map (fun v => arc (clamp v)) (data a) /\ anames (face p) = anames a /\ scale p = 1%Qc /\ aunit p = rad /\ paxes p = paxes ur).
  { destruct (parray_factory_keeps _ _ _ _ E5) as (D & P & Ua & Sp). split; [exact D|]. split; [|auto].
    unfold parray_factory in E5. destruct (paxes ur) as [|kv ax] eqn:Ex.
    - exfalso. destruct Gu as (Tu & _ & _). apply Tu. destruct (paxes u1); [reflexivity|discriminate En].
    - destruct (array_factory _ _) as [f|] eqn:Ef; [|discriminate E5]. cbn [bind] in E5. injection E5 as <-. cbn [face].
      destruct Wd as (Na & La & Pa). rewrite Ean. unfold array_factory in Ef. destruct (negb _); [discriminate Ef|]. injection Ef as <-. unfold anames. cbn [adims].
      unfold dimensions_factory. cbn [names]. apply unique_id. rewrite <- Ean. exact Na. }
  destruct F as (Fd & Fn & Fs & Fu & Fp). exists p. split; [reflexivity|]. split; [exact Fu|]. split; [exact Fp|]. split.
  - intros e n. transitivity (axis_len a e n); [unfold axis_len; rewrite Fd, Fn; reflexivity|]. rewrite Ld. rewrite (proj2 (proj2 G)). symmetry. apply (proj2 (proj2 Gu)).
  - intros k Ik. assert (Ib : inside b1 k) by (intros e n L; apply Ik, (proj2 (proj2 Gu)), L).
    destruct (V2 k Ib) as (m & n & Hm & Hn & Pm). exists m, n, (clamp (value_at z k)). split; [exact Hm|]. split; [exact Hn|].
    assert (Val : value_at z k = (scalar_product b1 b2 b3 u1 u2 u3 k / (m * n))%Qc).
    { specialize (V k Ib). cbn [op_fun] in V. rewrite (V1 k Ib), Pm in V. rewrite <- V. unfold amount_at. rewrite One. ring. }
    rewrite <- Val. split; [apply clamp_nearest|]. rewrite (value_scaled p k Fs). unfold at_. rewrite Fd, Fn. cbn [nd_map elem]. fold (at_ a k). f_equal. f_equal.
    apply Vd. apply (inside_grid b1 z k G Ib).
Qed.
End Stored.
End Observed.
End Formula.
Print Assumptions C96_cartesian.
Print Assumptions C96_magnitudes.
Print Assumptions C96_components.
Print Assumptions C96_angle.

(** ** Instances: units and numbers as in PhysicalExamples, the dataset of ObservableExamples *)
(** square roots of rational squares *)
Definition rational_root (q : Qc) : Qc := mkq (Z.sqrt (Qnum (this q))) (Pos.sqrt (Qden (this q))).
Definition unit_power (u : U) (p : Qc) : result U :=
  if qc_eqb p (zq 2) then utimes u u
  else if qc_eqb p (mkq 1 2) then
    let r := rational_root (usize u) in if qc_ltb 0 r && qc_eqb (r * r)%Qc (usize u) then Ok (r, (snd u / 2)%Z) else Raise ValueError
  else Raise ValueError.
Definition number_power (v p : Qc) : Qc := (v * v)%Qc.
Definition unit_name (u : U) : str := if qc_eqb (usize u) 1 && Z.eqb (snd u) 7 then s "rad" else s "other".
Definition radian : U := (1%Qc, 7%Z).
(** stand-ins for the functions of an angle *)
Definition twice_ (q : Qc) : Qc := (q + q)%Qc.
Definition thrice_ (q : Qc) : Qc := (q + q + q)%Qc.
Definition fns_case : functions := mkfunctions rational_root twice_ thrice_ thrice_.
Lemma sound_case : sound uequal utimes uover unit_power uunit uinverse unit_name ufactor usize bequal number_power.
Proof.
  split.
  - exact u_measures.
  - exact u_sound.
  - intros u w H. unfold unit_power in H. replace (qc_eqb (zq 2) (zq 2)) with true in H by reflexivity. apply (proj1 u_sound) in H. exact H.
  - intros u w H. unfold unit_power in H. replace (qc_eqb (mkq 1 2) (zq 2)) with false in H by reflexivity. replace (qc_eqb (mkq 1 2) (mkq 1 2)) with true in H by reflexivity. cbv zeta in H.
    destruct (qc_ltb_spec 0 (rational_root (usize u))) as [P|P]; [|discriminate H]. cbn [andb] in H. destruct (qc_eqb _ _) eqn:E; [|discriminate H]. injection H as <-. apply qc_eqb_eq in E. rewrite (usize_of _ _ P). exact E.
  - exact usize_pos.
  - intros u H. unfold unit_name in H. destruct (qc_eqb (usize u) 1) eqn:E; [apply qc_eqb_eq, E|discriminate H].
  - reflexivity.
  - reflexivity.
  - intros b. unfold bequal. apply (list_eqb_spec Z.eqb Z.eqb_eq). reflexivity.
Qed.
(** a stored array for the asked times and shells *)
Definition stored_as (f : nat -> nat -> Qc) (u : U) (args : arguments (U := U)) : result (pval (U := U) (B := B)) :=
  Ok (PArr (arr2 (length (along args tt)) (length (along args sh)) f u tt sh)).
Definition constant (z : Z) (u w : U) : quantity (U := U) (B := B) := mkqty (stored_as (fun _ _ => zq z) u) w [tt; sh].
Definition store_case : stored (U := U) (B := B) :=
  mkstored (mkqty (stored_as (fun i j => zq (Z.of_nat (i + j + 1))) kilometre) metre [tt; sh]) (constant 2 radian radian) (constant 5 radian radian)
           (constant 1 (1%Qc, 4%Z) (1%Qc, 4%Z)) (constant 2 (1%Qc, 4%Z) (1%Qc, 4%Z)) (constant 2 (1%Qc, 4%Z) (1%Qc, 4%Z))
           (constant 10 centimetre metre) (constant 11 centimetre metre) (constant 2 centimetre metre).
Lemma stored_as_array f u args : exists a, stored_as f u args = Ok (PArr a) /\ tidy a /\ scale a = 1%Qc.
Proof.
  eexists. split; [reflexivity|]. pose proof (along_some args tt) as H1. pose proof (along_some args sh) as H2. split; [|reflexivity].
  apply arr2_tidy; [destruct (along args tt); [contradiction|cbn; lia]|destruct (along args sh); [contradiction|cbn; lia]|discriminate].
Qed.
Lemma store_well : well_stored unit_name store_case.
Proof.
  assert (F : forall q, In q (all_stored store_case) -> exists f u w, q = mkqty (stored_as f u) w [tt; sh]).
  { intros q H. cbn in H. repeat (destruct H as [<-|H]; [do 3 eexists; reflexivity|]). destruct H. }
  split; [|split].
  - intros q H. destruct (F q H) as (f & u & w & ->). split; [|reflexivity]. intros args v [= <-]. destruct (stored_as_array f u args) as (a & [= <-] & T). eauto.
  - intros args q1 q2 x1 x2 H1 H2. destruct (F q1 H1) as (f1 & u1 & w1 & ->). destruct (F q2 H2) as (f2 & u2 & w2 & ->). cbn [operator]. intros [= <-] [= <-]. split; reflexivity.
  - intros args x [[= <-]|[= <-]]; reflexivity.
Qed.
Notation look_ := (getitem (B := B) uequal uunit ufactor ucomparable long dataset).
(** what an observation shows: its axes and its numbers, where it succeeds *)
Definition seen_values (r : result (parr (U := U) (B := B))) : option (list str * list Q) :=
  match r with Ok a => Some (map fst (paxes a), PhysicalExamples.shown a) | Raise _ => None end.
Example C96_case :
  seen_values (look_ (x_quantity utimes uover uunit uinverse unit_name fns_case store_case) (under m [tt; sh])) = Some ([tt; sh], [60000; 120000]%Q) /\
  seen_values (look_ (bmag_quantity uequal unit_power uunit bequal (@length Z) bwithin number_power fns_case store_case) (under m [tt; sh])) = Some ([tt; sh], [3; 3]%Q) /\
  seen_values (look_ (umag_quantity uequal unit_power uunit bequal (@length Z) bwithin number_power fns_case store_case) (under m [tt; sh])) = Some ([tt; sh], [3 # 20; 3 # 20]%Q) /\
  seen_values (look_ (upara_quantity uequal utimes uover unit_power uunit uinverse bequal (@length Z) bwithin number_power fns_case store_case) (under m [tt; sh])) = Some ([tt; sh], [3 # 25; 3 # 25]%Q) /\
  seen_values (look_ (uperp_quantity uequal utimes uover unit_power uunit uinverse bequal (@length Z) bwithin number_power fns_case store_case) (under m [tt; sh])) = Some ([tt; sh], [9 # 100; 9 # 100]%Q).
Proof. repeat (split; [vm_compute; reflexivity|]). vm_compute. reflexivity. Qed.
(** the angle of two times and three shells: the whole of the dataset *)
Definition whole_args : arguments (U := U) := mkargs [(tt, PPos (These [0; 1]%Z)); (sh, PPos (These [0; 1; 2]%Z))] [].
Example C96_angle_case : exists z, operator (q_ur store_case) whole_args = Ok (PArr (arr2 2 3 (fun _ _ => zq 10) centimetre tt sh)) /\
  fangle uequal utimes uover unit_power uunit uinverse bequal (@length Z) bwithin number_power fns_case store_case radian (arr2 2 3 (fun _ _ => 0%Qc) centimetre tt sh) whole_args = Ok (PArr z) /\
  shown z = [12 # 5; 12 # 5; 12 # 5; 12 # 5; 12 # 5; 12 # 5]%Q.
Proof. eexists. split; [vm_compute; reflexivity|]. split; vm_compute; reflexivity. Qed.
