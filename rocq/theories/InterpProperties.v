(** * Properties of the interpolation of observables: C46 *)
From Verif Require Import PyBase PyLemmas ContainerModel ContainerSpec ContainerProofs ContainerProofs2 ContainerProperties AxisModel AxisSpec AxisProofs InterpModel InterpSpec InterpProofs.
From Coq Require Import Permutation.

Lemma mem_qc t l : mem qc_eqb t l = true <-> In t l.
Proof. apply mem_spec. exact qc_decides. Qed.
Lemma member_value x y t : length x = length y -> NoDup x -> In t x -> exists v, apply1 x y t = Ok v /\ interpolates x y t v.
Proof.
  intros L N H. unfold apply1. rewrite (proj2 (mem_qc t x) H). assert (NE : x <> []) by (intros ->; destruct H).
  destruct (C10_closest_member x t NE) as (i & w & E & Hi & _). rewrite E. cbn [bind fst].
  assert (w = t) as ->.
  { apply nearest_closest in E as (i' & w' & Ei & Hi' & Cl). apply Nat2Z.inj in Ei. subst i'. rewrite Hi in Hi'. injection Hi' as <-.
    apply In_nth_error in H as (j & Hj). destruct (Cl j t Hj) as (D & _). clear - D. unfold distance in D.
    destruct (qc_ltb_spec t t) as [X|_]; [exfalso; exact (Qclt_not_le _ _ X (Qcle_refl _))|]. replace (t - t)%Qc with 0%Qc in D by ring.
    destruct (qc_ltb_spec w t) as [X|X].
    - exfalso. apply (Qclt_not_le _ _ X). apply (Qcplus_le_compat _ _ w w) in D; [|apply Qcle_refl]. replace (t - w + w)%Qc with t in D by ring. rewrite Qcplus_0_l in D. exact D.
    - apply Qcnot_lt_le in X. apply Qcle_antisym; [|exact X]. apply (Qcplus_le_compat _ _ t t) in D; [|apply Qcle_refl]. replace (w - t + t)%Qc with w in D by ring. rewrite Qcplus_0_l in D. exact D. }
  assert (I : i < length y) by (rewrite <- L; apply nth_error_Some; congruence).
  destruct (nth_error y i) as [v|] eqn:Ey; [|apply nth_error_None in Ey; lia]. exists v. split.
  - unfold pyindex. destruct (Z.ltb_spec (Z.of_nat i) 0); [lia|]. destruct (Z.ltb_spec (Z.of_nat i) 0); [lia|]. rewrite Nat2Z.id, Ey. reflexivity.
  - left. exists i. auto.
Qed.
(** ** Along one axis: exactly the broken line through the stored points *)
Theorem C46_value x y t v : NoDup x -> length x = length y -> length x <> 1 -> apply1 x y t = Ok v <-> interpolates x y t v.
Proof.
  intros N L L1. assert (A : forall v, interpolates x y t v -> apply1 x y t = Ok v).
  { intros w H. destruct (in_dec Qc_eq_dec t x) as [I|I].
    - destruct (member_value x y t L N I) as (u & E & H'). rewrite (interpolates_unique x y t w u N H H'). exact E.
    - destruct (interp1d_spec x y t L I (interpolates_spanned x y t w H)) as (u & E & H'). unfold apply1. destruct (mem qc_eqb t x) eqn:M; [apply mem_qc in M; contradiction|].
      destruct (Nat.eqb_spec (length x) 1); [contradiction|]. rewrite (interpolates_unique x y t w u N H H'). exact E. }
  split; [|apply A]. intros E. destruct (in_dec Qc_eq_dec t x) as [I|I].
  - destruct (member_value x y t L N I) as (u & E' & H'). replace v with u by congruence. exact H'.
  - unfold apply1 in E. destruct (mem qc_eqb t x) eqn:M; [apply mem_qc in M; contradiction|]. destruct (Nat.eqb_spec (length x) 1); [contradiction|].
    assert (Dc : spanned x t \/ ~ spanned x t).
    { unfold spanned. assert (D1 : forall l : list Qc, (exists a, In a l /\ (a <= t)%Qc) \/ ~ exists a, In a l /\ (a <= t)%Qc).
      { intros l. destruct (existsb (fun a => qc_leb a t) l) eqn:X; [apply existsb_exists in X as (a & Ia & X); left; exists a; split; [exact Ia|]; destruct (qc_leb_spec a t); [assumption|discriminate]|].
        right. intros (a & Ia & Y). assert (existsb (fun a => qc_leb a t) l = true) by (apply existsb_exists; exists a; split; [exact Ia|destruct (qc_leb_spec a t); [reflexivity|contradiction]]). congruence. }
      assert (D2 : forall l : list Qc, (exists a, In a l /\ (t <= a)%Qc) \/ ~ exists a, In a l /\ (t <= a)%Qc).
      { intros l. destruct (existsb (fun a => qc_leb t a) l) eqn:X; [apply existsb_exists in X as (a & Ia & X); left; exists a; split; [exact Ia|]; destruct (qc_leb_spec t a); [assumption|discriminate]|].
        right. intros (a & Ia & Y). assert (existsb (fun a => qc_leb t a) l = true) by (apply existsb_exists; exists a; split; [exact Ia|destruct (qc_leb_spec t a); [reflexivity|contradiction]]). congruence. }
      destruct (D1 x), (D2 x); tauto. }
    destruct Dc as [Sp|Sp]; [|rewrite (interp1d_outside x y t Sp) in E; discriminate].
    destruct (interp1d_spec x y t L I Sp) as (u & E' & H'). replace v with u by congruence. exact H'.
Qed.
Print Assumptions C46_value.
(** a value exists exactly for targets between the least and the greatest node;
    others raise a ValueError *)
Theorem C46_exactly_when x y t : NoDup x -> length x = length y -> length x <> 1 ->
  ((exists v, apply1 x y t = Ok v) <-> spanned x t) /\ (~ spanned x t -> apply1 x y t = Raise ValueError).
Proof.
  intros N L L1. split; [split|].
  - intros (v & E). apply (C46_value x y t v N L L1) in E. exact (interpolates_spanned x y t v E).
  - intros Sp. destruct (in_dec Qc_eq_dec t x) as [I|I].
    + destruct (member_value x y t L N I) as (u & E & _). eauto.
    + destruct (interp1d_spec x y t L I Sp) as (u & _ & H). exists u. apply C46_value; assumption.
  - intros Ns. unfold apply1. destruct (mem qc_eqb t x) eqn:M.
    + exfalso. apply mem_qc in M. apply Ns. split; exists t; split; try exact M; apply Qcle_refl.
    + destruct (Nat.eqb_spec (length x) 1); [contradiction|]. apply interp1d_outside, Ns.
Qed.
Print Assumptions C46_exactly_when.

(** exact at the nodes *)
Theorem C46_nodes x y i t v : NoDup x -> length x = length y -> nth_error x i = Some t -> nth_error y i = Some v -> apply1 x y t = Ok v.
Proof.
  intros N L Hx Hy. destruct (member_value x y t L N (nth_error_In _ _ Hx)) as (u & E & H). rewrite E. f_equal. apply (interpolates_unique x y t u v N H). left. eauto.
Qed.
Print Assumptions C46_nodes.
(** between the values of the neighbours *)
Lemma add_lt a b c : (a < b)%Qc -> (a + c < b + c)%Qc.
Proof. intros H. apply Qcnot_le_lt. intros X. apply (Qcplus_le_compat _ _ (- c) (- c)) in X; [|apply Qcle_refl]. replace (b + c + - c)%Qc with b in X by ring. replace (a + c + - c)%Qc with a in X by ring. exact (Qclt_not_le _ _ H X). Qed.
Lemma fraction a b t : (a < t)%Qc -> (t < b)%Qc -> exists f, (f = (t - a) / (b - a))%Qc /\ (0 <= f)%Qc /\ (f <= 1)%Qc.
Proof.
  intros H1 H2. exists ((t - a) / (b - a))%Qc. split; [reflexivity|].
  assert (P : (0 < b - a)%Qc). { pose proof (add_lt _ _ (- a) (Qclt_trans _ _ _ H1 H2)) as X. replace (a + - a)%Qc with 0%Qc in X by ring. exact X. }
  assert (P0 : (b - a <> 0)%Qc) by (intros E; rewrite E in P; exact (Qclt_not_le _ _ P (Qcle_refl _))).
  split.
  - apply Qcnot_lt_le. intros X. apply (Qcmult_lt_compat_r _ _ (b - a) P) in X. rewrite Qcmult_0_l in X. replace ((t - a) / (b - a) * (b - a))%Qc with (t - a)%Qc in X by (field; exact P0).
    apply (add_lt _ _ (- a)) in H1. replace (a + - a)%Qc with 0%Qc in H1 by ring. exact (Qclt_not_le _ _ H1 (Qclt_le_weak _ _ X)).
  - apply Qcnot_lt_le. intros X. apply (Qcmult_lt_compat_r _ _ (b - a) P) in X. rewrite Qcmult_1_l in X. replace ((t - a) / (b - a) * (b - a))%Qc with (t - a)%Qc in X by (field; exact P0).
    apply (add_lt _ _ (- a)) in H2. exact (Qclt_not_le _ _ H2 (Qclt_le_weak _ _ X)).
Qed.
Lemma mix lo hi c d f : (lo <= c)%Qc -> (lo <= d)%Qc -> (c <= hi)%Qc -> (d <= hi)%Qc -> (0 <= f)%Qc -> (f <= 1)%Qc -> (lo <= c + (d - c) * f)%Qc /\ (c + (d - c) * f <= hi)%Qc.
Proof.
  intros H1 H2 H3 H4 F0 F1. assert (G0 : (0 <= 1 - f)%Qc) by (apply (Qcplus_le_compat _ _ (- f) (- f)) in F1; [|apply Qcle_refl]; replace (f + - f)%Qc with 0%Qc in F1 by ring; exact F1).
  assert (M : forall p q, (p <= q)%Qc -> (p * f <= q * f)%Qc) by (intros p q; intros X; apply Qcmult_le_compat_r; assumption).
  assert (M' : forall p q, (p <= q)%Qc -> (p * (1 - f) <= q * (1 - f))%Qc) by (intros p q; intros X; apply Qcmult_le_compat_r; assumption).
  replace (c + (d - c) * f)%Qc with (c * (1 - f) + d * f)%Qc by ring. split.
  - replace lo with (lo * (1 - f) + lo * f)%Qc by ring. apply Qcplus_le_compat; auto.
  - replace hi with (hi * (1 - f) + hi * f)%Qc by ring. apply Qcplus_le_compat; auto.
Qed.
Theorem C46_between x y t v lo hi : interpolates x y t v -> Forall (fun w => lo <= w /\ w <= hi)%Qc y -> (lo <= v)%Qc /\ (v <= hi)%Qc.
Proof.
  intros H F. rewrite Forall_forall in F. destruct H as [(i & _ & Hy)|(i & j & a & b & c & d & _ & Yi & _ & Yj & At & Tb & _ & ->)]; [apply F, (nth_error_In _ _ Hy)|].
  destruct (fraction a b t At Tb) as (f & <- & F0 & F1). destruct (F c (nth_error_In _ _ Yi)), (F d (nth_error_In _ _ Yj)). apply mix; assumption.
Qed.
Print Assumptions C46_between.
Theorem C46_between_neighbours x y i j a b c d t v : NoDup x -> length x = length y -> nth_error x i = Some a -> nth_error x j = Some b -> nth_error y i = Some c -> nth_error y j = Some d ->
  (a <= t)%Qc -> (t <= b)%Qc -> (forall w, In w x -> (w <= a)%Qc \/ (b <= w)%Qc) -> apply1 x y t = Ok v -> length x <> 1 ->
  ((c <= v /\ v <= d) \/ (d <= v /\ v <= c))%Qc.
Proof.
  intros N L Xi Xj Yi Yj At Tb G E L1. destruct (Qcle_lt_or_eq _ _ At) as [A|A].
  - destruct (Qcle_lt_or_eq _ _ Tb) as [T|T].
    + assert (H : interpolates x y t (c + (d - c) * ((t - a) / (b - a)))%Qc) by (right; exists i, j, a, b, c, d; auto 9).
      apply (C46_value x y t _ N L L1) in H. assert (v = (c + (d - c) * ((t - a) / (b - a)))%Qc) as -> by congruence. destruct (fraction a b t A T) as (f & <- & F0 & F1).
      destruct (Qclt_le_dec c d) as [K|K]; [left|right]; apply mix; try assumption; try apply Qcle_refl; apply Qclt_le_weak, K.
    + subst t. rewrite (C46_nodes x y j b d N L Xj Yj) in E. injection E as <-. destruct (Qclt_le_dec c d) as [K|K]; [left|right]; split; try apply Qcle_refl; try exact K; apply Qclt_le_weak, K.
  - subst t. rewrite (C46_nodes x y i a c N L Xi Yi) in E. injection E as <-. destruct (Qclt_le_dec c d) as [K|K]; [left|right]; split; try apply Qcle_refl; try exact K; apply Qclt_le_weak, K.
Qed.
Print Assumptions C46_between_neighbours.
(** exact on straight lines *)
Lemma nth_map_some {A B} (f : A -> B) l i b : nth_error (map f l) i = Some b -> exists a, nth_error l i = Some a /\ b = f a.
Proof. rewrite nth_error_map. destruct (nth_error l i); [|discriminate]. intros [= <-]. eauto. Qed.
Lemma interpolates_line al be x t v : interpolates x (map (fun u => al * u + be)%Qc x) t v -> v = (al * t + be)%Qc.
Proof.
  intros [(i & Hx & Hy)|(i & j & a & b & c & d & Xi & Yi & Xj & Yj & At & Tb & _ & ->)].
  - apply nth_map_some in Hy as (u & Hu & ->). congruence.
  - apply nth_map_some in Yi as (u & Hu & ->). apply nth_map_some in Yj as (w & Hw & ->). assert (u = a) as -> by congruence. assert (w = b) as -> by congruence.
    field. intros Z. assert (b = a) as -> by (replace b with (b - a + a)%Qc by ring; rewrite Z; ring). exact (Qclt_not_le _ _ (Qclt_trans _ _ _ At Tb) (Qcle_refl _)).
Qed.
Theorem C46_lines al be x t v : NoDup x -> length x <> 1 -> apply1 x (map (fun u => al * u + be)%Qc x) t = Ok v -> v = (al * t + be)%Qc.
Proof. intros N L E. apply (C46_value x _ t v N) in E; [|symmetry; apply map_length|exact L]. exact (interpolates_line al be x t v E). Qed.
Print Assumptions C46_lines.
(** the order in which the points are stored does not matter *)
Lemma interpolates_perm x y x' y' t v : length x = length y -> Permutation (combine x y) (combine x' y') -> (forall w, In w x' -> In w x) -> interpolates x y t v -> interpolates x' y' t v.
Proof.
  intros L P Sx. assert (T : forall i a c, nth_error x i = Some a -> nth_error y i = Some c -> exists j, nth_error x' j = Some a /\ nth_error y' j = Some c).
  { intros i a c H1 H2. apply in_combine_nth, (Permutation_in _ P), in_combine_nth. eauto. }
  intros [(i & H1 & H2)|(i & j & a & b & c & d & Xi & Yi & Xj & Yj & At & Tb & G & ->)].
  - left. exact (T i t v H1 H2).
  - right. destruct (T i a c Xi Yi) as (i' & A1 & A2). destruct (T j b d Xj Yj) as (j' & B1 & B2). exists i', j', a, b, c, d. repeat (split; [assumption|]). split; [|reflexivity]. intros w Hw. apply G, Sx, Hw.
Qed.
Lemma map_fst_combine (x y : list Qc) : length x = length y -> map fst (combine x y) = x.
Proof. revert y. induction x as [|a x IH]; intros [|b y] H; cbn in *; try discriminate; [reflexivity|]. f_equal. apply IH. lia. Qed.
Theorem C46_order x y x' y' t : NoDup x -> length x = length y -> length x' = length y' -> length x <> 1 -> Permutation (combine x y) (combine x' y') -> apply1 x y t = apply1 x' y' t.
Proof.
  intros N L L' L1 P. assert (Px : Permutation x x') by (rewrite <- (map_fst_combine x y L), <- (map_fst_combine x' y' L'); apply Permutation_map, P).
  assert (N' : NoDup x') by (apply (Permutation_NoDup Px N)). assert (L1' : length x' <> 1) by (rewrite <- (Permutation_length Px); exact L1).
  destruct (apply1 x y t) as [v|e] eqn:E.
  - symmetry. apply C46_value; [assumption..|]. apply (interpolates_perm x y); [exact L|exact P|intros w; apply Permutation_in; symmetry; exact Px|]. apply C46_value; assumption.
  - assert (NS : ~ spanned x t). { intros Sp. apply (proj1 (C46_exactly_when x y t N L L1)) in Sp as (v & V). congruence. }
    rewrite (proj2 (C46_exactly_when x y t N L L1) NS) in E. injection E as <-. symmetry. apply C46_exactly_when; [assumption..|].
    intros ((a & Ha & La) & (b & Hb & Lb)). apply NS. split; [exists a|exists b]; (split; [apply (Permutation_in _ (Permutation_sym Px)); assumption|assumption]).
Qed.
Print Assumptions C46_order.
Example C46_case : NoDup [zq 1; zq 4; zq 2] /\ apply1 [zq 1; zq 4; zq 2] [zq 10; zq 40; zq 30] (zq 3) = Ok (zq 35) /\ apply1 [zq 1; zq 4; zq 2] [zq 10; zq 40; zq 30] (zq 2) = Ok (zq 30) /\
  apply1 [zq 1; zq 4; zq 2] [zq 10; zq 40; zq 30] (zq 5) = Raise ValueError /\ spanned [zq 1; zq 4; zq 2] (zq 3).
Proof.
  split; [repeat constructor; intros H; repeat destruct H as [H|H]; try (apply (f_equal this) in H; vm_compute in H; discriminate); exact H|].
  split; [vm_compute; reflexivity|]. split; [vm_compute; reflexivity|]. split; [vm_compute; reflexivity|].
  split; [exists (zq 1)|exists (zq 4)]; (split; [cbn; tauto|unfold Qcle; vm_compute; discriminate]).
Qed.
