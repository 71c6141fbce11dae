(** Proofs about look-ups on an axis. *)
From Verif Require Import PyBase PyLemmas ContainerModel ContainerSpec ContainerProofs ContainerProofs2 ContainerProperties Nd IndexModel IndexSpec IndexProofs IndexProofs2 AxisModel AxisSpec.
From Coq Require Import Lia Lqa.

Lemma qc_decides : decides qc_eqb.
Proof. intros x y. apply qc_eqb_eq. Qed.

Lemma index_of_ok {A} (eqb : A -> A -> bool) (D : decides eqb) x l : forall i, index_of eqb x l = Ok i <-> first_at l i x.
Proof.
  induction l as [|y l IH]; intros i; cbn [index_of].
  - split; [discriminate|]. intros [H _]. destruct i; discriminate.
  - destruct (eqb y x) eqn:E.
    + apply D in E. subst y. split.
      * intros H. injection H as <-. split; [reflexivity|]. intros j Hj. lia.
      * intros [H L]. destruct i as [|i]; [reflexivity|]. exfalso. apply (L 0); [lia|reflexivity].
    + assert (y <> x) as Ne by (intros ->; rewrite (proj2 (D x x) eq_refl) in E; discriminate). split.
      * destruct (index_of eqb x l) as [k|] eqn:K; cbn [bind]; [|discriminate]. intros H. injection H as <-.
        destruct (proj1 (IH k) eq_refl) as [H L]. split; [exact H|]. intros [|j] Hj; [cbn; congruence|]. cbn. apply L. lia.
      * intros [H L]. destruct i as [|i]; [cbn in H; congruence|]. assert (first_at l i x) as F.
        { split; [exact H|]. intros j Hj. apply (L (S j)). lia. }
        apply IH in F. rewrite F. reflexivity.
Qed.
Lemma index_of_missing {A} (eqb : A -> A -> bool) (D : decides eqb) x l : ~ In x l -> index_of eqb x l = Raise ValueError.
Proof.
  induction l as [|y l IH]; intros N; cbn [index_of]; [reflexivity|]. destruct (eqb y x) eqn:E; [apply D in E; exfalso; apply N; now left|].
  rewrite IH; [reflexivity|]. intros H. apply N. now right.
Qed.
Lemma first_at_exists {A} (dec : forall x y : A, {x = y} + {x <> y}) (l : list A) x : In x l -> exists i, first_at l i x.
Proof.
  induction l as [|y l IH]; [intros []|]. intros H. destruct (dec y x) as [->|Ne].
  - exists 0. split; [reflexivity|]. intros j Hj. lia.
  - destruct H as [H|H]; [congruence|]. destruct (IH H) as (i & H1 & L). exists (S i). split; [exact H1|].
    intros [|j] Hj; [cbn; congruence|]. cbn. apply L. lia.
Qed.
Lemma as_positions_answers l p : as_positions l = p <-> answers l p.
Proof.
  split.
  - intros <-. destruct l as [|z [|z' l]]; cbn [as_positions]; constructor; cbn; lia.
  - intros H. inversion H as [z|l' L]; subst; [reflexivity|]. destruct l as [|z [|z' l]]; cbn in *; congruence.
Qed.
Lemma mapM_iff {A B} (f : A -> result B) l r : mapM f l = Ok r <-> Forall2 (fun x y => f x = Ok y) l r.
Proof.
  revert r. induction l as [|x l IH]; intros r; cbn [mapM].
  - split; [intros H; injection H as <-; constructor|]. intros H. inversion H. reflexivity.
  - split.
    + destruct (f x) as [y|] eqn:E; cbn [bind]; [|discriminate]. destruct (mapM f l) as [r'|] eqn:M; cbn [bind]; [|discriminate].
      intros H. injection H as <-. constructor; [exact E|]. now apply IH.
    + intros H. inversion H as [|? y ? r' E F]; subst. rewrite E. apply IH in F. rewrite F. reflexivity.
Qed.
Lemma Forall2_weaken {A B} (P Q : A -> B -> Prop) l r : (forall x y, In x l -> P x y -> Q x y) -> Forall2 P l r -> Forall2 Q l r.
Proof.
  intros H F. induction F as [|x y l r Hxy F IH]; constructor; [apply H; [now left|exact Hxy]|]. apply IH. intros a b Ha. apply H. now right.
Qed.
Lemma mapM_first_raise {A B} (f : A -> result B) e l : (forall x, In x l -> (exists y, f x = Ok y) \/ f x = Raise e) ->
  (exists x, In x l /\ f x = Raise e) -> mapM f l = Raise e.
Proof.
  induction l as [|x l IH]; intros T (y & Hy & Ey); [destruct Hy|]. cbn [mapM]. destruct (T x (or_introl eq_refl)) as [(z & E)|E]; rewrite E; cbn [bind]; [|reflexivity].
  destruct Hy as [<-|Hy]; [congruence|]. rewrite IH; [reflexivity| |].
  - intros a Ha. apply T. now right.
  - exists y. split; assumption.
Qed.

(** Symbols *)
Lemma symbols_ok data ix l p : l <> [] ->
  (symbols_index data ix (Args (map TStr l)) = Ok p <-> exists zs, answers zs p /\ Forall2 (fun x z => first_position data x z) l zs).
Proof.
  intros NE. unfold symbols_index. destruct l as [|x0 l0] eqn:El; [congruence|]. rewrite <- El in *. destruct (map TStr l) as [|t0 ts] eqn:Et.
  { subst l. discriminate. }
  rewrite <- Et. clear Et t0 ts El x0 l0.
  assert (forallb (fun t => match t with TStr _ => true | _ => false end) (map TStr l) = true) as ->.
  { apply forallb_forall. intros t H. apply in_map_iff in H as (x & <- & _). reflexivity. }
  set (f := fun t : target => _).
  assert (forall zs, mapM f (map TStr l) = Ok zs <-> Forall2 (fun x z => first_position data x z) l zs) as M.
  { clear NE. induction l as [|x l IH]; intros zs; cbn [map mapM].
    - split; [intros H; injection H as <-; constructor|]. intros H; inversion H; reflexivity.
    - split.
      + cbn [f]. destruct (index_of str_eqb x data) as [i|] eqn:E; cbn [bind]; [|discriminate]. destruct (mapM f (map TStr l)) as [r|]; cbn [bind]; [|discriminate].
        intros H. injection H as <-. constructor; [|now apply IH]. exists i. split; [reflexivity|]. now apply (index_of_ok str_eqb str_decides).
      + intros H. inversion H as [|? z ? r (i & -> & F) G]; subst. apply (index_of_ok str_eqb str_decides) in F. cbn [f]. rewrite F. cbn [bind].
        apply IH in G. rewrite G. reflexivity. }
  split.
  - destruct (mapM f (map TStr l)) as [zs|] eqn:E; cbn [bind]; [|discriminate]. intros H. injection H as H. exists zs. split; [now apply as_positions_answers|]. now apply M.
  - intros (zs & A & F). apply M in F. rewrite F. cbn [bind]. f_equal. now apply as_positions_answers.
Qed.
Lemma symbols_missing data ix l x : In x l -> ~ In x data -> symbols_index data ix (Args (map TStr l)) = Raise ValueError.
Proof.
  intros Hx Nx. unfold symbols_index. destruct (map TStr l) as [|t0 ts] eqn:Et; [destruct l; [destruct Hx|discriminate]|]. rewrite <- Et. clear Et t0 ts.
  assert (forallb (fun t => match t with TStr _ => true | _ => false end) (map TStr l) = true) as ->.
  { apply forallb_forall. intros t H. apply in_map_iff in H as (y & <- & _). reflexivity. }
  rewrite (mapM_first_raise _ ValueError); [reflexivity| |].
  - intros t H. apply in_map_iff in H as (y & <- & _). destruct (in_dec str_eq_dec y data) as [I|N].
    + destruct (first_at_exists str_eq_dec data y I) as (i & F). apply (index_of_ok str_eqb str_decides) in F. rewrite F. left. cbn. eauto.
    + rewrite (index_of_missing _ str_decides _ _ N). now right.
  - exists (TStr x). split; [now apply in_map|]. rewrite (index_of_missing _ str_decides _ _ Nx). reflexivity.
Qed.

(** Points *)
Lemma point_ok data q z : point_position data (TNum q) = Ok z <-> first_position (map zq data) q z.
Proof.
  unfold point_position, first_position. destruct (index_of qc_eqb q (map zq data)) as [i|] eqn:E.
  - split; [intros H; injection H as <-; exists i; split; [reflexivity|]; now apply (index_of_ok _ qc_decides)|].
    intros (j & -> & F). apply (index_of_ok _ qc_decides) in F. congruence.
  - split; [discriminate|]. intros (j & -> & F). apply (index_of_ok _ qc_decides) in F. congruence.
Qed.
(** the points that a request stands for *)
Definition requested_points (ts : targets) (qs : list Qc) : Prop := ts = OneList (map TNum qs) \/ (ts = Args (map TNum qs) /\ qs <> []).
Lemma points_points data ix ts qs : requested_points ts qs -> points_index data ix ts = (zs <- mapM (point_position data) (map TNum qs) ;; Ok (as_positions zs)).
Proof.
  intros [->|[-> NE]]; unfold points_index; [reflexivity|]. destruct qs as [|q [|q' qs]]; [congruence|reflexivity|reflexivity].
Qed.
Lemma points_ok data ix ts qs p : requested_points ts qs ->
  (points_index data ix ts = Ok p <-> exists zs, answers zs p /\ Forall2 (fun q z => first_position (map zq data) q z) qs zs).
Proof.
  intros R. rewrite (points_points data ix ts qs R). clear R.
  assert (forall zs, mapM (point_position data) (map TNum qs) = Ok zs <-> Forall2 (fun q z => first_position (map zq data) q z) qs zs) as M.
  { induction qs as [|q qs IH]; intros zs; cbn [map mapM].
    - split; [intros H; injection H as <-; constructor|]. intros H; inversion H; reflexivity.
    - split.
      + destruct (point_position data (TNum q)) as [z|] eqn:E; cbn [bind]; [|discriminate]. destruct (mapM _ (map TNum qs)) as [r|]; cbn [bind]; [|discriminate].
        intros H. injection H as <-. constructor; [|now apply IH]. now apply point_ok.
      + intros H. inversion H as [|? z ? r F G]; subst. apply point_ok in F. rewrite F. cbn [bind]. apply IH in G. rewrite G. reflexivity. }
  split.
  - destruct (mapM _ (map TNum qs)) as [zs|] eqn:E; cbn [bind]; [|discriminate]. intros H. injection H as H. exists zs. split; [now apply as_positions_answers|]. now apply M.
  - intros (zs & A & F). apply M in F. rewrite F. cbn [bind]. f_equal. now apply as_positions_answers.
Qed.
Lemma points_missing data ix ts qs q : requested_points ts qs -> In q qs -> ~ In q (map zq data) ->
  points_index data ix ts = Raise (OtherError "AxisValueError").
Proof.
  intros R Hq Nq. rewrite (points_points data ix ts qs R). rewrite (mapM_first_raise _ (OtherError "AxisValueError")); [reflexivity| |].
  - intros t H. apply in_map_iff in H as (y & <- & _). unfold point_position. destruct (index_of qc_eqb y (map zq data)); [left; eauto|now right].
  - exists (TNum q). split; [now apply in_map|]. unfold point_position. rewrite (index_of_missing _ qc_decides _ _ Nq). reflexivity.
Qed.

(** Coordinates *)
Lemma absq_distance a b : absq (a - b) = distance a b.
Proof. apply absq_dist. Qed.
Lemma absq_zero d : absq d = distance d 0.
Proof. rewrite <- absq_distance. f_equal. ring. Qed.
Lemma minq_spec l : forall d, (In (minq l d) (d :: l)) /\ forall x, In x (d :: l) -> (minq l d <= x)%Qc.
Proof.
  induction l as [|y l IH]; intros d; cbn [minq fold_left].
  - split; [now left|]. intros x [->|[]]. apply Qcle_refl.
  - fold (minq l (if qc_ltb y d then y else d)). destruct (qc_ltb_spec y d) as [H|H].
    + destruct (IH y) as (I & L). split; [now right|]. intros x [->|Hx]; [|now apply L]. apply Qcle_trans with y; [apply L; now left|]. now apply Qclt_le_weak.
    + destruct (IH d) as (I & L). split; [destruct I; [now left|right; now right]|]. intros x [->|[->|Hx]]; [apply L; now left| |apply L; now right].
      apply Qcle_trans with d; [apply L; now left|]. now apply Qcnot_lt_le.
Qed.
Lemma maxq_spec l : forall d, (In (maxq l d) (d :: l)) /\ forall x, In x (d :: l) -> (x <= maxq l d)%Qc.
Proof.
  induction l as [|y l IH]; intros d; cbn [maxq fold_left].
  - split; [now left|]. intros x [->|[]]. apply Qcle_refl.
  - fold (maxq l (if qc_ltb d y then y else d)). destruct (qc_ltb_spec d y) as [H|H].
    + destruct (IH y) as (I & L). split; [now right|]. intros x [->|Hx]; [|now apply L]. apply Qcle_trans with y; [|apply L; now left]. now apply Qclt_le_weak.
    + destruct (IH d) as (I & L). split; [destruct I; [now left|right; now right]|]. intros x [->|[->|Hx]]; [apply L; now left| |apply L; now right].
      apply Qcle_trans with d; [|apply L; now left]. now apply Qcnot_lt_le.
Qed.
Lemma isclose_spec data t : data <> [] -> exists b, isclose data t = Ok b /\ (b = true <-> on_axis data t).
Proof.
  intros NE. unfold isclose. destruct (mem qc_eqb t data) eqn:M.
  { apply (mem_spec _ qc_decides) in M. exists true. split; [reflexivity|]. split; [now left|reflexivity]. }
  assert (~ In t data) as N by now apply (mem_false _ qc_decides). destruct data as [|d l]; [congruence|]. clear NE.
  destruct (minq_spec l d) as (I1 & L1). destruct (maxq_spec l d) as (I2 & L2).
  destruct (qc_ltb_spec t (minq l d)) as [H|H]; cbn [orb].
  { exists false. split; [reflexivity|]. split; [discriminate|]. intros [X|((lo & Hlo & Le) & _)]; [contradiction|].
    exfalso. apply (Qclt_not_le _ _ H). apply Qcle_trans with lo; [now apply L1|exact Le]. }
  destruct (qc_ltb_spec (maxq l d) t) as [H'|H'].
  { exists false. split; [reflexivity|]. split; [discriminate|]. intros [X|(_ & (hi & Hhi & Le) & _)]; [contradiction|].
    exfalso. apply (Qclt_not_le _ _ H'). apply Qcle_trans with hi; [exact Le|now apply L2]. }
  exists (existsb (close_to t) (d :: l)). split; [reflexivity|]. rewrite existsb_exists. unfold close_to. split.
  - intros (x & Hx & C). destruct (qc_leb_spec (absq (t - x)) (rtol * absq x)) as [Le|]; [|discriminate]. rewrite absq_distance, absq_zero in Le.
    right. split; [exists (minq l d); split; [exact I1|now apply Qcnot_lt_le]|]. split; [exists (maxq l d); split; [exact I2|now apply Qcnot_lt_le]|]. eauto.
  - intros [X|(_ & _ & x & Hx & Le)]; [contradiction|]. exists x. split; [exact Hx|]. destruct (qc_leb_spec (absq (t - x)) (rtol * absq x)) as [|C]; [reflexivity|].
    exfalso. apply C. rewrite absq_distance, absq_zero. exact Le.
Qed.
Lemma nearest_closest data t i v : nearest data t NoBound = Ok (i, v) -> closest_at data t i.
Proof.
  intros H. destruct data as [|d l] eqn:E; [discriminate|]. rewrite <- E in *. assert (data <> []) as NE by (rewrite E; discriminate).
  destruct (C10_closest_member data t NE) as (k & w & H1 & H2 & H3). rewrite H in H1. injection H1 as -> ->. exists k, w. auto.
Qed.
Lemma closest_unique data t z z' : closest_at data t z -> closest_at data t z' -> z = z'.
Proof.
  intros (i & v & -> & E & L) (j & w & -> & E' & L'). f_equal. destruct (Nat.lt_trichotomy i j) as [H|[H|H]]; [|exact H|].
  - exfalso. destruct (L' _ _ E) as [_ X]. destruct (L _ _ E') as [Y _]. apply (Qclt_not_le _ _ (X H)). exact Y.
  - exfalso. destruct (L _ _ E') as [_ X]. destruct (L' _ _ E) as [Y _]. apply (Qclt_not_le _ _ (X H)). exact Y.
Qed.
(** one number *)
Lemma compute_on_axis data t closest z : data <> [] -> on_axis data t -> (compute_index data t closest = Ok z <-> closest_at data t z).
Proof.
  intros NE On. unfold compute_index. destruct (isclose_spec data t NE) as (b & -> & C). cbn [bind]. rewrite (proj2 C On).
  destruct (C10_closest_member data t NE) as (i & v & H & Hn). rewrite H. cbn [bind fst]. apply nearest_closest in H. split.
  - intros E. injection E as <-. exact H.
  - intros K. f_equal. exact (closest_unique _ _ _ _ H K).
Qed.
Lemma compute_off_axis data t : data <> [] -> ~ on_axis data t ->
  compute_index data t NoSide = Raise (OtherError "AxisValueError") /\ compute_index data t OtherSide = Raise ValueError /\
  (ascending data -> (exists v, In v data /\ (v <= t)%Qc) -> exists z, compute_index data t LowerSide = Ok z /\ greatest_below data t z) /\
  (ascending data -> (exists v, In v data /\ (t <= v)%Qc) -> exists z, compute_index data t UpperSide = Ok z /\ least_above data t z) /\
  ((forall v, In v data -> (t < v)%Qc) -> compute_index data t LowerSide = Ok 0%Z) /\
  ((forall v, In v data -> (v < t)%Qc) -> compute_index data t UpperSide = Ok (-1)%Z).
Proof.
  intros NE Off. unfold compute_index. destruct (isclose_spec data t NE) as (b & -> & C). cbn [bind].
  destruct b; [exfalso; now apply Off, C|]. split; [reflexivity|]. split; [reflexivity|]. split; [|split; [|split]].
  - intros A X. destruct (C10_upper_bound data t A X) as (i & v & H & Hn & Hle & Hg). rewrite H. cbn [bind fst]. eexists. split; [reflexivity|]. exists i, v. auto.
  - intros A X. destruct (C10_lower_bound data t A X) as (i & v & H & Hn & Hle & Hg). rewrite H. cbn [bind fst]. eexists. split; [reflexivity|]. exists i, v. auto.
  - intros X. destruct (C10_nothing_on_that_side data t NE) as (_ & H). rewrite (H X). reflexivity.
  - intros X. destruct (C10_nothing_on_that_side data t NE) as (H & _). rewrite (H X). reflexivity.
Qed.

Section Coordinates.
Context {U : Type} (ueq : U -> U -> bool) (one : U) (factor : U -> U -> result Qc) (refl : forall u, ueq u u = true).
Set Default Proof Using "All".
Lemma coordinates_values data unit values u closest ts : in_axis_unit ueq one factor unit u values ts ->
  coordinates_index ueq one factor data unit values u closest = (zs <- mapM (fun t => compute_index data t closest) ts ;; Ok (as_positions zs)).
Proof.
  intros I. unfold coordinates_index, with_unit. destruct I as [E|E E'|f E E' F]; rewrite E; cbn [negb].
  - rewrite refl. reflexivity.
  - rewrite E'. reflexivity.
  - rewrite E', F. reflexivity.
Qed.
Lemma coordinates_ok data unit values u ts p : data <> [] -> in_axis_unit ueq one factor unit u values ts ->
  (coordinates_index ueq one factor data unit values u NoSide = Ok p <->
   exists zs, answers zs p /\ Forall2 (fun t z => on_axis data t /\ closest_at data t z) ts zs).
Proof.
  intros NE I. rewrite (coordinates_values _ _ _ _ _ _ I). clear I.
  assert (forall t z, compute_index data t NoSide = Ok z <-> on_axis data t /\ closest_at data t z) as One.
  { intros t z. destruct (isclose_spec data t NE) as (b & E & C). destruct b.
    - pose proof (proj1 C eq_refl) as On. rewrite (compute_on_axis data t NoSide z NE On). tauto.
    - assert (~ on_axis data t) as Off by (intros X; apply C in X; discriminate). rewrite (proj1 (compute_off_axis data t NE Off)).
      split; [discriminate|]. intros (X & _). contradiction. }
  split.
  - destruct (mapM _ ts) as [zs|] eqn:M; cbn [bind]; [|discriminate]. intros H. injection H as H. apply mapM_iff in M. exists zs. split; [now apply as_positions_answers|].
    eapply Forall2_weaken; [|exact M]. intros t z _. apply One.
  - intros (zs & A & F). assert (mapM (fun t => compute_index data t NoSide) ts = Ok zs) as ->.
    { apply mapM_iff. eapply Forall2_weaken; [|exact F]. intros t z _. apply One. }
    cbn [bind]. f_equal. now apply as_positions_answers.
Qed.
Lemma coordinates_missing data unit values u ts t : data <> [] -> in_axis_unit ueq one factor unit u values ts -> In t ts -> ~ on_axis data t ->
  coordinates_index ueq one factor data unit values u NoSide = Raise (OtherError "AxisValueError").
Proof.
  intros NE I Ht Off. rewrite (coordinates_values _ _ _ _ _ _ I). rewrite (mapM_first_raise _ (OtherError "AxisValueError")); [reflexivity| |].
  - intros x Hx. destruct (isclose_spec data x NE) as (b & E & C). destruct b.
    + left. pose proof (proj1 C eq_refl) as On. destruct (C10_closest_member data x NE) as (i & v & H & Hn).
      exists (Z.of_nat i). apply (compute_on_axis data x NoSide _ NE On). now apply nearest_closest in H.
    + right. assert (~ on_axis data x) as Off' by (intros X; apply C in X; discriminate). apply (compute_off_axis data x NE Off').
  - exists t. split; [exact Ht|]. apply (compute_off_axis data t NE Off).
Qed.
Lemma coordinates_side data unit values u ts (closest : side) : ascending data -> data <> [] ->
  in_axis_unit ueq one factor unit u values ts ->
  let ok := fun t z => match closest with
                       | LowerSide => greatest_below data t z
                       | UpperSide => least_above data t z
                       | _ => False
                       end in
  closest = LowerSide \/ closest = UpperSide ->
  (forall t, In t ts -> ~ on_axis data t ->
     exists v, In v data /\ match closest with LowerSide => (v <= t)%Qc | _ => (t <= v)%Qc end) ->
  exists zs p, coordinates_index ueq one factor data unit values u closest = Ok p /\ answers zs p /\
    Forall2 (fun t z => (on_axis data t /\ closest_at data t z) \/ (~ on_axis data t /\ ok t z)) ts zs.
Proof.
  intros As NE I ok Sd Ex. rewrite (coordinates_values _ _ _ _ _ _ I). clear I.
  assert (forall t, In t ts -> exists z, compute_index data t closest = Ok z /\ ((on_axis data t /\ closest_at data t z) \/ (~ on_axis data t /\ ok t z))) as One.
  { intros t Ht. destruct (isclose_spec data t NE) as (b & E & C). destruct b.
    - pose proof (proj1 C eq_refl) as On. destruct (C10_closest_member data t NE) as (i & v & H & Hn). apply nearest_closest in H.
      exists (Z.of_nat i). split; [now apply compute_on_axis|]. left. auto.
    - assert (~ on_axis data t) as Off by (intros X; apply C in X; discriminate). destruct (compute_off_axis data t NE Off) as (_ & _ & L & R & _ & _).
      destruct (Ex t Ht Off) as (v & Hv). destruct Sd as [-> | ->].
      + destruct (L As (ex_intro _ v Hv)) as (z & Hz & G). exists z. split; [exact Hz|]. right. auto.
      + destruct (R As (ex_intro _ v Hv)) as (z & Hz & G). exists z. split; [exact Hz|]. right. auto. }
  clear Ex. assert (exists zs, mapM (fun t => compute_index data t closest) ts = Ok zs /\
    Forall2 (fun t z => (on_axis data t /\ closest_at data t z) \/ (~ on_axis data t /\ ok t z)) ts zs) as (zs & M & F).
  { induction ts as [|t ts IH]; [exists []; split; [reflexivity|constructor]|]. destruct (One t (or_introl eq_refl)) as (z & Hz & Gz).
    destruct IH as (zs & M & F); [intros x Hx; apply One; now right|]. exists (z :: zs). split; [|constructor; assumption]. cbn [mapM]. rewrite Hz, M. reflexivity. }
  exists zs, (as_positions zs). rewrite M. split; [reflexivity|]. split; [now apply as_positions_answers|exact F].
Qed.
End Coordinates.

(** The general axis: integers *)
Lemma integrals_zq zs : integrals (map (fun z => TNum (zq z)) zs) = Some zs.
Proof. induction zs as [|z zs IH]; [reflexivity|]. cbn [map integrals integral]. rewrite zq_isint, zq_num, IH. reflexivity. Qed.
Lemma out_of_bounds_none n l : out_of_bounds n l = None <-> forall z, In z l -> (- Z.of_nat n <= z < Z.of_nat n)%Z.
Proof.
  unfold out_of_bounds. induction l as [|x l IH]; cbn [find]; [split; [intros _ z []|reflexivity]|].
  unfold is_out at 1. destruct (Z.ltb_spec x (- Z.of_nat n)), (Z.ltb_spec (Z.of_nat n - 1) x); cbn [orb].
  - split; [discriminate|]. intros Hx. specialize (Hx x (or_introl eq_refl)). lia.
  - split; [discriminate|]. intros Hx. specialize (Hx x (or_introl eq_refl)). lia.
  - split; [discriminate|]. intros Hx. specialize (Hx x (or_introl eq_refl)). lia.
  - rewrite IH. split; [intros G z [->|Hz]; [lia|auto]|]. intros G z Hz. apply G. now right.
Qed.
Lemma axis_integers n zs : 0 < n ->
  axis_index n (OneList (map (fun z => TNum (zq z)) zs)) =
  if forallb (fun z => (- Z.of_nat n <=? z)%Z && (z <? Z.of_nat n)%Z) zs then Ok (as_positions zs) else Raise ValueError.
Proof.
  intros Hn. unfold axis_index, normalize. cbn [bind]. rewrite integrals_zq. destruct (out_of_bounds n zs) as [z|] eqn:E.
  - unfold out_of_bounds in E. apply find_some in E as (I & O).
    assert (forallb (fun z => (- Z.of_nat n <=? z)%Z && (z <? Z.of_nat n)%Z) zs = false) as ->.
    { apply Bool.not_true_iff_false. intros F. rewrite forallb_forall in F. specialize (F z I). unfold is_out in O.
      apply Bool.orb_true_iff in O. apply Bool.andb_true_iff in F as [F1 F2]. apply Z.leb_le in F1. apply Z.ltb_lt in F2.
      destruct O as [O|O]; apply Z.ltb_lt in O; lia. }
    unfold is_out in O. destruct (Z.eqb_spec z 0) as [->|_]; [|reflexivity]. apply Bool.orb_true_iff in O as [O|O]; apply Z.ltb_lt in O; lia.
  - apply out_of_bounds_none in E || pose proof (proj1 (out_of_bounds_none n zs) E) as E'.
    assert (forallb (fun z => (- Z.of_nat n <=? z)%Z && (z <? Z.of_nat n)%Z) zs = true) as ->; [|reflexivity].
    apply forallb_forall. intros z Hz. specialize (E z Hz) || specialize (E' z Hz). apply Bool.andb_true_iff. split; [apply Z.leb_le|apply Z.ltb_lt]; lia.
Qed.

(** Sub-axes *)
Lemma norm_index_cases n z i : norm_index n z = Some i <-> (i < n /\ (z = Z.of_nat i \/ z = Z.of_nat i - Z.of_nat n)%Z).
Proof.
  unfold norm_index. destruct (Z.ltb_spec z 0) as [H|H]; cbn zeta.
  - destruct (Z.ltb_spec (z + Z.of_nat n) 0) as [H1|H1]; [split; [discriminate|lia]|]. destruct (Z.leb_spec (Z.of_nat n) (z + Z.of_nat n)) as [H2|H2]; [split; [discriminate|lia]|].
    split; [intros E; injection E as <-; lia|]. intros (L & E). f_equal. lia.
  - destruct (Z.ltb_spec z 0) as [H1|H1]; [lia|]. destruct (Z.leb_spec (Z.of_nat n) z) as [H2|H2]; [split; [discriminate|lia]|].
    split; [intros E; injection E as <-; lia|]. intros (L & E). f_equal. lia.
Qed.
Lemma gather_nth {M} (data : list M) ps : (forall p, In p ps -> p < length data) ->
  Forall2 (fun p m => nth_error data p = Some m) ps (flat_map (fun p => match nth_error data p with Some m => [m] | None => [] end) ps).
Proof.
  induction ps as [|p ps IH]; intros H; cbn [flat_map]; [constructor|]. destruct (nth_error data p) as [m|] eqn:E.
  - cbn [app]. constructor; [exact E|]. apply IH. intros q Hq. apply H. now right.
  - exfalso. apply nth_error_None in E. specialize (H p (or_introl eq_refl)). lia.
Qed.
Lemma Forall2_holds {M} (data : list M) ps ms zs : Forall2 (fun p m => nth_error data p = Some m) ps ms ->
  Forall2 (fun z p => p < length data /\ (z = Z.of_nat p \/ z = Z.of_nat p - Z.of_nat (length data))%Z) zs ps ->
  Forall2 (holds_at data) zs ms.
Proof.
  intros F. revert zs. induction F as [|p m ps ms E F IH]; intros zs G; inversion G as [|z ? zs' ? (L & H) G']; subst; constructor; [|now apply IH].
  exists p. auto.
Qed.
Lemma slice_positions_lt sl n ps : slice_positions sl n = Ok ps -> forall p, In p ps -> p < n.
Proof.
  intros H p Hp. apply slice_positions_selects in H. destruct sl as [sa so st]. cbn [sl_start sl_stop sl_step] in H.
  unfold selects in H. set (t := match st with Some z => z | None => 1%Z end) in *. destruct H as (Ht & E1 & E2).
  apply In_nth_error in Hp as (k & Hk). assert (k < length ps) as Lk by (apply nth_error_Some; congruence).
  assert (nth_error (map Z.of_nat ps) k = Some (Z.of_nat p)) as Hk' by (rewrite nth_error_map, Hk; reflexivity).
  pose proof (E1 k _ Hk') as Ep. rewrite map_length in E2. pose proof (proj1 (E2 k) Lk) as B.
  unfold slice_first, slice_last, clamp, from_end in *. destruct (Z.ltb_spec 0 t).
  - destruct so as [z|]; [destruct (z <? 0)%Z|]; lia.
  - assert (Z.of_nat k * t <= 0)%Z by nia. destruct sa as [z|]; [destruct (z <? 0)%Z|]; lia.
Qed.
Lemma getitem_members {M} (data : list M) i ms ix : axis_getitem data i = Ok (ms, ix) ->
  exists ps, data_positions (length data) i = Ok ps /\ Forall2 (fun p m => nth_error data p = Some m) ps ms.
Proof.
  unfold axis_getitem. destruct (data_positions (length data) i) as [ps|] eqn:E; cbn [bind]; [|discriminate].
  destruct (stored_indices _ i) as [o|]; cbn [bind]; [|discriminate]. intros H. injection H as <- <-. exists ps. split; [reflexivity|].
  apply gather_nth. destruct i as [|z|sl|l]; cbn [data_positions] in E.
  - injection E as <-. intros p Hp. apply in_seq in Hp. lia.
  - unfold one_position in E. destruct (norm_index _ z) as [j|] eqn:J; cbn [bind] in E; [|discriminate]. injection E as <-.
    intros p [<-|[]]. apply norm_index_cases in J as (L & _). exact L.
  - exact (slice_positions_lt sl _ ps E).
  - apply mapM_iff in E. intros p Hp. clear - E Hp. induction E as [|z q l ps H E IH]; [destruct Hp|]. destruct Hp as [->|Hp]; [|auto].
    unfold one_position in H. destruct (norm_index _ z) as [j|] eqn:J; [|discriminate]. injection H as <-. apply norm_index_cases in J as (L & _). exact L.
Qed.
(** [i] needs no counting from the end *)
Definition forward (n : nat) (i : subscript) : Prop :=
  match i with
  | SubSlice sl =>
      (match sl_start sl with Some z => 0 <= z <= Z.of_nat n | None => True end)%Z /\
      (match sl_stop sl with Some z => 0 <= z <= Z.of_nat n | None => True end)%Z /\
      (match sl_step sl with Some z => 0 < z | None => True end)%Z
  | _ => True
  end.
Lemma Forall2_self {A} (l : list A) (P : A -> A -> Prop) : (forall x, In x l -> P x x) -> Forall2 P l l.
Proof. induction l as [|x l IH]; intros H; constructor; [apply H; now left|apply IH; intros y Hy; apply H; now right]. Qed.
Lemma Forall2_map_l {A B C} (f : A -> B) (P : B -> C -> Prop) l r : Forall2 (fun x y => P (f x) y) l r -> Forall2 P (map f l) r.
Proof. induction 1; constructor; auto. Qed.
Lemma Forall2_len {A B} (P : A -> B -> Prop) l r : Forall2 P l r -> length l = length r.
Proof. induction 1; cbn; congruence. Qed.
Lemma getitem_indices {M} (data : list M) i ms ix : forward (length data) i -> axis_getitem data i = Ok (ms, ix) ->
  Forall2 (holds_at data) (axis_indices (ms, ix)) ms.
Proof.
  intros Fw H. destruct (getitem_members data i ms ix H) as (ps & E & F). unfold axis_getitem in H. rewrite E in H. cbn [bind] in H.
  destruct (stored_indices (length data) i) as [o|] eqn:S; cbn [bind] in H; [|discriminate]. injection H as Hms <-. unfold axis_indices. cbn [fst snd].
  apply (Forall2_holds data ps ms); [exact F|]. pose proof (Forall2_len _ _ _ F) as Len. unfold stored_indices in S. destruct i as [|z|sl|l]; cbn [is_whole] in S.
  - injection S as <-. cbn [data_positions] in E. injection E as <-. rewrite seq_length in Len. rewrite <- Len.
    apply Forall2_map_l. apply Forall2_self. intros p Hp. apply in_seq in Hp. lia.
  - injection S as <-. cbn [data_positions] in E. unfold one_position in E. destruct (norm_index _ z) as [j|] eqn:J; cbn [bind] in E; [|discriminate]. injection E as <-.
    constructor; [|constructor]. now apply norm_index_cases.
  - cbn [data_positions] in E. destruct sl as [sa so st]. cbn [forward sl_start sl_stop sl_step] in *. destruct Fw as (F1 & F2 & F3).
    destruct (C52_slice_to_range_partial sa so st (Z.of_nat (length data))) as (l & Hl & Sel & U); [destruct sa; lia|destruct so; lia|exact F3|].
    pose proof (slice_positions_selects _ _ _ E) as Sel'. cbn [sl_start sl_stop sl_step] in Sel'. apply U in Sel'. subst l.
    assert (Forall2 (fun (z : Z) p => p < length data /\ (z = Z.of_nat p \/ z = Z.of_nat p - Z.of_nat (length data))%Z) (map Z.of_nat ps) ps) as G.
    { apply Forall2_map_l. apply Forall2_self. intros p Hp. pose proof (slice_positions_lt _ _ _ E p Hp). lia. }
    destruct (match sa, so, st with None, None, None => true | _, _, _ => false end) eqn:W.
    + injection S as <-. destruct sa, so, st; try discriminate. unfold slice2range, or_z in Hl. cbn [sl_start sl_stop sl_step] in Hl. injection Hl as Hl.
      assert (map Z.of_nat (seq 0 (length ms)) = map Z.of_nat ps) as ->; [|exact G]. rewrite <- Len.
      assert (forall k, nth_error (map Z.of_nat ps) k = if k <? length ps then Some (Z.of_nat k) else None) as N.
      { destruct Sel as (_ & S1 & S2). intros k. destruct (Nat.ltb_spec k (length ps)) as [L|L].
        - destruct (nth_error (map Z.of_nat ps) k) as [z|] eqn:Ez; [|apply nth_error_None in Ez; rewrite map_length in Ez; lia].
          apply S1 in Ez. cbn in Ez. f_equal. lia.
        - apply nth_error_None. now rewrite map_length. }
      apply (nth_ext _ _ 0%Z 0%Z); [now rewrite !map_length, seq_length|]. intros k Hk. rewrite map_length, seq_length in Hk.
      rewrite (nth_error_nth (map Z.of_nat ps) k 0%Z (x := Z.of_nat k)) by (rewrite N; destruct (Nat.ltb_spec k (length ps)); [reflexivity|lia]).
      change 0%Z with (Z.of_nat 0). rewrite map_nth, seq_nth by exact Hk. reflexivity.
    + rewrite Hl in S. cbn [bind] in S. injection S as <-. exact G.
  - injection S as <-. cbn [data_positions] in E. apply mapM_iff in E. eapply Forall2_weaken; [|exact E].
    intros z p _ Hp. cbn beta in Hp. unfold one_position in Hp. destruct (norm_index _ z) as [j|] eqn:J; [|discriminate]. injection Hp as <-. now apply norm_index_cases.
Qed.
