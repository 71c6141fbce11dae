(** * Properties of the interpolation of observables over time and radius: C46 *)
From Verif Require Import PyBase PyLemmas ContainerModel ContainerSpec ContainerProofs ContainerProofs2 ContainerProperties AxisModel AxisSpec AxisProofs InterpModel InterpSpec InterpProofs InterpProperties.

Lemma mapM_nth {A B} (f : A -> result B) xs ys : mapM f xs = Ok ys -> length ys = length xs /\ forall i y, nth_error ys i = Some y <-> exists x, nth_error xs i = Some x /\ f x = Ok y.
Proof.
  revert ys. induction xs as [|x xs IH]; cbn [mapM]; intros ys.
  - intros [= <-]. split; [reflexivity|]. intros [|i] y; (split; [discriminate|intros (x & X & _); discriminate]).
  - destruct (f x) as [y0|e] eqn:E; [|discriminate]. cbn [bind]. destruct (mapM f xs) as [ys0|e] eqn:M; [|discriminate]. cbn [bind]. intros [= <-].
    destruct (IH ys0 eq_refl) as (L & H). split; [cbn; congruence|]. intros [|i] y; cbn [nth_error].
    + split; [intros [= <-]; eauto|]. intros (x' & [= <-] & Y). congruence.
    + apply H.
Qed.
Lemma mapM_exists {A B} (f : A -> result B) xs : (exists ys, mapM f xs = Ok ys) <-> Forall (fun x => exists y, f x = Ok y) xs.
Proof.
  induction xs as [|x xs IH]; cbn [mapM]; [split; [constructor|eauto]|]. split.
  - intros (ys & E). destruct (f x) as [y|e] eqn:F; [|discriminate]. cbn [bind] in E. destruct (mapM f xs) as [ys'|e] eqn:M; [|discriminate]. constructor; [eauto|]. apply IH. eauto.
  - intros F. inversion F as [|? ? (y & Y) F']; subst. apply IH in F' as (ys & M). rewrite Y, M. cbn [bind]. eauto.
Qed.
Lemma nth_seq n j a : nth_error (seq 0 n) j = Some a <-> j < n /\ a = j.
Proof.
  split.
  - intros H. assert (L : j < n) by (rewrite <- (seq_length n 0); apply nth_error_Some; congruence). split; [exact L|].
    apply (nth_error_nth _ _ 0) in H. rewrite seq_nth in H by exact L. cbn in H. congruence.
  - intros (L & ->). rewrite (nth_error_nth' _ 0) by (rewrite seq_length; exact L). rewrite seq_nth by exact L. reflexivity.
Qed.
Lemma nth_columns n rows j c : nth_error (columns n rows) j = Some c <-> j < n /\ c = column rows j.
Proof.
  unfold columns. split.
  - intros H. apply nth_map_some in H as (a & Ha & ->). apply nth_seq in Ha as (L & ->). split; [exact L|reflexivity].
  - intros (L & ->). rewrite nth_error_map. rewrite (proj2 (nth_seq n j j)) by auto. reflexivity.
Qed.
Lemma column_length rows j : length (column rows j) = length rows.
Proof. apply map_length. Qed.

(** ** Over time: every column is interpolated over the times *)
Theorem C46_time times n rows ts w : NoDup times -> length times = length rows -> length times <> 1 -> interpolate_time times n rows ts = Ok w ->
  length w = length ts /\ rectangular w n /\
  forall k j v, entry w k j v <-> exists t, nth_error ts k = Some t /\ j < n /\ interpolates times (column rows j) t v.
Proof.
  intros N L L1 E. unfold interpolate_time in E. destruct (mapM_nth _ _ _ E) as (Lw & H). split; [exact Lw|].
  assert (Ln : forall t r, mapM (fun col => apply1 times col t) (columns n rows) = Ok r -> length r = n).
  { intros t r M. apply mapM_nth in M as (Lr & _). rewrite Lr. unfold columns. rewrite map_length. apply seq_length. }
  split.
  - apply Forall_forall. intros r Hr. apply In_nth_error in Hr as (k & Hk). apply H in Hk as (t & _ & M). exact (Ln t r M).
  - intros k j v. split.
    + intros (r & Hr & Hv). apply H in Hr as (t & Ht & M). exists t. split; [exact Ht|]. apply mapM_nth in M as (_ & M). apply M in Hv as (c & Hc & V). apply nth_columns in Hc as (Lj & ->).
      split; [exact Lj|]. apply C46_value in V; [exact V|exact N|rewrite column_length; exact L|exact L1].
    + intros (t & Ht & Lj & V). destruct (nth_error w k) as [r|] eqn:Hr.
      2: { exfalso. apply nth_error_None in Hr. assert (k < length ts) by (apply nth_error_Some; congruence). lia. }
      exists r. split; [exact Hr|]. apply H in Hr as (t' & Ht' & M). assert (t' = t) as -> by congruence. apply mapM_nth in M as (_ & M). apply M. exists (column rows j).
      split; [apply nth_columns; auto|]. apply C46_value; [exact N|rewrite column_length; exact L|exact L1|exact V].
Qed.
Print Assumptions C46_time.
Theorem C46_time_exactly_when times n rows ts : NoDup times -> length times = length rows -> length times <> 1 -> 0 < n ->
  (exists w, interpolate_time times n rows ts = Ok w) <-> Forall (spanned times) ts.
Proof.
  intros N L L1 Pn. unfold interpolate_time. rewrite mapM_exists. split; apply Forall_impl; intros t H.
  - apply mapM_exists in H. rewrite Forall_forall in H. destruct (H (column rows 0)) as (v & V).
    + apply nth_error_In with (n := 0). apply nth_columns. auto.
    + apply (C46_exactly_when times (column rows 0) t N); [rewrite column_length; exact L|exact L1|eauto].
  - apply mapM_exists, Forall_forall. intros c Hc. apply In_nth_error in Hc as (j & Hc). apply nth_columns in Hc as (_ & ->).
    apply C46_exactly_when; [exact N|rewrite column_length; exact L|exact L1|exact H].
Qed.
Print Assumptions C46_time_exactly_when.

(** ** Over radius: every row is interpolated over the radii of its own time *)
Lemma nth_combine {A B} (l : list A) (m : list B) i p : nth_error (combine l m) i = Some p <-> nth_error l i = Some (fst p) /\ nth_error m i = Some (snd p).
Proof.
  revert m i. induction l as [|a l IH]; intros [|b m] [|i]; cbn [combine nth_error]; destruct p as [a' b']; cbn [fst snd]; try (split; [discriminate|intros (? & ?); discriminate]).
  - split; [intros [= -> ->]; auto|intros ([= ->] & [= ->]); reflexivity].
  - rewrite IH. reflexivity.
Qed.
Lemma existsb_rows t radii : existsb (mem qc_eqb t) radii = true <-> exists x, In x radii /\ In t x.
Proof. rewrite existsb_exists. split; intros (x & I & H); exists x; (split; [exact I|apply mem_qc; exact H]). Qed.
Definition aligned (radii rows : list (list Qc)) : Prop := length radii = length rows /\ forall k x y, nth_error radii k = Some x -> nth_error rows k = Some y -> length x = length y.
Lemma span_dec x t : {spanned x t} + {~ spanned x t}.
Proof.
  destruct (existsb (fun a => qc_leb a t) x) eqn:E1.
  - destruct (existsb (fun b => qc_leb t b) x) eqn:E2.
    + left. apply existsb_exists in E1 as (a & Ia & A). apply existsb_exists in E2 as (b & Ib & B). destruct (qc_leb_spec a t); [|discriminate]. destruct (qc_leb_spec t b); [|discriminate]. split; eauto.
    + right. intros (_ & b & Ib & B). assert (existsb (fun b => qc_leb t b) x = true); [|congruence]. apply existsb_exists. exists b. split; [exact Ib|]. destruct (qc_leb_spec t b); [reflexivity|contradiction].
  - right. intros ((a & Ia & A) & _). assert (existsb (fun a => qc_leb a t) x = true); [|congruence]. apply existsb_exists. exists a. split; [exact Ia|]. destruct (qc_leb_spec a t); [reflexivity|contradiction].
Qed.
Lemma apply2_exists radii rows R : aligned radii rows -> (exists c, apply2 radii rows R = Ok c) <-> forall x, In x radii -> spanned x R /\ ~ In R x.
Proof.
  intros (L & A). unfold apply2. destruct (existsb (mem qc_eqb R) radii) eqn:E.
  - split; [intros (c & C); discriminate|]. intros H. apply existsb_rows in E as (x & Hx & I). destruct (H x Hx). contradiction.
  - assert (NI : forall x, In x radii -> ~ In R x) by (intros x Hx I; rewrite (proj2 (existsb_rows R radii)) in E; [discriminate|eauto]).
    rewrite mapM_exists, Forall_forall. split.
    + intros H x Hx. split; [|exact (NI x Hx)]. apply In_nth_error in Hx as (k & Hk). destruct (nth_error rows k) as [y|] eqn:Hy.
      2: { exfalso. apply nth_error_None in Hy. assert (k < length radii) by (apply nth_error_Some; congruence). lia. }
      destruct (H (x, y)) as (v & V); [apply nth_error_In with (n := k), nth_combine; auto|]. cbn [fst snd] in V.
      destruct (span_dec x R) as [S0|S0]; [exact S0|]. rewrite (interp1d_outside x y R S0) in V. discriminate.
    + intros H (x, y) Hxy. cbn [fst snd]. apply In_nth_error in Hxy as (k & Hk). apply nth_combine in Hk as (Hx & Hy). cbn [fst snd] in *. destruct (H x (nth_error_In _ _ Hx)) as (Sp & Ni).
      destruct (interp1d_spec x y R (A k x y Hx Hy) Ni Sp) as (v & V & _). eauto.
Qed.
Lemma apply2_value radii rows R c : aligned radii rows -> (forall x, In x radii -> NoDup x) -> apply2 radii rows R = Ok c ->
  length c = length radii /\ forall k v, nth_error c k = Some v <-> exists x y, nth_error radii k = Some x /\ nth_error rows k = Some y /\ interpolates x y R v.
Proof.
  intros Al N E. pose proof Al as (L & A). assert (S0 := proj1 (apply2_exists radii rows R Al) (ex_intro _ c E)).
  unfold apply2 in E. destruct (existsb (mem qc_eqb R) radii); [discriminate|]. destruct (mapM_nth _ _ _ E) as (Lc & H). split; [rewrite Lc, combine_length; lia|].
  intros k v. rewrite H. split.
  - intros ((x, y) & Hxy & V). apply nth_combine in Hxy as (Hx & Hy). cbn [fst snd] in *. exists x, y. split; [exact Hx|]. split; [exact Hy|]. destruct (S0 x (nth_error_In _ _ Hx)) as (Sp & Ni).
    destruct (interp1d_spec x y R (A k x y Hx Hy) Ni Sp) as (u & U & I). congruence.
  - intros (x & y & Hx & Hy & I). exists (x, y). split; [apply nth_combine; auto|]. cbn [fst snd]. destruct (S0 x (nth_error_In _ _ Hx)) as (Sp & Ni).
    destruct (interp1d_spec x y R (A k x y Hx Hy) Ni Sp) as (u & U & I'). rewrite (interpolates_unique x y R v u (N x (nth_error_In _ _ Hx)) I I'). exact U.
Qed.
Theorem C46_radius radii rows rs w : aligned radii rows -> (forall x, In x radii -> NoDup x) -> interpolate_radius radii rows rs = Ok w ->
  length w = length rows /\ rectangular w (length rs) /\
  forall k j v, entry w k j v <-> exists x y R, nth_error radii k = Some x /\ nth_error rows k = Some y /\ nth_error rs j = Some R /\ interpolates x y R v.
Proof.
  intros Al N E. unfold interpolate_radius in E. destruct (mapM (apply2 radii rows) rs) as [l|e] eqn:M; [|discriminate]. cbn [bind] in E. assert (w = columns (Nat.min (length radii) (length rows)) l) as -> by congruence. clear E.
  destruct (mapM_nth _ _ _ M) as (Ll & H). pose proof Al as (L & _). replace (Nat.min (length radii) (length rows)) with (length rows) by lia.
  split; [unfold columns; rewrite map_length; apply seq_length|]. split.
  { apply Forall_forall. intros r Hr. apply In_nth_error in Hr as (k & Hk). apply nth_columns in Hk as (_ & ->). rewrite column_length. exact Ll. }
  intros k j v. split.
  - intros (r & Hr & Hv). apply nth_columns in Hr as (Lk & ->). unfold column in Hv. apply nth_map_some in Hv as (c & Hc & ->). apply H in Hc as (R & HR & C).
    destruct (apply2_value radii rows R c Al N C) as (Lc & Hc'). assert (nth_error c k = Some (nth k c 0%Qc)) as Hk by (apply nth_error_nth'; lia).
    apply Hc' in Hk as (x & y & Hx & Hy & I). exists x, y, R. auto.
  - intros (x & y & R & Hx & Hy & HR & I). exists (column l k). assert (Lk : k < length rows) by (apply nth_error_Some; congruence). split; [apply nth_columns; auto|].
    destruct (nth_error l j) as [c|] eqn:Hc.
    2: { exfalso. apply nth_error_None in Hc. assert (j < length rs) by (apply nth_error_Some; congruence). lia. }
    unfold column. rewrite nth_error_map, Hc. cbn [option_map]. f_equal. apply H in Hc as (R' & HR' & C). assert (R' = R) as -> by congruence.
    destruct (apply2_value radii rows R c Al N C) as (_ & Hc'). apply nth_error_nth. apply Hc'. eauto.
Qed.
Print Assumptions C46_radius.
(** A value exists exactly when each radius asked for lies strictly between the
    nodes of the grid of every time, without being one of them *)
Theorem C46_radius_exactly_when radii rows rs : aligned radii rows ->
  (exists w, interpolate_radius radii rows rs = Ok w) <-> forall R x, In R rs -> In x radii -> spanned x R /\ ~ In R x.
Proof.
  intros Al. unfold interpolate_radius. split.
  - intros (w & E). destruct (mapM (apply2 radii rows) rs) as [l|e] eqn:M; [|discriminate]. assert (F := proj1 (mapM_exists _ _) (ex_intro _ l M)). rewrite Forall_forall in F.
    intros R x HR Hx. exact (proj1 (apply2_exists radii rows R Al) (F R HR) x Hx).
  - intros H. assert (F : Forall (fun R => exists c, apply2 radii rows R = Ok c) rs) by (apply Forall_forall; intros R HR; apply (apply2_exists radii rows R Al); intros x Hx; apply H; assumption).
    apply mapM_exists in F as (l & ->). cbn [bind]. eauto.
Qed.
Print Assumptions C46_radius_exactly_when.
(** A radius of the grid, at any time, is no radius that can be asked for, whereas
    a time of the time axis is (C46_nodes) *)
Theorem C46_radius_on_grid_refuted radii rows rs R x : In R rs -> In x radii -> In R x -> exists e, interpolate_radius radii rows rs = Raise e.
Proof.
  intros HR Hx I. unfold interpolate_radius. destruct (mapM (apply2 radii rows) rs) as [l|e] eqn:M; [|exists e; reflexivity]. exfalso.
  assert (F := proj1 (mapM_exists _ _) (ex_intro _ l M)). rewrite Forall_forall in F. destruct (F R HR) as (c & C). unfold apply2 in C.
  rewrite (proj2 (existsb_rows R radii)) in C; [discriminate|eauto].
Qed.
Print Assumptions C46_radius_on_grid_refuted.
(** the radius interpolated to R is R *)
Theorem C46_own_radius radii rs w : (forall x, In x radii -> NoDup x) -> interpolate_radius radii radii rs = Ok w -> forall k j v, entry w k j v -> nth_error rs j = Some v.
Proof.
  intros N E k j v H. assert (Al : aligned radii radii) by (split; [reflexivity|congruence]). apply (C46_radius radii radii rs w Al N E) in H as (x & y & R & Hx & Hy & HR & I).
  assert (y = x) as -> by congruence. rewrite HR. f_equal. assert (I' : interpolates x (map (fun u => 1 * u + 0)%Qc x) R v).
  { rewrite (map_ext _ (fun u => u)) by (intros; ring). rewrite map_id. exact I. }
  apply interpolates_line in I'. rewrite I'. ring.
Qed.
Print Assumptions C46_own_radius.

(** ** Observing *)
(** strictly between the least and the greatest *)
Definition inside_of (l : list Qc) (t : Qc) : Prop := (exists a, In a l /\ (a < t)%Qc) /\ exists b, In b l /\ (t < b)%Qc.
Lemma within_spec l t : (within l t = Ok tt <-> inside_of l t) /\ (~ inside_of l t -> within l t = Raise ValueError).
Proof.
  unfold within. destruct l as [|d l].
  - split; [|reflexivity]. split; [discriminate|]. intros ((a & [] & _) & _).
  - destruct (minq_spec l d) as (I1 & L1). destruct (maxq_spec l d) as (I2 & L2). destruct (qc_ltb_spec (minq l d) t) as [H|H], (qc_ltb_spec t (maxq l d)) as [H'|H']; cbn [andb].
    + assert (inside_of (d :: l) t) by (split; eauto). tauto.
    + split; [|reflexivity]. split; [discriminate|]. intros (_ & b & Hb & Lb). exfalso. apply H'. exact (Qclt_le_trans _ _ _ Lb (L2 b Hb)).
    + split; [|reflexivity]. split; [discriminate|]. intros ((a & Ha & La) & _). exfalso. apply H. exact (Qcle_lt_trans _ _ _ (L1 a Ha) La).
    + split; [|reflexivity]. split; [discriminate|]. intros ((a & Ha & La) & _). exfalso. apply H. exact (Qcle_lt_trans _ _ _ (L1 a Ha) La).
Qed.
Lemma within_all l ts : (exists u, mapM (within l) ts = Ok u) <-> Forall (inside_of l) ts.
Proof.
  rewrite mapM_exists. split; apply Forall_impl; intros t.
  - intros ([] & H). apply within_spec, H.
  - intros H. exists tt. apply within_spec, H.
Qed.
Lemma inside_spanned l t : inside_of l t -> spanned l t.
Proof. intros ((a & Ha & La) & (b & Hb & Lb)). split; [exists a|exists b]; (split; [assumption|apply Qclt_le_weak; assumption]). Qed.
Lemma take_whole {A} (w : list A) : take w None = Ok w. Proof. reflexivity. Qed.
Lemma mapM_whole {A} (w : list (list A)) : mapM (fun r => take r None) w = Ok w.
Proof. induction w as [|r w IH]; [reflexivity|]. cbn [mapM]. rewrite take_whole. cbn [bind]. rewrite IH. reflexivity. Qed.
Lemma take_nth {A} (l : list A) js m : js <> [] -> take l (Some (map Z.of_nat js)) = Ok m -> forall i v, nth_error m i = Some v <-> exists j, nth_error js i = Some j /\ nth_error l j = Some v.
Proof.
  intros NE E i v. unfold take in E. destruct js as [|j0 js0]; [congruence|]. cbn [map] in E. change (mapM (pyindex l) (map Z.of_nat (j0 :: js0)) = Ok m) in E. apply mapM_nth in E as (_ & H). rewrite H. split.
  - intros (z & Hz & V). apply nth_map_some in Hz as (j & Hj & ->). exists j. split; [exact Hj|]. rewrite pyindex_nat in V. destruct (nth_error l j); [congruence|discriminate].
  - intros (j & Hj & V). exists (Z.of_nat j). split; [rewrite nth_error_map, Hj; reflexivity|]. rewrite pyindex_nat, V. reflexivity.
Qed.
(** a quantity observed at times ts and shells js: the row of each time and the
    entry of each shell is the interpolated one *)
Theorem C46_observed_at_times times radii n rows it js ts w : NoDup times -> length times = length rows -> length times <> 1 -> js <> [] ->
  observe2 times radii n rows it (Some (map Z.of_nat js)) (Some ts) None = Ok w ->
  length w = length ts /\ forall k m v, entry w k m v <-> exists t j, nth_error ts k = Some t /\ nth_error js m = Some j /\ j < n /\ interpolates times (column rows j) t v.
Proof.
  intros N L L1 NE E. unfold observe2 in E. destruct (mapM (within times) ts) as [u|e]; [|discriminate]. cbn [bind] in E. unfold interpolate in E. destruct (interpolate_time times n rows ts) as [w0|e] eqn:I; [|discriminate]. cbn [bind] in E. rewrite take_whole in E. cbn [bind] in E.
  destruct (C46_time times n rows ts w0 N L L1 I) as (L0 & _ & H). destruct (mapM_nth _ _ _ E) as (Lw & Hw). split; [congruence|]. intros k m v. split.
  - intros (r & Hr & Hv). apply Hw in Hr as (r0 & Hr0 & T). apply (proj1 (take_nth r0 js r NE T m v)) in Hv as (j & Hj & Hv). destruct (proj1 (H k j v)) as (t & Ht & Lj & V); [exists r0; auto|]. exists t, j. auto.
  - intros (t & j & Ht & Hj & Lj & V). destruct (proj2 (H k j v)) as (r0 & Hr0 & Hv); [eauto|]. destruct (nth_error w k) as [r|] eqn:Hr.
    2: { exfalso. apply nth_error_None in Hr. assert (k < length w0) by (apply nth_error_Some; congruence). lia. }
    exists r. split; [exact Hr|]. pose proof Hr as Hr'. apply Hw in Hr' as (r1 & Hr1 & T). assert (r1 = r0) as -> by congruence. apply (take_nth r0 js r NE T m v). eauto.
Qed.
Print Assumptions C46_observed_at_times.
Theorem C46_observed_when times radii n rows js ts : NoDup times -> length times = length rows -> length times <> 1 -> Forall (fun j => j < n) js -> js <> [] -> 0 < n ->
  (exists w, observe2 times radii n rows None (Some (map Z.of_nat js)) (Some ts) None = Ok w) <-> Forall (inside_of times) ts.
Proof.
  intros N L L1 B NE Pn. unfold observe2. rewrite <- within_all. split.
  - intros (w & E). destruct (mapM (within times) ts) as [u|e]; [eauto|discriminate].
  - intros (u & U). rewrite U. cbn [bind]. assert (F : Forall (spanned times) ts) by (assert (F : Forall (inside_of times) ts) by (apply within_all; eauto); revert F; apply Forall_impl, inside_spanned).
    apply (C46_time_exactly_when times n rows ts N L L1 Pn) in F as (w0 & W). unfold interpolate. rewrite W. cbn [bind]. rewrite take_whole. cbn [bind]. apply mapM_exists, Forall_forall. intros r Hr.
    destruct (C46_time times n rows ts w0 N L L1 W) as (_ & Rc & _). unfold rectangular in Rc. rewrite Forall_forall in Rc. specialize (Rc r Hr). unfold take. destruct js as [|j0 js0]; [congruence|]. cbn [map].
    change (exists y, mapM (pyindex r) (map Z.of_nat (j0 :: js0)) = Ok y). apply mapM_exists. apply Forall_forall. intros z Hz. apply in_map_iff in Hz as (j & <- & Hj). rewrite Forall_forall in B. specialize (B j Hj).
    rewrite pyindex_nat. destruct (nth_error r j) eqn:X; [eauto|]. apply nth_error_None in X. lia.
Qed.
Print Assumptions C46_observed_when.
(** the end points of the axis have values, and are refused *)
Theorem C46_end_points_refuted times radii n rows it ish ts rs t : In t ts -> (forall a, In a times -> (t <= a)%Qc) \/ (forall a, In a times -> (a <= t)%Qc) ->
  exists e, observe2 times radii n rows it ish (Some ts) rs = Raise e.
Proof.
  intros It B. unfold observe2. destruct (mapM (within times) ts) as [u|e] eqn:U; [|exists e; reflexivity]. exfalso. assert (F : Forall (inside_of times) ts) by (apply within_all; eauto). rewrite Forall_forall in F.
  destruct (F t It) as ((a & Ha & La) & (b & Hb & Lb)). destruct B as [B|B]; [exact (Qclt_not_le _ _ La (B a Ha))|exact (Qclt_not_le _ _ Lb (B b Hb))].
Qed.
Print Assumptions C46_end_points_refuted.
(** a quantity observed at the radii rs, for the times of positions ix *)
Theorem C46_observed_at_radii times radii n rows ix ish rs w : aligned radii rows -> (forall x, In x radii -> NoDup x) -> ix <> [] ->
  observe2 times radii n rows (Some (map Z.of_nat ix)) ish None (Some rs) = Ok w ->
  forall k m v, entry w k m v <-> exists i x y R, nth_error ix k = Some i /\ nth_error radii i = Some x /\ nth_error rows i = Some y /\ nth_error rs m = Some R /\ interpolates x y R v.
Proof.
  intros Al N NE E. unfold observe2 in E. cbn [bind] in E. destruct (mapM (within (concat radii)) rs) as [u|e]; [|discriminate]. cbn [bind] in E. unfold interpolate in E. cbn [bind] in E. destruct (interpolate_radius radii rows rs) as [w0|e] eqn:I; [|discriminate]. cbn [bind] in E.
  destruct (take w0 (Some (map Z.of_nat ix))) as [w1|e] eqn:T; [|discriminate]. cbn [bind] in E. rewrite mapM_whole in E. assert (w1 = w) as -> by congruence. clear E.
  destruct (C46_radius radii rows rs w0 Al N I) as (_ & _ & H). pose proof (take_nth w0 ix w NE T) as Hw. intros k m v. split.
  - intros (r & Hr & Hv). apply Hw in Hr as (i & Hi & Hr). destruct (proj1 (H i m v)) as (x & y & R & A); [exists r; auto|]. exists i, x, y, R. tauto.
  - intros (i & x & y & R & Hi & Hx & Hy & HR & V). destruct (proj2 (H i m v)) as (r & Hr & Hv); [exists x, y, R; auto|]. exists r. split; [|exact Hv]. apply Hw. eauto.
Qed.
Print Assumptions C46_observed_at_radii.
(** ... and refused if a radius lies outside the grid of any time, asked for or not *)
Theorem C46_other_times_refuted times radii n rows it ish rs R x : aligned radii rows -> In R rs -> In x radii -> ~ spanned x R -> exists e, observe2 times radii n rows it ish None (Some rs) = Raise e.
Proof.
  intros Al HR Hx Ns. unfold observe2. cbn [bind]. destruct (mapM (within (concat radii)) rs) as [u|e]; [|exists e; reflexivity]. cbn [bind]. unfold interpolate. cbn [bind].
  destruct (interpolate_radius radii rows rs) as [w|e] eqn:I; [|exists e; reflexivity]. exfalso. destruct (proj1 (C46_radius_exactly_when radii rows rs Al) (ex_intro _ w I) R x HR Hx). contradiction.
Qed.
Print Assumptions C46_other_times_refuted.
(** An empty sequence of indices is no restriction. *)
Theorem C46_empty_indices times radii n rows it ish ts rs :
  observe2 times radii n rows (Some []) ish ts rs = observe2 times radii n rows None ish ts rs /\
  observe2 times radii n rows it (Some []) ts rs = observe2 times radii n rows it None ts rs.
Proof. unfold observe2. split; destruct ts, rs; reflexivity. Qed.
Print Assumptions C46_empty_indices.
(** Over time and radius at once the values are not those of the radius asked for:
    the radii used for a time are those of the first times.  Here r itself, at
    t = 1 and r = 5/2, is 3. *)
Theorem C46_time_and_radius_refuted : exists times radii t R v, observe2 times radii 3 radii None None (Some [t]) (Some [R]) = Ok [[v]] /\ R = mkq 5 2 /\ v = zq 3.
Proof.
  exists [zq 0; zq 2], [[zq 0; zq 2; zq 4]; [zq 1; zq 3; zq 5]], (zq 1), (mkq 5 2). eexists. split; [vm_compute; reflexivity|]. split; [reflexivity|]. apply Qc_is_canon. vm_compute. reflexivity.
Qed.
Print Assumptions C46_time_and_radius_refuted.
Example C46_case2 : let radii := [[zq 0; zq 2; zq 4]; [zq 1; zq 3; zq 5]] in let rows := [[zq 10; zq 20; zq 40]; [zq 5; zq 7; zq 9]] in
  aligned radii rows /\
  (exists u v, observe2 [zq 0; zq 2] radii 3 rows None (Some [0%Z; 2%Z]) (Some [zq 1]) None = Ok [[u; v]] /\ u = mkq 15 2 /\ v = mkq 49 2) /\
  (exists u, observe2 [zq 0; zq 2] radii 3 rows (Some [1%Z]) None None (Some [mkq 7 2]) = Ok [[u]] /\ u = mkq 15 2) /\
  observe2 [zq 0; zq 2] radii 3 rows None None (Some [zq 2]) None = Raise ValueError /\
  (exists e, observe2 [zq 0; zq 2] radii 3 rows (Some [1%Z]) None None (Some [zq 3]) = Raise e).
Proof.
  cbn zeta. split; [split; [reflexivity|]; intros [|[|[|k]]] x y; cbn; try discriminate; intros [= <-] [= <-]; reflexivity|].
  split; [do 2 eexists; split; [vm_compute; reflexivity|]; split; apply Qc_is_canon; vm_compute; reflexivity|].
  split; [eexists; split; [vm_compute; reflexivity|]; apply Qc_is_canon; vm_compute; reflexivity|]. split; [vm_compute; reflexivity|]. eexists. vm_compute. reflexivity.
Qed.
