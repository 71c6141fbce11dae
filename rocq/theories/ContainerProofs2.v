From Verif Require Import PyBase PyLemmas ContainerModel ContainerSpec ContainerProofs.
From Coq Require Import Sorted Lqa.
Set Default Proof Using "Type".

(** ** rationals: order facts through [Q] *)
Lemma this_opp a : this (- a)%Qc == - this a.
Proof. unfold Qcopp, Q2Qc. cbn [this]. apply Qred_correct. Qed.
Lemma this_add a b : this (a + b)%Qc == this a + this b.
Proof. unfold Qcplus, Q2Qc. cbn [this]. apply Qred_correct. Qed.
Lemma this_sub a b : this (a - b)%Qc == this a - this b.
Proof. unfold Qcminus. rewrite this_add, this_opp. reflexivity. Qed.
Ltac qc_cases := repeat match goal with
  | |- context [qc_ltb ?a ?b] => let L := fresh "L" in destruct (qc_ltb_spec a b) as [L|L]; [|apply Qcnot_lt_le in L]
  | H : context [qc_ltb ?a ?b] |- _ => let L := fresh "L" in destruct (qc_ltb_spec a b) as [L|L]; [|apply Qcnot_lt_le in L]
  end.
Ltac qc_lra :=
  repeat match goal with H : ~ (_ < _)%Qc |- _ => apply Qcnot_lt_le in H end;
  try apply Qc_is_canon;
  unfold Qclt, Qcle in *; rewrite ?this_opp, ?this_sub, ?this_add in *; change (this 0%Qc) with (0%Q) in *; lra.
Lemma absq_dist a b : absq (a - b)%Qc = distance a b.
Proof. unfold absq, distance. qc_cases; qc_lra. Qed.

(** ** nearest *)
Lemma argmin_from_spec l : forall best bestv i pre,
  length pre = i -> nth_error pre best = Some bestv ->
  (forall j w, nth_error pre j = Some w -> (bestv <= w)%Qc /\ (j < best -> (bestv < w)%Qc)) ->
  exists v, nth_error (pre ++ l) (argmin_from best bestv i l) = Some v /\
  forall j w, nth_error (pre ++ l) j = Some w -> (v <= w)%Qc /\ (j < argmin_from best bestv i l -> (v < w)%Qc).
Proof.
  induction l as [|a l IH]; intros best bestv i pre L B H; cbn [argmin_from].
  - exists bestv. rewrite app_nil_r. auto.
  - replace (pre ++ a :: l) with ((pre ++ [a]) ++ l) by (rewrite <- app_assoc; reflexivity).
    assert (Lb : best < i) by (rewrite <- L; apply nth_error_Some; congruence).
    assert (G : forall j w, nth_error (pre ++ [a]) j = Some w -> (j < i /\ nth_error pre j = Some w) \/ (j = i /\ w = a)).
    { intros j w E. destruct (Nat.lt_ge_cases j i) as [Hj|Hj].
      - left. split; [exact Hj|]. rewrite nth_error_app1 in E by lia. exact E.
      - right. rewrite nth_error_app2 in E by lia. destruct (j - length pre) as [|m] eqn:J; simpl in E; [|destruct m; discriminate].
        split; [lia | congruence]. }
    destruct (qc_ltb_spec a bestv) as [Q|Q]; apply IH.
    + rewrite app_length. simpl. lia.
    + rewrite nth_error_app2 by lia. rewrite L, Nat.sub_diag. reflexivity.
    + intros j w E. destruct (G _ _ E) as [[Hj Ej]|[-> ->]].
      * destruct (H _ _ Ej) as [H1 H2]. split; [qc_lra|]. intros _. qc_lra.
      * split; [apply Qcle_refl | lia].
    + rewrite app_length. simpl. lia.
    + rewrite nth_error_app1 by lia. exact B.
    + intros j w E. destruct (G _ _ E) as [[Hj Ej]|[-> ->]]; [apply H, Ej|]. split; [qc_lra | lia].
Qed.
Lemma argmin_spec l i : argmin l = Ok i -> exists v, nth_error l i = Some v /\
  forall j w, nth_error l j = Some w -> (v <= w)%Qc /\ (j < i -> (v < w)%Qc).
Proof.
  destruct l as [|a l]; [discriminate|]. cbn [argmin]. intros E. injection E as <-.
  apply (argmin_from_spec l 0 a 1 [a]); auto. intros j w E. destruct j as [|j]; simpl in E; [|destruct j; discriminate].
  injection E as <-. split; [apply Qcle_refl | lia].
Qed.
Lemma pyindex_nat {B} (l : list B) i : pyindex l (Z.of_nat i) = match nth_error l i with Some v => Ok v | None => Raise IndexError end.
Proof.
  unfold pyindex. destruct (Z.ltb_spec (Z.of_nat i) 0) as [H|H]; [lia|].
  destruct (Z.ltb_spec (Z.of_nat i) 0) as [H'|H']; [lia|]. rewrite Nat2Z.id. reflexivity.
Qed.

Lemma nearest_free values target : values <> [] -> exists i v, nearest values target NoBound = Ok (Z.of_nat i, v) /\
  nth_error values i = Some v /\
  forall j w, nth_error values j = Some w ->
    (distance v target <= distance w target)%Qc /\ (j < i -> (distance v target < distance w target)%Qc).
Proof.
  intros N. unfold nearest. destruct (argmin _) as [i|e] eqn:E; [|destruct values; [congruence | discriminate]].
  cbn [bind]. destruct (argmin_spec _ _ E) as (d & Ed & H). rewrite nth_error_map in Ed.
  destruct (nth_error values i) as [v|] eqn:V; [|discriminate]. injection Ed as <-.
  exists i, v. rewrite pyindex_nat, V. cbn [bind]. split; [reflexivity|]. split; [reflexivity|].
  intros j w Ej. specialize (H j (absq (w - target))). rewrite nth_error_map, Ej in H. destruct (H eq_refl) as [H1 H2]. rewrite !absq_dist in H1, H2. auto.
Qed.

Lemma seek_up_spec array target : forall n i fuel, n < fuel ->
  (exists v, nth_error array (i + n) = Some v /\ (target <= v)%Qc) ->
  (forall j w, i <= j < i + n -> nth_error array j = Some w -> (w < target)%Qc) ->
  seek_up fuel array target (Z.of_nat i) = Z.of_nat (i + n).
Proof.
  induction n as [|n IH]; intros i fuel F (v & V & T) B; (destruct fuel as [|fuel]; [lia|]); cbn [seek_up]; rewrite pyindex_nat.
  - rewrite Nat.add_0_r in *. rewrite V. destruct (qc_ltb_spec v target); [qc_lra | reflexivity].
  - destruct (nth_error array i) as [w|] eqn:W.
    + destruct (qc_ltb_spec w target) as [L|L].
      * replace (Z.of_nat i + 1)%Z with (Z.of_nat (S i)) by lia. rewrite IH; [f_equal; lia | lia | |].
        -- exists v. split; [rewrite <- V; f_equal; lia | exact T].
        -- intros j w' Hj. apply B. lia.
      * exfalso. specialize (B i w ltac:(lia) W). qc_lra.
    + exfalso. apply nth_error_None in W. assert (i + S n < length array) by (apply nth_error_Some; congruence). lia.
Qed.
Lemma seek_up_end array target : forall n i fuel, n < fuel -> i + n = length array ->
  (forall j w, i <= j -> nth_error array j = Some w -> (w < target)%Qc) ->
  seek_up fuel array target (Z.of_nat i) = (-1)%Z.
Proof.
  induction n as [|n IH]; intros i fuel F L B; (destruct fuel as [|fuel]; [lia|]); cbn [seek_up]; rewrite pyindex_nat.
  - rewrite (proj2 (nth_error_None array i)) by lia. reflexivity.
  - destruct (nth_error array i) as [w|] eqn:W; [|reflexivity].
    specialize (B i w (le_n _) W) as Bw. destruct (qc_ltb_spec w target) as [_|N]; [|contradiction].
    replace (Z.of_nat i + 1)%Z with (Z.of_nat (S i)) by lia. apply IH; [lia | lia|]. intros j w' Hj. apply B. lia.
Qed.
Lemma seek_down_spec array target : forall n i fuel, n < fuel ->
  (exists v, nth_error array i = Some v /\ (v <= target)%Qc) ->
  (forall j, j <= i + n -> nth_error array j <> None) ->
  (forall j w, i < j <= i + n -> nth_error array j = Some w -> (target < w)%Qc) ->
  seek_down fuel array target (Z.of_nat (i + n)) = Z.of_nat i.
Proof.
  induction n as [|n IH]; intros i fuel F (v & V & T) D B; (destruct fuel as [|fuel]; [lia|]); cbn [seek_down]; rewrite pyindex_nat.
  - rewrite Nat.add_0_r in *. rewrite V. destruct (qc_ltb_spec target v); [qc_lra | reflexivity].
  - destruct (nth_error array (i + S n)) as [w|] eqn:W; [|exfalso; eapply D; [|exact W]; lia].
    specialize (B (i + S n) w ltac:(lia) W) as Bw. destruct (qc_ltb_spec target w) as [_|N]; [|contradiction].
    replace (Z.of_nat (i + S n) - 1)%Z with (Z.of_nat (i + n)) by lia. apply IH; [lia | eauto | |].
    + intros j Hj. apply D. lia.
    + intros j w' Hj. apply B. lia.
Qed.
Lemma pyindex_range {B} (l : list B) z v : pyindex l z = Ok v -> (- Z.of_nat (length l) <= z < Z.of_nat (length l))%Z /\ In v l.
Proof.
  unfold pyindex. destruct (Z.ltb_spec z 0).
  - destruct (Z.ltb_spec (z + Z.of_nat (length l)) 0); [discriminate|]. destruct nth_error eqn:E; [|discriminate].
    intros X. injection X as <-. split; [lia | eapply nth_error_In, E].
  - destruct (Z.ltb_spec z 0); [lia|]. destruct nth_error eqn:E; [|discriminate]. intros X. injection X as <-.
    assert (Z.to_nat z < length l) by (apply nth_error_Some; congruence). split; [lia | eapply nth_error_In, E].
Qed.
(** all members above the target: walk down through the end (negative indices),
    then give up at the first member *)
Lemma seek_down_end array target : (forall w, In w array -> (target < w)%Qc) -> array <> [] ->
  forall fuel i, (Z.to_nat (i + Z.of_nat (length array) + 1) < fuel) -> (i < Z.of_nat (length array))%Z ->
  seek_down fuel array target i = 0%Z.
Proof.
  intros B NE. induction fuel as [|fuel IH]; intros i F L; [lia|]. cbn [seek_down].
  destruct (pyindex array i) as [w|e] eqn:E; [|reflexivity].
  apply pyindex_range in E as [R I]. specialize (B w I). destruct (qc_ltb_spec target w); [|contradiction].
  apply IH; lia.
Qed.

(** ascending lists *)
Lemma asc_nth l : ascending l -> forall i j v w, i <= j -> nth_error l i = Some v -> nth_error l j = Some w -> (v <= w)%Qc.
Proof.
  induction 1 as [|a l S IH F]; intros i j v w L Ei Ej; [destruct i; discriminate|].
  destruct i as [|i], j as [|j]; simpl in Ei, Ej; try lia.
  - injection Ei as ->. injection Ej as ->. apply Qcle_refl.
  - injection Ei as ->. rewrite Forall_forall in F. apply F. eapply nth_error_In, Ej.
  - eapply IH; [|exact Ei|exact Ej]. lia.
Qed.
Lemma bounded_least (P : nat -> Prop) (D : forall n, P n \/ ~ P n) n : P n -> exists m, P m /\ m <= n /\ forall k, k < m -> ~ P k.
Proof.
  revert P D. induction n as [|n IH]; intros P D H.
  - exists 0. split; [exact H|]. split; [lia|]. intros k Hk. lia.
  - destruct (D 0) as [H0|H0]; [exists 0; repeat split; [exact H0 | lia | intros k Hk; lia]|].
    destruct (IH (fun k => P (S k)) (fun k => D (S k)) H) as (m & Hm & Lm & Mm).
    exists (S m). split; [exact Hm|]. split; [lia|]. intros [|k] Hk; [exact H0 | apply Mm; lia].
Qed.
Lemma qc_dec (a b : Qc) : (a <= b)%Qc \/ (b < a)%Qc.
Proof. destruct (Qclt_le_dec b a); auto. Qed.

Lemma nearest_lower values target : ascending values -> (exists v, In v values /\ (target <= v)%Qc) ->
  exists i v, nearest values target Lower = Ok (Z.of_nat i, v) /\ nth_error values i = Some v /\ (target <= v)%Qc /\
    forall w, In w values -> (target <= w)%Qc -> (v <= w)%Qc.
Proof.
  intros AS (v0 & I0 & T0). unfold nearest.
  destruct (argmin _) as [i|e] eqn:E; [|destruct values; [destruct I0 | discriminate]]. cbn [bind].
  destruct (argmin_spec _ _ E) as (d & Ed & H). rewrite nth_error_map in Ed.
  destruct (nth_error values i) as [vi|] eqn:V; [|discriminate]. injection Ed as <-.
  assert (Hm : forall w, In w values -> (distance vi target <= distance w target)%Qc).
  { intros w Hw. apply In_nth_error in Hw as (j & Ej). destruct (H j (absq (w - target))) as [Hd _]; [rewrite nth_error_map, Ej; reflexivity|].
    rewrite !absq_dist in Hd. exact Hd. }
  destruct (qc_dec target vi) as [Ti|Ti].
  - (* the closest member is already on the right side *)
    exists i, vi. replace (seek_up _ values target (Z.of_nat i)) with (Z.of_nat (i + 0)).
    2:{ symmetry. apply seek_up_spec; [lia | rewrite Nat.add_0_r; eauto | intros; lia]. }
    rewrite Nat.add_0_r, pyindex_nat, V. cbn [bind]. repeat split; auto.
    intros w Hw Tw. specialize (Hm w Hw). unfold distance in Hm. qc_cases; qc_lra.
  - (* walk up to the first member that is not below the target *)
    apply In_nth_error in I0 as (j0 & Ej0).
    destruct (bounded_least (fun j => exists w, nth_error values j = Some w /\ (target <= w)%Qc)) with (n := j0) as (j & (vj & Ej & Tj) & _ & Lj).
    { intros n. destruct (nth_error values n) as [w|] eqn:W; [|right; intros (w & X & _); discriminate].
      destruct (qc_dec target w) as [T|T]; [left; eauto|]. right. intros (w' & X & T'). injection X as <-. qc_lra. }
    { eauto. }
    assert (ij : i < j).
    { destruct (Nat.lt_ge_cases i j) as [|G]; [assumption|]. exfalso. pose proof (asc_nth values AS j i vj vi G Ej V). qc_lra. }
    assert (BL : forall k w, k < j -> nth_error values k = Some w -> (w < target)%Qc).
    { intros k w Hk Ek. destruct (qc_dec target w) as [T|T]; [|exact T]. exfalso. apply (Lj k Hk). eauto. }
    exists j, vj. assert (jl : j < length values) by (apply nth_error_Some; congruence).
    replace (seek_up _ values target (Z.of_nat i)) with (Z.of_nat (i + (j - i))).
    2:{ symmetry. apply seek_up_spec; [lia | | ].
        - replace (i + (j - i)) with j by lia. eauto.
        - intros k w Hk Ek. apply (BL k w); [lia | exact Ek]. }
    replace (i + (j - i)) with j by lia. rewrite pyindex_nat, Ej. cbn [bind]. repeat split; auto.
    intros w Hw Tw. apply In_nth_error in Hw as (k & Ek). destruct (Nat.lt_ge_cases k j) as [Hk|Hk].
    + specialize (BL k w Hk Ek). qc_lra.
    + eapply asc_nth; eauto.
Qed.
Lemma nearest_upper values target : ascending values -> (exists v, In v values /\ (v <= target)%Qc) ->
  exists i v, nearest values target Upper = Ok (Z.of_nat i, v) /\ nth_error values i = Some v /\ (v <= target)%Qc /\
    forall w, In w values -> (w <= target)%Qc -> (w <= v)%Qc.
Proof.
  intros AS (v0 & I0 & T0). unfold nearest.
  destruct (argmin _) as [i|e] eqn:E; [|destruct values; [destruct I0 | discriminate]]. cbn [bind].
  destruct (argmin_spec _ _ E) as (d & Ed & H). rewrite nth_error_map in Ed.
  destruct (nth_error values i) as [vi|] eqn:V; [|discriminate]. injection Ed as <-.
  assert (Hm : forall w, In w values -> (distance vi target <= distance w target)%Qc).
  { intros w Hw. apply In_nth_error in Hw as (j & Ej). destruct (H j (absq (w - target))) as [Hd _]; [rewrite nth_error_map, Ej; reflexivity|].
    rewrite !absq_dist in Hd. exact Hd. }
  assert (il : i < length values) by (apply nth_error_Some; congruence).
  destruct (qc_dec vi target) as [Ti|Ti].
  - exists i, vi. replace (seek_down _ values target (Z.of_nat i)) with (Z.of_nat i).
    2:{ symmetry. rewrite <- (Nat.add_0_r i) at 1. apply seek_down_spec; [lia | eauto | | intros; lia].
        intros j Hj. apply nth_error_Some. lia. }
    rewrite pyindex_nat, V. cbn [bind]. repeat split; auto.
    intros w Hw Tw. specialize (Hm w Hw). unfold distance in Hm. qc_cases; qc_lra.
  - apply In_nth_error in I0 as (j0 & Ej0).
    assert (j0i : j0 < i).
    { destruct (Nat.lt_ge_cases j0 i) as [|G]; [assumption|]. exfalso. pose proof (asc_nth values AS i j0 vi v0 G V Ej0). qc_lra. }
    (* the greatest position at most [i] with a member below the target: the least [n] for [i - n] *)
    destruct (bounded_least (fun n => exists w, nth_error values (i - n) = Some w /\ (w <= target)%Qc)) with (n := i - j0) as (n & (vj & Ej & Tj) & Ln & Mn).
    { intros n. destruct (nth_error values (i - n)) as [w|] eqn:W; [|right; intros (w & X & _); discriminate].
      destruct (qc_dec w target) as [T|T]; [left; eauto|]. right. intros (w' & X & T'). injection X as <-. qc_lra. }
    { replace (i - (i - j0)) with j0 by lia. eauto. }
    set (j := i - n) in *. assert (Hj : j <= i) by lia. assert (EJ : i = j + n) by (unfold j; lia).
    assert (AB : forall k w, j < k -> nth_error values k = Some w -> (target < w)%Qc).
    { intros k w Hk Ek. destruct (Nat.le_gt_cases k i) as [Hki|Hki].
      - destruct (qc_dec w target) as [T|T]; [|exact T]. exfalso. apply (Mn (i - k)); [unfold j in *; lia|].
        replace (i - (i - k)) with k by lia. eauto.
      - pose proof (asc_nth values AS i k vi w (Nat.lt_le_incl _ _ Hki) V Ek). qc_lra. }
    exists j, vj. replace (seek_down _ values target (Z.of_nat i)) with (Z.of_nat j).
    2:{ symmetry. rewrite EJ at 1. apply seek_down_spec; [lia | eauto | |].
        - intros k Hk. apply nth_error_Some. lia.
        - intros k w Hk Ek. apply (AB k w); [lia | exact Ek]. }
    rewrite pyindex_nat, Ej. cbn [bind]. repeat split; auto.
    intros w Hw Tw. apply In_nth_error in Hw as (k & Ek). destruct (Nat.le_gt_cases k j) as [Hk|Hk].
    + eapply asc_nth; eauto.
    + specialize (AB k w Hk Ek). qc_lra.
Qed.
(** no member on the requested side: an end of the list *)
Lemma nearest_lower_none values target : values <> [] -> (forall v, In v values -> (v < target)%Qc) ->
  nearest values target Lower = Ok ((-1)%Z, last values 0%Qc).
Proof.
  intros N B. unfold nearest. destruct (argmin _) as [i|e] eqn:E; [|destruct values; [congruence | discriminate]]. cbn [bind].
  destruct (argmin_spec _ _ E) as (d & Ed & _). assert (il : i < length values).
  { rewrite <- (map_length (fun v => absq (v - target))). apply nth_error_Some. congruence. }
  rewrite (seek_up_end values target (length values - i)); [|lia|lia|intros j w _ Ej; apply B; eapply nth_error_In, Ej].
  destruct (exists_last N) as (l & a & ->). unfold pyindex. rewrite app_length. cbn [length].
  replace ((-1 <? 0)%Z) with true by reflexivity. replace (-1 + Z.of_nat (length l + 1))%Z with (Z.of_nat (length l)) by lia.
  destruct (Z.ltb_spec (Z.of_nat (length l)) 0); [lia|]. rewrite Nat2Z.id, nth_error_app2, Nat.sub_diag by lia. cbn [nth_error bind].
  rewrite last_last. reflexivity.
Qed.
Lemma nearest_upper_none values target : values <> [] -> (forall v, In v values -> (target < v)%Qc) ->
  nearest values target Upper = Ok (0%Z, hd 0%Qc values).
Proof.
  intros N B. unfold nearest. destruct (argmin _) as [i|e] eqn:E; [|destruct values; [congruence | discriminate]]. cbn [bind].
  destruct (argmin_spec _ _ E) as (d & Ed & _). assert (il : i < length values).
  { rewrite <- (map_length (fun v => absq (v - target))). apply nth_error_Some. congruence. }
  rewrite seek_down_end; auto; [|lia|lia]. destruct values as [|a l]; [congruence|]. reflexivity.
Qed.

(** ** ranges *)
Lemma range_up_enum fuel : forall i stop step, (0 < step)%Z -> (Z.to_nat (stop - i) <= fuel) ->
  enumerates (range_up fuel i stop step) i stop step.
Proof.
  induction fuel as [|f IH]; intros i stop step P F; cbn [range_up]; unfold enumerates.
  - rewrite (proj2 (Z.ltb_lt 0 step) P). split; [intros k p E; destruct k; discriminate|]. intros k. cbn [length]. split; [lia|]. intros H. exfalso. assert (0 <= Z.of_nat k * step)%Z by (apply Z.mul_nonneg_nonneg; lia). lia.
  - destruct (Z.ltb_spec i stop) as [L|L].
    + destruct (IH (i + step)%Z stop step P ltac:(lia)) as (E1 & E2). rewrite (proj2 (Z.ltb_lt 0 step) P) in *. split.
      * intros [|k] p E; simpl in E; [injection E as <-; lia|]. apply E1 in E. lia.
      * intros [|k]; cbn [length]; [split; lia|]. specialize (E2 k). rewrite <- Nat.succ_lt_mono, E2, Nat2Z.inj_succ, Z.mul_succ_l. lia.
    + rewrite (proj2 (Z.ltb_lt 0 step) P). split; [intros k p E; destruct k; discriminate|]. intros k. cbn [length]. split; [lia|]. intros H. exfalso. assert (0 <= Z.of_nat k * step)%Z by (apply Z.mul_nonneg_nonneg; lia). lia.
Qed.
Lemma range_list_up i stop step : (0 < step)%Z -> enumerates (range_list i stop step) i stop step.
Proof. intros P. unfold range_list. rewrite (proj2 (Z.ltb_lt 0 step) P). apply range_up_enum; [exact P | lia]. Qed.
Lemma nth_error_same {B} (l : list B) : forall l', (forall k, nth_error l k = nth_error l' k) -> l = l'.
Proof.
  induction l as [|x l IH]; intros [|y l'] H; [reflexivity | specialize (H 0); discriminate | specialize (H 0); discriminate|].
  pose proof (H 0) as H0. injection H0 as ->. f_equal. apply IH. intros k. apply (H (S k)).
Qed.
Lemma enumerates_unique l l' a b st : enumerates l a b st -> enumerates l' a b st -> l = l'.
Proof.
  intros (E1 & E2) (E1' & E2').
  assert (L : forall k : nat, k < length l <-> k < length l') by (intros k; rewrite E2, E2'; reflexivity).
  assert (length l = length l').
  { destruct (Nat.lt_trichotomy (length l) (length l')) as [H|[H|H]]; [apply L in H; lia | exact H | apply L in H; lia]. }
  apply nth_error_same. intros k. destruct (nth_error l k) eqn:A, (nth_error l' k) eqn:B; auto.
  - f_equal. rewrite (E1 _ _ A), (E1' _ _ B). reflexivity.
  - apply nth_error_None in B. assert (k < length l) by (apply nth_error_Some; congruence). lia.
  - apply nth_error_None in A. assert (k < length l') by (apply nth_error_Some; congruence). lia.
Qed.

(** ** Graph *)
Lemma edge_eqb_spec a b : reflect (a = b) (edge_eqb a b).
Proof.
  unfold edge_eqb. destruct a as [a1 a2], b as [b1 b2]. simpl.
  destruct (str_eqb_spec a1 b1) as [->|N1], (str_eqb_spec a2 b2) as [->|N2]; simpl; constructor; congruence.
Qed.
Lemma conn_get_app c d e : conn_get (c ++ d) e = match conn_get c e with Some w => Some w | None => conn_get d e end.
Proof. induction c as [|[e' w] c IH]; simpl; [reflexivity|]. destruct (edge_eqb e' e); auto. Qed.
Lemma conn_add_edge c e w e' : conn_get (add_edge c (e, w)) e' =
  match conn_get c e' with Some w' => Some w' | None => if edge_eqb e e' then Some w else None end.
Proof.
  unfold add_edge. cbn [fst]. destruct (conn_get c e) as [w0|] eqn:E.
  - destruct (conn_get c e') eqn:E'; [reflexivity|]. destruct (edge_eqb_spec e e') as [->|]; [congruence|reflexivity].
  - rewrite conn_get_app. destruct (conn_get c e'); [reflexivity|]. reflexivity.
Qed.
Lemma inverse_involutive w : inverse_weight (inverse_weight w) = w.
Proof.
  destruct w as [q|]; [|reflexivity]. cbn [inverse_weight]. destruct (qc_eqb_spec q 0) as [->|N]; cbn [inverse_weight].
  - rewrite qc_eqb_refl. reflexivity.
  - destruct (qc_eqb_spec (/ q) 0) as [E|E].
    + exfalso. assert ((q * / q)%Qc = 1%Qc) by (apply Qcmult_inv_r, N). rewrite E, Qcmult_0_r in H. discriminate.
    + f_equal. field. repeat split; auto; discriminate.
Qed.
Definition mutually_inverse (c : connections) : Prop :=
  forall a b, a <> b -> conn_get c (b, a) = option_map inverse_weight (conn_get c (a, b)).
Lemma add_connection_inv c x y w : x <> y -> mutually_inverse c -> mutually_inverse (add_connection c x y w).
Proof.
  intros N M a b Nab. unfold add_connection. rewrite !conn_add_edge. rewrite (M a b Nab).
  destruct (conn_get c (a, b)) as [w'|] eqn:E; cbn [option_map]; [reflexivity|].
  destruct (edge_eqb_spec (x, y) (b, a)) as [E1|N1].
  - injection E1 as -> ->. destruct (edge_eqb_spec (b, a) (a, b)) as [X|_]; [congruence|].
    destruct (edge_eqb_spec (a, b) (a, b)) as [_|X]; [|congruence]. cbn [option_map]. rewrite inverse_involutive. reflexivity.
  - destruct (edge_eqb_spec (y, x) (b, a)) as [E2|N2].
    + injection E2 as -> ->. destruct (edge_eqb_spec (a, b) (a, b)) as [_|X]; [|congruence]. reflexivity.
    + destruct (edge_eqb_spec (x, y) (a, b)) as [X|_]; [injection X as -> ->; congruence|].
      destruct (edge_eqb_spec (y, x) (a, b)) as [X|_]; [injection X as -> ->; congruence|]. reflexivity.
Qed.
Lemma build_graph_inv base : (forall e, In e base -> fst (fst e) <> snd (fst e)) -> mutually_inverse (build_graph base).
Proof.
  unfold build_graph. intros NS.
  assert (G : forall c, mutually_inverse c -> mutually_inverse (fold_left (fun c e => add_connection c (fst (fst e)) (snd (fst e)) (snd e)) base c)).
  { induction base as [|e base IH]; intros c M; cbn [fold_left]; [exact M|]. apply IH; [intros e' H; apply NS; right; exact H|].
    apply add_connection_inv; [apply NS; left; reflexivity | exact M]. }
  apply G. intros a b _. reflexivity.
Qed.
(** the weight of the first connection between two nodes, as given *)
Fixpoint first_given (base : list ((node * node) * weight)) (a b : node) : option weight :=
  match base with
  | [] => None
  | ((x, y), w) :: base' =>
      if edge_eqb (x, y) (a, b) then Some w
      else if edge_eqb (y, x) (a, b) then Some (inverse_weight w)
      else first_given base' a b
  end.
Lemma build_graph_first base a b : conn_get (build_graph base) (a, b) = first_given base a b.
Proof.
  unfold build_graph.
  assert (G : forall c, conn_get (fold_left (fun c e => add_connection c (fst (fst e)) (snd (fst e)) (snd e)) base c) (a, b) =
    match conn_get c (a, b) with Some w => Some w | None => first_given base a b end).
  { induction base as [|[[x y] w] base IH]; intros c; cbn [fold_left fst snd]; [destruct conn_get; reflexivity|].
    rewrite IH. unfold add_connection. rewrite !conn_add_edge. destruct (conn_get c (a, b)); [reflexivity|].
    cbn [first_given]. destruct (edge_eqb (x, y) (a, b)); [reflexivity|]. destruct (edge_eqb (y, x) (a, b)); reflexivity. }
  apply G.
Qed.
Lemma conn_get_in c a b : (exists w, conn_get c (a, b) = Some w) <-> In (a, b) (map fst c).
Proof.
  induction c as [|[e w] c IH]; simpl; [split; [intros (w & H); discriminate | intros []]|].
  destruct (edge_eqb_spec e (a, b)) as [->|N]; [split; eauto|]. rewrite IH. split; [auto | intros [H|H]; [contradiction | exact H]].
Qed.
Lemma str_decides : decides str_eqb.
Proof. intros x y. apply str_eqb_eq. Qed.
Lemma adjacent_iff c a b : In b (map fst (get_adjacencies c a)) <-> In (a, b) (map fst c).
Proof.
  unfold get_adjacencies. split.
  - destruct mem; [|intros []]. intros H. rewrite map_map in H. cbn [fst] in H. apply in_map_iff in H as (((x & y) & w) & E & H).
    cbn in E. subst. apply filter_In in H as [H E]. cbn in E. apply str_eqb_eq in E. subst. apply (in_map fst) in H. exact H.
  - intros H. pose proof H as H0. apply in_map_iff in H as (((x & y) & w) & E & H). cbn in E. injection E as -> ->.
    rewrite (proj2 (mem_spec str_eqb str_decides a (nodes c))).
    + rewrite map_map. apply in_map_iff. exists ((a, b), w). split; [reflexivity|]. apply filter_In. split; [exact H | apply str_eqb_refl].
    + unfold nodes. apply in_flat_map. exists ((a, b), w). split; [exact H | left; reflexivity].
Qed.

(** ** Bijection *)
Section Bij.
Context {K V : Type} (keqb : K -> K -> bool) (veqb : V -> V -> bool) (kd : decides keqb) (vd : decides veqb).
Lemma lookup_in (m : list (K * V)) k v : NoDup (map fst m) -> (lookup keqb m k = Ok v <-> In (k, v) m).
Proof using kd.
  induction m as [|[k' v'] m IH]; simpl; intros ND; [split; [discriminate | intros []]|].
  inversion ND as [|? ? N ND']; subst. destruct (keqb k' k) eqn:E.
  - apply kd in E. subst. split; [intros H; injection H as ->; auto|]. intros [H|H]; [congruence|].
    exfalso. apply N. apply (in_map fst) in H. exact H.
  - rewrite IH by exact ND'. split; [auto|]. intros [H|H]; [|exact H]. injection H as -> ->.
    rewrite (proj2 (kd k k) eq_refl) in E. discriminate.
Qed.
Lemma lookup_missing (m : list (K * V)) k e : lookup keqb m k = Raise e <-> e = KeyError /\ ~ In k (map fst m).
Proof using kd.
  induction m as [|[k' v'] m IH]; simpl; [split; [intros H; injection H as <-; auto | intros [-> _]; reflexivity]|].
  destruct (keqb k' k) eqn:E; [apply kd in E; subst; split; [discriminate | intros [_ H]; exfalso; auto]|].
  rewrite IH. split; intros [H1 H2]; split; auto. intros [->|H]; [|auto]. rewrite (proj2 (kd k k) eq_refl) in E. discriminate.
Qed.
Lemma bijection_ok (m r : list (K * V)) : bijection veqb m = Ok r -> r = m /\ NoDup (map snd m).
Proof using vd.
  unfold bijection, count_distinct. destruct (Nat.ltb_spec (length (unique_items veqb (map snd m))) (length m)) as [|G]; [discriminate|].
  destruct (Nat.eqb_spec (length m) (length (unique_items veqb (map snd m)))) as [E|]; cbn [negb]; [|discriminate].
  intros H. injection H as <-. split; [reflexivity|]. apply (unique_length veqb vd). rewrite map_length. auto.
Qed.
Lemma bijection_nodup (m : list (K * V)) : NoDup (map snd m) -> bijection veqb m = Ok m.
Proof using vd.
  intros ND. apply (unique_length veqb vd) in ND. unfold bijection, count_distinct. rewrite ND, map_length, Nat.ltb_irrefl, Nat.eqb_refl. reflexivity.
Qed.
Lemma bijection_rejects (m : list (K * V)) : ~ NoDup (map snd m) -> bijection veqb m = Raise (OtherError "InjectiveTypeError").
Proof using vd.
  intros ND. unfold bijection, count_distinct.
  destruct (Nat.ltb_spec (length (unique_items veqb (map snd m))) (length m)) as [|G]; [reflexivity|].
  exfalso. apply ND, (unique_length veqb vd). apply Nat.le_antisymm; [|rewrite map_length; exact G].
  destruct (unique_items_spec veqb vd (map snd m)) as (_ & _ & S). apply subseq_length, S.
Qed.
Lemma dict_put_new (m : list (K * V)) k v : ~ In k (map fst m) -> dict_put keqb m k v = m ++ [(k, v)].
Proof using kd.
  induction m as [|[k' v'] m IH]; simpl; intros N; [reflexivity|]. destruct (keqb k' k) eqn:E.
  - apply kd in E. subst. exfalso. apply N. left. reflexivity.
  - rewrite IH; [reflexivity|]. auto.
Qed.
Lemma dict_of_nodup (l : list (K * V)) : NoDup (map fst l) -> dict_of keqb l = l.
Proof using kd.
  unfold dict_of. assert (G : forall d, NoDup (map fst (d ++ l)) -> fold_left (fun d kv => dict_put keqb d (fst kv) (snd kv)) l d = d ++ l).
  { induction l as [|[k v] l IH]; intros d ND; cbn [fold_left fst snd]; [rewrite app_nil_r; reflexivity|].
    rewrite dict_put_new.
    - rewrite IH; [rewrite <- app_assoc; reflexivity | rewrite <- app_assoc; exact ND].
    - rewrite map_app in ND. apply NoDup_remove_2 in ND. intros H. apply ND, in_app_iff. auto. }
  exact (G []).
Qed.
Lemma dict_put_get (m : list (K * V)) k v k' : lookup keqb (dict_put keqb m k v) k' = if keqb k k' then Ok v else lookup keqb m k'.
Proof using kd.
  induction m as [|[h w] m IH]; simpl; [reflexivity|]. destruct (keqb h k) eqn:E; simpl.
  - apply kd in E. subst. destruct (keqb k k'); reflexivity.
  - rewrite IH. destruct (keqb h k') eqn:F; [|reflexivity]. destruct (keqb k k') eqn:G; [|reflexivity].
    apply kd in F. apply kd in G. subst. rewrite (proj2 (kd k' k') eq_refl) in E. discriminate.
Qed.
Lemma dict_put_keys (m : list (K * V)) k v x : In x (map fst (dict_put keqb m k v)) <-> In x (map fst m) \/ x = k.
Proof using kd.
  induction m as [|[h w] m IH]; simpl; [intuition|]. destruct (keqb h k) eqn:E; simpl.
  - apply kd in E. subst. intuition.
  - rewrite IH. intuition.
Qed.
End Bij.
Lemma invert_ok {K V} keqb veqb (kd : @decides K keqb) (vd : @decides V veqb) m :
  NoDup (map fst m) -> NoDup (map snd m) -> invert keqb veqb m = Ok (map (fun kv => (snd kv, fst kv)) m).
Proof.
  intros NK NV. unfold invert. rewrite (dict_of_nodup veqb vd).
  - apply (bijection_nodup keqb kd). rewrite map_map. exact NK.
  - rewrite map_map. exact NV.
Qed.

(** ** Table *)
Section Tables.
Context {V : Type} (veqb : V -> V -> bool) (vd : decides veqb).
Lemma filter_more {B C} (f : B -> C -> bool) kv pre l :
  filter (fun x => forallb (fun k => f k x) pre) (filter (f kv) l) = filter (fun x => f kv x && forallb (fun k => f k x) pre) l.
Proof. induction l as [|x l IH]; [reflexivity|]. cbn [filter]. destruct (f kv x) eqn:E; cbn [filter andb]; rewrite IH; reflexivity. Qed.
Lemma call_strict_from (t : list (row V)) total : forall request n subset r,
  table_call_from veqb t true total n subset request = Ok r ->
  filter (fun x => forallb (fun kv => row_matches veqb kv x) request) subset = [r] /\
  forall kv x, In kv request -> In x t -> has_key x (fst kv) = true.
Proof using Type.
  induction request as [|kv request IH]; intros n subset r; cbn [table_call_from].
  - destruct subset as [|x [|y l]]; try discriminate. intros H. injection H as ->. split; [reflexivity | intros kv x []].
  - unfold is_common. destruct t as [|x0 t0]; [discriminate|]. cbn [bind]. destruct forallb eqn:F; cbn [negb]; [|discriminate].
    intros H. apply IH in H as [H1 H2]. split.
    + rewrite <- H1, filter_more. reflexivity.
    + intros kv' x [<-|Hk] Hx; [|eapply H2; eauto]. rewrite forallb_forall in F. apply F, Hx.
Qed.
Lemma call_strict_complete (t : list (row V)) total : forall request n subset r, t <> [] ->
  (forall kv x, In kv request -> In x t -> has_key x (fst kv) = true) ->
  filter (fun x => forallb (fun kv => row_matches veqb kv x) request) subset = [r] ->
  table_call_from veqb t true total n subset request = Ok r.
Proof using Type.
  induction request as [|kv request IH]; intros n subset r NE HK H; cbn [table_call_from].
  - assert (E : filter (fun _ : row V => true) subset = subset) by (clear; induction subset; simpl; congruence).
    cbn [forallb] in H. rewrite E in H. subst. reflexivity.
  - unfold is_common. destruct t as [|x0 t0]; [congruence|]. cbn [bind].
    rewrite (proj2 (forallb_forall _ _)); [cbn [negb]|intros x Hx; apply (HK kv x); [left; reflexivity | exact Hx]].
    apply IH; [discriminate | intros kv' x Hk; apply HK; right; exact Hk|]. rewrite <- H, filter_more. reflexivity.
Qed.
Lemma call_loose_from (t : list (row V)) total : forall request n subset r,
  table_call_from veqb t false total n subset request = Ok r ->
  exists pre post, request = pre ++ post /\ pre <> [] /\
    filter (fun x => forallb (fun kv => row_matches veqb kv x) pre) subset = [r].
Proof using Type.
  induction request as [|kv request IH]; intros n subset r; cbn [table_call_from]; [discriminate|].
  destruct (is_common t (fst kv)) as [[|]|]; cbn [bind negb]; try discriminate.
  destruct (_ && _); [discriminate|].
  assert (FF : forall pre l, filter (fun x => forallb (fun kv => row_matches veqb kv x) pre) (filter (row_matches veqb kv) l) =
               filter (fun x => forallb (fun kv => row_matches veqb kv x) (kv :: pre)) l).
  { intros pre l. rewrite filter_more. reflexivity. }
  destruct (filter (row_matches veqb kv) subset) as [|x [|y l]] eqn:F.
  - intros H. apply IH in H as (pre & post & -> & N & H). exists (kv :: pre), post. split; [reflexivity|]. split; [discriminate|].
    rewrite <- FF, F. exact H.
  - intros H. injection H as ->. exists [kv], request. split; [reflexivity|]. split; [discriminate|].
    rewrite <- F. apply filter_ext. intros z. cbn [forallb]. apply andb_true_r.
  - intros H. apply IH in H as (pre & post & -> & N & H). exists (kv :: pre), post. split; [reflexivity|]. split; [discriminate|].
    rewrite <- FF, F. exact H.
Qed.
End Tables.

(** ** nested lists *)
Lemma unwrap_not_single {A} (x : nested A) : forall y, unwrap x <> Nest [y].
Proof.
  revert x. fix IH 1. intros [a|t|[|y [|z l]]] w; cbn [unwrap]; try discriminate. apply IH.
Qed.
Lemma unwrap_idem {A} (x : nested A) : unwrap (unwrap x) = unwrap x.
Proof. pose proof (unwrap_not_single x) as N. destruct (unwrap x) as [a|t|[|y [|z l]]]; try reflexivity. exfalso. exact (N y eq_refl). Qed.
