From Verif Require Import PyBase PyLemmas ContainerModel ContainerSpec ContainerProofs ContainerProofs2 Nd IndexModel IndexSpec IndexProofs IndexProofs2 SymbolicTotal.
From Coq Require Import Sorted.
#[local] Open Scope nat_scope.

Lemma row_bounds row t n : 0 < n -> length row = n -> strictly_ascending row ->
  exists lo hi, find_1d row t = (Z.of_nat lo, Z.of_nat hi) /\ lo <= hi < n /\ brackets [row] [t] lo hi /\ tight [row] [t] lo hi.
Proof.
  intros N L S. assert (NE : row <> []) by (intros ->; simpl in L; lia).
  destruct (find_1d_spec row t NE) as (lo & hi & E & L1 & L2 & A & B & C & D). exists lo, hi. split; [exact E|].
  assert (T1 : forall k v, lo < k -> nth_error row k = Some v -> (t < v)%Qc).
  { intros k v Lk Ek. destruct (qc_dec v t) as [Q|Q]; [|exact Q]. destruct (A _ _ Ek Q). lia. }
  assert (T2 : forall k v, k < hi -> nth_error row k = Some v -> (v < t)%Qc).
  { intros k v Lk Ek. destruct (qc_dec t v) as [Q|Q]; [|exact Q]. destruct (B _ _ Ek Q). lia. }
  split.
  - split; [|lia]. destruct (Nat.le_gt_cases lo hi) as [|G]; [assumption|exfalso].
    destruct (nth_error row lo) as [w|] eqn:Ew; [|apply nth_error_None in Ew; lia].
    destruct (nth_error row hi) as [u|] eqn:Eu; [|apply nth_error_None in Eu; lia].
    pose proof (strict_nth _ S _ _ _ _ G Eu Ew) as Q.
    destruct (qc_dec u t) as [Q1|Q1].
    + destruct (qc_dec t u) as [Q2|Q2].
      * (* u = t < w: then lo is not a position below t *)
        destruct (A _ _ Eu Q1) as (_ & w' & Ew' & Qw). injection Ew' as <-.
        apply (Qcle_not_lt _ _ Qw). apply (Qcle_lt_trans _ u); assumption.
      * (* u < t: hi is the last position *)
        assert (hi = length row - 1); [|lia]. apply D. intros k v Ek Qv. destruct (B _ _ Ek Qv) as (_ & w' & Ew' & Qw). injection Ew' as <-.
        exact (Qclt_not_le _ _ Q2 Qw).
    + (* t < u: hence t < w; lo would be 0 *)
      assert (lo = 0); [|lia]. apply C. intros k v Ek Qv. destruct (A _ _ Ek Qv) as (_ & w' & Ew' & Qw). injection Ew' as <-.
      apply (Qcle_not_lt _ _ Qw). apply (Qclt_trans _ u); assumption.
  - split.
    + intros r t' [<-|[]] [<-|[]]. split; intros (v & I & Q); apply In_nth_error in I as (k & K).
      * destruct (A _ _ K Q) as (_ & H). exact H.
      * destruct (B _ _ K Q) as (_ & H). exact H.
    + split; exists row, t; simpl; auto.
Qed.

(** widening keeps the brackets of ascending rows *)
Lemma brackets_widen rows ts n lo hi lo' hi' : (forall row, In row rows -> length row = n /\ strictly_ascending row) ->
  lo' <= lo -> hi <= hi' < n -> brackets rows ts lo hi -> brackets rows ts lo' hi'.
Proof.
  intros G L1 L2 B row t Ir It. destruct (G _ Ir) as (Ln & S). destruct (B row t Ir It) as (B1 & B2). split; intros H.
  - destruct (B1 H) as (w & E & Q). assert (lo < length row) by (apply nth_error_Some; congruence).
    destruct (nth_error row lo') as [u|] eqn:Eu; [|apply nth_error_None in Eu; lia]. exists u. split; [reflexivity|].
    destruct (Nat.eq_dec lo' lo) as [->|N]; [congruence|]. apply (Qcle_trans _ w); [|exact Q]. apply Qclt_le_weak.
    apply (strict_nth _ S lo' lo); (assumption || lia).
  - destruct (B2 H) as (w & E & Q).
    destruct (nth_error row hi') as [u|] eqn:Eu; [|apply nth_error_None in Eu; lia]. exists u. split; [reflexivity|].
    destruct (Nat.eq_dec hi' hi) as [->|N]; [congruence|]. apply (Qcle_trans _ w); [exact Q|]. apply Qclt_le_weak.
    apply (strict_nth _ S hi hi'); (assumption || lia).
Qed.
Lemma brackets_app rows1 rows2 ts lo hi : brackets rows1 ts lo hi -> brackets rows2 ts lo hi -> brackets (rows1 ++ rows2) ts lo hi.
Proof. intros A B row t I It. apply in_app_or in I as [I|I]; [apply A|apply B]; assumption. Qed.
Lemma brackets_targets rows ts us lo hi : brackets rows ts lo hi -> brackets rows us lo hi -> brackets rows (ts ++ us) lo hi.
Proof. intros A B row t I It. apply in_app_or in It as [It|It]; [apply A|apply B]; assumption. Qed.
Lemma tight_combine rows1 rows2 ts us lo1 hi1 lo2 hi2 : tight rows1 ts lo1 hi1 -> tight rows2 us lo2 hi2 ->
  forall rows vs, (forall r, In r rows1 \/ In r rows2 -> In r rows) -> (forall t, In t ts \/ In t us -> In t vs) ->
  tight rows vs (Nat.min lo1 lo2) (Nat.max hi1 hi2).
Proof.
  intros ((r1 & t1 & A1 & A2 & A3) & (r1' & t1' & B1 & B2 & B3)) ((r2 & t2 & C1 & C2 & C3) & (r2' & t2' & D1 & D2 & D3)) rows vs Hr Hv.
  split.
  - destruct (Nat.min_spec lo1 lo2) as [(_ & ->)|(_ & ->)]; [exists r1, t1|exists r2, t2]; auto.
  - destruct (Nat.max_spec hi1 hi2) as [(_ & ->)|(_ & ->)]; [exists r2', t2'|exists r1', t1']; auto.
Qed.

Lemma rows_bounds n t : 0 < n -> forall rest lo hi done, done <> [] ->
  (forall row, In row (done ++ rest) -> length row = n /\ strictly_ascending row) ->
  lo <= hi < n -> brackets done [t] lo hi -> tight done [t] lo hi ->
  exists lo' hi',
    fold_left (fun m x => Z.min m (fst x)) (map (fun r => find_1d r t) rest) (Z.of_nat lo) = Z.of_nat lo' /\
    fold_left (fun m x => Z.max m (snd x)) (map (fun r => find_1d r t) rest) (Z.of_nat hi) = Z.of_nat hi' /\
    lo' <= hi' < n /\ brackets (done ++ rest) [t] lo' hi' /\ tight (done ++ rest) [t] lo' hi'.
Proof.
  intros N. induction rest as [|row rest IH]; intros lo hi done NE G LH B T.
  - exists lo, hi. rewrite app_nil_r. simpl. auto.
  - destruct (G row) as (Ln & S); [apply in_or_app; simpl; auto|].
    destruct (row_bounds row t n N Ln S) as (lo1 & hi1 & E & LH1 & B1 & T1).
    destruct (IH (Nat.min lo lo1) (Nat.max hi hi1) (done ++ [row])) as (lo' & hi' & E1 & E2 & L & B' & T').
    + destruct done; discriminate.
    + intros r I. apply G. rewrite <- app_assoc in I. exact I.
    + lia.
    + apply brackets_app; eapply (brackets_widen _ _ n); try eassumption; try lia.
      * intros r I. apply G. apply in_or_app. auto.
      * intros r [<-|[]]. auto.
    + eapply tight_combine; [exact T|exact T1| |]; intros x; rewrite ?in_app_iff; simpl; tauto.
    + exists lo', hi'. cbn [map fold_left]. rewrite E. cbn [fst snd].
      rewrite <- Nat2Z.inj_min, <- Nat2Z.inj_max. rewrite <- app_assoc in B', T'. auto.
Qed.
Lemma compute_bounds_spec g t n : proper_grid g n ->
  exists lo hi, compute_bounds g t = Ok (Z.of_nat lo, Z.of_nat hi) /\ lo <= hi < n /\
    brackets (grid_rows g) [t] lo hi /\ tight (grid_rows g) [t] lo hi.
Proof.
  intros (N & NE & G). destruct g as [l|rows]; cbn [grid_rows compute_bounds] in *.
  - destruct (G l (or_introl eq_refl)) as (Ln & S). destruct (row_bounds l t n N Ln S) as (lo & hi & E & H). exists lo, hi. rewrite E. auto.
  - destruct rows as [|row rows]; [congruence|]. destruct (G row (or_introl eq_refl)) as (Ln & S).
    destruct (row_bounds row t n N Ln S) as (lo & hi & E & LH & B & T).
    destruct (rows_bounds n t N rows lo hi [row]) as (lo' & hi' & E1 & E2 & L & B' & T'); try assumption; [discriminate|].
    exists lo', hi'. cbn [map]. rewrite E. cbn [fst snd]. rewrite E1, E2. auto.
Qed.
Lemma bounds_loop_spec g n : proper_grid g n -> forall ts done lo hi, done <> [] ->
  lo <= hi < n -> brackets (grid_rows g) done lo hi -> tight (grid_rows g) done lo hi ->
  exists lo' hi', bounds_loop g (Z.of_nat lo) (Z.of_nat hi) ts = Ok (Z.of_nat lo', Z.of_nat hi') /\ lo' <= hi' < n /\
    brackets (grid_rows g) (done ++ ts) lo' hi' /\ tight (grid_rows g) (done ++ ts) lo' hi'.
Proof.
  intros P. induction ts as [|t ts IH]; intros done lo hi NE LH B T.
  - exists lo, hi. rewrite app_nil_r. simpl. auto.
  - destruct (compute_bounds_spec g t n P) as (lo1 & hi1 & E & LH1 & B1 & T1).
    destruct (IH (done ++ [t]) (Nat.min lo lo1) (Nat.max hi hi1)) as (lo' & hi' & E' & L & B' & T').
    + destruct done; discriminate.
    + lia.
    + apply brackets_targets; eapply (brackets_widen _ _ n); try eassumption; try lia; apply P.
    + eapply tight_combine; [exact T|exact T1| |]; intros x; rewrite ?in_app_iff; simpl; tauto.
    + exists lo', hi'. cbn [bounds_loop]. rewrite E. cbn [bind fst snd]. rewrite <- Nat2Z.inj_min, <- Nat2Z.inj_max.
      rewrite <- app_assoc in B', T'. auto.
Qed.
Lemma range_list_seq lo hi : lo <= hi -> range_list (Z.of_nat lo) (Z.of_nat hi + 1) 1 = map Z.of_nat (seq lo (hi + 1 - lo)).
Proof.
  intros L. apply nth_error_same. intros k.
  destruct (range_list_enum (Z.of_nat lo) (Z.of_nat hi + 1) 1 ltac:(lia)) as (N & K). simpl in K. specialize (K k).
  destruct (nth_error (range_list (Z.of_nat lo) (Z.of_nat hi + 1) 1) k) as [z|] eqn:E.
  - pose proof (N _ _ E) as ->. assert (k < length (range_list (Z.of_nat lo) (Z.of_nat hi + 1) 1)) by (apply nth_error_Some; congruence).
    apply K in H. symmetry. rewrite (map_nth_error Z.of_nat k (seq lo (hi + 1 - lo)) (d := lo + k)); [f_equal; lia|].
    rewrite (nth_error_nth' _ 0) by (rewrite seq_length; lia). rewrite seq_nth by lia. reflexivity.
  - apply nth_error_None in E. symmetry. apply nth_error_None. rewrite map_length, seq_length.
    destruct (Nat.le_gt_cases (hi + 1 - lo) k) as [H|H]; [exact H|]. exfalso. assert (k < length (range_list (Z.of_nat lo) (Z.of_nat hi + 1) 1)) by (apply K; lia). lia.
Qed.
Lemma restrict_spec g targets n : proper_grid g n -> targets <> [] ->
  exists lo hi, restrict g targets = Ok (map Z.of_nat (seq lo (hi + 1 - lo))) /\ lo <= hi < n /\
    brackets (grid_rows g) targets lo hi /\ tight (grid_rows g) targets lo hi.
Proof.
  intros P NE. destruct targets as [|t ts]; [congruence|].
  destruct (compute_bounds_spec g t n P) as (lo1 & hi1 & E & LH1 & B1 & T1).
  destruct (bounds_loop_spec g n P ts [t] lo1 hi1) as (lo & hi & E' & LH & B & T); try assumption; [discriminate|].
  exists lo, hi. unfold restrict. rewrite E. cbn [bind fst snd]. rewrite E'. cbn [bind fst snd]. rewrite range_list_seq by lia. auto.
Qed.
(** a single target is enclosed by one or two neighbouring positions *)
Lemma restrict_one l t n : proper_grid (G1 l) n -> exists k, (restrict (G1 l) [t] = Ok [Z.of_nat k] \/ restrict (G1 l) [t] = Ok [Z.of_nat k; Z.of_nat (S k)]).
Proof.
  intros P. destruct (restrict_spec (G1 l) [t] n P) as (lo & hi & E & LH & B & T); [discriminate|]. exists lo. rewrite E.
  assert (H : hi <= lo + 1).
  { destruct T as ((r1 & t1 & [<-|[]] & [<-|[]] & T1) & (r2 & t2 & [<-|[]] & [<-|[]] & T2)).
    destruct (Nat.le_gt_cases hi (lo + 1)) as [|G]; [assumption|exfalso]. destruct P as (_ & _ & P). destruct (P l (or_introl eq_refl)) as (Ln & _).
    destruct (nth_error l (lo + 1)) as [w|] eqn:Ew; [|apply nth_error_None in Ew; lia].
    apply (Qclt_not_le _ _ (T1 (lo + 1) w ltac:(lia) Ew)). apply Qclt_le_weak. apply (T2 (lo + 1) w ltac:(lia) Ew). }
  destruct (Nat.eq_dec hi lo) as [->|].
  - left. replace (lo + 1 - lo) with 1 by lia. reflexivity.
  - right. replace (hi + 1 - lo) with 2 by lia. reflexivity.
Qed.
