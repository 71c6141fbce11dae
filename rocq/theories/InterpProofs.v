(** * Proofs about interpolation *)
From Verif Require Import PyBase PyLemmas ContainerModel ContainerSpec ContainerProofs ContainerProofs2 ContainerProperties AxisModel AxisSpec AxisProofs InterpModel InterpSpec.
From Coq Require Import Permutation Sorting.Sorted.

Definition ple (p q : Qc * Qc) : Prop := (fst p <= fst q)%Qc.
Lemma insert_perm p l : Permutation (insert_pair p l) (p :: l).
Proof.
  induction l as [|q l IH]; cbn [insert_pair]; [reflexivity|]. destruct (qc_leb (fst p) (fst q)); [reflexivity|]. rewrite IH. apply perm_swap.
Qed.
Lemma insert_sorted p l : StronglySorted ple l -> StronglySorted ple (insert_pair p l).
Proof.
  induction 1 as [|q l S IH F]; cbn [insert_pair]; [repeat constructor|]. destruct (qc_leb_spec (fst p) (fst q)) as [H|H].
  - constructor; [constructor; assumption|]. constructor; [exact H|]. apply Forall_forall. intros r Hr. rewrite Forall_forall in F. exact (Qcle_trans _ _ _ H (F r Hr)).
  - constructor; [exact IH|]. apply Forall_forall. intros r Hr. apply (Permutation_in _ (insert_perm p l)) in Hr. destruct Hr as [<-|Hr].
    + apply Qclt_le_weak, Qcnot_le_lt, H.
    + rewrite Forall_forall in F. apply F, Hr.
Qed.
Lemma sort_perm l : Permutation (sort_pairs l) l.
Proof. induction l as [|p l IH]; [reflexivity|]. cbn [sort_pairs fold_right]. fold (sort_pairs l). rewrite insert_perm, IH. reflexivity. Qed.
Lemma sort_sorted l : StronglySorted ple (sort_pairs l).
Proof. induction l as [|p l IH]; [constructor|]. cbn [sort_pairs fold_right]. fold (sort_pairs l). apply insert_sorted, IH. Qed.

(** the segment that holds the target *)
Definition neighbours (l : list (Qc * Qc)) (t : Qc) (q q' : Qc * Qc) : Prop :=
  In q l /\ In q' l /\ (fst q < t)%Qc /\ (t <= fst q')%Qc /\ forall w, In w l -> (fst w <= fst q)%Qc \/ (fst q' <= fst w)%Qc.
Lemma segment_spec t : forall l p, StronglySorted ple (p :: l) -> (fst p < t)%Qc ->
  (exists w, In w l /\ (t <= fst w)%Qc) -> exists q q', neighbours (p :: l) t q q' /\ segment p l t = Ok (line q q' t).
Proof.
  induction l as [|q l IH]; intros p S Hp (w & Hw & Lw); [destruct Hw|]. inversion S as [|? ? S' F]; subst.
  destruct (qc_leb_spec t (fst q)) as [H|H].
  - exists p, q. split.
    + repeat split; [left; reflexivity|right; left; reflexivity|exact Hp|exact H|]. intros r [<-|Hr]; [left; apply Qcle_refl|]. right.
      destruct Hr as [<-|Hr]; [apply Qcle_refl|]. inversion S' as [|? ? _ F']; subst. rewrite Forall_forall in F'. apply F', Hr.
    + cbn [segment]. destruct (qc_leb_spec t (fst q)) as [_|X]; [|contradiction]. destruct l; reflexivity.
  - assert (Hq : (fst q < t)%Qc) by (apply Qcnot_le_lt, H).
    destruct (IH q S' Hq) as (a & b & (N1 & N2 & N3 & N4 & N5) & E).
    { destruct Hw as [<-|Hw]; [contradiction|]. exists w. auto. }
    exists a, b. split.
    + repeat split; [right; exact N1|right; exact N2|exact N3|exact N4|]. intros r [<-|Hr]; [|apply N5, Hr]. left. rewrite Forall_forall in F. apply F, N1.
    + cbn [segment]. destruct (qc_leb_spec t (fst q)) as [X|_]; [contradiction|]. destruct l as [|r l]; [|exact E]. exfalso. destruct Hw as [<-|[]]. contradiction.
Qed.
Lemma segment_none t : forall l p, (forall w, In w l -> (fst w < t)%Qc) -> segment p l t = Raise ValueError.
Proof.
  induction l as [|q l IH]; intros p H; [reflexivity|]. cbn [segment]. assert (Hq := H q (or_introl eq_refl)).
  destruct (qc_leb_spec t (fst q)) as [X|_]; [exfalso; exact (Qclt_not_le _ _ Hq X)|]. destruct l; [reflexivity|]. apply IH. intros w Hw. apply H. right. exact Hw.
Qed.
Lemma in_combine_nth (x y : list Qc) a c : In (a, c) (combine x y) <-> exists i, nth_error x i = Some a /\ nth_error y i = Some c.
Proof.
  revert y. induction x as [|u x IH]; intros y.
  - split; [intros []|]. intros ([|i] & H & _); discriminate.
  - destruct y as [|w y]; [split; [intros []|]; intros ([|i] & _ & H); discriminate|]. cbn [combine]. split.
    + intros [[= -> ->]|H]; [exists 0; split; reflexivity|]. apply IH in H as (i & H). exists (S i). exact H.
    + intros ([|i] & H1 & H2); [injection H1 as ->; injection H2 as ->; left; reflexivity|]. right. apply IH. exists i. auto.
Qed.
Lemma combine_fst (x y : list Qc) a : length x = length y -> In a x -> exists c, In (a, c) (combine x y).
Proof.
  intros L H. apply In_nth_error in H as (i & H). assert (I : i < length y) by (rewrite <- L; apply nth_error_Some; congruence).
  destruct (nth_error y i) as [c|] eqn:E; [|apply nth_error_None in E; lia]. exists c. apply in_combine_nth. eauto.
Qed.
Lemma combine_in_fst (x y : list Qc) p : In p (combine x y) -> In (fst p) x.
Proof. destruct p as [a c]. intros H. exact (in_combine_l _ _ _ _ H). Qed.
Lemma line_value q q' t : (line q q' t = snd q + (snd q' - snd q) * ((t - fst q) / (fst q' - fst q)))%Qc.
Proof. unfold line. unfold Qcdiv. ring. Qed.

(** ** interp1d: off the nodes *)
Lemma interp1d_spec x y t : length x = length y -> ~ In t x -> spanned x t -> exists v, interp1d x y t = Ok v /\ interpolates x y t v.
Proof.
  intros L Nt ((a & Ha & La) & (b & Hb & Lb)). unfold interp1d. rewrite L, Nat.eqb_refl. cbn [negb].
  pose proof (sort_perm (combine x y)) as Pm. pose proof (sort_sorted (combine x y)) as So.
  destruct (combine_fst x y a L Ha) as (ca & Ia). destruct (combine_fst x y b L Hb) as (cb & Ib).
  destruct (sort_pairs (combine x y)) as [|p l]; [apply Permutation_nil in Pm; rewrite Pm in Ia; destruct Ia|].
  assert (IN : forall w, In w (p :: l) <-> In w (combine x y)) by (intros w; split; apply Permutation_in; [exact Pm|symmetry; exact Pm]).
  assert (NE : forall w, In w (p :: l) -> fst w <> t) by (intros w Hw E; apply Nt; rewrite <- E; apply combine_in_fst with (y := y), IN, Hw).
  assert (Hp : (fst p < t)%Qc).
  { apply IN in Ia. assert (fst p <= t)%Qc as Le.
    { destruct Ia as [->|Ia]; [exact La|]. inversion So as [|? ? _ F]; subst. rewrite Forall_forall in F. exact (Qcle_trans _ _ _ (F _ Ia) La). }
    destruct (Qcle_lt_or_eq _ _ Le) as [X|X]; [exact X|]. exfalso. exact (NE p (or_introl eq_refl) X). }
  destruct (qc_ltb_spec t (fst p)) as [X|_]; [exfalso; exact (Qclt_not_le _ _ X (Qclt_le_weak _ _ Hp))|].
  destruct (segment_spec t l p So Hp) as (q & q' & (N1 & N2 & N3 & N4 & N5) & ->).
  { apply IN in Ib. destruct Ib as [E|Ib]; [subst p; exfalso; exact (Qclt_not_le _ _ Hp Lb)|]. exists (b, cb). auto. }
  eexists. split; [reflexivity|]. right. destruct q as [q1 c1], q' as [q2 c2]. cbn [fst snd] in *.
  apply IN, in_combine_nth in N1 as (i & Hi & Hi'). pose proof (NE _ N2) as Ne. apply IN, in_combine_nth in N2 as (j & Hj & Hj').
  exists i, j, q1, q2, c1, c2. repeat (split; [assumption|]). split; [|split].
  - destruct (Qcle_lt_or_eq _ _ N4) as [X|X]; [exact X|]. exfalso. apply Ne. cbn [fst]. symmetry. exact X.
  - intros w Hw. destruct (combine_fst x y w L Hw) as (cw & Iw). apply IN in Iw. exact (N5 _ Iw).
  - apply line_value.
Qed.
Lemma interp1d_outside x y t : ~ spanned x t -> interp1d x y t = Raise ValueError.
Proof.
  intros Ns. unfold interp1d. destruct (Nat.eqb_spec (length x) (length y)) as [L|]; [|reflexivity]. cbn [negb].
  pose proof (sort_perm (combine x y)) as Pm. pose proof (sort_sorted (combine x y)) as So. destruct (sort_pairs (combine x y)) as [|p l]; [reflexivity|].
  assert (IN : forall w, In w (p :: l) -> In (fst w) x) by (intros w Hw; apply combine_in_fst with (y := y), (Permutation_in _ Pm), Hw).
  destruct (qc_ltb_spec t (fst p)) as [X|X]; [reflexivity|]. apply segment_none. intros w Hw. apply Qcnot_le_lt. intros Le. apply Ns. split.
  - exists (fst p). split; [apply IN; left; reflexivity|apply Qcnot_lt_le, X].
  - exists (fst w). split; [apply IN; right; exact Hw|exact Le].
Qed.
Lemma interp1d_lengths x y t : length x <> length y -> interp1d x y t = Raise ValueError.
Proof. intros H. unfold interp1d. destruct (Nat.eqb_spec (length x) (length y)); [contradiction|reflexivity]. Qed.

(** ** Uniqueness and consequences of the specification *)
Lemma nodup_nth {A} (x : list A) i j a : NoDup x -> nth_error x i = Some a -> nth_error x j = Some a -> i = j.
Proof. intros N Hi Hj. apply (proj1 (NoDup_nth_error x) N); [apply nth_error_Some; congruence|congruence]. Qed.
Lemma interpolates_unique x y t v v' : NoDup x -> interpolates x y t v -> interpolates x y t v' -> v = v'.
Proof.
  intros N [(i & H1 & H2)|(i & j & a & b & c & d & Xi & Yi & Xj & Yj & At & Tb & G & ->)] [(i' & H1' & H2')|(i' & j' & a' & b' & c' & d' & Xi' & Yi' & Xj' & Yj' & At' & Tb' & G' & ->)].
  - rewrite (nodup_nth x i i' t N H1 H1') in H2. congruence.
  - exfalso. destruct (G' t (nth_error_In _ _ H1)) as [L|L]; [exact (Qclt_not_le _ _ At' L)|exact (Qclt_not_le _ _ Tb' L)].
  - exfalso. destruct (G t (nth_error_In _ _ H1')) as [L|L]; [exact (Qclt_not_le _ _ At L)|exact (Qclt_not_le _ _ Tb L)].
  - assert (a = a').
    { apply Qcle_antisym.
      - destruct (G' a (nth_error_In _ _ Xi)) as [L|L]; [exact L|exfalso; exact (Qclt_not_le _ _ (Qclt_trans _ _ _ At Tb') L)].
      - destruct (G a' (nth_error_In _ _ Xi')) as [L|L]; [exact L|exfalso; exact (Qclt_not_le _ _ (Qclt_trans _ _ _ At' Tb) L)]. }
    assert (b = b').
    { apply Qcle_antisym.
      - destruct (G b' (nth_error_In _ _ Xj')) as [L|L]; [exfalso; exact (Qclt_not_le _ _ (Qclt_trans _ _ _ At Tb') L)|exact L].
      - destruct (G' b (nth_error_In _ _ Xj)) as [L|L]; [exfalso; exact (Qclt_not_le _ _ (Qclt_trans _ _ _ At' Tb) L)|exact L]. }
    subst a' b'. rewrite (nodup_nth x i i' a N Xi Xi') in Yi. rewrite (nodup_nth x j j' b N Xj Xj') in Yj. replace c' with c by congruence. replace d' with d by congruence. reflexivity.
Qed.
Lemma interpolates_spanned x y t v : interpolates x y t v -> spanned x t.
Proof.
  intros [(i & H & _)|(i & j & a & b & c & d & Xi & _ & Xj & _ & At & Tb & _)]; split.
  - exists t. split; [exact (nth_error_In _ _ H)|apply Qcle_refl].
  - exists t. split; [exact (nth_error_In _ _ H)|apply Qcle_refl].
  - exists a. split; [exact (nth_error_In _ _ Xi)|apply Qclt_le_weak, At].
  - exists b. split; [exact (nth_error_In _ _ Xj)|apply Qclt_le_weak, Tb].
Qed.
