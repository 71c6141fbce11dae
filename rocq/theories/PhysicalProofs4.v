(** Proofs about physical arrays: axes, subscription, transposition *)
From Verif Require Import PyBase PyLemmas ContainerModel ContainerSpec ContainerProofs ContainerProofs2 Nd IndexModel IndexSpec IndexProofs IndexProofs2 IndexProperties ArrayModel ArraySpec ArrayProofs ArrayProofs2 ArrayProofs3 ArrayProofs4 ArrayProperties AxesModel AxesSpec AxesProofs PhysicalModel PhysicalSpec PhysicalProofs PhysicalProofs2 PhysicalProofs3.

Section P.
Set Default Proof Using "Type".
Context {U B : Type}.
Variables (ueq : U -> U -> bool) (umul udiv : U -> U -> result U) (uone : U).
Variables (uinv : U -> result U).
Variables (beq : B -> B -> bool) (blen : B -> nat) (bin : B -> B -> bool).
Notation arr := (parr (U := U) (B := B)).
Notation add := (padditive ueq uone beq blen bin).
Notation mult := (pmultiplicative (B := B) umul udiv uinv).

(** an axis and the data *)
Lemma lengths_axis (x : arr) : tidy x -> (lengths_agree blen x <-> forall k v, In (k, v) (paxes x) -> axis_len (face x) k (blen v)).
Proof.
  intros T. pose proof (tidy_names x T) as N. pose proof (tidy_length x T) as L. unfold lengths_agree, axis_len. rewrite N. split.
  - intros E k v H. apply In_nth_error in H as (i & H). exists i. rewrite <- E. split; [exact (map_nth_error fst _ _ H)|exact (map_nth_error (fun kv => blen (snd kv)) _ _ H)].
  - intros H. apply nth_ext with (d := 0) (d' := 0); [rewrite map_length; symmetry; exact L|]. rewrite map_length. intros i Hi.
    destruct (nth_error (paxes x) i) as [[k v]|] eqn:E; [|apply nth_error_None in E; exfalso; apply (Nat.lt_irrefl i); apply (Nat.lt_le_trans _ _ _ Hi E)].
    destruct (H k v (nth_error_In _ _ E)) as (j & E1 & E2).
    assert (i = j). { apply (proj1 (NoDup_nth_error (map fst (paxes x))) (tidy_nodup x T)); [rewrite map_length; exact Hi|]. rewrite E1. exact (map_nth_error fst _ _ E). }
    subst j. rewrite (nth_error_nth _ _ 0 E2). apply nth_error_nth. exact (map_nth_error (fun kv => blen (snd kv)) _ _ E).
Qed.
Lemma axis_len_fun {A} (x : array A) d n m : well_named x -> axis_len x d n -> axis_len x d m -> n = m.
Proof. intros W H1 H2. rewrite <- (len_axis x d n W H1). apply (len_axis x d m W H2). Qed.
Lemma axis_pos {A} (x : array A) d n : well_named x -> axis_len x d n -> 1 <= n.
Proof. intros W H. rewrite <- (len_axis x d n W H). apply len_pos, W. Qed.
Lemma has_axis (x : arr) d n : tidy x -> axis_len (face x) d n -> has (paxes x) d.
Proof. intros T (k & E & _). unfold has. rewrite <- (tidy_names x T). eapply nth_error_In, E. Qed.
Lemma longer_only_left {A} (a b : array A) d n : (forall m, ~ axis_len b d m) -> (longer a b d n <-> axis_len a d n).
Proof. intros N. unfold longer. split; [intros [(H & _)|(H & _)]; [exact H|destruct (N _ H)]|]. intros H. left. split; [exact H|]. intros m Hm. destruct (N _ Hm). Qed.
Lemma longer_only_right {A} (a b : array A) d n : (forall m, ~ axis_len a d m) -> (longer a b d n <-> axis_len b d n).
Proof. intros N. unfold longer. split; [intros [(H & _)|(H & _)]; [destruct (N _ H)|exact H]|]. intros H. right. split; [exact H|]. intros m Hm. destruct (N _ Hm). Qed.

(** the product: the axes agree with the data exactly if no axis of the right
    operand is shorter than its counterpart *)
Lemma mul_lengths op f (x y z : arr) : tidy x -> tidy y -> lengths_agree blen x -> lengths_agree blen y -> mult op f (PArr x) (PArr y) = Ok (PArr z) ->
  (lengths_agree blen z <-> forall d n m, axis_len (face x) d n -> axis_len (face y) d m -> n <= m).
Proof.
  intros Tx Ty Lx Ly E. destruct (arr_mul umul udiv uinv op f x y _ Tx Ty E) as (z' & [= <-] & Tz & _ & _ & C & Ia & _ & LG & _).
  rewrite (lengths_axis x Tx) in Lx. rewrite (lengths_axis y Ty) in Ly. rewrite (lengths_axis z Tz). split.
  - intros H d n m Hn Hm. pose proof (has_axis y d m Ty Hm) as Hy. destruct (pair_of _ d Hy) as (v & Hv).
    specialize (H d v (proj2 (Ia d v) (or_introl Hv))). rewrite <- (axis_len_fun _ d _ _ (proj1 Ty) (Ly d v Hv) Hm).
    apply LG in H as [(H & _)|(_ & K)]; [|apply K, Hn]. rewrite (axis_len_fun _ d _ _ (proj1 Tx) H Hn). apply Nat.le_refl.
  - intros H k v Hk. apply LG. apply Ia in Hk as [Hk|(Hk & Nk)].
    + right. split; [apply Ly, Hk|]. intros m Hm. exact (H k m _ Hm (Ly k v Hk)).
    + left. split; [apply Lx, Hk|]. intros m Hm. destruct (Nk (has_axis y k m Ty Hm)).
Qed.
(** the sum: always *)
Lemma add_lengths f (x y z : arr) : (forall a b, beq a b = true -> blen a = blen b) -> tidy x -> tidy y -> lengths_agree blen x -> lengths_agree blen y ->
  add f (PArr x) (PArr y) = Ok (PArr z) -> lengths_agree blen z.
Proof.
  intros Be Tx Ty Lx Ly E. destruct (arr_add ueq uone beq blen bin f x y _ Tx Ty E) as (z' & [= <-] & Tz & _ & _ & _ & Nxy & Nz & Az & LG & _).
  rewrite (lengths_axis x Tx) in Lx. rewrite (lengths_axis y Ty) in Ly. apply (lengths_axis z Tz). intros k v Hk. apply LG.
  assert (Pos : forall (a : arr) d v, tidy a -> axis_len (face a) d (blen v) -> 1 <= blen v) by (intros a d w Ta; apply axis_pos, Ta).
  destruct Az as [(Q & Az)|Az].
  - rewrite Az in Hk. unfold axes_eq in Q. apply andb_true_iff in Q as (_ & Q). rewrite forallb_forall in Q. specialize (Q _ Hk). cbn [fst snd] in Q.
    destruct (axis_named (paxes y) k) as [w|] eqn:En; [|discriminate]. apply (axis_named_in _ _ _ (tidy_nodup y Ty)) in En. apply Be in Q.
    left. split; [apply Lx, Hk|]. intros m Hm. rewrite Q, (axis_len_fun _ k _ _ (proj1 Ty) Hm (Ly k w En)). apply Nat.le_refl.
  - unfold axes_add in Az. destruct (_ && _); [|discriminate]. apply mapM_Forall2 in Az. apply In_nth_error in Hk as (i & Hk).
    assert (Ex : exists kv, nth_error (paxes x) i = Some kv /\ (v0 <- axis_named (paxes y) (fst kv) ;; w <- fill beq blen bin (snd kv) v0 ;; Ok (fst kv, w)) = Ok (k, v)).
    { clear -Az Hk. revert i Hk. induction Az as [|a b l l' H _ IH]; intros [|i] Hk; try discriminate; cbn in *; [injection Hk as ->; eauto|]. exact (IH i Hk). }
    destruct Ex as ([k' w] & Hx & Q). cbn [fst snd] in Q. destruct (axis_named (paxes y) k') as [w'|] eqn:En; cbn [bind] in Q; [|discriminate].
    apply (axis_named_in _ _ _ (tidy_nodup y Ty)) in En. destruct (fill beq blen bin w w') as [v'|] eqn:Fl; cbn [bind] in Q; [|discriminate]. injection Q as <- <-.
    apply nth_error_In in Hx. pose proof (Lx _ _ Hx) as Hlx. pose proof (Ly _ _ En) as Hly. unfold fill in Fl.
    destruct (beq w w') eqn:Ebq; [injection Fl as <-; apply Be in Ebq|].
    + left. split; [exact Hlx|]. intros m Hm. rewrite (axis_len_fun _ k' _ _ (proj1 Ty) Hm Hly), Ebq. apply Nat.le_refl.
    + destruct (Nat.eqb (blen w') 1 && bin w' w) eqn:F1; [injection Fl as <-|].
      * apply andb_true_iff in F1 as (F1 & _). apply Nat.eqb_eq in F1. left. split; [exact Hlx|]. intros m Hm.
        rewrite (axis_len_fun _ k' _ _ (proj1 Ty) Hm Hly), F1. exact (Pos x _ _ Tx Hlx).
      * destruct (Nat.eqb (blen w) 1 && bin w w') eqn:F2; [injection Fl as <-|discriminate].
        apply andb_true_iff in F2 as (F2 & _). apply Nat.eqb_eq in F2. right. split; [exact Hly|]. intros m Hm.
        rewrite (axis_len_fun _ k' _ _ (proj1 Tx) Hm Hlx), F2. exact (Pos y _ _ Ty Hly).
Qed.
End P.
