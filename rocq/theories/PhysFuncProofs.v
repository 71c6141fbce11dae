(** Proofs about numpy functions on physical objects *)
From Verif Require Import PyBase PyLemmas ContainerModel ContainerSpec ContainerProofs ContainerProofs2 Nd IndexModel IndexSpec IndexProofs IndexProofs2 ArrayModel ArraySpec ArrayProofs ArrayProofs2 ArrayProofs3 ArrayProofs4 ArrayProperties AxesModel PhysicalModel PhysicalSpec PhysicalProofs PhysicalProofs2 PhysicalProofs3 PhysicalProofs4 PhysicalProofs5 PhysFuncModel PhysFuncSpec.

Section P.
Set Default Proof Using "Type".
Context {U B : Type}.
Variable blen : B -> nat.
Notation arr := (parr (U := U) (B := B)).

Lemma pick_ok (ax : list (str * B)) l : NoDup (map fst ax) -> (forall d, In d l -> In d (map fst ax)) ->
  exists r, pick_axes ax l = Ok r /\ map fst r = l /\ forall k v, In (k, v) r -> In (k, v) ax.
Proof.
  intros N. induction l as [|d l IH]; intros H; [exists []; split; [reflexivity|]; split; [reflexivity|intros k v []]|].
  destruct IH as (r & E & M & K); [intros e He; apply H; right; exact He|].
  destruct (lookup str_eqb ax d) as [v|e] eqn:L.
  - exists ((d, v) :: r). unfold pick_axes in *. cbn [mapM]. rewrite L. cbn [bind]. rewrite E. split; [reflexivity|]. split; [cbn [map fst]; f_equal; exact M|].
    intros k w [[= <- <-]|I]; [|apply K, I]. apply (lookup_in str_eqb str_eqb_eq ax d v N). exact L.
  - apply (lookup_missing str_eqb str_eqb_eq) in L as (_ & L). exfalso. apply L, H. left. reflexivity.
Qed.
Lemma with_axes_ok (x : arr) (d : array Qc) : tidy x -> well_named d -> (forall k, In k (anames d) -> In k (anames (face x))) -> anames d <> [] ->
  exists z, with_axes x d = Ok (PArr z) /\ tidy z /\ scale z = 1%Qc /\ aunit z = aunit x /\ axes_from x z /\ map fst (paxes z) = anames d /\ shape (data (face z)) = shape (data d) /\
    (forall e n, axis_len (face z) e n <-> axis_len d e n) /\ forall c, at_ (face z) c = at_ d c.
Proof.
  intros T W H Ne. rewrite (tidy_names x T) in H. destruct (pick_ok (paxes x) (anames d) (tidy_nodup x T) H) as (ax & E & M & K).
  assert (Na : ax <> []) by (intros ->; apply Ne; rewrite <- M; reflexivity).
  destruct (refactory (U := U) d (aunit x) ax W M Na) as (z & Ez & Tz & Sz & Uz & Az & Dz & Nz). destruct (refactory_at d z Dz Nz) as (L & V).
  exists z. unfold with_axes, result_arr. rewrite E. cbn [bind]. rewrite Ez. cbn [bind]. split; [reflexivity|]. split; [exact Tz|]. split; [exact Sz|]. split; [exact Uz|].
  split; [intros k v I; apply K; rewrite <- Az; exact I|]. split; [rewrite Az; exact M|]. split; [rewrite Dz; reflexivity|]. split; [exact L|exact V].
Qed.
Lemma value_scaled (z : arr) c : scale z = 1%Qc -> value_at z c = at_ (face z) c.
Proof. intros S. unfold value_at. rewrite S. apply Qcmult_1_l. Qed.
(** the coordinates of an array, of its data, and along an axis *)
Lemma along_inside (x : arr) (z : array Qc) d n c i : well_named (face x) -> (forall e m, axis_len z e m <-> axis_len (face x) e m /\ e <> d) -> axis_len (face x) d n -> i < n ->
  within z c -> within (face x) (along c d i).
Proof.
  intros W L A I H e m E. unfold along. destruct (str_eq_dec e d) as [->|Ne].
  - rewrite (axis_len_fun (face x) d m n W E A). exact I.
  - apply H, L. auto.
Qed.
Lemma firstn_skipn_subseq {X} (l : list X) k : subseq (firstn k l ++ skipn (S k) l) l.
Proof.
  revert l. induction k as [|k IH]; intros [|y l]; [constructor|cbn; constructor; induction l; constructor; assumption|constructor|]. cbn [firstn skipn app]. constructor. apply IH.
Qed.
Lemma reduce_arr g (x : arr) (dx r : array Qc) k : tidy x -> 1 < length (paxes x) -> adata x = Ok dx -> adims dx = Named (anames (face x)) -> well_named dx ->
  (forall d' n, axis_len dx d' n <-> axis_len (face x) d' n) -> (forall c, within (face x) c -> at_ dx c = value_at x c) -> k < length (paxes x) ->
  reduced g dx k r -> exists z d, with_axes x r = Ok (PArr z) /\ nth_error (map fst (paxes x)) k = Some d /\ reduction g x d z.
Proof.
  intros T L2 E D Wd Ld V Kl (d & Ed & Wr & Nr & Lr & Vr). assert (An : anames dx = anames (face x)) by (unfold anames; rewrite D; reflexivity).
  pose proof (tidy_names x T) as Tn. rewrite An in Ed, Nr.
  assert (Sub : subseq (anames r) (anames (face x))) by (rewrite Nr; apply firstn_skipn_subseq).
  assert (Ne : anames r <> []).
  { rewrite Nr. intros Q. apply (f_equal (@length str)) in Q. rewrite app_length, firstn_length, skipn_length, Tn, map_length in Q. cbn in Q. lia. }
  destruct (with_axes_ok x r T Wr) as (z & Ez & Tz & Sz & Uz & Az & Mz & Shz & Lz & Vz); [|exact Ne|].
  { intros e He. apply (subseq_in _ _ _ Sub), He. }
  exists z, d. split; [exact Ez|]. split; [rewrite <- Tn; exact Ed|].
  assert (Lzx : forall e n, axis_len (face z) e n <-> axis_len (face x) e n /\ e <> d) by (intros e n; rewrite Lz, Lr, Ld; reflexivity).
  split; [exact Tz|]. split; [exact Uz|]. split; [exact Az|]. split; [|split; [rewrite Mz, <- Tn; exact Sub|split; [exact Lzx|]]].
  - intros e. rewrite Mz, <- Tn.
    assert (HA : forall (y : array Qc) a, well_named y -> (In a (anames y) <-> exists n, axis_len y a n)).
    { intros y a (_ & Ly & _). split.
      - intros I. apply In_nth_error in I as (j & Ej). destruct (nth_error (shape (data y)) j) as [n|] eqn:En; [exists n, j; auto|].
        apply nth_error_None in En. assert (j < length (anames y)) by (apply nth_error_Some; congruence). lia.
      - intros (n & j & Ej & _). apply nth_error_In with j. exact Ej. }
    rewrite (HA r e Wr), (HA (face x) e (proj1 T)). split.
    + intros (n & H). apply Lr in H as (H & Hn). split; [exists n; apply Ld, H|exact Hn].
    + intros ((n & H) & Hn). exists n. apply Lr. split; [apply Ld, H|exact Hn].
  - intros c Hc. destruct (Vr c) as (v & (Av & Lv) & Ev). exists v. apply Ld in Av. split; [exact Av|]. split; [|rewrite value_scaled by exact Sz; rewrite Vz; exact Ev].
    intros i y Ey. rewrite (Lv i y Ey). apply V. apply (along_inside x r d (length v) c i (proj1 T)); [intros e m; rewrite Lr, Ld; reflexivity|exact Av|apply nth_error_Some; congruence|].
    intros e m He. apply Hc, Lz, He.
Qed.
Lemma reduction_lengths g (x z : arr) d : tidy x -> reduction g x d z -> lengths_agree blen x -> lengths_agree blen z.
Proof.
  intros T (Tz & _ & A & M & _ & L & _). rewrite (lengths_axis blen x T), (lengths_axis blen z Tz). intros H k v I. apply L. split; [apply H, A, I|].
  apply M. apply (in_map fst) in I. exact I.
Qed.
(** amounts: a linear reduction of the numbers is that of the amounts *)
Lemma reduction_amounts (size : U -> Qc) g (x z : arr) d : linear g -> reduction g x d z -> forall c, inside z c ->
  exists v, axis_len (face x) d (length v) /\ amounts_along size x d c v /\ amount_at size z c = g v.
Proof.
  intros G (_ & Uz & _ & _ & _ & _ & V) c Hc. destruct (V c Hc) as (v & A & H & E). exists (map (Qcmult (size (aunit x))) v). rewrite map_length. split; [exact A|]. split.
  - intros i y Ey. rewrite nth_error_map in Ey. destruct (nth_error v i) as [w|] eqn:Ew; [|discriminate]. injection Ey as <-. unfold amount_at. rewrite (H i w Ew). reflexivity.
  - unfold amount_at. rewrite Uz, E, G. reflexivity.
Qed.
Lemma total_linear : linear total.
Proof. intros q l. induction l as [|a l IH]; cbn; [ring|]. unfold total in IH. rewrite IH. ring. Qed.
Lemma average_linear : linear average.
Proof. intros q l. unfold average. rewrite total_linear, map_length. unfold Qcdiv. ring. Qed.
Lemma trapezoid_linear xs : linear (trapezoid xs).
Proof.
  intros q. induction xs as [|x xs IH]; intros l; [cbn; ring|]. destruct xs as [|x' xs]; [cbn; ring|]. destruct l as [|f l]; [cbn; ring|]. destruct l as [|f' l]; [cbn; ring|].
  change (trapezoid (x :: x' :: xs) (map (Qcmult q) (f :: f' :: l))) with ((x' - x) * (q * f + q * f') / zq 2 + trapezoid (x' :: xs) (map (Qcmult q) (f' :: l)))%Qc.
  rewrite IH. change (trapezoid (x :: x' :: xs) (f :: f' :: l)) with ((x' - x) * (f + f') / zq 2 + trapezoid (x' :: xs) (f' :: l))%Qc. unfold Qcdiv. ring.
Qed.
(** all elements *)
Lemma coordinates_map names ix : NoDup names -> length ix = length names -> map (coordinates_of names ix) names = ix.
Proof.
  revert ix. induction names as [|k names IH]; intros [|i ix] N L; try discriminate; [reflexivity|]. inversion N as [|? ? Nk N']; subst. cbn [coordinates_of map].
  destruct (str_eq_dec k k) as [_|Kk]; [|congruence]. f_equal. transitivity (map (coordinates_of names ix) names); [|apply IH; [exact N'|injection L; auto]]. apply map_ext_in. intros e He.
  destruct (str_eq_dec e k) as [->|]; [contradiction|reflexivity].
Qed.
Lemma in_indices sh ix : In ix (indices sh) -> valid ix sh.
Proof.
  revert ix. induction sh as [|n sh IH]; intros ix H; cbn [indices] in H.
  - destruct H as [<-|[]]. constructor.
  - apply in_flat_map in H as (i & Hi & H). apply in_map_iff in H as (j & <- & H). constructor; [apply in_seq in Hi; lia|apply IH, H].
Qed.
Lemma flat_values (x : arr) dx : tidy x -> adims dx = Named (anames (face x)) -> shape (data dx) = shape (data (face x)) -> (forall c, within (face x) c -> at_ dx c = value_at x c) -> flat (data dx) = all_values x.
Proof.
  intros T D S V. unfold flat, all_values. rewrite S. apply map_ext_in. intros ix I. apply in_indices in I.
  assert (An : anames dx = map fst (paxes x)) by (unfold anames; rewrite D; apply (tidy_names x T)).
  assert (Lx : length ix = length (map fst (paxes x))) by (rewrite map_length, <- (tidy_length x T); exact (Forall2_len _ _ _ I)).
  rewrite <- V.
  - unfold at_. rewrite An, coordinates_map; [reflexivity|apply tidy_nodup, T|exact Lx].
  - intros d n (k & E1 & E2). rewrite (tidy_names x T) in E1. pose proof (coordinates_map _ ix (tidy_nodup x T) Lx) as M.
    assert (Q : nth_error ix k = Some (coordinates_of (map fst (paxes x)) ix d)) by (rewrite <- M at 1; apply map_nth_error; exact E1).
    revert Q. generalize (coordinates_of (map fst (paxes x)) ix d). intros q Q. clear - I Q E2. revert k Q E2. induction I as [|i m ix sh H I IH]; intros [|k] Q E2; try discriminate; [injection Q as <-; injection E2 as <-; exact H|apply (IH k); assumption].
Qed.
End P.
