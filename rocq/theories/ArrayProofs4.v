(** Squeezing and reducing named arrays. *)
From Verif Require Import PyBase PyLemmas ContainerModel ContainerSpec ContainerProofs ContainerProofs2 Nd IndexModel IndexProofs IndexProofs2 ArrayModel ArraySpec ArrayProofs ArrayProofs2 ArrayProofs3.
Set Default Proof Using "Type".

Section Red.
Context {A : Type}.

(** *** squeeze *)
Lemma squeeze_shapes (l : list str) : forall sh, length l = length sh ->
  length (map fst (filter (fun p : str * nat => negb (Nat.eqb (snd p) 1)) (combine l sh))) = length (filter (fun n => negb (Nat.eqb n 1)) sh) /\
  (forall d n, (exists k, nth_error (map fst (filter (fun p : str * nat => negb (Nat.eqb (snd p) 1)) (combine l sh))) k = Some d /\
                          nth_error (filter (fun n => negb (Nat.eqb n 1)) sh) k = Some n) <->
               ((exists k, nth_error l k = Some d /\ nth_error sh k = Some n) /\ n <> 1)).
Proof.
  induction l as [|x l IH]; intros [|n sh] L; try discriminate.
  - split; [reflexivity|]. intros d m. split; [intros ([|k] & E & _); discriminate|intros (([|k] & E & _) & _); discriminate].
  - destruct (IH sh) as (H1 & H2); [simpl in L; lia|]. cbn [combine filter snd]. destruct (Nat.eqb_spec n 1) as [->|Q]; cbn [negb].
    + split; [exact H1|]. intros d m. rewrite H2. split; intros ((k & E1 & E2) & N); (split; [|exact N]).
      * exists (S k). auto.
      * destruct k as [|k]; [simpl in E2; congruence|]. exists k. auto.
    + cbn [map fst length]. split; [lia|]. intros d m. split.
      * intros ([|k] & E1 & E2); simpl in E1, E2.
        -- injection E2 as <-. split; [exists 0; auto|exact Q].
        -- destruct (proj1 (H2 d m) (ex_intro _ k (conj E1 E2))) as ((j & F1 & F2) & N). split; [exists (S j); auto|exact N].
      * intros (([|k] & E1 & E2) & N); simpl in E1, E2; [exists 0; auto|].
        destruct (proj2 (H2 d m) (conj (ex_intro _ k (conj E1 E2)) N)) as (j & F1 & F2). exists (S j). auto.
Qed.
Lemma squeeze_index (c c' : coords) l : forall sh, length l = length sh ->
  (forall k d n, nth_error l k = Some d -> nth_error sh k = Some n -> (n = 1 -> c' d = 0) /\ (n <> 1 -> c' d = c d)) ->
  unsqueeze sh (map c (map fst (filter (fun p : str * nat => negb (Nat.eqb (snd p) 1)) (combine l sh)))) = map c' l.
Proof.
  induction l as [|x l IH]; intros [|n sh] L H; try discriminate; [reflexivity|]. cbn [combine filter snd unsqueeze].
  pose proof (H 0 x n eq_refl eq_refl) as (H1 & H2).
  assert (IH' := IH sh ltac:(simpl in L; lia) (fun k d m E1 E2 => H (S k) d m E1 E2)).
  destruct (Nat.eqb_spec n 1) as [->|Q]; cbn [negb map fst nth tl]; rewrite IH'; [rewrite H1 by reflexivity|rewrite H2 by exact Q]; reflexivity.
Qed.
Lemma squeeze_ok (x : array A) : well_named x ->
  (singleton x -> exists v, array_squeeze x = Ok (SqNum v) /\ v = at_ x (fun _ => 0)) /\
  (~ singleton x -> exists r, array_squeeze x = Ok (SqArr r) /\ well_named r /\ subseq (anames r) (anames x) /\
     (forall d n, axis_len r d n <-> axis_len x d n /\ n <> 1) /\
     forall c c', clip x c c' -> at_ r c = at_ x c').
Proof.
  intros W. pose proof W as (N & L & P). destruct (squeeze_shapes (anames x) (shape (data x)) L) as (S1 & S2).
  assert (SN : forall c c', clip x c c' -> unsqueeze (shape (data x)) (map c (squeeze_names x)) = map c' (anames x)).
  { intros c c' C. apply squeeze_index; [exact L|]. intros k d n E1 E2. apply C. exists k. auto. }
  assert (Sg : ndim (nd_squeeze (data x)) = 0 <-> singleton x).
  { unfold ndim, singleton. cbn [nd_squeeze shape]. clear. induction (shape (data x)) as [|n sh IH]; [split; [constructor|reflexivity]|].
    cbn [filter]. destruct (Nat.eqb_spec n 1) as [->|Q]; cbn [negb length].
    - rewrite IH. split; [constructor; auto|]. intros H. inversion_clear H. assumption.
    - split; [discriminate|]. intros H. inversion_clear H. congruence. }
  unfold array_squeeze. split.
  - intros H. rewrite (proj2 Sg H). cbn [Nat.eqb]. eexists. split; [reflexivity|]. cbn [nd_squeeze elem]. unfold at_. f_equal.
    assert (C : clip x (fun _ => 0) (fun _ => 0)) by (intros d n _; auto). rewrite <- (SN _ _ C).
    assert (E : squeeze_names x = []).
    { apply Sg in H. unfold ndim in H. cbn [nd_squeeze shape] in H. unfold squeeze_names. destruct (map _ _); [reflexivity|]. simpl in S1. lia. }
    rewrite E. reflexivity.
  - intros H. destruct (Nat.eqb_spec (ndim (nd_squeeze (data x))) 0) as [Q|Q]; [apply Sg in Q; contradiction|].
    assert (Sub : subseq (squeeze_names x) (anames x)).
    { unfold squeeze_names. clear -L. revert L. generalize (anames x) (shape (data x)). intros l. induction l as [|d l IH]; intros [|n sh] L; try discriminate; [constructor|].
      cbn [combine filter snd]. destruct negb; cbn [map fst]; constructor; apply IH; simpl in L; lia. }
    assert (Nq : NoDup (squeeze_names x)).
    { clear -Sub N. induction Sub as [|d a l Sub IH|d a l Sub IH]; [constructor| |]; apply NoDup_cons_iff in N as (N1 & N2); [|apply IH, N2].
      constructor; [|apply IH, N2]. intros Hd. apply N1. clear -Sub Hd. induction Sub; simpl in *; tauto. }
    rewrite names_nodup_factory; [|exact Nq|unfold ndim; exact S1]. cbn [bind]. eexists. split; [reflexivity|].
    split; [unfold well_named, anames; cbn [adims names data nd_squeeze shape]; split; [exact Nq|]; split; [exact S1|]|].
    { rewrite Forall_forall in *. intros n Hn. apply filter_In in Hn as (Hn & _). apply P, Hn. }
    split; [exact Sub|]. split; [exact S2|]. intros c c' C. unfold at_. unfold anames at 1. cbn [adims names data nd_squeeze elem]. rewrite (SN c c' C). reflexivity.
Qed.

(** *** removing one axis *)
Lemma nth_error_firstn {X} (l : list X) : forall k j, nth_error (firstn k l) j = if Nat.ltb j k then nth_error l j else None.
Proof.
  induction l as [|x l IH]; intros [|k] [|j]; try reflexivity; cbn [firstn nth_error].
  - destruct (Nat.ltb _ _); reflexivity.
  - rewrite IH. reflexivity.
Qed.
Lemma nth_error_skipn {X} (l : list X) : forall k j, nth_error (skipn k l) j = nth_error l (k + j).
Proof. induction l as [|x l IH]; intros [|k] j; try reflexivity; cbn [skipn]; [destruct j; reflexivity|apply IH]. Qed.
Lemma remove_nth_spec {X} (l : list X) k x : nth_error l k = Some x -> l = firstn k l ++ x :: skipn (S k) l.
Proof. revert k. induction l as [|y l IH]; intros [|k] E; try discriminate; simpl in *; [congruence|]. f_equal. apply IH, E. Qed.
Lemma pos_of_nth l k d : NoDup l -> nth_error l k = Some d -> pos d l = k.
Proof.
  intros N E. assert (H : In d l) by (eapply nth_error_In, E). apply (proj1 (NoDup_nth_error l) N); [apply pos_lt, H|]. rewrite pos_nth by exact H. auto.
Qed.
Lemma without_axis_spec l k d : NoDup l -> nth_error l k = Some d -> without_axis l (Z.of_nat k) = firstn k l ++ skipn (S k) l.
Proof.
  intros N E. unfold without_axis. rewrite (remove_nth_spec l k d E) in N.
  assert (K : k < length l) by (apply nth_error_Some; congruence).
  assert (Q : forall e, In e (firstn k l ++ skipn (S k) l) -> negb (Z.eqb (Z.of_nat (pos e l)) (Z.of_nat k)) = true).
  { intros e He. apply negb_true_iff, Z.eqb_neq. intros P. apply Nat2Z.inj in P.
    assert (Hl : In e l) by (rewrite (remove_nth_spec l k d E); apply in_app_iff; apply in_app_iff in He as [He|He]; [left; exact He|right; right; exact He]).
    apply pos_nth in Hl. rewrite P, E in Hl. injection Hl as ->. apply NoDup_remove_2 in N. contradiction. }
  transitivity (filter (fun e => negb (Z.eqb (Z.of_nat (pos e l)) (Z.of_nat k))) (firstn k l ++ d :: skipn (S k) l)); [f_equal; apply remove_nth_spec, E|].
  rewrite filter_app. cbn [filter]. rewrite (pos_of_nth l k d), Z.eqb_refl; [|rewrite (remove_nth_spec l k d E); exact N|exact E]. cbn [negb].
  rewrite !filter_all; [reflexivity| |]; intros e He; apply Q, in_app_iff; auto.
Qed.
Lemma norm_index_mod n z k : norm_index n z = Some k -> (z mod Z.of_nat n = Z.of_nat k)%Z /\ ((if (z <? 0)%Z then Z.of_nat n + z else z) = Z.of_nat k)%Z.
Proof.
  unfold norm_index. destruct (Z.ltb_spec z 0) as [Q|Q].
  - destruct (Z.ltb_spec (z + Z.of_nat n) 0); [discriminate|]. destruct (Z.leb_spec (Z.of_nat n) (z + Z.of_nat n)); [discriminate|]. intros [= <-].
    rewrite Z2Nat.id by lia. split; [|lia]. rewrite <- (Z.mod_add z 1) by lia. rewrite Z.mul_1_l. apply Z.mod_small. lia.
  - destruct (Z.ltb_spec z 0); [lia|]. destruct (Z.leb_spec (Z.of_nat n) z); [discriminate|]. intros [= <-]. rewrite Z2Nat.id by lia. split; [|lia].
    apply Z.mod_small. lia.
Qed.
Lemma axis_removed (x : array A) k d n (r : nd A) : well_named x -> nth_error (anames x) k = Some d -> nth_error (shape (data x)) k = Some n ->
  shape r = firstn k (shape (data x)) ++ skipn (S k) (shape (data x)) ->
  array_factory r (firstn k (anames x) ++ skipn (S k) (anames x)) = Ok (mkarray r (Named (firstn k (anames x) ++ skipn (S k) (anames x)))) /\
  well_named (mkarray r (Named (firstn k (anames x) ++ skipn (S k) (anames x)))) /\
  (forall e m, axis_len (mkarray r (Named (firstn k (anames x) ++ skipn (S k) (anames x)))) e m <-> axis_len x e m /\ e <> d).
Proof.
  intros (N & L & P) Ed En HS. set (l' := firstn k (anames x) ++ skipn (S k) (anames x)).
  assert (N' : NoDup l') by (unfold l'; rewrite (remove_nth_spec _ _ _ Ed) in N; apply NoDup_remove_1 in N; exact N).
  assert (L' : length l' = length (shape r)) by (unfold l'; rewrite HS, !app_length, !firstn_length, !skipn_length, L; reflexivity).
  split; [apply names_nodup_factory; auto|]. split.
  - unfold well_named, anames. cbn [adims names data]. split; [exact N'|]. split; [exact L'|]. rewrite HS.
    rewrite (remove_nth_spec _ _ _ En) in P. apply Forall_app in P as (P1 & P2). inversion_clear P2. apply Forall_app. auto.
  - intros e m. unfold axis_len, anames. cbn [adims names data]. fold (anames x). fold l'. rewrite HS.
    assert (K : k < length (anames x)) by (apply nth_error_Some; congruence). assert (K2 : k < length (shape (data x))) by lia.
    split.
    + intros (j & E1 & E2). assert (exists i, nth_error (anames x) i = Some e /\ nth_error (shape (data x)) i = Some m /\ i <> k).
      { unfold l' in E1. destruct (Nat.lt_ge_cases j k) as [J|J].
        - exists j. rewrite nth_error_app1 in E1 by (rewrite firstn_length; lia). rewrite nth_error_app1 in E2 by (rewrite firstn_length; lia).
          rewrite nth_error_firstn in E1. rewrite nth_error_firstn in E2. destruct (Nat.ltb_spec j k); [|lia]. repeat split; auto; lia.
        - exists (S j). rewrite nth_error_app2 in E1 by (rewrite firstn_length; lia). rewrite nth_error_app2 in E2 by (rewrite firstn_length; lia).
          rewrite firstn_length in E1. rewrite firstn_length in E2. rewrite nth_error_skipn in E1. rewrite nth_error_skipn in E2. rewrite Nat.min_l in E1 by lia. rewrite Nat.min_l in E2 by lia.
          replace (S k + (j - k)) with (S j) in E1, E2 by lia. repeat split; auto; lia. }
      destruct H as (i & F1 & F2 & F3). split; [exists i; auto|]. intros ->. apply F3.
      apply (proj1 (NoDup_nth_error (anames x)) N); [apply nth_error_Some; congruence|congruence].
    + intros ((i & F1 & F2) & Ne). assert (Ik : i <> k) by (intros ->; congruence). unfold l'. destruct (Nat.lt_ge_cases i k) as [J|J].
      * exists i. rewrite !nth_error_app1 by (rewrite firstn_length; lia). rewrite !nth_error_firstn. destruct (Nat.ltb_spec i k); [auto|lia].
      * exists (i - 1). rewrite !nth_error_app2 by (rewrite firstn_length; lia). rewrite !firstn_length, !nth_error_skipn, !Nat.min_l by lia.
        replace (S k + (i - 1 - k)) with i by lia. auto.
Qed.
Lemma along_map c d i l k : NoDup l -> nth_error l k = Some d ->
  map (along c d i) l = firstn k (map c (firstn k l ++ skipn (S k) l)) ++ i :: skipn k (map c (firstn k l ++ skipn (S k) l)).
Proof.
  intros N E. rewrite (remove_nth_spec l k d E) in N. rewrite (remove_nth_spec l k d E) at 1. rewrite map_app. cbn [map].
  assert (K : k < length l) by (apply nth_error_Some; congruence).
  assert (Lf : length (map c (firstn k l)) = k) by (rewrite map_length, firstn_length; lia).
  rewrite map_app, firstn_app, skipn_app, Lf, Nat.sub_diag. cbn [firstn skipn]. rewrite app_nil_r.
  rewrite (firstn_all2 (map c (firstn k l))) by lia. rewrite (skipn_all2 (map c (firstn k l))) by lia. cbn [app].
  apply NoDup_remove_2 in N. rewrite in_app_iff in N.
  assert (Q : forall e, In e (firstn k l) \/ In e (skipn (S k) l) -> along c d i e = c e) by (intros e He; unfold along; destruct (str_eq_dec e d) as [->|]; [tauto|reflexivity]).
  f_equal; [apply map_ext_in; intros e He; apply Q; auto|]. f_equal; [unfold along; destruct (str_eq_dec d d); congruence|]. apply map_ext_in. intros e He. apply Q. auto.
Qed.
Lemma reduce_line (x : array A) k d n c : well_named x -> nth_error (anames x) k = Some d -> nth_error (shape (data x)) k = Some n ->
  let ix := map c (firstn k (anames x) ++ skipn (S k) (anames x)) in
  line x d c (nd_line (data x) k (firstn k ix) (skipn k ix)).
Proof.
  intros (N & L & _) Ed En ix. unfold line, nd_line. rewrite (nth_error_nth _ _ 0 En), map_length, seq_length. split; [exists k; auto|].
  intros i y E. rewrite nth_error_map in E. destruct (nth_error (seq 0 n) i) as [j|] eqn:Ej; [|discriminate]. cbn [option_map] in E. injection E as <-.
  assert (I : i < n) by (rewrite <- (seq_length n 0); apply nth_error_Some; congruence).
  rewrite (nth_error_nth' _ 0), seq_nth in Ej by (rewrite ?seq_length; exact I). injection Ej as <-. unfold at_. f_equal. symmetry.
  apply along_map; auto.
Qed.
Definition reduced (g : list A -> A) (x : array A) (k : nat) (r : array A) : Prop :=
  exists d, nth_error (anames x) k = Some d /\ well_named r /\ anames r = firstn k (anames x) ++ skipn (S k) (anames x) /\
    (forall e m, axis_len r e m <-> axis_len x e m /\ e <> d) /\
    forall c, exists v, line x d c v /\ at_ r c = g v.
Lemma reduce_ok (g : list A -> A) (x : array A) k : well_named x -> k < ndim (data x) ->
  exists r, array_factory (nd_reduce g k (data x)) (firstn k (anames x) ++ skipn (S k) (anames x)) = Ok r /\ reduced g x k r.
Proof.
  intros W K. pose proof W as (N & L & P). unfold ndim in K.
  destruct (nth_error (anames x) k) as [d|] eqn:Ed; [|apply nth_error_None in Ed; lia].
  destruct (nth_error (shape (data x)) k) as [n|] eqn:En; [|apply nth_error_None in En; lia].
  destruct (axis_removed x k d n (nd_reduce g k (data x)) W Ed En eq_refl) as (H1 & H2 & H3).
  rewrite H1. eexists. split; [reflexivity|]. exists d. split; [exact Ed|]. split; [exact H2|]. split; [reflexivity|]. split; [exact H3|].
  intros c. eexists. split; [apply (reduce_line x k d n c W Ed En)|]. reflexivity.
Qed.
Lemma removelast_firstn {X} (l : list X) k : length l = S k -> removelast l = firstn k l ++ skipn (S k) l.
Proof. intros L. rewrite skipn_all2 by lia. rewrite app_nil_r. rewrite removelast_firstn_len. f_equal. lia. Qed.

(** *** running sums *)
Lemma cumsum_ok (g : list A -> A) (x : array A) axis k : well_named x -> norm_index (ndim (data x)) axis = Some k ->
  exists r d, array_cumsum g x axis = Ok r /\ nth_error (anames x) k = Some d /\ well_named r /\ anames r = anames x /\
    (forall e m, axis_len r e m <-> axis_len x e m) /\
    forall c, exists v, at_ r c = g v /\ length v = S (c d) /\ forall i y, nth_error v i = Some y -> y = at_ x (along c d i).
Proof.
  intros W K. pose proof (norm_index_lt _ _ _ K) as Kl. unfold array_cumsum. rewrite K. pose proof W as (N & L & P). unfold ndim in Kl.
  destruct (nth_error (anames x) k) as [d|] eqn:Ed; [|apply nth_error_None in Ed; lia].
  destruct (same_shape_named x (nd_accumulate g k (data x)) W eq_refl) as (H1 & H2 & H3). rewrite H1. eexists. exists d. split; [reflexivity|].
  split; [reflexivity|]. split; [exact H2|]. split; [reflexivity|]. split; [exact H3|]. intros c.
  exists (map (fun i => elem (data x) (firstn k (map c (anames x)) ++ i :: skipn (S k) (map c (anames x)))) (seq 0 (S (nth k (map c (anames x)) 0)))). split; [reflexivity|]. rewrite map_length, seq_length. rewrite (nth_error_nth _ _ 0 (map_nth_error c k (anames x) Ed)). split; [reflexivity|].
  intros i y E. rewrite nth_error_map in E. destruct (nth_error (seq 0 (S (c d))) i) as [j|] eqn:Ej; [|discriminate]. cbn [option_map] in E. injection E as <-.
  assert (I : i < S (c d)) by (rewrite <- (seq_length (S (c d)) 0); apply nth_error_Some; congruence).
  rewrite (nth_error_nth' _ 0), seq_nth in Ej by (rewrite ?seq_length; exact I). injection Ej as <-. unfold at_. f_equal.
  rewrite (along_map c d i (anames x) k N Ed). rewrite map_app.
  assert (Lf : length (map c (firstn k (anames x))) = k) by (rewrite map_length, firstn_length; lia).
  rewrite (firstn_app k), (skipn_app k), Lf, Nat.sub_diag, (firstn_all2 (map c (firstn k (anames x)))), (skipn_all2 (map c (firstn k (anames x)))) by lia.
  match goal with |- _ ++ _ :: ?u = _ => change u with (skipn (S k) (map c (anames x))) end.
  rewrite firstn_map, skipn_map. cbn [firstn app]. rewrite app_nil_r. reflexivity.
Qed.
End Red.
