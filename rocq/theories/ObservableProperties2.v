(** * C44, continued: which subscripts a quantity accepts and what they stand for *)
From Verif Require Import PyBase PyLemmas ContainerModel Nd IndexModel ArrayModel AxesModel AxisModel PhysicalModel ObservableModel ObservableSpec ObservableProofs ObservableProperties PhysicalExamples ObservableExamples.

Section Expand.
Context {U : Type}.
Notation wholes n := (repeat (whole (U := U)) n).
Lemma filter_items (l : list (uval (U := U))) : filter is_ellipsis (map It l) = [].
Proof. induction l; cbn; auto. Qed.
Lemma values_items (l : list (uval (U := U))) : values_of (map It l) = l.
Proof. induction l as [|x l IH]; cbn; [reflexivity|]. unfold values_of in IH. now rewrite IH. Qed.
Lemma pos_items (l : list (uval (U := U))) r : ellipsis_pos (map It l ++ Ell :: r) = length l.
Proof. induction l; cbn; auto. Qed.
Lemma expand_exact n (l : list (uval (U := U))) : length l <= n -> expand_items n (map It l) = Ok l.
Proof.
  intros H. unfold expand_items. rewrite map_length, (proj2 (Nat.ltb_ge _ _) H), filter_items. cbn. now rewrite values_items.
Qed.
Lemma expand_ellipsis n (pre post : list (uval (U := U))) :
  length pre + length post < n \/ (post = [] /\ length pre <= n) ->
  expand_items n (map It pre ++ Ell :: map It post) = Ok (pre ++ wholes (n - length pre - length post) ++ post).
Proof.
  intros H. unfold expand_items. rewrite app_length. cbn [length]. rewrite !map_length.
  assert (Nat.ltb n (length pre + S (length post)) && negb (is_ellipsis (last (map It pre ++ Ell :: map It post) Ell)) = false) as ->.
  { destruct H as [H|[-> _]]; [rewrite (proj2 (Nat.ltb_ge _ _)) by lia; reflexivity|]. cbn [map]. rewrite last_last. cbn. apply andb_false_r. }
  rewrite filter_app. cbn [filter is_ellipsis]. rewrite !filter_items. cbn [app length Nat.eqb Nat.ltb Nat.leb].
  rewrite pos_items. rewrite firstn_app, map_length, Nat.sub_diag, firstn_all2 by (rewrite map_length; lia). cbn [firstn]. rewrite app_nil_r.
  rewrite skipn_app, map_length, skipn_all2 by (rewrite map_length; lia). replace (length pre + 1 - length pre) with 1 by lia. cbn [skipn app].
  rewrite !values_items. do 3 f_equal. f_equal. lia.
Qed.

End Expand.

Section C44.
Set Default Proof Using "Type".
Context {U B : Type}.
Variables (ueq : U -> U -> bool) (uone : U) (factor : U -> U -> option Qc) (consistent : U -> U -> bool) (is_length : U -> bool).
Notation qty := (quantity (U := U) (B := B)).
Notation look := (getitem (B := B) ueq uone factor consistent is_length).
(** the complete tuple of subscripts [l] *)
Notation exactly l := (Tuple (map It l)).
(** [n] whole dimensions, as [:] *)
Notation wholes n := (repeat (whole (U := U)) n).

(** An ellipsis stands for as many whole dimensions as are missing. *)
Theorem C44_ellipsis c (q : qty) pre post :
  length pre + length post < length (qdims q) \/ (post = [] /\ length pre = length (qdims q)) ->
  look c q (Tuple (map It pre ++ Ell :: map It post))
  = look c q (exactly (pre ++ wholes (length (qdims q) - length pre - length post) ++ post)).
Proof.
  intros H. unfold getitem, normalize_given. rewrite expand_ellipsis by (destruct H as [H|[-> H]]; [left; exact H|right; split; [reflexivity|lia]]).
  rewrite expand_exact; [reflexivity|]. rewrite !app_length, repeat_length. destruct H as [H|[-> H]]; cbn [length] in *; lia.
Qed.
(** A single subscript is the one of the first dimension: the others are whole. *)
Theorem C44_single_subscript c (q : qty) x : qdims q <> [] ->
  look c q (One (It x)) = look c q (exactly (x :: wholes (length (qdims q) - 1))).
Proof.
  intros N. unfold getitem. assert (0 < length (qdims q)) as L by (destruct (qdims q); [contradiction|cbn; lia]). revert L. generalize (length (qdims q)). intros n L.
  assert (normalize_given n (One (It x)) = normalize_given n (exactly (x :: wholes (n - 1)))) as ->; [|reflexivity].
  cbn [normalize_given]. rewrite expand_exact by (cbn [length]; rewrite repeat_length; lia).
  pose proof (expand_ellipsis n [x] []) as E. cbn [map app length] in E. rewrite Nat.sub_0_r, app_nil_r in E.
  destruct (is_full (It x)) eqn:F.
  - (* the whole of everything *)
    pose proof (expand_ellipsis (U := U) n [] []) as E0. cbn [map app length] in E0. rewrite E0 by (left; lia). rewrite app_nil_r, !Nat.sub_0_r.
    destruct n as [|n]; [lia|]. cbn [repeat Nat.sub]. rewrite Nat.sub_0_r. unfold is_full in F. destruct x as [sl| | | |]; try discriminate.
    destruct sl as [a b d]; cbn in F. destruct a, b, d; try discriminate. reflexivity.
  - destruct (Nat.ltb_spec 1 n) as [G|G]; [apply E; left; lia|]. replace n with 1 in * by lia. cbn [Nat.sub repeat].
    apply (expand_exact 1 [x]). cbn. lia.
Qed.
(** A bare ellipsis is the whole quantity. *)
Theorem C44_bare_ellipsis c (q : qty) : look c q (One Ell) = look c q (exactly (wholes (length (qdims q)))).
Proof.
  unfold getitem, normalize_given. cbn [is_full]. pose proof (expand_ellipsis (U := U) (length (qdims q)) [] []) as E. cbn [map app length] in E.
  rewrite E by (right; split; [reflexivity|lia]). rewrite app_nil_r, !Nat.sub_0_r, expand_exact by (rewrite repeat_length; lia). reflexivity.
Qed.
(** Fewer or more subscripts than dimensions, without an ellipsis, and two
    ellipses are refused. *)
Theorem C44_wrong_number c (q : qty) l : length l <> length (qdims q) -> look c q (exactly l) = Raise IndexError.
Proof.
  intros N. unfold getitem, normalize_given. destruct (Nat.le_gt_cases (length l) (length (qdims q))) as [L|L].
  - rewrite expand_exact by exact L. cbn [bind]. destruct (Nat.eqb_spec (length l) (length (qdims q))); [contradiction|reflexivity].
  - unfold expand_items. rewrite map_length, (proj2 (Nat.ltb_lt _ _) L).
    assert (E : is_ellipsis (last (map It l) Ell) = false).
    { destruct l as [|x l _] using rev_ind; [cbn in L; lia|]. rewrite map_app. cbn [map]. rewrite last_last. reflexivity. }
    rewrite E. reflexivity.
Qed.
Theorem C44_two_ellipses c (q : qty) l : 1 < length (filter is_ellipsis l) -> look c q (Tuple l) = Raise IndexError.
Proof.
  intros H. unfold getitem, normalize_given, expand_items. destruct (_ && _); [reflexivity|]. cbv zeta.
  rewrite (proj2 (Nat.eqb_neq _ _)) by lia. rewrite (proj2 (Nat.ltb_lt _ _)) by exact H. reflexivity.
Qed.
(** An ellipsis that stands for no dimension is accepted at the end only (in
    numpy it is accepted anywhere). *)
Theorem C44_idle_ellipsis c (q : qty) pre post : length pre + length post = length (qdims q) -> post <> [] ->
  look c q (Tuple (map It pre ++ Ell :: map It post)) = Raise IndexError.
Proof.
  intros H N. unfold getitem, normalize_given, expand_items. rewrite app_length. cbn [length]. rewrite !map_length, (proj2 (Nat.ltb_lt _ _)) by lia.
  assert (E : is_ellipsis (last (map It pre ++ Ell :: map It post) Ell) = false).
  { destruct post as [|x post _] using rev_ind; [contradiction|]. rewrite map_app. cbn [map]. rewrite app_comm_cons, app_assoc, last_last. reflexivity. }
  rewrite E. reflexivity.
Qed.
End C44.
Print Assumptions C44_ellipsis.
Print Assumptions C44_single_subscript.
Print Assumptions C44_bare_ellipsis.
Print Assumptions C44_wrong_number.
Print Assumptions C44_two_ellipses.
Print Assumptions C44_idle_ellipsis.
Example C44_ellipsis_case :
  seen (look dataset q2 (Tuple [Ell; It (VIndex [1]%Z)])) = seen (look dataset q2 (Tuple [It whole; It (VIndex [1]%Z)]))
  /\ seen (look dataset q2 (One (It (VIndex [0]%Z)))) = seen (look dataset q2 (Tuple [It (VIndex [0]%Z); It whole]))
  /\ seen (look dataset q2 (One (It (VIndex [0]%Z)))) <> []
  /\ look dataset q2 (Tuple [It (VIndex [0]%Z)]) = Raise IndexError
  /\ look dataset q2 (Tuple [It (VIndex [0]%Z); Ell; It (VIndex [0]%Z)]) = Raise IndexError.
Proof. split; [vm_compute; reflexivity|]. split; [vm_compute; reflexivity|]. split; [vm_compute; discriminate|]. split; reflexivity. Qed.
