(** * Refused arguments: axes, subscripts, comment marks, functions of numpy
    (C19, C30, C31, C32, C49, C55, C67) *)
From Verif Require Import PyBase PyLemmas ContainerModel ContainerSpec ContainerProofs2 Nd IndexModel ArrayModel AxisModel AxisProofs AxesModel ConfigModel PhysicalModel PhysFuncModel.

(** the number [z] names none of [n] places, from the start or (negative) from the end *)
Definition out_of_range (n : nat) (z : Z) : Prop := (z < - Z.of_nat n \/ Z.of_nat n <= z)%Z.
Lemma out_none n z : out_of_range n z -> norm_index n z = None.
Proof. intros O. destruct (norm_index n z) as [i|] eqn:E; [|reflexivity]. apply norm_index_cases in E. unfold out_of_range in O. lia. Qed.
Lemma none_out n z : norm_index n z = None -> out_of_range n z.
Proof.
  intros E. unfold out_of_range. destruct (Z_lt_dec z (- Z.of_nat n)); [auto|]. destruct (Z_le_dec (Z.of_nat n) z); [auto|]. exfalso.
  destruct (Z_lt_dec z 0).
  - assert (H : norm_index n z = Some (Z.to_nat (z + Z.of_nat n))) by (apply norm_index_cases; lia). congruence.
  - assert (H : norm_index n z = Some (Z.to_nat z)) by (apply norm_index_cases; lia). congruence.
Qed.

(** ** Reductions and numpy.transpose of arrays with a wrong axis *)
Theorem C55_bad_axis (A : Type) (g : list A -> A) (x : array A) (axis : Z) (keep : option bool) : out_of_range (ndim (data x)) axis ->
  array_sum g x axis keep = Raise ValueError /\ array_mean g x axis keep = Raise ValueError /\ array_cumsum g x axis = Raise ValueError /\ array_trapz g x (Some axis) = Raise ValueError.
Proof. intros O. apply out_none in O. unfold array_sum, array_mean, array_cumsum, array_trapz. rewrite O. auto. Qed.
Print Assumptions C55_bad_axis.
Theorem C49_bad_axes (A : Type) (x : array A) (axes : list Z) : Exists (out_of_range (length (anames x))) axes ->
  numpy_transpose x (Some axes) = Raise IndexError.
Proof.
  intros H. unfold numpy_transpose. assert (E : mapM (name_of (anames x)) axes = Raise IndexError); [|rewrite E; reflexivity].
  assert (K : forall z e, name_of (anames x) z = Raise e -> e = IndexError) by (intros z e; unfold name_of; destruct (norm_index _ z); [destruct nth_error|]; congruence).
  induction H as [z l O|z l H IH]; cbn [mapM].
  - unfold name_of. rewrite (out_none _ _ O). reflexivity.
  - destruct (name_of (anames x) z) as [y|e] eqn:E; cbn [bind]; [rewrite IH; reflexivity|]. rewrite (K z e E). reflexivity.
Qed.
Print Assumptions C49_bad_axes.
(** An operand that is no number, list or array is refused by products and sums
    with an array. *)
Theorem C19_other_operand (A : Type) (f : A -> A -> A) (x : array A) :
  multiplicative f (AArr x) AOther = Raise OperandTypeError /\ multiplicative f AOther (AArr x) = Raise OperandTypeError /\
  additive f (AArr x) AOther = Raise TypeError /\ additive f AOther (AArr x) = Raise TypeError.
Proof. repeat split; reflexivity. Qed.
Print Assumptions C19_other_operand.

(** ** Subscripts of axes *)
Theorem C30_subscript_range (M : Type) (members : list M) (z : Z) (zs : list Z) :
  (axis_getitem members (SubInt z) = Raise IndexError <-> out_of_range (length members) z) /\
  (axis_getitem members (SubList zs) = Raise IndexError <-> Exists (out_of_range (length members)) zs).
Proof.
  set (n := length members). assert (ONE : forall z, out_of_range n z \/ exists i, norm_index n z = Some i) by (intros y; destruct (norm_index n y) eqn:E; [eauto|left; apply none_out, E]).
  split.
  - unfold axis_getitem. fold n. cbn [data_positions]. unfold one_position. destruct (ONE z) as [O|(i & E)].
    + rewrite (out_none _ _ O). split; auto.
    + rewrite E. cbn. split; [discriminate|]. intros O. apply out_none in O. congruence.
  - unfold axis_getitem. fold n. cbn [data_positions].
    assert (E : Exists (out_of_range n) zs /\ mapM (one_position n) zs = Raise IndexError \/ ~ Exists (out_of_range n) zs /\ exists ps, mapM (one_position n) zs = Ok ps).
    { induction zs as [|y l IH]; [right; split; [intros H; inversion H|exists []; reflexivity]|]. cbn [mapM]. unfold one_position at 1 3. destruct (ONE y) as [O|(i & E)].
      - left. rewrite (out_none _ _ O). split; [left; exact O|reflexivity].
      - rewrite E. cbn [bind]. destruct IH as [(X & ->)|(X & ps & ->)]; cbn [bind]; [left; split; [right; exact X|reflexivity]|]. right. split; [|eexists; reflexivity].
        intros H. inversion H as [? ? O|]; subst; [apply out_none in O; congruence|contradiction]. }
    destruct E as [(X & ->)|(X & ps & ->)]; cbn; [tauto|]. destruct zs; cbn; split; try discriminate; intros; contradiction.
Qed.
Print Assumptions C30_subscript_range.

(** ** Collections of axes *)
Theorem C31_refused (B : Type) (a : axes B) (i : Z) :
  (axis_at a i = Raise KeyError <-> out_of_range (length a) i) /\
  extract a [] = Raise TypeError /\ permute a (ByName []) = Raise TypeError /\ permute a (ByIndex []) = Raise TypeError.
Proof.
  split; [|repeat split; reflexivity]. unfold axis_at. destruct (norm_index (length a) i) as [j|] eqn:E.
  - apply norm_index_cases in E. destruct (nth_error a j) as [v|] eqn:N; [|apply nth_error_None in N; lia]. split; [discriminate|]. unfold out_of_range. lia.
  - split; [intros _; apply none_out, E|reflexivity].
Qed.
Print Assumptions C31_refused.
Theorem C31_by_position (B : Type) (pre post : axes B) d v :
  axis_at (pre ++ (d, v) :: post) (Z.of_nat (length pre)) = Ok v /\ axis_at (pre ++ (d, v) :: post) (- Z.of_nat (S (length post))) = Ok v.
Proof.
  assert (N : nth_error (pre ++ (d, v) :: post) (length pre) = Some (d, v)) by (rewrite nth_error_app2 by lia; rewrite Nat.sub_diag; reflexivity).
  unfold axis_at. rewrite app_length. cbn [length].
  assert (E1 : norm_index (length pre + S (length post)) (Z.of_nat (length pre)) = Some (length pre)) by (apply norm_index_cases; lia).
  assert (E2 : norm_index (length pre + S (length post)) (- Z.of_nat (S (length post))) = Some (length pre)) by (apply norm_index_cases; lia).
  rewrite E1, E2, N. auto.
Qed.
Print Assumptions C31_by_position.

(** ** An empty comment mark is refused with a ValueError, as soon as a line is
    read *)
Theorem C32_empty_mark (marks : list str) line : strip_inline_comments line marks = Raise ValueError <-> In [] marks.
Proof.
  unfold strip_inline_comments. assert (K : forall x, (In [] marks /\ cut_comments marks x = Raise ValueError) \/ (~ In [] marks /\ exists y, cut_comments marks x = Ok y)).
  { induction marks as [|m l IH]; intros x; [right; split; [intros []|eexists; reflexivity]|]. cbn [cut_comments]. destruct m as [|c m]; [left; split; [left|]; reflexivity|].
    unfold split. cbn [bind]. destruct (IH (hd [] (split_from (c :: m) 0 [] x))) as [(I & E)|(I & E)]; [left|right]; split; try exact E; [right; exact I|]. intros [X|X]; [discriminate X|contradiction]. }
  destruct (K line) as [(I & ->)|(I & y & ->)]; cbn; [tauto|]. split; [discriminate|contradiction].
Qed.
Print Assumptions C32_empty_mark.

(** ** numpy functions that are defined for arrays only *)
Theorem C67_not_registered (U B : Type) (f : Qc -> Qc -> Qc) (g : list Qc -> Qc) (x : pobj (U := U)) axis (p : Qc) :
  ptrapz (B := B) g (PObj x) axis = Raise TypeError /\ (numpy_power (B := B) f (PObj x) p = Raise TypeError <-> okind x = KScalar).
Proof. split; [reflexivity|]. unfold numpy_power. destruct (okind x); split; try reflexivity; discriminate. Qed.
Print Assumptions C67_not_registered.

Example refused_cases : let a := [(s "time", 3); (s "shell", 2)] in
  axis_at a 1 = Ok 2 /\ axis_at a (-3) = Raise KeyError /\ axis_getitem [5; 6; 7] (SubInt 3) = Raise IndexError /\ axis_getitem [5; 6; 7] (SubList [0; -4]%Z) = Raise IndexError /\
  strip_inline_comments (s "a = 1 # b") [s "#"] = Ok (s "a = 1") /\ strip_inline_comments (s "a") [s "#"; []] = Raise ValueError.
Proof. repeat split; vm_compute; reflexivity. Qed.
