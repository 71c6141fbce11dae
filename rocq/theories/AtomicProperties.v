(** * C41: atomic species *)
From Verif Require Import PyBase PyLemmas ContainerModel ContainerProofs ContainerProofs2 ParameterModel ParameterSpec ParameterNumbers ParameterProperties AtomicModel.
From Coq Require Import Lia.
Local Open Scope Qc_scope.

(** ** rounding *)
Lemma floor_le q : zq (py_floor q) <= q /\ q < zq (py_floor q + 1).
Proof.
  unfold py_floor. pose proof (mkq_this q) as H. revert H. generalize (qnum q) (qden q). intros n d <-.
  assert (E : forall z d, Qeq (this (mkq z d)) (z # d)) by (intros; apply Qred_correct).
  unfold Qcle, Qclt. split.
  - apply (Qle_trans _ (n / Zpos d # 1)); [apply Qle_lteq; right; apply E|]. apply (Qle_trans _ (n # d)); [|apply Qle_lteq; right; symmetry; apply E].
    unfold Qle. cbn [Qnum Qden]. pose proof (Z.mul_div_le n (Zpos d)). lia.
  - apply (Qle_lt_trans _ (n # d)); [apply Qle_lteq; right; apply E|]. apply (Qlt_le_trans _ (n / Zpos d + 1 # 1)); [|apply Qle_lteq; right; symmetry; apply E].
    unfold Qlt. cbn [Qnum Qden]. pose proof (Z.mul_succ_div_gt n (Zpos d)). lia.
Qed.
Lemma half_twice : mkq 1 2 + mkq 1 2 = 1.
Proof. apply Qc_is_canon; vm_compute; reflexivity. Qed.
(** [round] gives a nearest integer. *)
Theorem C41_rounding q : zq (py_round q) - mkq 1 2 <= q /\ q <= zq (py_round q) + mkq 1 2.
Proof.
  destruct (floor_le q) as (A & B). unfold py_round. set (f := py_floor q) in *. clearbody f.
  assert (F : zq (f + 1) = zq f + 1) by (rewrite <- zq_add, zq_1; reflexivity). rewrite F in B. pose proof half_twice as H2. set (h := mkq 1 2) in *.
  assert (HP : 0 <= h) by (unfold Qcle; vm_compute; discriminate). clearbody h.
  assert (P : forall a b c : Qc, a <= b -> a + c <= b + c).
  { intros a b c H. apply Qcplus_le_compat; [exact H|apply Qcle_refl]. }
  assert (LO : zq f - h <= q).
  { eapply Qcle_trans; [|exact A]. rewrite <- (Qcplus_0_r (zq f)) at 2. unfold Qcminus. apply Qcplus_le_compat; [apply Qcle_refl|].
    apply Qcopp_le_compat in HP. exact HP. }
  destruct (qc_ltb_spec (q - zq f) h) as [L|L].
  - split; [exact LO|]. apply Qclt_le_weak in L. apply (P _ _ (zq f)) in L. replace (q - zq f + zq f) with q in L by ring.
    rewrite (Qcplus_comm h) in L. exact L.
  - assert (G : zq (f + 1) - h <= q /\ q <= zq (f + 1) + h).
    { rewrite F. split.
      - apply Qcnot_lt_le in L. apply (P _ _ (zq f)) in L. replace (q - zq f + zq f) with q in L by ring.
        replace (zq f + 1 - h) with (h + zq f); [exact L|]. rewrite <- H2. ring.
      - apply Qclt_le_weak in B. eapply Qcle_trans; [exact B|]. rewrite <- (Qcplus_0_r (zq f + 1)) at 1. apply Qcplus_le_compat; [apply Qcle_refl|exact HP]. }
    destruct (qc_ltb_spec h (q - zq f)) as [M|M]; [exact G|]. destruct (Z.even f); [|exact G]. split; [exact LO|].
    apply Qcnot_lt_le in M. apply (P _ _ (zq f)) in M. replace (q - zq f + zq f) with q in M by ring. rewrite (Qcplus_comm h) in M. exact M.
Qed.
Print Assumptions C41_rounding.

(** ** the table *)
Definition charge_text (z : Z) : str := repeat (if (0 <? z)%Z then "+"%char else "-"%char) (Z.to_nat (Z.abs z)).
Lemma int_zq z : py_int (zq z) = z.
Proof.
  unfold py_int, py_floor. destruct (qc_ltb (zq z) 0); [rewrite zq_opp|]; rewrite zq_num, zq_den, Z.div_1_r; lia.
Qed.
Lemma signs_zq z : charge_signs (zq z) = charge_text z.
Proof.
  unfold charge_signs, charge_text. rewrite int_zq. f_equal. destruct (qc_ltb_spec 0 (zq z)) as [L|L]; destruct (Z.ltb_spec 0 z) as [M|M]; try reflexivity; exfalso.
  - rewrite <- zq_0 in L. unfold Qclt, zq in L. assert (E : forall z, Qeq (this (zq z)) (z # 1)) by (intros; apply Qred_correct).
    assert (L2 : Qlt (0 # 1) (z # 1)) by (rewrite <- (E 0%Z), <- (E z); exact L). unfold Qlt in L2. cbn in L2. lia.
  - apply L. rewrite <- zq_0. unfold Qclt. assert (E : forall z, Qeq (this (zq z)) (z # 1)) by (intros; apply Qred_correct).
    rewrite (E 0%Z), (E z). unfold Qlt. cbn. lia.
Qed.
Lemma index_spec l x : match index_of l x with
  | Some n => nth_error l n = Some x /\ forall m, (m < n)%nat -> nth_error l m <> Some x
  | None => ~ In x l
  end.
Proof.
  induction l as [|y l IH]; cbn [index_of]; [intros []|]. destruct (Z.eqb_spec y x) as [->|N].
  - split; [reflexivity|intros m L; lia].
  - destruct (index_of l x) as [n|].
    + destruct IH as (A & B). split; [exact A|]. intros [|m] L; [cbn; congruence|]. cbn. apply B. lia.
    + intros [H|H]; [congruence|contradiction].
Qed.
(** What the package does for a mass and an integral charge. *)
Definition first_with_mass (m : Qc) (e : element) : Prop :=
  exists before after, elements_table = before ++ e :: after /\ py_round (e_mass e) = py_round m /\
    Forall (fun e' => py_round (e_mass e') <> py_round m) before.
Lemma species_cases m z :
  (exists e, first_with_mass m e /\ species m (zq z) = Ok (e_symbol e ++ charge_text z)) \/
  (Forall (fun e => py_round (e_mass e) <> py_round m) elements_table /\ species m (zq z) = Raise (OtherError "MassValueError")).
Proof.
  unfold species, elements, get_mass_indices. cbn [length Nat.eqb negb mapM]. unfold nucleons. rewrite map_map. cbn [snd].
  pose proof (index_spec (map (fun e => py_round (e_mass e)) elements_table) (py_round m)) as H.
  destruct (index_of (map (fun e => py_round (e_mass e)) elements_table) (py_round m)) as [n|].
  - destruct H as (A & B). rewrite nth_error_map in A. destruct (nth_error elements_table n) as [e|] eqn:E; [|discriminate]. injection A as A.
    left. exists e. split.
    + apply nth_error_split in E as (l1 & l2 & E & L). exists l1, l2. split; [exact E|]. split; [exact A|]. apply Forall_forall. intros e' I X.
      apply In_nth_error in I as (k & K). assert (Lk : (k < n)%nat) by (subst n; apply nth_error_Some; congruence).
      apply (B k Lk). rewrite nth_error_map. rewrite E, nth_error_app1 by (subst n; exact Lk). rewrite K. cbn. congruence.
    + cbn [bind mapM]. rewrite map_map. cbn [fst]. change (fun x => e_symbol x) with e_symbol. rewrite nth_error_map, E. cbn [option_map bind combine map fst snd]. rewrite signs_zq. reflexivity.
  - right. split; [|reflexivity]. apply Forall_forall. intros e I X. apply H. apply in_map_iff. exists e. split; [exact X|exact I].
Qed.
(** Which masses are accepted, and which element is chosen: the first of the
    table with the same rounded mass. *)
Theorem C41_accepts m z : (exists x, species m (zq z) = Ok x) <-> exists e, In e elements_table /\ py_round (e_mass e) = py_round m.
Proof.
  destruct (species_cases m z) as [(e & (b & a & E & R & _) & ->)|(F & ->)].
  - split; [|intros _; eexists; reflexivity]. intros _. exists e. split; [rewrite E; apply in_or_app; right; left; reflexivity|exact R].
  - split; [intros (x & H); discriminate|]. intros (e & I & R). exfalso. exact (proj1 (Forall_forall _ _) F e I R).
Qed.
Print Assumptions C41_accepts.
Theorem C41_rejects m z e : species m (zq z) = Raise e -> e = OtherError "MassValueError".
Proof. destruct (species_cases m z) as [(e' & _ & ->)|(_ & ->)]; [discriminate|]. congruence. Qed.
Print Assumptions C41_rejects.

(** ** symbols *)
Lemma pm_text z c : In c (charge_text z) -> is_pm c = true.
Proof. unfold charge_text. intros H. apply repeat_spec in H. subst c. destruct (0 <? z)%Z; reflexivity. Qed.
Lemma rstrip_text x z : (forall c, In c x -> is_pm c = false) -> species_base (x ++ charge_text z) = x.
Proof.
  intros H. unfold species_base, rstrip_chars. rewrite rev_app_distr.
  assert (G : forall t y, (forall c, In c t -> is_pm c = true) -> lstrip_chars is_pm (t ++ y) = lstrip_chars is_pm y).
  { induction t as [|c t IH]; intros y K; [reflexivity|]. cbn [app lstrip_chars]. rewrite (K c (or_introl eq_refl)). apply IH. intros d D. apply K. right. exact D. }
  rewrite G by (intros c C; apply (pm_text z), in_rev, C). rewrite lstrip_none by (intros c C; apply H, in_rev, C). apply rev_involutive.
Qed.
Lemma sum_ones c v n : float_of_str (c :: s "1.0") = Ok v ->
  forall acc, (vs <- mapM (fun c => float_of_str (c :: s "1.0")) (repeat c n) ;; Ok (fold_left Qcplus vs acc)) = Ok (acc + zq (Z.of_nat n) * v).
Proof.
  intros E. induction n as [|n IH]; intros acc.
  - cbn [repeat mapM bind fold_left]. f_equal. change (Z.of_nat 0) with 0%Z. rewrite zq_0. ring.
  - cbn [repeat mapM]. rewrite E. cbn [bind]. specialize (IH (acc + v)). destruct (mapM _ (repeat c n)) as [vs|]; [|discriminate]. cbn [bind fold_left] in *.
    rewrite IH. f_equal. rewrite Nat2Z.inj_succ, <- Z.add_1_r, <- zq_add, zq_1. ring.
Qed.
Lemma charge_of_text x z : (forall c, In c x -> is_pm c = false) -> species_charge (x ++ charge_text z) = Ok (zq z).
Proof.
  intros H. unfold species_charge. rewrite (rstrip_text x z H).
  assert (L : lstrip_chars (fun c => existsb (Ascii.eqb c) x) (x ++ charge_text z) = charge_text z).
  { assert (G : forall y t, (forall c, In c y -> In c x) -> lstrip_chars (fun c => existsb (Ascii.eqb c) x) (y ++ t) = lstrip_chars (fun c => existsb (Ascii.eqb c) x) t).
    { induction y as [|c y IH]; intros t K; [reflexivity|]. cbn [app lstrip_chars].
      assert (existsb (Ascii.eqb c) x = true) as -> by (apply existsb_exists; exists c; split; [apply K; left; reflexivity|apply Ascii.eqb_refl]).
      apply IH. intros d D. apply K. right. exact D. }
    rewrite G by auto. apply lstrip_none. intros c C. destruct (existsb (Ascii.eqb c) x) eqn:X; [|reflexivity]. exfalso.
    apply existsb_exists in X as (d & D & E). apply Ascii.eqb_eq in E. subst d. pose proof (pm_text z c C) as P. rewrite (H c D) in P. discriminate. }
  rewrite L. unfold charge_text. destruct (Z.ltb_spec 0 z) as [P|P].
  - rewrite (sum_ones "+"%char 1); [|vm_compute; reflexivity]. f_equal. rewrite Z2Nat.id by lia. rewrite Z.abs_eq by lia. ring.
  - rewrite (sum_ones "-"%char (zq (-1))); [|vm_compute; reflexivity]. f_equal. rewrite Z2Nat.id by lia. rewrite Z.abs_neq by lia.
    rewrite zq_mul, <- zq_0, zq_add. f_equal. lia.
Qed.

(** Every element of the table is found again by its symbol. *)
Definition row_of_b (rows : list (list (str * avalue))) (e : element) : bool :=
  match table_find_unique avalue_eqb rows (AStr (e_symbol e)) with
  | Ok r => match row_get r (s "mass") with Ok (ANum q) => qc_eqb q (e_mass e) | _ => false end
  | Raise _ => false
  end.
Lemma row_found rows e z : (forall c, In c (e_symbol e) -> is_pm c = false) -> row_of_b rows e = true ->
  (r <- table_find_unique avalue_eqb rows (AStr (species_base (e_symbol e ++ charge_text z))) ;;
   v <- row_get r (s "mass") ;; match v with ANum q => Ok q | AStr _ => Raise TypeError end) = Ok (e_mass e).
Proof.
  intros N B. rewrite (rstrip_text _ z N). unfold row_of_b in B. destruct (table_find_unique avalue_eqb rows (AStr (e_symbol e))) as [r|]; [|discriminate]. cbn [bind].
  destruct (row_get r (s "mass")) as [[x|q]|]; try discriminate. cbn [bind]. apply qc_eqb_eq in B. subst q. reflexivity.
Qed.
Lemma table_checked : forallb (fun e => forallb (fun c => negb (is_pm c)) (e_symbol e) && row_of_b (map element_row elements_table) e) elements_table = true.
Proof. vm_compute. reflexivity. Qed.
Lemma table_found e : In e elements_table -> (forall c, In c (e_symbol e) -> is_pm c = false) /\
  forall z, species_mass (e_symbol e ++ charge_text z) = Ok (e_mass e).
Proof.
  intros I. pose proof (proj1 (forallb_forall _ _) table_checked e I) as A. cbv beta in A. apply andb_true_iff in A as (A & B).
  assert (N : forall c, In c (e_symbol e) -> is_pm c = false).
  { intros c C. pose proof (proj1 (forallb_forall _ _) A c C) as X. cbv beta in X. destruct (is_pm c); [discriminate|reflexivity]. }
  split; [exact N|]. intros z. unfold species_mass. exact (row_found _ e z N B).
Qed.
(** ** C41 *)
(** The species of a mass and an integral charge has that charge, and its mass
    rounds to the same integer as the requested mass. *)
Theorem C41_species m z x : species m (zq z) = Ok x ->
  species_charge x = Ok (zq z) /\ exists M, species_mass x = Ok M /\ py_round M = py_round m /\ m - 1 <= M /\ M <= m + 1.
Proof.
  destruct (species_cases m z) as [(e & (b & a & E & R & _) & ->)|(_ & ->)]; [|discriminate]. intros H. injection H as <-.
  assert (I : In e elements_table) by (rewrite E; apply in_or_app; right; left; reflexivity). destruct (table_found e I) as (N & M).
  split; [apply charge_of_text, N|]. exists (e_mass e). split; [apply M|]. split; [exact R|].
  destruct (C41_rounding m) as (A1 & A2), (C41_rounding (e_mass e)) as (B1 & B2). rewrite R in B1, B2. pose proof half_twice as H2.
  set (h := mkq 1 2) in *. set (r := zq (py_round m)) in *. clearbody h r.
  assert (P : forall p q c : Qc, p <= q -> p + c <= q + c) by (intros p q c H; apply Qcplus_le_compat; [exact H|apply Qcle_refl]). split.
  - eapply Qcle_trans; [|exact B1]. apply (P _ _ (- (1))) in A2. unfold Qcminus. replace (r + - h) with (r + h + - (1)); [exact A2|]. rewrite <- H2. ring.
  - eapply Qcle_trans; [exact B2|]. apply (P _ _ 1) in A1. replace (r - h + 1) with (r + h) in A1; [exact A1|]. rewrite <- H2. ring.
Qed.
Print Assumptions C41_species.
Example C41_species_example : species (mkq 400260 100000) (zq 2) = Ok (s "He++") /\ species (zq 16) (zq (-1)) = Ok (s "O-") /\ species (zq 1) (zq 0) = Ok (s "H").
Proof. split; [|split]; vm_compute; reflexivity. Qed.
(** A species given by its symbol has the mass of the element and the charge of
    the signs. *)
Theorem C41_by_symbol e z : In e elements_table -> species_mass (e_symbol e ++ charge_text z) = Ok (e_mass e) /\ species_charge (e_symbol e ++ charge_text z) = Ok (zq z).
Proof. intros I. destruct (table_found e I) as (N & M). split; [apply M|apply charge_of_text, N]. Qed.
Print Assumptions C41_by_symbol.
(** Lists: one symbol per mass and charge, in order. *)
Theorem C41_lists ms zs : length ms = length zs ->
  elements ms (map zq zs) = mapM (fun mz => species (fst mz) (zq (snd mz))) (combine ms zs).
Proof.
  assert (SP : forall m z, species m (zq z) = match index_of (map snd nucleons) (py_round m) with
     | Some n => match nth_error (map fst nucleons) n with Some b => Ok (b ++ charge_signs (zq z)) | None => Raise IndexError end
     | None => Raise (OtherError "MassValueError") end).
  { intros m z. unfold species, elements, get_mass_indices. cbn [length Nat.eqb negb mapM map]. destruct (index_of _ _) as [n|]; [|reflexivity].
    cbn [bind mapM]. destruct (nth_error (map fst nucleons) n); reflexivity. }
  assert (IX : forall m n, index_of (map snd nucleons) (py_round m) = Some n -> exists b, nth_error (map fst nucleons) n = Some b).
  { intros m n H. pose proof (index_spec (map snd nucleons) (py_round m)) as X. rewrite H in X. destruct X as (X & _).
    rewrite nth_error_map in *. destruct (nth_error nucleons n); [eexists; reflexivity|discriminate]. }
  intros L. unfold elements. rewrite map_length, L, Nat.eqb_refl. cbn [negb]. unfold get_mass_indices. revert zs L.
  induction ms as [|m ms IH]; intros [|z zs] L; try discriminate; [reflexivity|]. injection L as L. specialize (IH zs L).
  cbn [combine mapM map fst snd]. rewrite SP. destruct (index_of (map snd nucleons) (py_round m)) as [n|] eqn:E; [|reflexivity]. cbn [bind].
  destruct (IX m n E) as (b & B). rewrite B. cbn [bind]. rewrite <- IH. 
  destruct (mapM _ ms) as [idx|e]; [|reflexivity]. cbn [bind mapM]. rewrite B. cbn [bind].
  destruct (mapM _ idx) as [bs|e]; reflexivity.
Qed.
Print Assumptions C41_lists.
Theorem C41_lengths ms cs : length ms <> length cs -> elements ms cs = Raise TypeError.
Proof. intros L. unfold elements. destruct (Nat.eqb_spec (length ms) (length cs)); [contradiction|reflexivity]. Qed.
Print Assumptions C41_lengths.
(** Looking an element up by its mass gives it back, but for five elements. *)
Definition collisions : list str := [s "Ca"; s "Co"; s "Po"; s "Cm"; s "Db"].
Theorem C41_look_up_again_partial e z : In e elements_table -> ~ In (e_symbol e) collisions ->
  species (e_mass e) (zq z) = Ok (e_symbol e ++ charge_text z).
Proof.
  intros I N.
  assert (A : forallb (fun e => mem str_eqb (e_symbol e) collisions ||
     match index_of (map snd nucleons) (py_round (e_mass e)) with
     | Some n => match nth_error (map fst nucleons) n with Some b => str_eqb b (e_symbol e) | None => false end
     | None => false end) elements_table = true) by (vm_compute; reflexivity).
  rewrite forallb_forall in A. specialize (A e I). apply (mem_false str_eqb str_decides) in N. rewrite N in A. cbn [orb] in A.
  unfold species, elements, get_mass_indices. cbn [length Nat.eqb negb mapM map]. destruct (index_of _ _) as [n|]; [|discriminate]. cbn [bind mapM].
  destruct (nth_error (map fst nucleons) n) as [b|]; [|discriminate]. cbn [bind combine map fst snd]. apply str_eqb_eq in A. subst b. rewrite signs_zq. reflexivity.
Qed.
Print Assumptions C41_look_up_again_partial.
Theorem C41_look_up_again_refuted z :
  In (el "Ca" "Calcium" (mkq 4008 100)) elements_table /\ species (mkq 4008 100) (zq z) = Ok (s "Ar" ++ charge_text z) /\
  In (el "Co" "Cobalt" (mkq 589332 10000)) elements_table /\ species (mkq 589332 10000) (zq z) = Ok (s "Ni" ++ charge_text z) /\
  In (el "Po" "Polonium" (zq 209)) elements_table /\ species (zq 209) (zq z) = Ok (s "Bi" ++ charge_text z) /\
  In (el "Cm" "Curium" (zq 247)) elements_table /\ species (zq 247) (zq z) = Ok (s "Bk" ++ charge_text z) /\
  In (el "Db" "Dubnium" (zq 262)) elements_table /\ species (zq 262) (zq z) = Ok (s "Bh" ++ charge_text z).
Proof.
  assert (S : forall m b, match index_of (map snd nucleons) (py_round m) with
     | Some n => match nth_error (map fst nucleons) n with Some b' => str_eqb b' b | None => false end
     | None => false end = true -> species m (zq z) = Ok (b ++ charge_text z)).
  { intros m b A. unfold species, elements, get_mass_indices. cbn [length Nat.eqb negb mapM map]. destruct (index_of _ _) as [n|]; [|discriminate]. cbn [bind mapM].
    destruct (nth_error (map fst nucleons) n) as [b'|]; [|discriminate]. cbn [bind combine map fst snd]. apply str_eqb_eq in A. subst b'. rewrite signs_zq. reflexivity. }
  assert (T : forall n e, nth_error elements_table n = Some e -> In e elements_table) by (intros n e H; exact (nth_error_In _ n H)).
  split; [apply (T 19%nat); reflexivity|]. split; [apply S; vm_compute; reflexivity|].
  split; [apply (T 27%nat); reflexivity|]. split; [apply S; vm_compute; reflexivity|].
  split; [apply (T 83%nat); reflexivity|]. split; [apply S; vm_compute; reflexivity|].
  split; [apply (T 96%nat); reflexivity|]. split; [apply S; vm_compute; reflexivity|].
  split; [apply (T 107%nat); reflexivity|]. apply S. vm_compute. reflexivity.
Qed.
Print Assumptions C41_look_up_again_refuted.
(** Charges that are not integers are cut off. *)
Theorem C41_charge_refuted : species (zq 1) (mkq 19 10) = Ok (s "H+") /\ species_charge (s "H+") = Ok 1.
Proof. split; vm_compute; reflexivity. Qed.
Print Assumptions C41_charge_refuted.
