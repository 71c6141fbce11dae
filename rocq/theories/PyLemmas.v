(** Facts about the Python vocabulary of PyBase. *)
From Verif Require Import PyBase.
From Coq Require Import Sorting.Permutation Sorting.Sorted DecimalN DecimalFacts.
From Coq Require Import ZifyBool ZifyNat ZifyN.

(** ** result *)
Lemma bind_ok {A B} (m : result A) (f : A -> result B) b :
  bind m f = Ok b <-> exists a, m = Ok a /\ f a = Ok b.
Proof.
  destruct m as [a|e]; simpl; split.
  - intros H; exists a; auto.
  - intros (a' & H & H'); injection H as ->; exact H'.
  - discriminate.
  - intros (a' & H & _); discriminate.
Qed.

Lemma mapM_ok {A B} (f : A -> result B) (g : A -> B) xs :
  (forall x, In x xs -> f x = Ok (g x)) -> mapM f xs = Ok (map g xs).
Proof.
  induction xs as [|x xs IH]; simpl; intros H; [reflexivity|].
  rewrite (H x) by auto. simpl. rewrite IH by auto. reflexivity.
Qed.

Lemma mapM_Forall2 {A B} (f : A -> result B) xs ys :
  mapM f xs = Ok ys <-> Forall2 (fun x y => f x = Ok y) xs ys.
Proof.
  revert ys; induction xs as [|x xs IH]; simpl; intros ys.
  - split; [intros H; injection H as <-; constructor | intros H; inversion H; reflexivity].
  - split.
    + intros H. apply bind_ok in H as (y & Hy & H). apply bind_ok in H as (l & Hl & H).
      injection H as <-. constructor; [exact Hy | apply IH; exact Hl].
    + intros H. inversion H as [|? y ? l Hy Hl]; subst. rewrite Hy. simpl.
      apply IH in Hl. rewrite Hl. reflexivity.
Qed.

(** ** strings *)
Lemma str_eqb_spec a b : reflect (a = b) (str_eqb a b).
Proof.
  revert b; induction a as [|x a IH]; intros [|y b]; simpl; try (constructor; congruence).
  destruct (Ascii.eqb_spec x y) as [->|N]; simpl.
  - destruct (IH b) as [->|N]; constructor; congruence.
  - constructor; congruence.
Qed.
Lemma str_eqb_refl a : str_eqb a a = true.
Proof. destruct (str_eqb_spec a a); congruence. Qed.
Lemma str_eqb_eq a b : str_eqb a b = true <-> a = b.
Proof. destruct (str_eqb_spec a b); split; congruence. Qed.
Lemma str_eqb_neq a b : str_eqb a b = false <-> a <> b.
Proof. destruct (str_eqb_spec a b); split; congruence. Qed.
Lemma str_eq_dec (a b : str) : {a = b} + {a <> b}.
Proof. destruct (str_eqb_spec a b); auto. Qed.

Lemma N_of_ascii_inj x y : N_of_ascii x = N_of_ascii y -> x = y.
Proof. intros H. rewrite <- (ascii_N_embedding x), <- (ascii_N_embedding y), H. reflexivity. Qed.

Lemma str_ltb_irrefl a : str_ltb a a = false.
Proof.
  induction a as [|x a IH]; simpl; [reflexivity|].
  rewrite N.ltb_irrefl, N.eqb_refl. exact IH.
Qed.
Lemma str_ltb_trans a b c : str_ltb a b = true -> str_ltb b c = true -> str_ltb a c = true.
Proof.
  revert b c; induction a as [|x a IH]; intros [|y b] [|z c]; simpl; try congruence.
  destruct (N.ltb_spec (N_of_ascii x) (N_of_ascii y)) as [H1|H1];
  destruct (N.eqb_spec (N_of_ascii x) (N_of_ascii y)) as [E1|E1];
  destruct (N.ltb_spec (N_of_ascii y) (N_of_ascii z)) as [H2|H2];
  destruct (N.eqb_spec (N_of_ascii y) (N_of_ascii z)) as [E2|E2];
  destruct (N.ltb_spec (N_of_ascii x) (N_of_ascii z)) as [H3|H3];
  destruct (N.eqb_spec (N_of_ascii x) (N_of_ascii z)) as [E3|E3];
  intros; try congruence; try lia; eauto.
Qed.
Lemma str_ltb_total a b : str_ltb a b = false -> str_ltb b a = false -> a = b.
Proof.
  revert b; induction a as [|x a IH]; intros [|y b]; simpl; try congruence.
  destruct (N.ltb_spec (N_of_ascii x) (N_of_ascii y)) as [H1|H1];
  destruct (N.eqb_spec (N_of_ascii x) (N_of_ascii y)) as [E1|E1];
  destruct (N.ltb_spec (N_of_ascii y) (N_of_ascii x)) as [H2|H2];
  destruct (N.eqb_spec (N_of_ascii y) (N_of_ascii x)) as [E2|E2];
  intros; try congruence; try lia.
  f_equal; [apply N_of_ascii_inj; lia | auto].
Qed.
Lemma str_ltb_asym a b : str_ltb a b = true -> str_ltb b a = false.
Proof.
  intros H. destruct (str_ltb b a) eqn:E; [|reflexivity].
  rewrite <- (str_ltb_irrefl a). symmetry. eapply str_ltb_trans; eauto.
Qed.

(** ** rationals *)
Lemma qc_eq (a b : Qc) : qnum a = qnum b -> qden a = qden b -> a = b.
Proof.
  intros H1 H2. apply Qc_is_canon. destruct a as [[n d] Ha], b as [[n' d'] Hb].
  unfold qnum, qden in *; simpl in *. subst. reflexivity.
Qed.
Lemma qc_eqb_spec a b : reflect (a = b) (qc_eqb a b).
Proof.
  unfold qc_eqb. destruct (Z.eqb_spec (qnum a) (qnum b)), (Pos.eqb_spec (qden a) (qden b));
    simpl; constructor; try congruence. apply qc_eq; assumption.
Qed.
Lemma qc_eqb_refl a : qc_eqb a a = true.
Proof. destruct (qc_eqb_spec a a); congruence. Qed.
Lemma qc_eqb_eq a b : qc_eqb a b = true <-> a = b.
Proof. destruct (qc_eqb_spec a b); split; congruence. Qed.
Lemma qc_eqb_neq a b : qc_eqb a b = false <-> a <> b.
Proof. destruct (qc_eqb_spec a b); split; congruence. Qed.
Lemma qc_ltb_spec a b : reflect (Qclt a b) (qc_ltb a b).
Proof. apply iff_reflect. unfold qc_ltb. rewrite Z.ltb_lt. reflexivity. Qed.
Lemma qc_leb_spec a b : reflect (Qcle a b) (qc_leb a b).
Proof. apply iff_reflect. unfold qc_leb. rewrite Z.leb_le. reflexivity. Qed.
Lemma qc_ltb_irrefl a : qc_ltb a a = false.
Proof. unfold qc_ltb. apply Z.ltb_irrefl. Qed.

Lemma this_mkq n d : this (mkq n d) = Qred (n # d).
Proof. reflexivity. Qed.
Lemma mkq_this (q : Qc) : mkq (qnum q) (qden q) = q.
Proof.
  apply Qc_is_canon. rewrite this_mkq, Qred_correct. unfold qnum, qden.
  destruct (this q); reflexivity.
Qed.
Lemma mkq_eq n d n' d' : (n * Zpos d' = n' * Zpos d)%Z -> mkq n d = mkq n' d'.
Proof. intros H. apply Qc_is_canon. rewrite !this_mkq, !Qred_correct. exact H. Qed.
Lemma mkq_add n d n' d' : (mkq n d + mkq n' d')%Qc = mkq (n * Zpos d' + n' * Zpos d) (d * d').
Proof. apply Qc_is_canon. unfold Qcplus. cbn [this Q2Qc]. rewrite this_mkq, !Qred_correct.
  rewrite !this_mkq, !Qred_correct. reflexivity. Qed.
Lemma mkq_mul n d n' d' : (mkq n d * mkq n' d')%Qc = mkq (n * n') (d * d').
Proof. apply Qc_is_canon. unfold Qcmult. cbn [this Q2Qc]. rewrite this_mkq, !Qred_correct.
  rewrite !this_mkq, !Qred_correct. reflexivity. Qed.
Lemma mkq_opp n d : (- mkq n d)%Qc = mkq (- n) d.
Proof. apply Qc_is_canon. unfold Qcopp. cbn [this Q2Qc]. rewrite this_mkq, !Qred_correct.
  rewrite !this_mkq, !Qred_correct. reflexivity. Qed.
Lemma zq_num z : qnum (zq z) = z.
Proof. unfold zq, mkq, qnum. simpl. unfold Qred.
  destruct (Z.ggcd z 1) as [g [a b]] eqn:E.
  pose proof (Z.ggcd_gcd z 1) as G. pose proof (Z.ggcd_correct_divisors z 1) as D.
  rewrite E in *. simpl in *. rewrite Z.gcd_1_r in G. lia. Qed.
Lemma zq_den z : qden (zq z) = 1%positive.
Proof. unfold zq, mkq, qden. simpl. unfold Qred.
  destruct (Z.ggcd z 1) as [g [a b]] eqn:E.
  pose proof (Z.ggcd_gcd z 1) as G. pose proof (Z.ggcd_correct_divisors z 1) as D.
  rewrite E in *. simpl in *. rewrite Z.gcd_1_r in G. lia. Qed.
Lemma zq_inj a b : zq a = zq b -> a = b.
Proof. intros H. rewrite <- (zq_num a), <- (zq_num b), H. reflexivity. Qed.
Lemma isint_zq q : q_isint q = true -> q = zq (qnum q).
Proof.
  unfold q_isint. destruct (Pos.eqb_spec (qden q) 1) as [H|H]; [|discriminate]. intros _.
  rewrite <- (mkq_this q) at 1. rewrite H. reflexivity.
Qed.
Lemma zq_isint z : q_isint (zq z) = true.
Proof. unfold q_isint. rewrite zq_den. reflexivity. Qed.
Lemma zq_add a b : (zq a + zq b)%Qc = zq (a + b).
Proof. unfold zq. rewrite mkq_add. apply mkq_eq. lia. Qed.
Lemma zq_mul a b : (zq a * zq b)%Qc = zq (a * b).
Proof. unfold zq. rewrite mkq_mul. apply mkq_eq. lia. Qed.
Lemma zq_opp a : (- zq a)%Qc = zq (- a).
Proof. apply mkq_opp. Qed.
Lemma zq_0 : zq 0 = 0%Qc. Proof. apply Qc_is_canon. reflexivity. Qed.
Lemma zq_1 : zq 1 = 1%Qc. Proof. apply Qc_is_canon. reflexivity. Qed.

(** ** decimal strings *)
Lemma str_of_uint_digits d : Forall (fun c => is_digit c = true) (str_of_uint d).
Proof. induction d; simpl; constructor; auto. Qed.

Fixpoint uint_val (a : N) (d : Decimal.uint) : N :=
  match d with
  | Decimal.Nil => a
  | Decimal.D0 d => uint_val (10 * a) d
  | Decimal.D1 d => uint_val (10 * a + 1) d
  | Decimal.D2 d => uint_val (10 * a + 2) d
  | Decimal.D3 d => uint_val (10 * a + 3) d
  | Decimal.D4 d => uint_val (10 * a + 4) d
  | Decimal.D5 d => uint_val (10 * a + 5) d
  | Decimal.D6 d => uint_val (10 * a + 6) d
  | Decimal.D7 d => uint_val (10 * a + 7) d
  | Decimal.D8 d => uint_val (10 * a + 8) d
  | Decimal.D9 d => uint_val (10 * a + 9) d
  end.

Lemma N_of_str_uint a d :
  fold_left (fun a c => (10 * a + digit_val c)%N) (str_of_uint d) a = uint_val a d.
Proof.
  revert a; induction d; intros a; cbn [str_of_uint fold_left uint_val]; [reflexivity|..];
    rewrite IHd; f_equal; unfold digit_val; simpl; lia.
Qed.

Lemma uint_val_pos p d : uint_val (Npos p) d = Npos (Pos.of_uint_acc d p).
Proof.
  revert p; induction d; intros p; cbn [uint_val Pos.of_uint_acc]; [reflexivity|..];
    rewrite <- IHd; f_equal; lia.
Qed.

Lemma uint_val_of_uint d : uint_val 0 d = N.of_uint d.
Proof.
  unfold N.of_uint.
  induction d; simpl; try (apply uint_val_pos); auto.
Qed.

Lemma N_of_str_of_N n : N_of_str (str_of_N n) = n.
Proof.
  destruct n as [|p]; [reflexivity|]. unfold str_of_N, N_of_str.
  rewrite N_of_str_uint, uint_val_of_uint. apply DecimalN.Unsigned.of_to.
Qed.
Lemma str_of_N_digits n : Forall (fun c => is_digit c = true) (str_of_N n).
Proof. destruct n as [|p]; [repeat constructor|]. apply str_of_uint_digits. Qed.
Lemma str_of_N_nonempty n : str_of_N n <> [].
Proof.
  destruct n as [|p]; [discriminate|]. intros H.
  assert (E : N_of_str (str_of_N (Npos p)) = 0%N) by (rewrite H; reflexivity).
  rewrite N_of_str_of_N in E. discriminate.
Qed.
(** ** doubles *)
Lemma round_half_even_exact a b : round_half_even (a * Zpos b) b = a.
Proof.
  unfold round_half_even. rewrite Z_div_mult by lia. rewrite Z_mod_mult.
  simpl. reflexivity.
Qed.

(** Integers of at most 53 bits are doubles. *)
Lemma fl_pos_int n : (Zpos n < 2 ^ 53)%Z -> fl_pos n 1 = zq (Zpos n).
Proof.
  intros Hn. unfold fl_pos.
  assert (L1 : (2 ^ Z.log2 (Zpos n) <= Zpos n < 2 ^ (Z.succ (Z.log2 (Zpos n))))%Z)
    by (apply Z.log2_spec; lia).
  assert (L0 : (0 <= Z.log2 (Zpos n))%Z) by apply Z.log2_nonneg.
  assert (Lb : (Z.log2 (Zpos n) < 53)%Z) by (apply Z.log2_lt_pow2; lia).
  change (Z.log2 1) with 0%Z. rewrite Z.sub_0_r.
  set (e := (Z.log2 (Zpos n) - 52)%Z).
  assert (He : (e <= 0)%Z) by lia.
  destruct (Z.leb_spec 0 e) as [H0|H0].
  - assert (E : e = 0%Z) by lia. rewrite E.
    change (2 ^ 0)%Z with 1%Z. change (Z.to_pos 1) with 1%positive.
    rewrite !Z.mul_1_r. cbn [Pos.mul].
    destruct (Z.leb_spec (2 ^ 52) (Zpos n)) as [H1|H1].
    + cbn [Z.leb Z.compare]. change (2^0)%Z with 1%Z. change (Z.to_pos 1) with 1%positive.
      cbn [Pos.mul]. rewrite <- (Z.mul_1_r (Zpos n)) at 1. rewrite round_half_even_exact.
      rewrite Z.mul_1_r. reflexivity.
    + exfalso. assert (Z.log2 (Zpos n) = 52)%Z by lia.
      rewrite H in L1. lia.
  - assert (P1 : (2 ^ 52 = 2 ^ Z.log2 (Zpos n) * 2 ^ (- e))%Z).
    { rewrite <- Z.pow_add_r by lia. f_equal. lia. }
    destruct (Z.leb_spec (2 ^ 52 * 1) (Zpos n * 2 ^ (- e))) as [H1|H1].
    + destruct (Z.leb_spec 0 e); [lia|].
      replace (Zpos n * 2 ^ (-e))%Z with (Zpos n * 2 ^ (-e) * Zpos 1)%Z by lia.
      rewrite round_half_even_exact.
      apply mkq_eq. rewrite Z2Pos.id by (apply Z.pow_pos_nonneg; lia). lia.
    + exfalso. assert (0 < 2 ^ (- e))%Z by (apply Z.pow_pos_nonneg; lia). nia.
Qed.

Lemma fl_zq z : (Z.abs z < 2 ^ 53)%Z -> fl (zq z) = zq z.
Proof.
  intros H. unfold fl. rewrite zq_num, zq_den.
  destruct z as [|p|p].
  - symmetry; exact zq_0.
  - apply fl_pos_int. lia.
  - rewrite fl_pos_int by lia. rewrite zq_opp. reflexivity.
Qed.

Lemma fl_1 : fl 1%Qc = 1%Qc.
Proof. rewrite <- zq_1. apply fl_zq. reflexivity. Qed.
Lemma fl_0 : fl 0%Qc = 0%Qc.
Proof. reflexivity. Qed.
