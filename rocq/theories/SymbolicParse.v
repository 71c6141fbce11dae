(** The parser reads written expressions with their usual meaning (C04). *)
From Verif Require Import PyBase PyLemmas SymbolicModel SymbolicSpec SymbolicProofs SymbolicRegex.
From Coq Require Import ZifyBool ZifyNat ZifyN.

(** ** integer powers *)
Lemma qcpower_nonzero q n : q <> 0%Qc -> Qcpower q n <> 0%Qc.
Proof.
  intros H. induction n as [|n IH]; simpl; [discriminate|].
  intros E. apply Qcmult_integral in E as [E|E]; auto.
Qed.
Lemma qpowz_nonzero q z : q <> 0%Qc -> qpowz q z <> 0%Qc.
Proof.
  intros H. destruct z as [|p|p]; simpl; [discriminate|apply qcpower_nonzero, H|].
  intros E. pose proof (qcpower_nonzero q (Pos.to_nat p) H) as N.
  assert (C : (Qcpower q (Pos.to_nat p) * / Qcpower q (Pos.to_nat p))%Qc = 1%Qc) by (apply Qcmult_inv_r, N).
  rewrite E in C. rewrite Qcmult_0_r in C. discriminate.
Qed.
Lemma qcpower_add q n m : Qcpower q (n + m) = (Qcpower q n * Qcpower q m)%Qc.
Proof. induction n as [|n IH]; simpl; [ring|]. rewrite IH. ring. Qed.
Lemma qcpower_mul q n m : Qcpower q (n * m) = Qcpower (Qcpower q n) m.
Proof.
  induction m as [|m IH]; [rewrite Nat.mul_0_r; reflexivity|].
  rewrite Nat.mul_succ_r, qcpower_add, IH. simpl. ring.
Qed.
Lemma qcpower_mult a b n : Qcpower (a * b) n = (Qcpower a n * Qcpower b n)%Qc.
Proof. induction n as [|n IH]; simpl; [ring|]. rewrite IH. ring. Qed.
Lemma qcpower_inv a n : a <> 0%Qc -> Qcpower (/ a) n = (/ Qcpower a n)%Qc.
Proof.
  intros H. induction n as [|n IH]; simpl; [reflexivity|]. rewrite IH.
  field. split; [apply qcpower_nonzero|]; assumption.
Qed.
Lemma qcpower_1 n : Qcpower 1 n = 1%Qc.
Proof. induction n as [|n IH]; simpl; [reflexivity|]. rewrite IH. reflexivity. Qed.
Lemma qpowz_1_l z : qpowz 1 z = 1%Qc.
Proof. destruct z; simpl; rewrite ?qcpower_1; reflexivity. Qed.
Lemma qpowz_1_r q : qpowz q 1 = q.
Proof. simpl. ring. Qed.
Lemma qpowz_m1 q : qpowz q (-1) = (/ q)%Qc.
Proof. simpl. f_equal. ring. Qed.
Lemma qpowz_mult a b z : qpowz (a * b) z = (qpowz a z * qpowz b z)%Qc.
Proof.
  destruct z as [|p|p]; simpl; [ring | apply qcpower_mult |].
  rewrite qcpower_mult.
  destruct (qc_eqb_spec (Qcpower a (Pos.to_nat p)) 0) as [E|N1].
  { rewrite E. rewrite Qcmult_0_l. change (/ 0)%Qc with 0%Qc. rewrite Qcmult_0_l. reflexivity. }
  destruct (qc_eqb_spec (Qcpower b (Pos.to_nat p)) 0) as [E|N2].
  { rewrite E. rewrite Qcmult_0_r. change (/ 0)%Qc with 0%Qc. rewrite Qcmult_0_r. reflexivity. }
  field; auto.
Qed.
Lemma qcinv_inv q : (/ / q)%Qc = q.
Proof. apply Qcinv_involutive || (apply Qc_is_canon; simpl; rewrite !Qred_correct; apply Qinv_involutive). Qed.
Lemma qpowz_opp q z : qpowz q (- z) = (/ qpowz q z)%Qc.
Proof. destruct z as [|p|p]; simpl; [reflexivity|reflexivity|]. rewrite qcinv_inv. reflexivity. Qed.
Lemma qpowz_inv q z : q <> 0%Qc -> qpowz (/ q) z = (/ qpowz q z)%Qc.
Proof.
  intros H. destruct z as [|p|p]; simpl; [reflexivity | apply qcpower_inv, H |].
  rewrite qcpower_inv by exact H. reflexivity.
Qed.
Lemma qpowz_mul q a b : q <> 0%Qc -> qpowz q (a * b) = qpowz (qpowz q a) b.
Proof.
  intros H. destruct a as [|p|p], b as [|r|r]; cbn [qpowz Z.mul]; try reflexivity;
    rewrite ?qcpower_1, ?Pos2Nat.inj_mul, ?qcpower_mul; try reflexivity.
  - rewrite qcpower_inv by (apply qcpower_nonzero, H). reflexivity.
  - rewrite qcpower_inv by (apply qcpower_nonzero, H). rewrite qcinv_inv. reflexivity.
Qed.

Section Parse.
Variable libm_pow : Qc -> Qc -> option Qc.
Set Default Proof Using "Type".

(** ** strip *)
Definition good_first (x : str) : Prop := exists c x', x = c :: x' /\ is_space c = false.
Definition good_last (x : str) : Prop := exists x' c, x = x' ++ [c] /\ is_space c = false.
Lemma strip_id x : good_first x -> good_last x -> strip x = x.
Proof.
  intros (c & x' & E & H) (y & d & E' & H'). unfold strip.
  assert (L : lstrip x = x) by (rewrite E; simpl; rewrite H; reflexivity).
  rewrite L. unfold rstrip. rewrite E', rev_app_distr. simpl. rewrite H'.
  rewrite <- (rev_involutive (y ++ [d])), rev_app_distr. simpl. reflexivity.
Qed.
Lemma lstrip_blanks n x : good_first x -> lstrip (blanks n ++ x) = x.
Proof.
  intros (c & x' & E & H). induction n as [|n IH]; simpl; [|exact IH].
  rewrite E. simpl. rewrite H. reflexivity.
Qed.
Lemma strip_blanks n x : good_first x -> good_last x -> strip (blanks n ++ x) = x.
Proof.
  intros F L. unfold strip. rewrite lstrip_blanks by exact F.
  pose proof (strip_id x F L) as S. unfold strip in S.
  destruct F as (c & x' & E & H).
  replace (lstrip x) with x in S; [exact S|]. rewrite E. simpl. rewrite H. reflexivity.
Qed.

(** ** symbols *)
Lemma is_symbol_shape b : is_symbol b = true ->
  exists c ls ds, b = c :: ls ++ ds /\ is_basechar c = true /\
    Forall (fun c => is_basechar c = true) ls /\ Forall (fun c => is_digit c = true) ds.
Proof.
  destruct b as [|c b]; simpl; [discriminate|]. intros H.
  apply andb_true_iff in H as [Hc H]. rewrite Hc in H.
  assert (K : forall x, (fix go (x : str) : bool :=
                 match x with
                 | [] => true
                 | c :: x' => if is_basechar c then go x' else forallb is_digit x
                 end) x = true ->
     exists ls ds, x = ls ++ ds /\ Forall (fun c => is_basechar c = true) ls
                   /\ Forall (fun c => is_digit c = true) ds).
  { clear. induction x as [|c x IH]; intros H.
    - exists [], []. auto.
    - destruct (is_basechar c) eqn:E.
      + destruct (IH H) as (ls & ds & -> & F1 & F2). exists (c :: ls), ds. auto.
      + exists [], (c :: x). repeat split; auto. apply Forall_forall.
        intros d Hd. rewrite forallb_forall in H. auto. }
  apply K in H as (ls & ds & -> & F1 & F2). exists c, ls, ds. auto.
Qed.

Lemma base_hd b k : is_symbol b = true -> nothead is_basechar k = true -> nothead is_digit k = true ->
  hd_error (re_base (b ++ k)) = Some (b, k).
Proof.
  intros S K1 K2. apply is_symbol_shape in S as (c & ls & ds & -> & Hc & F1 & F2).
  unfold re_base. change (c :: ls ++ ds) with ((c :: ls) ++ ds).
  eapply hd_seq with (y := ds ++ k).
  - rewrite <- app_assoc. cbn [app]. apply plus_hd; auto.
    destruct ds as [|d ds]; [exact K1|]. simpl. inversion F2; subst.
    rewrite digit_not_basechar by assumption. reflexivity.
  - apply star_hd; assumption.
Qed.

Lemma rational_nil x : nothead is_digit x = true -> nothead is_sign x = true ->
  nothead (is_c ".") x = true -> re_rational x = [].
Proof.
  intros H1 H2 H3. rewrite re_rational_eq. unfold p_seq at 1. rewrite opt_nil by (apply chr_nil, H2).
  cbn [flat_map snd fst]. unfold p_seq at 1.
  assert (E : re_front x = []).
  { unfold re_front, p_ahead, p_alt. rewrite chr_nil by exact H1.
    rewrite hd_seq_nil by (apply chr_nil, H3). reflexivity. }
  rewrite E. reflexivity.
Qed.
Lemma rational_basechar c x : is_basechar c = true -> re_rational (c :: x) = [].
Proof.
  intros H. apply rational_nil; simpl.
  - rewrite basechar_not_digit by exact H. reflexivity.
  - rewrite basechar_not_sign by exact H. reflexivity.
  - unfold is_c. rewrite (basechar_not_c c "." H) by reflexivity. reflexivity.
Qed.

Lemma symbol_valid b : is_symbol b = true -> base_is_valid b = true.
Proof.
  intros S. pose proof (is_symbol_shape b S) as (c & ls & ds & E & Hc & _).
  unfold base_is_valid. destruct (full_match (re_rational b)) eqn:F; [reflexivity|].
  pose proof (base_hd b [] S eq_refl eq_refl) as H. rewrite app_nil_r in H.
  destruct (re_base b) as [|m l]; [discriminate|]. simpl in H. injection H as ->.
  reflexivity.
Qed.
Lemma symbol_not_one b : is_symbol b = true -> b <> one_base.
Proof. intros H ->. discriminate. Qed.

Lemma cap_opt_nil p x : p x = [] -> cap_opt p x = [(None, x)].
Proof. unfold cap_opt. intros ->. reflexivity. Qed.
Lemma exponent_nil x : nothead (is_c "^") x = true -> re_exponent x = [].
Proof. intros H. apply hd_seq_nil, chr_nil, H. Qed.
Lemma exponent_hd e k : short_den e = true -> kok k = true ->
  hd_error (re_exponent ("^"%char :: str_of_q e ++ k)) = Some ("^"%char :: str_of_q e, k).
Proof.
  intros S K. change ("^"%char :: str_of_q e) with (["^"%char] ++ str_of_q e).
  eapply hd_seq with (y := str_of_q e ++ k); [reflexivity|].
  apply rational_hd; [apply str_of_q_shape, S | exact K].
Qed.
Lemma no_caret e : short_den e = true ->
  filter (fun c => negb (Ascii.eqb c "^")) (str_of_q e) = str_of_q e.
Proof.
  intros S. pose proof (num_shape_chars _ (str_of_q_shape e S)) as F.
  induction F as [|c x Hc F IH]; simpl; [reflexivity|].
  assert (E : Ascii.eqb c "^" = false).
  { destruct (Ascii.eqb_spec c "^") as [->|]; [|reflexivity].
    destruct Hc as [Hc|[Hc|Hc]]; discriminate. }
  rewrite E. simpl. rewrite IH. reflexivity.
Qed.

(** the optional exponent after a symbol *)
Lemma cap_exponent e k : short_den e = true -> kok k = true ->
  hd_error (cap_opt re_exponent (power_text e ++ k)) =
  Some (if qc_eqb e 1 then None else Some ("^"%char :: str_of_q e), k).
Proof.
  intros S K. unfold power_text, cap_opt. destruct (qc_eqb e 1); cbn [app].
  - rewrite exponent_nil by (apply kok_nothead; [exact K|reflexivity..]). reflexivity.
  - pose proof (exponent_hd e k S K) as H.
    destruct (re_exponent _) as [|m l]; [discriminate|]. simpl in *. injection H as ->. reflexivity.
Qed.

Lemma power_head f e k : f "^"%char = false -> nothead f k = true -> nothead f (power_text e ++ k) = true.
Proof.
  intros H K. unfold power_text. destruct (qc_eqb e 1); simpl; [exact K|]. rewrite H. reflexivity.
Qed.

Lemma match_var b e k :
  is_symbol b = true -> e <> 0%Qc -> short_den e = true -> kok k = true ->
  match_simplex libm_pow MMatch (b ++ power_text e ++ k) = Ok (Some (var_term b e, k)).
Proof.
  intros S N E K. unfold match_simplex.
  pose proof (is_symbol_shape b S) as (c & ls & ds & Eb & Hc & _).
  assert (R0 : re_rational (b ++ power_text e ++ k) = []).
  { rewrite Eb. cbn [app]. apply rational_basechar, Hc. }
  assert (RC : re_constant (b ++ power_text e ++ k) = []) by (unfold re_constant; rewrite R0; reflexivity).
  assert (RV : run_mode MMatch (re_variable (b ++ power_text e ++ k)) =
     Some ({| g_coef := None; g_base := Some b;
              g_exp := if qc_eqb e 1 then None else Some ("^"%char :: str_of_q e) |}, k)).
  { unfold re_variable. rewrite (cap_opt_nil re_rational) by exact R0. cbn [flat_map fst snd]. rewrite app_nil_r.
    assert (HB : hd_error (re_base (b ++ power_text e ++ k)) = Some (b, power_text e ++ k)).
    { apply base_hd; [exact S|..].
      + apply power_head; [reflexivity|]. apply kok_nothead; [exact K|reflexivity..].
      + apply power_head; [reflexivity|]. apply kok_digit, K. }
    destruct (re_base (b ++ power_text e ++ k)) as [|m l]; [discriminate|].
    simpl in HB. injection HB as ->. cbn [flat_map fst snd].
    pose proof (cap_exponent e k E K) as HE.
    destruct (cap_opt re_exponent (power_text e ++ k)) as [|m' l']; [discriminate|].
      simpl in HE. injection HE as ->. reflexivity. }
  rewrite RV, RC. cbn [run_mode first_match hd_error].
  unfold build_variable. cbn [g_coef g_base g_exp std_coef bind].
  destruct (qc_eqb_spec e 1) as [->|N1]; cbn [bind].
  - rewrite term_factory_var; [reflexivity | apply symbol_valid, S | exact N].
  - cbn [filter]. change (Ascii.eqb "^" "^") with true. cbn [negb].
    rewrite no_caret by exact E. rewrite fraction_of_str_of_q. cbn [bind].
    rewrite term_factory_var; [reflexivity | apply symbol_valid, S | exact N].
Qed.

Lemma base_nil x : nothead is_basechar x = true -> re_base x = [].
Proof. intros H. apply hd_seq_nil, plus_nil, H. Qed.

Lemma flat_map_nil {A B} (f : A -> list B) l : (forall x, In x l -> f x = []) -> flat_map f l = [].
Proof.
  induction l as [|x l IH]; simpl; intros H; [reflexivity|]. rewrite H by auto. rewrite IH by auto. reflexivity.
Qed.

Lemma is_double_fl c : is_double c = true -> fl c = c.
Proof. unfold is_double. apply qc_eqb_eq. Qed.

Lemma str_of_q_cons c : short_den c = true -> exists x y, str_of_q c = x :: y.
Proof.
  intros S. pose proof (str_of_q_shape c S) as H. apply num_shape_first in H as (x & y & E & _). eauto.
Qed.

Lemma fr_pow_one c : fr_pow libm_pow c 1 = Ok c.
Proof.
  unfold fr_pow. change (q_isint 1) with true. cbn beta iota. change (qnum 1) with 1%Z.
  rewrite andb_false_r. rewrite qpowz_1_r. reflexivity.
Qed.

Lemma match_const c k :
  c <> 0%Qc -> short_den c = true -> is_double c = true -> kok k = true ->
  match_simplex libm_pow MMatch (str_of_q c ++ k) = Ok (Some (const_term c, k)).
Proof.
  intros N S D K. unfold match_simplex. pose proof (str_of_q_shape c S) as Sh.
  assert (RV : re_variable (str_of_q c ++ k) = []).
  { unfold re_variable. apply flat_map_nil. intros (g & y) H.
    assert (NB : nothead is_basechar y = true).
    { unfold cap_opt in H. apply in_app_or in H as [H|[H|[]]].
      - apply in_map_iff in H as ((a & y') & E & H). injection E as <- <-.
        eapply rational_rest; eassumption.
      - injection H as <- <-. apply num_shape_first in Sh as (d & w & -> & [Hd|Hd]); simpl.
        + rewrite digit_not_basechar by exact Hd. reflexivity.
        + rewrite Hd. reflexivity. }
    cbn [snd]. rewrite base_nil by exact NB. reflexivity. }
  assert (RC : run_mode MMatch (re_constant (str_of_q c ++ k)) =
     Some ({| g_coef := Some (str_of_q c); g_base := None; g_exp := None |}, k)).
  { unfold re_constant. pose proof (rational_hd _ k Sh K) as H.
    destruct (re_rational (str_of_q c ++ k)) as [|m l]; [discriminate|].
    simpl in H. injection H as ->. cbn [flat_map fst snd].
    unfold cap_opt. rewrite exponent_nil by (apply kok_nothead; [exact K|reflexivity..]).
    reflexivity. }
  rewrite RV, RC. cbn [run_mode first_match hd_error].
  unfold build_constant. cbn [g_coef g_exp std_coef].
  destruct (str_of_q_cons c S) as (x & y & E).
  assert (SC : std_coef (Some (str_of_q c)) = Ok c).
  { unfold std_coef. rewrite E. rewrite <- E. rewrite fraction_of_str_of_q. reflexivity. }
  unfold std_coef in SC. rewrite SC. cbn [bind].
  rewrite fr_pow_one. cbn [bind].
  rewrite is_double_fl by exact D. rewrite term_factory_const by exact N. reflexivity.
Qed.

(** ** groups *)
Lemma simplex_none_paren md x : match_simplex libm_pow md ("("%char :: x) = Ok None.
Proof.
  unfold match_simplex.
  assert (R : re_rational ("("%char :: x) = []) by (apply rational_nil; reflexivity).
  assert (RV : re_variable ("("%char :: x) = []).
  { unfold re_variable. rewrite (cap_opt_nil re_rational) by exact R. cbn [map app flat_map snd]. rewrite base_nil by reflexivity. reflexivity. }
  assert (RC : re_constant ("("%char :: x) = []) by (unfold re_constant; rewrite R; reflexivity).
  rewrite RV, RC. destruct md; reflexivity.
Qed.
Lemma simplex_full_nil : match_simplex libm_pow MFull [] = Ok None.
Proof. reflexivity. Qed.

(** scanning balanced text does not change the nesting count *)
Definition no_parens (x : str) : Prop :=
  Forall (fun c => Ascii.eqb c "(" = false /\ Ascii.eqb c ")" = false) x.
Definition balanced (x : str) : Prop :=
  forall cnt i0 i k, (1 <= cnt)%Z ->
  find_bounds_from true cnt i0 i (x ++ k) = find_bounds_from true cnt i0 (i + length x) k.
Lemma no_parens_balanced x : no_parens x -> balanced x.
Proof.
  intros F cnt i0 i k Hc. revert i. induction F as [|c x [H1 H2] F IH]; intros i; simpl.
  - rewrite Nat.add_0_r. reflexivity.
  - rewrite H1, H2. simpl. destruct (Z.eqb_spec cnt 0); [lia|].
    rewrite IH. f_equal. lia.
Qed.
Lemma balanced_app x y : balanced x -> balanced y -> balanced (x ++ y).
Proof.
  intros Hx Hy cnt i0 i k Hc. rewrite <- app_assoc, Hx, Hy by exact Hc.
  rewrite app_length. f_equal. lia.
Qed.
Lemma balanced_group x y : balanced x -> balanced y -> balanced ("("%char :: x ++ ")"%char :: y).
Proof.
  intros Hx Hy cnt i0 i k Hc. cbn [app find_bounds_from].
  change (Ascii.eqb "(" "(") with true. cbn beta iota. simpl andb.
  destruct (Z.eqb_spec (cnt + 1) 0); [lia|].
  rewrite <- app_assoc, Hx by lia. cbn [app find_bounds_from].
  change (Ascii.eqb ")" "(") with false. change (Ascii.eqb ")" ")") with true. cbn beta iota. simpl andb.
  destruct (Z.eqb_spec (cnt + 1 - 1) 0); [lia|].
  replace (cnt + 1 - 1)%Z with cnt by lia. rewrite Hy by exact Hc.
  f_equal. simpl. rewrite app_length. simpl. lia.
Qed.

Lemma digit_no_paren c : is_digit c = true -> Ascii.eqb c "(" = false /\ Ascii.eqb c ")" = false.
Proof. intros H. split; apply digit_not_c; auto. Qed.
Lemma num_no_parens q : short_den q = true -> no_parens (str_of_q q).
Proof.
  intros S. eapply Forall_impl; [|apply num_shape_chars, str_of_q_shape, S].
  intros c [H|[->| ->]]; [apply digit_no_paren, H|split; reflexivity..].
Qed.
Lemma power_no_parens e : short_den e = true -> no_parens (power_text e).
Proof.
  intros S. unfold power_text. destruct (qc_eqb e 1); [constructor|].
  constructor; [split; reflexivity | apply num_no_parens, S].
Qed.
Lemma symbol_no_parens b : is_symbol b = true -> no_parens b.
Proof.
  intros S. apply is_symbol_shape in S as (c & ls & ds & -> & Hc & F1 & F2).
  assert (B : forall c, is_basechar c = true -> Ascii.eqb c "(" = false /\ Ascii.eqb c ")" = false).
  { intros d H. split; apply basechar_not_c; auto. }
  constructor; [apply B, Hc|]. apply Forall_app. split.
  - eapply Forall_impl; [|exact F1]. exact B.
  - eapply Forall_impl; [|exact F2]. exact digit_no_paren.
Qed.
Lemma sep_no_parens o : no_parens (sep_text o).
Proof.
  assert (B : forall n, no_parens (blanks n)).
  { intros n. apply Forall_forall. intros c Hc. apply repeat_spec in Hc. subst. split; reflexivity. }
  destruct o; simpl.
  - constructor; [split; reflexivity | apply B].
  - apply Forall_app; split; [apply B | constructor; [split; reflexivity | apply B]].
  - apply Forall_app; split; [apply B | constructor; [split; reflexivity | apply B]].
Qed.

Scheme factor_mind := Induction for factor Sort Prop
  with written_mind := Induction for written Sort Prop.
Combined Scheme written_ind2 from factor_mind, written_mind.

Lemma text_balanced :
  (forall f, forall int, factor_ok int f = true -> balanced (factor_text f)) /\
  (forall x, forall int, written_ok int x = true -> balanced (written_text x)).
Proof.
  apply written_ind2.
  - intros b e int H. cbn [factor_ok] in H. rewrite !andb_true_iff in H. destruct H as (((H1 & _) & _) & H2).
    apply balanced_app; apply no_parens_balanced; [apply symbol_no_parens | apply power_no_parens]; assumption.
  - intros c int H. cbn [factor_ok] in H. rewrite !andb_true_iff in H. destruct H as (((_ & H) & _) & _).
    apply no_parens_balanced, num_no_parens, H.
  - intros x IH e int H. cbn [factor_ok] in H. rewrite !andb_true_iff in H. destruct H as ((_ & H1) & H2).
    apply balanced_group; [eapply IH; exact H2 | apply no_parens_balanced, power_no_parens, H1].
  - intros f IH int H. exact (IH int H).
  - intros f IHf o x IHx int H. cbn [written_ok] in H. rewrite !andb_true_iff in H. destruct H as ((H1 & _) & H2).
    apply balanced_app; [eapply IHf; exact H1|]. apply balanced_app; [apply no_parens_balanced, sep_no_parens|].
    eapply IHx; exact H2.
Qed.

Lemma match_group x e k :
  balanced x -> x <> [] -> e <> 0%Qc -> short_den e = true -> kok k = true ->
  match_complex libm_pow MMatch ("("%char :: x ++ ")"%char :: power_text e ++ k) =
  Ok (Some ({| coef := 1; base := x; expo := e; isterm := false |}, k)).
Proof.
  intros B NE N E K. unfold match_complex.
  assert (FB : find_bounds ("("%char :: x ++ ")"%char :: power_text e ++ k) = Some (0, S (S (length x)))).
  { unfold find_bounds. cbn [find_bounds_from]. change (Ascii.eqb "(" "(") with true. cbn beta iota.
    simpl andb. change (0 + 1)%Z with 1%Z. cbn [Z.eqb]. rewrite B by lia.
    cbn [find_bounds_from]. change (Ascii.eqb ")" "(") with false. change (Ascii.eqb ")" ")") with true.
    cbn beta iota. simpl. reflexivity. }
  rewrite FB. cbn [firstn]. rewrite simplex_full_nil. cbn [bind].
  assert (SB : slice ("("%char :: x ++ ")"%char :: power_text e ++ k) 1 (S (S (length x)) - 1) = x).
  { unfold slice. cbn [skipn]. replace (S (S (length x)) - 1 - 1) with (length x) by lia.
    rewrite firstn_app, Nat.sub_diag, firstn_all. simpl. apply app_nil_r. }
  rewrite SB.
  assert (SK : forall y, skipn (S (S (length x))) ("("%char :: x ++ ")"%char :: y) = y).
  { intros y. change (skipn (S (S (length x))) ("("%char :: x ++ ")"%char :: y))
      with (skipn (S (length x)) (x ++ ")"%char :: y)). rewrite skipn_app.
    replace (S (length x) - length x) with 1 by lia.
    rewrite skipn_all2 by lia. reflexivity. }
  rewrite SK.
  assert (MK : forall e, e <> 0%Qc -> mk_operand false 1%Qc x e = {| coef := 1; base := x; expo := e; isterm := false |}).
  { intros e' N'. unfold mk_operand, or1. destruct (qc_eqb_spec e' 0); [contradiction|].
    destruct x; [congruence|]. reflexivity. }
  unfold power_text. destruct (qc_eqb_spec e 1) as [->|N1]; cbn [app].
  - rewrite exponent_nil by (apply kok_nothead; [exact K|reflexivity..]). cbn [first_match hd_error].
    cbn [std_exponent bind]. rewrite MK by discriminate. rewrite SK. reflexivity.
  - pose proof (exponent_hd e k E K) as H.
    destruct (re_exponent _) as [|m l]; [discriminate|]. simpl in H. injection H as ->.
    cbn [first_match hd_error]. unfold std_exponent.
    cbn [filter]. change (Ascii.eqb "^" "^") with true. cbn [negb].
    rewrite no_caret by exact E. rewrite fraction_of_str_of_q. cbn [bind].
    assert (O : or1 e = e). { unfold or1. destruct (qc_eqb_spec e 0); [contradiction|reflexivity]. }
    rewrite O, MK by exact N. do 3 f_equal.
    replace (S (S (length x)) + length ("^"%char :: str_of_q e)) with
      (S (S (length x)) + S (length (str_of_q e))) by reflexivity.
    change ("("%char :: x ++ ")"%char :: "^"%char :: str_of_q e ++ k) with
      (["("%char] ++ x ++ [")"%char; "^"%char] ++ str_of_q e ++ k).
    rewrite !app_assoc, skipn_app. rewrite !app_length. cbn [length].
    rewrite skipn_all2 by (rewrite !app_length; cbn [length]; lia).
    replace (S (S (length x)) + S (length (str_of_q e)) - (1 + length x + 2 + length (str_of_q e))) with 0 by lia.
    reflexivity.
Qed.

(** ** factors *)
(** the operand read from the text of a factor *)
Definition factor_operand (f : factor) : operand :=
  match f with
  | FVar b e => var_term b e
  | FConst c => const_term c
  | FGroup x e => {| coef := 1; base := written_text x; expo := e; isterm := false |}
  end.

Definition plain_first (c : ascii) : Prop :=
  is_basechar c = true \/ is_digit c = true \/ c = "-"%char \/ c = "("%char.
Lemma factor_first f int : factor_ok int f = true ->
  exists c w, factor_text f = c :: w /\ plain_first c.
Proof. clear libm_pow.
  destruct f as [b e|c|x e]; cbn [factor_ok factor_text]; intros H; rewrite !andb_true_iff in H.
  - destruct H as (((H & _) & _) & _). apply is_symbol_shape in H as (c & ls & ds & -> & Hc & _).
    exists c, ((ls ++ ds) ++ power_text e). split; [reflexivity | left; exact Hc].
  - destruct H as (((_ & H) & _) & _). apply str_of_q_shape, num_shape_first in H as (d & w & -> & Hd).
    exists d, w. split; [reflexivity|]. unfold plain_first. tauto.
  - eexists _, _. split; [reflexivity|]. unfold plain_first. auto.
Qed.
Lemma written_first x int : written_ok int x = true ->
  exists c w, written_text x = c :: w /\ plain_first c.
Proof.
  destruct x as [f|f o r]; cbn [written_ok written_text]; intros H.
  - eapply factor_first; exact H.
  - rewrite !andb_true_iff in H. destruct H as ((H & _) & _).
    apply factor_first in H as (c & w & -> & Hc). cbn [app]. eauto.
Qed.
Lemma basechar_not_space c : is_basechar c = true -> is_space c = false.
Proof.
  intros H.
  destruct (Ascii.eqb_spec c "#") as [E|N1]; [rewrite E; reflexivity|].
  destruct (Ascii.eqb_spec c "_") as [E|N2]; [rewrite E; reflexivity|].
  unfold is_basechar, is_alpha, is_space in *. cbv zeta in *.
  rewrite (proj2 (Ascii.eqb_neq _ _) N1), (proj2 (Ascii.eqb_neq _ _) N2) in H.
  generalize dependent (N_of_ascii c). intros n H. lia.
Qed.
Lemma digit_not_space c : is_digit c = true -> is_space c = false.
Proof.
  unfold is_digit, is_space. cbv zeta. generalize (N_of_ascii c). intros n H. lia.
Qed.
Lemma plain_not_space c : plain_first c -> is_space c = false.
Proof.
  intros [H|[H|[->| ->]]]; [apply basechar_not_space, H | apply digit_not_space, H | reflexivity..].
Qed.
Lemma plain_not c d : plain_first c -> is_basechar d = false -> is_digit d = false ->
  d <> "-"%char -> d <> "("%char -> Ascii.eqb c d = false.
Proof.
  intros H H1 H2 H3 H4. destruct (Ascii.eqb_spec c d) as [->|]; [|reflexivity].
  exfalso. destruct H as [H|[H|[H|H]]]; congruence.
Qed.

Lemma last_app x y : good_last y -> good_last (x ++ y).
Proof. intros (y' & c & -> & H). exists (x ++ y'), c. rewrite app_assoc. auto. Qed.
Lemma last_digits w d ds : is_digit d = true -> Forall (fun c => is_digit c = true) ds -> good_last (w ++ d :: ds).
Proof.
  intros H F. destruct (exists_last (l := d :: ds)) as (l & c & E); [discriminate|].
  rewrite E. exists (w ++ l), c. rewrite app_assoc. split; [reflexivity|]. apply digit_not_space.
  assert (F' : Forall (fun c => is_digit c = true) (l ++ [c])) by (rewrite <- E; constructor; assumption).
  apply Forall_app in F' as [_ F']. inversion F'; subst. assumption.
Qed.
Lemma num_last w : num_shape w -> good_last w.
Proof.
  intros S; destruct S as [sg d ds H1 H2 H3 | sg d ds q H1 H2 H3 H4].
  - apply last_digits; assumption.
  - change (d :: ds ++ ["/"%char; q]) with ((d :: ds) ++ ["/"%char] ++ [q]). rewrite !app_assoc.
    apply last_digits; [exact H4 | constructor].
Qed.
Lemma factor_last f int : factor_ok int f = true -> good_last (factor_text f).
Proof.
  assert (P : forall x e, short_den e = true -> good_last x -> good_last (x ++ power_text e)).
  { intros x e H L. unfold power_text. destruct (qc_eqb e 1); [rewrite app_nil_r; exact L|].
    apply last_app. apply (last_app ["^"%char]). apply num_last, str_of_q_shape, H. }
  destruct f as [b e|c|x e]; cbn [factor_ok factor_text]; intros H; rewrite !andb_true_iff in H.
  - destruct H as (((H & _) & _) & H2). apply P; [exact H2|].
    apply is_symbol_shape in H as (c & ls & ds & -> & Hc & F1 & F2).
    destruct ds as [|d ds].
    + rewrite app_nil_r. destruct (exists_last (l := c :: ls)) as (l & c' & E); [discriminate|].
      exists l, c'. split; [exact E|]. apply basechar_not_space.
      assert (F' : Forall (fun c => is_basechar c = true) (l ++ [c'])) by (rewrite <- E; constructor; assumption).
      apply Forall_app in F' as [_ F']. inversion F'; subst. assumption.
    + inversion F2; subst. apply (last_digits (c :: ls)); assumption.
  - destruct H as (((_ & H) & _) & _). apply num_last, str_of_q_shape, H.
  - destruct H as ((_ & H1) & H2).
    change ("("%char :: written_text x ++ ")"%char :: power_text e) with
      ((["("%char] ++ written_text x) ++ [")"%char] ++ power_text e).
    rewrite app_assoc. apply P; [exact H1|]. eexists _, _. split; reflexivity.
Qed.
Lemma written_last x : forall int, written_ok int x = true -> good_last (written_text x).
Proof.
  induction x as [f|f o r IH]; cbn [written_ok written_text]; intros int H.
  - eapply factor_last; exact H.
  - rewrite !andb_true_iff in H. destruct H as (_ & H). apply last_app, last_app. eapply IH; exact H.
Qed.

(** what follows a factor *)
Definition rest_text (r : option (sep * written)) : str :=
  match r with None => [] | Some (o, x) => sep_text o ++ written_text x end.

Lemma number_first f int c w : factor_ok int f = true -> starts_number f = false ->
  factor_text f = c :: w -> is_digit c = false.
Proof.
  destruct f as [b e|q|x e]; cbn [factor_ok factor_text starts_number]; intros H S E; [|discriminate|].
  - rewrite !andb_true_iff in H. destruct H as (((H & _) & _) & _).
    apply is_symbol_shape in H as (c' & ls & ds & -> & Hc & _). cbn [app] in E. injection E as <- <-.
    apply basechar_not_digit, Hc.
  - injection E as <- <-. reflexivity.
Qed.

Lemma sep_kok o x int : written_ok int x = true -> sep_ok o (head_factor x) = true ->
  kok (sep_text o ++ written_text x) = true.
Proof.
  intros H S. destruct o as [n|n m|n m]; simpl.
  - reflexivity.
  - destruct n; reflexivity.
  - destruct n as [|n]; [|reflexivity]. simpl. destruct m as [|m]; [|reflexivity].
    simpl in S. apply negb_true_iff in S. simpl.
    assert (Hh : exists c w, written_text x = c :: w /\ is_digit c = false).
    { destruct x as [f|f o r]; cbn [written_ok written_text head_factor] in *.
      - destruct (factor_first f int H) as (c & w & E & _). exists c, w. split; [exact E|].
        eapply number_first; eassumption.
      - rewrite !andb_true_iff in H. destruct H as ((H & _) & _).
        destruct (factor_first f int H) as (c & w & E & _). rewrite E. cbn [app]. eexists _, _. split; [reflexivity|].
        eapply number_first; eassumption. }
    destruct Hh as (c & w & -> & Hc). simpl. rewrite Hc. reflexivity.
Qed.

Lemma seq_chr_nil d q c x :
  (c = d -> q x = []) -> p_seq (p_chr (is_c d)) q (c :: x) = [].
Proof.
  intros H. unfold p_seq. cbn [p_chr]. unfold is_c.
  destruct (Ascii.eqb_spec c d) as [E|]; [|reflexivity]. cbn [flat_map fst snd].
  rewrite H by exact E. reflexivity.
Qed.
Lemma sqrt_prefix_match n b k : b <> [] -> sqrt_prefix b = false -> nothead is_space b = true ->
  nothead is_basechar k = true -> re_sqrt (blanks n ++ b ++ k) = [].
Proof.
  intros NE H NS K. unfold re_sqrt.
  assert (CC : forall d, is_basechar d = true -> nothead (is_c d) k = true).
  { intros d Hd. destruct k as [|c k]; [reflexivity|]. simpl in *. unfold is_c.
    destruct (Ascii.eqb_spec c d) as [->|]; [rewrite Hd in K; discriminate | reflexivity]. }
  assert (Z : p_seq (p_chr (is_c "s")) (p_seq (p_chr (is_c "q")) (p_seq (p_chr (is_c "r"))
             (p_seq (p_chr (is_c "t")) (p_star is_space)))) (b ++ k) = []).
  { destruct b as [|c1 b]; [apply hd_seq_nil, chr_nil, CC; reflexivity|]. cbn [app].
    apply seq_chr_nil. intros ->.
    destruct b as [|c2 b]; [apply hd_seq_nil, chr_nil, CC; reflexivity|]. cbn [app].
    apply seq_chr_nil. intros ->.
    destruct b as [|c3 b]; [apply hd_seq_nil, chr_nil, CC; reflexivity|]. cbn [app].
    apply seq_chr_nil. intros ->.
    destruct b as [|c4 b]; [apply hd_seq_nil, chr_nil, CC; reflexivity|]. cbn [app].
    apply seq_chr_nil. intros ->.
    exfalso. discriminate H. }
  unfold p_seq at 1. apply flat_map_nil. intros (a & y) Hin. cbn [snd fst].
  apply star_in in Hin as (ds2 & E & ->).
  - destruct ds2 as [|d ds2].
    + cbn [app]. rewrite Z. reflexivity.
    + assert (d = " "%char).
      { assert (I : In d (blanks n)) by (rewrite E; apply in_or_app; right; left; reflexivity).
        apply repeat_spec in I. exact I. }
      subst d. reflexivity.
  - apply Forall_forall. intros c Hc. apply repeat_spec in Hc. subst. reflexivity.
  - destruct b; [congruence|]. exact NS.
Qed.

(** operators in front of a factor *)
Lemma op_none n c other x :
  nothead is_space x = true -> nothead (is_c c) x = true -> Ascii.eqb " " c = false ->
  re_op c other (blanks n ++ x) = [].
Proof.
  intros NS NC SC. unfold re_op. unfold p_seq at 1. apply flat_map_nil. intros (a & y) Hin. cbn [snd fst].
  apply star_in in Hin as (ds2 & E & ->).
  - destruct ds2 as [|d ds2].
    + cbn [app]. rewrite hd_seq_nil; [reflexivity|]. apply chr_nil, NC.
    + assert (d = " "%char).
      { assert (I : In d (blanks n)) by (rewrite E; apply in_or_app; right; left; reflexivity).
        apply repeat_spec in I. exact I. }
      subst d. cbn [app]. rewrite hd_seq_nil; [reflexivity|]. apply chr_nil. cbn [nothead p_chr]. unfold is_c. rewrite SC. reflexivity.
  - apply Forall_forall. intros d Hd. apply repeat_spec in Hd. subst. reflexivity.
  - exact NS.
Qed.
Lemma op_hd n m c other x :
  is_space c = false -> nothead is_space x = true -> nothead (is_c other) x = true ->
  hd_error (re_op c other (blanks n ++ c :: blanks m ++ x)) = Some (blanks n ++ [c] ++ blanks m ++ [], x).
Proof.
  intros SC NS NO.
  assert (B : forall n, Forall (fun c => is_space c = true) (blanks n)).
  { intros k. apply Forall_forall. intros d Hd. apply repeat_spec in Hd. subst. reflexivity. }
  unfold re_op. eapply hd_seq with (y := c :: blanks m ++ x).
  - apply star_hd; [apply B|]. simpl. rewrite SC. reflexivity.
  - eapply hd_seq with (y := blanks m ++ x).
    + cbn [nothead p_chr]. unfold is_c. rewrite Ascii.eqb_refl. reflexivity.
    + eapply hd_seq with (y := x).
      * apply star_hd; [apply B | exact NS].
      * unfold p_notahead. rewrite chr_nil by exact NO. reflexivity.
Qed.

Definition starts_plain (x : str) : Prop := exists c w, x = c :: w /\ plain_first c.
(** [x] does not read as a square root *)
Definition no_sqrt (x : str) : Prop := forall n, re_sqrt (blanks n ++ x) = [].

Lemma plain_nothead f x : starts_plain x -> (forall c, plain_first c -> f c = false) -> nothead f x = true.
Proof. intros (c & w & -> & H) F. simpl. rewrite F by exact H. reflexivity. Qed.

Lemma operator_none n x : starts_plain x -> no_sqrt x -> operator_parse (blanks n ++ x) = None.
Proof.
  intros P NS. unfold operator_parse.
  assert (S : nothead is_space x = true) by (apply plain_nothead; [exact P | exact plain_not_space]).
  rewrite op_none by (exact S || reflexivity ||
    (apply plain_nothead; [exact P|]; intros c H; unfold is_c; apply plain_not; (exact H || discriminate || reflexivity))).
  rewrite op_none by (exact S || reflexivity ||
    (apply plain_nothead; [exact P|]; intros c H; unfold is_c; apply plain_not; (exact H || discriminate || reflexivity))).
  rewrite NS. reflexivity.
Qed.
Definition sep_operator (o : sep) : option operator :=
  match o with Blank _ => None | Times _ _ => Some OMul | Over _ _ => Some ODiv end.
Lemma operator_sep o x : starts_plain x -> no_sqrt x ->
  match sep_operator o with
  | None => operator_parse (sep_text o ++ x) = None
  | Some op => operator_parse (sep_text o ++ x) = Some (op, x)
  end.
Proof.
  intros P NS.
  assert (S : nothead is_space x = true) by (apply plain_nothead; [exact P | exact plain_not_space]).
  assert (NO : forall d, is_basechar d = false -> is_digit d = false -> d <> "-"%char -> d <> "("%char ->
               nothead (is_c d) x = true).
  { intros d H1 H2 H3 H4. apply plain_nothead; [exact P|]. intros c H. unfold is_c. apply plain_not; assumption. }
  destruct o as [n|n m|n m]; cbn [sep_operator sep_text].
  - apply operator_none; assumption.
  - unfold operator_parse. rewrite <- app_assoc. cbn [app].
    assert (N1 : nothead (is_c "/") x = true) by (apply NO; (reflexivity || discriminate)).
    pose proof (op_hd n m "*" "/" x eq_refl S N1) as H.
    destruct (re_op "*" "/" _) as [|[a y] l]; [discriminate|].
    simpl in H. injection H as -> ->. reflexivity.
  - unfold operator_parse. rewrite <- app_assoc. cbn [app].
    assert (E : re_op "*" "/" (blanks n ++ "/"%char :: blanks m ++ x) = []) by (apply op_none; reflexivity).
    rewrite E. cbn [first_match hd_error].
    assert (N1 : nothead (is_c "*") x = true) by (apply NO; (reflexivity || discriminate)).
    pose proof (op_hd n m "/" "*" x eq_refl S N1) as H.
    destruct (re_op "/" "*" _) as [|[a y] l]; [discriminate|].
    simpl in H. injection H as -> ->. reflexivity.
Qed.

Lemma not_s_no_sqrt c x : is_space c = false -> Ascii.eqb c "s" = false -> no_sqrt (c :: x).
Proof.
  intros NS NC n. unfold re_sqrt, p_seq at 1. apply flat_map_nil. intros (a & y) Hin. cbn [snd fst].
  apply star_in in Hin as (ds2 & E & ->).
  - destruct ds2 as [|d ds2].
    + cbn [app]. rewrite hd_seq_nil; [reflexivity|]. apply chr_nil. cbn [nothead p_chr]. unfold is_c. rewrite NC. reflexivity.
    + assert (d = " "%char).
      { assert (I : In d (blanks n)) by (rewrite E; apply in_or_app; right; left; reflexivity).
        apply repeat_spec in I. exact I. }
      subst d. reflexivity.
  - apply Forall_forall. intros d Hd. apply repeat_spec in Hd. subst. reflexivity.
  - simpl. rewrite NS. reflexivity.
Qed.

Lemma factor_no_sqrt f int k : factor_ok int f = true -> kok k = true -> no_sqrt (factor_text f ++ k).
Proof.
  destruct f as [b e|c|x e]; cbn [factor_ok factor_text]; intros H K; rewrite !andb_true_iff in H.
  - destruct H as (((H1 & H2) & _) & _). apply negb_true_iff in H2.
    pose proof (is_symbol_shape b H1) as (c & ls & ds & E & Hc & _).
    intros n. rewrite <- app_assoc. apply sqrt_prefix_match.
    + rewrite E. discriminate.
    + exact H2.
    + rewrite E. simpl. rewrite basechar_not_space by exact Hc. reflexivity.
    + apply power_head; [reflexivity|]. apply kok_nothead; [exact K | reflexivity..].
  - destruct H as (((_ & H) & _) & _). apply str_of_q_shape, num_shape_first in H as (d & w & -> & [Hd|Hd]).
    + cbn [app]. apply not_s_no_sqrt; [apply digit_not_space, Hd|]. apply digit_not_c; [exact Hd|reflexivity].
    + cbn [app]. apply not_s_no_sqrt; rewrite Hd; reflexivity.
  - cbn [app]. apply not_s_no_sqrt; reflexivity.
Qed.

Lemma factor_search f int k : factor_ok int f = true -> kok k = true ->
  search libm_pow MMatch (factor_text f ++ k) = Ok (Some (factor_operand f, k)).
Proof.
  destruct f as [b e|c|x e]; cbn [factor_ok factor_text factor_operand]; intros H K; rewrite !andb_true_iff in H; unfold search.
  - destruct H as (((H1 & H2) & H3) & H4). apply negb_true_iff, qc_eqb_neq in H3.
    rewrite <- app_assoc, match_var by assumption. reflexivity.
  - destruct H as (((H1 & H2) & H3) & _). apply negb_true_iff, qc_eqb_neq in H1.
    rewrite match_const by assumption. reflexivity.
  - destruct H as ((H1 & H2) & H3). apply negb_true_iff, qc_eqb_neq in H1.
    cbn [app]. rewrite simplex_none_paren. cbn [bind]. rewrite <- app_assoc. cbn [app].
    apply match_group; try assumption.
    + eapply (proj2 text_balanced). exact H3.
    + destruct (written_first x _ H3) as (c & w & -> & _). discriminate.
Qed.
End Parse.
