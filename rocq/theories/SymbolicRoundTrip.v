(** From texts to meanings: the parser on written expressions, and what this
    gives for printing followed by parsing (C03, C04). *)
From Verif Require Import PyBase PyLemmas SymbolicModel SymbolicSpec SymbolicProofs SymbolicRegex SymbolicParse.
From Coq Require Import ZifyBool ZifyNat ZifyN.

Lemma qc_mul_nonzero (a b : Qc) : a <> 0%Qc -> b <> 0%Qc -> (a * b)%Qc <> 0%Qc.
Proof. intros Ha Hb E. apply Qcmult_integral in E as [E|E]; auto. Qed.
Lemma or1_id q : q <> 0%Qc -> or1 q = q.
Proof. unfold or1. destruct (qc_eqb_spec q 0); congruence. Qed.
Lemma isint_mul a b : q_isint a = true -> q_isint b = true ->
  q_isint (a * b)%Qc = true /\ qnum (a * b)%Qc = (qnum a * qnum b)%Z.
Proof.
  intros Ha Hb. apply isint_zq in Ha, Hb. rewrite Ha, Hb, zq_mul, !zq_num. split; [apply zq_isint|reflexivity].
Qed.
Lemma isint_opp a : q_isint a = true -> q_isint (- a)%Qc = true /\ qnum (- a)%Qc = (- qnum a)%Z.
Proof. intros Ha. apply isint_zq in Ha. rewrite Ha, zq_opp, !zq_num. split; [apply zq_isint|reflexivity]. Qed.
Lemma zq_m1_mul q : (q * zq (-1))%Qc = (- q)%Qc.
Proof. replace (zq (-1)) with (- (1))%Qc; [ring|]. apply Qc_is_canon. reflexivity. Qed.
Lemma opp_nonzero (q : Qc) : q <> 0%Qc -> (- q)%Qc <> 0%Qc.
Proof. intros H E. apply H. rewrite <- (Qcopp_involutive q), E. reflexivity. Qed.

Section RoundTrip.
Set Default Proof Using "Type".
Variable libm_pow : Qc -> Qc -> option Qc.
Notation op_pow := (op_pow libm_pow).
Notation parse_operand := (parse_operand libm_pow).
Notation resolve := (resolve libm_pow).

(** raised to an exact power; coefficient one, or an integral power *)
Definition raised (o : operand) (p : Qc) : operand :=
  {| coef := qpowz (coef o) (qnum p); base := base o; expo := (expo o * p)%Qc; isterm := isterm o |}.

Lemma op_pow_raised o p :
  coef o <> 0%Qc -> expo o <> 0%Qc -> base o <> [] -> p <> 0%Qc ->
  (q_isint p = true \/ coef o = 1%Qc) -> op_pow o p = Ok (raised o p).
Proof.
  intros C E B P H. unfold SymbolicModel.op_pow.
  assert (F : fr_pow libm_pow (coef o) p = Ok (qpowz (coef o) (qnum p))).
  { unfold fr_pow. destruct (q_isint p).
    - rewrite (proj2 (qc_eqb_neq _ _) C). reflexivity.
    - destruct H as [H|H]; [discriminate|]. rewrite H, fl_1, qpowz_1_l. reflexivity. }
  rewrite F. cbn [bind]. unfold mk_operand, raised. f_equal.
  rewrite !or1_id; [|apply qc_mul_nonzero; assumption | apply qpowz_nonzero; exact C].
  destruct (base o); [congruence|reflexivity].
Qed.

Definition factor_op (p : Qc) (inv : bool) (f : factor) : operand :=
  if inv then raised (raised (factor_operand f) p) (zq (-1)) else raised (factor_operand f) p.
Fixpoint written_ops (p : Qc) (inv : bool) (x : written) : list operand :=
  match x with
  | WOne f => [factor_op p inv f]
  | WMore f o r => factor_op p inv f :: written_ops p (is_over o) r
  end.

(** facts about the operand of a factor *)
Lemma factor_operand_ok int f : factor_ok int f = true ->
  coef (factor_operand f) <> 0%Qc /\ expo (factor_operand f) <> 0%Qc /\ base (factor_operand f) <> [] /\
  (int = true \/ coef (factor_operand f) = 1%Qc).
Proof.
  destruct f as [b e|c|x e]; cbn [factor_ok factor_operand]; intros H; rewrite !andb_true_iff in H; simpl.
  - destruct H as (((H1 & _) & H2) & _). apply negb_true_iff, qc_eqb_neq in H2.
    repeat split; try (discriminate || exact H2); auto. intros ->. discriminate.
  - destruct H as (((H1 & _) & _) & H2). apply negb_true_iff, qc_eqb_neq in H1.
    repeat split; try (discriminate || exact H1). apply orb_true_iff in H2 as [H2|H2]; [auto|].
    right. apply qc_eqb_eq, H2.
  - destruct H as ((H1 & _) & H2). apply negb_true_iff, qc_eqb_neq in H1.
    repeat split; try (discriminate || exact H1); auto.
    destruct (written_first x _ H2) as (c & w & -> & _). discriminate.
Qed.

Lemma raise_factor int p f : factor_ok int f = true -> p <> 0%Qc -> (int = true -> q_isint p = true) ->
  op_pow (factor_operand f) p = Ok (raised (factor_operand f) p).
Proof.
  intros H P I. destruct (factor_operand_ok int f H) as (C & E & B & D).
  apply op_pow_raised; auto. destruct D as [D|D]; auto.
Qed.
Lemma raised_ok o p : coef o <> 0%Qc -> expo o <> 0%Qc -> p <> 0%Qc ->
  coef (raised o p) <> 0%Qc /\ expo (raised o p) <> 0%Qc.
Proof. intros C E P. split; [apply qpowz_nonzero, C | apply qc_mul_nonzero; assumption]. Qed.

Lemma evaluate_div int p f : factor_ok int f = true -> p <> 0%Qc ->
  evaluate libm_pow ODiv (raised (factor_operand f) p) = Ok (factor_op p true f).
Proof.
  intros H P. destruct (factor_operand_ok int f H) as (C & E & B & _).
  destruct (raised_ok (factor_operand f) p C E P) as [C' E'].
  cbn [evaluate]. apply op_pow_raised; auto. discriminate.
Qed.

(** ** one level of parsing *)
Definition prefix_text (o : option sep) : str := match o with None => [] | Some o => sep_text o end.
Definition prefix_over (o : option sep) : bool := match o with None => false | Some o => is_over o end.

Lemma written_text_cons x int : written_ok int x = true -> starts_plain (written_text x).
Proof. intros H. apply written_first in H as (c & w & E & P). exists c, w. auto. Qed.

(** one iteration of the loop, on a factor followed by [k] *)
Lemma parse_step fuel p int o f k :
  factor_ok int f = true -> kok k = true -> p <> 0%Qc -> (int = true -> q_isint p = true) ->
  good_last (factor_text f ++ k) ->
  parse_operand (S fuel) p (prefix_text o ++ factor_text f ++ k) =
  (os <- parse_operand fuel p k ;; Ok (factor_op p (prefix_over o) f :: os)).
Proof.
  intros F K P I L.
  destruct (factor_first f int F) as (c & w & Ef & Pc).
  assert (SP : starts_plain (factor_text f ++ k)) by (rewrite Ef; exists c, (w ++ k); auto).
  assert (GF : good_first (factor_text f ++ k)).
  { destruct SP as (c' & w' & E & Pc'). exists c', w'. split; [exact E | apply plain_not_space, Pc']. }
  assert (NSq : no_sqrt (factor_text f ++ k)) by (eapply factor_no_sqrt; eassumption).
  assert (OP : operand_parse libm_pow (factor_text f ++ k) = Ok (Some (factor_operand f, k))).
  { unfold operand_parse. rewrite strip_id by assumption. eapply factor_search; eassumption. }
  assert (NE : prefix_text o ++ factor_text f ++ k <> []).
  { rewrite Ef. destruct (prefix_text o); discriminate. }
  assert (U : forall x, x <> [] -> parse_operand (S fuel) p x =
     (let '(op, x) := match operator_parse x with
                      | Some (op, r) => (Some op, r)
                      | None => (None, x)
                      end in
      m <- operand_parse libm_pow x ;;
      match m, op with
      | Some (o, r), Some op =>
          o <- op_pow o p ;; o <- evaluate libm_pow op o ;;
          os <- parse_operand fuel p r ;; Ok (o :: os)
      | Some (o, r), None =>
          o <- op_pow o p ;;
          os <- parse_operand fuel p r ;; Ok (o :: os)
      | None, _ => Raise ParsingValueError
      end)).
  { intros [|d x] N; [congruence|]. reflexivity. }
  rewrite U by exact NE. clear U.
  destruct o as [o|]; cbn [prefix_text prefix_over].
  - pose proof (operator_sep o _ SP NSq) as OS.
    destruct o as [n|n m|n m]; cbn [sep_operator] in OS; rewrite OS; cbn [is_over factor_op].
    + assert (OP' : operand_parse libm_pow (sep_text (Blank n) ++ factor_text f ++ k)
                    = Ok (Some (factor_operand f, k))).
      { unfold operand_parse. cbn [sep_text]. rewrite strip_blanks by assumption. eapply factor_search; eassumption. }
      rewrite OP'. cbn [bind]. rewrite (raise_factor int) by assumption. reflexivity.
    + rewrite OP. cbn [bind]. rewrite (raise_factor int) by assumption. reflexivity.
    + rewrite OP. cbn [bind]. rewrite (raise_factor int) by assumption. cbn [bind].
      rewrite (evaluate_div int) by assumption. reflexivity.
  - pose proof (operator_none 0 _ SP NSq) as ON. cbn [blanks repeat app] in ON. cbn [app].
    rewrite ON. rewrite OP. cbn [bind]. rewrite (raise_factor int) by assumption. reflexivity.
Qed.

Lemma parse_written x : forall fuel p int o,
  written_ok int x = true -> p <> 0%Qc -> (int = true -> q_isint p = true) ->
  length (written_text x) <= fuel ->
  parse_operand fuel p (prefix_text o ++ written_text x) = Ok (written_ops p (prefix_over o) x).
Proof.
  induction x as [f|f o' r IH]; intros fuel p int o H P I L; cbn [written_ok written_text written_ops] in *.
  - destruct fuel as [|fuel].
    { destruct (factor_first f int H) as (c & w & E & _). rewrite E in L. simpl in L. lia. }
    rewrite <- (app_nil_r (factor_text f)) at 1.
    rewrite (parse_step fuel p int) by (auto || (rewrite app_nil_r; eapply factor_last; exact H)).
    destruct fuel; reflexivity.
  - rewrite !andb_true_iff in H. destruct H as ((H1 & H2) & H3).
    destruct fuel as [|fuel].
    { destruct (factor_first f int H1) as (c & w & E & _). rewrite E in L. simpl in L. lia. }
    rewrite (parse_step fuel p int); auto.
    + pose proof (IH fuel p int (Some o') H3 P I) as IH'. cbn [prefix_text prefix_over] in IH'. rewrite IH'; [reflexivity|].
      destruct (factor_first f int H1) as (c & w & E & _). rewrite E in L. simpl in L. rewrite !app_length in L. lia.
    + eapply sep_kok; eassumption.
    + apply last_app, last_app. eapply written_last; exact H3.
Qed.

(** ** all levels *)
Fixpoint factor_depth (f : factor) : nat :=
  match f with FGroup x _ => S (written_depth x) | _ => 0 end
with written_depth (x : written) : nat :=
  match x with WOne f => factor_depth f | WMore f _ r => Nat.max (factor_depth f) (written_depth r) end.

Lemma depth_length :
  (forall f, factor_depth f <= length (factor_text f)) /\
  (forall x, written_depth x <= length (written_text x)).
Proof. clear libm_pow.
  apply written_ind2; intros; cbn [factor_depth written_depth factor_text written_text];
    rewrite ?app_length; simpl; rewrite ?app_length; simpl; lia.
Qed.

Definition expand (fuel : nat) (o : operand) : result (list operand) :=
  if isterm o then Ok [o] else resolve fuel o.

(** meaning of a list of terms obtained from [f] raised to [p] *)
Definition means_f (ts : list operand) (p : Qc) (inv : bool) (f : factor) : Prop :=
  mono_coef ts = inverted inv (qpowz (factor_coef f) (qnum p)) /\
  (forall b, b <> one_base -> mono_expo b ts = (p * signed inv (factor_expo b f))%Qc) /\
  Forall term_ok ts.
Definition means_w (ts : list operand) (p : Qc) (inv : bool) (x : written) : Prop :=
  mono_coef ts = qpowz (written_coef inv x) (qnum p) /\
  (forall b, b <> one_base -> mono_expo b ts = (p * written_expo b inv x)%Qc) /\
  Forall term_ok ts.

Lemma inverted_pow inv q z : q <> 0%Qc -> inverted inv (qpowz q z) = qpowz (inverted inv q) z.
Proof. intros H. destruct inv; simpl; [|reflexivity]. symmetry. apply qpowz_inv, H. Qed.

Lemma coef_facts :
  (forall f int, factor_ok int f = true -> factor_coef f <> 0%Qc /\ (int = false -> factor_coef f = 1%Qc)) /\
  (forall x int inv, written_ok int x = true -> written_coef inv x <> 0%Qc /\ (int = false -> written_coef inv x = 1%Qc)).
Proof.
  assert (INV : forall inv q, q <> 0%Qc -> inverted inv q <> 0%Qc).
  { intros [|] q H; simpl; [|exact H]. rewrite <- qpowz_m1. apply qpowz_nonzero, H. }
  apply written_ind2.
  - intros b e int _. simpl. split; [discriminate | auto].
  - intros c int H. cbn [factor_ok] in H. rewrite !andb_true_iff in H. destruct H as (((H1 & _) & _) & H2).
    apply negb_true_iff, qc_eqb_neq in H1. simpl. split; [exact H1|]. intros ->. apply qc_eqb_eq, H2.
  - intros x IH e int H. cbn [factor_ok] in H. rewrite !andb_true_iff in H. destruct H as (_ & H).
    destruct (IH _ false H) as [I1 I2]. cbn [factor_coef]. split; [apply qpowz_nonzero, I1|].
    intros ->. rewrite I2 by reflexivity. apply qpowz_1_l.
  - intros f IH int inv H. cbn [written_ok] in H. destruct (IH _ H) as [I1 I2]. cbn [written_coef].
    split; [apply INV, I1|]. intros E. rewrite (I2 E). destruct inv; reflexivity.
  - intros f IHf o r IHr int inv H. cbn [written_ok] in H. rewrite !andb_true_iff in H. destruct H as ((H1 & _) & H2).
    destruct (IHf _ H1) as [F1 F2]. destruct (IHr _ (is_over o) H2) as [R1 R2]. cbn [written_coef]. split.
    + apply qc_mul_nonzero; [apply INV, F1 | exact R1].
    + intros E. rewrite (F2 E), (R2 E). destruct inv; reflexivity.
Qed.

Lemma signed_mul inv a b : signed inv (a * b)%Qc = (a * signed inv b)%Qc.
Proof. destruct inv; simpl; ring. Qed.

Lemma factor_op_simple p inv f :
  (coef (factor_operand f) <> 0%Qc) ->
  factor_op p inv f =
  {| coef := inverted inv (qpowz (coef (factor_operand f)) (qnum p)); base := base (factor_operand f);
     expo := signed inv (expo (factor_operand f) * p)%Qc; isterm := isterm (factor_operand f) |}.
Proof.
  intros C. destruct inv; cbn [factor_op inverted signed]; unfold raised; cbn [coef base expo isterm]; [|reflexivity].
  rewrite zq_num, qpowz_m1, zq_m1_mul. reflexivity.
Qed.

Lemma resolve_meaning :
  (forall f fuel p int inv, factor_ok int f = true -> p <> 0%Qc -> (int = true -> q_isint p = true) ->
     factor_depth f <= fuel ->
     exists ts, expand fuel (factor_op p inv f) = Ok ts /\ means_f ts p inv f) /\
  (forall x fuel p int inv, written_ok int x = true -> p <> 0%Qc -> (int = true -> q_isint p = true) ->
     written_depth x <= fuel ->
     exists tss, mapM (expand fuel) (written_ops p inv x) = Ok tss /\ means_w (concat tss) p inv x).
Proof.
  apply written_ind2.
  - (* FVar *)
    intros b e fuel p int inv H P I D.
    destruct (factor_operand_ok int _ H) as (C & E & B & _).
    rewrite factor_op_simple by exact C. cbn [factor_operand var_term coef base expo isterm].
    unfold expand. cbn [isterm]. eexists. split; [reflexivity|].
    cbn [factor_ok] in H. rewrite !andb_true_iff in H. destruct H as (((H1 & _) & _) & _).
    assert (EQ : signed inv (e * p)%Qc <> 0%Qc).
    { simpl in E. destruct inv; simpl; [apply opp_nonzero|]; apply qc_mul_nonzero; assumption. }
    assert (CQ : inverted inv (qpowz 1 (qnum p)) = 1%Qc) by (rewrite qpowz_1_l; destruct inv; reflexivity).
    rewrite CQ. repeat split.
    + cbn [mono_coef fold_right coef factor_coef]. rewrite CQ. reflexivity.
    + intros x Hx. cbn [mono_expo fold_right base expo factor_expo].
      destruct (str_eqb b x); [|destruct inv; simpl; ring].
      rewrite Qcplus_0_r, <- signed_mul. f_equal. ring.
    + repeat constructor; simpl; [discriminate | exact EQ | apply symbol_valid, H1].
  - (* FConst *)
    intros c fuel p int inv H P I D.
    destruct (factor_operand_ok int _ H) as (C & E & B & _).
    rewrite factor_op_simple by exact C. cbn [factor_operand const_term coef base expo isterm] in *.
    unfold expand. cbn [isterm]. eexists. split; [reflexivity|].
    assert (NZ : inverted inv (qpowz c (qnum p)) <> 0%Qc).
    { rewrite inverted_pow by exact C. apply qpowz_nonzero.
      destruct inv; simpl; [|exact C]. rewrite <- qpowz_m1. apply qpowz_nonzero, C. }
    repeat split.
    + cbn [mono_coef fold_right coef factor_coef]. ring.
    + intros x Hx. cbn [mono_expo fold_right base expo factor_expo].
      destruct (str_eqb_spec one_base x); [congruence|]. destruct inv; simpl; ring.
    + repeat constructor; simpl; [exact NZ|].
      assert (EQ : signed inv (1 * p)%Qc <> 0%Qc).
      { rewrite Qcmult_1_l. destruct inv; simpl; [apply opp_nonzero|]; exact P. }
      exact EQ.
  - (* FGroup *)
    intros x IH e fuel p int inv H P I D.
    destruct (factor_operand_ok int _ H) as (C & E & B & _).
    rewrite factor_op_simple by exact C. cbn [factor_operand coef base expo isterm] in *.
    unfold expand. cbn [isterm].
    cbn [factor_ok] in H. rewrite !andb_true_iff in H. destruct H as ((_ & _) & H3).
    cbn [factor_depth] in D. destruct fuel as [|fuel]; [lia|].
    set (p' := signed inv (e * p)%Qc).
    assert (P' : p' <> 0%Qc).
    { unfold p'. destruct inv; simpl; [apply opp_nonzero|]; apply qc_mul_nonzero; assumption. }
    assert (I' : int && q_isint e = true -> q_isint p' = true /\ qnum p' = (if inv then - (qnum e * qnum p) else qnum e * qnum p)%Z).
    { intros Hi. apply andb_true_iff in Hi as [Hi He]. specialize (I Hi).
      destruct (isint_mul e p He I) as [M1 M2]. unfold p'. destruct inv; simpl.
      - destruct (isint_opp _ M1) as [O1 O2]. rewrite O2, M2. auto.
      - auto. }
    assert (CQ : inverted inv (qpowz 1 (qnum p)) = 1%Qc) by (rewrite qpowz_1_l; destruct inv; reflexivity).
    cbn [SymbolicModel.resolve base expo coef]. rewrite CQ.
    pose proof (parse_written x (length (written_text x)) p' (int && q_isint e) None H3 P' (fun h => proj1 (I' h)) (le_n _)) as PW.
    cbn [prefix_text app prefix_over] in PW. fold p'. rewrite PW. cbn [bind].
    destruct (IH fuel p' (int && q_isint e) false H3 P' (fun h => proj1 (I' h))) as (tss & M & (S1 & S2 & S3)); [lia|].
    change (fun o : operand => if isterm o then Ok [o] else SymbolicModel.resolve libm_pow fuel o) with (expand fuel).
    rewrite M. cbn [bind]. rewrite term_factory_const by discriminate. cbn [bind].
    eexists. split; [reflexivity|].
    destruct (proj2 coef_facts x (int && q_isint e) false H3) as [NZ ONE].
    repeat split.
    + rewrite mono_coef_app, S1. cbn [mono_coef fold_right coef const_term]. rewrite !Qcmult_1_r.
      cbn [factor_coef].
      destruct (int && q_isint e) eqn:Hi.
      * destruct (I' eq_refl) as [_ Q]. rewrite Q. destruct inv; cbn [inverted].
        -- rewrite qpowz_opp, qpowz_mul by exact NZ. reflexivity.
        -- rewrite qpowz_mul by exact NZ. reflexivity.
      * rewrite ONE by reflexivity. rewrite !qpowz_1_l. destruct inv; reflexivity.
    + intros b Hb. rewrite mono_expo_app, S2 by exact Hb. cbn [mono_expo fold_right base const_term].
      destruct (str_eqb_spec one_base b); [congruence|]. cbn [factor_expo]. unfold p'.
      destruct inv; simpl; ring.
    + apply Forall_app. split; [exact S3|]. repeat constructor; discriminate.
  - (* WOne *)
    intros f IH fuel p int inv H P I D. cbn [written_ok written_ops written_depth] in *.
    destruct (IH fuel p int inv H P I D) as (ts & E & (M1 & M2 & M3)).
    exists [ts]. split.
    + cbn [mapM]. rewrite E. reflexivity.
    + cbn [concat]. rewrite app_nil_r. repeat split; [|intros b Hb; rewrite M2 by exact Hb; reflexivity|exact M3].
      rewrite M1. cbn [written_coef]. apply inverted_pow.
      destruct (proj1 coef_facts f int H). assumption.
  - (* WMore *)
    intros f IHf o r IHr fuel p int inv H P I D. cbn [written_ok written_ops written_depth] in *.
    rewrite !andb_true_iff in H. destruct H as ((H1 & _) & H2).
    destruct (IHf fuel p int inv H1 P I) as (ts & E & (M1 & M2 & M3)); [lia|].
    destruct (IHr fuel p int (is_over o) H2 P I) as (tss & E' & (N1 & N2 & N3)); [lia|].
    exists (ts :: tss). split.
    + cbn [mapM]. rewrite E. cbn [bind]. rewrite E'. reflexivity.
    + cbn [concat]. repeat split.
      * rewrite mono_coef_app, M1, N1. cbn [written_coef]. rewrite qpowz_mult. f_equal. apply inverted_pow.
        destruct (proj1 coef_facts f int H1). assumption.
      * intros b Hb. rewrite mono_expo_app, M2, N2 by exact Hb. cbn [written_expo]. ring.
      * apply Forall_app. auto.
Qed.

(** ** the parser *)
Lemma resolve_S fuel o : resolve (S fuel) o =
  (os <- parse_operand (length (base o)) (expo o) (base o) ;;
   tss <- mapM (expand fuel) os ;;
   k <- term_factory (coef o) None 1%Qc ;;
   Ok (concat tss ++ [k])).
Proof. reflexivity. Qed.
Lemma parse_meaning x : written_ok true x = true ->
  exists ts, parse libm_pow (written_text x) = Ok ts /\ Forall term_ok ts /\ ts <> [] /\
    mono_coef ts = written_coef false x /\
    forall b, b <> one_base -> mono_expo b ts = written_expo b false x.
Proof.
  intros H. unfold parse.
  destruct (written_first x _ H) as (c & w & E & _).
  assert (MK : mk_operand false 1%Qc (written_text x) 1%Qc
               = {| coef := 1; base := written_text x; expo := 1; isterm := false |}).
  { rewrite E. reflexivity. }
  rewrite MK, resolve_S. cbn [base expo coef].
  pose proof (parse_written x (length (written_text x)) 1%Qc true None H) as PW.
  cbn [prefix_text app prefix_over] in PW. rewrite PW; [|discriminate|reflexivity|lia]. cbn [bind].
  destruct (proj2 resolve_meaning x (S (length (written_text x))) 1%Qc true false H) as (tss & M & (S1 & S2 & S3)).
  { discriminate. } { reflexivity. } { pose proof (proj2 depth_length x). lia. }
  rewrite M. cbn [bind]. rewrite term_factory_const by discriminate. cbn [bind].
  eexists. split; [reflexivity|]. repeat split.
  - apply Forall_app. split; [exact S3|]. repeat constructor; discriminate.
  - destruct (concat tss); discriminate.
  - rewrite mono_coef_app, S1. simpl. ring.
  - intros b Hb. rewrite mono_expo_app, S2 by exact Hb. cbn [mono_expo fold_right base const_term].
    destruct (str_eqb_spec one_base b); [congruence|]. ring.
Qed.

(** the expression made from a written text *)
Lemma expression_meaning x : written_ok true x = true ->
  exists r, expression_of_str libm_pow (written_text x) = Ok r /\ canonical r /\
    mono_coef r = written_coef false x /\
    forall b, b <> one_base -> mono_expo b r = written_expo b false x.
Proof.
  intros H. destruct (parse_meaning x H) as (ts & E & F & NE & C & X).
  destruct (reduce_ok ts NE F) as (r & R).
  exists r. destruct (written_first x _ H) as (c & w & Ew & _). repeat split.
  - unfold expression_of_str. rewrite Ew at 1. unfold init_terms. rewrite E. exact R.
  - eapply reduce_canonical; eassumption.
  - destruct (reduce_same ts r NE F R) as [S1 _]. rewrite S1. exact C.
  - intros b Hb. destruct (reduce_same ts r NE F R) as [_ S2]. rewrite S2 by exact Hb. auto.
Qed.

(** ** printed expressions are written expressions *)
Definition term_factor (t : operand) : factor :=
  if str_eqb (base t) one_base then FConst (coef t) else FVar (base t) (expo t).

Definition simple_term (t : operand) : Prop :=
  (exists c, t = const_term c) \/ (exists b e, t = var_term b e /\ b <> one_base).
Lemma canonical_simple r : canonical r -> Forall simple_term r.
Proof.
  intros (c & vs & -> & _ & F & _).
  assert (FV : Forall simple_term vs).
  { eapply Forall_impl; [|exact F]. intros t (b & e & -> & N & _). right. eauto. }
  destruct vs; [repeat constructor; exists c; reflexivity|].
  destruct (qc_eqb c 1); [exact FV|]. constructor; [left; eauto | exact FV].
Qed.

Lemma format_term_text t : simple_term t -> printable_term t = true ->
  format_term t = factor_text (term_factor t) /\ factor_ok true (term_factor t) = true.
Proof.
  intros S. destruct S as [(c & ->)|(b & e & -> & N)]; unfold printable_term, term_factor, format_term.
  - change (str_eqb (base (const_term c)) one_base) with true.
    change (str_eqb (base (const_term c)) (s "1")) with true. cbn beta iota.
    intros H. cbn [coef const_term] in *. cbn [factor_text factor_ok].
    rewrite !andb_true_iff in H. destruct H as ((H1 & H2) & H3).
    split; [|rewrite H1, H2, H3; reflexivity].
    unfold format_coefficient. cbn [coef const_term base]. change (str_eqb one_base (s "1")) with true.
    cbn [negb andb]. rewrite is_double_fl by exact H3.
    destruct (qc_eqb_spec c (zq (Z.quot (qnum c) (Zpos (qden c))))) as [E|NE]; [|reflexivity].
    set (z := Z.quot (qnum c) (Zpos (qden c))) in *. clearbody z. subst c.
    unfold str_of_q. rewrite zq_isint, zq_num. reflexivity.
  - cbn [base coef expo var_term]. rewrite (proj2 (str_eqb_neq _ _) N). intros H.
    cbn [factor_text factor_ok]. split; [|exact H].
    change (s "1") with one_base. rewrite (proj2 (str_eqb_neq _ _) N).
    unfold format_coefficient, format_exponent, power_text. cbn [base coef expo var_term].
    change (s "1") with one_base. rewrite (proj2 (str_eqb_neq _ _) N). cbn [negb andb orb]. rewrite qc_eqb_refl.
    cbn [app]. reflexivity.
Qed.

(** the written form of [str(expression)]: factors separated by one blank *)
Fixpoint blank_written (t : operand) (ts : list operand) : written :=
  match ts with
  | [] => WOne (term_factor t)
  | u :: us => WMore (term_factor t) (Blank 0) (blank_written u us)
  end.
(** the written form of a list of terms: groups separated by "*" *)
Definition group_factor (t : operand) : factor := FGroup (WOne (term_factor t)) 1%Qc.
Fixpoint star_written (t : operand) (ts : list operand) : written :=
  match ts with
  | [] => WOne (group_factor t)
  | u :: us => WMore (group_factor t) (Times 0 0) (star_written u us)
  end.

Lemma blank_text t ts : Forall simple_term (t :: ts) -> printable (t :: ts) = true ->
  format_expression (t :: ts) = written_text (blank_written t ts) /\
  written_ok true (blank_written t ts) = true.
Proof.
  unfold format_expression. revert t. induction ts as [|u us IH]; intros t F P.
  - inversion F; subst. cbn [printable forallb] in P. apply andb_true_iff in P as [P _].
    destruct (format_term_text t H1 P) as [E O]. cbn [map join blank_written written_text written_ok]. auto.
  - inversion F as [|? ? St Fu]; subst. change (printable (t :: u :: us)) with (printable_term t && printable (u :: us)) in P.
    apply andb_true_iff in P as [P1 P2].
    destruct (format_term_text t St P1) as [E O]. destruct (IH u Fu P2) as [E' O'].
    split.
    + change (map format_term (t :: u :: us)) with (format_term t :: map format_term (u :: us)).
      cbn [blank_written written_text sep_text blanks repeat]. rewrite <- E', <- E. reflexivity.
    + cbn [blank_written written_ok]. rewrite O, O'. reflexivity.
Qed.

Lemma star_text t ts : Forall simple_term (t :: ts) -> printable (t :: ts) = true ->
  standard_terms (t :: ts) = written_text (star_written t ts) /\
  written_ok true (star_written t ts) = true.
Proof.
  unfold standard_terms.
  assert (G : forall t, simple_term t -> printable_term t = true ->
     "("%char :: format_term t ++ [")"%char] = factor_text (group_factor t) /\ factor_ok true (group_factor t) = true).
  { intros u S P. destruct (format_term_text u S P) as [E O]. split.
    - cbn [group_factor factor_text written_text]. rewrite E. reflexivity.
    - cbn [group_factor factor_ok written_ok]. change (true && q_isint 1) with true. rewrite O. reflexivity. }
  revert t. induction ts as [|u us IH]; intros t F P.
  - inversion F; subst. cbn [printable forallb] in P. apply andb_true_iff in P as [P _].
    destruct (G t H1 P) as [E O]. cbn [map join star_written written_text written_ok]. auto.
  - inversion F as [|? ? St Fu]; subst. change (printable (t :: u :: us)) with (printable_term t && printable (u :: us)) in P.
    apply andb_true_iff in P as [P1 P2].
    destruct (G t St P1) as [E O]. destruct (IH u Fu P2) as [E' O'].
    split.
    + cbn [star_written written_text sep_text blanks repeat app]. rewrite <- E', <- E. reflexivity.
    + cbn [star_written written_ok]. rewrite O, O'. reflexivity.
Qed.

Lemma blank_meaning t ts : Forall simple_term (t :: ts) ->
  written_coef false (blank_written t ts) = mono_coef (t :: ts) /\
  forall b, b <> one_base -> written_expo b false (blank_written t ts) = mono_expo b (t :: ts).
Proof.
  revert t. induction ts as [|u us IH]; intros t F; inversion F as [|? ? St Fu]; subst.
  - destruct St as [(c & ->)|(b' & e & -> & N)].
    + cbn [blank_written written_coef written_expo inverted signed].
      change (term_factor (const_term c)) with (FConst c).
      cbn [factor_coef factor_expo expo const_term mono_coef mono_expo fold_right coef base]. split; [ring|].
      intros b Hb. destruct (str_eqb_spec one_base b); [congruence|reflexivity].
    + cbn [blank_written written_coef written_expo inverted signed]. unfold term_factor.
      cbn [base var_term]. rewrite (proj2 (str_eqb_neq _ _) N).
      cbn [factor_coef factor_expo expo var_term mono_coef mono_expo fold_right coef base]. split; [ring|].
      intros b Hb. destruct (str_eqb b' b); ring.
  - destruct (IH u Fu) as [I1 I2].
    cbn [blank_written written_coef written_expo inverted signed is_over].
    rewrite I1. split.
    + destruct St as [(c & ->)|(b' & e & -> & N)]; [reflexivity|].
      unfold term_factor. cbn [base var_term]. rewrite (proj2 (str_eqb_neq _ _) N). reflexivity.
    + intros b Hb. rewrite I2 by exact Hb. destruct St as [(c & ->)|(b' & e & -> & N)].
      * change (mono_expo b (const_term c :: u :: us)) with
          (if str_eqb one_base b then 1 + mono_expo b (u :: us) else mono_expo b (u :: us))%Qc.
        destruct (str_eqb_spec one_base b); [congruence|]. simpl factor_expo. ring.
      * unfold term_factor. cbn [base var_term]. rewrite (proj2 (str_eqb_neq _ _) N).
        change (mono_expo b (var_term b' e :: u :: us)) with
          (if str_eqb b' b then e + mono_expo b (u :: us) else mono_expo b (u :: us))%Qc.
        cbn [factor_expo expo var_term]. destruct (str_eqb b' b); ring.
Qed.
Lemma star_blank t ts :
  written_coef false (star_written t ts) = written_coef false (blank_written t ts) /\
  forall b, written_expo b false (star_written t ts) = written_expo b false (blank_written t ts).
Proof.
  assert (GC : forall t, factor_coef (group_factor t) = factor_coef (term_factor t)).
  { intros u. cbn [group_factor factor_coef written_coef inverted]. change (qnum 1) with 1%Z. apply qpowz_1_r. }
  assert (GE : forall t b, factor_expo b (group_factor t) = factor_expo b (term_factor t)).
  { intros u b. cbn [group_factor factor_expo written_expo signed]. ring. }
  revert t. induction ts as [|u us IH]; intros t; cbn [star_written blank_written written_coef written_expo inverted signed is_over].
  - split; [apply GC | intros b; apply GE].
  - destruct (IH u) as [I1 I2]. rewrite GC, I1. split; [reflexivity|]. intros b. rewrite GE, I2. reflexivity.
Qed.

Lemma canonical_eq r r' : canonical r -> canonical r' -> same_monomial r r' -> r = r'.
Proof.
  intros C C' S. destruct (canonical_ok r C) as [N F]. destruct (canonical_ok r' C') as [N' F'].
  pose proof (reduce_unique r r' N N' F F' S) as E.
  rewrite (canonical_fixed r C), (canonical_fixed r' C') in E. congruence.
Qed.

(** Printing then parsing gives the expression back. *)
Lemma parse_format r : canonical r -> printable r = true ->
  expression_of_str libm_pow (format_expression r) = Ok r.
Proof.
  intros C P. destruct (canonical_ok r C) as [NE _]. destruct r as [|t ts]; [congruence|].
  pose proof (canonical_simple _ C) as S.
  destruct (blank_text t ts S P) as [E O]. rewrite E.
  destruct (expression_meaning _ O) as (r' & -> & C' & M1 & M2). f_equal.
  destruct (blank_meaning t ts S) as [B1 B2]. symmetry. apply canonical_eq; auto.
  split; [congruence|]. intros b Hb. rewrite M2, B2; auto.
Qed.
(** Making an expression from a canonical list of terms gives the list back. *)
Lemma of_terms_printable r : canonical r -> printable r = true ->
  expression_of_terms libm_pow r = Ok r.
Proof.
  intros C P. destruct (canonical_ok r C) as [NE _]. destruct r as [|t ts]; [congruence|].
  pose proof (canonical_simple _ C) as S. unfold expression_of_terms.
  destruct (star_text t ts S P) as [E O]. rewrite E.
  destruct (expression_meaning _ O) as (r' & -> & C' & M1 & M2). f_equal.
  destruct (star_blank t ts) as [K1 K2].
  destruct (blank_meaning t ts S) as [B1 B2]. symmetry. apply canonical_eq; auto.
  split; [congruence|]. intros b Hb. rewrite M2, K2, B2; auto.
Qed.
End RoundTrip.
