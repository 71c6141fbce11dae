(** * The actual table of named units is regular; which arguments are settled *)
From Verif Require Import PyBase PyLemmas SymbolicModel SymbolicSpec SymbolicProofs SymbolicParse SymbolicRoundTrip SymbolicAlgebra SymbolicTotal ContainerModel ContainerSpec ContainerProofs AliasedModel AliasedSpec AliasedProofs MetricModel MetricTables UnitModel UnitSpec.

Definition has (c : ascii) (x : str) : bool := existsb (Ascii.eqb c) x.
Fixpoint first_word (x : str) : str :=
  match x with [] => [] | c :: x' => if Ascii.eqb c " " then [] else c :: first_word x' end.
Section Generic.
Variable libm : Qc -> Qc -> option Qc.
Variable named : str -> option nunit.
Variable keys : list str.
Variable table : list nunit.
Hypothesis K1 : forall k n, named k = Some n -> In k keys /\ In n table.
Hypothesis K2 : forall k, In k keys -> has "^" k = false.
Hypothesis K3 : forall k, In k keys -> has " " k = true -> named (first_word k) = None.
Hypothesis T1 : forall n, In n table -> named (n_name n) = Some n.
Hypothesis T2 : forall n, In n table -> exists m, named (n_symbol n) = Some m /\ n_symbol m = n_symbol n.
Hypothesis T3 : forall n, In n table -> has " " (n_symbol n) = false.
Hypothesis T4 : forall n ts, In n table -> arg_terms libm named (UStr (n_name n)) = Ok ts -> format_expression ts = n_symbol n.
Hypothesis E0 : named [] = None.

Definition symbol_term (t : operand) : Prop := coef t = 1%Qc /\ exists u n, named u = Some n /\ base t = n_symbol n.
Lemma as_symbol_ok t t' : as_symbol libm named t = Ok t' -> symbol_term t' /\ exists n, named (base t) = Some n /\ base t' = n_symbol n /\ expo t' = or1 (1 * expo t)%Qc /\ isterm t' = true.
Proof.
  unfold as_symbol. destruct (named (base t)) as [n|] eqn:N; [|discriminate]. intros H. apply bind_ok_inv in H as (b & Hb & H).
  unfold term_factory in Hb. destruct base_is_valid; [|discriminate]. injection Hb as <-.
  assert (Ns : n_symbol n <> []).
  { intros E. destruct (T2 n (proj2 (K1 _ _ N))) as (m & Hm & _). rewrite E, E0 in Hm. discriminate. }
  apply bind_ok_inv in H as (c & Hc & H). injection H as <-. cbn [mk_operand coef base expo isterm] in *.
  assert (B : match n_symbol n with [] => s "1" | _ => n_symbol n end = n_symbol n) by (destruct (n_symbol n); [congruence|reflexivity]).
  assert (c = 1%Qc) as ->.
  { unfold fr_pow in Hc. change (or1 1) with 1%Qc in Hc. destruct q_isint.
    - cbn in Hc. rewrite qpowz_1_l in Hc. injection Hc as <-. reflexivity.
    - rewrite fl_1 in Hc. cbn in Hc. injection Hc as <-. reflexivity. }
  assert (C : base (mk_operand true 1%Qc (match n_symbol n with [] => s "1" | _ => n_symbol n end) (or1 1 * expo t)%Qc) = n_symbol n).
  { rewrite B. cbn. destruct (n_symbol n); [congruence|reflexivity]. }
  split.
  - split; [reflexivity|]. exists (base t), n. split; [exact N|]. exact C.
  - exists n. split; [reflexivity|]. split; [exact C|]. split; reflexivity.
Qed.
Lemma arg_terms_symbols a ts : arg_terms libm named a = Ok ts -> Forall symbol_term ts.
Proof.
  intros H. apply bind_ok_inv in H as (e & _ & H). revert ts H. induction e as [|t e IH]; cbn; intros ts H.
  - injection H as <-. constructor.
  - apply bind_ok_inv in H as (t' & H1 & H). apply bind_ok_inv in H as (l & H2 & H). injection H as <-. constructor; [apply (as_symbol_ok t t' H1)|apply IH, H2].
Qed.
Lemma has_app c x y : has c (x ++ y) = has c x || has c y.
Proof. apply existsb_app. Qed.
Lemma format_symbol t : symbol_term t -> has "^" (format_term t) = true \/ format_term t = base t.
Proof.
  intros (C & _). unfold format_term, format_coefficient, format_exponent. rewrite C. destruct (str_eqb (base t) (s "1")) eqn:B; cbn [negb andb orb].
  - right. apply str_eqb_eq in B as ->. vm_compute. reflexivity.
  - change (qc_eqb 1 1) with true. cbn [app]. destruct (qc_eqb (expo t) 1); [right; apply app_nil_r|]. left. rewrite has_app. apply orb_true_iff. right. reflexivity.
Qed.
Lemma first_word_app x y : has " " x = false -> first_word (x ++ " "%char :: y) = x.
Proof.
  induction x as [|c x IH]; cbn [app first_word]; [reflexivity|]. intros H. unfold has in H. cbn [existsb] in H. apply orb_false_iff in H as (H1 & H2).
  rewrite Ascii.eqb_sym in H1. rewrite H1. f_equal. apply IH, H2.
Qed.
Lemma reg_symbol_ok a ts n : arg_terms libm named a = Ok ts -> named (format_expression ts) = Some n -> n_symbol n = format_expression ts.
Proof.
  intros H N. apply arg_terms_symbols in H. destruct (K1 _ _ N) as (Kk & _). pose proof (K2 _ Kk) as Nc.
  unfold format_expression in *. destruct ts as [|t [|t' ts]].
  - cbn in N. rewrite E0 in N. discriminate.
  - inversion H as [|? ? Ht _]; subst. cbn [map join] in *. destruct (format_symbol t Ht) as [E|E]; [congruence|].
    destruct Ht as (_ & u & n' & Nu & B). rewrite E, B in N |- *. destruct (T2 n' (proj2 (K1 _ _ Nu))) as (m & M1 & M2). rewrite M1 in N. injection N as <-. exact M2.
  - exfalso. inversion H as [|? ? Ht _]; subst. change (join (s " ") (map format_term (t :: t' :: ts))) with (format_term t ++ " "%char :: join (s " ") (map format_term (t' :: ts))) in *.
    rewrite has_app in Nc. apply orb_false_iff in Nc as (Nc & _). destruct (format_symbol t Ht) as [E|E]; [congruence|].
    destruct Ht as (_ & u & n' & Nu & B). destruct (K1 _ _ Nu) as (_ & In').
    assert (W : named (first_word (format_term t ++ " "%char :: join (s " ") (map format_term (t' :: ts)))) = None).
    { apply K3; [exact Kk|]. rewrite has_app. apply orb_true_iff. right. reflexivity. }
    rewrite first_word_app in W by (rewrite E, B; apply T3, In'). rewrite E, B in W. destruct (T2 n' In') as (m & M & _). congruence.
Qed.
Lemma regular_ok : regular libm named.
Proof.
  constructor.
  - intros u n H. apply T1, (K1 _ _ H).
  - exact reg_symbol_ok.
  - intros u n ts H. apply T4, (K1 _ _ H).
Qed.
(** terms written in symbols denote themselves *)
Lemma symbols_fixed ts : canonical ts -> Forall symbol_term ts -> mapM (as_symbol libm named) ts = Ok ts.
Proof.
  intros C. destruct (canonical_ok ts C) as (_ & T). clear C. induction ts as [|t ts IH]; intros F; [reflexivity|].
  inversion F as [|? ? F1 F2]; subst. inversion T as [|? ? T0 T']; subst. cbn [mapM]. rewrite IH by assumption.
  destruct T0 as (It & _ & Ex & Bv). destruct F1 as (C & u & n & Nu & B). destruct (T2 n (proj2 (K1 _ _ Nu))) as (m & M1 & M2).
  unfold as_symbol. rewrite B, M1. unfold term_factory. rewrite M2, <- B, Bv. cbn [bind].
  assert (Nb : base t <> []) by (intros E; rewrite <- B, E, E0 in M1; discriminate).
  rewrite op_pow_raised.
  - cbn [bind]. unfold raised. cbn [mk_operand coef base expo isterm]. change (or1 1) with 1%Qc. rewrite qpowz_1_l, Qcmult_1_l.
    destruct t as [c b e i]. cbn in *. subst. destruct (n_symbol n); [congruence|reflexivity].
  - discriminate.
  - discriminate.
  - cbn. destruct (base t); [congruence|discriminate].
  - exact Ex.
  - right. reflexivity.
Qed.
Lemma settled_str x ts : arg_terms libm named (UStr x) = Ok ts -> canonical ts -> printable ts = true -> settled libm named (UStr x).
Proof.
  intros H C P us Hu. rewrite H in Hu. injection Hu as <-. pose proof (proj1 (canonical_ok ts C)) as Ne.
  assert (D : denotes libm named (UStr x) (format_expression ts)) by (exists ts; auto).
  split; [exact D|]. split.
  - exists ts. split; [|auto]. unfold arg_terms, arg_expression. rewrite (parse_format libm ts C P). cbn [bind]. apply symbols_fixed; [exact C|]. apply arg_terms_symbols in H. exact H.
  - intros y [= <-]. exact D.
Qed.
End Generic.

Lemma getitem_members {V} (d : entries V) k v : getitem d k = Ok v -> In k (flat_keys d) /\ In v (map snd d).
Proof.
  unfold getitem. destruct resolve as [i|] eqn:E; [|discriminate]. destruct nth_error as [(g, w)|] eqn:N; [|discriminate]. intros [= <-].
  unfold resolve in E. apply resolve_from_some in E as (n & g' & w' & -> & N' & K & _). cbn in N. rewrite N in N'. injection N' as <- <-. apply nth_error_In in N.
  split; [unfold flat_keys; apply in_concat; exists g; split; [apply in_map_iff; exists (g, w); auto|exact K]|apply in_map_iff; exists (g, w); auto].
Qed.
(** the same checks for any table *)
Definition check_key_in d (k : str) : bool :=
  negb (has "^" k) && (if has " " k then match unit_in d (first_word k) with None => true | Some _ => false end else true).
Definition check_unit_in libm (d : entries nunit) (e : list str * nunit) : bool :=
  let n := snd e in
  match unit_in d (n_name n) with Some m => nunit_eq n m | None => false end &&
  match unit_in d (n_symbol n) with Some m => str_eqb (n_symbol n) (n_symbol m) | None => false end &&
  negb (has " " (n_symbol n)) &&
  match arg_terms libm (unit_in d) (UStr (n_name n)) with Ok ts => str_eqb (format_expression ts) (n_symbol n) | Raise _ => true end.
Lemma nunit_eq_eq a b : nunit_eq a b = true -> a = b.
Proof. destruct a, b. unfold nunit_eq, same_prefix, same_base. cbn. rewrite !andb_true_iff, !str_eqb_eq, Z.eqb_eq. intros (((-> & ->) & ->) & (-> & ->) & ->). reflexivity. Qed.
Section Checked.
Variable libm : Qc -> Qc -> option Qc.
Variable d : entries nunit.
Hypothesis Ck : forallb (check_key_in d) (flat_keys d) = true.
Hypothesis Cu : forallb (check_unit_in libm d) d = true.
Hypothesis C0 : unit_in d [] = None.
Lemma ck1 k n : unit_in d k = Some n -> In k (flat_keys d) /\ In n (map snd d).
Proof. unfold unit_in. destruct getitem eqn:E; [|discriminate]. intros [= <-]. apply getitem_members, E. Qed.
Lemma ck2 k : In k (flat_keys d) -> has "^" k = false.
Proof. intros H. apply (proj1 (forallb_forall _ _) Ck) in H. unfold check_key_in in H. apply andb_true_iff in H as (H & _). apply negb_true_iff, H. Qed.
Lemma ck3 k : In k (flat_keys d) -> has " " k = true -> unit_in d (first_word k) = None.
Proof. intros H E. apply (proj1 (forallb_forall _ _) Ck) in H. unfold check_key_in in H. rewrite E in H. apply andb_true_iff in H as (_ & H). destruct (unit_in d (first_word k)); [discriminate|reflexivity]. Qed.
Lemma cu n : In n (map snd d) -> exists e, snd e = n /\ check_unit_in libm d e = true.
Proof. intros H. apply in_map_iff in H as (e & E & H). exists e. split; [exact E|]. apply (proj1 (forallb_forall _ _) Cu), H. Qed.
Lemma cu1 n : In n (map snd d) -> unit_in d (n_name n) = Some n.
Proof. intros H. destruct (cu n H) as (e & <- & K). unfold check_unit_in in K. rewrite !andb_true_iff in K. destruct K as (((K & _) & _) & _). destruct (unit_in d (n_name (snd e))) as [m|] eqn:Lk; [|discriminate]. apply nunit_eq_eq in K. rewrite K. reflexivity. Qed.
Lemma cu2 n : In n (map snd d) -> exists m, unit_in d (n_symbol n) = Some m /\ n_symbol m = n_symbol n.
Proof. intros H. destruct (cu n H) as (e & <- & K). unfold check_unit_in in K. rewrite !andb_true_iff in K. destruct K as (((_ & K) & _) & _). destruct (unit_in d (n_symbol (snd e))) as [m|] eqn:Lk; [|discriminate]. apply str_eqb_eq in K. exists m. auto. Qed.
Lemma cu3 n : In n (map snd d) -> has " " (n_symbol n) = false.
Proof. intros H. destruct (cu n H) as (e & <- & K). unfold check_unit_in in K. rewrite !andb_true_iff in K. destruct K as ((_ & K) & _). apply negb_true_iff, K. Qed.
Lemma cu4 n ts : In n (map snd d) -> arg_terms libm (unit_in d) (UStr (n_name n)) = Ok ts -> format_expression ts = n_symbol n.
Proof. intros H E. destruct (cu n H) as (e & <- & K). unfold check_unit_in in K. rewrite !andb_true_iff in K. destruct K as (_ & K). rewrite E in K. apply str_eqb_eq, K. Qed.
Lemma checked_regular : regular libm (unit_in d).
Proof. exact (regular_ok libm (unit_in d) (flat_keys d) (map snd d) ck1 ck2 ck3 cu1 cu2 cu3 cu4 C0). Qed.
Lemma checked_settled x ts : arg_terms libm (unit_in d) (UStr x) = Ok ts -> canonical ts -> printable ts = true -> settled libm (unit_in d) (UStr x).
Proof. exact (settled_str libm (unit_in d) (flat_keys d) (map snd d) ck1 cu2 C0 x ts). Qed.
End Checked.
Lemma keys_checked : forallb (check_key_in NAMED) (flat_keys NAMED) = true.
Proof. vm_compute. reflexivity. Qed.
Lemma units_checked libm : forallb (check_unit_in libm NAMED) NAMED = true.
Proof. vm_compute. reflexivity. Qed.
Lemma empty_unnamed : unit_in NAMED [] = None. Proof. vm_compute. reflexivity. Qed.
Lemma actual_regular libm : regular libm named_unit.
Proof. exact (checked_regular libm NAMED keys_checked (units_checked libm) empty_unnamed). Qed.
Lemma actual_settled libm x ts : arg_terms libm named_unit (UStr x) = Ok ts -> canonical ts -> printable ts = true -> settled libm named_unit (UStr x).
Proof. exact (checked_settled libm NAMED (units_checked libm) empty_unnamed x ts). Qed.
