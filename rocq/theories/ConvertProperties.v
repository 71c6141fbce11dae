(** * C74: conversions to a metric system *)
From Verif Require Import PyBase PyLemmas SymbolicModel SymbolicSpec SymbolicProofs SymbolicRegex SymbolicParse SymbolicTotal SymbolicRoundTrip SymbolicAlgebra ContainerModel ContainerSpec ContainerProofs ContainerProofs2 AliasedModel MetricModel MetricSpec MetricTables MetricSizes MetricProofs MetricProofs2 MetricProperties UnitModel UnitOpsModel UnitOpsSpec UnitOpsProofs UnitOpsProofs2 UnitOpsTables UnitOpsProofs3 NormalizeModel NormalizeSpec NormalizeProofs NormalizeProofs2 NormalizeProperties SystemsModel SystemsProofs SystemsProperties ConvertModel ConvertProofs.

Section C74.
Set Default Proof Using "Type".
Variable libm : Qc -> Qc -> option Qc.
(** the recursion limit of the interpreter *)
Variable limit : nat.
Hypothesis deep : 9 <= limit.
Lemma deep8 : 8 <= limit.
Proof using deep. lia. Qed.
Context {F : Type}.
(** the factors of conversions between units (C21) *)
Variable factor : str -> str -> result F.
Variable one_factor : F.
Notation run := (convert_unit libm limit factor one_factor).
Notation after l := (requests libm limit factor one_factor [] l).
Notation normal y ts := (normalize libm limit y ts).
(** the conversion from [u] to [v]: the identity if they are written alike *)
Definition between (u v : str) : result (conversion (F := F)) :=
  if str_eqb u v then Ok (mkconversion u v one_factor) else f <- factor u v ;; Ok (mkconversion u v f).

(** ** Histories *)
Definition true_to (k : converters) : Prop :=
  Forall (fun e => exists subs, get_substitutions libm limit (snd (fst e)) = Ok subs /\ snd e = mkconverter (substitute subs (fst (fst e))) (snd (fst e)) subs) k.
Lemma find_true k a q c : true_to k -> find_converter k (a, q) = Some c -> exists subs, get_substitutions libm limit q = Ok subs /\ c = mkconverter (substitute subs a) q subs.
Proof.
  induction 1 as [|((a', q'), c') k H _ IH]; [discriminate|]. cbn [find_converter fst snd]. destruct (str_eqb_spec a' a) as [->|]; [|exact IH]. destruct (str_eqb_spec q' q) as [->|]; [|exact IH].
  cbn [andb]. intros [= <-]. exact H.
Qed.
Lemma factory_true k a q : true_to k -> fst (converter_factory libm limit k a q) = fst (converter_factory libm limit [] a q) /\ true_to (snd (converter_factory libm limit k a q)).
Proof.
  intros T. unfold converter_factory. cbn [find_converter]. destruct (find_converter k (a, q)) as [c|] eqn:E.
  - destruct (find_true k a q c T E) as (subs & -> & ->). split; [reflexivity|exact T].
  - destruct (get_substitutions libm limit q) as [subs|e] eqn:G; (split; [reflexivity|]); cbn [snd]; [|exact T]. apply Forall_app. split; [exact T|]. constructor; [|constructor]. exists subs. auto.
Qed.
Lemma run_true k a b q : true_to k -> fst (run k a b q) = fst (run [] a b q) /\ true_to (snd (run k a b q)).
Proof.
  intros T. unfold convert_unit. destruct (named_system b) as [y|]; [|split; [reflexivity|exact T]]. destruct (str_eqb a (s "1")); [split; [reflexivity|exact T]|].
  assert (W : forall q, fst (match converter_factory libm limit k a q with (Ok c, k') => (convert_to factor one_factor c b, k') | (Raise e, k') => (Raise e, k') end) =
    fst (match converter_factory libm limit [] a q with (Ok c, k') => (convert_to factor one_factor c b, k') | (Raise e, k') => (Raise e, k') end) /\
    true_to (snd (match converter_factory libm limit k a q with (Ok c, k') => (convert_to factor one_factor c b, k') | (Raise e, k') => (Raise e, k') end))).
  { intros p. destruct (factory_true k a p T) as (E & T'). destruct (converter_factory libm limit k a p) as (r, k'), (converter_factory libm limit [] a p) as (r', k''). cbn [fst snd] in *. subst r'. destruct r; split; try reflexivity; exact T'. }
  destruct q as [q|]; [apply W|]. destruct (_ <- _ ;; _) as [q|]; [apply W|split; [reflexivity|exact T]].
Qed.
Lemma after_true l : true_to (after l).
Proof. assert (G : forall k, true_to k -> true_to (requests libm limit factor one_factor k l)); [|apply G; constructor]. induction l as [|((a, b), q) l IH]; intros k T; [exact T|]. cbn [requests]. apply IH, run_true, T. Qed.
(** The handlers that are kept do not matter: after any history of requests, a
    request has the result that it has at first. *)
Theorem C74_history l a b q : fst (run (after l) a b q) = fst (run [] a b q).
Proof. apply run_true, after_true. Qed.

(** ** With a quantity *)
Lemma unit_texts : forallb (fun y => forallb (fun e => match (match y with Mks => fst (snd e) | Cgs => snd (snd e) end) with Ok [] => false | _ => true end) CANONICAL_UNITS) [Mks; Cgs] = true.
Proof. vm_compute. reflexivity. Qed.
Lemma unit_nonempty q y v : quantity_unit q y = Some v -> v <> [].
Proof.
  unfold quantity_unit, in_table. destruct (assoc CANONICAL_UNITS q) as [(m, c)|] eqn:A; [|discriminate]. apply assoc_in in A.
  pose proof (proj1 (forallb_forall _ _) (proj1 (forallb_forall _ _) unit_texts y (in_systems y)) _ A) as K. cbn [fst snd] in K. destruct y; [destruct m as [m|]|destruct c as [c|]]; try discriminate; intros [= <-] ->; discriminate K.
Qed.
Lemma units_table q : In q (map fst CANONICAL_DIMS) -> exists m c, quantity_unit q Mks = Some m /\ quantity_unit q Cgs = Some c /\ units_of libm limit q = Ok (fun y => match y with Mks => m | Cgs => c end).
Proof using deep.
  intros I. destruct (property_table libm Mks limit q deep8 I) as (m & Pm & Um). destruct (property_table libm Cgs limit q deep8 I) as (c & Pc & Uc).
  exists m, c. split; [exact Um|]. split; [exact Uc|]. unfold units_of. rewrite Pm. cbn [bind]. rewrite Pc. reflexivity.
Qed.
(** the quantity whose units are used: 'mass number' counts as 'mass' *)
Definition effective (q : str) : str := if str_eqb q (s "mass number") then s "mass" else q.
(** a metric system stands for the unit of the quantity *)
Definition stands_for (q : str) (x v : str) : Prop :=
  match named_system x with Some y => quantity_unit (effective q) y = Some v | None => v = x end.
Lemma names_low : forallb (fun q => str_eqb (lower q) q && negb (str_eqb q (s "mass_number"))) (map fst CANONICAL_DIMS) = true.
Proof. vm_compute. reflexivity. Qed.
Lemma substitutions_ok q : In q quantities -> exists subs, get_substitutions libm limit q = Ok subs /\ forall x v, stands_for q x v -> substitute subs x = v.
Proof using deep.
  rewrite <- table_names. intros I. pose proof (proj1 (forallb_forall _ _) names_low q I) as K. apply andb_true_iff in K as (K1 & K2). apply str_eqb_eq in K1. apply negb_true_iff in K2.
  assert (S : forall p subs, (forall x, p = effective q -> match named_system x with Some y => quantity_unit p y = Some (subs y) | None => True end) -> p = effective q -> forall x v, stands_for q x v -> substitute subs x = v).
  { intros p subs H E x v St. specialize (H x E). unfold stands_for in St. unfold substitute. destruct (named_system x) as [y|]; [|symmetry; exact St]. rewrite <- E, H in St. injection St as <-.
    destruct (subs y) eqn:Z; [destruct (unit_nonempty _ _ _ H eq_refl)|reflexivity]. }
  unfold get_substitutions. rewrite K1, K2, orb_false_r. unfold effective in S. destruct (str_eqb q (s "mass number")) eqn:M.
  - destruct (units_table (s "mass")) as (m & c & Um & Uc & ->); [apply (mem_spec str_eqb str_decides); vm_compute; reflexivity|]. eexists. split; [reflexivity|]. apply (S (s "mass")); [|reflexivity].
    intros x _. destruct (named_system x) as [[|]|]; [exact Um|exact Uc|exact Logic.I].
  - destruct (units_table q I) as (m & c & Um & Uc & ->). eexists. split; [reflexivity|]. apply (S q); [|reflexivity]. intros x _. destruct (named_system x) as [[|]|]; [exact Um|exact Uc|exact Logic.I].
Qed.
(** Given a quantity of the tables, the conversion of a unit to a metric system is
    its conversion to the unit of the quantity in that system; the source may
    itself be a metric system. *)
Theorem C74_quantity l y q source u v : In q quantities -> source <> s "1" -> stands_for q source u -> stands_for q (system_name y) v ->
  fst (run (after l) source (system_name y) (Some q)) = between u v.
Proof using deep.
  intros I N U V. rewrite C74_history. unfold convert_unit. replace (named_system (system_name y)) with (Some y) by (destruct y; reflexivity).
  rewrite (proj2 (str_eqb_neq _ _) N). unfold converter_factory. cbn [find_converter]. destruct (substitutions_ok q I) as (subs & -> & S). cbn [fst].
  unfold convert_to. cbn [c_unit c_subs]. rewrite (S _ _ U), (S _ _ V). reflexivity.
Qed.
(** a number is converted to a number; a target that is not a metric system is a
    unit *)
Theorem C74_units l source target q : fst (run (after l) (s "1") target q) = (f <- factor (s "1") (match named_system target with Some _ => s "1" | None => target end) ;; Ok (mkconversion (s "1") (match named_system target with Some _ => s "1" | None => target end) f)) /\
  (target <> s "mks" -> target <> s "cgs" -> fst (run (after l) source target q) = (f <- factor source target ;; Ok (mkconversion source target f))).
Proof.
  rewrite !C74_history. unfold convert_unit. split.
  - destruct (named_system target); reflexivity.
  - intros A B. replace (named_system target) with (@None system); [reflexivity|]. unfold named_system. rewrite (proj2 (str_eqb_neq _ _) A), (proj2 (str_eqb_neq _ _) B). reflexivity.
Qed.

(** ** Without a quantity: ambiguity *)
(** [r] is the unit of the quantity [q] in the system [y], according to the tables *)
Definition has_unit (y : system) (q : str) (r : list operand) : Prop := exists v, quantity_unit q y = Some v /\ expression_of_str libm v = Ok r.
(** two quantities have the unit [ts] in the other system, and different units in [y] *)
Definition two_meanings (y : system) (ts : list operand) : Prop := exists q1 q2 r1 r2,
  has_unit (other_system y) q1 ts /\ has_unit (other_system y) q2 ts /\ has_unit y q1 r1 /\ has_unit y q2 r2 /\ r1 <> r2.
Definition expression_check (y : system) (e : str * (result str * result str)) : bool :=
  match unit_expression libm y e with
  | Ok d => match quantity_unit (fst e) y, (match y with Mks => fst (snd e) | Cgs => snd (snd e) end) with Some v, Ok w => str_eqb v w | _, _ => false end
            && match d with [] => false | _ => true end && forallb (plain_check 2) d && forallb (fun t => qc_eqb (fl (coef t)) (coef t) && qc_eqb (fl (expo t)) (expo t)) d
            && match SymbolicModel.reduce d with Ok r => terms_same r d | Raise _ => false end
  | Raise _ => false
  end.
Lemma expression_checks : forallb (fun y => forallb (expression_check y) CANONICAL_UNITS) [Mks; Cgs] = true.
Proof. vm_compute. reflexivity. Qed.
Lemma expression_row y e : In e CANONICAL_UNITS -> exists d, unit_expression libm y e = Ok d /\ has_unit y (fst e) d /\ canonical d /\ plain 2 d /\ Forall doubles d.
Proof.
  intros I. pose proof (proj1 (forallb_forall _ _) (proj1 (forallb_forall _ _) expression_checks y (in_systems y)) e I) as C. unfold expression_check in C.
  destruct (unit_expression libm y e) as [d|] eqn:E; [|discriminate C]. exists d. split; [reflexivity|].
  apply andb_true_iff in C as (C & C5). apply andb_true_iff in C as (C & C4). apply andb_true_iff in C as (C & C3). apply andb_true_iff in C as (C1 & C2).
  assert (P : plain 2 d) by (apply Forall_forall; intros t Ht; apply plain_check_ok; exact (proj1 (forallb_forall _ _) C3 t Ht)). split; [|split; [|split; [exact P|]]].
  - unfold unit_expression in E. destruct (quantity_unit (fst e) y) as [v|] eqn:Q; [|discriminate C1]. exists v. split; [exact Q|]. destruct (match y with Mks => fst (snd e) | Cgs => snd (snd e) end) as [w|]; [|discriminate C1].
    apply str_eqb_eq in C1. subst w. exact E.
  - destruct (SymbolicModel.reduce d) as [r|] eqn:R; [|discriminate C5]. apply terms_same_eq in C5. subst r. eapply reduce_canonical; [|eapply (plain_ok 2), P|exact R]. destruct d; [discriminate C2|congruence].
  - apply Forall_forall. intros t Ht. pose proof (proj1 (forallb_forall _ _) C4 t Ht) as D. apply andb_true_iff in D as (D1 & D2). apply qc_eqb_eq in D1, D2. split; assumption.
Qed.
Lemma has_unit_fun y q r r' : has_unit y q r -> has_unit y q r' -> r = r'.
Proof. intros (v & Q & E) (v' & Q' & E'). congruence. Qed.
Lemma has_unit_row y q r : has_unit y q r -> exists e, In e CANONICAL_UNITS /\ fst e = q.
Proof. intros (v & Q & _). unfold quantity_unit, in_table in Q. destruct (assoc CANONICAL_UNITS q) as [x|] eqn:A; [|discriminate Q]. apply assoc_in in A. exists (q, x). auto. Qed.
Lemma same_terms_eq a b : plain 2 a -> plain 2 b -> (same_terms a b = true <-> a = b).
Proof.
  clear. intros A. revert b. induction A as [|t a T A IH]; intros [|u b] B; cbn [same_terms]; split; try congruence; try discriminate.
  - inversion B as [|? ? U B']; subst. intros H. apply andb_true_iff in H as (H & H4). apply andb_true_iff in H as (H & H3). apply andb_true_iff in H as (H1 & H2). apply str_eqb_eq in H1. apply qc_eqb_eq in H2, H3.
    f_equal; [|apply IH; assumption]. destruct T as (T1 & _), U as (U1 & _). destruct t, u; cbn in *; congruence.
  - inversion B as [|? ? U B']; subst. intros [= <- <-]. rewrite str_eqb_refl, !qc_eqb_refl. cbn. apply IH; [exact B'|reflexivity].
Qed.
Lemma targets_ok y ts : canonical ts -> Forall doubles ts -> forall T, (forall e, In e T -> In e CANONICAL_UNITS) ->
  exists r, targets libm y ts T = Ok r /\ NoDup r /\ Forall (plain 2) r /\ forall d, In d r <-> exists e, In e T /\ has_unit (other_system y) (fst e) ts /\ has_unit y (fst e) d.
Proof.
  intros C D. induction T as [|e T IH]; intros S; [exists []; split; [reflexivity|]; split; [constructor|]; split; [constructor|]; intros d; split; [intros []|intros (? & [] & _)]|].
  destruct IH as (r & E & N & P & H); [intros; apply S; right; assumption|]. cbn [targets].
  destruct (expression_row (other_system y) e (S e (or_introl eq_refl))) as (x & Ex & Hx & Cx & _ & Dx). rewrite Ex. cbn [bind]. rewrite E. cbn [bind].
  destruct (eeq x ts) eqn:Q.
  - assert (x = ts) by (apply canonical_eq; [exact Cx|exact C|]; apply eeq_same; assumption). subst x.
    destruct (expression_row y e (S e (or_introl eq_refl))) as (v & Ev & Hv & _ & Pv & _). rewrite Ev. cbn [bind]. eexists. split; [reflexivity|].
    assert (M : existsb (same_terms v) r = true <-> In v r).
    { rewrite existsb_exists. split; [intros (w & Iw & Sw)|intros I; exists v; split; [exact I|apply same_terms_eq; auto]]. apply same_terms_eq in Sw; [subst; exact Iw|exact Pv|exact (proj1 (Forall_forall _ _) P w Iw)]. }
    destruct (existsb (same_terms v) r) eqn:X.
    + split; [exact N|]. split; [exact P|]. intros d. rewrite H. split; [intros (f & I & K); exists f; split; [right; exact I|exact K]|].
      intros (f & [<-|I] & K1 & K2); [|exists f; auto]. rewrite (has_unit_fun _ _ _ _ K2 Hv). apply H, M. reflexivity.
    + split; [constructor; [intros I; apply M in I; discriminate I|exact N]|]. split; [constructor; assumption|]. intros d. cbn [In]. rewrite H. split.
      * intros [<-|(f & I & K)]; [exists e; split; [left; reflexivity|split; assumption]|exists f; split; [right; exact I|exact K]].
      * intros (f & [<-|I] & K1 & K2); [left; exact (has_unit_fun _ _ _ _ Hv K2)|right; exists f; auto].
  - exists r. split; [reflexivity|]. split; [exact N|]. split; [exact P|]. intros d. rewrite H. split; [intros (f & I & K); exists f; split; [right; exact I|exact K]|].
    intros (f & [<-|I] & K1 & K2); [|exists f; auto]. rewrite <- (has_unit_fun _ _ _ _ K1 Hx), eeq_refl in Q. discriminate Q.
Qed.
Lemma ambiguous_ok y source ts : expression_of_str libm source = Ok ts -> canonical ts -> Forall doubles ts ->
  exists a, is_ambiguous libm source y = Ok a /\ (a = true <-> two_meanings y ts).
Proof.
  clear factor one_factor F deep limit. intros E C D. unfold is_ambiguous. rewrite E. cbn [bind]. destruct (targets_ok y ts C D CANONICAL_UNITS (fun _ H => H)) as (r & -> & N & _ & H). cbn [bind]. eexists. split; [reflexivity|].
  rewrite Nat.ltb_lt. split.
  - intros L. destruct r as [|a [|b r]]; cbn [length] in L; try lia. destruct (proj1 (H a) (or_introl eq_refl)) as (e1 & _ & A1 & A2). destruct (proj1 (H b) (or_intror (or_introl eq_refl))) as (e2 & _ & B1 & B2).
    exists (fst e1), (fst e2), a, b. repeat (split; [assumption|]). inversion N as [|? ? Na _]; subst. intros ->. apply Na. left. reflexivity.
  - intros (q1 & q2 & r1 & r2 & A1 & B1 & A2 & B2 & X). destruct (has_unit_row _ _ _ A1) as (e1 & I1 & <-). destruct (has_unit_row _ _ _ B1) as (e2 & I2 & <-).
    assert (R1 : In r1 r) by (apply H; exists e1; auto). assert (R2 : In r2 r) by (apply H; exists e2; auto). destruct r as [|a [|b r]]; cbn [length]; try lia.
    + destruct R1.
    + destruct R1 as [<-|[]], R2 as [<-|[]]. congruence.
Qed.
(** Without a quantity, a unit with two meanings is not converted: an error, or
    None if the caller asks for no error. *)
Theorem C74_ambiguous l y source ts : expression_of_str libm source = Ok ts -> canonical ts -> Forall doubles ts -> source <> s "1" -> two_meanings y ts ->
  fst (run (after l) source (system_name y) None) = Raise UnitConversionError /\
  fst (metric_conversion libm limit factor one_factor (after l) source (system_name y) None true) = Raise UnitConversionError /\
  fst (metric_conversion libm limit factor one_factor (after l) source (system_name y) None false) = Ok None.
Proof.
  intros E C D N T. assert (R : fst (run (after l) source (system_name y) None) = Raise UnitConversionError).
  { rewrite C74_history. unfold convert_unit. replace (named_system (system_name y)) with (Some y) by (destruct y; reflexivity). rewrite (proj2 (str_eqb_neq _ _) N).
    destruct (ambiguous_ok y source ts E C D) as (a & -> & H). rewrite (proj2 H T). reflexivity. }
  split; [exact R|]. unfold metric_conversion. destruct (run (after l) source (system_name y) None) as (x, k). cbn [fst] in R. subst x. split; reflexivity.
Qed.

(** ** Without a quantity: the normal form *)
(** Any other unit is converted to its normal form (C69), unless it is a mass
    number, or a mass and a number occur together. *)
Definition mass_and_number (ts : list operand) : Prop := total_power (s "mass") ts = 1%Qc /\ total_power (s "number") ts <> 0%Qc.
Definition only_mass_number (ts : list operand) : Prop := total_power (s "mass number") ts = 1%Qc /\ forall q, q <> s "mass number" -> total_power q ts = 0%Qc.
Lemma text_single qs k : canonical qs -> plain 2 qs -> is_symbol k = true -> sqrt_prefix k = false -> format_expression qs = k -> qs = [var_term k 1].
Proof using libm.
  intros C P K2 K3 E. pose proof (symbol_not_one _ K2) as NO.
  assert (Cv : canonical [var_term k 1]).
  { exists 1%Qc, [var_term k 1]. split; [reflexivity|]. split; [discriminate|]. split; [constructor; [|constructor]; exists k, 1%Qc; split; [reflexivity|]; split; [exact NO|]; split; [discriminate|apply symbol_valid, K2]|].
    split; [repeat constructor|]. cbn. constructor; [intros []|constructor]. }
  assert (Pv : plain 8 [var_term k 1]) by (constructor; [split; [reflexivity|]; split; [reflexivity|]; split; [discriminate|]; split; [exact (parts_int 8 1)|right; auto]|constructor]).
  pose proof (parse_format libm qs C (plain_printable _ C (plain_more 2 4 _ P))) as E1. pose proof (parse_format libm _ Cv (plain_printable _ Cv Pv)) as E2.
  assert (T : format_expression [var_term k 1] = k).
  { unfold format_expression. cbn [map join]. unfold format_term, format_coefficient, format_exponent. cbn [base coef expo var_term]. change (s "1") with one_base. rewrite (proj2 (str_eqb_neq _ _) NO), !qc_eqb_refl. cbn. apply app_nil_r. }
  rewrite T in E2. rewrite E in E1. congruence.
Qed.
(** the quantities of a unit *)
Lemma quantity_terms ts : proper_unit [s "lx"] ts -> noncancelling ts -> exists qs, get_quantity libm ts = Ok qs /\ quantities_of qs /\ canonical qs /\ plain 2 qs /\
  (forall q, In q QS -> mono_expo (blanks_to_underscores q) qs = total_power q ts) /\
  (forall y x, compound (S := expos) (fun b => coherent y (underscores_to_blanks b) x) qs = replaced y x ts).
Proof.
  intros PU (q0 & Q0). destruct (proper_terms ts PU) as (N & PT). destruct (get_quantity_ok libm ts N PT) as (qs & E & R & P2). exists qs. split; [exact E|].
  assert (X : forall q, In q QS -> mono_expo (blanks_to_underscores q) qs = total_power q ts).
  { intros q I. rewrite <- (total_qterm q ts I PT). apply (rt_expo _ _ _ R). apply qname_ok, I. }
  split; [|split; [exact (rt_canonical _ _ _ R)|split; [exact P2|split; [exact X|]]]].
  - apply Forall_forall. intros t Ht. destruct (canonical_cases qs (rt_canonical _ _ _ R) (rt_coef _ _ _ R)) as [C|C].
    + exfalso. destruct (in_dec str_eq_dec q0 QS) as [I|I]; [|apply Q0, total_unmeasured; assumption]. apply Q0. rewrite <- (X q0 I), C. cbn [mono_expo fold_right const_term base].
      rewrite (proj2 (str_eqb_neq _ _)); [reflexivity|]. destruct (qname_ok q0 I) as (_ & B & _). congruence.
    + pose proof (C t Ht) as B. destruct (rt_base _ _ _ R t Ht) as [B'|(w & Hw & Ew)]; [contradiction|]. apply in_map_iff in Hw as (v & <- & Hv). cbn [qterm base] in Ew.
      exists (measured (base v)). split; [exact (measured_in v (proj1 (Forall_forall _ _) PT v Hv))|]. rewrite Ew. pose proof (proj1 (Forall_forall _ _) P2 t Ht) as (H1 & H2 & _). clear - H1 H2. destruct t; cbn in *; subst; reflexivity.
  - intros y x. destruct (replaced_compound y x ts) as [->|NF]; [|contradiction]. assert (O1 : coherent y (underscores_to_blanks one_base) x = 0%Qc) by (destruct y; reflexivity).
    exact (cmp_reduced expos expos_laws (fun b => coherent y (underscores_to_blanks b) x) 8 (map qterm ts) qs O1 R).
Qed.
Lemma no_clash ts qs : quantities_of qs -> canonical qs -> plain 2 qs -> (forall q, In q QS -> mono_expo (blanks_to_underscores q) qs = total_power q ts) -> ~ mass_and_number ts -> ~ clash qs.
Proof.
  intros Q C P X M (t & u & It & Iu & Bt & Et & Bu). apply M.
  assert (G : forall w q, In w qs -> In q QS -> base w = blanks_to_underscores q -> total_power q ts = expo w).
  { intros w q Iw Iq Bw. rewrite <- (X q Iq), <- Bw. apply (in_reduced_expo qs w C Iw). rewrite Bw. apply qname_ok, Iq. }
  split.
  - rewrite (G t (s "mass") It); [exact Et|apply (mem_spec str_eqb str_decides); vm_compute; reflexivity|exact Bt].
  - rewrite (G u (s "number") Iu); [|apply (mem_spec str_eqb str_decides); vm_compute; reflexivity|exact Bu]. exact (proj1 (proj2 (proj2 (proj1 (Forall_forall _ _) P u Iu)))).
Qed.
Lemma not_a_system ts source : expression_of_str libm source = Ok ts -> proper_unit [s "lx"] ts -> named_system source = None.
Proof.
  intros E P. destruct (named_system source) as [y|] eqn:S; [|reflexivity]. exfalso. unfold named_system in S.
  assert (X : exists e, expression_of_str libm source = Ok e /\ forallb (fun t => match named_unit (base t) with Some _ => true | None => false end) e = false).
  { destruct (str_eqb_spec source (s "mks")) as [->|]; [|destruct (str_eqb_spec source (s "cgs")) as [->|]; [|discriminate S]]; (eexists; split; [vm_compute; reflexivity|vm_compute; reflexivity]). }
  destruct X as (e & Ee & H). rewrite E in Ee. injection Ee as <-. destruct P as ((_ & P) & _). apply not_true_iff_false in H. apply H. apply forallb_forall. intros t Ht.
  destruct (proj1 (Forall_forall _ _) P t Ht) as (_ & _ & _ & _ & _ & _ & n & Hn & _). rewrite Hn. reflexivity.
Qed.
Lemma mass_number_text qs ts : quantities_of qs -> canonical qs -> plain 2 qs -> (forall q, In q QS -> mono_expo (blanks_to_underscores q) qs = total_power q ts) -> Forall proper_term ts ->
  (format_expression qs = s "mass_number" <-> only_mass_number ts).
Proof using libm.
  intros Q C P X PT. assert (IM : In (s "mass number") QS) by (apply (mem_spec str_eqb str_decides); vm_compute; reflexivity). split.
  - intros E. apply text_single in E; [|assumption|assumption|reflexivity|reflexivity]. split.
    + rewrite <- (X _ IM), E. apply Qc_is_canon. vm_compute. reflexivity.
    + intros q N. destruct (in_dec str_eq_dec q QS) as [I|I]; [|apply total_unmeasured; assumption]. rewrite <- (X q I), E. cbn [mono_expo fold_right var_term base expo].
      rewrite (proj2 (str_eqb_neq _ _)); [reflexivity|]. intros B. apply N. rewrite <- (proj2 (proj2 (qname_ok q I))), <- B. reflexivity.
  - intros (H1 & H2).
    assert (E : qs = [var_term (s "mass_number") 1]).
    { assert (Cv : canonical [var_term (s "mass_number") 1]).
      { exists 1%Qc, [var_term (s "mass_number") 1]. split; [reflexivity|]. split; [discriminate|]. split; [constructor; [|constructor]; exists (s "mass_number"), 1%Qc; split; [reflexivity|]; split; [discriminate|]; split; [discriminate|reflexivity]|].
        split; [repeat constructor|]. cbn. constructor; [intros []|constructor]. }
      apply canonical_eq; [exact C|exact Cv|]. split; [rewrite (plain_coef 2 qs P); apply Qc_is_canon; vm_compute; reflexivity|].
      intros b Hb. destruct (existsb (fun t => str_eqb (base t) b) qs) eqn:Z.
      - apply existsb_exists in Z as (t & It & Bt). apply str_eqb_eq in Bt. destruct (proj1 (Forall_forall _ _) Q t It) as (q & Iq & Eq). assert (Bq : base t = blanks_to_underscores q) by (rewrite Eq; reflexivity).
        rewrite <- Bt, Bq, (X q Iq). destruct (str_eq_dec q (s "mass number")) as [->|N]; [rewrite H1; apply Qc_is_canon; vm_compute; reflexivity|]. rewrite (H2 q N). cbn [mono_expo fold_right var_term base expo].
        rewrite (proj2 (str_eqb_neq _ _)); [reflexivity|]. intros B. apply N. rewrite <- (proj2 (proj2 (qname_ok q Iq))), <- B. reflexivity.
      - assert (Zb : mono_expo b qs = 0%Qc). { apply mono_expo_absent. intros t Ht B. apply not_true_iff_false in Z. apply Z. apply existsb_exists. exists t. split; [exact Ht|rewrite B; apply str_eqb_refl]. }
        rewrite Zb. cbn [mono_expo fold_right var_term base expo]. destruct (str_eqb_spec (s "mass_number") b) as [B|B]; [|reflexivity]. subst b. exfalso.
        pose proof (X _ IM) as XM. change (blanks_to_underscores (s "mass number")) with (s "mass_number") in XM. rewrite Zb, H1 in XM. discriminate XM. }
    rewrite E. reflexivity.
Qed.
Theorem C74_normal_form l y source ts : expression_of_str libm source = Ok ts -> canonical ts -> Forall doubles ts -> proper_unit [s "lx"] ts ->
  (forall q, small (total_power q ts)) -> (exists q, total_power q ts <> 0%Qc) -> source <> s "1" -> ~ two_meanings y ts -> ~ mass_and_number ts -> ~ only_mass_number ts ->
  exists v r, fst (run (after l) source (system_name y) None) = between source v /\ expression_of_str libm v = Ok r /\ normal y ts = Ok r.
Proof using deep.
  intros E C D P Sm NC N T M O. destruct (quantity_terms ts P NC) as (qs & G & Q & Cq & Pq & X & R). pose proof (no_clash ts qs Q Cq Pq X M) as K.
  destruct (proper_terms ts P) as (NE & PT). destruct (normalize_ok libm limit deep8 y ts NE PT Sm NC) as (r' & Er' & Cr' & Pr' & _ & Xr').
  destruct (property_text libm limit Mks qs deep Q Cq Pq K) as (m & rm & Em & Fm & Cm & Pm & _ & Xm). destruct (property_text libm limit Cgs qs deep Q Cq Pq K) as (c & rc & Ec & Fc & Cc & Pc & _ & Xc).
  assert (SS : get_substitutions libm limit (format_expression qs) = Ok (fun y => match y with Mks => m | Cgs => c end)).
  { unfold get_substitutions. rewrite (quantities_lower qs Q). rewrite (proj2 (str_eqb_neq (format_expression qs) (s "mass number"))), (proj2 (str_eqb_neq (format_expression qs) (s "mass_number"))).
    - cbn [orb]. unfold units_of. rewrite Em. cbn [bind]. rewrite Ec. reflexivity.
    - intros Z. apply O. apply (mass_number_text qs ts Q Cq Pq X PT). exact Z.
    - intros Z. refine (spaced_key (s "mass number") (s "mass") (s "number") qs [] [] _ eq_refl Q K _); [apply (mem_spec str_eqb str_decides); vm_compute; reflexivity|]. rewrite app_nil_r. exact Z. }
  set (v := match y with Mks => m | Cgs => c end). exists v, r'. split; [|split; [|exact Er']].
  - rewrite C74_history. unfold convert_unit. replace (named_system (system_name y)) with (Some y) by (destruct y; reflexivity). rewrite (proj2 (str_eqb_neq _ _) N).
    destruct (ambiguous_ok y source ts E C D) as (a & -> & H). cbn [bind]. destruct a; [destruct (T (proj1 H eq_refl))|]. rewrite E. cbn [bind]. rewrite G. cbn [bind].
    unfold converter_factory. cbn [find_converter]. rewrite SS. cbn [fst]. unfold convert_to. cbn [c_unit c_subs]. unfold substitute. rewrite (not_a_system ts source E P).
    replace (named_system (system_name y)) with (Some y) by (destruct y; reflexivity). fold v.
    assert (V : v <> []). { intros Z. assert (W : expression_of_str libm v = Ok rm \/ expression_of_str libm v = Ok rc) by (destruct y; [left; exact Fm|right; exact Fc]). rewrite Z in W. destruct W as [W|W]; injection W as <-; [destruct (canonical_ok [] Cm)|destruct (canonical_ok [] Cc)]; congruence. }
    destruct v as [|z v']; [congruence|]. reflexivity.
  - assert (G' : forall rr, canonical rr -> plain 4 rr -> (forall x, x <> one_base -> mono_expo x rr = compound (S := expos) (fun b => coherent y (underscores_to_blanks b) x) qs) -> rr = r').
    { intros rr Crr Prr Xrr. apply canonical_eq; [exact Crr|exact Cr'|]. split; [rewrite (plain_coef 4 rr Prr), (plain_coef 8 r' Pr'); reflexivity|]. intros x Hx. rewrite (Xrr x Hx), (R y x). symmetry. exact (Xr' x Hx). }
    unfold v. destruct y; [rewrite Fm; f_equal; apply G'; assumption|rewrite Fc; f_equal; apply G'; assumption].
Qed.
(** A mass number is converted to the unit of mass. *)
Theorem C74_mass_number l y source ts v : expression_of_str libm source = Ok ts -> canonical ts -> Forall doubles ts -> proper_unit [s "lx"] ts ->
  source <> s "1" -> ~ two_meanings y ts -> only_mass_number ts -> quantity_unit (s "mass") y = Some v ->
  fst (run (after l) source (system_name y) None) = between source v.
Proof using deep.
  intros E C D P N T O V. assert (NC : exists q, total_power q ts <> 0%Qc) by (exists (s "mass number"); rewrite (proj1 O); discriminate).
  destruct (quantity_terms ts P NC) as (qs & G & Q & Cq & Pq & X & _). destruct (proper_terms ts P) as (_ & PT).
  pose proof (proj2 (mass_number_text qs ts Q Cq Pq X PT) O) as Z.
  rewrite C74_history. unfold convert_unit. replace (named_system (system_name y)) with (Some y) by (destruct y; reflexivity). rewrite (proj2 (str_eqb_neq _ _) N).
  destruct (ambiguous_ok y source ts E C D) as (a & -> & H). cbn [bind]. destruct a; [destruct (T (proj1 H eq_refl))|]. rewrite E. cbn [bind]. rewrite G. cbn [bind]. rewrite Z.
  unfold converter_factory. cbn [find_converter]. unfold get_substitutions. replace (str_eqb (lower (s "mass_number")) (s "mass number") || str_eqb (lower (s "mass_number")) (s "mass_number")) with true by reflexivity.
  destruct (units_table (s "mass")) as (m & c & Um & Uc & ->); [apply (mem_spec str_eqb str_decides); vm_compute; reflexivity|]. cbn [fst].
  unfold convert_to. cbn [c_unit c_subs]. unfold substitute. rewrite (not_a_system ts source E P). replace (named_system (system_name y)) with (Some y) by (destruct y; reflexivity).
  assert (W : match y with Mks => m | Cgs => c end = v) by (destruct y; congruence). rewrite W. destruct v as [|z v']; [destruct (unit_nonempty _ _ _ V eq_refl)|reflexivity].
Qed.
End C74.
Print Assumptions C74_history.
Print Assumptions C74_quantity.
Print Assumptions C74_units.
Print Assumptions C74_ambiguous.
Print Assumptions C74_normal_form.
Print Assumptions C74_mass_number.

(** ** The factor *)
(** With the package's factors, however the conversion was asked for: where the
    strings are connected in the table of conversions, the factor is the ratio of
    the SI sizes of the units. *)
Theorem C74_sizes libm limit order ys l source target q c w :
  fst (convert_unit libm limit (unit_factor libm order ys) mono_one (requests libm limit (unit_factor libm order ys) mono_one [] l) source target q) = Ok c ->
  strings_factor order (cv_from c) (cv_to c) = Ok (Some w) -> cv_factor c = over (S := monos) (si_size (cv_from c)) (si_size (cv_to c)).
Proof.
  rewrite C74_history. intros E W.
  assert (A : forall u v r, (f <- unit_factor libm order ys u v ;; Ok (mkconversion u v f)) = Ok r -> strings_factor order (cv_from r) (cv_to r) = Ok (Some w) -> cv_factor r = over (S := monos) (si_size (cv_from r)) (si_size (cv_to r))).
  { intros u v r H K. destruct (unit_factor libm order ys u v) as [f|] eqn:U; [|discriminate H]. cbn [bind] in H. injection H as <-. cbn [cv_from cv_to cv_factor] in *.
    unfold unit_factor, convert in U. change (convert_as_strings monos named_unit CONVERSIONS order u v) with (strings_factor order u v) in U. rewrite K in U. cbn [bind] in U. injection U as <-.
    exact (C21_actual_factor_is_size_ratio_partial _ _ _ _ K). }
  assert (B : forall k t r, convert_to (unit_factor libm order ys) mono_one k t = Ok r -> strings_factor order (cv_from r) (cv_to r) = Ok (Some w) -> cv_factor r = over (S := monos) (si_size (cv_from r)) (si_size (cv_to r))).
  { intros k t r H K. unfold convert_to in H. destruct (str_eqb_spec (c_unit k) (substitute (c_subs k) t)) as [Eq|_]; [|exact (A _ _ _ H K)]. injection H as <-. cbn [cv_from cv_to cv_factor]. rewrite <- Eq. symmetry. apply (over_self monos monos_laws). }
  revert E. unfold convert_unit. destruct (named_system target) as [y|]; [|intros E; exact (A _ _ _ E W)]. destruct (str_eqb source (s "1")); [intros E; exact (A _ _ _ E W)|].
  assert (G : forall p, fst (match converter_factory libm limit [] source p with (Ok k, k') => (convert_to (unit_factor libm order ys) mono_one k target, k') | (Raise e, k') => (Raise e, k') end) = Ok c -> cv_factor c = over (S := monos) (si_size (cv_from c)) (si_size (cv_to c))).
  { intros p. destruct (converter_factory libm limit [] source p) as ([k|e], k'); cbn [fst]; [intros E; exact (B _ _ _ E W)|discriminate]. }
  destruct q as [q|]; [apply G|]. destruct (_ <- _ ;; _) as [q|]; [apply G|discriminate].
Qed.
Print Assumptions C74_sizes.

(** ** Instances *)
Notation ask libm x t q := (fst (convert_unit libm 20 (unit_factor libm NODES [Mks; Cgs]) mono_one [] (s x) (s t) q)).
Definition is_conversion (r : result (conversion (F := mono))) (u v : string) (w : mono) : bool :=
  match r with Ok c => str_eqb (cv_from c) (s u) && str_eqb (cv_to c) (s v) && mono_eqb (cv_factor c) w | Raise _ => false end.
Example C74_quantity_case libm : In (s "conductance") quantities /\ stands_for (s "conductance") (s "mks") (s "S") /\ stands_for (s "velocity") (s "mks") (s "m s^-1") /\
  is_conversion (ask libm "cm / s" "mks" (Some (s "conductance"))) "cm / s" "S" (m6 5 0 5 0 0 (-2)) = true /\
  is_conversion (ask libm "cm / s" "mks" (Some (s "velocity"))) "cm / s" "m s^-1" (tenpow (-2)) = true /\
  is_conversion (ask libm "mks" "cgs" (Some (s "length"))) "m" "cm" (tenpow 2) = true.
Proof. split; [apply (mem_spec str_eqb str_decides); vm_compute; reflexivity|]. repeat (split; [vm_compute; reflexivity|]). vm_compute. reflexivity. Qed.
Definition term (x : string) (e : Z) : operand := {| coef := 1; base := s x; expo := zq e; isterm := true |}.
Example C74_ambiguous_case libm : two_meanings libm Mks [term "cm" 1; term "s" (-1)] /\ ask libm "cm / s" "mks" None = Raise UnitConversionError.
Proof.
  split; [|vm_compute; reflexivity]. exists (s "velocity"), (s "conductance"), [term "m" 1; term "s" (-1)], [term "S" 1].
  assert (H : forall y q (v : string) ts, quantity_unit q y = Some (s v) -> match expression_of_str libm (s v) with Ok d => terms_same d ts | Raise _ => false end = true -> has_unit libm y q ts).
  { intros y q v ts Q E. exists (s v). split; [exact Q|]. destruct (expression_of_str libm (s v)) as [d|]; [|discriminate E]. apply terms_same_eq in E. congruence. }
  split; [apply (H _ _ "cm s^-1"%string); vm_compute; reflexivity|]. split; [apply (H _ _ "cm / s"%string); vm_compute; reflexivity|]. split; [apply (H _ _ "m s^-1"%string); vm_compute; reflexivity|].
  split; [apply (H _ _ "S"%string); vm_compute; reflexivity|discriminate].
Qed.

Lemma case_terms libm x ts : forallb (plain_check 2) ts = true -> match expression_of_str libm (s x) with Ok d => terms_same d ts | Raise _ => false end = true ->
  match SymbolicModel.reduce ts with Ok r => terms_same r ts | Raise _ => false end = true -> forallb (fun t => qc_eqb (fl (coef t)) (coef t) && qc_eqb (fl (expo t)) (expo t)) ts = true -> ts <> [] ->
  expression_of_str libm (s x) = Ok ts /\ canonical ts /\ Forall doubles ts.
Proof.
  intros P E R D N. destruct (expression_of_str libm (s x)) as [d|]; [|discriminate E]. apply terms_same_eq in E. subst d. split; [reflexivity|]. split.
  - destruct (SymbolicModel.reduce ts) as [r|] eqn:Z; [|discriminate R]. apply terms_same_eq in R. subst r. eapply reduce_canonical; [exact N| |exact Z]. apply (plain_ok 2). apply Forall_forall. intros t Ht. apply plain_check_ok. exact (proj1 (forallb_forall _ _) P t Ht).
  - apply Forall_forall. intros t Ht. pose proof (proj1 (forallb_forall _ _) D t Ht) as Q. apply andb_true_iff in Q as (D1 & D2). apply qc_eqb_eq in D1, D2. split; assumption.
Qed.
Lemma one_meaning libm x y ts : expression_of_str libm (s x) = Ok ts -> canonical ts -> Forall doubles ts -> is_ambiguous libm (s x) y = Ok false -> ~ two_meanings libm y ts.
Proof. intros E C D A. destruct (ambiguous_ok libm y (s x) ts E C D) as (a & A' & H). rewrite A in A'. injection A' as <-. intros T. apply H in T. discriminate T. Qed.
Ltac case_term := split; [reflexivity|]; split; [reflexivity|]; split; [discriminate|]; split; [apply parts_int|]; split; [split; vm_compute; discriminate|]; split; [right; split; reflexivity|eexists; split; reflexivity].
Example C74_normal_form_case libm : let ts := [term "km" 1; term "h" (-1)] in
  (expression_of_str libm (s "km / h") = Ok ts /\ canonical ts /\ Forall doubles ts) /\ proper_unit [s "lx"] ts /\ (exists q, total_power q ts <> 0%Qc) /\
  ~ two_meanings libm Mks ts /\ ~ mass_and_number ts /\ ~ only_mass_number ts /\
  is_conversion (ask libm "km / h" "mks" None) "km / h" "m s^-1" (mkmono (zq (-1)) (zq (-2)) 1 0 0 0 0 0 0 0) = true.
Proof.
  intros ts. assert (K : expression_of_str libm (s "km / h") = Ok ts /\ canonical ts /\ Forall doubles ts) by (apply case_terms; try (vm_compute; reflexivity); discriminate). split; [exact K|].
  split; [|split; [|split; [|split; [|split; [|vm_compute; reflexivity]]]]].
  - split; [split; [discriminate|]; constructor; [case_term|constructor; [case_term|constructor]]|]. constructor; [|constructor; [|constructor]]; intros n Hn [E|[]]; vm_compute in Hn; injection Hn as <-; discriminate E.
  - exists (s "length"). vm_compute. discriminate.
  - apply (one_meaning libm "km / h"%string); [apply K|apply K|apply K|vm_compute; reflexivity].
  - intros (M & _). vm_compute in M. discriminate M.
  - intros (M & _). vm_compute in M. discriminate M.
Qed.
Example C74_mass_number_case libm : let ts := [term "nuc" 1] in
  (expression_of_str libm (s "nuc") = Ok ts /\ canonical ts /\ Forall doubles ts) /\ proper_unit [s "lx"] ts /\ ~ two_meanings libm Cgs ts /\ only_mass_number ts /\ quantity_unit (s "mass") Cgs = Some (s "g") /\
  is_conversion (ask libm "nuc" "cgs" None) "nuc" "g" (mkmono (zq 3) 0 (zq 3) 0 0 0 0 0 0 1) = true.
Proof.
  intros ts. assert (K : expression_of_str libm (s "nuc") = Ok ts /\ canonical ts /\ Forall doubles ts) by (apply case_terms; try (vm_compute; reflexivity); discriminate). split; [exact K|].
  split; [|split; [|split; [|split; [vm_compute; reflexivity|vm_compute; reflexivity]]]].
  - split; [split; [discriminate|]; constructor; [case_term|constructor]|]. constructor; [|constructor]; intros n Hn [E|[]]; vm_compute in Hn; injection Hn as <-; discriminate E.
  - apply (one_meaning libm "nuc"%string); [apply K|apply K|apply K|vm_compute; reflexivity].
  - split; [apply Qc_is_canon; vm_compute; reflexivity|]. intros q Q. unfold total_power, ts. cbn [fold_right]. rewrite (proj2 (str_eqb_neq _ _)); [reflexivity|]. intros E. apply Q. rewrite <- E. vm_compute. reflexivity.
Qed.
Example C74_sizes_case libm : is_conversion (ask libm "G" "mks" None) "G" "T" (tenpow (-4)) = true /\ match strings_factor NODES (s "G") (s "T") with Ok (Some w) => mono_eqb w (tenpow (-4)) | _ => false end = true.
Proof. split; vm_compute; reflexivity. Qed.

(** ** What fails *)
(** Refuted: the second cannot be converted to the system whose unit of time it is *)
Theorem C74_second_refuted libm : ask libm "s" "mks" None = Raise UnitConversionError /\ is_conversion (ask libm "h" "mks" None) "h" "s" (mkmono (zq 4) (zq 2) (zq 2) 0 0 0 0 0 0 0) = true.
Proof. split; vm_compute; reflexivity. Qed.
(** Refuted: a mass per particle has a normal form, but is not converted to it: its
    quantity is written 'mass number^-1' and read as the inverse of a mass number *)
Theorem C74_mass_per_number_refuted libm : match normalize libm 20 Mks [term "g" 1; term "#" (-1)] with Ok r => terms_same r [term "kg" 1] | Raise _ => false end = true /\ ask libm "g / #" "mks" None = Raise UnitConversionError.
Proof. split; vm_compute; reflexivity. Qed.
(** Refuted: the lumen (not found as a unit of its quantity) and quotients of units of the same quantity fail with other errors *)
Theorem C74_other_errors_refuted libm : ask libm "lm" "mks" None = Raise (OtherError "UnitParsingError") /\ ask libm "m / cm" "cgs" None = Raise RecursionError.
Proof. split; vm_compute; reflexivity. Qed.
Print Assumptions C74_second_refuted.
Print Assumptions C74_mass_per_number_refuted.
Print Assumptions C74_other_errors_refuted.
