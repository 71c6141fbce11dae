(** C94: objects that compare equal have the same hash, so they can replace each other
    as members of a set and keys of a mapping; where they cannot. *)
From Verif Require Import PyBase PyLemmas ContainerModel ContainerProofs ContainerProofs2 SymbolicModel SymbolicSpec SymbolicProofs SymbolicRoundTrip
  AliasedModel MetricModel EtcModel HashModel.

(** ** Objects of one class that can be keys *)
Inductive kind := Operators | Terms | Expressions | Dimensioned | NamedUnits.
(** [x] is an object of the class; the coefficients and exponents of terms are exact
    doubles; expressions are in the form that every expression has (C01) *)
Definition of_kind (k : kind) (x : hobj) : Prop :=
  match k, x with
  | Operators, OOperator _ => True
  | Terms, OTerm t => isterm t = true /\ doubles t
  | Expressions, OExpression l => canonical l /\ Forall doubles l
  | Dimensioned, ODimensions _ => True
  | NamedUnits, ONamedUnit _ => True
  | _, _ => False
  end.

Section H.
Variable h : builtin -> Z.
Variable term_of : str -> result operand.
Variable expression_of : str -> result (list operand).
Variable named_of : str -> option nunit.
Notation oeq := (obj_eq term_of expression_of named_of).
Notation member := (in_set_of h term_of expression_of named_of).
Notation mem := (set_mem h term_of expression_of named_of).
Notation build := (set_of h term_of expression_of named_of).
Notation from := (set_from h term_of expression_of named_of).

Lemma str_list_eqb a b : list_eqb str_eqb a b = true <-> a = b.
Proof using.
  clear. revert b. induction a as [|x a IH]; intros [|y b]; cbn; split; intros H; try discriminate; try reflexivity.
  - apply andb_true_iff in H as [H1 H2]. apply str_eqb_eq in H1. apply IH in H2. congruence.
  - injection H as -> ->. rewrite str_eqb_refl. apply IH. reflexivity.
Qed.
Lemma operand_eqb_same x y : isterm x = isterm y -> doubles x -> doubles y -> (operand_eqb x y = true <-> x = y).
Proof using.
  clear. intros T [A B] [C D]. unfold operand_eqb. rewrite A, B, C, D. destruct x as [i c b e], y as [j c' b' e']. cbn in *. split.
  - rewrite !andb_true_iff. intros [[X Y] Z]. apply str_eqb_eq in X. apply qc_eqb_eq in Y, Z. congruence.
  - intros E. injection E as -> -> -> ->. rewrite str_eqb_refl, !qc_eqb_refl. reflexivity.
Qed.
Lemma attrs_same x y : operand_eqb x y = true -> doubles x -> doubles y -> attrs x = attrs y.
Proof using.
  clear. intros E [A B] [C D]. unfold operand_eqb in E. rewrite A, B, C, D in E. rewrite !andb_true_iff in E. destruct E as [[X Y] Z].
  apply str_eqb_eq in X. apply qc_eqb_eq in Y, Z. unfold attrs. congruence.
Qed.
Lemma eeq_eq x y : canonical x -> canonical y -> Forall doubles x -> Forall doubles y -> (eeq x y = true <-> x = y).
Proof using.
  clear. intros C C' D D'. split; [|intros ->; apply eeq_refl]. intros E. apply canonical_eq; [exact C|exact C'|]. apply eeq_same; assumption.
Qed.
Lemma nunit_eq_same x y : nunit_eq x y = true <-> x = y.
Proof using.
  clear. unfold nunit_eq, same_prefix, same_base. destruct x, y. cbn. rewrite !andb_true_iff, !str_eqb_eq, Z.eqb_eq. split.
  - intros [[[-> ->] ->] [[-> ->] ->]]. reflexivity.
  - intros E. injection E as -> -> -> -> -> ->. tauto.
Qed.

Lemma dims_eqs a b : oeq (ODimensions a) (ODimensions b) = Some (Ok (list_eqb str_eqb a b)).
Proof using. clear. destruct a as [|? [|? ?]]; reflexivity. Qed.
Lemma dims_tuple a b : oeq (ODimensions a) (OTuple b) = Some (Ok (list_eqb str_eqb a b)).
Proof using. clear. destruct a as [|? [|? ?]]; reflexivity. Qed.
(** two objects of one class are equal exactly when they are the same value *)
Lemma kind_eq k x y : of_kind k x -> of_kind k y -> (oeq x y = Some (Ok true) <-> x = y).
Proof using.
  clear. intros A B. destruct k, x, y; cbn in A, B; try contradiction; rewrite ?dims_eqs; cbn [obj_eq]; match goal with |- Some (Ok ?b) = _ <-> _ => assert (Q : Some (Ok b) = Some (Ok true) <-> b = true) by (split; [congruence|intros ->; reflexivity]); rewrite Q; clear Q end.
  - rewrite str_eqb_eq. split; [intros ->; reflexivity|intros E; injection E as ->; reflexivity].
  - rewrite operand_eqb_same; [|destruct A, B; congruence|apply A|apply B]. split; [intros ->; reflexivity|intros E; injection E as ->; reflexivity].
  - rewrite eeq_eq; [|apply A|apply B|apply A|apply B]. split; [intros ->; reflexivity|intros E; injection E as ->; reflexivity].
  - rewrite str_list_eqb. split; [intros ->; reflexivity|intros E; injection E as ->; reflexivity].
  - rewrite nunit_eq_same. split; [intros ->; reflexivity|intros E; injection E as ->; reflexivity].
Qed.

(** ** Equal objects have equal hashes *)
Inductive comparable : hobj -> hobj -> Prop :=
  | CmpKind k x y : of_kind k x -> of_kind k y -> comparable x y
  | CmpOperatorText x t : comparable (OOperator x) (OText t)
  | CmpDimensionsTuple x l : comparable (ODimensions x) (OTuple l)
  | CmpGroupOne a y : NoDup y -> comparable (OGroup [a]) (OGroup y)
  | CmpGroupOneTuple a y : NoDup y -> comparable (OGroup [a]) (OTuple y)
  | CmpSentinel x y : (n_id x = n_id y -> x = y) -> comparable (OSentinel x) (OSentinel y)
  | CmpSentinelValue x v : comparable (OSentinel x) (OValue v).

Lemma one_alias a y : NoDup y -> group_eqb [a] y = true -> y = [a].
Proof using.
  clear. intros N E. unfold group_eqb in E. apply andb_true_iff in E as [E1 E2]. cbn in E1. rewrite andb_true_r in E1.
  assert (F : forall k, In k y -> k = a).
  { intros k I. rewrite forallb_forall in E2. specialize (E2 k I). cbn in E2. rewrite orb_false_r in E2. apply str_eqb_eq in E2. congruence. }
  destruct y as [|b [|c y]].
  - discriminate.
  - rewrite (F b); [reflexivity|left; reflexivity].
  - exfalso. inversion N as [|? ? N1 _]. apply N1. left. rewrite (F b), (F c); cbn; auto.
Qed.
Lemma svalue_same a b : svalue_eqb a b = true -> value_of a = value_of b.
Proof using.
  clear. unfold svalue_eqb. destruct a, b; cbn; intros E; try discriminate; try reflexivity; try (apply qc_eqb_eq in E; congruence);
    apply str_eqb_eq in E; congruence.
Qed.
Theorem C94_partial x y : comparable x y -> oeq x y = Some (Ok true) -> hash h x = hash h y.
Proof using.
  clear. intros [k a b A B|t t'|l l'|a l N|a l N|a b I|a v] E.
  - apply (kind_eq k a b A B) in E. subst. reflexivity.
  - cbn in E. injection E as E. apply str_eqb_eq in E. subst. reflexivity.
  - rewrite dims_tuple in E. injection E as E. apply str_list_eqb in E. subst. reflexivity.
  - cbn [obj_eq] in E. injection E as E. apply one_alias in E; [|exact N]. subst. reflexivity.
  - destruct l as [|b l]; [discriminate E|]. cbn [obj_eq] in E. injection E as E. apply one_alias in E; [|exact N]. rewrite E. reflexivity.
  - cbn in E. injection E as E. unfold sentinel_eq in E. apply Nat.eqb_eq in E. rewrite (I E). reflexivity.
  - cbn in E. injection E as E. unfold sentinel_eq_value in E. apply svalue_same in E. unfold hash. cbn [hashed]. rewrite E. reflexivity.
Qed.

(** ** Sets of objects of one class are sets of their values *)
Lemma kind_hash k x : of_kind k x -> exists z, hash h x = Ok z.
Proof using. clear. destruct k, x; cbn; try contradiction; intros _; eexists; reflexivity. Qed.
Lemma kind_member k x y : of_kind k x -> of_kind k y -> exists b, member x y = Some (Ok b) /\ (b = true <-> x = y).
Proof using.
  clear. intros A B. destruct (kind_hash k x A) as (i & Hi). destruct (kind_hash k y B) as (j & Hj).
  unfold in_set_of. rewrite Hi, Hj. destruct (Z.eqb_spec i j) as [E|N].
  - assert (T : exists b, oeq x y = Some (Ok b)).
    { destruct k, x, y; cbn in A, B; try contradiction; rewrite ?dims_eqs; eexists; reflexivity. }
    destruct T as (b & T). exists b. split; [exact T|]. rewrite <- (kind_eq k x y A B), T. split; [intros ->; reflexivity|intros Q; injection Q as ->; reflexivity].
  - exists false. split; [reflexivity|]. split; [discriminate|]. intros ->. congruence.
Qed.
Lemma mem_kind k l x : Forall (of_kind k) l -> of_kind k x -> exists b, mem l x = Ok b /\ (b = true <-> In x l).
Proof using.
  clear. intros F X. induction F as [|y l Y F (b & Hb & Eb)].
  - cbn. destruct (kind_hash k x X) as (z & ->). exists false. split; [reflexivity|]. split; [discriminate|]. intros [].
  - destruct (kind_member k y x Y X) as (c & Hc & Ec). cbn [set_mem In]. rewrite Hc. destruct c.
    + exists true. split; [reflexivity|]. split; [intros _; left; apply Ec; reflexivity|reflexivity].
    + exists b. split; [exact Hb|]. rewrite Eb. split; [intros I; right; exact I|].
      intros [E|I]; [apply Ec in E; discriminate|exact I].
Qed.
Lemma from_kind k l xs : Forall (of_kind k) l -> NoDup l -> Forall (of_kind k) xs ->
  exists m, from l xs = Ok m /\ NoDup m /\ Forall (of_kind k) m /\ (forall x, In x m <-> In x l \/ In x xs).
Proof using.
  clear. intros F N X. revert l F N. induction X as [|x xs X0 X IH]; intros l F N.
  - exists l. cbn. split; [reflexivity|]. split; [exact N|]. split; [exact F|]. intros x. tauto.
  - cbn [set_from]. destruct (mem_kind k l x F X0) as (b & -> & Eb). cbn [bind]. destruct b.
    + destruct (IH l F N) as (m & Em & Nm & Fm & Im). exists m. split; [exact Em|]. split; [exact Nm|]. split; [exact Fm|].
      intros y. rewrite (Im y). cbn [In]. split; [tauto|]. intros [I|[<-|I]]; tauto.
    + assert (NI : ~ In x l) by (intros I; apply Eb in I; discriminate).
      destruct (IH (l ++ [x])) as (m & Em & Nm & Fm & Im).
      * apply Forall_app. split; [exact F|]. constructor; [exact X0|constructor].
      * clear - N NI. induction N as [|y l Y N IH]; cbn; constructor; [intros []|constructor| |].
        { rewrite in_app_iff. intros [I|[->|[]]]; [exact (Y I)|]. apply NI. left. reflexivity. }
        { apply IH. intros I. apply NI. right. exact I. }
      * exists m. split; [exact Em|]. split; [exact Nm|]. split; [exact Fm|].
        intros y. rewrite (Im y), in_app_iff. cbn [In]. tauto.
Qed.
Theorem C94_sets k xs : Forall (of_kind k) xs ->
  exists m, build xs = Ok m /\ NoDup m /\ (forall x, In x m <-> In x xs) /\
    (forall x, of_kind k x -> mem m x = Ok true /\ In x xs \/ mem m x = Ok false /\ ~ In x xs) /\
    (forall x y, In x m -> In y m -> oeq x y = Some (Ok true) -> x = y).
Proof using.
  clear. intros X. destruct (from_kind k [] xs (Forall_nil _) (NoDup_nil _) X) as (m & Em & Nm & Fm & Im).
  exists m. split; [exact Em|]. split; [exact Nm|]. split; [intros x; rewrite Im; cbn [In]; tauto|]. split.
  - intros x K. destruct (mem_kind k m x Fm K) as (b & -> & Eb). destruct b.
    + left. split; [reflexivity|]. destruct (proj1 (Im x)) as [[]|I]; [apply Eb; reflexivity|exact I].
    + right. split; [reflexivity|]. intros I. assert (Q : false = true); [|discriminate]. apply Eb, Im. right. exact I.
  - intros x y I J E. rewrite Forall_forall in Fm. apply (kind_eq k x y); auto.
Qed.

(** ** Texts and numbers that equal an object do not replace it.  [h] need only give
    different values for the two built-in values concerned. *)
Theorem C94_text_refuted x t : oeq x (OText t) = Some (Ok true) ->
  match x with OTerm _ | OExpression _ | ODimensions _ | ONamedUnit _ => True | _ => False end ->
  (forall b, hashed x = Ok b -> b <> BText t -> h b <> h (BText t)) ->
  hash h x <> hash h (OText t) /\ member x (OText t) = Some (Ok false) /\ mem [x] (OText t) = Ok false.
Proof using.
  clear. intros _ K C. assert (N : exists b, hashed x = Ok b /\ b <> BText t).
  { destruct x; try contradiction; eexists; (split; [reflexivity|discriminate]). }
  destruct N as (b & Hb & Nb). specialize (C b Hb Nb).
  assert (M : member x (OText t) = Some (Ok false)).
  { unfold in_set_of, hash. rewrite Hb. cbn [hashed bind]. destruct (Z.eqb_spec (h b) (h (BText t))) as [E|_]; [contradiction|reflexivity]. }
  split; [unfold hash; rewrite Hb; cbn [hashed bind]; congruence|]. split; [exact M|]. cbn [set_mem]. rewrite M. reflexivity.
Qed.
Theorem C94_number_refuted c q : fl c = fl q ->
  h (attrs (const_term c)) <> h (BNumber q) ->
  oeq (OTerm (const_term c)) (ONumber q) = Some (Ok true) /\ member (OTerm (const_term c)) (ONumber q) = Some (Ok false).
Proof using.
  clear. intros E N. split.
  - cbn. do 2 f_equal. rewrite E. apply qc_eqb_refl.
  - unfold in_set_of, hash. cbn [hashed bind]. destruct (Z.eqb_spec (h (attrs (const_term c))) (h (BNumber q))); [contradiction|reflexivity].
Qed.
(** comparing any other term with a number is an error, also inside a set *)
Theorem C94_term_number t q : base t <> one_base -> oeq (OTerm t) (ONumber q) = Some (Raise TypeError).
Proof using.
  clear. intros N. cbn [obj_eq]. destruct (str_eqb_spec (base t) (s "1")) as [E|_]; [contradiction|reflexivity].
Qed.
(** comparing a named unit with a text that names no unit is an error *)
Theorem C94_named_text n t : named_of t = None -> oeq (ONamedUnit n) (OText t) = Some (Raise UnitParsingError).
Proof using. clear. intros E. cbn [obj_eq]. rewrite E. reflexivity. Qed.

(** ** Units have no hash, though equality of units is decided *)
Theorem C94_unit_refuted l x : hash h (OUnit l) = Raise TypeError /\ build [OUnit l] = Raise TypeError /\
  member (OUnit l) x = Some (Raise TypeError) /\ member x (OUnit l) = Some (Raise (match hash h x with Ok _ => TypeError | Raise e => e end)).
Proof using.
  clear. unfold set_of. cbn. repeat split; try reflexivity. unfold in_set_of. cbn. destruct (hash h x); reflexivity.
Qed.
(** ** Terms whose coefficients have the same double are equal with different hashes *)
Theorem C94_fraction_refuted c c' b e : fl c = fl c' ->
  let x := {| isterm := true; coef := c; base := b; expo := e |} in
  let y := {| isterm := true; coef := c'; base := b; expo := e |} in
  h (attrs x) <> h (attrs y) ->
  oeq (OTerm x) (OTerm y) = Some (Ok true) /\ oeq (OExpression [x]) (OExpression [y]) = Some (Ok true) /\
  member (OTerm x) (OTerm y) = Some (Ok false).
Proof using.
  clear. intros E x y N.
  assert (Q : operand_eqb x y = true). { unfold operand_eqb, x, y. cbn. rewrite str_eqb_refl, E, !qc_eqb_refl. reflexivity. }
  split; [cbn [obj_eq]; rewrite Q; reflexivity|]. split.
  - cbn [obj_eq]. unfold eeq. cbn [length Nat.eqb andb]. change (sort_by key_lt [x]) with [x]. change (sort_by key_lt [y]) with [y].
    cbn [list_eqb]. rewrite Q. reflexivity.
  - unfold in_set_of, hash. cbn [hashed bind]. destruct (Z.eqb_spec (h (attrs x)) (h (attrs y))); [contradiction|reflexivity].
Qed.
(** ** Two groups of the same names are equal, but their hashes follow the order of iteration *)
Theorem C94_group_refuted a b : a <> b -> h (BTuple [BText a; BText b]) <> h (BTuple [BText b; BText a]) ->
  oeq (OGroup [a; b]) (OGroup [b; a]) = Some (Ok true) /\ member (OGroup [a; b]) (OGroup [b; a]) = Some (Ok false).
Proof using.
  clear. intros _ N. split.
  - cbn [obj_eq]. do 2 f_equal. unfold group_eqb. cbn. rewrite !str_eqb_refl. cbn. rewrite !orb_true_r. reflexivity.
  - unfold in_set_of, hash. cbn [hashed map bind]. destruct (Z.eqb_spec (h (BTuple [BText a; BText b])) (h (BTuple [BText b; BText a]))); [contradiction|reflexivity].
Qed.
End H.
Print Assumptions C94_partial.
Print Assumptions C94_sets.
Print Assumptions C94_text_refuted.
Print Assumptions C94_number_refuted.
Print Assumptions C94_term_number.
Print Assumptions C94_named_text.
Print Assumptions C94_unit_refuted.
Print Assumptions C94_fraction_refuted.
Print Assumptions C94_group_refuted.

(** non-vacuity: a hash that tells terms, texts and numbers apart; [1/3] and its double *)
Definition toy (b : builtin) : Z := match b with BNone => 0 | BText t => Z.of_nat (length t) | BNumber q => (Qnum q * 7 + Z.pos (Qden q))%Z
  | BTuple (BNumber q :: _) => (1000 + Qnum q * 7 + Z.pos (Qden q))%Z | BTuple l => 1 + Z.of_nat (length l) end.
Definition no_term (t : str) : result operand := Ok (var_term t 1%Qc).
Definition no_expr (t : str) : result (list operand) := Ok [var_term t 1%Qc].
Definition no_named (t : str) : option nunit := None.
Example C94_case :
  of_kind Terms (OTerm (var_term (s "m") (mkq 2 1))) /\ of_kind Expressions (OExpression [var_term (s "m") 1%Qc]) /\
  comparable (OGroup [s "r"]) (OTuple [s "r"]) /\
  set_of toy no_term no_expr no_named [OTerm (var_term (s "m") 1%Qc); OTerm (var_term (s "m") 1%Qc); OTerm (const_term (mkq 2 1))]
    = Ok [OTerm (var_term (s "m") 1%Qc); OTerm (const_term (mkq 2 1))] /\
  obj_eq no_term no_expr no_named (OTerm (var_term (s "m") 1%Qc)) (OText (s "m")) = Some (Ok true) /\
  (forall b, hashed (OTerm (var_term (s "m") 1%Qc)) = Ok b -> b <> BText (s "m") -> toy b <> toy (BText (s "m"))) /\
  fl (mkq 1 3) = fl (fl (mkq 1 3)) /\
  toy (attrs {| isterm := true; coef := mkq 1 3; base := s "m"; expo := 1%Qc |}) <>
  toy (attrs {| isterm := true; coef := fl (mkq 1 3); base := s "m"; expo := 1%Qc |}).
Proof.
  split. { split; [reflexivity|]. split; apply Qc_is_canon; vm_compute; reflexivity. }
  split. { split.
    - exists 1%Qc, [var_term (s "m") 1%Qc]. split; [reflexivity|]. split; [intros E; apply (f_equal this) in E; vm_compute in E; discriminate|].
      split. { constructor; [|constructor]. exists (s "m"), 1%Qc. split; [reflexivity|]. split; [discriminate|]. split; [|reflexivity].
        intros E; apply (f_equal this) in E; vm_compute in E; discriminate. }
      split; repeat constructor; intros [].
    - constructor; [|constructor]. split; apply Qc_is_canon; vm_compute; reflexivity. }
  split; [apply CmpGroupOneTuple; repeat constructor; intros []|].
  split; [vm_compute; reflexivity|]. split; [vm_compute; reflexivity|].
  split; [intros b E _; injection E as <-; vm_compute; discriminate|].
  split; [apply Qc_is_canon; vm_compute; reflexivity|]. vm_compute. discriminate.
Qed.
