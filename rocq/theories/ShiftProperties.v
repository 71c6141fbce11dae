(** C95: [u >> v] and [u << v] between units, named units and texts. *)
From Verif Require Import PyBase PyLemmas ContainerModel SymbolicModel SymbolicSpec MetricModel MetricSpec MetricProofs MetricTables MetricSizes MetricProofs2 MetricProperties ShiftModel.

(** the text by which a unit or a text names a conversion *)
Definition text_of (x : side) : option str :=
  match x with SUnit a => Some (format_expression a) | SText t => Some t | _ => None end.
Definition is_unit (x : side) : Prop := match x with SUnit _ => True | _ => False end.
Definition is_named (x : side) : Prop := match x with SNamed _ => True | _ => False end.
Definition is_text (x : side) : Prop := match x with SText _ => True | _ => False end.

Section P.
Variable libm : Qc -> Qc -> option Qc.
Variable S : scales.
Variable named : str -> option nunit.
Variable conv : list ((str * str) * num S).
Variable node_order : list str.
Variable sys_order : list system.
Variable qunit : str -> system -> option str.
Variable qdim : str -> system -> option str.
Notation shr := (rshift libm S named conv node_order sys_order qunit qdim).
Notation shl := (lshift libm S named conv node_order sys_order qunit qdim).
Notation factory := (conversion_factory libm S named conv node_order sys_order qunit qdim).
Notation after := (conversion_history libm S named conv node_order sys_order qunit qdim []).

(** ** The two operators mirror each other, for any operands and any history *)
Theorem C95_mirror k x y : shr k x y = shl k y x.
Proof using.
  clear. unfold rshift, lshift, binary. destruct x, y; cbn [rshift_method rrshift_method lshift_method rlshift_method]; try reflexivity;
    unfold request; destruct conversion_factory as [k' r]; reflexivity.
Qed.

(** ** Between a unit and a unit or text: the conversion of their texts *)
Theorem C95_conversion k x y u v : is_unit x \/ is_unit y -> text_of x = Some u -> text_of y = Some v ->
  shr k x y = factory k u v /\ shl k x y = factory k v u.
Proof using.
  clear. intros U X Y. unfold rshift, lshift, binary.
  destruct x, y; cbn in X, Y; try discriminate; injection X as <-; injection Y as <-;
    cbn [rshift_method rrshift_method lshift_method rlshift_method]; unfold request;
    [..|destruct U as [[]|[]]]; split; destruct conversion_factory as [k' r]; reflexivity.
Qed.

(** ** Between a named unit and a named unit or text: the ratio, whatever the history *)
Theorem C95_named k x y : is_named x \/ is_named y -> (is_named x \/ is_text x) -> (is_named y \/ is_text y) ->
  shr k x y = (k, n <- as_named named x ;; m <- as_named named y ;; ratio S n m) /\
  shl k x y = (k, n <- as_named named y ;; m <- as_named named x ;; ratio S n m).
Proof using.
  clear. intros N X Y. destruct x, y; cbn in N, X, Y; try tauto; split; reflexivity.
Qed.

(** ** Any other pair of operands is refused *)
Theorem C95_refused k x y : ~ (is_unit x \/ is_unit y) \/ text_of x = None \/ text_of y = None ->
  ~ ((is_named x \/ is_named y) /\ (is_named x \/ is_text x) /\ (is_named y \/ is_text y)) ->
  shr k x y = (k, Raise TypeError) /\ shl k x y = (k, Raise TypeError).
Proof using.
  clear. intros A B. destruct x, y; cbn in A, B; try (exfalso; apply B; tauto); try (split; reflexivity).
  - destruct A as [A|[A|A]]; [exfalso; apply A; tauto|discriminate..].
  - destruct A as [A|[A|A]]; [exfalso; apply A; tauto|discriminate..].
  - destruct A as [A|[A|A]]; [exfalso; apply A; tauto|discriminate..].
Qed.

(** ** The cache of conversions holds inverse pairs *)
Section Laws.
Hypothesis L : scale_laws S.
Lemma inv_inv (a : num S) : inv (inv a) = a.
Proof using L.
  pose proof (mul_inv S L (inv a)) as E. rewrite <- (mul_one S L (inv (inv a))), <- (mul_inv S L a), <- (mul_assoc S L).
  rewrite E, (mul_comm S L), (mul_one S L). reflexivity.
Qed.
Lemma inv_one : inv (one : num S) = one.
Proof using L. rewrite <- (mul_one S L (inv one)). apply (mul_inv S L). Qed.
Lemma conv_get_set (k : ccache S) e e' w : conv_get S (cache_set S k e w) e' = if edge_eqb e e' then Some w else conv_get S k e'.
Proof using.
  clear. unfold cache_set. cbn [conv_get]. destruct (edge_eqb e e') eqn:E; [reflexivity|].
  induction k as [|[a b] k IH]; [reflexivity|]. cbn [filter fst]. destruct (edge_eqb a e) eqn:A; cbn [negb conv_get].
  - destruct (edge_eqb a e') eqn:B; [|exact IH]. exfalso.
    assert (Q : a = e /\ a = e').
    { unfold edge_eqb in A, B. destruct a as [a1 a2], e as [e1 e2], e' as [f1 f2]. cbn in A, B.
      apply andb_true_iff in A as [A1 A2]. apply andb_true_iff in B as [B1 B2]. apply str_eqb_eq in A1, A2, B1, B2. subst. split; reflexivity. }
    destruct Q as [<- <-]. rewrite A in E. discriminate.
  - destruct (edge_eqb a e'); [reflexivity|exact IH].
Qed.
Lemma edge_true (a b a' b' : str) : edge_eqb (a, b) (a', b') = true <-> a = a' /\ b = b'.
Proof using. clear. unfold edge_eqb. cbn. rewrite andb_true_iff, !str_eqb_eq. reflexivity. Qed.
Definition paired (k : ccache S) : Prop := forall u v f, conv_get S k (u, v) = Some f -> conv_get S k (v, u) = Some (inv f).
Lemma factory_paired k u v : paired k -> paired (fst (factory k u v)).
Proof using L.
  intros P. unfold conversion_factory. destruct (conv_get S k (u, v)) eqn:G; [exact P|]. destruct convert as [f|e] eqn:C; [|exact P]. cbn [fst].
  assert (I : u = v -> f = one).
  { intros ->. unfold convert in C. rewrite C21_identity in C. cbn [bind] in C. injection C as <-. reflexivity. }
  intros a b g. rewrite !conv_get_set. destruct (edge_eqb (v, u) (a, b)) eqn:E1.
  - apply edge_true in E1 as [<- <-]. intros H. injection H as <-. destruct (edge_eqb (v, u) (u, v)) eqn:E2.
    + apply edge_true in E2 as [-> _]. rewrite (I eq_refl), !inv_one. reflexivity.
    + destruct (edge_eqb (u, v) (u, v)) eqn:E3; [rewrite inv_inv; reflexivity|]. exfalso.
      assert (Q : edge_eqb (u, v) (u, v) = true) by (apply edge_true; auto). congruence.
  - destruct (edge_eqb (u, v) (a, b)) eqn:E2.
    + apply edge_true in E2 as [<- <-]. intros H. injection H as <-.
      assert (Q : edge_eqb (v, u) (v, u) = true) by (apply edge_true; auto). rewrite Q. reflexivity.
    + intros H. apply P in H. destruct (edge_eqb (v, u) (b, a)) eqn:E3.
      * apply edge_true in E3 as [<- <-]. exfalso. assert (Q : edge_eqb (u, v) (u, v) = true) by (apply edge_true; auto). congruence.
      * destruct (edge_eqb (u, v) (b, a)) eqn:E4; [|exact H]. apply edge_true in E4 as [<- <-]. exfalso.
        assert (Q : edge_eqb (v, u) (v, u) = true) by (apply edge_true; auto). congruence.
Qed.
Lemma history_paired l k : paired k -> paired (conversion_history libm S named conv node_order sys_order qunit qdim k l).
Proof using L.
  revert k. induction l as [|[u v] l IH]; intros k P; [exact P|]. cbn [conversion_history]. apply IH, factory_paired, P.
Qed.
Lemma factory_asked k u v k' f : factory k u v = (k', Ok f) -> paired k ->
  (forall k'' r, factory k' u v = (k'', r) -> r = Ok f /\ k'' = k') /\ factory k' v u = (k', Ok (inv f)).
Proof using L.
  intros F P. pose proof (factory_paired k u v P) as P'. rewrite F in P'. cbn [fst] in P'.
  assert (G : conv_get S k' (u, v) = Some f).
  { unfold conversion_factory in F. destruct (conv_get S k (u, v)) eqn:G; [injection F as <- <-; exact G|]. destruct convert as [g|e] eqn:C; [|discriminate].
    injection F as <- ->. rewrite !conv_get_set. destruct (edge_eqb (v, u) (u, v)) eqn:E.
    - apply edge_true in E as [-> _]. unfold convert in C. rewrite C21_identity in C. cbn [bind] in C. injection C as <-. rewrite inv_one. reflexivity.
    - assert (Q : edge_eqb (u, v) (u, v) = true) by (apply edge_true; auto). rewrite Q. reflexivity. }
  split; [unfold conversion_factory; rewrite G; intros ? ? [= <- <-]; split; reflexivity|].
  apply P' in G. unfold conversion_factory. rewrite G. reflexivity.
Qed.

(** ** The operators are reciprocal: after any session, once [x >> y] has an answer, [y >> x]
    and [x << y] answer with its inverse, and [x >> y] answers the same again *)
Theorem C95_reciprocal session x y k' f : shr (after session) x y = (k', Ok f) ->
  shr k' x y = (k', Ok f) /\ shr k' y x = (k', Ok (inv f)) /\ shl k' x y = (k', Ok (inv f)) /\ mul f (inv f) = one.
Proof using L.
  intros R. assert (Q : shr k' x y = (k', Ok f) /\ shr k' y x = (k', Ok (inv f))).
  { assert (D : (is_unit x \/ is_unit y) /\ text_of x <> None /\ text_of y <> None \/
      (is_named x \/ is_named y) /\ (is_named x \/ is_text x) /\ (is_named y \/ is_text y)).
    { destruct x, y; cbn; try (left; repeat split; try tauto; discriminate); try (right; tauto); exfalso; cbv in R; discriminate. }
    destruct D as [(U & X & Y)|(N & X & Y)].
    - destruct (text_of x) as [u|] eqn:TX; [|contradiction]. destruct (text_of y) as [v|] eqn:TY; [|contradiction].
      destruct (C95_conversion (after session) x y u v U TX TY) as [E _]. rewrite E in R.
      assert (P : paired (after session)) by (apply history_paired; intros ? ? ? H; discriminate).
      destruct (factory_asked _ _ _ _ _ R P) as [A B].
      rewrite (proj1 (C95_conversion k' x y u v U TX TY)), (proj1 (C95_conversion k' y x v u ltac:(tauto) TY TX)).
      split; [|exact B]. destruct (factory k' u v) as [k'' r] eqn:F. destruct (A k'' r eq_refl) as [-> ->]. reflexivity.
    - pose proof (proj1 (C95_named (after session) x y N X Y)) as E. rewrite E in R. clear E.
      assert (K : k' = after session) by congruence. assert (R' : (n <- as_named named x ;; m <- as_named named y ;; ratio S n m) = Ok f) by congruence. clear R. subst k'.
      rewrite (proj1 (C95_named _ x y N X Y)), (proj1 (C95_named _ y x ltac:(tauto) Y X)), R'. split; [reflexivity|].
      f_equal. destruct (as_named named x) as [n|] eqn:AX; [|discriminate]. destruct (as_named named y) as [m|] eqn:AY; [|discriminate].
      cbn [bind] in *. apply (C22_ratio_reciprocal S n m f L R'). }
  destruct Q as [Q1 Q2]. split; [exact Q1|]. split; [exact Q2|]. split; [rewrite <- C95_mirror; exact Q2|]. apply (mul_inv S L).
Qed.
(** ** A unit and its own text, or a named unit and its equal, give 1 *)
Theorem C95_self session a n :
  (exists k, shr (after session) (SUnit a) (SUnit a) = (k, Ok one) /\ shl (after session) (SUnit a) (SText (format_expression a)) = (k, Ok one)) /\
  shr (after session) (SNamed n) (SNamed n) = (after session, Ok one).
Proof using L.
  assert (P : paired (after session)) by (apply history_paired; intros ? ? ? H; discriminate).
  assert (F : forall u l k, (forall f, conv_get S k (u, u) = Some f -> f = one) -> forall f, conv_get S (conversion_history libm S named conv node_order sys_order qunit qdim k l) (u, u) = Some f -> f = one).
  { intros u l. induction l as [|[p q] l IH]; intros k H; [exact H|]. cbn [conversion_history]. apply IH.
    intros f. unfold conversion_factory. destruct (conv_get S k (p, q)) eqn:G; [apply H|]. destruct convert as [g|e] eqn:C; [|apply H]. cbn [fst].
    rewrite !conv_get_set. destruct (edge_eqb (q, p) (u, u)) eqn:E1.
    - apply edge_true in E1 as [-> ->]. unfold convert in C. rewrite C21_identity in C. cbn [bind] in C. injection C as <-. rewrite inv_one. congruence.
    - destruct (edge_eqb (p, q) (u, u)) eqn:E2; [|apply H]. apply edge_true in E2 as [-> ->]. unfold convert in C. rewrite C21_identity in C. cbn [bind] in C. injection C as <-. congruence. }
  split.
  - set (u := format_expression a). assert (Q : exists k, factory (after session) u u = (k, Ok one)).
    { unfold conversion_factory. destruct (conv_get S (after session) (u, u)) as [f|] eqn:G.
      - exists (after session). rewrite (F u session [] ltac:(discriminate) f G). reflexivity.
      - unfold convert. rewrite C21_identity. cbn [bind]. eexists. reflexivity. }
    destruct Q as (k & Q). exists k.
    rewrite (proj1 (C95_conversion (after session) (SUnit a) (SUnit a) u u (or_introl Logic.I) eq_refl eq_refl)).
    rewrite (proj2 (C95_conversion (after session) (SUnit a) (SText u) u u (or_introl Logic.I) eq_refl eq_refl)). split; exact Q.
  - unfold rshift, binary. cbn. unfold ratio. assert (E : nunit_eq n n = true).
    { unfold nunit_eq, same_prefix, same_base. rewrite !str_eqb_refl, Z.eqb_refl. reflexivity. }
    rewrite E. reflexivity.
Qed.
End Laws.
End P.
Print Assumptions C95_mirror.
Print Assumptions C95_conversion.
Print Assumptions C95_named.
Print Assumptions C95_refused.
Print Assumptions C95_reciprocal.
Print Assumptions C95_self.

(** ** Units and named units agree: with the package's tables, when the ratio of two named units
    exists, every way to write the shift gives it, after any session, and it is the quotient of
    the SI sizes *)
Section Actual.
Variable libm : Qc -> Qc -> option Qc.
Variable order : list str.
Variable ys : list system.
Notation shr := (rshift libm monos named_unit CONVERSIONS order ys quantity_unit quantity_dim).
Notation shl := (lshift libm monos named_unit CONVERSIONS order ys quantity_unit quantity_dim).
Notation after := (conversion_history libm monos named_unit CONVERSIONS order ys quantity_unit quantity_dim []).

Lemma named_strings u v n m r : identify named_unit u = Ok n -> identify named_unit v = Ok m -> ratio monos n m = Ok r ->
  exists w, strings_factor order u v = Ok (Some w).
Proof using.
  clear. unfold identify. destruct (named_unit u) as [n'|] eqn:U; [|discriminate]. destruct (named_unit v) as [m'|] eqn:V; [|discriminate].
  intros E1 E2 R. injection E1 as ->. injection E2 as ->.
  assert (C : exists w, standard_conversion monos named_unit CONVERSIONS order u v = Some w).
  { unfold standard_conversion, simple_conversion. destruct (str_eqb u v); [eexists; reflexivity|].
    destruct (search monos named_unit CONVERSIONS u v); [eexists; reflexivity|]. rewrite U, V, R. eexists. reflexivity. }
  destruct C as (w & C). exists w. unfold strings_factor, convert_as_strings. change (2 + ?n) with (Datatypes.S (1 + n)). rewrite rc_unfold. cbn [mem].
  rewrite C. reflexivity.
Qed.
Theorem C95_agree session x y u v n m r : is_unit x \/ is_unit y -> text_of x = Some u -> text_of y = Some v ->
  identify named_unit u = Ok n -> identify named_unit v = Ok m -> ratio monos n m = Ok r ->
  snd (shr (after session) x y) = Ok r /\ snd (shl (after session) y x) = Ok r /\
  snd (shr (after session) (SNamed n) (SText v)) = Ok r /\ snd (shr (after session) (SText u) (SNamed m)) = Ok r /\
  snd (shr (after session) (SNamed n) (SNamed m)) = Ok r /\ r = over (S := monos) (si_size u) (si_size v).
Proof using.
  clear. intros D TX TY N M R. pose proof (C22_named_ratio_is_size_ratio u v n m r N M R) as Z.
  assert (F : snd (shr (after session) x y) = Ok r).
  { rewrite (proj1 (C95_conversion libm monos named_unit CONVERSIONS order ys quantity_unit quantity_dim (after session) x y u v D TX TY)), Z.
    apply (C21_history_independent_partial libm order ys session session u v); [exact (named_strings u v n m r N M R)|].
    exact (named_strings v u m n _ M N (C22_ratio_reciprocal monos n m r monos_laws R)). }
  split; [exact F|]. split; [rewrite <- C95_mirror; exact F|].
  unfold rshift, binary. cbn [rshift_method rrshift_method snd ratio_of as_named]. rewrite N, M. cbn [bind]. repeat split; try exact R. exact Z.
Qed.
End Actual.
Print Assumptions C95_agree.

Definition centimeter : list operand := [var_term (s "cm") 1%Qc].
Definition meter : list operand := [var_term (s "m") 1%Qc].
Notation shift_case := (rshift no_libm monos named_unit CONVERSIONS NODES [Mks; Cgs] quantity_unit quantity_dim).
Example C95_case :
  (exists n m, identify named_unit (s "cm") = Ok n /\ identify named_unit (s "meter") = Ok m /\ ratio monos n m = Ok (tenpow (-2)) /\
    snd (shift_case [] (SUnit centimeter) (SText (s "meter"))) = Ok (tenpow (-2)) /\
    snd (shift_case [] (SUnit centimeter) (SNamed m)) = Raise TypeError) /\
  format_expression centimeter = s "cm" /\ format_expression meter = s "m" /\
  (exists k, shift_case [] (SUnit meter) (SUnit centimeter) = (k, Ok (tenpow 2)) /\ shift_case k (SUnit centimeter) (SUnit meter) = (k, Ok (tenpow (-2)))) /\
  snd (shift_case [] SOther (SUnit meter)) = Raise TypeError.
Proof.
  split. { do 2 eexists. split; [vm_compute; reflexivity|]. split; [vm_compute; reflexivity|]. repeat split; vm_compute; reflexivity. }
  split; [reflexivity|]. split; [reflexivity|]. split; [|reflexivity]. eexists. split; vm_compute; reflexivity.
Qed.
