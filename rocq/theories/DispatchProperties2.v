(** C81, continued: which operand is asked first, powers, and what is refused. *)
From Verif Require Import PyBase PyLemmas AliasedModel AliasedSpec AliasedProofs AliasedProperties OperatorsModel OperatorsSpec OperatorsProofs OperatorsProperties ContainerModel Nd ArrayModel DispatchModel DispatchSpec DispatchProofs DispatchProperties ContainerProofs.
From Coq Require Import Lia.

Section Registries.
Context {F V : Type}.
Variable mro : nat -> list nat.
Variable has_ops has_funcs : nat -> bool.
Variable same : group -> group -> bool.
Hypothesis S : sound_keys same.
Variable m : opmap.
Hypothesis M : operators same = Ok m.
Variable call_f : F -> list V -> result (option V).
Variable class_of : V -> option nat.
Notation run := (run (F:=F) mro has_ops has_funcs m no_registrations).
Notation object_operator := (object_operator mro has_ops has_funcs m call_f).
Notation answers := (answers mro has_ops call_f class_of).
Notation compare := (python_compare mro has_ops has_funcs m call_f class_of).

(** the class of [b] is derived from that of [a] and another one *)
Definition derived_from (a b : V) : Prop := exists c d, class_of a = Some c /\ class_of b = Some d /\ c <> d /\ In c (mro d).
Lemma right_first_spec a b : right_first mro class_of a b = true <-> derived_from a b.
Proof using.
  clear. unfold right_first, subclass, derived_from. destruct (class_of a) as [c|]; [|split; [discriminate|intros (? & ? & E & _); discriminate E]].
  destruct (class_of b) as [d|]; [|split; [discriminate|intros (? & ? & _ & E & _); discriminate E]].
  rewrite Bool.andb_true_iff, Bool.negb_true_iff, Nat.eqb_neq, existsb_exists. split.
  - intros (N & x & I & E). apply Nat.eqb_eq in E as <-. exists c, d. repeat split; auto.
  - intros (c' & d' & E1 & E2 & N & I). injection E1 as <-. injection E2 as <-. split; [congruence|]. exists c. split; [exact I|apply Nat.eqb_refl].
Qed.
Definition mirrored : list (str * str) := [(s "lt", s "gt"); (s "gt", s "lt"); (s "le", s "ge"); (s "ge", s "le"); (s "eq", s "eq"); (s "ne", s "ne")].
(** An answer of the operand asked first is the result, whatever the other would answer; the right
    one is asked first exactly if its class is derived from that of the left one; the second is asked
    if the first has no answer. *)
Theorem C81_compare_order h op op' a b x y : In (op, op') mirrored -> answers h a op [a; b] x -> answers h b op' [b; a] y ->
  (derived_from a b -> forall v, y = Ok (Some v) -> compare (run h) op a b = Ok (Answer v)) /\
  (~ derived_from a b -> forall v, x = Ok (Some v) -> compare (run h) op a b = Ok (Answer v)) /\
  (derived_from a b -> forall e, y = Raise e -> compare (run h) op a b = Raise e) /\
  (~ derived_from a b -> forall e, x = Raise e -> compare (run h) op a b = Raise e) /\
  (y = Ok None -> forall v, x = Ok (Some v) -> compare (run h) op a b = Ok (Answer v)) /\
  (x = Ok None -> forall v, y = Ok (Some v) -> compare (run h) op a b = Ok (Answer v)).
Proof using S M.
  intros I X Y.
  assert (St : standard op /\ standard op' /\ mirror op = op').
  { clear - I. assert (T : forall o, in_group o (map fst operation_table) = true -> standard o) by (intros o J; apply case_standard; exact J).
    repeat (destruct I as [I|I]; [injection I as <- <-; split; [apply T; reflexivity|split; [apply T; reflexivity|reflexivity]]|]). destruct I. }
  destruct St as (St1 & St2 & E).
  assert (C : compare (run h) op a b = (r <- (if right_first mro class_of a b then y else x) ;;
     match r with Some v => Ok (Answer v) | None => r' <- (if right_first mro class_of a b then x else y) ;;
       match r' with Some v => Ok (Answer v) | None => if str_eqb op (s "eq") then Ok (Identity false) else if str_eqb op (s "ne") then Ok (Identity true) else Raise TypeError end end)).
  { unfold python_compare, forward_method. cbv zeta. rewrite E.
    rewrite (asked mro has_ops has_funcs same S m M call_f class_of h a op [a; b] x St1 X), (asked mro has_ops has_funcs same S m M call_f class_of h b op' [b; a] y St2 Y). reflexivity. }
  pose proof (right_first_spec a b) as R.
  assert (D1 : derived_from a b -> right_first mro class_of a b = true) by (intros Z; apply R; exact Z).
  assert (D2 : ~ derived_from a b -> right_first mro class_of a b = false).
  { intros Z. destruct (right_first mro class_of a b); [exfalso; apply Z, R; reflexivity|reflexivity]. }
  clear R. split; [|split; [|split; [|split; [|split]]]].
  - intros D v ->. rewrite C, (D1 D). reflexivity.
  - intros D v ->. rewrite C, (D2 D). reflexivity.
  - intros D e ->. rewrite C, (D1 D). reflexivity.
  - intros D e ->. rewrite C, (D2 D). reflexivity.
  - intros -> v ->. rewrite C. destruct (right_first mro class_of a b); reflexivity.
  - intros -> v ->. rewrite C. destruct (right_first mro class_of a b); reflexivity.
Qed.
(** In [a op b] an answer of the left operand is the result; without one, the right operand decides
    if it is of another class, and operands of the same class are refused. *)
Theorem C81_binary_order h op a b x y : standard op -> answers h a op [a; b] x -> answers h b op [a; b] y ->
  let result := python_binary mro has_ops has_funcs m call_f class_of (run h) op a b in
  (forall v, x = Ok (Some v) -> result = Ok v) /\
  (forall e, x = Raise e -> result = Raise e) /\
  (x = Ok None -> forall c, class_of a = Some c -> class_of b = Some c -> result = Raise TypeError) /\
  (x = Ok None -> class_of a <> class_of b -> (forall v, y = Ok (Some v) -> result = Ok v) /\ (forall e, y = Raise e -> result = Raise e)) /\
  (x = Ok None -> y = Ok None -> result = Raise TypeError).
Proof using S M.
  intros St X Y. cbv zeta.
  assert (C : python_binary mro has_ops has_funcs m call_f class_of (run h) op a b = (r <- x ;; match r with Some v => Ok v | None =>
     if same_class class_of a b then Raise TypeError else r' <- y ;; match r' with Some v => Ok v | None => Raise TypeError end end)).
  { unfold python_binary, forward_method, reverse_method.
    rewrite (asked mro has_ops has_funcs same S m M call_f class_of h a op [a; b] x St X). destruct x as [[v|]|e]; [reflexivity| |reflexivity]. cbn [bind].
    destruct (same_class class_of a b); [reflexivity|]. rewrite (asked mro has_ops has_funcs same S m M call_f class_of h b op [a; b] y St Y). reflexivity. }
  rewrite C. clear C X Y. split; [intros v ->; reflexivity|]. split; [intros e ->; reflexivity|]. split; [|split].
  - intros -> c E1 E2. cbn [bind]. unfold same_class. rewrite E1, E2, Nat.eqb_refl. reflexivity.
  - intros -> N. cbn [bind]. assert (Q : same_class class_of a b = false).
    { unfold same_class. destruct (class_of a) as [c|], (class_of b) as [d|]; try reflexivity. apply Nat.eqb_neq. congruence. }
    rewrite Q. split; [intros v ->; reflexivity|intros e ->; reflexivity].
  - intros -> ->. cbn [bind]. destruct (same_class class_of a b); reflexivity.
Qed.
(** An object of another library that does not answer is refused. *)
Theorem C81_unary_unknown h op a : class_of a = None -> python_unary mro has_ops has_funcs m call_f class_of (run h) op a = Raise TypeError.
Proof using. intros E. unfold python_unary. rewrite E. reflexivity. Qed.
(** The general entry point with a numpy function that was given to a class: an error in any
    case, TypeError if neither the class nor an ancestor has a collection of operators. *)
Theorem C81_numpy_entry_refuted h c n f args : latest (function_request_of mro has_funcs c n) h f ->
  ((exists k, collection_of mro has_ops c k) -> object_operator (run h) c (OtherCallable n) args = Raise KeyError) /\
  ((forall k, In k (mro c) -> has_ops k = false) -> object_operator (run h) c (OtherCallable n) args = Raise TypeError).
Proof using S M.
  intros L. unfold DispatchModel.object_operator. cbn [resolve_operation bind].
  rewrite (proj2 (proj1 (C81_functions mro has_ops has_funcs same S m M h c n) f) L). split.
  - intros (k & K). apply owner_spec in K. rewrite K. reflexivity.
  - intros N. rewrite (proj2 (owner_none mro has_ops c) N). reflexivity.
Qed.
End Registries.
Print Assumptions C81_compare_order.
Print Assumptions C81_binary_order.
Print Assumptions C81_unary_unknown.
Print Assumptions C81_numpy_entry_refuted.

(** ** powers of arrays *)
Section Power.
Context {A : Type}.
Variable ufunc : str -> str -> list (nd A) -> result (nd A).
Variable elementary : str -> A -> A -> A.
Notation power := (numpy_call ufunc elementary (s "power")).
(** [numpy.power]: two arrays must have the same dimensions, in the same order; a number or plain array as exponent gives an array
    with the dimensions of the base; with a number or plain array as base the result is a plain array. *)
Theorem C81_power method (x : array A) v p :
  (forall y, names (adims x) <> names (adims y) -> power method [AArr x; AArr y] = Raise ValueError) /\
  (forall y, adims x = adims y -> power method [AArr x; AArr y] = (r <- multiplicative (elementary (s "power")) (AArr x) (AArr y) ;; Ok (RArr r))) /\
  (power method [AArr x; ANum v] = (r <- multiplicative (elementary (s "power")) (AArr x) (ANum v) ;; Ok (RArr r))) /\
  (power method [AArr x; ANd p] = (r <- multiplicative (elementary (s "power")) (AArr x) (ANd p) ;; Ok (RArr r))) /\
  (power method [ANum v; AArr x] = (r <- nd_map2 (elementary (s "power")) (nd_scalar v) (data x) ;; Ok (RNd r))) /\
  (power method [ANd p; AArr x] = (r <- nd_map2 (elementary (s "power")) p (data x) ;; Ok (RNd r))).
Proof using.
  clear. assert (D : forall d e : dims, names d <> names e -> dims_eq d e = false).
  { intros d e N. assert (Q : list_eqb str_eqb (names d) (names e) = false) by (destruct (list_eqb str_eqb (names d) (names e)) eqn:E; [apply (list_eqb_spec str_eqb str_eqb_eq) in E; contradiction|reflexivity]).
    destruct d, e; cbn [dims_eq names] in *; try reflexivity; exact Q. }
  assert (R : forall d : dims, dims_eq d d = true).
  { intros d. destruct d; apply (list_eqb_spec str_eqb str_eqb_eq); reflexivity. }
  split; [|split; [|split; [|split; [|split]]]].
  - intros y N. change (power method [AArr x; AArr y]) with (r <- (r <- array_pow (elementary (s "power")) (AArr x) (AArr y) ;; Ok (Some r)) ;; match r with Some v => Ok v | None => try_overrides ufunc elementary [y] (s "power") method [AArr x; AArr y] end).
    cbn [array_pow]. rewrite (D _ _ N). reflexivity.
  - intros y E. change (power method [AArr x; AArr y]) with (r <- (r <- array_pow (elementary (s "power")) (AArr x) (AArr y) ;; Ok (Some r)) ;; match r with Some v => Ok v | None => try_overrides ufunc elementary [y] (s "power") method [AArr x; AArr y] end).
    cbn [array_pow]. rewrite E, R. cbn [negb]. destruct (multiplicative (elementary (s "power")) (AArr x) (AArr y)); reflexivity.
  - change (power method [AArr x; ANum v]) with (r <- (r <- array_pow (elementary (s "power")) (AArr x) (ANum v) ;; Ok (Some r)) ;; match r with Some v => Ok v | None => Raise TypeError end).
    cbn [array_pow]. destruct (multiplicative (elementary (s "power")) (AArr x) (ANum v)); reflexivity.
  - change (power method [AArr x; ANd p]) with (r <- (r <- array_pow (elementary (s "power")) (AArr x) (ANd p) ;; Ok (Some r)) ;; match r with Some v => Ok v | None => Raise TypeError end).
    cbn [array_pow]. destruct (multiplicative (elementary (s "power")) (AArr x) (ANd p)); reflexivity.
  - change (power method [ANum v; AArr x]) with (r <- (r <- array_pow (elementary (s "power")) (ANum v) (AArr x) ;; Ok (Some r)) ;; match r with Some v => Ok v | None => Raise TypeError end).
    cbn [array_pow]. destruct (nd_map2 (elementary (s "power")) (nd_scalar v) (data x)); reflexivity.
  - change (power method [ANd p; AArr x]) with (r <- (r <- array_pow (elementary (s "power")) (ANd p) (AArr x) ;; Ok (Some r)) ;; match r with Some v => Ok v | None => Raise TypeError end).
    cbn [array_pow]. destruct (nd_map2 (elementary (s "power")) p (data x)); reflexivity.
Qed.
(** A numpy function of physical objects among whose arguments is something that is neither object,
    number nor list: refused. *)
Theorem C81_physical_refused {U} name method (args : list (@pobject A U)) : In (PPlain AOther) args -> numpy_physical ufunc elementary name method args = Raise TypeError.
Proof using.
  clear. intros I. unfold numpy_physical. assert (Q : forallb accepted (map object_data args) = false); [|rewrite Q; reflexivity].
  destruct (forallb accepted (map object_data args)) eqn:E; [|reflexivity]. rewrite forallb_forall in E. specialize (E AOther). discriminate E.
  apply in_map_iff. exists (PPlain AOther). split; [reflexivity|exact I].
Qed.
End Power.
Print Assumptions C81_power.
Print Assumptions C81_physical_refused.

(** ** cases *)
Definition order_history : list (nat * operation * case_f) := [(0, ByFunc (s "gt"), CSub); (1, ByName (s "lt"), CLt)].
Lemma order_latest : latest (request_of case_mro case_has 1 (s "gt")) order_history CSub.
Proof.
  exists [], (0, ByFunc (s "gt"), CSub), [(1, ByName (s "lt"), CLt)]. split; [reflexivity|]. split; [|split; [reflexivity|]].
  - split; [|right; split; [reflexivity|apply case_standard; reflexivity]]. exists 0. split; [exists [], []|exists [1], []]; (split; [reflexivity|split; [reflexivity|]]); [intros ? []|intros ? [<-|[]]; reflexivity].
  - intros q [<-|[]] (_ & [(k & E & (als & I & J))|(E & _)]); [|discriminate E]. cbn [fst snd] in E. injection E as <-. clear - I J.
    assert (D : forall e, In e operation_table -> fst e = s "gt" -> s "lt" = fst e \/ In (s "lt") (snd e) -> False).
    { intros e Ie. repeat (destruct Ie as [<-|Ie]; [cbn [fst snd]; intros Q W; try discriminate Q; cbn [In] in W; repeat (destruct W as [W|W]; [discriminate W|]); destruct W|]). destruct Ie. }
    exact (D (s "gt", als) I eq_refl J).
Qed.
(** [a < b], where the class of [b] is derived from that of [a]: the answer is [b > a] of [b]. *)
Example C81_order_case : exists m, operators group_eqb = Ok m /\
  python_compare case_mro case_has case_has m case_call case_class (run case_mro case_has case_has m no_registrations order_history) (s "lt") (0, 2%Z) (1, 5%Z) = Ok (Answer (1, 3%Z)).
Proof.
  pose proof (fun a b => proj1 (group_eqb_spec a b)) as S. destruct (operators_ok group_eqb S) as (d & E & _). eexists. split; [exact E|].
  assert (St : standard (s "lt")) by (apply case_standard; reflexivity).
  destruct (answers_exists case_mro case_has case_has group_eqb S _ E case_call case_class order_history (0, 2%Z) (s "lt") [(0, 2%Z); (1, 5%Z)] St) as (x & X).
  assert (Y : answers case_mro case_has case_call case_class order_history (1, 5%Z) (s "gt") [(1, 5%Z); (0, 2%Z)] (Ok (Some (1, 3%Z)))).
  { left. exists 1, CSub. split; [reflexivity|]. split; [exact order_latest|reflexivity]. }
  apply (proj1 (C81_compare_order case_mro case_has case_has group_eqb S _ E case_call case_class order_history (s "lt") (s "gt") _ _ x _ (or_introl eq_refl) X Y)); [|reflexivity].
  exists 0, 1. repeat split; [discriminate|right; left; reflexivity].
Qed.
(** Powers of arrays of integers. *)
Example C81_power_case :
  shown (numpy_call z_ufunc (fun _ => Z.pow) (s "power") (s "__call__") [AArr (z_array 2 3); ANum 3%Z]) = Some ([2], [8; 27]%Z) /\
  shown (numpy_call z_ufunc (fun _ => Z.pow) (s "power") (s "__call__") [ANum 3%Z; AArr (z_array 2 3)]) = Some ([2], [9; 27]%Z) /\
  numpy_call z_ufunc (fun _ => Z.pow) (s "power") (s "__call__") [AArr (z_array 2 3); AArr (mkarray (data (z_array 1 2)) (Named [s "x"]))] = Raise ValueError.
Proof. split; [|split]; vm_compute; reflexivity. Qed.
