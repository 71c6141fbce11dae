(** C81: custom operators and numpy functions of numeric objects.
    For any classes, any history of registrations and any functions. *)
From Verif Require Import PyBase PyLemmas AliasedModel AliasedSpec AliasedProofs AliasedProperties OperatorsModel OperatorsSpec OperatorsProofs OperatorsProperties ContainerModel Nd ArrayModel DispatchModel DispatchSpec DispatchProofs.
From Coq Require Import Lia.

Section Registries.
Context {F V : Type}.
Variable mro : nat -> list nat.
Variable has_ops has_funcs : nat -> bool.
Variable same : group -> group -> bool.
Hypothesis S : sound_keys same.
Variable m : opmap.
Hypothesis M : operators same = Ok m.
Variable call_f : F -> list V -> result (option V).
Variable class_of : V -> option nat.
Notation run := (run (F:=F) mro has_ops has_funcs m no_registrations).
Notation object_operator := (object_operator mro has_ops has_funcs m call_f).

Lemma ops_latest h k op : (forall c, owner mro has_ops c = Some k ->
  (forall f, ops (run h) k op = Some f <-> latest (request_of mro has_ops c op) h f) /\
  (ops (run h) k op = None <-> forall q, In q h -> ~ request_of mro has_ops c op q)).
Proof using S M.
  intros c O.
  apply (last_wins mro has_ops has_funcs m (fun r => ops r k op) (request_of mro has_ops c op)); [| |reflexivity].
  - intros q. destruct (asks_dec same S m M (snd (fst q)) op) as [A|A]; [|right; intros (_ & X); contradiction].
    destruct (owner mro has_ops (fst (fst q))) as [k'|] eqn:O'.
    + destruct (Nat.eq_dec k' k) as [->|X]; [left; split; [apply share_spec; eauto|exact A]|].
      right. intros (Y & _). apply share_spec in Y as (j & J1 & J2). congruence.
    + right. intros (Y & _). apply share_spec in Y as (j & J1 & J2). congruence.
  - intros r q. assert (E : request_of mro has_ops c op q <-> owner mro has_ops (fst (fst q)) = Some k /\ asks_for (snd (fst q)) op).
    { unfold request_of. rewrite share_spec. split; intros (A & B); (split; [|exact B]); [destruct A as (j & J1 & J2); congruence|eauto]. }
    rewrite E. apply (ops_step mro has_ops has_funcs same S m M r q k op).
Qed.

(** After any history of registrations, an operator asked of a class is answered by the
    function registered last for this operator - under whatever name - for the class, or
    for a class that shares its collection; by nothing if there is none. *)
Theorem C81_registered h c o op args : asks_for o op ->
  (forall f, latest (request_of mro has_ops c op) h f -> object_operator (run h) c o args = call_f f args) /\
  ((forall q, In q h -> ~ request_of mro has_ops c op q) -> object_operator (run h) c o args = Ok None).
Proof using S M.
  intros A. unfold DispatchModel.object_operator. rewrite (resolve_asks same S m M o op A). cbn [bind].
  destruct (owner mro has_ops c) as [k|] eqn:O.
  - destruct (ops_latest h k op c O) as (B & C). split.
    + intros f L. rewrite (proj2 (B f) L). reflexivity.
    + intros N. rewrite (proj2 C N). reflexivity.
  - split; [|reflexivity]. intros f (h1 & q & h2 & _ & (Y & _) & _). apply share_spec in Y as (j & _ & J). congruence.
Qed.

(** The same for numpy functions. *)
Theorem C81_functions h c n :
  (forall f, func_of mro has_funcs (run h) c (OtherCallable n) = Some f <-> latest (function_request_of mro has_funcs c n) h f) /\
  (func_of mro has_funcs (run h) c (OtherCallable n) = None <-> forall q, In q h -> ~ function_request_of mro has_funcs c n q).
Proof using S M.
  unfold func_of. cbn [as_callable]. destruct (owner mro has_funcs c) as [k|] eqn:O.
  - apply (last_wins mro has_ops has_funcs m (fun r => funcs r k (Ext n)) (function_request_of mro has_funcs c n)); [| |reflexivity].
    + intros q. assert (A : snd (fst q) = OtherCallable n \/ snd (fst q) <> OtherCallable n).
      { destruct (snd (fst q)) as [k'|f|j|]; try (right; discriminate). destruct (Nat.eq_dec j n) as [->|X]; [left; reflexivity|right; congruence]. }
      destruct A as [A|A]; [|right; intros (_ & X); contradiction].
      destruct (owner mro has_funcs (fst (fst q))) as [k'|] eqn:O'.
      * destruct (Nat.eq_dec k' k) as [->|X]; [left; split; [apply share_spec; eauto|exact A]|].
        right. intros (Y & _). apply share_spec in Y as (j & J1 & J2). congruence.
      * right. intros (Y & _). apply share_spec in Y as (j & J1 & J2). congruence.
    + intros r q. assert (E : function_request_of mro has_funcs c n q <-> owner mro has_funcs (fst (fst q)) = Some k /\ snd (fst q) = OtherCallable n).
      { unfold function_request_of. rewrite share_spec. split; intros (A & B); (split; [|exact B]); [destruct A as (j & J1 & J2); congruence|eauto]. }
      rewrite E. apply (funcs_step mro has_ops has_funcs same S m M r q k n).
  - split.
    + intros f. split; [discriminate|]. intros (h1 & q & h2 & _ & (Y & _) & _). apply share_spec in Y as (j & _ & J). congruence.
    + split; [|reflexivity]. intros _ q _ (Y & _). apply share_spec in Y as (j & _ & J). congruence.
Qed.

(** A registration fails exactly if the class has no collection, or if the target is neither
    the name of an operator nor a function; the kind of error tells which. *)
Theorem C81_implements_fails r c o (f : F) e :
  implements mro has_ops has_funcs m r c o f = Raise e <->
  (exists op, asks_for o op /\ (forall k, ~ collection_of mro has_ops c k) /\ e = OtherError "NotImplementedError") \/
  ((forall op, ~ asks_for o op) /\
     ((as_callable o <> None /\ (forall k, ~ collection_of mro has_funcs c k) /\ e = OtherError "NotImplementedError") \/
      (as_callable o = None /\ e = TypeError))).
Proof using S M.
  assert (N : forall has, owner mro has c = None <-> forall k, ~ collection_of mro has c k).
  { intros has. split.
    - intros O k K. apply owner_spec in K. congruence.
    - intros H. destruct (owner mro has c) as [k|] eqn:O; [|reflexivity]. contradiction (H k). apply owner_spec, O. }
  destruct (resolve_cases same S m M o) as [(op & A)|(H & _)].
  - rewrite (implements_op mro has_ops has_funcs same S m M r c o f op A). destruct (owner mro has_ops c) as [k|] eqn:O.
    + split; [discriminate|]. intros [(op' & _ & K & _)|(H & _)]; [contradiction (K k); apply owner_spec, O|contradiction (H op A)].
    + split.
      * intros E. injection E as <-. left. exists op. split; [exact A|]. split; [apply N, O|reflexivity].
      * intros [(op' & _ & K & ->)|(H & _)]; [reflexivity|contradiction (H op A)].
  - rewrite (implements_other mro has_ops has_funcs same S m M r c o f H). unfold implements_func. destruct (as_callable o) as [x|] eqn:X.
    + destruct (owner mro has_funcs c) as [k|] eqn:O.
      * split; [discriminate|]. intros [(op' & A & _)|(_ & [(_ & K & _)|(Y & _)])]; [contradiction (H op' A)|contradiction (K k); apply owner_spec, O|discriminate Y].
      * split.
        -- intros E. injection E as <-. right. split; [exact H|]. left. split; [discriminate|]. split; [apply N, O|reflexivity].
        -- intros [(op' & A & _)|(_ & [(_ & K & ->)|(Y & _)])]; [contradiction (H op' A)|reflexivity|discriminate Y].
    + split.
      * intros E. injection E as <-. right. split; [exact H|]. right. auto.
      * intros [(op' & A & _)|(_ & [(Y & _)|(_ & ->)])]; [contradiction (H op' A)|contradiction Y; reflexivity|reflexivity].
Qed.

(** A registration for a class with another collection makes no difference. *)
Theorem C81_isolated h1 h2 q c o op args : asks_for o op -> ~ share mro has_ops (fst (fst q)) c ->
  object_operator (run (h1 ++ q :: h2)) c o args = object_operator (run (h1 ++ h2)) c o args.
Proof using S M.
  intros A N. unfold DispatchModel.object_operator. rewrite (resolve_asks same S m M o op A). cbn [bind].
  destruct (owner mro has_ops c) as [k|] eqn:O; [|reflexivity].
  assert (NR : ~ request_of mro has_ops c op q) by (intros (X & _); contradiction).
  assert (E : ops (run (h1 ++ q :: h2)) k op = ops (run (h1 ++ h2)) k op); [|rewrite E; reflexivity].
  destruct (ops_latest (h1 ++ h2) k op c O) as (B & C). destruct (ops_latest (h1 ++ q :: h2) k op c O) as (B' & C').
  destruct (ops (run (h1 ++ h2)) k op) as [f|] eqn:Q.
  - apply B'. destruct (proj1 (B f) eq_refl) as (a & z & b & E & P & Ez & L). apply app_eq_app in E as (l & [(E1 & E2)|(E1 & E2)]).
    + destruct l as [|y l].
      * cbn [app] in E2. rewrite app_nil_r in E1. subst. exists (a ++ [q]), z, b. rewrite <- app_assoc. split; [reflexivity|]. split; [exact P|]. split; [try reflexivity; assumption|try exact L].
      * injection E2 as -> ->. subst h1. exists a, y, (l ++ q :: h2). rewrite <- app_assoc. split; [reflexivity|]. split; [exact P|]. split; [try reflexivity; assumption|try exact L].
        intros w I. apply in_app_or in I as [I|[<-|I]]; [apply L, in_or_app; auto|exact NR|apply L, in_or_app; auto].
    + subst a h2. exists (h1 ++ q :: l), z, b. rewrite <- app_assoc. split; [reflexivity|]. split; [exact P|]. split; [try reflexivity; assumption|try exact L].
  - apply C'. intros w I. apply in_app_or in I as [I|[<-|I]]; [|exact NR|]; apply (proj1 C eq_refl); apply in_or_app; auto.
Qed.

(** ** Python's operators *)
Notation answers := (answers mro has_ops call_f class_of).
Lemma asked h x op args r : standard op -> answers h x op args r ->
  match class_of x with Some c => object_operator (run h) c (ByFunc op) args | None => Ok None end = r.
Proof using S M.
  intros St A. assert (Q : asks_for (ByFunc op) op) by (right; auto). destruct A as [(c & f & E & L & ->)|(N & ->)].
  - rewrite E. apply (proj1 (C81_registered h c (ByFunc op) op args Q) f L).
  - destruct (class_of x) as [c|] eqn:E; [|reflexivity]. apply (proj2 (C81_registered h c (ByFunc op) op args Q)). intros q I. apply (N c q eq_refl I).
Qed.
Lemma answers_exists h x op args : standard op -> exists r, answers h x op args r.
Proof using S M has_funcs.
  intros St. destruct (class_of x) as [c|] eqn:E.
  - destruct (owner mro has_ops c) as [k|] eqn:O.
    + destruct (ops_latest h k op c O) as (B & C). destruct (ops (run h) k op) as [f|] eqn:Q.
      * exists (call_f f args). left. exists c, f. split; [exact E|]. split; [apply B; reflexivity|reflexivity].
      * exists (Ok None). right. split; [|reflexivity]. intros c' q E' I. assert (c' = c) by congruence. subst. apply C; auto.
    + exists (Ok None). right. split; [|reflexivity]. intros c' q E' I (Y & _). apply share_spec in Y as (j & _ & J). congruence.
  - exists (Ok None). right. split; [|reflexivity]. intros c' q E'. congruence.
Qed.

(** [a op b]: both operands are asked with the arguments in the order written, the left one
    first; the right one only if the left has no answer and the classes differ.  No
    answer is a TypeError. *)
Theorem C81_binary h op a b : standard op -> exists x y, answers h a op [a; b] x /\ answers h b op [a; b] y /\
  python_binary mro has_ops has_funcs m call_f class_of (run h) op a b =
    match x with
    | Raise e => Raise e
    | Ok (Some v) => Ok v
    | Ok None => if same_class class_of a b then Raise TypeError
                 else match y with Raise e => Raise e | Ok (Some v) => Ok v | Ok None => Raise TypeError end
    end.
Proof using S M.
  intros St. destruct (answers_exists h a op [a; b] St) as (x & X). destruct (answers_exists h b op [a; b] St) as (y & Y).
  exists x, y. split; [exact X|]. split; [exact Y|]. unfold python_binary, forward_method, reverse_method.
  rewrite (asked h a op [a; b] x St X). destruct x as [[v|]|e]; cbn [bind]; [reflexivity| |reflexivity].
  destruct (same_class class_of a b); [reflexivity|]. rewrite (asked h b op [a; b] y St Y). destruct y as [[v|]|e]; reflexivity.
Qed.
(** [op a] *)
Theorem C81_unary h op a : standard op -> class_of a <> None -> exists x, answers h a op [a] x /\
  python_unary mro has_ops has_funcs m call_f class_of (run h) op a =
    match x with Raise e => Raise e | Ok (Some v) => Ok v | Ok None => Raise TypeError end.
Proof using S M.
  intros St N. destruct (answers_exists h a op [a] St) as (x & X). exists x. split; [exact X|].
  pose proof (asked h a op [a] x St X) as E. unfold python_unary. destruct (class_of a) as [c|]; [|contradiction N; reflexivity].
  rewrite E. destruct x as [[v|]|e]; reflexivity.
Qed.
(** Comparisons: the right operand is asked the mirrored question, [b > a] for [a < b]; equality
    without an answer is identity, an ordering without an answer a TypeError. *)
Theorem C81_compare h op a b : In op [s "lt"; s "le"; s "gt"; s "ge"; s "eq"; s "ne"] ->
  exists op' x y, In (op, op') [(s "lt", s "gt"); (s "gt", s "lt"); (s "le", s "ge"); (s "ge", s "le"); (s "eq", s "eq"); (s "ne", s "ne")] /\
  answers h a op [a; b] x /\ answers h b op' [b; a] y /\
  let first := if right_first mro class_of a b then y else x in
  let second := if right_first mro class_of a b then x else y in
  python_compare mro has_ops has_funcs m call_f class_of (run h) op a b =
    match first with
    | Raise e => Raise e
    | Ok (Some v) => Ok (Answer v)
    | Ok None =>
        match second with
        | Raise e => Raise e
        | Ok (Some v) => Ok (Answer v)
        | Ok None => if str_eqb op (s "eq") then Ok (Identity false)
                     else if str_eqb op (s "ne") then Ok (Identity true) else Raise TypeError
        end
    end.
Proof using S M.
  intros I.
  assert (St : standard op /\ standard (mirror op) /\ In (op, mirror op) [(s "lt", s "gt"); (s "gt", s "lt"); (s "le", s "ge"); (s "ge", s "le"); (s "eq", s "eq"); (s "ne", s "ne")]).
  { clear - I. cbn [In] in I. assert (T : forall o, In o (map fst operation_table) -> standard o).
    { intros o J. apply in_map_iff in J as ((o', als) & <- & J). exists als. exact J. }
    repeat (destruct I as [<-|I]; [split; [apply T; vm_compute; tauto|split; [apply T; vm_compute; tauto|vm_compute; tauto]]|]). destruct I. }
  destruct St as (St1 & St2 & J). exists (mirror op).
  destruct (answers_exists h a op [a; b] St1) as (x & X). destruct (answers_exists h b (mirror op) [b; a] St2) as (y & Y).
  exists x, y. split; [exact J|]. split; [exact X|]. split; [exact Y|]. cbv zeta. unfold python_compare, forward_method.
  rewrite (asked h a op [a; b] x St1 X), (asked h b (mirror op) [b; a] y St2 Y).
  destruct (right_first mro class_of a b); [destruct y as [[v|]|e]; [reflexivity| |reflexivity]; destruct x as [[v|]|e]|destruct x as [[v|]|e]; [reflexivity| |reflexivity]; destruct y as [[v|]|e]]; reflexivity.
Qed.

(** A function registered for a numpy function of the same meaning is not the operator; and the
    general entry point with that function is an error. *)
Theorem C81_numpy_alias_refuted c n (f : F) op args : standard op ->
  (exists k, collection_of mro has_funcs c k) -> (exists k, collection_of mro has_ops c k) ->
  object_operator (run [(c, OtherCallable n, f)]) c (ByFunc op) args = Ok None /\
  object_operator (run [(c, OtherCallable n, f)]) c (OtherCallable n) args = Raise KeyError.
Proof using S M.
  intros St (k & K) (k' & K'). split.
  - apply (proj2 (C81_registered _ c (ByFunc op) op args (or_intror (conj eq_refl St)))). intros q [<-|[]] (_ & [(? & E & _)|(E & _)]); discriminate E.
  - unfold DispatchModel.object_operator. cbn [resolve_operation bind].
    assert (L : func_of mro has_funcs (run [(c, OtherCallable n, f)]) c (OtherCallable n) = Some f).
    { apply (proj1 (C81_functions [(c, OtherCallable n, f)] c n)). exists [], (c, OtherCallable n, f), []. split; [reflexivity|]. split; [|split; [reflexivity|intros ? []]].
      split; [|reflexivity]. exists k. auto. }
    rewrite L. apply owner_spec in K'. rewrite K'. reflexivity.
Qed.

(** A class without a collection of its own registers for its base class, and so for all
    classes derived from it. *)
Theorem C81_shared_refuted c d k (f : F) o op args : asks_for o op ->
  collection_of mro has_ops c k -> collection_of mro has_ops d k -> object_operator (run [(c, o, f)]) d o args = call_f f args.
Proof using S M.
  intros A C D. apply (proj1 (C81_registered [(c, o, f)] d o op args A)). exists [], (c, o, f), []. split; [reflexivity|].
  split; [split; [exists k; auto|exact A]|]. split; [reflexivity|intros ? []].
Qed.
End Registries.
Print Assumptions C81_registered.
Print Assumptions C81_functions.
Print Assumptions C81_implements_fails.
Print Assumptions C81_isolated.
Print Assumptions C81_binary.
Print Assumptions C81_unary.
Print Assumptions C81_compare.
Print Assumptions C81_numpy_alias_refuted.
Print Assumptions C81_shared_refuted.

(** ** numpy's functions *)
Section Ufuncs.
Context {A : Type}.
Variable ufunc : str -> str -> list (nd A) -> result (nd A).
Variable elementary : str -> A -> A -> A.
Notation numpy_call := (numpy_call ufunc elementary).

Lemma overrides_first args (x : array A) : In (AArr x) args -> exists y ys, overrides args = y :: ys /\ In (AArr y) args.
Proof using.
  clear. induction args as [|a args IH]; [intros []|]. intros [->|I].
  - exists x, (overrides args). split; [reflexivity|left; reflexivity].
  - destruct a as [y|v|y|]; cbn [overrides].
    + exists y, (overrides args). split; [reflexivity|left; reflexivity].
    + destruct (IH I) as (y & ys & E & J). exists y, ys. split; [exact E|right; exact J].
    + destruct (IH I) as (z & ys & E & J). exists z, ys. split; [exact E|right; exact J].
    + destruct (IH I) as (z & ys & E & J). exists z, ys. split; [exact E|right; exact J].
Qed.
(** A numpy function without a registered version, of numbers, plain arrays and
    any number of occurrences of one array, is numpy's function of the data. *)
Theorem C81_ufunc name method (args : list (aoperand A)) values x :
  ~ In name registered -> In (AArr x) args -> (forall y, In (AArr y) args -> data y = data x) ->
  Forall2 (fun a v => plain_data a = Some v) args values ->
  numpy_call name method args = (r <- ufunc name method values ;; Ok (RNd r)).
Proof using.
  intros N I Same W. unfold DispatchModel.numpy_call. destruct (overrides_first args x I) as (y & ys & E & J). rewrite E. cbn [try_overrides].
  assert (Acc : forallb accepted args = true).
  { apply forallb_forall. intros a Ia. destruct a; try reflexivity. exfalso. clear - W Ia. induction W as [|a v l vs H W IH]; [destruct Ia|destruct Ia as [->|Ia]; [discriminate H|auto]]. }
  assert (G : mapM (get_arg_data y) args = Ok values).
  { assert (K : forall z, In (AArr z) args -> data y = data z) by (intros z Iz; rewrite (Same y J), (Same z Iz); reflexivity). clear - W K.
    induction W as [|a v args values H W IH]; [reflexivity|]. cbn [mapM]. rewrite IH by (intros z Iz; apply K; right; exact Iz).
    destruct a as [z|w|z|]; cbn [plain_data] in H; [injection H as <-; cbn [get_arg_data]; rewrite (K z (or_introl eq_refl)); reflexivity|injection H as <-; reflexivity|injection H as <-; reflexivity|discriminate H]. }
  unfold array_ufunc. rewrite Acc. cbn [negb]. assert (R : in_group name registered = false) by (apply in_group_false; exact N). rewrite R.
  unfold apply_ufunc. rewrite G. cbn [bind]. destruct (ufunc name method values); reflexivity.
Qed.
(** An argument that is neither array, number nor list is refused. *)
Theorem C81_ufunc_refused name method (args : list (aoperand A)) x : In (AArr x) args -> In AOther args -> numpy_call name method args = Raise TypeError.
Proof using.
  intros I J. unfold DispatchModel.numpy_call. destruct (overrides_first args x I) as (y & ys & E & _). rewrite E.
  assert (Acc : forallb accepted args = false).
  { destruct (forallb accepted args) eqn:Q; [|reflexivity]. rewrite forallb_forall in Q. specialize (Q _ J). discriminate Q. }
  generalize (y :: ys). induction l as [|z l IH]; [reflexivity|]. cbn [try_overrides]. unfold array_ufunc at 1. rewrite Acc. cbn [negb bind]. exact IH.
Qed.
(** A registered function computes what the operator computes. *)
Theorem C81_ufunc_registered name op method (a b : aoperand A) : In (name, op) [(s "multiply", s "*"); (s "true_divide", s "/"); (s "floor_divide", s "//"); (s "mod", s "%")] ->
  accepted a = true -> accepted b = true -> (exists x, In (AArr x) [a; b]) ->
  numpy_call name method [a; b] = (r <- multiplicative (elementary name) a b ;; Ok (RArr r)).
Proof using.
  intros N Ha Hb (x & I). unfold DispatchModel.numpy_call. destruct (overrides_first [a; b] x I) as (y & ys & E & _). rewrite E. cbn [try_overrides]. unfold array_ufunc. cbn [forallb]. rewrite Ha, Hb. cbn [andb negb].
  assert (R : in_group name registered = true /\ str_eqb name (s "power") = false).
  { clear - N. cbn [In] in N. repeat (destruct N as [N|N]; [injection N as <- _; split; reflexivity|]). destruct N. }
  destruct R as (R & P). rewrite R. cbn [registered_call]. rewrite P. destruct (multiplicative (elementary name) a b); reflexivity.
Qed.

(** With two arrays, a function without a registered version uses the data of the first twice. *)
Theorem C81_ufunc_second_refuted name method (x y : array A) : ~ In name registered ->
  numpy_call name method [AArr x; AArr y] = (r <- ufunc name method [data x; data x] ;; Ok (RNd r)).
Proof using.
  intros N. unfold DispatchModel.numpy_call. cbn [overrides try_overrides]. unfold array_ufunc. cbn [forallb accepted andb negb].
  assert (R : in_group name registered = false) by (apply in_group_false; exact N). rewrite R. unfold apply_ufunc. cbn [mapM get_arg_data bind]. destruct (ufunc name method [data x; data x]); reflexivity.
Qed.
(** The methods of registered functions are ignored: [outer] is the product element by element. *)
Theorem C81_ufunc_outer_refuted (x y : array A) :
  numpy_call (s "multiply") (s "outer") [AArr x; AArr y] = numpy_call (s "multiply") (s "__call__") [AArr x; AArr y] /\
  numpy_call (s "multiply") (s "reduce") [AArr x] = Raise TypeError.
Proof using. split; reflexivity. Qed.

(** Physical objects: the result does not depend on their units. *)
Definition without_unit {U} (x : @pobject A U) : @pobject A unit :=
  match x with PData d _ => PData d tt | PArray d _ => PArray d tt | PPlain d => PPlain d end.
Theorem C81_physical_units_refuted {U} name method (args args' : list (@pobject A U)) :
  map without_unit args = map without_unit args' ->
  numpy_physical ufunc elementary name method args = numpy_physical ufunc elementary name method args'.
Proof using.
  intros E. assert (H : map object_data args = map object_data args').
  { revert args' E. induction args as [|a args IH]; intros [|b args'] E; [reflexivity|discriminate E|discriminate E|]. cbn [map] in *. injection E as E1 E2. rewrite (IH _ E2). f_equal.
    destruct a, b; try discriminate E1; injection E1; intros; subst; reflexivity. }
  unfold numpy_physical. rewrite H. reflexivity.
Qed.
End Ufuncs.
Print Assumptions C81_ufunc.
Print Assumptions C81_ufunc_refused.
Print Assumptions C81_ufunc_registered.
Print Assumptions C81_ufunc_second_refuted.
Print Assumptions C81_ufunc_outer_refuted.
Print Assumptions C81_physical_units_refuted.

(** ** cases: the index classes Object (0), Value (1), Sequence (2), and arrays (3) *)
Definition case_mro (c : nat) : list nat := if Nat.eqb c 1 then [1; 0] else if Nat.eqb c 2 then [2; 0] else [c].
Definition case_has (c : nat) : bool := Nat.eqb c 0 || Nat.eqb c 3.
Inductive case_f := CSub | CLt | CDecline.
(** values: class (9 for plain numbers) and number *)
Definition case_call (f : case_f) (args : list (nat * Z)) : result (option (nat * Z)) :=
  match f, args with
  | CSub, [a; b] => Ok (Some (1, (snd a - snd b)%Z))
  | CLt, [a; b] => Ok (Some (9, if (snd a <? snd b)%Z then 1%Z else 0%Z))
  | CDecline, _ => Ok None
  | _, _ => Raise TypeError
  end.
Definition case_class (x : nat * Z) : option nat := if Nat.eqb (fst x) 9 then None else Some (fst x).
Definition case_history : list (nat * operation * case_f) :=
  [(1, ByName (s "sub"), CDecline); (2, ByName (s "subtraction"), CSub); (3, ByName (s "sub"), CDecline); (1, ByFunc (s "lt"), CLt)].
Lemma case_standard op : in_group op (map fst operation_table) = true -> standard op.
Proof. intros H. apply in_group_spec, in_map_iff in H as ((o, als) & <- & I). exists als. exact I. Qed.
Lemma case_share c d : In c [1; 2] -> In d [1; 2] -> share case_mro case_has c d.
Proof. intros [<-|[<-|[]]] [<-|[<-|[]]]; exists 0; split; [exists [1], []|exists [1], []|exists [1], []|exists [2], []|exists [2], []|exists [1], []|exists [2], []|exists [2], []]; (split; [reflexivity|split; [reflexivity|intros x [<-|[]]; reflexivity]]). Qed.
Lemma case_apart c : In c [1; 2] -> ~ share case_mro case_has 3 c.
Proof. intros I. rewrite share_spec. intros (k & A & B). destruct I as [<-|[<-|[]]]; vm_compute in A, B; congruence. Qed.
Lemma case_latest c : In c [1; 2] -> latest (request_of case_mro case_has c (s "sub")) case_history CSub.
Proof.
  intros I. exists [(1, ByName (s "sub"), CDecline)], (2, ByName (s "subtraction"), CSub), [(3, ByName (s "sub"), CDecline); (1, ByFunc (s "lt"), CLt)].
  split; [reflexivity|]. split; [|split; [reflexivity|]].
  - split; [apply case_share; [right; left; reflexivity|exact I]|]. left. exists (s "subtraction"). split; [reflexivity|]. exists [s "subtraction"; s "subtract"]. split; [vm_compute; tauto|right; left; reflexivity].
  - intros q [<-|[<-|[]]] (A & B); cbn [fst snd] in *; [contradiction (case_apart c I A)|]. destruct B as [(? & E & _)|(E & _)]; discriminate E.
Qed.
(** [10 - Value(3)]: the reflected method of the index, with the function registered for the other
    index class under another name. *)
Example C81_binary_case : exists m, operators group_eqb = Ok m /\ python_binary case_mro case_has case_has m case_call case_class
  (run case_mro case_has case_has m no_registrations case_history) (s "sub") (9, 10%Z) (1, 3%Z) = Ok (1, 7%Z).
Proof.
  pose proof (fun a b => proj1 (group_eqb_spec a b)) as S.
  destruct (operators_ok group_eqb S) as (d & E & _). eexists. split; [exact E|]. unfold python_binary, forward_method, reverse_method. cbn [case_class fst Nat.eqb bind same_class].
  rewrite (proj1 (C81_registered case_mro case_has case_has group_eqb S _ E case_call case_history 1 (ByFunc (s "sub")) (s "sub") [(9, 10%Z); (1, 3%Z)]
    (or_intror (conj eq_refl (case_standard (s "sub") eq_refl)))) CSub (case_latest 1 (or_introl eq_refl))). reflexivity.
Qed.
(** The other index class has the same function; arrays have their own. *)
Example C81_shared_case : exists m, operators group_eqb = Ok m /\
  object_operator case_mro case_has case_has m case_call (run case_mro case_has case_has m no_registrations case_history) 2 (ByName (s "subtract")) [(2, 5%Z); (9, 1%Z)] = Ok (Some (1, 4%Z)) /\
  object_operator case_mro case_has case_has m case_call (run case_mro case_has case_has m no_registrations case_history) 3 (ByName (s "subtract")) [(3, 5%Z); (9, 1%Z)] = Ok None.
Proof.
  pose proof (fun a b => proj1 (group_eqb_spec a b)) as S.
  destruct (operators_ok group_eqb S) as (d & E & _). eexists. split; [exact E|].
  assert (A : asks_for (ByName (s "subtract")) (s "sub")).
  { left. exists (s "subtract"). split; [reflexivity|]. exists [s "subtraction"; s "subtract"]. split; [vm_compute; tauto|right; right; left; reflexivity]. }
  split.
  - rewrite (proj1 (C81_registered case_mro case_has case_has group_eqb S _ E case_call case_history 2 (ByName (s "subtract")) (s "sub") [(2, 5%Z); (9, 1%Z)] A) CSub (case_latest 2 (or_intror (or_introl eq_refl)))). reflexivity.
  - rewrite (proj1 (C81_registered case_mro case_has case_has group_eqb S _ E case_call case_history 3 (ByName (s "subtract")) (s "sub") [(3, 5%Z); (9, 1%Z)] A) CDecline); [reflexivity|].
    exists [(1, ByName (s "sub"), CDecline); (2, ByName (s "subtraction"), CSub)], (3, ByName (s "sub"), CDecline), [(1, ByFunc (s "lt"), CLt)].
    split; [reflexivity|]. split; [|split; [reflexivity|]].
    + split; [exists 3; split; exists [], []; (split; [reflexivity|split; [reflexivity|intros ? []]])|]. left. exists (s "sub"). split; [reflexivity|]. exists [s "subtraction"; s "subtract"]. split; [vm_compute; tauto|left; reflexivity].
    + intros q [<-|[]] (_ & B); cbn [fst snd] in *. destruct B as [(? & X & _)|(X & _)]; discriminate X.
Qed.
(** [numpy.subtract] of arrays of integers: with a number, and of two arrays. *)
Definition z_ufunc (name method : str) (args : list (nd Z)) : result (nd Z) :=
  match args with [a; b] => nd_map2 Z.sub a b | _ => Raise TypeError end.
Definition z_array (a b : Z) : array Z := mkarray (mknd [2] (fun ix => match ix with [0] => a | _ => b end)) (Named [s "t"]).
Definition shown (r : result (ares Z)) : option (list nat * list Z) :=
  match r with Ok (RNd x) => Some (shape x, map (fun i => elem x [i]) [0; 1]) | Ok (RArr x) => Some (shape (data x), map (fun i => elem (data x) [i]) [0; 1]) | _ => None end.
Example C81_ufunc_case :
  shown (numpy_call z_ufunc (fun _ => Z.mul) (s "subtract") (s "__call__") [ANum 10%Z; AArr (z_array 1 2)]) = Some ([2], [9; 8]%Z) /\
  shown (numpy_call z_ufunc (fun _ => Z.mul) (s "multiply") (s "__call__") [AArr (z_array 5 6); AArr (z_array 1 2)]) = Some ([2], [5; 12]%Z) /\
  shown (numpy_call z_ufunc (fun _ => Z.mul) (s "subtract") (s "__call__") [AArr (z_array 5 6); AArr (z_array 1 2)]) = Some ([2], [0; 0]%Z).
Proof. repeat split; vm_compute; reflexivity. Qed.
