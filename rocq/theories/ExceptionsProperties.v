(** * C42: exception wrappers *)
From Verif Require Import PyBase PyLemmas ContainerModel ContainerProofs ContainerProofs2 ExceptionsModel.

(** ** Specification *)
(** The value most recently registered for exactly this class. *)
Fixpoint registered (h : list (cls * pv)) (c : cls) : option pv :=
  match h with
  | [] => None
  | (d, v) :: h' => match registered h' c with Some w => Some w | None => if N.eqb d c then Some v else None end
  end.
(** A wrapper after a history of registrations. *)
Definition after_catching (f : callable) (h : list (cls * pv)) : wrapper :=
  fold_left (fun w dv => catch w (fst dv) (snd dv)) h (new_wrapper f).
(** What the documentation promises for a registered value. *)
Inductive substitutes : pv -> list pv -> list (str * pv) -> pv -> Prop :=
| sub_value v args kwargs : v <> PEllipsis -> substitutes v args kwargs v
| sub_one x : substitutes PEllipsis [x] [] x
| sub_args args : length args <> 1%nat -> substitutes PEllipsis args [] (PTuple args)
| sub_kwargs kwargs : kwargs <> [] -> substitutes PEllipsis [] kwargs (PDict kwargs)
| sub_both args kwargs : args <> [] -> kwargs <> [] -> substitutes PEllipsis args kwargs (PTuple [PTuple args; PDict kwargs]).
Definition subclass_relation (sub : cls -> cls -> bool) : Prop :=
  (forall c, sub c c = true) /\ (forall a b c, sub a b = true -> sub b c = true -> sub a c = true).

Lemma n_decides : forall a b : N, N.eqb a b = true <-> a = b.
Proof. intros; apply N.eqb_eq. Qed.
Lemma after_f f h : w_f (after_catching f h) = f.
Proof.
  unfold after_catching. change f with (w_f (new_wrapper f)) at 2. generalize (new_wrapper f). induction h as [|d h IH]; intros w; [reflexivity|].
  cbn [fold_left]. rewrite IH. reflexivity.
Qed.
Lemma after_lookup f h c : lookup N.eqb (w_subs (after_catching f h)) c = match registered h c with Some v => Ok v | None => Raise KeyError end.
Proof.
  unfold after_catching. assert (G : forall w, lookup N.eqb (w_subs (fold_left (fun w dv => catch w (fst dv) (snd dv)) h w)) c
    = match registered h c with Some v => Ok v | None => lookup N.eqb (w_subs w) c end).
  { induction h as [|[d v] h IH]; intros w; [reflexivity|]. cbn [fold_left registered fst snd]. rewrite IH.
    destruct (registered h c) as [u|]; [reflexivity|]. cbn [catch w_subs]. rewrite (dict_put_get N.eqb n_decides). destruct (N.eqb d c); reflexivity. }
  rewrite G. reflexivity.
Qed.
Lemma after_keys f h c : In c (map fst (w_subs (after_catching f h))) <-> In c (map fst h).
Proof.
  unfold after_catching. assert (G : forall w, In c (map fst (w_subs (fold_left (fun w dv => catch w (fst dv) (snd dv)) h w)))
    <-> In c (map fst (w_subs w)) \/ In c (map fst h)).
  { induction h as [|[d v] h IH]; intros w; cbn [fold_left map fst snd In]; [tauto|]. rewrite IH. cbn [catch w_subs].
    rewrite (dict_put_keys N.eqb n_decides). intuition. }
  rewrite G. simpl. tauto.
Qed.
Lemma registered_in h c : registered h c <> None <-> In c (map fst h).
Proof.
  induction h as [|[d v] h IH]; cbn [registered map fst In]; [tauto|]. destruct (registered h c) eqn:R.
  - split; [|discriminate]. intros _. right. apply IH. discriminate.
  - destruct (N.eqb d c) eqn:E; [apply N.eqb_eq in E; subst; split; [auto|discriminate]|].
    split; [congruence|]. intros [->|I]; [rewrite N.eqb_refl in E; discriminate|]. apply IH in I. congruence.
Qed.
Lemma any_spec (sub : cls -> cls -> bool) f h c : existsb (fun d => sub c d) (map fst (w_subs (after_catching f h))) = true
  <-> exists d, In d (map fst h) /\ sub c d = true.
Proof.
  rewrite existsb_exists. split; intros (d & I & S); exists d; (split; [|exact S]); [apply after_keys in I|apply (after_keys f)]; exact I.
Qed.

Section C42.
Variable sub : cls -> cls -> bool.
Variables exception_class key_error value_error : cls.
Let compute := compute sub key_error value_error.
Let convert := convert sub exception_class.

(** On success the wrapped callable behaves as the original. *)
Theorem C42_success f h args kwargs v : f args kwargs = Returns v -> compute (after_catching f h) args kwargs = Returns v.
Proof using. intros E. unfold compute, ExceptionsModel.compute. rewrite after_f, E. reflexivity. Qed.

(** An exception that no registered class covers passes unchanged. *)
Theorem C42_other_exceptions f h args kwargs e :
  f args kwargs = Raises e -> (forall c, In c (map fst h) -> sub (x_class e) c = false) ->
  compute (after_catching f h) args kwargs = Raises e.
Proof using.
  intros E N. unfold compute, ExceptionsModel.compute. rewrite after_f, E. destruct (existsb _ _) eqn:X; [|reflexivity].
  apply any_spec in X as (d & I & S). rewrite (N d I) in S. discriminate.
Qed.

(** An exception whose own class is registered gives the value registered last,
    or the arguments.  Missing: exceptions of a derived class, and arrays. *)
Theorem C42_registered_partial f h args kwargs e v :
  subclass_relation sub -> f args kwargs = Raises e -> registered h (x_class e) = Some v -> (forall n, v <> PArray n) ->
  exists r, compute (after_catching f h) args kwargs = Returns r /\ substitutes v args kwargs r.
Proof using.
  intros [SR _] E R NA. unfold compute, ExceptionsModel.compute. rewrite after_f, E, after_lookup, R.
  rewrite (proj2 (any_spec sub f h (x_class e))). 2:{ exists (x_class e). split; [|apply SR]. apply registered_in. congruence. }
  unfold ne_ellipsis. destruct v; try (eexists; split; [reflexivity|constructor; discriminate]).
  2:{ exfalso. eapply NA. reflexivity. }
  eexists; split; [reflexivity|]. unfold arguments. destruct kwargs as [|k kwargs].
  - destruct args as [|a [|b args]]; [apply sub_args; discriminate|apply sub_one|apply sub_args; discriminate].
  - destruct args as [|a args]; [apply sub_kwargs; discriminate|apply sub_both; discriminate].
Qed.

(** Refuted: whenever the exception's class derives from a registered class
    without being registered itself, the caller gets a KeyError about the
    wrapper's own table, neither the substitute nor the original exception. *)
Theorem C42_subclasses_refuted f h args kwargs e d :
  f args kwargs = Raises e -> In d (map fst h) -> sub (x_class e) d = true -> registered h (x_class e) = None ->
  compute (after_catching f h) args kwargs = Raises {| x_class := key_error; x_args := [PClass (x_class e)] |}.
Proof using.
  intros E I S R. unfold compute, ExceptionsModel.compute. rewrite after_f, E, after_lookup, R.
  rewrite (proj2 (any_spec sub f h (x_class e))); [reflexivity|]. exists d; auto.
Qed.
(** Refuted: an array registered as the substitute is never returned. *)
Theorem C42_arrays_refuted f h args kwargs e n :
  subclass_relation sub -> f args kwargs = Raises e -> registered h (x_class e) = Some (PArray n) -> n <> 1%nat ->
  compute (after_catching f h) args kwargs = Raises {| x_class := value_error; x_args := [] |}.
Proof using.
  intros [SR _] E R N1. unfold compute, ExceptionsModel.compute. rewrite after_f, E, after_lookup, R.
  rewrite (proj2 (any_spec sub f h (x_class e))). 2:{ exists (x_class e). split; [|apply SR]. apply registered_in. congruence. }
  cbn [ne_ellipsis]. apply Nat.eqb_neq in N1. rewrite N1. reflexivity.
Qed.

(** The decorator: success and unrelated exceptions pass through; an expected
    exception, derived classes included, becomes the replacement exception with
    the message, or the replacement value. *)
Theorem C42_convert expected replacement message f args kwargs :
  (forall v, f args kwargs = Returns v -> convert expected replacement message f args kwargs = Returns v) /\
  (forall e, f args kwargs = Raises e -> sub (x_class e) expected = false -> convert expected replacement message f args kwargs = Raises e) /\
  (forall e c, f args kwargs = Raises e -> sub (x_class e) expected = true -> replacement = PClass c -> sub c exception_class = true ->
     exists a, convert expected replacement message f args kwargs = Raises {| x_class := c; x_args := a |} /\
       (forall m, message = Some m -> m <> [] -> a = [PStr m]) /\ (message = None -> a = [])) /\
  (forall e, f args kwargs = Raises e -> sub (x_class e) expected = true ->
     (forall c, replacement = PClass c -> sub c exception_class = false) ->
     convert expected replacement message f args kwargs = Returns replacement).
Proof using.
  unfold convert, ExceptionsModel.convert, isexception. repeat apply conj.
  - intros v ->. reflexivity.
  - intros e -> ->. reflexivity.
  - intros e c -> -> -> ->. eexists. split; [reflexivity|]. split; [intros [|a m] ->; [congruence|reflexivity]|intros ->; reflexivity].
  - intros e -> -> NC. destruct replacement; try reflexivity. rewrite (NC _ eq_refl). reflexivity.
Qed.
(** Decorating twice: the inner decorator acts first. *)
Theorem C42_convert_nested e1 r1 m1 e2 r2 m2 f args kwargs e :
  f args kwargs = Raises e -> sub (x_class e) e1 = true -> (forall c, r1 = PClass c -> sub c exception_class = false) ->
  convert e2 r2 m2 (convert e1 r1 m1 f) args kwargs = Returns r1.
Proof using.
  intros E S NC. apply (proj1 (C42_convert e2 r2 m2 (convert e1 r1 m1 f) args kwargs)).
  exact (proj2 (proj2 (proj2 (C42_convert e1 r1 m1 f args kwargs))) e E S NC).
Qed.
End C42.
Print Assumptions C42_success.
Print Assumptions C42_other_exceptions.
Print Assumptions C42_registered_partial.
Print Assumptions C42_subclasses_refuted.
Print Assumptions C42_arrays_refuted.
Print Assumptions C42_convert.
Print Assumptions C42_convert_nested.

(** ** A concrete class hierarchy meeting the hypotheses: 0 Exception,
    1 LookupError, 2 KeyError, 3 ValueError, 4 TypeError. *)
Definition demo_sub (a b : cls) : bool := N.eqb a b || N.eqb b 0 || (N.eqb a 2 && N.eqb b 1).
Lemma demo_sub_ok : subclass_relation demo_sub.
Proof.
  split; unfold demo_sub; [intros c; rewrite N.eqb_refl; reflexivity|]. intros a b c.
  rewrite !orb_true_iff, !andb_true_iff, !N.eqb_eq. intros X Y. destruct X as [[X|X]|[X X2]], Y as [[Y|Y]|[Y Y2]]; subst; try tauto; try discriminate.
Qed.
Definition demo_raise (c : cls) : callable := fun _ _ => Raises {| x_class := c; x_args := [] |}.
Definition demo_compute f h := compute demo_sub 2%N 3%N (after_catching f h).
Example C42_registered_example :
  demo_compute (demo_raise 2%N) [(2%N, POther 7%N); (4%N, PNone); (2%N, POther 8%N)] [POther 1%N] [] = Returns (POther 8%N).
Proof. reflexivity. Qed.
Example C42_ellipsis_example :
  demo_compute (demo_raise 2%N) [(2%N, PEllipsis)] [POther 1%N] [] = Returns (POther 1%N) /\
  demo_compute (demo_raise 2%N) [(2%N, PEllipsis)] [POther 1%N; POther 2%N] [] = Returns (PTuple [POther 1%N; POther 2%N]).
Proof. split; reflexivity. Qed.
Example C42_other_example : demo_compute (demo_raise 4%N) [(2%N, PNone)] [] [] = Raises {| x_class := 4%N; x_args := [] |}.
Proof. reflexivity. Qed.
Example C42_subclass_example : demo_compute (demo_raise 2%N) [(1%N, PNone)] [] [] = Raises {| x_class := 2%N; x_args := [PClass 2%N] |}.
Proof. reflexivity. Qed.
Example C42_convert_example :
  convert demo_sub 0%N 1%N (PClass 4%N) (Some (s "bad")) (demo_raise 2%N) [] [] = Raises {| x_class := 4%N; x_args := [PStr (s "bad")] |} /\
  convert demo_sub 0%N 1%N PNone None (demo_raise 2%N) [] [] = Returns PNone /\
  convert demo_sub 0%N 1%N PNone None (demo_raise 4%N) [] [] = Raises {| x_class := 4%N; x_args := [] |}.
Proof. repeat split; reflexivity. Qed.
