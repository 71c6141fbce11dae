(** C82: factories of numeric objects. *)
From Verif Require Import PyBase PyLemmas AliasedModel AliasedProofs FactoryModel FactorySpec.

Section Factories.
Context {X V R : Type}.
Variable is_object : X -> bool.
Notation annotated := (annotated X V R).

Lemma refused_spec (p : str -> bool) (kw : list (str * option V)) : refused_keyword p kw = true <-> exists k v, In (k, Some v) kw /\ p k = false.
Proof using.
  clear. induction kw as [|(k, v) kw IH]; cbn [refused_keyword].
  - split; [discriminate|intros (k & v & [] & _)].
  - rewrite Bool.orb_true_iff, IH, Bool.andb_true_iff, Bool.negb_true_iff. split.
    + intros [(A & B)|(k' & v' & I & A)]; [destruct v as [v|]; [|discriminate B]; exists k, v; split; [left; reflexivity|exact A]|exists k', v'; split; [right; exact I|exact A]].
    + intros (k' & v' & [E|I] & A); [injection E as -> ->; left; auto|right; exists k', v'; auto].
Qed.
(** A registered factory refuses exactly to change, on an existing object, an attribute that is not
    declared mutable; a value of None changes nothing.  In all other cases it is the function. *)
Theorem C82_register_guard (f : annotated) mutable : named_result f = true -> guards is_object (body f) mutable (body (wrap_factory is_object f mutable)).
Proof using.
  intros N x kw. unfold changes, wrap_factory. cbn [body]. rewrite N. cbn [negb].
  assert (E : is_object x && refused_keyword (fun k => in_group k mutable) kw = true <-> is_object x = true /\ exists k v, In (k, Some v) kw /\ ~ In k mutable).
  { rewrite Bool.andb_true_iff, refused_spec. split; intros (A & k & v & I & B); (split; [exact A|]); exists k, v; (split; [exact I|]); apply in_group_false; exact B. }
  destruct (is_object x && refused_keyword (fun k => in_group k mutable) kw).
  - split; [reflexivity|]. intros H. contradiction H. apply E. reflexivity.
  - split; [|reflexivity]. intros H. apply E in H. discriminate H.
Qed.
(** [strict] without names refuses every change; with names, exactly changes of these. *)
Theorem C82_strict (f : annotated) : named_result f = true ->
  (exists g, strict is_object [AFun f] = Ok (Ready g) /\ guards is_object (body f) [] (body g)) /\
  (exists d, strict is_object [] = Ok (Decorator d) /\ guards is_object (body f) [] (body (d f))) /\
  (forall ks, ks <> [] -> exists d, strict is_object (map AKey ks) = Ok (Decorator d) /\
     forall x kw, NoDup (map fst kw) ->
       ((is_object x = true /\ exists k v, In (k, Some v) kw /\ In k ks) -> body (d f) x kw = Raise ValueError) /\
       (~ (is_object x = true /\ exists k v, In (k, Some v) kw /\ In k ks) -> body (d f) x kw = body f x kw)).
Proof using.
  intros N.
  assert (G : guards is_object (body f) [] (body (check_metadata is_object f []))).
  { intros x kw. unfold changes, check_metadata. cbn [body]. rewrite N. cbn [negb].
    assert (E : is_object x && refused_keyword (fun _ => false) kw = true <-> is_object x = true /\ exists k v, In (k, Some v) kw /\ ~ In k []).
    { rewrite Bool.andb_true_iff, refused_spec. split; intros (A & k & v & I & B); (split; [exact A|]); exists k, v; (split; [exact I|]); [intros []|reflexivity]. }
    destruct (is_object x && refused_keyword (fun _ => false) kw).
    - split; [reflexivity|]. intros H. contradiction H. apply E. reflexivity.
    - split; [|reflexivity]. intros H. apply E in H. discriminate H. }
  split; [eexists; split; [reflexivity|exact G]|]. split; [eexists; split; [reflexivity|exact G]|].
  intros ks K. assert (A : forallb (@is_key X V R) (map AKey ks) = true) by (clear; induction ks; auto).
  assert (B : keys_of (X:=X) (V:=V) (R:=R) (map AKey ks) = ks) by (clear; induction ks as [|k ks IH]; [reflexivity|]; cbn [map keys_of flat_map app]; f_equal; exact IH).
  unfold strict. rewrite A, B. eexists. split; [reflexivity|]. intros x kw U. unfold check_metadata. cbn [body]. rewrite N. cbn [negb].
  destruct ks as [|k0 ks0]; [contradiction K; reflexivity|]. set (ks := k0 :: ks0) in *.
  assert (GV : forall k, given kw k = true <-> exists v, In (k, Some v) kw).
  { intros k. clear - U. induction kw as [|(h, v) kw IH]; cbn [given]; [split; [discriminate|intros (v & [])]|]. inversion U as [|? ? N1 N2]; subst.
    destruct (str_eqb_spec h k) as [->|D].
    - destruct v as [v|]; [split; [intros _; exists v; left; reflexivity|reflexivity]|]. split; [discriminate|]. intros (w & [E|I]); [discriminate E|]. exfalso. apply N1, in_map_iff. exists (k, Some w). auto.
    - rewrite (IH N2). split; intros (w & I); exists w; [right; exact I|destruct I as [E|I]; [injection E as -> _; contradiction D; reflexivity|exact I]]. }
  assert (E : is_object x && existsb (given kw) ks = true <-> is_object x = true /\ exists k v, In (k, Some v) kw /\ In k ks).
  { rewrite Bool.andb_true_iff, existsb_exists. split.
    - intros (O & k & I & J). apply GV in J as (v & J). split; [exact O|]. exists k, v. auto.
    - intros (O & k & v & I & J). split; [exact O|]. exists k. split; [exact J|]. apply GV. exists v. exact I. }
  destruct (is_object x && existsb (given kw) ks).
  - split; [reflexivity|]. intros H. contradiction H. apply E. reflexivity.
  - split; [|reflexivity]. intros H. apply E in H. discriminate H.
Qed.
(** Any mixture of names and functions is an error. *)
Theorem C82_strict_mixed (l : list (decorator_arg X V R)) : (forall f, l <> [AFun f]) -> (exists a, In a l /\ is_key a = false) ->
  exists e, strict is_object l = Raise e /\ (length l <> 1%nat -> e = TypeError).
Proof using.
  intros N (a & I & K). unfold strict. assert (F : forallb is_key l = false).
  { destruct (forallb is_key l) eqn:Q; [|reflexivity]. rewrite forallb_forall in Q. rewrite (Q a I) in K. discriminate K. }
  rewrite F. destruct l as [|[k|f|] [|b l]]; [destruct I| | | | | |]; try (eexists; split; [reflexivity|intros L; try reflexivity; contradiction L; reflexivity]).
  contradiction (N f); reflexivity.
Qed.

Variable derived numeric : nat -> bool.
Variable construct : nat -> X -> list (str * option V) -> result R.
Notation after := (after (X:=X) (V:=V) (R:=R) is_object derived numeric).
Notation spawn := (spawn (X:=X) (V:=V) (R:=R) derived construct).
Notation makes_for := (makes_for (X:=X) (V:=V) (R:=R) derived numeric).

Lemma after_snoc h q : after (h ++ [q]) = match perform is_object derived numeric (after h) q with Ok r => r | Raise _ => after h end.
Proof using. unfold FactoryModel.after. rewrite fold_left_app. reflexivity. Qed.
Lemma check_twice (f : annotated) x kw : body (wrap_factory is_object (check_metadata is_object f []) []) x kw = body (wrap_factory is_object f []) x kw.
Proof using.
  clear. unfold wrap_factory, check_metadata. cbn [body named_result]. destruct (named_result f); cbn [negb]; [|reflexivity].
  assert (E : forall kw : list (str * option V), refused_keyword (fun k => in_group k []) kw = refused_keyword (fun _ => false) kw) by (induction kw0 as [|(k, v) kw0 IH]; [reflexivity|cbn [refused_keyword]; rewrite IH; reflexivity]).
  rewrite E. destruct (is_object x && refused_keyword (fun _ => false) kw); reflexivity.
Qed.
(** After any history of registrations, [spawn] of a class uses the factory registered last for this
    very class - not for its base or derived classes - with its guard; without one, the class. *)
Theorem C82_spawn h c : derived c = true ->
  (forall h1 q h2 mutable f, h = h1 ++ q :: h2 -> makes_for q c mutable f ->
     (forall q', In q' h2 -> forall ms g, ~ makes_for q' c ms g) -> named_result f = true ->
     guards is_object (body f) mutable (spawn (after h) c)) /\
  ((forall q, In q h -> forall ms f, ~ makes_for q c ms f) -> forall x kw, spawn (after h) c x kw = construct c x kw).
Proof using.
  intros D.
  assert (P : forall h q, (forall ms f, ~ makes_for q c ms f) -> after (h ++ [q]) c = after h c).
  { intros h0 q N. rewrite after_snoc. destruct q as [c' ms f|c' st f]; cbn [perform].
    - unfold register. destruct (derived c') eqn:D'; [|reflexivity]. destruct (Nat.eqb_spec c c') as [->|Z]; [|reflexivity]. contradiction (N ms f). split; [exact D'|left; reflexivity].
    - unfold returns. destruct (numeric c') eqn:U; [|reflexivity]. unfold register. destruct (derived c') eqn:D'; [|reflexivity].
      destruct (Nat.eqb_spec c c') as [->|Z]; [|reflexivity]. contradiction (N [] f). split; [exact D'|right]. split; [exact U|]. split; [reflexivity|exists st; reflexivity]. }
  split.
  - intros h1 q h2 ms f -> Q. revert h2. induction h2 as [|q' h2 IH] using rev_ind; intros L NR.
    + intros x kw. assert (S : spawn (after (h1 ++ [q])) c x kw = body (wrap_factory is_object f ms) x kw).
      { unfold FactoryModel.spawn. rewrite D, after_snoc. destruct Q as (_ & [->|(U & -> & st & ->)]); cbn [perform].
        - unfold register. rewrite D, Nat.eqb_refl. reflexivity.
        - unfold returns. rewrite U. unfold register. rewrite D, Nat.eqb_refl. destruct st; [apply check_twice|reflexivity]. }
      rewrite S. apply C82_register_guard, NR.
    + intros x kw. assert (S : spawn (after (h1 ++ q :: h2 ++ [q'])) c x kw = spawn (after (h1 ++ q :: h2)) c x kw).
      { unfold FactoryModel.spawn. rewrite D. change (h1 ++ q :: h2 ++ [q']) with (h1 ++ (q :: h2) ++ [q']). rewrite app_assoc.
        rewrite (P (h1 ++ q :: h2) q'); [reflexivity|]. intros ms' g. apply L. apply in_or_app. right. left. reflexivity. }
      rewrite S. apply IH; [|exact NR]. intros z I. apply L. apply in_or_app. left. exact I.
  - intros N x kw. unfold FactoryModel.spawn. rewrite D. assert (E : after h c = None); [|rewrite E; reflexivity].
    induction h as [|q h IH] using rev_ind; [reflexivity|]. rewrite P; [apply IH; intros z I; apply N, in_or_app; left; exact I|]. apply N, in_or_app. right. left. reflexivity.
Qed.
(** The base classes have no factory, and none can be registered for them. *)
Theorem C82_base r c (f : annotated) ms x kw : derived c = false ->
  spawn r c x kw = Raise (OtherError "NotImplementedError") /\ register is_object derived r c ms f = Raise AttributeError.
Proof using. intros D. unfold FactoryModel.spawn, register. rewrite D. split; reflexivity. Qed.

(** [returns(cls, strict=False)] is documented to remove the restriction; it does not. *)
Theorem C82_returns_refuted h c (f : annotated) x kw : derived c = true -> numeric c = true ->
  spawn (after (h ++ [ByReturns c false f])) c x kw = spawn (after (h ++ [ByReturns c true f])) c x kw.
Proof using.
  intros D U. unfold FactoryModel.spawn. rewrite D, !after_snoc. cbn [perform]. unfold returns. rewrite U. unfold register. rewrite D, Nat.eqb_refl. symmetry. apply check_twice.
Qed.
(** A factory whose return annotation is not a class cannot be used at all. *)
Theorem C82_annotation_refuted (f : annotated) ms x kw : named_result f = false -> body (wrap_factory is_object f ms) x kw = Raise AttributeError.
Proof using. intros N. unfold wrap_factory. cbn [body]. rewrite N. reflexivity. Qed.
End Factories.
Print Assumptions C82_register_guard.
Print Assumptions C82_strict.
Print Assumptions C82_strict_mixed.
Print Assumptions C82_spawn.
Print Assumptions C82_base.
Print Assumptions C82_returns_refuted.
Print Assumptions C82_annotation_refuted.

(** ** cases: class 1 with a factory that was replaced, class 2 derived from it *)
Definition case_maker (name : Z) : annotated (option Z) Z (list Z) :=
  {| body := fun x kw => Ok (name :: match x with Some z => [z] | None => [] end ++ flat_map (fun e => match snd e with Some v => [v] | None => [] end) kw); named_result := true |}.
Definition case_object (x : option Z) : bool := match x with Some _ => true | None => false end.
Definition case_derived (c : nat) : bool := negb (Nat.eqb c 0).
Definition case_construct (c : nat) (x : option Z) (kw : list (str * option Z)) : result (list Z) := Ok [(-1)%Z].
Definition case_requests : list (request (option Z) Z (list Z)) :=
  [ByRegister 1 [] (case_maker 10); ByRegister 0 [] (case_maker 11); ByReturns 1 false (case_maker 12); ByRegister 3 [s "unit"] (case_maker 13)].
Example C82_spawn_case :
  let r := after case_object case_derived case_derived case_requests in
  spawn case_derived case_construct r 1 (Some 5%Z) [(s "unit", None)] = Ok [12; 5]%Z /\
  spawn case_derived case_construct r 1 (Some 5%Z) [(s "unit", Some 7%Z)] = Raise ValueError /\
  spawn case_derived case_construct r 1 None [(s "unit", Some 7%Z)] = Ok [12; 7]%Z /\
  spawn case_derived case_construct r 2 None [] = Ok [-1]%Z /\
  spawn case_derived case_construct r 3 (Some 5%Z) [(s "unit", Some 7%Z)] = Ok [13; 5; 7]%Z.
Proof. repeat split; vm_compute; reflexivity. Qed.
(** The hypotheses of C82_spawn for class 1: the third request is the last. *)
Example C82_spawn_hypotheses : exists h1 q h2, case_requests = h1 ++ q :: h2 /\ makes_for case_derived case_derived q 1 [] (case_maker 12) /\
  (forall q', In q' h2 -> forall ms g, ~ makes_for case_derived case_derived q' 1 ms g).
Proof.
  exists [ByRegister 1 [] (case_maker 10); ByRegister 0 [] (case_maker 11)], (ByReturns 1 false (case_maker 12)), [ByRegister 3 [s "unit"] (case_maker 13)].
  split; [reflexivity|]. split; [split; [reflexivity|right; split; [reflexivity|split; [reflexivity|exists false; reflexivity]]]|].
  intros q' [<-|[]] ms g (_ & [E|(_ & _ & st & E)]); discriminate E.
Qed.
