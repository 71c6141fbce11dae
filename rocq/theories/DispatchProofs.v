(** Lemmas for C81. *)
From Verif Require Import PyBase PyLemmas AliasedModel AliasedSpec AliasedProofs AliasedProperties OperatorsModel OperatorsSpec OperatorsProofs OperatorsProperties ContainerModel Nd ArrayModel DispatchModel DispatchSpec.
From Coq Require Import Lia.

Section Registries.
Context {F : Type}.
Variable mro : nat -> list nat.
Variable has_ops has_funcs : nat -> bool.
Variable same : group -> group -> bool.
Hypothesis S : sound_keys same.
Variable m : opmap.
Hypothesis M : operators same = Ok m.

Lemma owner_spec has c k : owner mro has c = Some k <-> collection_of mro has c k.
Proof using.
  clear. unfold owner, collection_of. generalize (mro c). induction l as [|x l IH]; cbn [find].
  - split; [discriminate|]. intros (l1 & l2 & E & _). destruct l1; discriminate E.
  - destruct (has x) eqn:H.
    + split.
      * intros E. injection E as ->. exists [], l. split; [reflexivity|]. split; [exact H|intros ? []].
      * intros (l1 & l2 & E & K & N). destruct l1 as [|y l1]; [injection E as -> _; reflexivity|]. injection E as -> _. rewrite (N y (or_introl eq_refl)) in H. discriminate H.
    + rewrite IH. split.
      * intros (l1 & l2 & E & K & N). exists (x :: l1), l2. rewrite E. split; [reflexivity|]. split; [exact K|]. intros y [<-|I]; auto.
      * intros (l1 & l2 & E & K & N). destruct l1 as [|y l1]; [injection E as -> _; congruence|]. injection E as -> ->. exists l1, l2. split; [reflexivity|]. split; [exact K|]. intros z I. apply N. right. exact I.
Qed.
Lemma owner_none has c : owner mro has c = None <-> (forall x, In x (mro c) -> has x = false).
Proof using.
  clear. unfold owner. split.
  - intros H x I. apply (find_none _ _ H x I).
  - intros H. destruct (find has (mro c)) as [x|] eqn:E; [|reflexivity]. apply find_some in E as (I & T). rewrite (H x I) in T. discriminate T.
Qed.
Lemma share_spec has c d : share mro has c d <-> exists k, owner mro has c = Some k /\ owner mro has d = Some k.
Proof using. clear. unfold share. split; intros (k & A & B); exists k; [rewrite !owner_spec|rewrite <- !owner_spec]; auto. Qed.

Lemma resolve_asks o op : asks_for o op -> resolve_operation m o false = Ok (Some (Plain op)).
Proof using S M.
  destruct (C80_resolve same S) as (m' & E & A & _). assert (m' = m) by congruence. subst m'.
  intros [(k & -> & D)|(-> & (als & I))]; [apply (A op k false D)|].
  apply (A op op false). exists als. split; [exact I|left; reflexivity].
Qed.
(** all that can happen *)
Lemma resolve_cases o : (exists op, asks_for o op) \/
  ((forall op, ~ asks_for o op) /\ (resolve_operation m o false = Raise TypeError /\ o = NotAnOperation \/
     resolve_operation m o false = Ok None \/ exists l k, resolve_operation m o false = Ok (Some (Tup l)) /\ o = ByName k)).
Proof using S M.
  destruct o as [k|f|n|].
  - destruct (getitem (oents m) k) as [v|e] eqn:G.
    + destruct (operators_ok same S) as (d & E & L). assert (Q : m = {| oents := d; ogroups := Some operator_groups |}) by congruence.
      rewrite Q in G. cbn [oents] in G. rewrite L, default_get in G.
      destruct (assoc operator_groups k) as [ns|] eqn:A.
      * right. split.
        -- intros op [(k' & E' & D)|(E' & _)]; [injection E' as <-|discriminate E']. exact (group_not_name k ns (assoc_groups k ns A) op D).
        -- right. right. injection G as <-. exists (map Plain ns), k. split; [|reflexivity]. unfold resolve_operation. rewrite Q. cbn [oents]. rewrite L, default_get, A. reflexivity.
      * left. destruct v as [op|l].
        -- exists op. left. exists k. split; [reflexivity|].
           assert (T : (exists op', denotes op' k) \/ (forall op', ~ denotes op' k)).
           { destruct (existsb (fun e => str_eqb k (fst e) || in_group k (snd e)) operation_table) eqn:X.
             - left. apply existsb_exists in X as ((op', als) & I & J). exists op', als. split; [exact I|]. cbn [fst snd] in J. apply Bool.orb_true_iff in J as [J|J]; [left; apply str_eqb_eq, J|right; apply in_group_spec, J].
             - right. intros op' (als & I & J). assert (Y : existsb (fun e => str_eqb k (fst e) || in_group k (snd e)) operation_table = true); [|congruence].
               apply existsb_exists. exists (op', als). split; [exact I|]. cbn [fst snd]. apply Bool.orb_true_iff. destruct J as [->|J]; [left; apply str_eqb_refl|right; apply in_group_spec, J]. }
           destruct T as [(op' & D)|D]; [rewrite (named_get op' k D) in G; injection G as <-; exact D|rewrite (named_missing k D) in G; discriminate G].
        -- exfalso.
           assert (T : (exists op', denotes op' k) \/ (forall op', ~ denotes op' k)).
           { destruct (existsb (fun e => str_eqb k (fst e) || in_group k (snd e)) operation_table) eqn:X.
             - left. apply existsb_exists in X as ((op', als) & I & J). exists op', als. split; [exact I|]. cbn [fst snd] in J. apply Bool.orb_true_iff in J as [J|J]; [left; apply str_eqb_eq, J|right; apply in_group_spec, J].
             - right. intros op' (als & I & J). assert (Y : existsb (fun e => str_eqb k (fst e) || in_group k (snd e)) operation_table = true); [|congruence].
               apply existsb_exists. exists (op', als). split; [exact I|]. cbn [fst snd]. apply Bool.orb_true_iff. destruct J as [->|J]; [left; apply str_eqb_refl|right; apply in_group_spec, J]. }
           destruct T as [(op' & D)|D]; [rewrite (named_get op' k D) in G; discriminate G|rewrite (named_missing k D) in G; discriminate G].
    + right. split; [|right; left; unfold resolve_operation; rewrite G; reflexivity].
      intros op [(k' & E' & D)|(E' & _)]; [injection E' as <-|discriminate E']. rewrite (lookup_name same S m op k M D) in G. discriminate G.
  - destruct (is_value m f) eqn:V.
    + left. exists f. right. split; [reflexivity|]. unfold is_value in V. apply existsb_exists in V as (k & I & G).
      destruct (getitem (oents m) k) as [[g|]|] eqn:E; try discriminate G. apply str_eqb_eq in G. subst g.
      destruct (operators_ok same S) as (d & E' & L). assert (Q : m = {| oents := d; ogroups := Some operator_groups |}) by congruence.
      rewrite Q in E. cbn [oents] in E. rewrite L, default_get in E. destruct (assoc operator_groups k) as [ns|]; [discriminate E|].
      assert (T : (exists op', denotes op' k) \/ (forall op', ~ denotes op' k)).
      { destruct (existsb (fun e => str_eqb k (fst e) || in_group k (snd e)) operation_table) eqn:X.
        - left. apply existsb_exists in X as ((op', als) & I' & J). exists op', als. split; [exact I'|]. cbn [fst snd] in J. apply Bool.orb_true_iff in J as [J|J]; [left; apply str_eqb_eq, J|right; apply in_group_spec, J].
        - right. intros op' (als & I' & J). assert (Y : existsb (fun e => str_eqb k (fst e) || in_group k (snd e)) operation_table = true); [|congruence].
          apply existsb_exists. exists (op', als). split; [exact I'|]. cbn [fst snd]. apply Bool.orb_true_iff. destruct J as [->|J]; [left; apply str_eqb_refl|right; apply in_group_spec, J]. }
      destruct T as [(op' & D)|D]; [rewrite (named_get op' k D) in E; injection E as <-|rewrite (named_missing k D) in E; discriminate E].
      destruct D as (als & I' & _). exists als. exact I'.
    + right. split; [|right; left; unfold resolve_operation; rewrite V; reflexivity].
      intros op [(k' & E' & _)|(E' & als & I)]; [discriminate E'|]. injection E' as <-.
      assert (R : resolve_operation m (ByFunc f) false = Ok (Some (Plain f))) by (apply resolve_asks; right; split; [reflexivity|exists als; exact I]).
      unfold resolve_operation in R. rewrite V in R. discriminate R.
  - right. split; [intros op [(k' & E' & _)|(E' & _)]; discriminate E'|right; left; reflexivity].
  - right. split; [intros op [(k' & E' & _)|(E' & _)]; discriminate E'|left; auto].
Qed.
Lemma asks_standard o op : asks_for o op -> in_group op (map fst operation_table) = true.
Proof using.
  intros [(k & _ & als & I & _)|(_ & als & I)]; apply in_group_spec, in_map_iff; exists (op, als); auto.
Qed.
Lemma asks_unique o op op' : asks_for o op -> asks_for o op' -> op = op'.
Proof using S M. intros A B. apply resolve_asks in A. apply resolve_asks in B. congruence. Qed.

Notation implements := (implements (F:=F) mro has_ops has_funcs m).
Notation run := (run (F:=F) mro has_ops has_funcs m).
Lemma implements_op r c o f op : asks_for o op -> implements r c o f =
  match owner mro has_ops c with None => Raise (OtherError "NotImplementedError") | Some k => Ok (set_op r k op f) end.
Proof using S M. intros A. unfold DispatchModel.implements. rewrite (resolve_asks o op A). cbn [bind]. rewrite (asks_standard o op A). reflexivity. Qed.
Lemma implements_other r c o f : (forall op, ~ asks_for o op) -> implements r c o f = implements_func mro has_funcs r c o f.
Proof using S M.
  intros N. destruct (resolve_cases o) as [(op & A)|(_ & [(E & ->)|[E|(l & k & E & ->)]])]; [contradiction (N op A)| | |]; unfold DispatchModel.implements; rewrite E; reflexivity.
Qed.
Lemma run_app r h q : run r (h ++ [q]) = match implements (run r h) (fst (fst q)) (snd (fst q)) (snd q) with Ok r' => r' | Raise _ => run r h end.
Proof using. unfold DispatchModel.run. rewrite fold_left_app. reflexivity. Qed.

Lemma ops_step r q k op : (owner mro has_ops (fst (fst q)) = Some k /\ asks_for (snd (fst q)) op ->
    ops match implements r (fst (fst q)) (snd (fst q)) (snd q) with Ok r' => r' | Raise _ => r end k op = Some (snd q)) /\
  (~ (owner mro has_ops (fst (fst q)) = Some k /\ asks_for (snd (fst q)) op) ->
    ops match implements r (fst (fst q)) (snd (fst q)) (snd q) with Ok r' => r' | Raise _ => r end k op = ops r k op).
Proof using S M.
  destruct q as ((c, o), f). cbn [fst snd]. split.
  - intros (O & A). rewrite (implements_op r c o f op A), O. cbn [ops set_op]. rewrite Nat.eqb_refl, str_eqb_refl. reflexivity.
  - intros N. destruct (resolve_cases o) as [(op' & A)|(H & _)].
    + rewrite (implements_op r c o f op' A). destruct (owner mro has_ops c) as [k'|] eqn:O; [|reflexivity]. cbn [ops set_op].
      destruct (Nat.eqb_spec k k') as [->|X]; [|reflexivity]. destruct (str_eqb_spec op op') as [->|X]; [contradiction N; auto|reflexivity].
    + rewrite (implements_other r c o f H). unfold implements_func. destruct (as_callable o); [|reflexivity]. destruct (owner mro has_funcs c); reflexivity.
Qed.
Lemma funcs_step r q k n : (owner mro has_funcs (fst (fst q)) = Some k /\ snd (fst q) = OtherCallable n ->
    funcs match implements r (fst (fst q)) (snd (fst q)) (snd q) with Ok r' => r' | Raise _ => r end k (Ext n) = Some (snd q)) /\
  (~ (owner mro has_funcs (fst (fst q)) = Some k /\ snd (fst q) = OtherCallable n) ->
    funcs match implements r (fst (fst q)) (snd (fst q)) (snd q) with Ok r' => r' | Raise _ => r end k (Ext n) = funcs r k (Ext n)).
Proof using S M.
  destruct q as ((c, o), f). cbn [fst snd]. split.
  - intros (O & ->). rewrite implements_other; [|intros op [(? & E & _)|(E & _)]; discriminate E]. unfold implements_func. cbn [as_callable]. rewrite O. cbn [funcs set_func callable_eqb].
    rewrite !Nat.eqb_refl. reflexivity.
  - intros N. destruct (resolve_cases o) as [(op' & A)|(H & _)].
    + rewrite (implements_op r c o f op' A). destruct (owner mro has_ops c); reflexivity.
    + rewrite (implements_other r c o f H). unfold implements_func. destruct (as_callable o) as [x|] eqn:X; [|reflexivity].
      destruct (owner mro has_funcs c) as [k'|] eqn:O; [|reflexivity]. cbn [funcs set_func].
      destruct (Nat.eqb_spec k k') as [->|Y]; [|reflexivity]. destruct o; try discriminate X; injection X as <-; cbn [callable_eqb andb]; [reflexivity|].
      destruct (Nat.eqb_spec n n0) as [->|Z]; [contradiction N; auto|reflexivity].
Qed.

(** general: a fold that keeps the last of the matching requests *)
Lemma last_wins (get : registries F -> option F) (P : nat * operation * F -> Prop) :
  (forall q, P q \/ ~ P q) ->
  (forall r q, (P q -> get match implements r (fst (fst q)) (snd (fst q)) (snd q) with Ok r' => r' | Raise _ => r end = Some (snd q)) /\
    (~ P q -> get match implements r (fst (fst q)) (snd (fst q)) (snd q) with Ok r' => r' | Raise _ => r end = get r)) ->
  get no_registrations = None ->
  forall h, (forall f, get (run no_registrations h) = Some f <-> latest P h f) /\ (get (run no_registrations h) = None <-> forall q, In q h -> ~ P q).
Proof using.
  intros D St Z h. induction h as [|q h IH] using rev_ind.
  - cbn [DispatchModel.run fold_left]. unfold DispatchModel.run. cbn [fold_left]. rewrite Z. split.
    + intros f. split; [discriminate|]. intros (h1 & q & h2 & E & _). destruct h1; discriminate E.
    + split; [intros _ q []|reflexivity].
  - rewrite run_app. destruct IH as (A & B). destruct (D q) as [Y|N].
    + rewrite (proj1 (St _ q) Y). split.
      * intros f. split.
        -- intros E. injection E as <-. exists h, q, []. repeat split; auto.
        -- intros (h1 & q' & h2 & E & Pq & <- & L). destruct (exists_last (l := q' :: h2) ltac:(intros X; discriminate X)) as (t & z & T).
           rewrite T in E. rewrite app_assoc in E. apply app_inj_tail in E as (_ & <-).
           destruct t as [|t0 t]; [injection T as <- _; reflexivity|]. exfalso. injection T as <- T. apply (L q); [rewrite T; apply in_or_app; right; left; reflexivity|exact Y].
      * split; [discriminate|]. intros H. assert (I : In q (h ++ [q])) by (apply in_or_app; right; left; reflexivity). exact (False_ind _ (H q I Y)).
    + rewrite (proj2 (St _ q) N). split.
      * intros f. rewrite A. split; intros (h1 & q' & h2 & E & Pq & Ef & L).
        -- exists h1, q', (h2 ++ [q]). rewrite E, <- app_assoc. repeat split; auto. intros z I. apply in_app_or in I as [I|[<-|[]]]; auto.
        -- destruct (exists_last (l := q' :: h2) ltac:(intros X; discriminate X)) as (t & z & T).
           pose proof E as E'. rewrite T, app_assoc in E'. apply app_inj_tail in E' as (E1 & E2). subst z.
           destruct t as [|t0 t]; [injection T as -> _; contradiction|]. injection T as <- T. exists h1, q', t. rewrite E1. repeat split; auto.
           intros z I. apply L. rewrite T. apply in_or_app. left. exact I.
      * rewrite B. split.
        -- intros H z I. apply in_app_or in I as [I|[<-|[]]]; auto.
        -- intros H z I. apply H. apply in_or_app. left. exact I.
Qed.
Lemma asks_dec o op : asks_for o op \/ ~ asks_for o op.
Proof using S M.
  destruct (resolve_cases o) as [(op' & A)|(H & _)]; [|right; apply H]. destruct (str_eqb_spec op op') as [->|X]; [left; exact A|].
  right. intros B. apply X. eapply asks_unique; eassumption.
Qed.
End Registries.
