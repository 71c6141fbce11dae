(** Property C80: numeric operators by name. *)
From Coq Require Import Permutation.
From Verif Require Import PyBase PyLemmas AliasedModel AliasedSpec AliasedProofs AliasedProperties OperatorsModel OperatorsSpec OperatorsProofs.

(** ** freezing a mapping with key groups
    The frozen mapping answers every request as the mutable one: names, aliases
    and key groups alike. *)
Theorem C80_freeze (V : Type) same (st : mstate V) d : sound_keys same -> freeze same st true = Ok d ->
  forall k, getitem d k = mget st k.
Proof. intros S F. exact (freeze_lookup same S st d F). Qed.
Print Assumptions C80_freeze.
(** It exists unless a key group names an unknown key. *)
Theorem C80_freeze_exists (V : Type) same (st : mstate V) : sound_keys same -> NoDup (map fst (kgroups st)) ->
  (forall e, freeze same st true = Raise e <->
     e = KeyError /\ exists n ks k, In (n, ks) (kgroups st) /\ In k ks /\ ~ In k (flat_keys (ents st))).
Proof.
  intros S N e.
  assert (A : forall n ks, In (n, ks) (kgroups st) -> assoc (kgroups st) n = Some ks).
  { intros n ks. clear - N. revert N. generalize (kgroups st). induction l as [|(h, a) l IH]; intros N I; [destruct I|]. cbn [assoc]. inversion N as [|? ? N1 N2]; subst.
    destruct I as [I|I]; [injection I as -> ->; rewrite str_eqb_refl; reflexivity|].
    destruct (str_eqb_spec h n) as [->|X]; [exfalso; apply N1, in_map_iff; exists (n, ks); auto|apply IH; auto]. }
  assert (B : forall k e', mget st k = Raise e' -> e' = KeyError /\
    ((exists ks x, In (k, ks) (kgroups st) /\ In x ks /\ ~ In x (flat_keys (ents st))) \/ ~ In k (map fst (kgroups st)) /\ ~ In k (flat_keys (ents st)))).
  { intros k e' M. unfold mget in M. destruct (assoc (kgroups st) k) as [ks|] eqn:Q.
    - assert (J : In (k, ks) (kgroups st)).
      { clear - Q. revert Q. generalize (kgroups st). induction l as [|(h, a) l IH]; cbn [assoc]; [discriminate|].
        destruct (str_eqb_spec h k) as [->|X]; intros Q; [injection Q as ->; left; reflexivity|right; auto]. }
      destruct (mapM (getitem (ents st)) ks) as [vs|e2] eqn:M2; cbn [bind] in M; [discriminate M|]. injection M as ->.
      assert (X : e' = KeyError /\ exists x, In x ks /\ ~ In x (flat_keys (ents st))).
      { clear - M2. revert M2. induction ks as [|x ks IH]; cbn [mapM]; intros M; [discriminate M|].
        destruct (getitem (ents st) x) as [v|e3] eqn:G; cbn [bind] in M.
        - destruct (mapM (getitem (ents st)) ks) as [vs|e4] eqn:M3; cbn [bind] in M; [discriminate M|]. injection M as ->.
          destruct (IH eq_refl) as (E & y & I & Y). split; [exact E|]. exists y. split; [right; exact I|exact Y].
        - injection M as ->. apply getitem_error in G as (-> & G). split; [reflexivity|]. exists x. split; [left; reflexivity|exact G]. }
      destruct X as (-> & x & I & X). split; [reflexivity|]. left. exists ks, x. auto.
    - apply getitem_error in M as (-> & G). split; [reflexivity|]. right. split; [apply assoc_none, Q|exact G]. }
  assert (C : forall l e', mapM (valued st) l = Raise e' -> exists k, In k l /\ mget st k = Raise e').
  { induction l as [|x l IH]; cbn [mapM]; intros e' M; [discriminate M|]. unfold valued at 1 in M. destruct (mget st x) as [v|e2] eqn:G; cbn [bind] in M.
    - destruct (mapM (valued st) l) as [r|e3] eqn:M3; cbn [bind] in M; [discriminate M|]. injection M as ->. destruct (IH _ eq_refl) as (k & I & K). exists k. split; [right; exact I|exact K].
    - injection M as ->. exists x. split; [left; reflexivity|exact G]. }
  rewrite frozen_form. split.
  - intros F. assert (Q : exists k, (In k (map fst (kgroups st)) \/ In k (flat_keys (ents st))) /\ mget st k = Raise e).
    { destruct (mapM (valued st) (map fst (kgroups st))) as [g|e1] eqn:G; cbn [bind] in F.
      - destruct (mapM (valued st) (flat_keys (ents st))) as [o|e2] eqn:O; cbn [bind] in F; [discriminate F|]. injection F as ->.
        destruct (C _ _ O) as (k & I & K). exists k. auto.
      - injection F as ->. destruct (C _ _ G) as (k & I & K). exists k. auto. }
    destruct Q as (k & I & K). destruct (B _ _ K) as (-> & [(ks & x & J1 & J2 & J3)|(J1 & J2)]); [|destruct I as [I|I]; contradiction].
    split; [reflexivity|]. exists k, ks, x. auto.
  - intros (-> & n & ks & k & I & J & K).
    assert (M : mget st n = Raise KeyError).
    { unfold mget. rewrite (A _ _ I). assert (M : mapM (getitem (ents st)) ks = Raise KeyError); [|rewrite M; reflexivity].
      clear - J K. induction ks as [|x l IH]; [destruct J|]. cbn [mapM]. destruct (getitem (ents st) x) as [v|e] eqn:G; cbn [bind].
      - destruct J as [->|J]; [assert (getitem (ents st) k = Raise KeyError) by (apply getitem_error; auto); congruence|]. rewrite (IH J). reflexivity.
      - apply getitem_error in G as (-> & _). reflexivity. }
    assert (G : mapM (valued st) (map fst (kgroups st)) = Raise KeyError); [|rewrite G; reflexivity].
    assert (I' : In n (map fst (kgroups st))) by (apply in_map_iff; exists (n, ks); auto).
    assert (B' : forall k e', mget st k = Raise e' -> e' = KeyError) by (intros k' e' Q; exact (proj1 (B k' e' Q))). clear - M I' B'.
    revert I'. generalize (map fst (kgroups st)). induction l as [|x l IH]; intros I; [destruct I|]. cbn [mapM]. unfold valued at 1.
    destruct (mget st x) as [v|e] eqn:G; cbn [bind]; [|rewrite (B' _ _ G); reflexivity].
    destruct I as [->|I]; [congruence|]. rewrite (IH I). reflexivity.
Qed.
Print Assumptions C80_freeze_exists.

Definition frozen_demo : mstate nat :=
  {| ents := [([s "r"; s "radius"], Plain 1); ([s "time"], Plain 2)]; kgroups := [(s "both", [s "time"; s "r"])] |}.
Example C80_freeze_case : exists d, freeze group_eqb frozen_demo true = Ok d /\ getitem d (s "both") = Ok (Tup [Plain 2; Plain 1]) /\
  getitem d (s "radius") = Ok (Plain 1) /\ sound_keys group_eqb /\ NoDup (map fst (kgroups frozen_demo)) /\
  freeze group_eqb {| ents := ents frozen_demo; kgroups := [(s "odd", [s "time"; s "mass"])] |} true = Raise KeyError.
Proof.
  eexists. split; [vm_compute; reflexivity|]. split; [vm_compute; reflexivity|]. split; [vm_compute; reflexivity|]. split; [intros a b; apply group_eqb_spec|].
  split; [repeat constructor; intros []|vm_compute; reflexivity].
Qed.

(** ** the collection of operators *)
Section Collection.
Context {Arg Res : Type}.
Variable apply : str -> list Arg -> result Res.
Variable same : group -> group -> bool.
Hypothesis S : sound_keys same.

Lemma lookup_name m op k : operators same = Ok m -> denotes op k -> getitem (oents m) k = Ok (Plain op).
Proof using S.
  intros E D. destruct (operators_ok same S) as (d & E' & G). rewrite E' in E. injection E as <-. cbn [oents]. rewrite G, default_get.
  destruct (assoc operator_groups k) as [ns|] eqn:A; [exfalso; exact (group_not_name k ns (assoc_groups k ns A) op D)|]. exact (named_get op k D).
Qed.
Lemma lookup_group m g ns : operators same = Ok m -> groups_of g ns -> getitem (oents m) g = Ok (Tup (map Plain ns)) /\ ogroups m = Some operator_groups /\ assoc operator_groups g = Some ns.
Proof using S.
  intros E D. destruct (operators_ok same S) as (d & E' & G). rewrite E' in E. injection E as <-. cbn [oents ogroups]. rewrite G, default_get.
  rewrite (group_unique g ns D). auto.
Qed.
Lemma lookup_unknown m k : operators same = Ok m -> (forall op, ~ denotes op k) -> (forall ns, ~ groups_of k ns) -> getitem (oents m) k = Raise KeyError.
Proof using S.
  intros E D H. destruct (operators_ok same S) as (d & E' & G). rewrite E' in E. injection E as <-. cbn [oents]. rewrite G, default_get.
  destruct (assoc operator_groups k) as [ns|] eqn:A; [exfalso; exact (H ns (assoc_groups k ns A))|]. exact (named_missing k D).
Qed.
Lemma plain_each args ns : mapM (fun f => call_value apply f args) (map Plain ns) = each apply args ns.
Proof using. clear. unfold each. induction ns as [|n ns IH]; [reflexivity|]. cbn [map mapM]. rewrite IH. reflexivity. Qed.

(** Calling by any name or alias of an operator calls that operator; by the
    name of a group, all its operators in order; other names are ValueErrors. *)
Theorem C80_call : exists m, operators same = Ok m /\
  (forall op k args, denotes op k -> call apply m k args = (r <- apply op args ;; Ok (One r))) /\
  (forall g ns args, groups_of g ns -> call apply m g args = (rs <- each apply args ns ;; Ok (Many rs))) /\
  (forall k args, (forall op, ~ denotes op k) -> (forall ns, ~ groups_of k ns) -> call apply m k args = Raise ValueError).
Proof using S.
  destruct (operators_ok same S) as (d & E & _). eexists. split; [exact E|]. split; [|split].
  - intros op k args D. unfold call. rewrite (lookup_name _ op k E D). reflexivity.
  - intros g ns args G. unfold call. rewrite (proj1 (lookup_group _ g ns E G)). rewrite plain_each. reflexivity.
  - intros k args D H. unfold call. rewrite (lookup_unknown _ k E D H). reflexivity.
Qed.

Lemma dict_items_nodup {A} (l : list (str * A)) : NoDup (map fst l) -> dict_items l = l.
Proof using.
  clear. assert (P : forall (l : list (str * A)) k a, ~ In k (map fst l) -> assoc_set l k a = l ++ [(k, a)]).
  { induction l0 as [|(h, b) l0 IH]; intros k a N; [reflexivity|]. cbn [assoc_set app]. cbn [map fst In] in N.
    rewrite (proj2 (str_eqb_neq h k)) by (intros ->; apply N; left; reflexivity). rewrite IH by tauto. reflexivity. }
  unfold dict_items. intros N. assert (G : forall acc, NoDup (map fst (acc ++ l)) -> fold_left (fun d kv => assoc_set d (fst kv) (snd kv)) l acc = acc ++ l); [|exact (G [] N)].
  clear N. induction l as [|(k, a) l IH]; intros acc N; [rewrite app_nil_r; reflexivity|]. cbn [fold_left fst snd].
  assert (K : ~ In k (map fst acc)).
  { rewrite map_app in N. cbn [map fst] in N. apply NoDup_remove_2 in N. intros I. apply N, in_app_iff. left. exact I. }
  rewrite (P _ _ _ K). rewrite IH; rewrite <- app_assoc; [reflexivity|exact N].
Qed.
Lemma mapM_fst {A B} (f : A -> result (str * B)) (h : A -> str) l r : (forall x y, f x = Ok y -> fst y = h x) -> mapM f l = Ok r -> map fst r = map h l.
Proof using.
  clear. intros H. revert r. induction l as [|x l IH]; cbn [mapM]; intros r E; [injection E as <-; reflexivity|].
  destruct (f x) as [y|e] eqn:F; cbn [bind] in E; [|discriminate E]. destruct (mapM f l) as [r'|e]; cbn [bind] in E; [|discriminate E]. injection E as <-.
  cbn [map]. rewrite (H _ _ F), (IH _ eq_refl). reflexivity.
Qed.
Lemma bind_dict ns (f : str -> result (str * outcome Res)) : NoDup ns -> (forall n y, f n = Ok y -> fst y = n) ->
  (rs <- mapM f ns ;; Ok (dict_items rs)) = mapM f ns.
Proof using.
  clear. intros N H. destruct (mapM f ns) as [rs|e] eqn:E; [|reflexivity]. cbn [bind]. rewrite dict_items_nodup; [reflexivity|].
  rewrite (mapM_fst f (fun n => n) ns rs H E), map_id. exact N.
Qed.
Lemma combine_map {B} (ns : list str) (f : str -> B) : combine ns (map f ns) = map (fun n => (n, f n)) ns.
Proof using. clear. induction ns as [|n ns IH]; [reflexivity|]. cbn [map combine]. rewrite IH. reflexivity. Qed.
Lemma mapM_map {A B C} (f : B -> result C) (h : A -> B) l : mapM f (map h l) = mapM (fun x => f (h x)) l.
Proof using. clear. induction l as [|x l IH]; [reflexivity|]. cbn [map mapM]. rewrite IH. reflexivity. Qed.
Lemma mapM_ext {A B} (f g : A -> result B) l : (forall x, In x l -> f x = g x) -> mapM f l = mapM g l.
Proof using.
  clear. induction l as [|x l IH]; intros H; [reflexivity|]. cbn [mapM]. rewrite (H x (or_introl eq_refl)), IH; [reflexivity|]. intros y I. apply H. right. exact I.
Qed.

(** Calling a group with other than one argument: one entry per operator, in
    order; operators of one argument are applied to each argument.  With one
    argument, only groups of [abs], [pos] and [neg] are accepted. *)
Theorem C80_callgroup : exists m, operators same = Ok m /\
  (forall g ns args, groups_of g ns -> length args <> 1 -> callgroup apply m g args = mapM (entry apply args) ns) /\
  (forall g ns a, groups_of g ns -> incl ns [s "abs"; s "pos"; s "neg"] ->
     callgroup apply m g [a] = mapM (fun n => r <- apply n [a] ;; Ok (n, One r)) ns) /\
  (forall g ns a, groups_of g ns -> ~ incl ns [s "abs"; s "pos"; s "neg"] -> callgroup apply m g [a] = Raise ValueError) /\
  (forall g args, (forall ns, ~ groups_of g ns) -> callgroup apply m g args = Raise KeyError).
Proof using S.
  destruct (operators_ok same S) as (d & E & _). eexists. split; [exact E|].
  assert (U : assoc operator_groups (s "unary") = Some [s "abs"; s "pos"; s "neg"]) by reflexivity.
  split; [|split; [|split]].
  - intros g ns args G L. destruct (lookup_group _ g ns E G) as (A & B & C). unfold callgroup. rewrite B, C. cbn [ogroups oents] in *. rewrite A. cbn [bind].
    assert (X : forall nl, match args with [a] => nl | _ => mapM (entry apply args) ns end = mapM (entry apply args) ns).
    { intros nl. destruct args as [|a [|b args]]; [reflexivity|contradiction L; reflexivity|reflexivity]. }
    rewrite combine_map.
    assert (Y : (rs <- mapM (fun nf : str * pyval str => r <- compute apply operator_groups (fst nf) (snd nf) args ;; Ok (fst nf, r)) (map (fun n => (n, Plain n)) ns) ;; Ok (dict_items rs)) = mapM (entry apply args) ns).
    { rewrite mapM_map. cbn [fst snd].
      rewrite (mapM_ext _ (entry apply args)).
      - apply bind_dict; [exact (proj1 (group_nodup g ns G))|]. intros n y. unfold entry. destruct (in_group n _).
        + destruct (mapM (fun a : Arg => apply n [a]) args); cbn [bind]; intros Q; [injection Q as <-; reflexivity|discriminate Q].
        + destruct (apply n args); cbn [bind]; intros Q; [injection Q as <-; reflexivity|discriminate Q].
      - intros n _. unfold compute, entry. rewrite U. destruct (in_group n _); cbn [call_value].
        + destruct (mapM (fun a : Arg => apply n [a]) args); reflexivity.
        + destruct (apply n args); reflexivity. }
    destruct args as [|a [|b args]]; [exact Y|contradiction L; reflexivity|exact Y].
  - intros g ns a G I. destruct (lookup_group _ g ns E G) as (A & B & C). unfold callgroup. rewrite B, C. cbn [ogroups oents] in *. rewrite A. cbn [bind].
    assert (X : forall l, incl l [s "abs"; s "pos"; s "neg"] -> all_unary operator_groups l = Ok tt).
    { clear - U. induction l as [|n l IH]; intros H; [reflexivity|]. cbn [all_unary]. rewrite U. rewrite (proj2 (in_group_spec n _)) by (apply H; left; reflexivity).
      apply IH. intros x J. apply H. right. exact J. }
    rewrite (X ns I). cbn [bind]. rewrite combine_map, mapM_map. cbn [fst snd call_value]. apply bind_dict; [exact (proj1 (group_nodup g ns G))|].
    intros n y Q. destruct (apply n [a]); cbn [bind] in Q; [injection Q as <-; reflexivity|discriminate Q].
  - intros g ns a G I. destruct (lookup_group _ g ns E G) as (A & B & C). unfold callgroup. rewrite B, C. cbn [ogroups oents] in *. rewrite A. cbn [bind].
    assert (X : all_unary operator_groups ns = Raise ValueError); [|rewrite X; reflexivity]. clear - U I. induction ns as [|n l IH]; [contradiction I; intros x []|].
    cbn [all_unary]. rewrite U. destruct (in_group n _) eqn:K; [|reflexivity]. apply IH. intros H. apply I. intros x [<-|J]; [apply in_group_spec, K|apply H, J].
  - intros g args H. unfold callgroup. cbn [ogroups]. destruct (assoc operator_groups g) as [ns|] eqn:A; [|reflexivity]. exfalso. exact (H ns (assoc_groups g ns A)).
Qed.

(** [generate] with names: for every order of the set, it yields one value per
    distinct key among the names and the members of the named groups that is not
    excluded. *)
Theorem C80_generate : exists m, operators same = Ok m /\
  forall order, (forall l, Permutation (order l) l) ->
  forall names excluded, names <> [] ->
  let keys := concat (map (fun n => match assoc operator_groups n with Some ks => ks | None => [n] end) names) in
  (forall k, In k keys -> exists op, denotes op k) ->
  exists ks ys, NoDup ks /\ (forall k, In k ks <-> In k keys /\ ~ In k excluded) /\
    generate order m names excluded = Ok (map Plain ys) /\ Forall2 denotes ys ks.
Proof using S.
  destruct (operators_ok same S) as (d & E & _). eexists. split; [exact E|]. intros order P names excluded N keys K.
  assert (M : forall l, (forall k, In k l -> exists op, denotes op k) ->
     exists ys, mapM (getitem d) l = Ok (map Plain ys) /\ Forall2 denotes ys l).
  { induction l as [|x l IH]; intros H; [exists []; split; [reflexivity|constructor]|].
    destruct (H x (or_introl eq_refl)) as (op & D). destruct (IH (fun k I => H k (or_intror I))) as (ys & E1 & E2). exists (op :: ys). cbn [mapM].
    pose proof (lookup_name _ op x E D) as L. cbn [oents] in L. rewrite L, E1. cbn [bind map]. split; [reflexivity|]. constructor; assumption. }
  assert (GE : generate order {| oents := d; ogroups := Some operator_groups |} names excluded =
     mapM (getitem d) (order (filter (fun k => negb (in_group k excluded)) (dedup keys)))) by (unfold keys; destruct names; [contradiction N|]; reflexivity).
  set (ks := order (filter (fun k => negb (in_group k excluded)) (dedup keys))) in *.
  assert (I : forall k, In k ks <-> In k keys /\ ~ In k excluded).
  { intros k. rewrite <- (dedup_in k keys). split.
    - intros H. apply (Permutation_in _ (P _)) in H. apply filter_In in H as (H1 & H2). split; [exact H1|]. apply Bool.negb_true_iff, in_group_false in H2. exact H2.
    - intros (H1 & H2). apply (Permutation_in _ (Permutation_sym (P _))). apply filter_In. split; [exact H1|]. apply Bool.negb_true_iff, in_group_false. exact H2. }
  destruct (M ks (fun k H => K k (proj1 (proj1 (I k) H)))) as (ys & E1 & E2). exists ks, ys. split; [|split; [exact I|split; [rewrite GE; exact E1|exact E2]]].
  apply (Permutation_NoDup (Permutation_sym (P _))). apply NoDup_filter, dedup_nodup.
Qed.

(** [resolve]: a name or alias, or the operator itself, gives the operator; other callables and
    unknown names give nothing, or a ValueError when strict. *)
Theorem C80_resolve : exists m, operators same = Ok m /\
  (forall op k strict, denotes op k -> resolve_operation m (ByName k) strict = Ok (Some (Plain op)) /\
     resolve_operation m (ByFunc op) strict = Ok (Some (Plain op))) /\
  (forall k, (forall op, ~ denotes op k) -> (forall ns, ~ groups_of k ns) ->
     resolve_operation m (ByName k) false = Ok None /\ resolve_operation m (ByName k) true = Raise ValueError) /\
  (forall n, resolve_operation m (OtherCallable n) false = Ok None /\ resolve_operation m (OtherCallable n) true = Raise ValueError) /\
  (forall strict, resolve_operation m NotAnOperation strict = Raise TypeError).
Proof using S.
  destruct (operators_ok same S) as (d & E & _). eexists. split; [exact E|]. split; [|split; [|split]].
  - intros op k strict D. unfold resolve_operation. rewrite (lookup_name _ op k E D). split; [reflexivity|].
    assert (V : is_value {| oents := d; ogroups := Some operator_groups |} op = true); [|rewrite V; reflexivity].
    pose proof (lookup_name _ op k E D) as L. cbn [oents] in L. unfold is_value. cbn [oents]. apply existsb_exists. exists k. rewrite L. split; [|apply str_eqb_refl].
    destruct (in_dec str_eq_dec k (flat_keys d)) as [Y|X]; [exact Y|]. exfalso. assert (getitem d k = Raise KeyError) by (apply getitem_error; auto). congruence.
  - intros k D H. unfold resolve_operation. rewrite (lookup_unknown _ k E D H). auto.
  - intros n. split; reflexivity.
  - reflexivity.
Qed.
End Collection.
Print Assumptions C80_call.
Print Assumptions C80_callgroup.
Print Assumptions C80_generate.
Print Assumptions C80_resolve.

(** ** special methods
    Every special method of an operator with two operands calls the operator
    itself: the reflected one with the operands exchanged, the others as given;
    the ones of an operator with one operand call it on the object. *)
Definition given {A} (o : option A) : list A := match o with Some a => [a] | None => [] end.
Theorem C80_methods (Arg Res : Type) (apply : str -> list Arg -> result Res) op a b key :
  (In op two_operands -> key = None \/ In op optional_argument -> call_dunder apply (forward op) a (Some b) key = apply op (a :: b :: given key)) /\
  (In op arithmetic -> key = None \/ In op optional_argument ->
     call_dunder apply (inplace op) a (Some b) key = apply op (a :: b :: given key) /\
     call_dunder apply (reflected op) a (Some b) key = apply op (b :: a :: given key)) /\
  (In op (map fst operation_table) -> ~ In op two_operands -> key = None \/ In op optional_argument ->
     call_dunder apply (forward op) a None key = apply op (a :: given key)).
Proof.
  split; [|split].
  - intros I K. unfold two_operands in I. cbn in I. unfold optional_argument in K.
    repeat (destruct I as [<-|I]; [first [destruct key; reflexivity|destruct K as [->|K]; [reflexivity|exfalso; vm_compute in K; intuition discriminate]]|]). destruct I.
  - intros I K. unfold arithmetic in I. cbn in I. unfold optional_argument in K.
    repeat (destruct I as [<-|I]; [first [destruct key; split; reflexivity|destruct K as [->|K]; [split; reflexivity|exfalso; vm_compute in K; intuition discriminate]]|]). destruct I.
  - intros I M K. unfold operation_table in I. cbn [map fst In] in I. unfold optional_argument in K.
    repeat (destruct I as [<-|I]; [first [destruct key; reflexivity|destruct K as [->|K]; [reflexivity|exfalso; vm_compute in K; intuition discriminate]|exfalso; apply M; vm_compute; tauto]|]). destruct I.
Qed.
(** Every other use of a special method is an error: an argument missing or superfluous, or a modulus
    for an operator without one. *)
Theorem C80_methods_misused (Arg Res : Type) (apply : str -> list Arg -> result Res) op a b m o :
  (In op two_operands -> call_dunder apply (forward op) a None o = Raise TypeError) /\
  (In op (map fst operation_table) -> ~ In op two_operands -> call_dunder apply (forward op) a (Some b) o = Raise TypeError) /\
  (In op (map fst operation_table) -> ~ In op optional_argument -> call_dunder apply (forward op) a o (Some m) = Raise TypeError) /\
  (In op arithmetic -> ~ In op optional_argument -> call_dunder apply (inplace op) a o (Some m) = Raise TypeError /\ call_dunder apply (reflected op) a o (Some m) = Raise TypeError).
Proof.
  split; [|split; [|split]].
  - intros I. unfold two_operands in I. cbn in I. repeat (destruct I as [<-|I]; [reflexivity|]). destruct I.
  - intros I M. unfold operation_table in I. cbn [map fst In] in I.
    repeat (destruct I as [<-|I]; [first [reflexivity|exfalso; apply M; vm_compute; tauto]|]). destruct I.
  - intros I M. unfold operation_table in I. cbn [map fst In] in I.
    repeat (destruct I as [<-|I]; [first [destruct o; reflexivity|exfalso; apply M; vm_compute; tauto]|]). destruct I.
  - intros I M. unfold arithmetic in I. cbn in I.
    repeat (destruct I as [<-|I]; [first [destruct o; split; reflexivity|exfalso; apply M; vm_compute; tauto]|]). destruct I.
Qed.
(** The groups are these, each with these operators in this order. *)
Theorem C80_groups g ns : groups_of g ns <-> exists ks, In (g, ks) kinds_of_group /\ ns = concat (map of_kind ks).
Proof.
  assert (E : operator_groups = map (fun gk => (fst gk, concat (map of_kind (snd gk)))) kinds_of_group) by reflexivity.
  unfold groups_of. rewrite E, in_map_iff. split.
  - intros ((g', ks) & Q & I). cbn [fst snd] in Q. injection Q as -> <-. eauto.
  - intros (ks & I & ->). exists (g, ks). auto.
Qed.
(** Every listed operator has the special method of its name, the arithmetic ones also the reflected
    and the in-place method, and no operator has others. *)
Theorem C80_method_names : map fst method_table = map fst operation_table /\
  forall op ds, In (op, ds) method_table -> (In op arithmetic -> ds = [forward op; reflected op; inplace op]) /\ (~ In op arithmetic -> ds = [forward op]).
Proof.
  split; [reflexivity|]. intros op ds I. unfold method_table in I. cbn [In] in I.
  repeat (destruct I as [I|I]; [injection I as <- <-; split; intros H; first [reflexivity|exfalso; vm_compute in H; intuition discriminate]|]). destruct I.
Qed.
Print Assumptions C80_method_names.
Print Assumptions C80_methods_misused.
Print Assumptions C80_groups.
Print Assumptions C80_methods.

(** ** what does not hold *)
Section Refuted.
Variable same : group -> group -> bool.
Hypothesis S : sound_keys same.
(** Without names, [generate] ignores the exclusions and also yields the
    tuples of the groups, which are not operators. *)
Theorem C80_generate_all_refuted order : exists m ys, operators same = Ok m /\ generate order m [] [s "add"] = Ok ys /\
  In (Plain (s "add")) ys /\ In (Tup [Plain (s "add"); Plain (s "sub")]) ys.
Proof using S.
  destruct (operators_ok same S) as (d & E & _). exists {| oents := d; ogroups := Some operator_groups |}.
  assert (M : forall l, (forall k, In k l -> exists v, getitem d k = Ok v) ->
     exists ys, mapM (getitem d) l = Ok ys /\ forall k v, In k l -> getitem d k = Ok v -> In v ys).
  { induction l as [|x l IH]; intros H; [exists []; split; [reflexivity|intros ? ? []]|].
    destruct (H x (or_introl eq_refl)) as (v & G). destruct (IH (fun k I => H k (or_intror I))) as (ys & E1 & E2). exists (v :: ys). cbn [mapM]. rewrite G, E1. split; [reflexivity|].
    intros k w [<-|I] W; [left; congruence|right; exact (E2 k w I W)]. }
  assert (I : forall k v, getitem d k = Ok v -> In k (flat_keys d)).
  { intros k v G. destruct (in_dec str_eq_dec k (flat_keys d)) as [Y|N]; [exact Y|]. assert (getitem d k = Raise KeyError) by (apply getitem_error; auto). congruence. }
  destruct (M (flat_keys d)) as (ys & E1 & E2).
  { intros k J. destruct (getitem d k) as [v|e] eqn:G; [exists v; reflexivity|]. apply getitem_error in G as (_ & G). contradiction. }
  exists ys. split; [exact E|]. split; [exact E1|].
  assert (A : denotes (s "add") (s "add")) by (exists [s "addition"]; split; [vm_compute; tauto|left; reflexivity]).
  pose proof (lookup_name same S _ _ _ E A) as L. cbn [oents] in L. split; [exact (E2 _ _ (I _ _ L) L)|].
  assert (B : groups_of (s "additive") [s "add"; s "sub"]) by (vm_compute; tauto).
  pose proof (proj1 (lookup_group same S _ _ _ E B)) as L2. cbn [oents map] in L2. exact (E2 _ _ (I _ _ L2) L2).
Qed.
(** Excluding an alias of an operator, or a group that contains it, does not
    exclude it. *)
Theorem C80_generate_excluded_refuted : exists m, operators same = Ok m /\
  generate (fun l => l) m [s "additive"] [s "addition"; s "additive"] = Ok [Plain (s "add"); Plain (s "sub")].
Proof using S.
  destruct (operators_ok same S) as (d & E & _). eexists. split; [exact E|]. unfold generate. cbn [ogroups oents].
  replace (filter _ _) with [s "add"; s "sub"] by (vm_compute; reflexivity). cbn [mapM].
  assert (A : denotes (s "add") (s "add")) by (exists [s "addition"]; split; [vm_compute; tauto|left; reflexivity]).
  assert (B : denotes (s "sub") (s "sub")) by (exists [s "subtraction"; s "subtract"]; split; [vm_compute; tauto|left; reflexivity]).
  pose proof (lookup_name same S _ _ _ E A) as L. pose proof (lookup_name same S _ _ _ E B) as L'. cbn [oents] in L, L'. rewrite L, L'. reflexivity.
Qed.
(** The groups of conversions and of rounding functions take one argument, but
    calling them with one is an error. *)
Theorem C80_callgroup_single_refuted (Arg Res : Type) (apply : str -> list Arg -> result Res) a : exists m, operators same = Ok m /\
  callgroup apply m (s "cast") [a] = Raise ValueError /\ callgroup apply m (s "math") [a] = Raise ValueError.
Proof using S.
  destruct (C80_callgroup apply same S) as (m & E & _ & _ & H & _). exists m. split; [exact E|]. split.
  - apply (H _ [s "int"; s "float"; s "complex"]); [vm_compute; tauto|]. intros I. specialize (I (s "int") (or_introl eq_refl)). vm_compute in I. intuition discriminate.
  - apply (H _ [s "floor"; s "ceil"; s "trunc"]); [vm_compute; tauto|]. intros I. specialize (I (s "floor") (or_introl eq_refl)). vm_compute in I. intuition discriminate.
Qed.
(** The name of a group resolves to a tuple, also when strict. *)
Theorem C80_resolve_group_refuted : exists m, operators same = Ok m /\
  resolve_operation m (ByName (s "additive")) true = Ok (Some (Tup [Plain (s "add"); Plain (s "sub")])).
Proof using S.
  destruct (operators_ok same S) as (d & E & _). eexists. split; [exact E|]. unfold resolve_operation.
  assert (B : groups_of (s "additive") [s "add"; s "sub"]) by (vm_compute; tauto). rewrite (proj1 (lookup_group same S _ _ _ E B)). reflexivity.
Qed.
(** A collection made from a plain mapping has no groups: every group call fails. *)
Theorem C80_callgroup_plain_refuted (Arg Res : Type) (apply : str -> list Arg -> result Res) d k args :
  callgroup apply (from_plain d) k args = Raise AttributeError.
Proof using. clear. reflexivity. Qed.
End Refuted.
Print Assumptions C80_generate_all_refuted.
Print Assumptions C80_generate_excluded_refuted.
Print Assumptions C80_callgroup_single_refuted.
Print Assumptions C80_resolve_group_refuted.
Print Assumptions C80_callgroup_plain_refuted.

(** ** cases: integer arithmetic *)
Definition z_apply (f : str) (args : list Z) : result Z :=
  match args with
  | [a; b] => if str_eqb f (s "add") then Ok (a + b)%Z else if str_eqb f (s "sub") then Ok (a - b)%Z else Raise TypeError
  | [a] => if str_eqb f (s "neg") then Ok (- a)%Z else if str_eqb f (s "abs") then Ok (Z.abs a) else if str_eqb f (s "pos") then Ok a else Raise TypeError
  | _ => Raise TypeError
  end.
Example C80_call_case : exists m, operators group_eqb = Ok m /\ call z_apply m (s "addition") [5; 2]%Z = Ok (One 7%Z) /\
  call z_apply m (s "additive") [5; 2]%Z = Ok (Many [7; 3]%Z) /\ denotes (s "add") (s "addition").
Proof.
  destruct (C80_call z_apply group_eqb (fun a b => proj1 (group_eqb_spec a b))) as (m & E & A & B & _). exists m. split; [exact E|].
  assert (D : denotes (s "add") (s "addition")) by (exists [s "addition"]; split; [vm_compute; tauto|right; left; reflexivity]).
  split; [rewrite (A _ _ _ D); reflexivity|]. split; [|exact D]. rewrite (B (s "additive") [s "add"; s "sub"]); [reflexivity|vm_compute; tauto].
Qed.
Example C80_callgroup_case : exists m, operators group_eqb = Ok m /\
  callgroup z_apply m (s "unary") [2; -4]%Z = Ok [(s "abs", Many [2; 4]%Z); (s "pos", Many [2; -4]%Z); (s "neg", Many [-2; 4]%Z)] /\
  callgroup z_apply m (s "additive") [2; -4]%Z = Ok [(s "add", One (-2)%Z); (s "sub", One 6%Z)] /\
  callgroup z_apply m (s "unary") [-4]%Z = Ok [(s "abs", One 4%Z); (s "pos", One (-4)%Z); (s "neg", One 4%Z)].
Proof.
  destruct (C80_callgroup z_apply group_eqb (fun a b => proj1 (group_eqb_spec a b))) as (m & E & A & B & _). exists m. split; [exact E|].
  split; [|split].
  - rewrite (A (s "unary") [s "abs"; s "pos"; s "neg"]); [reflexivity|vm_compute; tauto|discriminate].
  - rewrite (A (s "additive") [s "add"; s "sub"]); [reflexivity|vm_compute; tauto|discriminate].
  - rewrite (B (s "unary") [s "abs"; s "pos"; s "neg"]); [reflexivity|vm_compute; tauto|intros x I; exact I].
Qed.
Example C80_methods_case : call_dunder z_apply (s "__rsub__") 5%Z (Some 2%Z) None = Ok (-3)%Z /\ call_dunder z_apply (s "__isub__") 5%Z (Some 2%Z) None = Ok 3%Z /\
  call_dunder z_apply (s "__neg__") 5%Z None None = Ok (-5)%Z /\ call_dunder z_apply (s "__neg__") 5%Z (Some 2%Z) None = Raise TypeError.
Proof. repeat split; vm_compute; reflexivity. Qed.
(** A choice of operators by group, by name and by alias, with one excluded. *)
Example C80_generate_case : exists m ks ys, operators group_eqb = Ok m /\
  generate (fun l => l) m [s "additive"; s "neg"; s "addition"] [s "sub"] = Ok (map Plain ys) /\ Forall2 denotes ys ks /\
  (forall k, In k ks <-> In k [s "add"; s "sub"; s "neg"; s "addition"] /\ ~ In k [s "sub"]).
Proof.
  destruct (C80_generate group_eqb (fun a b => proj1 (group_eqb_spec a b))) as (m & E & G).
  destruct (G (fun l => l) (fun l => Permutation_refl l) [s "additive"; s "neg"; s "addition"] [s "sub"]) as (ks & ys & _ & A & B & C); [discriminate| |exists m, ks, ys; auto].
  intros k [<-|[<-|[<-|[<-|[]]]]].
  - exists (s "add"), [s "addition"]. split; [vm_compute; tauto|left; reflexivity].
  - exists (s "sub"), [s "subtraction"; s "subtract"]. split; [vm_compute; tauto|left; reflexivity].
  - exists (s "neg"), [s "negative"]. split; [vm_compute; tauto|left; reflexivity].
  - exists (s "add"), [s "addition"]. split; [vm_compute; tauto|right; left; reflexivity].
Qed.
Example C80_resolve_case : exists m, operators group_eqb = Ok m /\
  resolve_operation m (ByName (s "subtract")) true = Ok (Some (Plain (s "sub"))) /\ resolve_operation m (ByName (s "sqrt")) true = Raise ValueError.
Proof.
  destruct (C80_resolve group_eqb (fun a b => proj1 (group_eqb_spec a b))) as (m & E & A & B & _). exists m. split; [exact E|]. split.
  - apply (A (s "sub") (s "subtract") true). exists [s "subtraction"; s "subtract"]. split; [vm_compute; tauto|right; right; left; reflexivity].
  - apply B; [intros op (als & I & J)|intros ns I; vm_compute in I; intuition discriminate].
    unfold operation_table in I; cbn [In] in I.
    repeat (destruct I as [I|I]; [injection I as <- <-; vm_compute in J; intuition discriminate|]). exact I.
Qed.
