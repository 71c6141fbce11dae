(** Properties C05-C08: aliased mappings, alias groups and name maps. *)
From Verif Require Import PyBase PyLemmas AliasedModel AliasedSpec AliasedProofs AliasedNames.

(** ** C05: lookups in an aliased mapping
    [same] stands for the unknown outcome of comparing two [Group] keys in a
    [dict]: any function that never identifies groups with different members. *)
Definition sound_keys (same : group -> group -> bool) : Prop :=
  forall a b, same a b = true -> same_names a b.

(** With pairwise disjoint keys, every alias of a key gives the key's value. *)
Theorem C05_alias_gives_value (V : Type) same (m : list (ukey * V)) :
  sound_keys same ->
  disjoint_groups (map (fun kv => ugroup (fst kv)) m) -> Forall (fun kv => ugroup (fst kv) <> []) m ->
  forall key v a, In (key, v) m -> In a (ugroup key) -> getitem (build_from_aliases same m) a = Ok v.
Proof.
  intros S D F key v a H Ha. rewrite (build_disjoint same S m D F).
  apply (getitem_disjoint _) with (g := ugroup key); [|apply in_map_iff; exists (key, v); auto|exact Ha].
  unfold flat_keys. rewrite map_map. exact D.
Qed.
Print Assumptions C05_alias_gives_value.
(** In any mapping, stored groups that overlap included: a lookup gives the value
    of the last stored group with that alias; all other names raise. *)
Theorem C05_last_group_wins (V : Type) (d : entries V) k v :
  getitem d k = Ok v <->
  exists n g, nth_error d n = Some (g, v) /\ In k g /\
    forall m h w, n < m -> nth_error d m = Some (h, w) -> ~ In k h.
Proof. exact (getitem_last d k v). Qed.
Print Assumptions C05_last_group_wins.
(** For any input, exactly the names of the input are found; everything else
    raises KeyError, and membership agrees with lookup. *)
Theorem C05_exactly_the_input_names (V : Type) same (m : list (ukey * V)) k :
  sound_keys same ->
  let d := build_from_aliases same m in
  (contains d k = true <-> exists kv, In kv m /\ In k (ugroup (fst kv))) /\
  (contains d k = true <-> exists v, getitem d k = Ok v) /\
  (contains d k = false <-> getitem d k = Raise KeyError).
Proof.
  intros S d. assert (C := contains_spec d k). assert (B := build_names same S m k). fold d in B.
  assert (G : getitem d k = Raise KeyError <-> ~ In k (flat_keys d)).
  { rewrite getitem_error. tauto. }
  split; [tauto|]. split.
  - rewrite C. split.
    + intros H. destruct (getitem d k) as [v|e] eqn:E; [eauto|]. apply getitem_error in E. tauto.
    + intros (v & E). destruct (in_dec (list_eq_dec ascii_dec) k (flat_keys d)) as [Y|N]; [exact Y|].
      apply G in N. congruence.
  - rewrite G, <- C. destruct (contains d k); split; congruence.
Qed.
Print Assumptions C05_exactly_the_input_names.
(** The length counts aliases, one per name, not groups (disjoint keys). *)
Theorem C05_length_counts_names (V : Type) same (m : list (ukey * V)) :
  sound_keys same ->
  disjoint_groups (map (fun kv => ugroup (fst kv)) m) -> Forall (fun kv => ugroup (fst kv) <> []) m ->
  maplen (build_from_aliases same m) = length (concat (map (fun kv => ugroup (fst kv)) m)).
Proof.
  intros S D F. unfold maplen. rewrite (build_disjoint same S m D F). unfold flat_keys. rewrite map_map. reflexivity.
Qed.
Print Assumptions C05_length_counts_names.
(** "The last entry with the alias wins" is false of the input order: an
    equal set of aliases given again replaces the value in the old place, so an
    entry given in between wins. *)
Theorem C05_last_entry_wins_refuted :
  exists (m : list (ukey * nat)) (a : str),
    sound_keys group_eqb /\
    last (map snd (filter (fun kv => in_group a (ugroup (fst kv))) m)) 0 = 3 /\
    getitem (build_from_aliases group_eqb m) a = Ok 2.
Proof.
  exists [(KTup [s "a"; s "b"], 1); (KTup [s "a"; s "c"], 2); (KTup [s "b"; s "a"], 3)], (s "a").
  split; [intros x y H; apply group_eqb_spec, H|]. split; reflexivity.
Qed.
Print Assumptions C05_last_entry_wins_refuted.
Definition demo : list (ukey * nat) := [(KTup [s "r"; s "radius"], 1); (KOne (s "time"), 2); (KTup [s "x"], 3)].
Example C05_case : disjoint_groups (map (fun kv => ugroup (fst kv)) demo) /\
  Forall (fun kv => ugroup (fst kv) <> []) demo /\
  getitem (build_from_aliases group_eqb demo) (s "radius") = Ok 1 /\
  maplen (build_from_aliases group_eqb demo) = 4.
Proof.
  split; [|split; [repeat constructor; discriminate | split; reflexivity]].
  unfold disjoint_groups. cbv. repeat constructor; simpl; intuition discriminate.
Qed.

(** ** C06: histories of a mutable mapping
    Any sequence of assignments, deletions and alias registrations on a mapping
    with disjoint groups behaves as the reference machine in which names own
    cells: same result (or exception) of every operation, same lookups. *)
Theorem C06_histories_partial (V : Type) (d : entries (pyval V)) (dflt : pyval V) (os : list (mop V)) :
  disjoint_groups (map fst d) -> (forall gv, In gv d -> fst gv <> []) ->
  Forall (fun o => plain_op o = true) os ->
  let '(rs, st) := m_results (mnew d) os in
  let '(rs', c) := c_results (cells_of d dflt) os in
  rs = rs' /\ disjoint_groups (map fst (ents st)) /\
  (forall k, mget st k = c_get c k) /\
  (forall g v k, In (g, v) (ents st) -> In k g -> mget st k = Ok v).
Proof.
  intros D NE F. pose proof (rep_results os (mnew d) (cells_of d dflt) eq_refl F (rep_init d dflt D NE)) as H.
  destruct (m_results (mnew d) os) as [rs st], (c_results (cells_of d dflt) os) as [rs' c].
  destruct H as (-> & (l & E & R) & KG).
  assert (DJ : NoDup (flat_keys (ents st))) by (rewrite <- E; eapply numbered_disjoint, R).
  split; [reflexivity|]. split; [exact DJ|]. split.
  - intros k. unfold mget. rewrite KG. cbn [assoc]. rewrite <- E. apply numbered_get, R.
  - intros g v k Hg Hk. unfold mget. rewrite KG. cbn [assoc]. eapply getitem_disjoint; eauto.
Qed.
Print Assumptions C06_histories_partial.
(** Read off the reference machine: an assignment is seen by exactly the aliases
    of the name; deletion removes exactly them; a new alias changes no value. *)
Theorem C06_machine_assign (V : Type) (c : cells V) k v x :
  (forall y i, owner c y = Some i -> i < fresh c) ->
  c_get (c_set c k v) x =
  if str_eqb x k then Ok v
  else match owner c x with
       | Some i => if match owner c k with Some j => Nat.eqb i j | None => false end then Ok v else Ok (content c i)
       | None => Raise KeyError
       end.
Proof.
  intros LT. unfold c_get, c_set. destruct (owner c k) as [j|] eqn:EK; cbn [owner content].
  - destruct (str_eqb_spec x k) as [->|N]; [rewrite EK, Nat.eqb_refl; reflexivity|].
    destruct (owner c x) as [i|]; [|reflexivity]. destruct (Nat.eqb i j); reflexivity.
  - destruct (str_eqb_spec x k) as [->|N]; [rewrite Nat.eqb_refl; reflexivity|].
    destruct (owner c x) as [i|] eqn:EX; [|reflexivity]. apply LT in EX.
    destruct (Nat.eqb_spec i (fresh c)); [lia|reflexivity].
Qed.
Print Assumptions C06_machine_assign.
Theorem C06_machine_delete (V : Type) (c c' : cells V) k x : c_del c k = (c', Ok tt) ->
  c_get c' x = match owner c x with
               | Some i => if match owner c k with Some j => Nat.eqb i j | None => false end then Raise KeyError else Ok (content c i)
               | None => Raise KeyError
               end.
Proof.
  unfold c_del, c_get. destruct (owner c k) as [j|]; [|discriminate]. intros H. injection H as <-. cbn [owner content].
  destruct (owner c x) as [i|]; [|reflexivity]. destruct (Nat.eqb i j); reflexivity.
Qed.
Print Assumptions C06_machine_delete.
Theorem C06_machine_alias (V : Type) (c c' : cells V) k a x : c_alias1 c k a = (c', Ok tt) ->
  owner c a = None /\ owner c k <> None /\
  c_get c' x = if str_eqb x a then c_get c k else c_get c x.
Proof.
  unfold c_alias1, c_get. destruct (owner c k) as [j|] eqn:EK; [|discriminate]. destruct (owner c a) eqn:EA; [discriminate|].
  intros H. injection H as <-. cbn [owner content]. split; [reflexivity|]. split; [discriminate|].
  destruct (str_eqb x a); reflexivity.
Qed.
Print Assumptions C06_machine_alias.
(** With key groups the claim is false: after [m.group('G', 'a')] an assignment
    to ['G'] is not returned by ['G']. *)
Theorem C06_with_key_groups_refuted :
  exists (d : entries (pyval nat)) (n : str) (v : nat),
    let st := mrun (mnew d) [OGroup n [s "a"]; OSet n v] in
    fst (m_results (mnew d) [OGroup n [s "a"]; OSet n v]) = [Ok tt; Ok tt] /\
    mget st n <> Ok (Plain v).
Proof.
  exists [([s "a"], Plain 1)], (s "G"), 5. split; [reflexivity|]. discriminate.
Qed.
Print Assumptions C06_with_key_groups_refuted.
Definition history : list (mop nat) :=
  [OSet (s "x") 7; OAlias (s "x") [s "y"; s "z"]; OSet (s "z") 8; OAlias (s "r") [s "x"]; ODel (s "radius"); OSet (s "r") 9].
Example C06_case :
  let d := [([s "r"; s "radius"], Plain 1); ([s "t"], Plain 2)] in
  Forall (fun o => plain_op o = true) history /\
  (forall gv, In gv d -> fst gv <> []) /\
  fst (m_results (mnew d) history) = [Ok tt; Ok tt; Ok tt; Raise KeyError; Ok tt; Ok tt] /\
  mget (mrun (mnew d) history) (s "x") = Ok (Plain 8) /\
  mget (mrun (mnew d) history) (s "r") = Ok (Plain 9) /\
  mget (mrun (mnew d) history) (s "radius") = Raise KeyError.
Proof.
  split; [repeat constructor|]. split; [intros gv [<-|[<-|[]]]; discriminate|]. repeat split.
Qed.

(** ** C07: alias groups *)
Theorem C07_add_keeps_disjoint gs ks :
  disjoint_groups (map gnames gs) ->
  match groups_add gs ks with
  | Ok gs' => disjoint_groups (map gnames gs')
  | Raise e => e = ValueError /\ exists k, In k ks /\ In k (groups_flat gs)
  end.
Proof.
  intros D. destruct (groups_add gs ks) as [gs'|e] eqn:E; [eapply add_disjoint; eauto|].
  unfold groups_add in E. destruct existsb eqn:X; [|discriminate]. injection E as <-. split; [reflexivity|].
  apply existsb_exists in X as (k & H1 & H2). exists k. split; [exact H1 | apply in_group_spec, H2].
Qed.
Print Assumptions C07_add_keeps_disjoint.
(** Merging one collection of names that touches at most one group. *)
Theorem C07_merge_partial gs o :
  disjoint_groups (map gnames gs) -> (forall g, In g gs -> graw g = false) -> touches_one gs o ->
  exists gs', groups_merge gs [o] = Ok gs' /\
    disjoint_groups (map gnames gs') /\
    (exists g', In g' gs' /\ incl o (gnames g')) /\
    (forall g, In g gs -> exists g', In g' gs' /\ incl (gnames g) (gnames g')) /\
    (forall k, In k (groups_flat gs') <-> In k (groups_flat gs) \/ In k o) /\
    (forall g, In g gs -> (forall k, In k (gnames g) -> ~ In k o) -> exists g', In g' gs' /\ gnames g' = gnames g).
Proof. exact (merge_one gs o). Qed.
Print Assumptions C07_merge_partial.
(** Names that bridge two groups leave overlapping groups behind. *)
Theorem C07_bridging_refuted :
  exists gs o gs', disjoint_groups (map gnames gs) /\ groups_merge gs [o] = Ok gs' /\
    ~ disjoint_groups (map gnames gs').
Proof.
  exists (groups_init [[s "a"; s "b"]; [s "c"; s "d"]]), [s "b"; s "c"].
  eexists. split; [|split; [reflexivity|]].
  - cbv. repeat constructor; simpl; intuition discriminate.
  - intros H. cbv in H. inversion H as [|? ? N _]; subst. apply N. simpl. auto.
Qed.
Print Assumptions C07_bridging_refuted.
(** The constructor does not merge overlapping arguments. *)
Theorem C07_constructor_refuted : exists ks, ~ disjoint_groups (map gnames (groups_init ks)).
Proof.
  exists [[s "a"; s "b"]; [s "b"; s "c"]]. intros H. cbv in H.
  inversion H as [|? ? _ H2]; subst. inversion H2 as [|? ? N _]; subst. apply N. simpl. auto.
Qed.
Print Assumptions C07_constructor_refuted.
(** Two arguments that touch the same group make [merge] fail instead of joining. *)
Theorem C07_two_touches_refuted :
  exists gs o1 o2, disjoint_groups (map gnames gs) /\ touches_one gs (o1 ++ o2) /\ groups_merge gs [o1; o2] = Raise ValueError.
Proof.
  exists (groups_init [[s "a"; s "b"]]), [s "a"; s "x"], [s "b"; s "y"]. split; [|split; [|reflexivity]].
  - cbv. repeat constructor; simpl; intuition discriminate.
  - intros g h k k' [<-|[]] [<-|[]] _ _ _ _. reflexivity.
Qed.
Print Assumptions C07_two_touches_refuted.
(** An update that adds a new group poisons the collection: touching that group
    again raises TypeError. *)
Theorem C07_second_update_refuted :
  exists gs o1 o2 gs', groups_update gs [o1] = Ok gs' /\ touches_one gs' o2 /\ groups_update gs' [o2] = Raise TypeError.
Proof.
  exists (groups_init [[s "a"]]), [s "x"; s "y"], [s "y"; s "z"]. eexists. split; [reflexivity|]. split; [|reflexivity].
  intros g h k k' Hg Hh Hk Hk' Ho Ho'. simpl in Hg, Hh, Ho, Ho'.
  destruct Hg as [<-|[<-|[]]], Hh as [<-|[<-|[]]]; try reflexivity; exfalso; simpl in Hk, Hk';
    destruct Hk as [<-|Hk]; try (destruct Ho as [X|[X|[]]]; discriminate X);
    destruct Hk' as [<-|Hk']; try (destruct Ho' as [X|[X|[]]]; discriminate X); tauto.
Qed.
Print Assumptions C07_second_update_refuted.
Example C07_case : touches_one (groups_init [[s "a"; s "b"]; [s "c"]]) [s "b"; s "x"] /\
  (forall g, In g (groups_init [[s "a"; s "b"]; [s "c"]]) -> graw g = false) /\
  groups_merge (groups_init [[s "a"; s "b"]; [s "c"]]) [[s "b"; s "x"]]
    = Ok (groups_init [[s "c"]; [s "a"; s "b"; s "x"]]).
Proof.
  split; [|split; [intros g [<-|[<-|[]]]; reflexivity | reflexivity]].
  intros g h k k' [<-|[<-|[]]] [<-|[<-|[]]] Hk Hk' Ho Ho'; try reflexivity; exfalso; simpl in *;
    intuition (subst; discriminate).
Qed.

(** ** C08: name maps *)
Theorem C08_namemap d refs names m :
  get_names d refs = Ok names -> namemap d refs = Ok m ->
  (forall k, In k names -> namemap_get m k = Ok (Plain k)) /\
  (forall k als a, In (k, als) (get_aliases names d) -> In a als -> namemap_get m a = namemap_get m k) /\
  (forall x, namemap_get m x = Raise KeyError <->
     ~ In x names /\ forall k als, In (k, als) (get_aliases names d) -> ~ In x als).
Proof. exact (namemap_main d refs names m). Qed.
Print Assumptions C08_namemap.
(** In terms of the arguments: definitions that map distinct canonical names to
    their aliases. *)
Theorem C08_aliases_of_canonical_names (defn : list (str * list str)) m :
  NoDup (map fst defn) -> namemap (DMap defn) None = Ok m ->
  forall k als, In (k, als) defn ->
    namemap_get m k = Ok (Plain k) /\ forall a, In a als -> namemap_get m a = Ok (Plain k).
Proof.
  intros ND H k als Hk. destruct (namemap_main (DMap defn) None (map fst defn) m eq_refl H) as (A & B & _).
  assert (K : namemap_get m k = Ok (Plain k)) by (apply A; apply (in_map fst) in Hk; exact Hk).
  split; [exact K|]. intros a Ha. destruct (list_eq_dec ascii_dec a k) as [->|N]; [exact K|].
  rewrite <- K. apply (B k (remove_name k als) a); [|apply remove_name_in; auto].
  rewrite get_aliases_map. apply fold_assoc_has.
  - apply in_map_iff. exists (k, als). auto.
  - intros a' H'. apply in_map_iff in H' as ((k2 & als2) & E & H2). cbn [fst snd] in E. injection E as -> <-. f_equal.
    clear -ND Hk H2. induction defn as [|[k0 a0] l IH]; [destruct Hk|]. cbn [map fst] in ND. inversion ND as [|? ? N ND']; subst.
    destruct Hk as [Hk|Hk], H2 as [H2|H2].
    + congruence.
    + injection Hk as -> ->. exfalso. apply N. apply (in_map fst) in H2. exact H2.
    + injection H2 as -> ->. exfalso. apply N. apply (in_map fst) in Hk. exact Hk.
    + apply IH; assumption.
Qed.
Print Assumptions C08_aliases_of_canonical_names.
Example C08_case :
  let defn := [(s "radius", [s "r"; s "R"]); (s "time", [s "t"; s "time"])] in
  NoDup (map fst defn) /\
  exists m, namemap (DMap defn) None = Ok m /\ namemap_get m (s "R") = Ok (Plain (s "radius")) /\
            namemap_get m (s "q") = Raise KeyError.
Proof.
  split; [cbv; repeat constructor; simpl; intuition discriminate|].
  eexists. split; [reflexivity|]. split; reflexivity.
Qed.
Example C08_group_case :
  exists m, namemap (DIter [[s "r"; s "radius"]; [s "u"; s "x"]]) (Some [s "radius"; s "t"]) = Ok m /\
    namemap_get m (s "r") = Ok (Plain (s "radius")) /\ namemap_get m (s "u") = Raise KeyError.
Proof. eexists. split; [reflexivity|]. split; reflexivity. Qed.
