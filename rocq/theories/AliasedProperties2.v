(** C05, C06 continued: merging a mapping into an aliased one, key groups. *)
From Verif Require Import PyBase PyLemmas AliasedModel AliasedSpec AliasedProofs AliasedNames AliasedProperties.

(** ** C05: [aliased | mapping] *)
(** [a] and [b] are the same name, or aliases of one entry *)
Definition one_entry {V} (d : entries V) (a b : str) : Prop :=
  a = b \/ exists g w, In (g, w) d /\ In a g /\ In b g.

Section Merge.
Context {V : Type}.
Variable same : group -> group -> bool.
Hypothesis S : sound_keys same.
Set Default Proof Using "Type".

Lemma first_set_split (d : entries V) k v : In k (flat_keys d) -> exists d1 g w d2,
  d = d1 ++ (g, w) :: d2 /\ In k g /\ first_set d k v = d1 ++ (g, v) :: d2.
Proof.
  induction d as [|(h, w) d IH]; intros H; [destruct H|]. cbn [first_set]. destruct (in_group k h) eqn:G.
  - apply in_group_spec in G. exists [], h, w, d. auto.
  - apply in_group_false in G. unfold flat_keys in H. cbn [map fst concat] in H. apply in_app_iff in H as [H|H]; [contradiction|].
    destruct (IH H) as (d1 & g & w' & d2 & -> & I & E). exists ((h, w) :: d1), g, w', d2. split; [reflexivity|]. split; [exact I|]. cbn [app]. rewrite E. reflexivity.
Qed.
Lemma flat_app (a b : entries V) : flat_keys (a ++ b) = flat_keys a ++ flat_keys b.
Proof. unfold flat_keys. rewrite map_app. apply concat_app. Qed.
Lemma getitem_same_names (d d' : entries V) a : NoDup (flat_keys d) -> NoDup (flat_keys d') -> (In a (flat_keys d) <-> In a (flat_keys d')) ->
  (forall g v, In (g, v) d -> In a g -> exists h, In (h, v) d' /\ In a h) -> getitem d' a = getitem d a.
Proof.
  intros N N' K F. destruct (getitem d a) as [v|e] eqn:E.
  - apply getitem_last in E as (n & g & En & I & _). destruct (F g v (nth_error_In _ _ En) I) as (h & Ih & Ia). exact (getitem_disjoint d' N' h v a Ih Ia).
  - apply getitem_error in E as (-> & H). apply getitem_error. tauto.
Qed.
Lemma flat_in (d : entries V) g v a : In (g, v) d -> In a g -> In a (flat_keys d).
Proof. intros I H. unfold flat_keys. apply in_concat. exists g. split; [|exact H]. apply (in_map fst) in I. exact I. Qed.

(** one assignment of the merge *)
Lemma merge_step (d : entries V) k v : NoDup (flat_keys d) ->
  let d' := build_step same d (KOne k, v) in
  NoDup (flat_keys d') /\ (forall a b, one_entry d' a b <-> one_entry d a b) /\
  (forall a, one_entry d a k -> getitem d' a = Ok v) /\
  (forall a, ~ one_entry d a k -> getitem d' a = getitem d a).
Proof using S.
  intros N d'. unfold d', build_step. cbn [fst snd]. clear d'. destruct (first_with d k) eqn:FW.
  - assert (K : In k (flat_keys d)).
    { destruct (in_dec (list_eq_dec ascii_dec) k (flat_keys d)) as [Y|H]; [exact Y|]. apply first_with_none in H. congruence. }
    clear FW. destruct (first_set_split d k v K) as (d1 & h & w & d2 & E & I & ->).
    assert (FK : flat_keys (d1 ++ (h, v) :: d2) = flat_keys d) by (subst d; rewrite !flat_app; reflexivity).
    assert (N' : NoDup (flat_keys (d1 ++ (h, v) :: d2))) by (rewrite FK; exact N).
    assert (OE : forall a, one_entry d a k -> In a h).
    { intros a [->|(g' & w' & Ig & Ia & Ik)]; [exact I|].
      apply In_nth_error in Ig as (n & En). pose proof (proj2 (nth_error_Some d (length d1)) ltac:(subst d; rewrite app_length; cbn [length]; lia)) as _.
      assert (Em : nth_error d (length d1) = Some (h, w)) by (subst d; rewrite nth_error_app2, Nat.sub_diag; [reflexivity|lia]).
      pose proof (disjoint_unique d N _ _ _ _ _ _ _ En Em Ik I) as ->. congruence. }
    split; [exact N'|]. split; [|split].
    + intros a b. unfold one_entry. subst d. split; (intros [->|(g' & w' & Ig & Ia & Ib)]; [left; reflexivity|right]);
        apply in_app_iff in Ig as [Ig|[Ig|Ig]].
      * exists g', w'. rewrite in_app_iff. auto.
      * injection Ig as <- <-. exists h, w. split; [apply in_elt|auto].
      * exists g', w'. rewrite in_app_iff. cbn [In]. auto.
      * exists g', w'. rewrite in_app_iff. auto.
      * injection Ig as <- <-. exists h, v. split; [apply in_elt|auto].
      * exists g', w'. rewrite in_app_iff. cbn [In]. auto.
    + intros a H. apply (getitem_disjoint _ N' h v a); [apply in_elt|apply OE, H].
    + intros a H. apply getitem_same_names; [exact N|exact N'|rewrite FK; reflexivity|].
      intros g' u Ig Ia. exists g'. split; [|exact Ia]. subst d. apply in_app_iff in Ig as [Ig|[Ig|Ig]]; apply in_app_iff; [left; exact Ig| |right; right; exact Ig].
      injection Ig as <- <-. destruct H. right. exists h, w. split; [apply in_elt|auto].
  - apply first_with_none in FW. rewrite (dict_set_new same S) by (try discriminate; intros x [<-|[]]; exact FW).
    assert (FK : flat_keys (d ++ [([k], v)]) = flat_keys d ++ [k]) by (rewrite flat_app; reflexivity).
    assert (N' : NoDup (flat_keys (d ++ [([k], v)]))).
    { rewrite FK. apply NoDup_rev in N. rewrite <- (rev_involutive (flat_keys d ++ [k])), rev_app_distr. apply NoDup_rev. cbn [rev app]. constructor; [rewrite <- in_rev; exact FW|exact N]. }
    assert (OE : forall a, one_entry d a k -> a = k).
    { intros a [->|(g' & w' & Ig & Ia & Ik)]; [reflexivity|]. destruct FW. exact (flat_in d g' w' k Ig Ik). }
    split; [exact N'|]. split; [|split].
    + intros a b. unfold one_entry. split; (intros [->|(g' & w' & Ig & Ia & Ib)]; [left; reflexivity|]).
      * apply in_app_iff in Ig as [Ig|[Ig|[]]]; [right; eauto|]. injection Ig as <- <-. destruct Ia as [<-|[]], Ib as [<-|[]]. left. reflexivity.
      * right. exists g', w'. rewrite in_app_iff. auto.
    + intros a H. apply OE in H as ->. apply (getitem_disjoint _ N' [k] v k); [apply in_elt|left; reflexivity].
    + intros a H. assert (a <> k) by (intros ->; apply H; left; reflexivity).
      apply getitem_same_names; [exact N|exact N'| |].
      * rewrite FK, in_app_iff. cbn [In]. split; [tauto|]. intros [X|[X|[]]]; [exact X|congruence].
      * intros g' u Ig Ia. exists g'. rewrite in_app_iff. auto.
Qed.
Lemma nodup_parts {A} (a b : list A) : NoDup (a ++ b) -> NoDup a /\ NoDup b.
Proof.
  induction a as [|x a IH]; cbn [app]; intros H; [split; [constructor|exact H]|]. inversion H as [|? ? H1 H2]; subst. destruct (IH H2) as (H3 & H4).
  split; [|exact H4]. constructor; [|exact H3]. intros I. apply H1, in_app_iff. left. exact I.
Qed.
Lemma merge_start (d : entries V) : NoDup (flat_keys d) -> Forall (fun gv => fst gv <> []) d -> or_plain same d [] = d.
Proof using S.
  intros N F. unfold or_plain. cbn [map]. rewrite app_nil_r.
  assert (U : map (fun kv : ukey * V => (ugroup (fst kv), snd kv)) (map (fun gv : group * V => (KTup (fst gv), snd gv)) d) = d).
  { rewrite map_map. cbn [fst snd ugroup]. clear F. unfold flat_keys in N. induction d as [|(g, v) d IH]; [reflexivity|]. cbn [map fst concat] in *. cbn [snd].
    rewrite dedup_id by exact (proj1 (nodup_parts _ _ N)). rewrite IH by exact (proj2 (nodup_parts _ _ N)). reflexivity. }
  rewrite (build_disjoint same S); [exact U| |].
  - assert (X : forall m : list (ukey * V), map (fun kv => ugroup (fst kv)) m = map fst (map (fun kv : ukey * V => (ugroup (fst kv), snd kv)) m)) by (intros m; rewrite map_map; reflexivity).
    rewrite X. unfold flat_keys in N. rewrite <- U in N. exact N.
  - apply Forall_forall. intros kv I. apply Forall_forall with (x := (ugroup (fst kv), snd kv)) in F; [exact F|]. clear F N. pose proof (in_map (fun kv : ukey * V => (ugroup (fst kv), snd kv)) _ _ I) as J. rewrite <- U. exact J.
Qed.
Lemma merge_inv (d : entries V) other : NoDup (flat_keys d) -> Forall (fun gv => fst gv <> []) d ->
  NoDup (flat_keys (or_plain same d other)) /\ (forall a b, one_entry (or_plain same d other) a b <-> one_entry d a b).
Proof using S.
  intros N F. induction other as [|(k, v) other (IN & IO)] using rev_ind.
  - rewrite (merge_start d N F). split; [exact N|reflexivity].
  - unfold or_plain, build_from_aliases. rewrite map_app, app_assoc, fold_left_app. cbn [map fold_left fst snd].
    destruct (merge_step _ k v IN) as (N' & O & _). split; [exact N'|]. intros a b. etransitivity; [apply O|apply IO].
Qed.
(** Merging a plain mapping: a name reads the value of the last item given for
    any alias of it; all other names are as before. *)
Theorem C05_merge (d : entries V) other : NoDup (flat_keys d) -> Forall (fun gv => fst gv <> []) d ->
  (forall pre k v post a, other = pre ++ (k, v) :: post -> one_entry d a k -> (forall k' v', In (k', v') post -> ~ one_entry d a k') ->
     getitem (or_plain same d other) a = Ok v) /\
  (forall a, (forall k v, In (k, v) other -> ~ one_entry d a k) -> getitem (or_plain same d other) a = getitem d a).
Proof using S.
  intros N F. induction other as [|(k, v) other (IH1 & IH2)] using rev_ind.
  - split; [intros pre k v post a E; destruct pre; discriminate E|]. intros a _. rewrite (merge_start d N F). reflexivity.
  - destruct (merge_inv d other N F) as (IN & IO). destruct (merge_step _ k v IN) as (_ & _ & G1 & G2).
    assert (E0 : or_plain same d (other ++ [(k, v)]) = build_step same (or_plain same d other) (KOne k, v)).
    { unfold or_plain, build_from_aliases. rewrite map_app, app_assoc, fold_left_app. reflexivity. }
    rewrite E0. split.
    + intros pre k1 v1 post a E O L. destruct post as [|(k2, v2) post] using rev_ind.
      * apply app_inj_tail in E as (_ & E). injection E as <- <-. apply G1, IO, O.
      * clear IHpost. rewrite app_comm_cons, app_assoc in E. apply app_inj_tail in E as (E & E'). injection E' as <- <-.
        rewrite G2; [apply (IH1 pre k1 v1 post a E O); intros k' v' I; apply (L k' v'), in_app_iff; left; exact I|].
        rewrite IO. apply (L k v), in_app_iff. right. left. reflexivity.
    + intros a H. rewrite G2; [apply IH2; intros k' v' I; apply (H k' v'), in_app_iff; left; exact I|]. rewrite IO. apply (H k v), in_app_iff. right. left. reflexivity.
Qed.
End Merge.
Print Assumptions C05_merge.
Definition merge_demo : entries nat := [([s "r"; s "radius"], 1); ([s "time"], 2)].
Example C05_merge_case : getitem (or_plain group_eqb merge_demo [(s "radius", 5); (s "mass", 7)]) (s "r") = Ok 5 /\
  getitem (or_plain group_eqb merge_demo [(s "radius", 5); (s "mass", 7)]) (s "time") = Ok 2 /\
  getitem (or_plain group_eqb merge_demo [(s "radius", 5); (s "mass", 7)]) (s "mass") = Ok 7 /\
  NoDup (flat_keys merge_demo) /\ Forall (fun gv => fst gv <> []) merge_demo /\ one_entry merge_demo (s "r") (s "radius").
Proof.
  do 3 (split; [vm_compute; reflexivity|]). split; [|split].
  - repeat first [apply NoDup_nil | apply NoDup_cons]; cbn; intuition discriminate.
  - repeat constructor; discriminate.
  - right. exists [s "r"; s "radius"], 1. cbn. tauto.
Qed.

(** ** C06: key groups *)
(** The name of a key group reads the values of its keys, in the given order;
    all other names are as before.  An existing name cannot become a group. *)
Theorem C06_group (V : Type) (st st' : mstate V) n ks r : ks <> [] -> mgroup st n ks = (st', r) ->
  (In n (flat_keys (ents st)) -> st' = st /\ r = Raise ValueError) /\
  (~ In n (flat_keys (ents st)) -> r = Ok tt /\
     (forall vs, Forall2 (fun k v => getitem (ents st) k = Ok v) ks vs -> mget st' n = Ok (Tup vs)) /\
     ((exists k, In k ks /\ ~ In k (flat_keys (ents st))) -> mget st' n = Raise KeyError) /\
     (forall a, a <> n -> mget st' a = mget st a)).
Proof.
  intros NE E. unfold mgroup in E. destruct (contains (ents st) n) eqn:C.
  - apply contains_spec in C. injection E as <- <-. split; [auto|contradiction].
  - assert (C' : ~ In n (flat_keys (ents st))) by (intros H; apply contains_spec in H; congruence). split; [contradiction|]. intros _.
    destruct ks as [|k0 ks0]; [contradiction NE; reflexivity|]. injection E as <- <-. split; [reflexivity|].
    assert (A : forall l : list (str * list str), assoc (assoc_set l n (k0 :: ks0)) n = Some (k0 :: ks0)).
    { induction l as [|(h, b) l IH]; cbn [assoc_set assoc]; [rewrite str_eqb_refl; reflexivity|]. destruct (str_eqb h n) eqn:H; cbn [assoc]; rewrite H; [reflexivity|exact IH]. }
    assert (B : forall (l : list (str * list str)) a, a <> n -> assoc (assoc_set l n (k0 :: ks0)) a = assoc l a).
    { intros l a Na. induction l as [|(h, b) l IH]; cbn [assoc_set assoc].
      - rewrite (proj2 (str_eqb_neq n a)) by congruence. reflexivity.
      - destruct (str_eqb h n) eqn:H; cbn [assoc]; [|destruct (str_eqb h a); [reflexivity|exact IH]].
        apply str_eqb_eq in H as ->. rewrite (proj2 (str_eqb_neq n a)) by congruence. reflexivity. }
    split; [|split].
    + intros vs F. unfold mget. cbn [kgroups ents]. rewrite A.
      assert (M : mapM (getitem (ents st)) (k0 :: ks0) = Ok vs) by (apply mapM_Forall2, F). rewrite M. reflexivity.
    + intros (k & I & K). unfold mget. cbn [kgroups ents]. rewrite A. clear - I K.
      assert (M : mapM (getitem (ents st)) (k0 :: ks0) = Raise KeyError); [|rewrite M; reflexivity].
      induction (k0 :: ks0) as [|x l IH]; [destruct I|]. cbn [mapM]. destruct (getitem (ents st) x) as [v|e] eqn:G; cbn [bind].
      * destruct I as [->|I]; [assert (getitem (ents st) k = Raise KeyError) by (apply getitem_error; auto); congruence|]. rewrite (IH I). reflexivity.
      * apply getitem_error in G as (-> & _). reflexivity.
    + intros a Na. unfold mget. cbn [kgroups ents]. rewrite B by exact Na. reflexivity.
Qed.
Print Assumptions C06_group.
Definition group_demo : mstate nat := mnew [([s "r"; s "radius"], Plain 1); ([s "time"], Plain 2)].
Example C06_group_case : exists st', mgroup group_demo (s "both") [s "time"; s "r"] = (st', Ok tt) /\
  mget st' (s "both") = Ok (Tup [Plain 2; Plain 1]) /\ mgroup group_demo (s "radius") [s "time"] = (group_demo, Raise ValueError).
Proof. eexists. split; [vm_compute; reflexivity|]. split; vm_compute; reflexivity. Qed.
