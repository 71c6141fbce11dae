From Verif Require Import PyBase PyLemmas AliasedModel AliasedSpec.
From Coq Require Import Permutation.

Lemma in_group_spec k g : in_group k g = true <-> In k g.
Proof.
  unfold in_group. rewrite existsb_exists. split.
  - intros (x & H & E). apply str_eqb_eq in E. subst. exact H.
  - intros H. exists k. split; [exact H | apply str_eqb_refl].
Qed.
Lemma in_group_false k g : in_group k g = false <-> ~ In k g.
Proof. rewrite <- in_group_spec. destruct (in_group k g); split; congruence. Qed.
Lemma dedup_in k l : In k (dedup l) <-> In k l.
Proof.
  induction l as [|x l IH]; simpl; [tauto|].
  destruct (in_group x l) eqn:E; simpl; rewrite IH; [|tauto].
  apply in_group_spec in E. split; [auto | intros [->|]; auto].
Qed.
Lemma dedup_nodup l : NoDup (dedup l).
Proof.
  induction l as [|x l IH]; simpl; [constructor|].
  destruct (in_group x l) eqn:E; [exact IH|]. constructor; [|exact IH].
  rewrite dedup_in. apply in_group_false, E.
Qed.
Lemma dedup_id l : NoDup l -> dedup l = l.
Proof.
  induction 1 as [|x l H ND IH]; simpl; [reflexivity|].
  rewrite (proj2 (in_group_false x l) H), IH. reflexivity.
Qed.
Lemma group_eqb_spec a b : group_eqb a b = true <-> same_names a b.
Proof.
  unfold group_eqb. rewrite andb_true_iff, !forallb_forall. unfold same_names. split.
  - intros [H1 H2] k. split; intros H; apply in_group_spec; auto.
  - intros H. split; intros k Hk; apply in_group_spec, H, Hk.
Qed.

(** ** lookups *)
Section Lookup.
Context {V : Type}.
Implicit Types d : entries V.

Lemma resolve_from_some d k : forall i j, resolve_from i d k = Some j ->
  exists n g v, j = i + n /\ nth_error d n = Some (g, v) /\ In k g /\
    forall m h w, n < m -> nth_error d m = Some (h, w) -> ~ In k h.
Proof.
  induction d as [|[g v] d IH]; intros i j H; [discriminate|]. cbn [resolve_from] in H.
  destruct (resolve_from (S i) d k) as [j'|] eqn:R.
  - injection H as ->. apply IH in R as (n & h & w & -> & E & I & L).
    exists (S n), h, w. split; [lia|]. repeat split; auto. intros [|m] h' w' Hm; [lia|]. apply L. lia.
  - destruct (in_group k g) eqn:G; [|discriminate]. injection H as <-.
    exists 0, g, v. split; [lia|]. split; [reflexivity|]. split; [apply in_group_spec, G|].
    intros [|m] h w Hm E Hk; [lia|]. simpl in E. clear IH.
    assert (X : forall i, resolve_from i d k = None -> ~ In k h).
    { revert m E Hm. clear R. induction d as [|[g' v'] d IH]; intros m E Hm i' R; [destruct m; discriminate|].
      cbn [resolve_from] in R. destruct (resolve_from (S i') d k) eqn:R2; [discriminate|].
      destruct (in_group k g') eqn:G2; [discriminate|]. destruct m as [|m]; simpl in E.
      - injection E as -> ->. apply in_group_false, G2.
      - apply (IH m E ltac:(lia) _ R2). }
    exact (X _ R Hk).
Qed.
Lemma resolve_from_none d k : forall i, resolve_from i d k = None <-> ~ In k (flat_keys d).
Proof.
  unfold flat_keys. induction d as [|[g v] d IH]; intros i; cbn [resolve_from map fst concat]; [simpl; tauto|].
  rewrite in_app_iff. specialize (IH (S i)). destruct (resolve_from (S i) d k) as [j|].
  - split; [discriminate|]. intros H. exfalso. apply H. right. destruct (in_dec (list_eq_dec ascii_dec) k (concat (map fst d))) as [Y|N]; [exact Y|].
    apply IH in N. discriminate.
  - destruct (in_group k g) eqn:G.
    + split; [discriminate|]. intros H. exfalso. apply H. left. apply in_group_spec, G.
    + split; [|reflexivity]. intros _ [H|H]; [apply in_group_false in G; auto|]. apply IH in H; auto.
Qed.

Lemma getitem_last d k v :
  getitem d k = Ok v <->
  exists n g, nth_error d n = Some (g, v) /\ In k g /\
    forall m h w, n < m -> nth_error d m = Some (h, w) -> ~ In k h.
Proof.
  unfold getitem, resolve. destruct (resolve_from 0 d k) as [j|] eqn:R.
  - apply resolve_from_some in R as (n & g & w & -> & E & I & L). simpl. rewrite E. split.
    + intros H. injection H as ->. exists n, g. auto.
    + intros (n' & g' & E' & I' & L'). f_equal.
      destruct (Nat.lt_trichotomy n n') as [H|[->|H]].
      * exfalso. exact (L _ _ _ H E' I').
      * congruence.
      * exfalso. exact (L' _ _ _ H E I).
  - apply resolve_from_none in R. split; [discriminate|]. intros (n & g & E & I & _). exfalso. apply R.
    unfold flat_keys. apply in_concat. exists g. split; [|exact I]. apply nth_error_In in E.
    apply (in_map fst) in E. exact E.
Qed.
Lemma getitem_error d k e : getitem d k = Raise e <-> e = KeyError /\ ~ In k (flat_keys d).
Proof.
  unfold getitem, resolve. destruct (resolve_from 0 d k) as [j|] eqn:R.
  - pose proof R as R'. apply resolve_from_some in R as (n & g & w & -> & E & I & L). simpl. rewrite E.
    split; [discriminate|]. intros [_ H]. exfalso. apply (resolve_from_none d k 0) in H. congruence.
  - apply resolve_from_none in R. split; [intros H; injection H as <-; auto | intros [-> _]; reflexivity].
Qed.
Lemma contains_spec d k : contains d k = true <-> In k (flat_keys d).
Proof.
  unfold contains, resolve. destruct (resolve_from 0 d k) eqn:R.
  - split; [|reflexivity]. intros _. destruct (in_dec (list_eq_dec ascii_dec) k (flat_keys d)) as [Y|N]; [exact Y|].
    apply (resolve_from_none d k 0) in N. congruence.
  - apply resolve_from_none in R. split; [discriminate | contradiction].
Qed.

(** disjoint groups: the one group that contains the name *)
Lemma disjoint_unique d : NoDup (flat_keys d) -> forall n m g h v w k,
  nth_error d n = Some (g, v) -> nth_error d m = Some (h, w) -> In k g -> In k h -> n = m.
Proof.
  unfold flat_keys. induction d as [|[g0 v0] d IH]; intros ND n m g h v w k En Em Ig Ih; [destruct n; discriminate|].
  cbn [map fst concat] in ND.
  assert (S : forall i gi vi, nth_error d i = Some (gi, vi) -> In k gi -> In k (concat (map fst d))).
  { intros i gi vi E I. apply in_concat. exists gi. split; [|exact I]. apply nth_error_In in E. apply (in_map fst) in E. exact E. }
  assert (X : In k g0 -> ~ In k (concat (map fst d))).
  { intros H H'. apply in_split in H as (l1 & l2 & ->). rewrite <- app_assoc in ND. cbn [app] in ND.
    apply NoDup_remove_2 in ND. apply ND. rewrite !in_app_iff. auto. }
  destruct n as [|n], m as [|m]; simpl in En, Em; auto.
  - injection En as -> ->. exfalso. eapply X; eauto.
  - injection Em as -> ->. exfalso. eapply X; eauto.
  - f_equal. eapply IH; eauto. clear -ND. induction g0; simpl in ND; [exact ND|]. inversion ND; auto.
Qed.
Lemma getitem_disjoint d : NoDup (flat_keys d) -> forall g v k, In (g, v) d -> In k g -> getitem d k = Ok v.
Proof.
  intros ND g v k H I. apply In_nth_error in H as (n & E). apply getitem_last. exists n, g. repeat split; auto.
  intros m h w L Em Ih. pose proof (disjoint_unique d ND _ _ _ _ _ _ _ E Em I Ih). lia.
Qed.
End Lookup.

(** ** construction *)
Section Build.
Context {V : Type}.
Variable same : group -> group -> bool.
Hypothesis same_sound : forall a b, same a b = true -> same_names a b.

Lemma first_with_none (d : entries V) k : first_with d k = None <-> ~ In k (flat_keys d).
Proof.
  unfold flat_keys. induction d as [|[h w] d IH]; cbn [first_with map fst concat]; [simpl; tauto|].
  rewrite in_app_iff. destruct (in_group k h) eqn:G.
  - apply in_group_spec in G. split; [discriminate | tauto].
  - apply in_group_false in G. rewrite IH. tauto.
Qed.
Lemma dict_set_new (d : entries V) g v : (forall k, In k g -> ~ In k (flat_keys d)) -> g <> [] ->
  dict_set same d g v = d ++ [(g, v)].
Proof.
  unfold flat_keys. induction d as [|[h w] d IH]; cbn [dict_set map fst concat app]; intros D N; [reflexivity|].
  destruct (same h g) eqn:E.
  - apply same_sound in E. destruct g as [|k g]; [congruence|]. exfalso.
    apply (D k); [left; reflexivity|]. apply in_app_iff. left. apply E. left. reflexivity.
  - rewrite IH; [reflexivity| |exact N]. intros k Hk H. apply (D k Hk). apply in_app_iff. auto.
Qed.
(** Disjoint keys are stored as given. *)
Lemma build_disjoint (m : list (ukey * V)) :
  NoDup (concat (map (fun kv => ugroup (fst kv)) m)) -> Forall (fun kv => ugroup (fst kv) <> []) m ->
  build_from_aliases same m = map (fun kv => (ugroup (fst kv), snd kv)) m.
Proof.
  unfold build_from_aliases.
  assert (G : forall d, NoDup (flat_keys d ++ concat (map (fun kv => ugroup (fst kv)) m)) ->
    Forall (fun kv => ugroup (fst kv) <> []) m ->
    fold_left (build_step same) m d = d ++ map (fun kv => (ugroup (fst kv), snd kv)) m).
  { induction m as [|[k v] m IH]; intros d ND F; cbn [fold_left map fst snd concat] in *; [rewrite app_nil_r; reflexivity|].
    inversion F as [|? ? F1 F2]; subst. cbn [fst snd] in *.
    assert (DJ : forall x, In x (ugroup k) -> ~ In x (flat_keys d)).
    { intros x Hx Hd. apply in_split in Hd as (l1 & l2 & E). rewrite E in ND.
      rewrite <- app_assoc in ND. cbn [app] in ND. apply NoDup_remove_2 in ND. apply ND.
      rewrite !in_app_iff. auto. }
    assert (ST : build_step same d (k, v) = d ++ [(ugroup k, v)]).
    { unfold build_step. cbn [fst snd]. destruct k as [k|ks].
      - rewrite (proj2 (first_with_none d k)); [|apply DJ; left; reflexivity]. apply dict_set_new; [|discriminate].
        intros x [<-|[]]. apply DJ. left. reflexivity.
      - apply dict_set_new; assumption. }
    rewrite ST, IH; [rewrite <- app_assoc; reflexivity| |exact F2].
    unfold flat_keys in *. rewrite map_app, concat_app. cbn [map fst concat]. rewrite app_nil_r, <- app_assoc. exact ND. }
  intros ND F. apply (G [] ND F).
Qed.

(** Whatever the input, every looked-up value was given for some key with that
    alias or for a name of that group, and names come from the input. *)
Lemma flat_keys_dict_set (d : entries V) g v k :
  In k (flat_keys (dict_set same d g v)) <-> In k (flat_keys d) \/ In k g.
Proof.
  unfold flat_keys. induction d as [|[h w] d IH]; cbn [dict_set map fst concat].
  - rewrite app_nil_r. clear. simpl. tauto.
  - destruct (same h g) eqn:E; cbn [map fst concat]; rewrite !in_app_iff; [|rewrite IH; tauto].
    apply same_sound in E. pose proof (E k) as Ek. clear - Ek. tauto.
Qed.
Lemma flat_keys_first_set (d : entries V) x v k : In k (flat_keys (first_set d x v)) <-> In k (flat_keys d).
Proof.
  unfold flat_keys. induction d as [|[h w] d IH]; cbn [first_set map fst concat]; [tauto|].
  destruct (in_group x h); cbn [map fst concat]; rewrite !in_app_iff; [tauto | rewrite IH; tauto].
Qed.
Lemma build_names (m : list (ukey * V)) k :
  In k (flat_keys (build_from_aliases same m)) <-> exists kv, In kv m /\ In k (ugroup (fst kv)).
Proof.
  unfold build_from_aliases.
  assert (G : forall d, In k (flat_keys (fold_left (build_step same) m d)) <->
    In k (flat_keys d) \/ exists kv, In kv m /\ In k (ugroup (fst kv))).
  { induction m as [|[u v] m IH]; intros d; cbn [fold_left].
    - split; [auto | intros [H|(kv & [] & _)]; exact H].
    - rewrite IH. clear IH.
      assert (S : In k (flat_keys (build_step same d (u, v))) <-> In k (flat_keys d) \/ In k (ugroup u)).
      { unfold build_step. cbn [fst snd]. destruct u as [x|xs].
        - destruct (first_with d x) eqn:FW.
          + rewrite flat_keys_first_set. split; [auto|]. intros [H|[<-|[]]]; [exact H|].
            destruct (in_dec (list_eq_dec ascii_dec) x (flat_keys d)) as [Y|N]; [exact Y|].
            apply first_with_none in N. congruence.
          + rewrite flat_keys_dict_set. tauto.
        - rewrite flat_keys_dict_set. tauto. }
      rewrite S. split.
      + intros [[H|H]|(kv & H1 & H2)]; [auto | right; exists (u, v); simpl; auto | right; exists kv; simpl; auto].
      + intros [H|(kv & [<-|H1] & H2)]; [auto | auto | right; exists kv; auto]. }
  rewrite G. unfold flat_keys. simpl. split; [intros [[]|H]; exact H | auto].
Qed.
End Build.

(** ** mutable mappings refine cells *)
Section Refine.
Context {V : Type}.
Notation val := (pyval V).
Implicit Types d : entries val.

(** the entries with their cell numbers *)
Definition numbered (l : list (nat * (group * val))) (c : cells val) : Prop :=
  NoDup (map fst l) /\
  (forall i g v, In (i, (g, v)) l ->
     i < fresh c /\ content c i = v /\ g <> [] /\ NoDup g /\ forall k, owner c k = Some i <-> In k g) /\
  (forall k i, owner c k = Some i -> In i (map fst l)).
Definition rep (d : entries val) (c : cells val) : Prop := exists l, map snd l = d /\ numbered l c.

Lemma numbered_names l c k : numbered l c -> (In k (flat_keys (map snd l)) <-> owner c k <> None).
Proof.
  intros (ND & H & O). unfold flat_keys. rewrite in_concat. split.
  - intros (g & Hg & Hk). rewrite map_map in Hg. apply in_map_iff in Hg as ((i & (g' & v)) & <- & Hi).
    apply H in Hi as (_ & _ & _ & _ & HH). apply HH in Hk. congruence.
  - intros N. destruct (owner c k) as [i|] eqn:E; [|congruence].
    pose proof (O _ _ E) as Hi. apply in_map_iff in Hi as ((i' & (g & v)) & <- & Hi).
    exists g. split; [rewrite map_map; apply in_map_iff; exists (i', (g, v)); auto|].
    apply H in Hi as (_ & _ & _ & _ & HH). apply HH, E.
Qed.
Lemma numbered_disjoint l c : numbered l c -> NoDup (flat_keys (map snd l)).
Proof.
  intros (ND & H & _). unfold flat_keys. induction l as [|[i (g & v)] l IH]; cbn [map snd fst concat]; [constructor|].
  cbn [map fst] in ND. inversion ND as [|? ? N ND']; subst.
  destruct (H i g v (or_introl eq_refl)) as (_ & _ & _ & NG & HH).
  assert (IH' : NoDup (concat (map fst (map snd l)))).
  { apply IH; [exact ND'|]. intros i' g' v' H'. apply H. right. exact H'. }
  assert (D : forall k, In k g -> ~ In k (concat (map fst (map snd l)))).
  { intros k Hk Hc. apply in_concat in Hc as (g' & Hg & Hk'). rewrite map_map in Hg.
    apply in_map_iff in Hg as ((i' & (g'' & v')) & <- & Hi).
    destruct (H i' g'' v' (or_intror Hi)) as (_ & _ & _ & _ & HH'). simpl in Hk'. apply HH' in Hk'. apply HH in Hk.
    apply N. assert (i = i') by congruence. subst. apply (in_map fst) in Hi. exact Hi. }
  clear -NG IH' D. induction NG as [|x g Hx NG IHg]; [exact IH'|]. cbn [app]. constructor.
  - rewrite in_app_iff. intros [X|X]; [auto | exact (D x (or_introl eq_refl) X)].
  - apply IHg. intros k Hk. apply D. right. exact Hk.
Qed.
Lemma numbered_get l c k : numbered l c -> getitem (map snd l) k = c_get c k.
Proof.
  intros R. pose proof (numbered_names l c k R) as NM. pose proof (numbered_disjoint l c R) as DJ.
  destruct R as (ND & H & O). unfold c_get. destruct (owner c k) as [i|] eqn:E.
  - pose proof (O _ _ E) as Hi. apply in_map_iff in Hi as ((i' & (g & v)) & <- & Hi).
    destruct (H _ _ _ Hi) as (_ & HC & _ & _ & HH). cbn [fst] in *. rewrite HC.
    apply (getitem_disjoint _ DJ g); [|apply HH, E]. apply in_map_iff. exists (i', (g, v)). auto.
  - apply getitem_error. split; [reflexivity|]. rewrite NM. auto.
Qed.

Lemma nth_split_ops d n e : nth_error d n = Some e ->
  exists a b, d = a ++ e :: b /\ (forall v, set_nth n v d = a ++ (fst e, v) :: b) /\ del_nth n d = a ++ b.
Proof.
  revert n. induction d as [|[g w] d IH]; intros [|n] E; try discriminate.
  - injection E as <-. exists [], d. auto.
  - simpl in E. destruct (IH n E) as (a & b & E1 & E2 & E3). exists ((g, w) :: a), b.
    simpl. rewrite E3. rewrite E1 at 1. repeat split. intros v. rewrite E2. reflexivity.
Qed.
Lemma map_snd_split (l : list (nat * (group * val))) a e b : map snd l = a ++ e :: b ->
  exists la i lb, l = la ++ (i, e) :: lb /\ map snd la = a /\ map snd lb = b.
Proof.
  intros H. apply map_eq_app in H as (la & l2 & -> & E1 & E2). apply map_eq_cons in E2 as ((i & e') & lb & -> & E2 & E3).
  simpl in E2. subst. exists la, i, lb. auto.
Qed.
(** the entry of a known name *)
Lemma resolve_known l c k n : numbered l c -> resolve (map snd l) k = Some n ->
  exists la i g v lb, l = la ++ (i, (g, v)) :: lb /\ In k g /\ owner c k = Some i /\
    nth_error (map snd l) n = Some (g, v) /\
    (forall w, set_nth n w (map snd l) = map snd la ++ (g, w) :: map snd lb) /\
    del_nth n (map snd l) = map snd la ++ map snd lb.
Proof.
  intros R H. apply resolve_from_some in H as (m & g & v & -> & E & I & _). cbn [Nat.add] in *.
  destruct (nth_split_ops _ _ _ E) as (a & b & E1 & E2 & E3).
  destruct (map_snd_split _ _ _ _ E1) as (la & i & lb & -> & Ha & Hb).
  exists la, i, g, v, lb. repeat split; auto.
  - destruct R as (_ & H & _). apply (H i g v); [apply in_app_iff; simpl; auto | exact I].
  - intros w. rewrite E2, Ha, Hb. reflexivity.
  - rewrite E3, Ha, Hb. reflexivity.
Qed.
Lemma resolve_unknown l c k : numbered l c -> resolve (map snd l) k = None -> owner c k = None.
Proof.
  intros R H. apply resolve_from_none in H. rewrite (numbered_names l c k R) in H.
  destruct (owner c k); [exfalso; apply H; discriminate | reflexivity].
Qed.
(** distinct numbers around one entry *)
Lemma split_fresh (la : list (nat * (group * val))) i e lb : NoDup (map fst (la ++ (i, e) :: lb)) ->
  ~ In i (map fst (la ++ lb)) /\ NoDup (map fst (la ++ lb)).
Proof.
  rewrite !map_app. cbn [map fst]. intros H. split; [apply NoDup_remove_2 in H | apply NoDup_remove_1 in H]; exact H.
Qed.
Lemma in_mid {A} (x e : A) la lb : In x (la ++ e :: lb) <-> x = e \/ In x (la ++ lb).
Proof. rewrite !in_app_iff. simpl. intuition. Qed.
Lemma notin_fst (la lb : list (nat * (group * val))) i j e : ~ In i (map fst (la ++ lb)) -> In (j, e) (la ++ lb) -> j <> i.
Proof. intros N H ->. apply N. apply (in_map fst) in H. exact H. Qed.

Lemma rep_set st c k v : rep (ents st) c -> rep (ents (mset st k v)) (c_set c k v).
Proof.
  intros (l & E & R). unfold mset. cbn [ents with_ents]. rewrite <- E.
  destruct (resolve (map snd l) k) as [n|] eqn:RS.
  - destruct (resolve_known l c k n R RS) as (la & i & g & w & lb & -> & Hk & OK & _ & SN & _).
    rewrite SN. unfold c_set. rewrite OK.
    exists (la ++ (i, (g, v)) :: lb). split; [rewrite map_app; reflexivity|].
    destruct R as (ND & H & O). pose proof (split_fresh _ _ _ _ ND) as [NI _].
    repeat split; cbn [fresh owner content].
    + rewrite map_app in *. exact ND.
    + apply in_mid in H0 as [H0|H0].
      * injection H0 as -> -> ->. apply (H i g w), in_mid. auto.
      * apply (H i0 g0 v0), in_mid. auto.
    + apply in_mid in H0 as [H0|H0].
      * injection H0 as -> -> ->. rewrite Nat.eqb_refl. reflexivity.
      * destruct (Nat.eqb_spec i0 i) as [->|]; [exfalso; eapply notin_fst; eauto|].
        apply (H i0 g0 v0), in_mid. auto.
    + apply in_mid in H0 as [H0|H0]; [injection H0 as -> -> ->; apply (H i g w), in_mid; auto | apply (H i0 g0 v0), in_mid; auto].
    + apply in_mid in H0 as [H0|H0]; [injection H0 as -> -> ->; apply (H i g w), in_mid; auto | apply (H i0 g0 v0), in_mid; auto].
    + apply in_mid in H0 as [H0|H0]; [injection H0 as -> -> ->; apply (H i g w), in_mid; auto | apply (H i0 g0 v0), in_mid; auto].
    + apply in_mid in H0 as [H0|H0]; [injection H0 as -> -> ->; apply (H i g w), in_mid; auto | apply (H i0 g0 v0), in_mid; auto].
    + intros k0 i0 E0. apply O in E0. rewrite map_app in *. exact E0.
  - pose proof (resolve_unknown l c k R RS) as OK. unfold c_set. rewrite OK.
    exists (l ++ [(fresh c, ([k], v))]). split; [rewrite map_app; reflexivity|].
    destruct R as (ND & H & O).
    assert (LT : forall i, In i (map fst l) -> i < fresh c).
    { intros i Hi. apply in_map_iff in Hi as ((i' & (g & w)) & <- & Hi). apply H in Hi. apply Hi. }
    assert (C : forall i g w, In (i, (g, w)) (l ++ [(fresh c, ([k], v))]) ->
      (In (i, (g, w)) l /\ i <> fresh c) \/ (i = fresh c /\ g = [k] /\ w = v)).
    { intros i g w Hi. apply in_app_iff in Hi as [Hi|[Hi|[]]].
      - left. split; [exact Hi|]. apply (in_map fst) in Hi. apply LT in Hi. simpl in Hi. lia.
      - injection Hi as <- <- <-. auto. }
    split; [|split].
    + rewrite map_app. cbn [map fst]. eapply Permutation_NoDup; [apply Permutation_cons_append|].
      constructor; [|exact ND]. intros Hf. apply LT in Hf. lia.
    + intros i g w Hi. cbn [fresh owner content]. destruct (C _ _ _ Hi) as [[Hi' N]|(-> & -> & ->)].
      * destruct (H _ _ _ Hi') as (H1 & H2 & H3 & H4 & H5). repeat split; auto.
        -- destruct (Nat.eqb_spec i (fresh c)); [congruence|exact H2].
        -- destruct (str_eqb_spec k0 k) as [->|]; [congruence|]. apply H5.
        -- intros Hk. destruct (str_eqb_spec k0 k) as [->|]; [|apply H5, Hk]. apply H5 in Hk. congruence.
      * repeat split; [lia | rewrite Nat.eqb_refl; reflexivity | discriminate | repeat constructor; intros [] | |].
        -- destruct (str_eqb_spec k0 k) as [->|]; [left; reflexivity|]. intros E0. apply O, LT in E0. lia.
        -- intros [<-|[]]. rewrite str_eqb_refl. reflexivity.
    + intros k0 i. cbn [owner]. rewrite map_app, in_app_iff. destruct (str_eqb k0 k).
      * intros E0. injection E0 as <-. right. left. reflexivity.
      * intros E0. left. eapply O, E0.
Qed.

Lemma rep_del st c k : rep (ents st) c ->
  match mdel st k, c_del c k with
  | Ok st', (c', Ok _) => rep (ents st') c' /\ kgroups st' = kgroups st
  | Raise e, (c', Raise e') => e = e' /\ c' = c
  | _, _ => False
  end.
Proof.
  intros (l & E & R). unfold mdel. rewrite <- E.
  destruct (resolve (map snd l) k) as [n|] eqn:RS.
  - destruct (resolve_known l c k n R RS) as (la & i & g & w & lb & -> & Hk & OK & _ & _ & DN).
    rewrite DN. unfold c_del. rewrite OK. split; [|reflexivity]. cbn [ents with_ents].
    exists (la ++ lb). split; [rewrite map_app; reflexivity|].
    destruct R as (ND & H & O). pose proof (split_fresh _ _ _ _ ND) as [NI ND'].
    split; [exact ND'|]. split.
    + intros j h u Hj. cbn [fresh owner content].
      pose proof (notin_fst _ _ _ _ _ NI Hj) as NE.
      destruct (H j h u (proj2 (in_mid _ _ _ _) (or_intror Hj))) as (H1 & H2 & H3 & H4 & H5).
      repeat split; auto.
      * intros E0. apply H5. destruct (owner c k0) as [j'|]; [|discriminate].
        destruct (Nat.eqb j' i); [discriminate|exact E0].
      * intros Hk0. apply H5 in Hk0. rewrite Hk0. destruct (Nat.eqb_spec j i); [congruence|reflexivity].
    + intros k0 j. cbn [owner]. destruct (owner c k0) as [j'|] eqn:E0; [|discriminate].
      destruct (Nat.eqb_spec j' i) as [->|N]; [discriminate|]. intros E1. injection E1 as ->.
      apply O in E0. rewrite map_app in *. cbn [map fst] in E0. apply in_mid in E0 as [E0|E0]; [congruence|exact E0].
  - unfold c_del. rewrite (resolve_unknown l c k R RS). auto.
Qed.

(** registering one unused alias *)
Lemma rep_alias1 st c k a n g v : rep (ents st) c ->
  resolve (ents st) k = Some n -> nth_error (ents st) n = Some (g, v) -> owner c a = None ->
  exists i, owner c k = Some i /\
  rep (del_nth n (ents st) ++ [(a :: g, v)])
      {| owner := fun x => if str_eqb x a then Some i else owner c x; content := content c; fresh := fresh c |}.
Proof.
  intros (l & E & R) RS EN OA. rewrite <- E in *.
  destruct (resolve_known l c k n R RS) as (la & i & g' & w & lb & -> & Hk & OK & EN' & _ & DN).
  rewrite EN in EN'. injection EN' as <- <-. exists i. split; [exact OK|]. rewrite DN.
  exists ((la ++ lb) ++ [(i, (a :: g, v))]). split; [rewrite !map_app; reflexivity|].
  destruct R as (ND & H & O). pose proof (split_fresh _ _ _ _ ND) as [NI ND'].
  destruct (H i g v (proj2 (in_mid _ _ _ _) (or_introl eq_refl))) as (G1 & G2 & G3 & G4 & G5).
  split; [|split].
  - rewrite map_app. cbn [map fst]. eapply Permutation_NoDup; [apply Permutation_cons_append|]. constructor; assumption.
  - intros j h u Hj. cbn [fresh owner content]. apply in_app_iff in Hj as [Hj|[Hj|[]]].
    + pose proof (notin_fst _ _ _ _ _ NI Hj) as NE.
      destruct (H j h u (proj2 (in_mid _ _ _ _) (or_intror Hj))) as (H1 & H2 & H3 & H4 & H5).
      repeat split; auto.
      * destruct (str_eqb k0 a); [congruence|]. apply H5.
      * intros Hk0. destruct (str_eqb_spec k0 a) as [->|]; [apply H5 in Hk0; congruence|]. apply H5, Hk0.
    + injection Hj as <- <- <-. repeat split; auto; [discriminate | | |].
      * constructor; [|exact G4]. intros Ha. apply G5 in Ha. congruence.
      * destruct (str_eqb_spec k0 a) as [->|N]; [left; reflexivity|]. intros E0. right. apply G5, E0.
      * intros [<-|Hk0]; [rewrite str_eqb_refl; reflexivity|].
        destruct (str_eqb k0 a); [reflexivity | apply G5, Hk0].
  - intros k0 j. cbn [owner]. rewrite map_app. cbn [map fst]. rewrite in_app_iff. simpl. destruct (str_eqb k0 a).
    + intros E0. injection E0 as <-. auto.
    + intros E0. apply O in E0. rewrite map_app in *. cbn [map fst] in E0. apply in_mid in E0 as [E0|E0]; auto.
Qed.

Lemma rep_alias als : forall st c k, kgroups st = [] -> rep (ents st) c ->
  let '(st', r) := malias_loop st k als in
  let '(c', r') := c_alias c k als in
  r = r' /\ rep (ents st') c' /\ kgroups st' = [].
Proof.
  induction als as [|a als IH]; intros st c k KG R; [cbn; auto|].
  cbn [malias_loop c_alias]. destruct (str_eqb_spec a k) as [->|N]; [apply IH; assumption|].
  assert (NM : in_group a (flat_keys (ents st)) = match owner c a with Some _ => true | None => false end).
  { destruct R as (l & E & R). rewrite <- E. pose proof (numbered_names l c a R) as NN.
    destruct (owner c a); [apply in_group_spec, NN; discriminate | apply in_group_false; rewrite NN; congruence]. }
  assert (RK : (resolve (ents st) k = None -> owner c k = None) /\
               (forall n, resolve (ents st) k = Some n -> exists i g v, owner c k = Some i /\ nth_error (ents st) n = Some (g, v)
                                                               /\ getitem (ents st) k = Ok v)).
  { destruct R as (l & E & R). rewrite <- E. split; [apply resolve_unknown, R|].
    intros n RS. destruct (resolve_known l c k n R RS) as (la & i & g & v & lb & _ & _ & OK & EN & _).
    exists i, g, v. repeat split; auto. unfold getitem. rewrite RS, EN. reflexivity. }
  destruct RK as [RK1 RK2].
  rewrite NM. unfold c_alias1. destruct (owner c a) as [j|] eqn:OA.
  - destruct (resolve (ents st) k) as [n|] eqn:RS.
    + destruct (RK2 n eq_refl) as (i & g & v & -> & _). auto.
    + rewrite (RK1 eq_refl). auto.
  - destruct (resolve (ents st) k) as [n|] eqn:RS.
    + destruct (RK2 n eq_refl) as (i & g & v & OK & EN & GI). rewrite EN.
      unfold mget. rewrite KG. cbn [assoc]. rewrite GI, OK.
      destruct (rep_alias1 st c k a n g v R RS EN OA) as (i' & OK' & R').
      assert (i' = i) by congruence. subst i'.
      specialize (IH (with_ents st (del_nth n (ents st) ++ [(a :: g, v)]))
        {| owner := fun x => if str_eqb x a then Some i else owner c x; content := content c; fresh := fresh c |} k KG R').
      exact IH.
    + rewrite (RK1 eq_refl). auto.
Qed.

Lemma rep_step st c o : kgroups st = [] -> plain_op o = true -> rep (ents st) c ->
  let '(st', r) := mstep st o in
  let '(c', r') := c_step c o in
  r = r' /\ rep (ents st') c' /\ kgroups st' = [].
Proof.
  intros KG P R. destruct o as [k v|k|k als|n ks]; [| | |discriminate].
  - cbn [mstep c_step]. split; [reflexivity|]. split; [apply rep_set, R | exact KG].
  - cbn [mstep c_step]. pose proof (rep_del st c k R) as D. destruct (mdel st k) as [st'|e], (c_del c k) as [c' [u|e']]; try contradiction.
    + destruct u. destruct D as [D1 D2]. rewrite D2. auto.
    + destruct D as [-> ->]. auto.
  - destruct als as [|a als].
    + cbn [mstep c_step malias]. split; [|auto]. destruct R as (l & E & R). rewrite <- E.
      destruct (resolve (map snd l) k) as [n|] eqn:RS.
      * destruct (resolve_known l c k n R RS) as (la & i & g & v & lb & _ & _ & -> & _). reflexivity.
      * rewrite (resolve_unknown l c k R RS). reflexivity.
    + exact (rep_alias (a :: als) st c k KG R).
Qed.
Lemma rep_results os : forall st c, kgroups st = [] -> Forall (fun o => plain_op o = true) os -> rep (ents st) c ->
  let '(rs, st') := m_results st os in
  let '(rs', c') := c_results c os in
  rs = rs' /\ rep (ents st') c' /\ kgroups st' = [].
Proof.
  induction os as [|o os IH]; intros st c KG F R; [cbn; auto|].
  inversion F as [|? ? F1 F2]; subst. cbn [m_results c_results].
  pose proof (rep_step st c o KG F1 R) as S. destruct (mstep st o) as [st1 r1], (c_step c o) as [c1 r1'].
  destruct S as (-> & R1 & K1). specialize (IH st1 c1 K1 F2 R1).
  destruct (m_results st1 os) as [rs st'], (c_results c1 os) as [rs' c']. destruct IH as (-> & R' & K'). auto.
Qed.

(** disjoint entries are represented by their cells *)
Lemma position_spec d k : forall i, NoDup (flat_keys d) ->
  forall j, position d k i = Some j <-> exists n g v, j = i + n /\ nth_error d n = Some (g, v) /\ In k g.
Proof.
  induction d as [|[g v] d IH]; intros i ND j; cbn [position].
  - split; [discriminate|]. intros (n & h & w & _ & E & _). destruct n; discriminate.
  - unfold flat_keys in ND. cbn [map fst concat] in ND.
    assert (ND' : NoDup (flat_keys d)) by (clear -ND; induction g; simpl in ND; [exact ND|]; inversion ND; auto).
    destruct (in_group k g) eqn:G.
    + apply in_group_spec in G. split.
      * intros E. injection E as <-. exists 0, g, v. rewrite Nat.add_0_r. auto.
      * intros (n & h & w & -> & E & I). destruct n as [|n]; [rewrite Nat.add_0_r; reflexivity|]. exfalso.
        pose proof (disjoint_unique ((g, v) :: d) ND 0 (S n) g h v w k eq_refl E G I). lia.
    + rewrite IH by exact ND'. apply in_group_false in G. split.
      * intros (n & h & w & -> & E & I). exists (S n), h, w. split; [lia | auto].
      * intros (n & h & w & -> & E & I). destruct n as [|n]; [injection E as -> ->; contradiction|].
        exists n, h, w. split; [lia | auto].
Qed.
Lemma nodup_concat_in (gs : list (list str)) g : NoDup (concat gs) -> In g gs -> NoDup g.
Proof.
  induction gs as [|h gs IH]; intros ND [].
  - subst. simpl in ND. clear IH. induction g; [constructor|]. simpl in ND. inversion ND; subst.
    constructor; [intros X; apply H1; apply in_app_iff; auto | auto].
  - apply IH; [|assumption]. simpl in ND. clear -ND. induction h; simpl in ND; [exact ND|]. inversion ND; auto.
Qed.
Lemma combine_fst {A B} (a : list A) : forall b : list B, length a = length b -> map fst (combine a b) = a.
Proof. induction a as [|x a IH]; intros [|y b] H; simpl in *; try congruence. f_equal. apply IH. lia. Qed.
Lemma combine_snd {A B} (a : list A) : forall b : list B, length a = length b -> map snd (combine a b) = b.
Proof. induction a as [|x a IH]; intros [|y b] H; simpl in *; try congruence. f_equal. apply IH. lia. Qed.
Lemma combine_seq_in {B} (l : list B) : forall s i e, In (i, e) (combine (seq s (length l)) l) -> exists n, i = s + n /\ nth_error l n = Some e.
Proof.
  induction l as [|x l IH]; intros s i e H; [destruct H|]. simpl in H. destruct H as [H|H].
  - injection H as <- <-. exists 0. rewrite Nat.add_0_r. auto.
  - apply IH in H as (n & -> & E). exists (S n). split; [lia | exact E].
Qed.
Lemma rep_init d dflt : NoDup (flat_keys d) -> (forall gv, In gv d -> fst gv <> []) -> rep d (cells_of d dflt).
Proof.
  intros ND NE. exists (combine (seq 0 (length d)) d).
  assert (L : length (seq 0 (length d)) = length d) by apply seq_length.
  split; [apply combine_snd, L|]. split; [rewrite combine_fst by exact L; apply seq_NoDup|]. split.
  - intros i g v H. apply combine_seq_in in H as (n & -> & E). cbn [Nat.add cells_of owner content fresh].
    assert (Hn : n < length d) by (apply nth_error_Some; congruence).
    pose proof (nth_error_In _ _ E) as HI. repeat split.
    + exact Hn.
    + rewrite E. reflexivity.
    + apply (NE (g, v)), HI.
    + eapply nodup_concat_in; [exact ND|]. apply (in_map fst) in HI. exact HI.
    + intros P. apply position_spec in P as (m & h & w & Em & E' & I); [|exact ND]. simpl in Em. subst m. congruence.
    + intros I. apply position_spec; [exact ND|]. exists n, g, v. auto.
  - intros k i P. cbn [cells_of owner] in P. apply position_spec in P as (m & h & w & -> & E & _); [|exact ND].
    rewrite combine_fst by exact L. apply in_seq. assert (m < length d) by (apply nth_error_Some; congruence). lia.
Qed.
End Refine.
