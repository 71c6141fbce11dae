(** Alias groups (C07) and name maps (C08). *)
From Verif Require Import PyBase PyLemmas AliasedModel AliasedSpec AliasedProofs.
From Coq Require Import Permutation.

(** ** Groups *)
Lemma nodup_app_iff {A} (a b : list A) :
  NoDup (a ++ b) <-> NoDup a /\ NoDup b /\ forall x, In x a -> ~ In x b.
Proof.
  induction a as [|y a IH]; simpl.
  - split; [intros H; repeat split; [constructor | exact H | intros x []] | tauto].
  - rewrite !NoDup_cons_iff, IH, in_app_iff. split.
    + intros (N & Ha & Hb & D). repeat split; auto. intros x [<-|H]; auto.
    + intros ((N & Ha) & Hb & D). repeat split; auto. intros [H|H]; [auto|]. apply (D y); auto.
Qed.
Lemma get_some gs x g : groups_get gs x = Some g -> In g gs /\ In x (gnames g).
Proof.
  induction gs as [|h gs IH]; simpl; [discriminate|].
  destruct (in_group x (gnames h) || group_eqb [x] (gnames h)) eqn:E.
  - intros H. injection H as <-. split; [auto|]. apply orb_true_iff in E as [E|E].
    + apply in_group_spec, E.
    + apply group_eqb_spec in E. apply E. left. reflexivity.
  - intros H. destruct (IH H). auto.
Qed.
Lemma get_none gs x : groups_get gs x = None -> ~ In x (groups_flat gs).
Proof.
  unfold groups_flat. induction gs as [|h gs IH]; simpl; [auto|].
  destruct (in_group x (gnames h)) eqn:E; simpl; [discriminate|].
  destruct (group_eqb [x] (gnames h)); [discriminate|].
  intros H. rewrite in_app_iff. apply in_group_false in E. intros [X|X]; auto. apply IH in H; auto.
Qed.
Lemma search_some gs ks g : groups_search gs ks = Some g -> In g gs /\ exists k, In k ks /\ In k (gnames g).
Proof.
  induction ks as [|k ks IH]; simpl; [discriminate|]. destruct (groups_get gs k) eqn:E.
  - intros H. injection H as ->. apply get_some in E as [E1 E2]. eauto.
  - intros H. destruct (IH H) as (H1 & k' & H2 & H3). eauto.
Qed.
Lemma search_none gs ks : groups_search gs ks = None -> forall k, In k ks -> ~ In k (groups_flat gs).
Proof.
  induction ks as [|x ks IH]; simpl; [intros _ k []|]. destruct (groups_get gs x) eqn:E; [discriminate|].
  intros H k [<-|Hk]; [apply get_none, E | apply IH; assumption].
Qed.
Lemma remove_split g gs : In g gs -> exists a h b, gs = a ++ h :: b /\ same_names (gnames g) (gnames h) /\
  groups_remove g gs = Ok (a ++ b).
Proof.
  induction gs as [|x gs IH]; [intros []|]. intros H. simpl.
  destruct (group_eqb (gnames g) (gnames x)) eqn:E.
  - exists [], x, gs. split; [reflexivity|]. split; [apply group_eqb_spec, E | reflexivity].
  - destruct H as [->|H].
    + exfalso. assert (X : group_eqb (gnames g) (gnames g) = true) by (apply group_eqb_spec; intros k; tauto). congruence.
    + destruct (IH H) as (a & h & b & -> & S & R). exists (x :: a), h, b. rewrite R. auto.
Qed.
Lemma flat_app a b : groups_flat (a ++ b) = groups_flat a ++ groups_flat b.
Proof. unfold groups_flat. rewrite map_app, concat_app. reflexivity. Qed.
Lemma init_nodup gs : disjoint_groups (map gnames gs) -> map gnames (groups_init (map gnames gs)) = map gnames gs.
Proof.
  unfold disjoint_groups, groups_init. intros H. rewrite !map_map. cbn [gnames].
  apply map_ext_in. intros g Hg. apply dedup_id. eapply (nodup_concat_in _ _ H). apply in_map, Hg.
Qed.

Lemma add_disjoint gs ks gs' : disjoint_groups (map gnames gs) -> groups_add gs ks = Ok gs' ->
  disjoint_groups (map gnames gs').
Proof.
  unfold groups_add, disjoint_groups. destruct existsb eqn:E; [discriminate|]. intros D H. injection H as <-.
  rewrite map_app, concat_app. apply nodup_app_iff. cbn [map gnames concat]. rewrite app_nil_r.
  repeat split; [exact D | apply dedup_nodup|]. intros x Hx Hk. rewrite dedup_in in Hk.
  assert (X : existsb (fun k => in_group k (groups_flat gs)) ks = true); [|congruence].
  apply existsb_exists. exists x. split; [exact Hk|]. apply in_group_spec. exact Hx.
Qed.

(** [o] touches at most one of the groups *)
Definition touches_one (gs : list gentry) (o : list str) : Prop :=
  forall g h k k', In g gs -> In h gs -> In k (gnames g) -> In k' (gnames h) -> In k o -> In k' o -> g = h.

Lemma merge_one gs o : disjoint_groups (map gnames gs) -> (forall g, In g gs -> graw g = false) ->
  touches_one gs o ->
  exists gs', groups_merge gs [o] = Ok gs' /\
    disjoint_groups (map gnames gs') /\
    (exists g', In g' gs' /\ incl o (gnames g')) /\
    (forall g, In g gs -> exists g', In g' gs' /\ incl (gnames g) (gnames g')) /\
    (forall k, In k (groups_flat gs') <-> In k (groups_flat gs) \/ In k o) /\
    (forall g, In g gs -> (forall k, In k (gnames g) -> ~ In k o) -> exists g', In g' gs' /\ gnames g' = gnames g).
Proof.
  intros D NR T. unfold groups_merge. cbn [groups_merge_from]. destruct (groups_search gs o) as [f|] eqn:S.
  - apply search_some in S as (Hf & k0 & Hk0 & Hkf).
    destruct (remove_split f gs Hf) as (a & h & b & E & SN & R). rewrite R. cbn [bind].
    rewrite (NR f Hf). cbn [bind].
    assert (h = f).
    { apply (T h f k0 k0); auto; [rewrite E; apply in_app_iff; simpl; auto | apply SN, Hkf]. }
    subst h. clear SN R.
    assert (D' : NoDup (groups_flat (a ++ b)) /\ NoDup (gnames f) /\ forall x, In x (gnames f) -> ~ In x (groups_flat (a ++ b))).
    { unfold disjoint_groups in D. rewrite E in D. rewrite map_app, concat_app in D. cbn [map concat] in D.
      apply (Permutation_NoDup (l' := gnames f ++ groups_flat (a ++ b))) in D.
      - apply nodup_app_iff in D. tauto.
      - rewrite flat_app. unfold groups_flat. apply Permutation_app_swap_app. }
    destruct D' as (D1 & D2 & D3).
    set (n := {| gnames := dedup (gnames f ++ o); graw := false |}).
    assert (D4 : disjoint_groups (map gnames ((a ++ b) ++ [n]))).
    { unfold disjoint_groups. rewrite map_app, concat_app. apply nodup_app_iff. cbn [map concat n gnames]. rewrite app_nil_r.
      repeat split; [exact D1 | apply dedup_nodup|]. intros x Hx Hn. rewrite dedup_in, in_app_iff in Hn. destruct Hn as [Hn|Hn].
      - exact (D3 x Hn Hx).
      - apply in_concat in Hx as (gx & Hgx & Hx). apply in_map_iff in Hgx as (g & <- & Hg).
        assert (g = f).
        { apply (T g f x k0); auto. rewrite E. apply in_app_iff. apply in_app_iff in Hg as [|]; simpl; auto. }
        subst g. apply (D3 x Hx). unfold groups_flat. apply in_concat. exists (gnames f). split; [apply in_map, Hg | exact Hx]. }
    eexists. split; [reflexivity|].
    pose proof (init_nodup _ D4) as IN.
    assert (MEM : forall l, In l (map gnames ((a ++ b) ++ [n])) ->
                  exists g', In g' (groups_init (map gnames ((a ++ b) ++ [n]))) /\ gnames g' = l).
    { intros l Hl. rewrite <- IN in Hl. apply in_map_iff in Hl as (g' & <- & Hg'). eauto. }
    assert (Hn : In (gnames n) (map gnames ((a ++ b) ++ [n]))) by (apply in_map, in_app_iff; simpl; auto).
    assert (Hab : forall g, In g gs -> g = f \/ In g (a ++ b)).
    { intros g Hg. rewrite E in Hg. apply in_app_iff in Hg as [|[|]]; rewrite ?in_app_iff; auto. }
    split; [unfold disjoint_groups; rewrite IN; exact D4|].
    split.
    { destruct (MEM _ Hn) as (g' & Hg' & Eg). exists g'. split; [exact Hg'|]. intros k Hk. rewrite Eg. unfold n; cbn [gnames]; rewrite dedup_in, in_app_iff; auto. }
    split.
    { intros g Hg. destruct (Hab g Hg) as [->|Hg2].
      - destruct (MEM _ Hn) as (g' & Hg' & Eg). exists g'. split; [exact Hg'|]. intros k Hk. rewrite Eg. unfold n; cbn [gnames]; rewrite dedup_in, in_app_iff; auto.
      - destruct (MEM (gnames g)) as (g' & Hg' & Eg); [apply in_map, in_app_iff; auto|]. exists g'. rewrite Eg. split; [exact Hg' | intros k; auto]. }
    split.
    { intros k. unfold groups_flat at 1. rewrite IN, map_app, concat_app, in_app_iff. cbn [map concat n gnames]. rewrite app_nil_r, dedup_in, in_app_iff.
      change (concat (map gnames (a ++ b))) with (groups_flat (a ++ b)). rewrite E, !flat_app, !in_app_iff.
      unfold groups_flat. cbn [map concat]. rewrite in_app_iff. tauto. }
    intros g Hg NT. destruct (Hab g Hg) as [->|Hg2]; [exfalso; exact (NT k0 Hkf Hk0)|].
    apply MEM, in_map, in_app_iff. auto.
  - pose proof (search_none _ _ S) as N. cbn [bind].
    set (n := {| gnames := o; graw := true |}). eexists. split; [reflexivity|].
    assert (IN : map gnames (groups_init (map gnames (gs ++ [n]))) = map gnames gs ++ [dedup o]).
    { unfold groups_init. rewrite !map_map, map_app. cbn [map gnames n]. f_equal.
      apply map_ext_in. intros g Hg. apply dedup_id. apply (nodup_concat_in _ _ D). apply in_map, Hg. }
    assert (MEM : forall l, In l (map gnames gs ++ [dedup o]) ->
                  exists g', In g' (groups_init (map gnames (gs ++ [n]))) /\ gnames g' = l).
    { intros l Hl. rewrite <- IN in Hl. apply in_map_iff in Hl as (g' & <- & Hg'). eauto. }
    split.
    { unfold disjoint_groups. rewrite IN, concat_app. apply nodup_app_iff. cbn [concat]. rewrite app_nil_r.
      repeat split; [exact D | apply dedup_nodup|]. intros x Hx Ho. rewrite dedup_in in Ho. exact (N x Ho Hx). }
    split.
    { destruct (MEM (dedup o)) as (g' & Hg' & Eg); [apply in_app_iff; simpl; auto|]. exists g'. split; [exact Hg'|].
      intros k Hk. rewrite Eg. rewrite dedup_in; exact Hk. }
    split.
    { intros g Hg. destruct (MEM (gnames g)) as (g' & Hg' & Eg); [apply in_app_iff; left; apply in_map, Hg|].
      exists g'. rewrite Eg. split; [exact Hg' | intros k; auto]. }
    split.
    { intros k. unfold groups_flat at 1. rewrite IN, concat_app, in_app_iff. cbn [concat]. rewrite app_nil_r, dedup_in. reflexivity. }
    intros g Hg _. apply MEM, in_app_iff. left. apply in_map, Hg.
Qed.

(** ** Name maps *)
Section Names.
Notation val := (pyval str).

Lemma c_alias_effect als : forall (c : cells val) k c', c_alias c k als = (c', Ok tt) ->
  forall i, owner c k = Some i ->
  content c' = content c /\ fresh c' = fresh c /\
  forall x, owner c' x = if in_group x als then Some i else owner c x.
Proof.
  induction als as [|a als IH]; intros c k c' H i OK; cbn [c_alias in_group existsb] in *.
  - injection H as <-. auto.
  - destruct (str_eqb_spec a k) as [->|N].
    + destruct (IH _ _ _ H i OK) as (H1 & H2 & H3). repeat split; auto. intros x. rewrite H3. unfold in_group.
      cbn [existsb]. destruct (str_eqb_spec x k) as [->|]; cbn [orb]; [|reflexivity]. rewrite OK. destruct existsb; reflexivity.
    + unfold c_alias1 in H. rewrite OK in H. destruct (owner c a) eqn:OA; [discriminate|].
      assert (OK' : (if str_eqb k a then Some i else owner c k) = Some i) by (rewrite OK; destruct str_eqb; reflexivity).
      destruct (IH _ _ _ H i OK') as (H1 & H2 & H3). cbn [owner content fresh] in *. repeat split; auto.
      intros x. rewrite H3. unfold in_group. cbn [existsb]. destruct (str_eqb x a); cbn [orb]; destruct existsb; reflexivity.
Qed.
Lemma c_alias_unknown als (c : cells val) k c' : c_alias c k als = (c', Ok tt) -> ~ In k als -> als <> [] ->
  owner c k <> None.
Proof.
  destruct als as [|a als]; [congruence|]. cbn [c_alias]. intros H N _ E.
  destruct (str_eqb_spec a k) as [->|]; [apply N; left; reflexivity|].
  unfold c_alias1 in H. rewrite E in H. discriminate.
Qed.

Lemma apply_rep us : forall st c st', kgroups st = [] -> rep (ents st) c ->
  (forall k als, In (k, als) us -> owner c k <> None \/ ~ In k als) ->
  apply_aliases st us = Ok st' ->
  exists c', rep (ents st') c' /\ content c' = content c /\
    (forall x i, owner c x = Some i -> owner c' x = Some i) /\
    (forall k als, In (k, als) us -> owner c k <> None \/ (exists j, owner c' k = Some j /\ In k (flat_map snd us))) /\
    (forall k als a, In (k, als) us -> In a als -> owner c' a = owner c' k) /\
    (forall x, owner c' x <> None -> owner c x <> None \/ exists k als, In (k, als) us /\ In x als).
Proof.
  induction us as [|[k als] us IH]; intros st c st' KG R OKs H; cbn [apply_aliases] in H.
  - injection H as <-. exists c. repeat split; auto; intros; contradiction.
  - assert (ST : exists st1 c1 i, malias st k als = (st1, Ok tt) /\ rep (ents st1) c1 /\ kgroups st1 = [] /\
        owner c k = Some i /\ content c1 = content c /\
        (forall x, owner c1 x = if in_group x als then Some i else owner c x)).
    { destruct (malias st k als) as [st1 [u|e]] eqn:M; [|discriminate]. destruct u.
      destruct als as [|a als].
      - cbn [malias] in M. destruct (resolve (ents st) k) as [n|] eqn:RS; [|discriminate]. injection M as <-.
        destruct R as (l & E & R). rewrite <- E in RS. destruct (resolve_known l c k n R RS) as (_ & i & _ & _ & _ & _ & _ & OK & _).
        exists st, c, i. split; [reflexivity|]. split; [exists l; auto|]. repeat split; auto.
      - pose proof (rep_alias (a :: als) st c k KG R) as RA. change (malias st k (a :: als)) with (malias_loop st k (a :: als)) in M.
        rewrite M in RA. destruct (c_alias c k (a :: als)) as [c1 r1] eqn:CA. destruct RA as (<- & R1 & K1).
        assert (OK : owner c k <> None).
        { destruct (OKs k (a :: als) (or_introl eq_refl)) as [X|X]; [exact X|]. eapply c_alias_unknown; eauto. discriminate. }
        destruct (owner c k) as [i|] eqn:EK; [|congruence].
        destruct (c_alias_effect _ _ _ _ CA i EK) as (H1 & H2 & H3).
        exists st1, c1, i. repeat split; auto. }
    destruct ST as (st1 & c1 & i & M & R1 & K1 & OK & CT & OW). rewrite M in H.
    assert (KEEP : forall x j, owner c x = Some j -> in_group x als = false \/ j = i -> owner c1 x = Some j).
    { intros x j Ex [G| ->]; rewrite OW; [rewrite G; exact Ex | destruct in_group; auto]. }
    assert (KEEP2 : forall x j, owner c x = Some j -> owner c1 x = Some j).
    { intros x j Ex. destruct (in_group x als) eqn:G; [|apply KEEP; auto].
      (* an owned name among the aliases is the key itself *)
      assert (x = k).
      { destruct als as [|a als']; [discriminate|]. 
        pose proof (rep_alias (a :: als') st c k KG R) as RA. change (malias st k (a :: als')) with (malias_loop st k (a :: als')) in M.
        rewrite M in RA. destruct (c_alias c k (a :: als')) as [c2 r2] eqn:CA. destruct RA as (Er & _ & _). subst r2.
        clear -CA G Ex OK. revert c c2 CA Ex OK G. generalize (a :: als') as l. induction l as [|b l IH]; intros c c2 CA Ex OK G; [discriminate|].
        cbn [c_alias] in CA. unfold in_group in G. cbn [existsb] in G. destruct (str_eqb_spec b k) as [->|N].
        - destruct (str_eqb_spec x k) as [E|E]; [exact E|]. cbn [orb] in G. eapply IH; eauto.
        - unfold c_alias1 in CA. rewrite OK in CA. destruct (owner c b) eqn:OB; [discriminate|].
          destruct (str_eqb_spec x b) as [->|E]; [congruence|]. cbn [orb] in G. eapply IH; eauto; cbn [owner].
          + destruct (str_eqb_spec x b); [contradiction|exact Ex].
          + destruct (str_eqb_spec k b); [reflexivity|exact OK]. }
      subst x. rewrite OK in Ex. injection Ex as <-. apply KEEP; auto. }
    destruct (IH st1 c1 st' K1 R1) as (c' & R' & CT' & A1 & A2 & A3 & A4); [|exact H|].
    { intros k' als' H'. destruct (OKs k' als' (or_intror H')) as [X|X]; [|auto]. left.
      destruct (owner c k') as [j|] eqn:E; [|congruence]. rewrite (KEEP2 _ _ E). discriminate. }
    exists c'. split; [exact R'|]. split; [congruence|]. split; [auto|]. split; [|split].
    + intros k' als' [H'|H']; [injection H' as <- <-; left; congruence|].
      destruct (A2 _ _ H') as [X|(j & X1 & X2)].
      * destruct (owner c k') eqn:E; [left; discriminate|]. right. rewrite OW in X.
        destruct (in_group k' als) eqn:G; [|congruence]. exists i. split; [apply A1; rewrite OW, G; reflexivity|].
        cbn [flat_map snd]. apply in_app_iff. left. apply in_group_spec, G.
      * right. exists j. split; [exact X1|]. cbn [flat_map]. apply in_app_iff. auto.
    + intros k' als' a [H'|H'] Ha; [|eapply A3; eauto]. injection H' as <- <-.
      rewrite (A1 k i), (A1 a i); [reflexivity | | apply KEEP2, OK].
      rewrite OW. apply in_group_spec in Ha. rewrite Ha. reflexivity.
    + intros x Hx. destruct (A4 x Hx) as [X|(k' & als' & X1 & X2)]; [|right; exists k', als'; simpl; auto].
      rewrite OW in X. destruct (in_group x als) eqn:G; [|auto]. right. exists k, als. simpl. split; [auto|]. apply in_group_spec, G.
Qed.

(** the map from each canonical name to itself *)
Lemma identity_build names : forall d : entries val,
  NoDup (flat_keys d) -> (forall g v, In (g, v) d -> exists k, g = [k] /\ v = Plain k) ->
  let d' := fold_left (build_step (fun _ _ => false)) (map (fun k => (KOne k, Plain k)) names) d in
  NoDup (flat_keys d') /\ (forall g v, In (g, v) d' -> exists k, g = [k] /\ v = Plain k) /\
  forall k, In k (flat_keys d') <-> In k (flat_keys d) \/ In k names.
Proof.
  induction names as [|n names IH]; intros d ND S; cbn [map fold_left]; [simpl; tauto|].
  unfold build_step at 2 4 6. cbn [fst snd]. destruct (first_with d n) eqn:F.
  - assert (E : first_set d n (Plain n) = d).
    { clear -S. induction d as [|[h w] d IHd]; simpl; [reflexivity|]. destruct (in_group n h) eqn:G.
      - destruct (S h w (or_introl eq_refl)) as (k & -> & ->). apply in_group_spec in G as [->|[]]. reflexivity.
      - rewrite IHd; [reflexivity|]. intros g v H. apply S. right. exact H. }
    rewrite E. destruct (IH d ND S) as (A & B & C). split; [exact A|]. split; [exact B|].
    intros k. rewrite C. simpl. split; [tauto|]. intros [H|[<-|H]]; auto. left.
    destruct (in_dec (list_eq_dec ascii_dec) n (flat_keys d)) as [Y|N]; [exact Y|]. apply first_with_none in N. congruence.
  - assert (E : dict_set (fun _ _ => false) d [n] (Plain n) = d ++ [([n], Plain n)]).
    { clear. induction d as [|[h w] d IHd]; simpl; [reflexivity|]. rewrite IHd. reflexivity. }
    rewrite E. apply first_with_none in F.
    assert (FK : flat_keys (d ++ [([n], Plain n)]) = flat_keys d ++ [n]).
    { unfold flat_keys. rewrite map_app, concat_app. reflexivity. }
    destruct (IH (d ++ [([n], Plain n)])) as (A & B & C).
    + rewrite FK. apply nodup_app_iff. repeat split; [exact ND | repeat constructor; intros []|].
      intros x Hx [<-|[]]. exact (F Hx).
    + intros g v H. apply in_app_iff in H as [H|[H|[]]]; [apply S, H|]. injection H as <- <-. eauto.
    + split; [exact A|]. split; [exact B|]. intros k. rewrite C, FK, in_app_iff. simpl. tauto.
Qed.
Lemma identity_rep names : exists c, rep (identity_map names) c /\
  (forall k, In k names -> c_get c k = Ok (Plain k)) /\ (forall k, owner c k <> None <-> In k names).
Proof.
  destruct (identity_build names [] (NoDup_nil _)) as (A & B & C); [intros g v []|].
  change (fold_left _ _ []) with (identity_map names) in *.
  exists (cells_of (identity_map names) (Plain [])).
  assert (R : rep (identity_map names) (cells_of (identity_map names) (Plain []))).
  { apply rep_init; [exact A|]. intros [g v] H. destruct (B g v H) as (k & -> & _). discriminate. }
  split; [exact R|]. destruct R as (l & E & R).
  assert (O : forall k, owner (cells_of (identity_map names) (Plain [])) k <> None <-> In k names).
  { intros k. rewrite <- (numbered_names l _ k R), E, C. unfold flat_keys. simpl. tauto. }
  split; [|exact O]. intros k Hk. rewrite <- (numbered_get l _ k R), E.
  assert (Hf : In k (flat_keys (identity_map names))) by (apply C; auto).
  unfold flat_keys in Hf. apply in_concat in Hf as (g & Hg & Hkg). apply in_map_iff in Hg as ((g' & v) & <- & Hin).
  apply (getitem_disjoint _ A g'); [|exact Hkg]. destruct (B _ _ Hin) as (k' & -> & ->). destruct Hkg as [<-|[]]. exact Hin.
Qed.

Lemma assoc_set_in {A} (l : list (str * A)) k a k' a' :
  In (k', a') (assoc_set l k a) -> (k' = k /\ a' = a) \/ In (k', a') l.
Proof.
  induction l as [|[h b] l IH]; simpl.
  - intros [H|[]]. injection H as <- <-. auto.
  - destruct (str_eqb_spec h k) as [->|N]; simpl.
    + intros [H|H]; [injection H as <- <-; auto | auto].
    + intros [H|H]; [auto|]. apply IH in H. tauto.
Qed.
Lemma fold_assoc_from {A} (l : list (str * A)) : forall acc k a,
  In (k, a) (fold_left (fun acc kv => assoc_set acc (fst kv) (snd kv)) l acc) -> In (k, a) acc \/ In (k, a) l.
Proof.
  induction l as [|[h b] l IH]; intros acc k a; cbn [fold_left fst snd]; [auto|].
  intros H. apply IH in H as [H|H]; [|simpl; auto]. apply assoc_set_in in H. simpl. intuition (subst; auto).
Qed.
Lemma assoc_set_has {A} (l : list (str * A)) k a : In (k, a) (assoc_set l k a).
Proof.
  induction l as [|[h b] l IH]; simpl; [auto|]. destruct (str_eqb_spec h k) as [->|]; simpl; auto.
Qed.
Lemma assoc_set_other {A} (l : list (str * A)) k a k' a' : k' <> k -> In (k', a') l -> In (k', a') (assoc_set l k a).
Proof.
  intros N. induction l as [|[h b] l IH]; simpl; [auto|]. destruct (str_eqb_spec h k) as [->|]; simpl; intros [H|H]; auto.
  injection H as -> ->. congruence.
Qed.
Lemma fold_assoc_has {A} (l : list (str * A)) k a : In (k, a) l -> (forall a', In (k, a') l -> a' = a) -> forall acc,
  In (k, a) (fold_left (fun acc kv => assoc_set acc (fst kv) (snd kv)) l acc).
Proof.
  intros H U acc.
  assert (G : forall l acc, (forall a', In (k, a') l -> a' = a) -> In (k, a) l \/ In (k, a) acc ->
    In (k, a) (fold_left (fun acc kv => assoc_set acc (fst kv) (snd kv)) l acc)).
  { clear. induction l as [|[h b] l IH]; intros acc U H; cbn [fold_left fst snd]; [destruct H as [[]|H]; exact H|].
    apply IH; [intros a' H'; apply U; right; exact H'|].
    destruct H as [[H|H]|H]; [injection H as -> ->; right; apply assoc_set_has | auto |].
    right. destruct (list_eq_dec ascii_dec k h) as [->|N]; [|apply assoc_set_other; auto].
    rewrite (U b (or_introl eq_refl)). apply assoc_set_has. }
  apply G; auto.
Qed.
Lemma get_aliases_map names m : get_aliases names (DMap m) =
  fold_left (fun acc kv => assoc_set acc (fst kv) (snd kv)) (map (fun kv => (fst kv, remove_name (fst kv) (snd kv))) m) [].
Proof.
  unfold get_aliases. generalize (@nil (str * list str)). induction m as [|[k a] m IH]; intros acc; [reflexivity|]. cbn [map fold_left fst snd]. apply IH.
Qed.
Lemma remove_name_in k als a : In a (remove_name k als) <-> In a als /\ a <> k.
Proof. unfold remove_name. rewrite filter_In, negb_true_iff. destruct (str_eqb_spec a k); split; intros []; split; auto; congruence. Qed.
Lemma get_aliases_key names d k als : In (k, als) (get_aliases names d) -> In k names \/ ~ In k als.
Proof.
  destruct d as [m|gs].
  - rewrite get_aliases_map. intros H. apply fold_assoc_from in H as [[]|H]. apply in_map_iff in H as ((k' & a') & E & _).
    injection E as <- <-. right. rewrite remove_name_in. tauto.
  - intros H. apply fold_assoc_from in H as [[]|H]. apply in_flat_map in H as (g & _ & H).
    apply in_map_iff in H as (k' & E & H). injection E as <- <-. apply filter_In in H. tauto.
Qed.

Lemma namemap_main d refs names m : get_names d refs = Ok names -> namemap d refs = Ok m ->
  (forall k, In k names -> namemap_get m k = Ok (Plain k)) /\
  (forall k als a, In (k, als) (get_aliases names d) -> In a als -> namemap_get m a = namemap_get m k) /\
  (forall x, namemap_get m x = Raise KeyError <-> ~ In x names /\ forall k als, In (k, als) (get_aliases names d) -> ~ In x als).
Proof.
  unfold namemap. intros -> H. cbn [bind] in H.
  destruct (apply_aliases (mnew (identity_map names)) (get_aliases names d)) as [st'|e] eqn:AP; [|discriminate].
  cbn [bind] in H. injection H as <-.
  destruct (identity_rep names) as (c & R & V & O).
  destruct (apply_rep (get_aliases names d) (mnew (identity_map names)) c st' eq_refl R) as (c' & R' & CT & A1 & A2 & A3 & A4); [|exact AP|].
  { intros k als Hk. apply get_aliases_key in Hk as [Hk|Hk]; [left; apply O, Hk | auto]. }
  destruct R' as (l & E & R'). unfold namemap_get.
  assert (GI : forall k, getitem (ents st') k = c_get c' k) by (intros k; rewrite <- E; apply numbered_get, R').
  split; [|split].
  - intros k Hk. rewrite GI. specialize (V k Hk). unfold c_get in *. destruct (owner c k) as [i|] eqn:EK; [|discriminate].
    rewrite (A1 _ _ EK), CT. exact V.
  - intros k als a Hk Ha. rewrite !GI. unfold c_get. rewrite (A3 _ _ _ Hk Ha). reflexivity.
  - intros x. rewrite GI. unfold c_get. destruct (owner c' x) as [i|] eqn:EX.
    + split; [discriminate|]. intros [N1 N2]. exfalso. destruct (A4 x) as [X|(k & als & X1 & X2)]; [congruence | apply O in X; auto | exact (N2 _ _ X1 X2)].
    + split; [|reflexivity]. intros _. split.
      * intros Hx. apply O in Hx. destruct (owner c x) as [i|] eqn:E0; [|congruence]. apply A1 in E0. congruence.
      * intros k als Hk Hx. pose proof (A3 _ _ _ Hk Hx) as X. rewrite EX in X.
        destruct (A2 _ _ Hk) as [Y|(j & Y & _)]; [|congruence]. destruct (owner c k) as [i|] eqn:E0; [|congruence].
        apply A1 in E0. congruence.
Qed.
End Names.
