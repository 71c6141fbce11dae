(** C92: the names of quantities and parameters.  Also C08: when a name map can be built. *)
From Verif Require Import PyBase PyLemmas ContainerModel ContainerProofs AliasedModel AliasedModel2 AliasedSpec AliasedProofs
  AliasedNames AliasedProperties AliasedProperties3 DatafileModel ReferenceModel ReferenceSpec.

(** ** When aliases can be registered *)
Lemma c_alias_when als : forall (c : cells (pyval str)) k i, owner c k = Some i -> ~ In k als ->
  (NoDup als /\ (forall a, In a als -> owner c a = None) /\ exists c', c_alias c k als = (c', Ok tt)) \/
  (~ (NoDup als /\ forall a, In a als -> owner c a = None) /\ exists c', c_alias c k als = (c', Raise KeyError)).
Proof.
  induction als as [|a als IH]; intros c k i OK N; cbn [c_alias].
  - left. split; [constructor|]. split; [intros a []|]. exists c. reflexivity.
  - destruct (str_eqb_spec a k) as [->|NE]; [exfalso; apply N; left; reflexivity|].
    unfold c_alias1. rewrite OK. destruct (owner c a) as [j|] eqn:OA.
    + right. split; [|exists c; reflexivity]. intros (_ & H). specialize (H a (or_introl eq_refl)). congruence.
    + set (c1 := {| owner := _; content := _; fresh := _ |}).
      assert (OK1 : owner c1 k = Some i) by (cbn; rewrite OK; destruct str_eqb; reflexivity).
      destruct (IH c1 k i OK1) as [(ND & U & c' & E)|(H & c' & E)]; [intros H; apply N; right; exact H| |].
      * left. assert (NA : ~ In a als).
        { intros H. specialize (U a H). cbn in U. rewrite str_eqb_refl in U. discriminate. }
        split; [constructor; assumption|]. split; [|exists c'; exact E].
        intros b [<-|Hb]; [exact OA|]. specialize (U b Hb). cbn in U. destruct (str_eqb b a); [discriminate|exact U].
      * right. split; [|exists c'; exact E]. intros (ND & U). apply H. inversion ND as [|? ? NA ND']; subst. split; [exact ND'|].
        intros b Hb. cbn. destruct (str_eqb_spec b a) as [->|]; [contradiction|]. apply U. right. exact Hb.
Qed.
Lemma apply_when us : forall st c, kgroups st = [] -> rep (ents st) c ->
  (forall k als, In (k, als) us -> owner c k <> None /\ ~ In k als) ->
  (NoDup (concat (map snd us)) /\ (forall a, In a (concat (map snd us)) -> owner c a = None) /\ exists st', apply_aliases st us = Ok st') \/
  (~ (NoDup (concat (map snd us)) /\ forall a, In a (concat (map snd us)) -> owner c a = None) /\ apply_aliases st us = Raise KeyError).
Proof.
  induction us as [|[k als] us IH]; intros st c KG R H; cbn [apply_aliases map concat snd].
  - left. split; [constructor|]. split; [intros a []|]. exists st. reflexivity.
  - destruct (H k als (or_introl eq_refl)) as (OK & NK). destruct (owner c k) as [i|] eqn:EK; [|congruence].
    destruct als as [|a als].
    + cbn [malias app]. destruct (resolve (ents st) k) as [n|] eqn:RS.
      * apply (IH st c KG R). intros k' als' H'. apply H. right. exact H'.
      * exfalso. destruct R as (l & E & R). rewrite <- E in RS. pose proof (resolve_unknown l c k R RS). congruence.
    + pose proof (rep_alias (a :: als) st c k KG R) as RA. change (malias st k (a :: als)) with (malias_loop st k (a :: als)).
      remember (a :: als) as als1 eqn:EA. clear EA a als.
      destruct (malias_loop st k als1) as [st1 r1]. destruct (c_alias c k als1) as [c1 r1'] eqn:CA. destruct RA as (-> & R1 & K1).
      destruct (c_alias_when als1 c k i EK NK) as [(ND & U & c' & E)|(X & c' & E)]; rewrite E in CA; injection CA as <- <-.
      * pose proof (c_alias_effect als1 c k c' E i EK) as (_ & _ & OW).
        assert (KEEP : forall x, owner c x <> None -> owner c' x <> None).
        { intros x Hx. rewrite OW. destruct in_group; [discriminate|exact Hx]. }
        destruct (IH st1 c' K1 R1) as [(ND2 & U2 & st' & E2)|(X & E2)].
        { intros k' als' H'. destruct (H k' als' (or_intror H')) as (H1 & H2). split; [apply KEEP, H1|exact H2]. }
        -- left. split; [|split; [|exists st'; exact E2]].
           ++ apply nodup_app_iff. split; [exact ND|]. split; [exact ND2|]. intros x Hx Hy. specialize (U2 x Hy). rewrite OW in U2.
              apply in_group_spec in Hx. rewrite Hx in U2. discriminate.
           ++ intros x Hx. apply in_app_iff in Hx as [Hx|Hx]; [apply U, Hx|]. specialize (U2 x Hx). rewrite OW in U2.
              destruct in_group; [discriminate|exact U2].
        -- right. split; [|exact E2]. intros (ND3 & U3). apply nodup_app_iff in ND3 as (_ & ND3 & D). apply X. split; [exact ND3|].
           intros x Hx. rewrite OW. destruct (in_group x als1) eqn:G; [|apply U3, in_app_iff; right; exact Hx].
           exfalso. apply in_group_spec in G. exact (D x G Hx).
      * right. split; [|reflexivity]. intros (ND3 & U3). apply nodup_app_iff in ND3 as (ND3 & _). apply X. split; [exact ND3|].
        intros x Hx. apply U3, in_app_iff. left. exact Hx.
Qed.
Lemma fold_assoc_nodup {A} (l : list (str * A)) : NoDup (map fst l) -> forall acc, (forall k, In k (map fst acc) -> ~ In k (map fst l)) ->
  fold_left (fun acc kv => assoc_set acc (fst kv) (snd kv)) l acc = acc ++ l.
Proof.
  induction l as [|[k a] l IH]; intros ND acc D; cbn [fold_left fst snd]; [rewrite app_nil_r; reflexivity|].
  inversion ND as [|? ? N ND']; subst. assert (E : assoc_set acc k a = acc ++ [(k, a)]).
  { assert (Nk : ~ In k (map fst acc)) by (intros H; apply (D k H); left; reflexivity). clear -Nk. induction acc as [|[x b] acc IH]; [reflexivity|].
    cbn [assoc_set app]. destruct (str_eqb_spec x k) as [->|]; [exfalso; apply Nk; left; reflexivity|]. rewrite IH; [reflexivity|]. intros H. apply Nk. right. exact H. }
  rewrite E, IH; [rewrite <- app_assoc; reflexivity|exact ND'|]. intros x Hx. rewrite map_app in Hx. apply in_app_iff in Hx as [Hx|[<-|[]]].
  - intros H. apply (D x Hx). right. exact H.
  - exact N.
Qed.
Lemma get_aliases_nodup names (m : list (str * list str)) : NoDup (map fst m) ->
  get_aliases names (DMap m) = map (fun kv => (fst kv, remove_name (fst kv) (snd kv))) m.
Proof. intros ND. rewrite get_aliases_map, fold_assoc_nodup; [reflexivity| |intros k []]. rewrite map_map. cbn [fst]. exact ND. Qed.

(** A name map made from distinct names and their aliases exists exactly when no alias is listed
    twice and none is one of the other names; a clash is reported as a [KeyError]. *)
Theorem C08_when (defn : list (str * list str)) : NoDup (map fst defn) ->
  let aliases := concat (map (fun kv => filter (fun a => negb (str_eqb a (fst kv))) (snd kv)) defn) in
  ((NoDup aliases /\ forall a, In a aliases -> ~ In a (map fst defn)) /\ exists m, namemap (DMap defn) None = Ok m) \/
  (~ (NoDup aliases /\ forall a, In a aliases -> ~ In a (map fst defn)) /\ namemap (DMap defn) None = Raise KeyError).
Proof.
  intros ND aliases. destruct (identity_rep (map fst defn)) as (c & R & _ & O).
  assert (EC : concat (map snd (get_aliases (map fst defn) (DMap defn))) = aliases).
  { rewrite (get_aliases_nodup _ _ ND). rewrite map_map. reflexivity. }
  destruct (apply_when (get_aliases (map fst defn) (DMap defn)) (mnew (identity_map (map fst defn))) c eq_refl R) as [(H1 & H2 & st & E)|(H & E)].
  - intros k als H. rewrite (get_aliases_nodup _ _ ND) in H. apply in_map_iff in H as ((k' & als') & E & H). injection E as <- <-.
    split; [apply O; apply (in_map fst) in H; exact H|]. rewrite remove_name_in. tauto.
  - left. rewrite EC in H1, H2. split; [split; [exact H1|]|].
    + intros a Ha Hn. apply O in Hn. apply Hn, H2, Ha.
    + exists (ents st). unfold namemap. cbn [get_names bind]. rewrite E. reflexivity.
  - right. rewrite EC in H. split.
    + intros (H1 & H2). apply H. split; [exact H1|]. intros a Ha. destruct (owner c a) as [i|] eqn:EO; [|reflexivity].
      exfalso. apply (H2 a Ha), O. congruence.
    + unfold namemap. cbn [get_names bind]. rewrite E. reflexivity.
Qed.
Print Assumptions C08_when.

(** ** C92: tables in which no text names two quantities *)
Definition row_names (r : refrow) : list str := dedup (r_name r :: r_aliases r).
Lemma row_names_in r x : In x (row_names r) <-> called r x.
Proof. unfold row_names, called. rewrite dedup_in. cbn [In]. split; intros [H|H]; auto. Qed.

Section Names.
Variable same : group -> group -> bool.
Hypothesis S : sound_keys same.
Variable table : list refrow.
Hypothesis D : disjoint_groups (map row_names table).

Lemma quantities_are : ref_quantities same table = map (fun r => (row_names r, r_quantity r)) table.
Proof using S D.
  unfold ref_quantities. rewrite (build_disjoint same S).
  - rewrite map_map. reflexivity.
  - rewrite map_map. exact D.
  - apply Forall_forall. intros kv H. apply in_map_iff in H as (r & <- & _). cbn [fst ugroup]. intros E.
    assert (X : In (r_name r) (dedup (r_name r :: r_aliases r))) by (apply dedup_in; left; reflexivity). rewrite E in X. destruct X.
Qed.
Lemma aliases_are : map gnames (ref_aliases same table) = map row_names table.
Proof using S D.
  unfold ref_aliases, groups_init. rewrite quantities_are, !map_map. cbn [gnames fst]. apply map_ext. intros r.
  apply dedup_id. apply dedup_nodup.
Qed.
Lemma row_unique r r' x : In r table -> In r' table -> called r x -> called r' x -> row_names r = row_names r'.
Proof using D.
  intros I I' C C'. apply (nodup_twice (map row_names table) _ _ x D); [apply in_map, I|apply in_map, I'| |]; apply row_names_in; assumption.
Qed.
Lemma get_aliases_of x : (exists g r, groups_get (ref_aliases same table) x = Some g /\ In r table /\ called r x /\ gnames g = row_names r) \/
  (groups_get (ref_aliases same table) x = None /\ forall r, In r table -> ~ called r x).
Proof using S D.
  destruct (groups_get (ref_aliases same table) x) as [g|] eqn:E.
  - left. apply groups_get_sound in E as (I & K). pose proof (in_map gnames _ _ I) as J. rewrite aliases_are in J.
    apply in_map_iff in J as (r & ER & IR). exists g, r. split; [reflexivity|]. split; [exact IR|]. split; [|symmetry; exact ER].
    apply row_names_in. rewrite ER. exact K.
  - right. split; [reflexivity|]. intros r I C. pose proof (in_map row_names _ _ I) as J. rewrite <- aliases_are in J.
    apply in_map_iff in J as (g & EG & IG). apply (groups_get_none _ _ g E IG). rewrite EG. apply row_names_in, C.
Qed.
Lemma group_of_in k x : In x (group_of same table k) <-> same_quantity table k x.
Proof using S D.
  unfold group_of, same_quantity. destruct (get_aliases_of k) as [(g & r & -> & I & C & E)|(-> & N)].
  - rewrite E, row_names_in. split.
    + intros Cx. right. exists r. split; [exact I|]. split; assumption.
    + intros [->|(r' & I' & C' & Cx)]; [exact C|]. apply row_names_in. rewrite (row_unique r r' k I I' C C'). apply row_names_in, Cx.
  - cbn [In]. split; [intros [<-|[]]; left; reflexivity|]. intros [->|(r & I & C & _)]; [left; reflexivity|]. exfalso. exact (N r I C).
Qed.
Lemma group_of_nodup k : NoDup (group_of same table k).
Proof using S D.
  unfold group_of. destruct (get_aliases_of k) as [(g & r & -> & _ & _ & ->)|(-> & _)]; [apply dedup_nodup|].
  constructor; [intros []|constructor].
Qed.
Lemma same_sym k x : same_quantity table k x -> same_quantity table x k.
Proof using. intros [->|(r & I & C & C')]; [left; reflexivity|right; exists r; auto]. Qed.
Lemma same_trans k x y : same_quantity table k x -> same_quantity table x y -> same_quantity table k y.
Proof using D.
  intros [->|(r & I & C & C')]; [auto|]. intros [->|(r' & I' & K & K')]; [right; exists r; auto|].
  right. exists r. split; [exact I|]. split; [exact C|]. apply row_names_in. rewrite (row_unique r r' x I I' C' K). apply row_names_in, K'.
Qed.

(** no two of the given names mean the same quantity *)
Definition apart (keys : list str) : Prop := forall k k', In k keys -> In k' keys -> same_quantity table k k' -> k = k'.
Definition says (u : subset) (keys : list str) : Prop :=
  (forall k x, In k keys -> same_quantity table k x ->
     name_for u x = k /\ exists g, groups_get (sub_aliases u) x = Some g /\ forall y, In y (gnames g) <-> same_quantity table k y) /\
  (forall x, (forall k, In k keys -> ~ same_quantity table k x) ->
     namemap_get (sub_names u) x = Raise KeyError /\ name_for u x = x /\ groups_get (sub_aliases u) x = None).

Lemma keys_unique keys : NoDup (unique_items str_eqb keys) /\ forall k, In k (unique_items str_eqb keys) <-> In k keys.
Proof using. destruct (unique_items_spec str_eqb str_eqb_eq keys) as (ND & I & _). split; assumption. Qed.
Lemma defn_aliases (keys : list str) : NoDup keys ->
  let defn := map (fun k => (k, group_of same table k)) keys in
  let aliases := concat (map (fun kv => filter (fun a => negb (str_eqb a (fst kv))) (snd kv)) defn) in
  (NoDup aliases /\ forall a, In a aliases -> ~ In a (map fst defn)) <-> apart keys.
Proof using S D.
  intros ND defn aliases.
  assert (EK : map fst defn = keys) by (unfold defn; rewrite map_map; cbn [fst]; apply map_id). rewrite EK.
  assert (IA : forall a, In a aliases <-> exists k, In k keys /\ same_quantity table k a /\ a <> k).
  { intros a. unfold aliases, defn. rewrite map_map, in_concat. cbn [fst snd]. split.
    - intros (l & H & Ha). apply in_map_iff in H as (k & <- & I). apply filter_In in Ha as (Ha & N). exists k. split; [exact I|].
      split; [apply group_of_in, Ha|]. apply negb_true_iff in N. intros ->. rewrite str_eqb_refl in N. discriminate.
    - intros (k & I & Q & N). eexists. split; [apply in_map_iff; exists k; split; [reflexivity|exact I]|]. apply filter_In. split; [apply group_of_in, Q|].
      apply negb_true_iff. apply str_eqb_neq, N. }
  split.
  - intros (_ & H) k k' I I' Q. destruct (str_eq_dec k k') as [E|N]; [exact E|]. exfalso. apply (H k'); [|exact I'].
    apply IA. exists k. split; [exact I|]. split; [exact Q|]. intros E. apply N. symmetry. exact E.
  - intros A. split.
    + unfold aliases, defn. rewrite map_map. cbn [fst snd]. clear IA EK defn aliases.
      induction keys as [|k keys IH]; [constructor|]. cbn [map concat]. inversion ND as [|? ? N ND']; subst. apply nodup_app_iff. split; [|split].
      * apply NoDup_filter, group_of_nodup.
      * apply IH; [exact ND'|]. intros k1 k2 I1 I2. apply A; right; assumption.
      * intros x Hx Hy. apply filter_In in Hx as (Hx & _). apply in_concat in Hy as (l & Hl & Hy). apply in_map_iff in Hl as (k' & <- & I').
        apply filter_In in Hy as (Hy & _). apply group_of_in in Hx, Hy. apply N. rewrite (A k k'); [exact I'|left; reflexivity|right; exact I'|].
        apply (same_trans k x k'); [exact Hx|apply same_sym, Hy].
    + intros a Ha I. apply IA in Ha as (k & Ik & Q & N). apply N. symmetry. exact (A k a Ik I Q).
Qed.

Lemma build_when keys : (apart keys /\ exists u, build_keys same table keys = Ok u /\ says u keys) \/
  (~ apart keys /\ build_keys same table keys = Raise KeyError).
Proof using S D.
  destruct (keys_unique keys) as (NU & IU). unfold build_keys. set (ks := unique_items str_eqb keys) in *.
  set (defn := map (fun k => (k, group_of same table k)) ks).
  assert (EK : map fst defn = ks) by (unfold defn; rewrite map_map; cbn [fst]; apply map_id).
  assert (AP : apart ks <-> apart keys).
  { unfold apart. split; intros H k k' I I'; apply H; apply IU; assumption. }
  assert (ND : NoDup (map fst defn)) by (rewrite EK; exact NU).
  destruct (C08_when defn ND) as [(H & m & E)|(H & E)]; rewrite E; cbn [bind].
  - assert (A : apart keys) by (apply AP; exact (proj1 (defn_aliases ks NU) H)).
    left. split; [exact A|]. eexists. split; [reflexivity|]. unfold says. cbn [sub_names sub_aliases].
    assert (GS : forall x g, groups_get (groups_init (map (group_of same table) keys)) x = Some g ->
                 exists k, In k keys /\ same_quantity table k x /\ forall y, In y (gnames g) <-> same_quantity table k y).
    { intros x g G. apply groups_get_sound in G as (I & K). unfold groups_init in I. rewrite map_map in I.
      apply in_map_iff in I as (k & <- & Ik). cbn [gnames] in *. exists k. split; [exact Ik|]. split.
      - apply group_of_in, dedup_in, K.
      - intros y. rewrite dedup_in. apply group_of_in. }
    split.
    + intros k x I Q. destruct (C08_aliases_of_canonical_names defn m ND E k (group_of same table k)) as (_ & Ha).
      { unfold defn. apply in_map_iff. exists k. split; [reflexivity|apply IU, I]. }
      split; [unfold name_for; cbn [sub_names]; rewrite (Ha x (proj2 (group_of_in k x) Q)); reflexivity|].
      destruct (groups_get (groups_init (map (group_of same table) keys)) x) as [g|] eqn:G.
      * exists g. split; [reflexivity|]. destruct (GS x g G) as (k' & I' & Q' & Y).
        rewrite (A k k' I I' (same_trans k x k' Q (same_sym k' x Q'))). exact Y.
      * exfalso. apply (groups_get_none _ _ {| gnames := dedup (group_of same table k); graw := false |} G).
        -- unfold groups_init. rewrite map_map. apply in_map_iff. exists k. split; [reflexivity|exact I].
        -- cbn [gnames]. apply dedup_in, group_of_in, Q.
    + intros x N. destruct (C08_namemap (DMap defn) None (map fst defn) m eq_refl E) as (_ & _ & X).
      assert (K : namemap_get m x = Raise KeyError).
      { apply X. rewrite EK. split.
        - intros I. apply (N x); [apply IU, I|left; reflexivity].
        - intros k als I Ia. rewrite (get_aliases_nodup _ _ ND) in I. apply in_map_iff in I as ((k' & als') & EE & I). cbn [fst snd] in EE. injection EE as <- <-.
          unfold defn in I. apply in_map_iff in I as (k & EE & I). injection EE as <- <-. apply remove_name_in in Ia as (Ia & _).
          apply (N k); [apply IU, I|apply group_of_in, Ia]. }
      split; [exact K|]. split; [unfold name_for; cbn [sub_names]; rewrite K; reflexivity|].
      destruct (groups_get (groups_init (map (group_of same table) keys)) x) as [g|] eqn:G; [|reflexivity].
      exfalso. destruct (GS x g G) as (k & I & Q & _). exact (N k I Q).
  - right. split; [|reflexivity]. intros A. apply H. apply defn_aliases; [exact NU|]. apply AP, A.
Qed.

(** ** Arguments *)
Variable parameters : list (str * list str).
Definition par_names (p : str * list str) : list str := dedup (fst p :: snd p).
Hypothesis DP : disjoint_groups (map par_names parameters).
Lemma par_names_in p x : In x (par_names p) <-> pcalled p x.
Proof using. unfold par_names, pcalled. rewrite dedup_in. cbn [In]. split; intros [H|H]; auto. Qed.
Lemma all_are : map gnames (all_aliases same table parameters) = map row_names table ++ map par_names parameters.
Proof using S D.
  unfold all_aliases. rewrite aliases_are. unfold par_aliases, groups_init. rewrite !map_app, !map_map. cbn [gnames]. f_equal; apply map_ext; intros r.
  - apply dedup_id, dedup_nodup.
  - rewrite (dedup_id (dedup _)); [reflexivity|apply dedup_nodup].
Qed.
Lemma groups_get_app a b x : groups_get (a ++ b) x = match groups_get a x with Some g => Some g | None => groups_get b x end.
Proof using. induction a as [|g a IH]; [reflexivity|]. cbn [app groups_get]. destruct (_ || _); [reflexivity|exact IH]. Qed.
Lemma gnames_split (l : list gentry) (a b : list (list str)) : map gnames l = a ++ b -> exists la lb, l = la ++ lb /\ map gnames la = a /\ map gnames lb = b.
Proof using. intros E. apply map_eq_app in E as (la & lb & -> & <- & <-). exists la, lb. auto. Qed.
Lemma argument_key k x : In x (key_with_groups (all_aliases same table parameters) (KOne k)) <-> same_argument table parameters k x.
Proof using S D DP.
  destruct (gnames_split _ _ _ all_are) as (la & lb & -> & Ea & Eb).
  unfold key_with_groups. rewrite dedup_in, in_app_iff. cbn [ugroup groups_find In]. rewrite groups_get_app.
  assert (GA : forall g, groups_get la k = Some g -> exists r, In r table /\ called r k /\ gnames g = row_names r).
  { intros g G. apply groups_get_sound in G as (I & K). pose proof (in_map gnames _ _ I) as J. rewrite Ea in J. apply in_map_iff in J as (r & ER & IR).
    exists r. split; [exact IR|]. split; [apply row_names_in; rewrite ER; exact K|symmetry; exact ER]. }
  assert (GN : groups_get la k = None -> forall r, In r table -> ~ called r k).
  { intros G r I C. pose proof (in_map row_names _ _ I) as J. rewrite <- Ea in J. apply in_map_iff in J as (g & EG & IG).
    apply (groups_get_none _ _ g G IG). rewrite EG. apply row_names_in, C. }
  assert (PA : forall g, groups_get lb k = Some g -> exists p, In p parameters /\ pcalled p k /\ gnames g = par_names p).
  { intros g G. apply groups_get_sound in G as (I & K). pose proof (in_map gnames _ _ I) as J. rewrite Eb in J. apply in_map_iff in J as (r & ER & IR).
    exists r. split; [exact IR|]. split; [apply par_names_in; rewrite ER; exact K|symmetry; exact ER]. }
  assert (PN : groups_get lb k = None -> forall p, In p parameters -> ~ pcalled p k).
  { intros G r I C. pose proof (in_map par_names _ _ I) as J. rewrite <- Eb in J. apply in_map_iff in J as (g & EG & IG).
    apply (groups_get_none _ _ g G IG). rewrite EG. apply par_names_in, C. }
  unfold same_argument, same_quantity. destruct (groups_get la k) as [g|] eqn:G.
  - destruct (GA g eq_refl) as (r & I & C & ->). rewrite row_names_in. split.
    + intros [[->|[]]|Cx]; left; [left; reflexivity|right; exists r; auto].
    + intros [[->|(r' & I' & C' & Cx)]|(N & _)]; [left; left; reflexivity| |exfalso; exact (N r I C)].
      right. apply row_names_in. rewrite (row_unique r r' k I I' C C'). apply row_names_in, Cx.
  - specialize (GN eq_refl). destruct (groups_get lb k) as [g|] eqn:GP.
    + destruct (PA g eq_refl) as (p & I & C & ->). rewrite par_names_in. split.
      * intros [[->|[]]|Cx]; [left; left; reflexivity|]. right. split; [exact GN|]. exists p. auto.
      * intros [[->|(r & I' & C' & _)]|(_ & p' & I' & C' & Cx)]; [left; left; reflexivity|exfalso; exact (GN r I' C')|].
        right. apply par_names_in. rewrite (nodup_twice (map par_names parameters) (par_names p) (par_names p') k DP);
          [apply par_names_in, Cx|apply in_map, I|apply in_map, I'|apply par_names_in, C|apply par_names_in, C'].
    + specialize (PN eq_refl). cbn [In]. split.
      * intros [[->|[]]|[]]. left. left. reflexivity.
      * intros [[->|(r & I' & C' & _)]|(_ & p' & I' & C' & _)]; [left; left; reflexivity|exfalso; exact (GN r I' C')|exfalso; exact (PN p' I' C')].
Qed.
Lemma arguments_main {V} (a : list (str * V)) :
  (forall x v, getitem (arguments same table parameters a) x = Ok v -> exists k, In (k, v) a /\ same_argument table parameters k x) /\
  (forall x, getitem (arguments same table parameters a) x = Raise KeyError <-> forall k v, In (k, v) a -> ~ same_argument table parameters k x) /\
  (forall x k v, In (k, v) a -> same_argument table parameters k x ->
     (forall k' v', In (k', v') a -> same_argument table parameters k' x -> v' = v) -> getitem (arguments same table parameters a) x = Ok v).
Proof using S D DP.
  unfold arguments, build_from_groups. rewrite map_map. cbn [fst snd].
  set (gs := all_aliases same table parameters).
  set (kvs := map (fun x => (key_with_groups gs (KOne (fst x)), snd x)) a).
  assert (I1 : forall g v, In (g, v) kvs -> exists k, In (k, v) a /\ g = key_with_groups gs (KOne k)).
  { intros g v I. apply in_map_iff in I as ((k & w) & E & I). cbn [fst snd] in E. injection E as <- <-. exists k. split; [exact I|reflexivity]. }
  assert (I2 : forall k v, In (k, v) a -> In (key_with_groups gs (KOne k), v) kvs).
  { intros k v I. apply in_map_iff. exists (k, v). split; [reflexivity|exact I]. }
  split; [|split].
  - intros x v H. apply (zip_sound same S) in H as (g & I & A). apply I1 in I as (k & I & ->). exists k. split; [exact I|apply argument_key, A].
  - intros x. rewrite (zip_error same S). split.
    + intros (_ & H) k v I A. apply (H _ _ (I2 k v I)), argument_key, A.
    + intros H. split; [reflexivity|]. intros g v I A. apply I1 in I as (k & I & ->). apply (H k v I), argument_key, A.
  - intros x k v I A U. apply (zip_unique same S) with (g := key_with_groups gs (KOne k)); [apply I2, I|apply argument_key, A|].
    intros g' v' I' A'. apply I1 in I' as (k' & I' & ->). apply (U k' v' I'), argument_key, A'.
Qed.
End Names.

(** ** The tables of eprempy *)
Fixpoint distinct (l : list str) : bool := match l with [] => true | x :: l' => negb (in_group x l') && distinct l' end.
Lemma distinct_nodup l : distinct l = true -> NoDup l.
Proof.
  induction l as [|x l IH]; intros H; [constructor|]. cbn [distinct] in H. apply andb_true_iff in H as (H1 & H2). constructor; [|apply IH, H2].
  apply negb_true_iff, in_group_false in H1. exact H1.
Qed.
Lemma ref_distinct : disjoint_groups (map row_names ref_metadata).
Proof. apply distinct_nodup. vm_compute. reflexivity. Qed.
Lemma par_distinct : disjoint_groups (map par_names par_metadata).
Proof. apply distinct_nodup. vm_compute. reflexivity. Qed.
Lemma nodup_concat_map {A} (f : A -> list str) l a b x : NoDup (concat (map f l)) -> In a l -> In b l -> In x (f a) -> In x (f b) -> a = b.
Proof.
  induction l as [|y l IH]; intros N Ia Ib Xa Xb; [destruct Ia|]. cbn [map concat] in N. apply nodup_app_iff in N as (_ & N & Dj).
  assert (Z : forall z, In z l -> In x (f z) -> ~ In x (f y)).
  { intros z Iz Xz Xy. apply (Dj x Xy). apply in_concat. exists (f z). split; [apply in_map, Iz|exact Xz]. }
  destruct Ia as [->|Ia], Ib as [->|Ib]; [reflexivity|exfalso; exact (Z b Ib Xb Xa)|exfalso; exact (Z a Ia Xa Xb)|auto].
Qed.

(** ** A text names at most one quantity, and at most one parameter *)
Theorem C92_one_quantity r r' x : In r ref_metadata -> In r' ref_metadata -> called r x -> called r' x -> r = r'.
Proof. intros I I' C C'. apply (nodup_concat_map row_names ref_metadata r r' x ref_distinct I I'); apply row_names_in; assumption. Qed.
Print Assumptions C92_one_quantity.
Theorem C92_one_parameter p p' x : In p par_metadata -> In p' par_metadata -> pcalled p x -> pcalled p' x -> p = p'.
Proof. intros I I' C C'. apply (nodup_concat_map par_names par_metadata p p' x par_distinct I I'); apply par_names_in; assumption. Qed.
Print Assumptions C92_one_parameter.
Lemma shared_names : forallb (fun x => implb (in_group x (concat (map par_names par_metadata))) (in_group x [s "mass"; s "charge"; s "T"]))
  (concat (map row_names ref_metadata)) = true.
Proof. vm_compute. reflexivity. Qed.
(** the only names of a quantity that are also names of a parameter *)
Theorem C92_shared r p x : In r ref_metadata -> In p par_metadata -> called r x -> pcalled p x -> x = s "mass" \/ x = s "charge" \/ x = s "T".
Proof.
  intros I J C P. pose proof shared_names as H. rewrite forallb_forall in H. specialize (H x).
  assert (X : In x (concat (map row_names ref_metadata))) by (apply in_concat; exists (row_names r); split; [apply in_map, I|apply row_names_in, C]).
  assert (Y : in_group x (concat (map par_names par_metadata)) = true).
  { apply in_group_spec, in_concat. exists (par_names p). split; [apply in_map, J|apply par_names_in, P]. }
  specialize (H X). rewrite Y in H. cbn [implb] in H. apply in_group_spec in H as [H|[H|[H|[]]]]; auto.
Qed.
Print Assumptions C92_shared.

(** ** Every name of a quantity gives its physical quantity; no other text gives any *)
Theorem C92_quantities same : sound_keys same ->
  (forall r x, In r ref_metadata -> called r x -> getitem (ref_quantities same ref_metadata) x = Ok (r_quantity r)) /\
  (forall x, (forall r, In r ref_metadata -> ~ called r x) -> getitem (ref_quantities same ref_metadata) x = Raise KeyError).
Proof.
  intros S. rewrite (quantities_are same S ref_metadata ref_distinct).
  assert (F : flat_keys (map (fun r => (row_names r, r_quantity r)) ref_metadata) = concat (map row_names ref_metadata)).
  { unfold flat_keys. rewrite map_map. reflexivity. }
  split.
  - intros r x I C. apply getitem_disjoint with (g := row_names r); [rewrite F; exact ref_distinct| |apply row_names_in, C].
    apply in_map_iff. exists r. split; [reflexivity|exact I].
  - intros x N. apply getitem_error. split; [reflexivity|]. rewrite F. intros H. apply in_concat in H as (g & G & X).
    apply in_map_iff in G as (r & <- & I). apply (N r I), row_names_in, X.
Qed.
Print Assumptions C92_quantities.
Example C92_quantities_case : exists r, In r ref_metadata /\ called r (s "|B|") /\ r_quantity r = s "magnetic field" /\ r_name r = s "bmag".
Proof. exists (nth 23 ref_metadata (mkref [] [] [])). split; [apply nth_In; apply Nat.ltb_lt; vm_compute; reflexivity|]. split; [right; cbn; tauto|]. split; reflexivity. Qed.

(** ** Reference information for any choice of names: names of different quantities can be chosen
    together, and then every name of a chosen quantity gives the chosen name and the group of all
    its names, and other texts stand for themselves; two names of one quantity cannot. *)
Theorem C92_build same names which keys : sound_keys same ->
  (which = None /\ keys = names \/ (exists w, which = Some w /\ In (w, keys) (SUBSETS ref_metadata)) \/
   (exists w, which = Some w /\ ~ In w (map fst (SUBSETS ref_metadata)) /\ keys = names)) ->
  (apart ref_metadata keys /\ exists u, build same ref_metadata names which = Ok u /\ says ref_metadata u keys) \/
  (~ apart ref_metadata keys /\ build same ref_metadata names which = Raise KeyError).
Proof.
  intros S H. assert (E : build same ref_metadata names which = build_keys same ref_metadata keys).
  { unfold build. f_equal. destruct H as [(-> & ->)|[(w & -> & I)|(w & -> & N & ->)]]; [reflexivity| |].
    - unfold SUBSETS in *. cbn [In] in I. destruct I as [I|[I|[I|[I|[]]]]]; injection I as <- <-; reflexivity.
    - assert (Z : assoc (SUBSETS ref_metadata) w = None); [|rewrite Z; reflexivity].
      revert N. generalize (SUBSETS ref_metadata). intros l N. induction l as [|[k a] l IH]; [reflexivity|]. cbn [assoc].
      destruct (str_eqb_spec k w) as [->|]; [exfalso; apply N; left; reflexivity|]. apply IH. intros X. apply N. right. exact X. }
  rewrite E. apply (build_when same S ref_metadata ref_distinct).
Qed.
Print Assumptions C92_build.

Definition apartb (keys : list str) : bool :=
  forallb (fun r => Nat.leb (length (filter (fun k => in_group k (row_names r)) keys)) 1) ref_metadata.
Lemma apartb_apart keys : NoDup keys -> apartb keys = true -> apart ref_metadata keys.
Proof.
  intros ND H k k' I I' [->|(r & Ir & C & C')]; [reflexivity|]. unfold apartb in H. rewrite forallb_forall in H. specialize (H r Ir).
  apply Nat.leb_le in H. apply row_names_in in C, C'.
  assert (F : In k (filter (fun k => in_group k (row_names r)) keys)) by (apply filter_In; split; [exact I|apply in_group_spec, C]).
  assert (F' : In k' (filter (fun k => in_group k (row_names r)) keys)) by (apply filter_In; split; [exact I'|apply in_group_spec, C']).
  destruct (filter (fun k => in_group k (row_names r)) keys) as [|a [|b l]]; [destruct F| |cbn in H; lia].
  destruct F as [<-|[]], F' as [<-|[]]. reflexivity.
Qed.
(** the four collections of eprempy can be built *)
Definition collections : list (str * list str) := [
  (s "axes", map s ["time"; "shell"; "species"; "energy"; "mu"]);
  (s "scalars", map s ["preEruption"]);
  (s "arrays", map s ["phiOffset"; "time"; "shell"; "mu"; "mass"; "charge"; "egrid"; "vgrid"; "R"; "T"; "P"; "Br"; "Bt"; "Bp"; "Vr"; "Vt"; "Vp"; "Rho"; "Dist"; "flux"]);
  (s "observables", map r_name ref_metadata)]%string.
Theorem C92_subsets same w keys : sound_keys same -> In (w, keys) collections ->
  exists u, build same ref_metadata [] (Some w) = Ok u /\ says ref_metadata u keys.
Proof.
  intros S I0. assert (I : In (w, keys) (SUBSETS ref_metadata)).
  { unfold collections in I0. cbn [In] in I0. unfold SUBSETS. cbn [In]. destruct I0 as [I|[I|[I|[I|[]]]]]; injection I as <- <-; tauto. }
  destruct (C92_build same [] (Some w) keys S) as [(_ & H)|(N & _)]; [right; left; exists w; auto|exact H|].
  exfalso. apply N. unfold SUBSETS in I. cbn [In] in I.
  destruct I as [I|[I|[I|[I|[]]]]]; injection I as <- <-; (apply apartb_apart; [apply distinct_nodup|]); vm_compute; reflexivity.
Qed.
Print Assumptions C92_subsets.
(** in particular every name of an observable gives its canonical name *)
Theorem C92_observables same u : sound_keys same -> build same ref_metadata [] (Some (s "observables")) = Ok u ->
  (forall r x, In r ref_metadata -> called r x -> name_for u x = r_name r) /\
  (forall x, (forall r, In r ref_metadata -> ~ called r x) -> name_for u x = x).
Proof.
  intros S B. destruct (C92_subsets same (s "observables") (map r_name ref_metadata) S) as (u' & B' & A1 & A2).
  { right. right. right. left. reflexivity. }
  rewrite B in B'. injection B' as <-. split.
  - intros r x I C. apply (A1 (r_name r) x); [apply in_map, I|]. right. exists r. split; [exact I|]. split; [left; reflexivity|exact C].
  - intros x N. apply A2. intros k I Q. apply in_map_iff in I as (r & <- & I). destruct Q as [->|(r' & I' & _ & C)].
    + apply (N r I). left. reflexivity.
    + exact (N r' I' C).
Qed.
Print Assumptions C92_observables.
Example C92_build_case : apart ref_metadata [s "radius"; s "J(E)"; s "energy"] /\ ~ apart ref_metadata [s "radius"; s "time"; s "R"] /\
  In (s "axes", AXES) (SUBSETS ref_metadata).
Proof.
  split; [apply apartb_apart; [apply distinct_nodup|]; vm_compute; reflexivity|]. split; [|right; right; left; reflexivity].
  intros H. assert (E : s "radius" = s "R"); [|discriminate E]. apply H; [left; reflexivity|right; right; left; reflexivity|].
  right. exists (nth 8 ref_metadata (mkref [] [] [])). split; [apply nth_In; apply Nat.ltb_lt; vm_compute; reflexivity|]. split; right; cbn; tauto.
Qed.

(** ** Arguments of an observable: a value given under one name of a quantity or parameter is found
    under every name of it, and under no other text *)
Theorem C92_arguments same (V : Type) (a : list (str * V)) : sound_keys same ->
  let same_thing := same_argument ref_metadata par_metadata in
  let args := arguments same ref_metadata par_metadata a in
  (forall x v, getitem args x = Ok v -> exists k, In (k, v) a /\ same_thing k x) /\
  (forall x, getitem args x = Raise KeyError <-> forall k v, In (k, v) a -> ~ same_thing k x) /\
  (forall x k v, In (k, v) a -> same_thing k x -> (forall k' v', In (k', v') a -> same_thing k' x -> v' = v) -> getitem args x = Ok v).
Proof. intros S same_thing args. exact (arguments_main same S ref_metadata ref_distinct par_metadata par_distinct a). Qed.
Print Assumptions C92_arguments.
(** what the parameters mean is respected for every name but the shared ones *)
Theorem C92_parameters same (V : Type) p k x (v : V) : sound_keys same -> In p par_metadata -> pcalled p k -> pcalled p x ->
  k <> s "mass" -> k <> s "charge" -> k <> s "T" -> getitem (arguments same ref_metadata par_metadata [(k, v)]) x = Ok v.
Proof.
  intros S I C Cx N1 N2 N3. apply (proj2 (proj2 (C92_arguments same V [(k, v)] S)) x k v); [left; reflexivity| |].
  - right. split; [|exists p; auto]. intros r J R. destruct (C92_shared r p k J I R C) as [H|[H|H]]; contradiction.
  - intros k' v' [H|[]] _. injection H as _ <-. reflexivity.
Qed.
Print Assumptions C92_parameters.
Example C92_parameters_case : exists p, In p par_metadata /\ pcalled p (s "lam0") /\ pcalled p (s "lambda0") /\ fst p = s "lamo".
Proof.
  assert (H : In (s "lamo", [s "lam0"; s "lambda0"]) par_metadata) by (change (s "lamo", [s "lam0"; s "lambda0"]) with (nth 72 par_metadata ([], [])); apply nth_In; apply Nat.ltb_lt; vm_compute; reflexivity).
  eexists. split; [exact H|]. split; [right; left; reflexivity|]. split; [right; right; left; reflexivity|reflexivity].
Qed.
(** the parameter T (the number that stands for true) and the polar angle share a name: a value for
    the one is a value for the other *)
Theorem C92_shared_refuted same (V : Type) (v : V) : sound_keys same ->
  exists p, In p par_metadata /\ pcalled p (s "T") /\ ~ pcalled p (s "theta") /\
    getitem (arguments same ref_metadata par_metadata [(s "T", v)]) (s "theta") = Ok v.
Proof.
  intros S. exists (s "T", []). split; [change (s "T", @nil str) with (nth 27 par_metadata ([], [])); apply nth_In; apply Nat.ltb_lt; vm_compute; reflexivity|]. split; [left; reflexivity|]. split; [intros [H|[]]; discriminate H|].
  apply (proj2 (proj2 (C92_arguments same V [(s "T", v)] S)) (s "theta") (s "T") v); [left; reflexivity| |].
  - left. right. exists (nth 9 ref_metadata (mkref [] [] [])). split; [apply nth_In; apply Nat.ltb_lt; vm_compute; reflexivity|]. split; [right; left; reflexivity|left; reflexivity].
  - intros k' v' [H|[]] _. injection H as _ <-. reflexivity.
Qed.
Print Assumptions C92_shared_refuted.
