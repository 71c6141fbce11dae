(** C87: aliased mappings built with aliases given beside the values; equality, merging, squeeze,
    fromkeys, alias and the views of a mapping over time. *)
From Verif Require Import PyBase PyLemmas AliasedModel AliasedModel2 AliasedSpec AliasedProofs AliasedNames AliasedProperties.

(** ** What a user expects of given aliases *)
(** [a] is the name [k] or shares one of the groups with it *)
Definition related (groups : list (list str)) (k a : str) : Prop :=
  a = k \/ exists g, In g groups /\ In k g /\ In a g.
(** [a] is the name [k] or is listed under the entry [x] of the mapping given for [k] *)
Definition listed (x : str) (k : str) (interior : list (str * avalue)) (a : str) : Prop :=
  a = k \/ (exists t, assoc interior x = Some (AText t) /\ a = t)
        \/ (exists l, assoc interior x = Some (ANames l) /\ In a l)
        \/ (exists d w, assoc interior x = Some (AInterior d) /\ In (a, w) d).

Section ZipProofs.
Context {V : Type}.
Variable same : group -> group -> bool.
Hypothesis S : sound_keys same.

Lemma dict_set_in (d : entries V) g v h w : In (h, w) (dict_set same d g v) ->
  In (h, w) d \/ (w = v /\ same_names g h).
Proof using S.
  induction d as [|(h0, w0) d IH]; cbn [dict_set]; intros H.
  - destruct H as [H|[]]. injection H as <- <-. right. split; [reflexivity|]. intros k; split; auto.
  - destruct (same h0 g) eqn:E.
    + destruct H as [H|H]; [|left; right; exact H]. injection H as <- <-. right. split; [reflexivity|].
      apply S in E. intros k. split; apply E.
    + destruct H as [H|H]; [left; left; exact H|]. destruct (IH H) as [H'|H']; [left; right; exact H'|right; exact H'].
Qed.
Lemma zip_in (kvs : list (group * V)) h w : In (h, w) (zip_dict same kvs) -> exists g, In (g, w) kvs /\ same_names g h.
Proof using S.
  unfold zip_dict. induction kvs as [|(g, v) kvs IH] using rev_ind; [intros []|].
  rewrite fold_left_app. cbn [fold_left fst snd]. intros H. destruct (dict_set_in _ _ _ _ _ H) as [H'|(-> & N)].
  - destruct (IH H') as (g' & I & N). exists g'. split; [apply in_app_iff; left; exact I|exact N].
  - exists g. split; [apply in_app_iff; right; left; reflexivity|exact N].
Qed.
Lemma zip_names (kvs : list (group * V)) a : In a (flat_keys (zip_dict same kvs)) <-> exists g v, In (g, v) kvs /\ In a g.
Proof using S.
  unfold zip_dict. induction kvs as [|(g, v) kvs IH] using rev_ind.
  - split; [intros []|intros (g & v & [] & _)].
  - rewrite fold_left_app. cbn [fold_left fst snd]. rewrite (flat_keys_dict_set same S), IH. split.
    + intros [(g' & v' & I & A)|A]; [exists g', v'|exists g, v]; (split; [apply in_app_iff|exact A]); [left; exact I|right; left; reflexivity].
    + intros (g' & v' & I & A). apply in_app_iff in I as [I|[I|[]]]; [left; exists g', v'; split; assumption|].
      injection I as -> ->. right. exact A.
Qed.
Lemma getitem_in (d : entries V) a v : getitem d a = Ok v -> exists g, In (g, v) d /\ In a g.
Proof using.
  intros H. apply getitem_last in H as (n & g & E & I & _). exists g. split; [exact (nth_error_In _ _ E)|exact I].
Qed.
(** what is found was given for the name; what is given is found *)
Lemma zip_sound (kvs : list (group * V)) a v : getitem (zip_dict same kvs) a = Ok v -> exists g, In (g, v) kvs /\ In a g.
Proof using S.
  intros H. apply getitem_in in H as (h & I & A). apply zip_in in I as (g & I & N). exists g. split; [exact I|]. apply N, A.
Qed.
Lemma zip_error (kvs : list (group * V)) a e :
  getitem (zip_dict same kvs) a = Raise e <-> e = KeyError /\ forall g v, In (g, v) kvs -> ~ In a g.
Proof using S.
  rewrite getitem_error, zip_names. split; intros (-> & H); (split; [reflexivity|]).
  - intros g v I A. apply H. exists g, v. split; assumption.
  - intros (g & v & I & A). exact (H g v I A).
Qed.
Lemma zip_unique (kvs : list (group * V)) a g v : In (g, v) kvs -> In a g ->
  (forall g' v', In (g', v') kvs -> In a g' -> v' = v) -> getitem (zip_dict same kvs) a = Ok v.
Proof using S.
  intros I A U. destruct (getitem (zip_dict same kvs) a) as [w|e] eqn:E.
  - apply zip_sound in E as (g' & I' & A'). rewrite (U g' w I' A'). reflexivity.
  - apply zip_error in E as (-> & H). exfalso. exact (H g v I A).
Qed.
Lemma zip_disjoint (kvs : list (group * V)) : NoDup (flat_keys kvs) -> (forall gv, In gv kvs -> fst gv <> []) ->
  zip_dict same kvs = kvs.
Proof using S.
  unfold zip_dict. assert (G : forall d, NoDup (flat_keys (d ++ kvs)) -> (forall gv, In gv kvs -> fst gv <> []) ->
    fold_left (fun d gv => dict_set same d (fst gv) (snd gv)) kvs d = d ++ kvs).
  { induction kvs as [|(g, v) kvs IH]; intros d N F; cbn [fold_left]; [rewrite app_nil_r; reflexivity|].
    assert (D : dict_set same d g v = d ++ [(g, v)]).
    { apply (dict_set_new same S); [|apply (F (g, v)); left; reflexivity].
      intros k Ik Hd. unfold flat_keys in N, Hd. rewrite map_app, concat_app in N. cbn [map fst concat] in N.
      apply in_split in Hd as (l1 & l2 & E). rewrite E, <- app_assoc in N. cbn [app] in N. apply NoDup_remove_2 in N. apply N.
      rewrite !in_app_iff. right. right. left. exact Ik. }
    cbn [fst snd]. rewrite D, IH.
    - rewrite <- app_assoc. reflexivity.
    - rewrite <- app_assoc. exact N.
    - intros gv I. apply F. right. exact I. }
  intros N F. apply (G [] N F).
Qed.
End ZipProofs.

(** ** C87: aliases given in groups, in another mapping, or in a table *)
Lemma groups_get_sound gs k g : groups_get gs k = Some g -> In g gs /\ In k (gnames g).
Proof.
  induction gs as [|h gs IH]; cbn [groups_get]; [discriminate|]. destruct (in_group k (gnames h) || group_eqb [k] (gnames h)) eqn:E.
  - intros H. injection H as <-. split; [left; reflexivity|]. apply orb_true_iff in E as [E|E]; [apply in_group_spec, E|].
    apply group_eqb_spec in E. apply E. left. reflexivity.
  - intros H. destruct (IH H) as (I & K). split; [right; exact I|exact K].
Qed.
Lemma groups_get_none gs k g : groups_get gs k = None -> In g gs -> ~ In k (gnames g).
Proof.
  induction gs as [|h gs IH]; cbn [groups_get]; [intros _ []|]. destruct (in_group k (gnames h) || group_eqb [k] (gnames h)) eqn:E; [discriminate|].
  intros H [<-|I]; [|exact (IH H I)]. apply orb_false_iff in E as (E & _). apply in_group_false, E.
Qed.
Lemma nodup_twice (gs : list (list str)) g h k : NoDup (concat gs) -> In g gs -> In h gs -> In k g -> In k h -> g = h.
Proof.
  induction gs as [|x gs IH]; intros N Ig Ih Kg Kh; [destruct Ig|]. cbn [concat] in N.
  assert (X : forall y, In y gs -> In k y -> In k x -> False).
  { intros y Iy Ky Kx. apply in_split in Kx as (l1 & l2 & ->). rewrite <- app_assoc in N. cbn [app] in N.
    apply NoDup_remove_2 in N. apply N. rewrite !in_app_iff. right. right. apply in_concat. exists y. split; assumption. }
  destruct Ig as [->|Ig], Ih as [->|Ih]; [reflexivity|exfalso; exact (X h Ih Kh Kg)|exfalso; exact (X g Ig Kg Kh)|].
  apply IH; try assumption. clear - N. induction x as [|y x IHx]; [exact N|]. cbn [app] in N. inversion N; subst. auto.
Qed.
Lemma key_with_groups_spec gs k a : disjoint_groups (map gnames gs) ->
  (In a (key_with_groups gs (KOne k)) <-> related (map gnames gs) k a).
Proof.
  intros D. unfold key_with_groups, related. rewrite dedup_in, in_app_iff. cbn [ugroup groups_find].
  split.
  - intros [[<-|[]]|H]; [left; reflexivity|]. right. destruct (groups_get gs k) as [g|] eqn:E; [|destruct H].
    apply groups_get_sound in E as (I & K). exists (gnames g). split; [apply in_map, I|]. split; assumption.
  - intros [->|(g & I & K & A)]; [left; left; reflexivity|]. right. apply in_map_iff in I as (ge & <- & I).
    destruct (groups_get gs k) as [h|] eqn:E.
    + apply groups_get_sound in E as (Ih & Kh). rewrite <- (nodup_twice (map gnames gs) (gnames ge) (gnames h) k D); try assumption; apply in_map; assumption.
    + exfalso. exact (groups_get_none gs k ge E I K).
Qed.

Section Tables.
Variable same : group -> group -> bool.
Hypothesis S : sound_keys same.

(** the alias groups that an [aliases] argument stands for *)
Definition meant_groups (a : aliases_arg) (groups : list (list str)) : Prop :=
  match a with
  | AliasGroups gs => groups = map gnames gs
  | AliasMapping ks => groups = ks
  | AliasTable t => groups = map (fun e => fst e :: snd e) t
  | NoAliases | AliasKey _ => False
  end.
(** ** Aliases beside the values: for a mapping whose keys are names and any groups of aliases without
    common names, a name is known exactly when it is a key or shares a group with one, and it gives the
    value of such a key; when no other key is related to it, the value of that one. *)
Theorem C87_given_aliases (m : list (str * avalue)) a groups :
  meant_groups a groups -> groups <> [] -> disjoint_groups groups -> m <> [] ->
  exists d, mapping_new same (FromMapping (map (fun kv => (KOne (fst kv), snd kv)) m)) a = Ok d /\
    (forall x v, getitem d x = Ok v -> exists k, In (k, v) m /\ related groups k x) /\
    (forall x, getitem d x = Raise KeyError <-> forall k v, In (k, v) m -> ~ related groups k x) /\
    (forall x k v, In (k, v) m -> related groups k x ->
       (forall k' v', In (k', v') m -> related groups k' x -> v' = v) -> getitem d x = Ok v).
Proof using S.
  intros G NG D NM.
  assert (N1 : forall gs, disjoint_groups gs -> Forall (@NoDup str) gs).
  { intros gs H. apply Forall_forall. intros g I. exact (nodup_concat_in gs g H I). }
  assert (IN : forall gs, disjoint_groups gs -> map gnames (groups_init gs) = gs).
  { intros gs H. unfold groups_init. rewrite map_map. cbn [gnames]. specialize (N1 gs H). clear - N1.
    induction gs as [|g gs IH]; [reflexivity|]. cbn [map]. inversion N1; subst. rewrite dedup_id, IH; auto. }
  assert (E : exists gs, mapping_new same (FromMapping (map (fun kv => (KOne (fst kv), snd kv)) m)) a
                         = Ok (build_from_groups same (map (fun kv => (KOne (fst kv), snd kv)) m) gs) /\ map gnames gs = groups).
  { destruct m as [|e m]; [congruence|]. unfold mapping_new, build_mapping.
    cbn [map]. destruct a as [| |gs|ks|t]; cbn [meant_groups] in G; try contradiction; subst groups.
    - destruct gs as [|g gs]; [exfalso; apply NG; reflexivity|]. exists (g :: gs). split; reflexivity.
    - destruct ks as [|k ks]; [exfalso; apply NG; reflexivity|]. exists (groups_init (k :: ks)). split; [reflexivity|apply IN, D].
    - destruct t as [|k t]; [exfalso; apply NG; reflexivity|]. exists (groups_init (map (fun e => fst e :: snd e) (k :: t))).
      split; [reflexivity|apply IN, D]. }
  destruct E as (gs & -> & EG). eexists. split; [reflexivity|].
  unfold build_from_groups. rewrite map_map. cbn [fst snd].
  set (kvs := map (fun x => (key_with_groups gs (KOne (fst x)), snd x)) m).
  assert (R : forall k x, In x (key_with_groups gs (KOne k)) <-> related groups k x).
  { intros k x. rewrite <- EG. apply key_with_groups_spec. rewrite EG. exact D. }
  assert (I1 : forall g v, In (g, v) kvs -> exists k, In (k, v) m /\ g = key_with_groups gs (KOne k)).
  { intros g v I. apply in_map_iff in I as ((k & w) & E & I). cbn [fst snd] in E. injection E as <- <-. exists k. split; [exact I|reflexivity]. }
  assert (I2 : forall k v, In (k, v) m -> In (key_with_groups gs (KOne k), v) kvs).
  { intros k v I. apply in_map_iff. exists (k, v). split; [reflexivity|exact I]. }
  split; [|split].
  - intros x v H. apply (zip_sound same S) in H as (g & I & A). apply I1 in I as (k & I & ->). exists k. split; [exact I|apply R, A].
  - intros x. rewrite (zip_error same S). split.
    + intros (_ & H) k v I A. apply (H _ _ (I2 k v I)), R, A.
    + intros H. split; [reflexivity|]. intros g v I A. apply I1 in I as (k & I & ->). apply (H k v I), R, A.
  - intros x k v I A U. apply (zip_unique same S) with (g := key_with_groups gs (KOne k)); [apply I2, I|apply R, A|].
    intros g' v' I' A'. apply I1 in I' as (k' & I' & ->). apply (U k' v' I'), R, A'.
Qed.

(** ** Aliases inside the values *)
Lemma key_with_entry_spec x k d a : In a (dedup ([k] ++ names_in (assoc d x))) <-> listed x k d a.
Proof using.
  rewrite dedup_in, in_app_iff. unfold listed. cbn [In]. destruct (assoc d x) as [[t|l|i|n]|] eqn:E; cbn [names_in In].
  - split.
    + intros [[<-|[]]|[<-|[]]]; [left; reflexivity|right; left; exists t; split; reflexivity].
    + intros [->|[(t' & E' & ->)|[(l & E' & _)|(i & w & E' & _)]]]; try discriminate E'; [left; left; reflexivity|].
      injection E' as <-. right. left. reflexivity.
  - split.
    + intros [[<-|[]]|H]; [left; reflexivity|right; right; left; exists l; split; [reflexivity|exact H]].
    + intros [->|[(t & E' & ->)|[(l' & E' & H)|(i & w & E' & _)]]]; try discriminate E'; [left; left; reflexivity|].
      injection E' as <-. right. exact H.
  - split.
    + intros [[<-|[]]|H]; [left; reflexivity|]. apply in_map_iff in H as ((y & w) & <- & H).
      right; right; right. exists i, w. split; [reflexivity|exact H].
    + intros [->|[(t & E' & ->)|[(l' & E' & H)|(i' & w & E' & H)]]]; try discriminate E'; [left; left; reflexivity|].
      injection E' as <-. right. apply in_map_iff. exists (a, w). split; [reflexivity|exact H].
  - split.
    + intros [[<-|[]]|[]]. left; reflexivity.
    + intros [->|[(t & E' & ->)|[(l' & E' & H)|(i' & w & E' & H)]]]; try discriminate E'. left; left; reflexivity.
  - split.
    + intros [[<-|[]]|[]]. left; reflexivity.
    + intros [->|[(t & E' & ->)|[(l' & E' & H)|(i' & w & E' & H)]]]; try discriminate E'. left; left; reflexivity.
Qed.

(** the interior mapping without the entry that lists the aliases *)
Definition rest_of (x : str) (d : list (str * avalue)) : avalue :=
  AInterior (filter (fun e => negb (str_eqb (fst e) x)) d).
Definition interior_map (m : list (str * list (str * avalue))) : list (ukey * avalue) :=
  map (fun kv => (KOne (fst kv), AInterior (snd kv))) m.

Lemma from_entry (m : list (str * list (str * avalue))) x :
  exists d, build_from_entry same (interior_map m) x = Ok d /\
    (forall a v, getitem d a = Ok v -> exists k i, In (k, i) m /\ listed x k i a /\ v = rest_of x i) /\
    (forall a, getitem d a = Raise KeyError <-> forall k i, In (k, i) m -> ~ listed x k i a) /\
    (forall a k i, In (k, i) m -> listed x k i a ->
       (forall k' i', In (k', i') m -> listed x k' i' a -> i' = i) -> getitem d a = Ok (rest_of x i)).
Proof using S.
  set (kvs := map (fun kv : str * list (str * avalue) => (dedup ([fst kv] ++ names_in (assoc (snd kv) x)), rest_of x (snd kv))) m).
  assert (E : build_from_entry same (interior_map m) x = Ok (zip_dict same kvs)).
  { unfold build_from_entry.
    assert (M : mapM (key_with_entry x) (interior_map m) = Ok (map fst kvs)).
    { unfold kvs. induction m as [|(k, i) m IH]; [reflexivity|]. cbn [interior_map map mapM]. fold (interior_map m).
      unfold key_with_entry at 1. cbn [snd fst bind ugroup]. rewrite IH. reflexivity. }
    rewrite M. cbn [bind]. do 2 f_equal. unfold kvs, interior_map. rewrite !map_map. cbn [snd fst without_entry].
    clear M. induction m as [|(k, i) m IH]; [reflexivity|]. cbn [map combine]. f_equal. exact IH. }
  rewrite E. eexists. split; [reflexivity|].
  assert (I1 : forall g v, In (g, v) kvs -> exists k i, In (k, i) m /\ v = rest_of x i /\ forall a, In a g <-> listed x k i a).
  { intros g v I. apply in_map_iff in I as ((k & i) & EE & I). cbn [fst snd] in EE. injection EE as <- <-. exists k, i.
    split; [exact I|]. split; [reflexivity|]. intros a. apply key_with_entry_spec. }
  assert (I2 : forall k i, In (k, i) m -> exists g, In (g, rest_of x i) kvs /\ forall a, In a g <-> listed x k i a).
  { intros k i I. eexists. split; [apply in_map_iff; exists (k, i); split; [reflexivity|exact I]|]. intros a. apply key_with_entry_spec. }
  split; [|split].
  - intros a v H. apply (zip_sound same S) in H as (g & I & A). apply I1 in I as (k & i & I & -> & R). exists k, i.
    split; [exact I|]. split; [apply R, A|reflexivity].
  - intros a. rewrite (zip_error same S). split.
    + intros (_ & H) k i I A. destruct (I2 k i I) as (g & Ig & R). apply (H _ _ Ig), R, A.
    + intros H. split; [reflexivity|]. intros g v I A. apply I1 in I as (k & i & I & -> & R). apply (H k i I), R, A.
  - intros a k i I A U. destruct (I2 k i I) as (g & Ig & R). apply (zip_unique same S) with (g := g); [exact Ig|apply R, A|].
    intros g' v' I' A'. apply I1 in I' as (k' & i' & I' & -> & R'). f_equal. apply (U k' i' I'), R', A'.
Qed.
(** Interior mappings with an entry that lists aliases, called [aliases] or named in the call: a name is
    known exactly when it is a key or listed under one; it gives the rest of the interior mapping. *)
Theorem C87_interior_aliases (m : list (str * list (str * avalue))) x arg :
  m <> [] ->
  (arg = AliasKey x /\ x <> []) \/
    (arg = NoAliases /\ x = s "aliases" /\ exists k i, In (k, i) m /\ In x (map fst i)) ->
  exists d, mapping_new same (FromMapping (interior_map m)) arg = Ok d /\
    (forall a v, getitem d a = Ok v -> exists k i, In (k, i) m /\ listed x k i a /\ v = rest_of x i) /\
    (forall a, getitem d a = Raise KeyError <-> forall k i, In (k, i) m -> ~ listed x k i a) /\
    (forall a k i, In (k, i) m -> listed x k i a ->
       (forall k' i', In (k', i') m -> listed x k' i' a -> i' = i) -> getitem d a = Ok (rest_of x i)).
Proof using S.
  intros NM H. assert (E : mapping_new same (FromMapping (interior_map m)) arg = build_from_entry same (interior_map m) x).
  { destruct m as [|e m]; [congruence|]. unfold mapping_new, build_mapping. cbn [interior_map map].
    destruct H as [(-> & NX)|(-> & -> & k & i & I & A)].
    - destruct x; [congruence|]. reflexivity.
    - unfold build_implicit. rewrite (proj2 (existsb_exists has_aliases _)); [reflexivity|].
      exists (AInterior i). split; [|apply in_group_spec, A].
      change (In (AInterior i) (map snd (interior_map (e :: m)))). unfold interior_map. rewrite map_map.
      apply in_map_iff. exists (k, i). split; [reflexivity|exact I]. }
  rewrite E. apply from_entry.
Qed.
(** A value that is no mapping beside one that lists aliases makes the construction fail. *)
Theorem C87_interior_refused (m : list (ukey * avalue)) x arg :
  (arg = AliasKey x /\ x <> []) \/
    (arg = NoAliases /\ x = s "aliases" /\ exists k i, In (k, AInterior i) m /\ In x (map fst i)) ->
  (exists k v, In (k, v) m /\ forall i, v <> AInterior i) ->
  mapping_new same (FromMapping m) arg = Raise AttributeError.
Proof using.
  intros H (k & v & I & NI). assert (E : mapping_new same (FromMapping m) arg = build_from_entry same m x).
  { destruct m as [|e m]; [destruct I|]. unfold mapping_new, build_mapping.
    destruct H as [(-> & NX)|(-> & -> & k' & i & I' & A)].
    - destruct x; [congruence|]. reflexivity.
    - unfold build_implicit. rewrite (proj2 (existsb_exists has_aliases _)); [reflexivity|].
      exists (AInterior i). split; [apply in_map_iff; exists (k', AInterior i); split; [reflexivity|exact I']|apply in_group_spec, A]. }
  rewrite E. unfold build_from_entry.
  assert (M : mapM (key_with_entry x) m = Raise AttributeError).
  { clear E H arg. induction m as [|(k0, v0) m IH]; [destruct I|]. cbn [mapM]. unfold key_with_entry at 1. cbn [fst snd].
    destruct v0 as [t|l|i|n]; cbn [bind]; try reflexivity.
    destruct I as [I|I]; [injection I as _ <-; exfalso; exact (NI i eq_refl)|]. rewrite (IH I). reflexivity. }
  rewrite M. reflexivity.
Qed.
End Tables.
Print Assumptions C87_given_aliases.
Print Assumptions C87_interior_aliases.
Print Assumptions C87_interior_refused.
