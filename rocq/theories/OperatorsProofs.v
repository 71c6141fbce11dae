(** Lemmas for C80. *)
From Verif Require Import PyBase PyLemmas AliasedModel AliasedSpec AliasedProofs AliasedProperties AliasedProperties2 OperatorsModel OperatorsSpec.

Section Singles.
Context {V : Type}.
Variable same : group -> group -> bool.
Hypothesis S : sound_keys same.
Lemma last_split (l : list (str * V)) k : In k (map fst l) ->
  exists pre v post, l = pre ++ (k, v) :: post /\ ~ In k (map fst post).
Proof using.
  clear S. induction l as [|(h, v) l IH]; intros H; [destruct H|].
  destruct (in_dec str_eq_dec k (map fst l)) as [Y|N].
  - destruct (IH Y) as (pre & w & post & -> & Np). exists ((h, v) :: pre), w, post. auto.
  - destruct H as [E|H]; [|contradiction]. cbn [fst] in E. subst h. exists [], v, l. auto.
Qed.
Definition singles (l : list (str * V)) : list (ukey * V) := map (fun kv => (KOne (fst kv), snd kv)) l.
Lemma singles_get (l : list (str * V)) k v : In k (map fst l) -> (forall w, In (k, w) l -> w = v) ->
  getitem (build_from_aliases same (singles l)) k = Ok v.
Proof using S.
  intros I U. destruct (last_split l k I) as (pre & w & post & E & N).
  assert (W : w = v) by (apply U; rewrite E; apply in_app_iff; right; left; reflexivity). subst w.
  destruct (C05_merge same S ([] : entries V) l (NoDup_nil _) (Forall_nil _)) as (M & _).
  refine (M pre k v post k E _ _).
  - left. reflexivity.
  - intros k' v' J [O|O]; [subst k'; apply N; apply in_map_iff; exists (k, v'); auto|]. destruct O as (g & w & O & _). destruct O.
Qed.
Lemma singles_missing (l : list (str * V)) k : ~ In k (map fst l) -> getitem (build_from_aliases same (singles l)) k = Raise KeyError.
Proof using S.
  intros N. destruct (C05_exactly_the_input_names V same (singles l) k S) as (A & B & C). apply C.
  apply Bool.not_true_is_false. intros E. apply A in E as (kv & I & J).
  apply in_map_iff in I as ((h, w) & <- & I). cbn [fst ugroup] in J. destruct J as [->|[]]. apply N, in_map_iff. exists (k, w). auto.
Qed.
End Singles.

Section Freeze.
Context {V : Type}.
Variable same : group -> group -> bool.
Hypothesis S : sound_keys same.
Definition valued (st : mstate V) (k : str) : result (str * pyval V) := v <- mget st k ;; Ok (k, v).
Lemma frozen_form (st : mstate V) : freeze same st true =
  (g <- mapM (valued st) (map fst (kgroups st)) ;; o <- mapM (valued st) (flat_keys (ents st)) ;; Ok (build_from_aliases same (singles (o ++ g)))).
Proof using.
  clear S. unfold freeze. cbv iota.
  assert (A : forall l, mapM (fun g : str * list str => v <- mget st (fst g) ;; Ok (KOne (fst g), v)) l =
              (g <- mapM (valued st) (map fst l) ;; Ok (singles g))).
  { induction l as [|x l IH]; [reflexivity|]. cbn [mapM map]. rewrite IH. unfold valued. destruct (mget st (fst x)); cbn [bind]; [|reflexivity].
    destruct (mapM _ (map fst l)); reflexivity. }
  assert (B : forall l, mapM (fun k : str => v <- mget st k ;; Ok (KOne k, v)) l = (g <- mapM (valued st) l ;; Ok (singles g))).
  { induction l as [|x l IH]; [reflexivity|]. cbn [mapM]. rewrite IH. unfold valued. destruct (mget st x); cbn [bind]; [|reflexivity].
    clear IH. destruct (mapM _ l); reflexivity. }
  rewrite A. destruct (mapM (valued st) (map fst (kgroups st))) as [g|e]; cbn [bind]; [|reflexivity]. rewrite B.
  destruct (mapM (valued st) (flat_keys (ents st))) as [o|e]; cbn [bind]; [|reflexivity]. unfold singles. rewrite map_app. reflexivity.
Qed.
Lemma valued_ok (st : mstate V) l r : mapM (valued st) l = Ok r -> map fst r = l /\ forall k v, In (k, v) r -> mget st k = Ok v.
Proof using.
  clear S. revert r. induction l as [|x l IH]; intros r H; cbn [mapM] in H.
  - injection H as <-. split; [reflexivity|intros ? ? []].
  - unfold valued at 1 in H. destruct (mget st x) as [v|e] eqn:M; cbn [bind] in H; [|discriminate H].
    destruct (mapM (valued st) l) as [r'|e] eqn:E; cbn [bind] in H; [|discriminate H]. injection H as <-.
    destruct (IH _ eq_refl) as (A & B). split; [cbn [map fst]; rewrite A; reflexivity|]. intros k w [I|I]; [injection I as <- <-; exact M|apply B, I].
Qed.
Lemma assoc_none {A} (l : list (str * A)) k : assoc l k = None <-> ~ In k (map fst l).
Proof using.
  clear. induction l as [|(h, a) l IH]; cbn [assoc map fst In]; [tauto|]. destruct (str_eqb_spec h k) as [->|N]; [|tauto].
  split; [discriminate|intros H; exfalso; auto].
Qed.
Lemma freeze_lookup (st : mstate V) d : freeze same st true = Ok d -> forall k, getitem d k = mget st k.
Proof using S.
  rewrite frozen_form. intros H k. destruct (mapM (valued st) (map fst (kgroups st))) as [g|e] eqn:G; cbn [bind] in H; [|discriminate H].
  destruct (mapM (valued st) (flat_keys (ents st))) as [o|e] eqn:O; cbn [bind] in H; [|discriminate H].
  apply (f_equal (fun r => match r with Ok x => x | Raise _ => d end)) in H. rewrite <- H. clear H.
  destruct (valued_ok _ _ _ G) as (G1 & G2), (valued_ok _ _ _ O) as (O1 & O2).
  destruct (in_dec str_eq_dec k (map fst (o ++ g))) as [Y|N].
  - pose proof Y as Y'. apply in_map_iff in Y' as ((h, v) & E & I). cbn [fst] in E. subst h.
    assert (M : forall w, In (k, w) (o ++ g) -> mget st k = Ok w) by (intros w J; apply in_app_iff in J as [J|J]; auto).
    rewrite (M v I). apply singles_get; [exact S|exact Y|]. intros w J. specialize (M w J).
    assert (M2 : mget st k = Ok v) by (apply in_app_iff in I as [I|I]; auto). congruence.
  - rewrite (singles_missing same S _ _ N). symmetry. rewrite map_app, in_app_iff, O1, G1 in N. unfold mget.
    assert (K : assoc (kgroups st) k = None) by (apply assoc_none; tauto). rewrite K. apply getitem_error. split; [reflexivity|tauto].
Qed.
End Freeze.

Lemma nodup_by (l : list str) : dedup l = l -> NoDup l.
Proof. intros H. rewrite <- H. apply dedup_nodup. Qed.

(** ** the collection of operators *)
Section Table.
Variable same : group -> group -> bool.
Hypothesis S : sound_keys same.
Definition named_entries : entries (pyval str) :=
  map (fun kv => (ugroup (fst kv), snd kv)) (map (fun ka : str * list str => (KTup (fst ka :: snd ka), Plain (fst ka))) operation_table).
Lemma builtins_form : builtins_mapping same = named_entries.
Proof using S.
  unfold builtins_mapping, named_entries. apply (build_disjoint same S).
  - apply nodup_by. vm_compute. reflexivity.
  - apply Forall_forall. intros kv I. apply in_map_iff in I as ((k, als) & <- & I). cbn [fst ugroup]. intros E.
    apply (in_nil (a := k)). rewrite <- E. apply dedup_in. left. reflexivity.
Qed.
Definition default_state : mstate str := {| ents := named_entries; kgroups := operator_groups |}.
Lemma operators_state : build_operators same = Ok default_state.
Proof using S. unfold build_operators. rewrite builtins_form. vm_compute. reflexivity. Qed.
Lemma named_get op k : denotes op k -> getitem named_entries k = Ok (Plain op).
Proof using.
  clear S. intros (als & I & K). apply (getitem_disjoint named_entries) with (g := ugroup (KTup (op :: als))).
  - apply nodup_by. vm_compute. reflexivity.
  - unfold named_entries. rewrite map_map. apply in_map_iff. exists (op, als). split; [reflexivity|exact I].
  - cbn [ugroup]. apply dedup_in. destruct K as [->|K]; [left; reflexivity|right; exact K].
Qed.
Lemma named_missing k : (forall op, ~ denotes op k) -> getitem named_entries k = Raise KeyError.
Proof using.
  clear S. intros H. apply getitem_error. split; [reflexivity|]. intros I. unfold flat_keys in I. apply in_concat in I as (g & I & J).
  unfold named_entries in I. rewrite !map_map in I. apply in_map_iff in I as ((op, als) & <- & I). cbn [fst ugroup] in J. rewrite dedup_in in J.
  apply (H op). exists als. split; [exact I|]. cbn [fst snd In] in J. destruct J as [->|J]; [left; reflexivity|right; exact J].
Qed.
Lemma denotes_self op als : In (op, als) operation_table -> denotes op op.
Proof using. clear. intros I. exists als. auto. Qed.
(** the members of groups are canonical names *)
Lemma members_known g ns n : groups_of g ns -> In n ns -> denotes n n.
Proof using.
  clear S. intros G I.
  assert (A : forallb (fun gn : str * list str => forallb (fun n => in_group n (map fst operation_table)) (snd gn)) operator_groups = true) by (vm_compute; reflexivity).
  rewrite forallb_forall in A. specialize (A _ G). cbn [snd] in A. rewrite forallb_forall in A. specialize (A _ I). apply in_group_spec in A.
  apply in_map_iff in A as ((op, als) & E & J). cbn [fst] in E. subst op. exact (denotes_self n als J).
Qed.
Lemma group_unique g ns : groups_of g ns -> assoc operator_groups g = Some ns.
Proof using.
  clear S. unfold groups_of. intros H. unfold operator_groups in H. cbn [In] in H.
  repeat (destruct H as [H|H]; [injection H as <- <-; vm_compute; reflexivity|]). destruct H.
Qed.
Lemma group_not_name g ns : groups_of g ns -> forall op, ~ denotes op g.
Proof using.
  clear S. intros G op (als & I & K).
  assert (A : forallb (fun gn : str * list str => negb (in_group (fst gn) (flat_keys named_entries))) operator_groups = true) by (vm_compute; reflexivity).
  rewrite forallb_forall in A. specialize (A _ G). cbn [fst] in A. apply Bool.negb_true_iff, in_group_false in A. apply A.
  unfold flat_keys. apply in_concat. exists (ugroup (KTup (op :: als))). split.
  - unfold named_entries. rewrite !map_map. apply in_map_iff. exists (op, als). split; [reflexivity|exact I].
  - cbn [ugroup]. apply dedup_in. destruct K as [->|K]; [left; reflexivity|right; exact K].
Qed.
Lemma group_nodup g ns : groups_of g ns -> NoDup ns /\ ns <> [].
Proof using.
  clear S. unfold groups_of. intros H. unfold operator_groups in H. cbn [In] in H.
  repeat (destruct H as [H|H]; [injection H as <- <-; split; [apply nodup_by; vm_compute; reflexivity|vm_compute; discriminate]|]). destruct H.
Qed.
Lemma assoc_groups k ns : assoc operator_groups k = Some ns -> groups_of k ns.
Proof using.
  clear. unfold groups_of. generalize operator_groups. induction l as [|(h, a) l IH]; cbn [assoc]; [discriminate|].
  destruct (str_eqb_spec h k) as [->|N]; intros H; [injection H as ->; left; reflexivity|right; auto].
Qed.
Lemma default_get k : mget default_state k =
  match assoc operator_groups k with Some ns => Ok (Tup (map Plain ns)) | None => getitem named_entries k end.
Proof using.
  clear S. unfold mget. cbn [kgroups ents default_state]. destruct (assoc operator_groups k) as [ns|] eqn:A; [|reflexivity].
  apply assoc_groups in A.
  assert (M : forall l, (forall n, In n l -> denotes n n) -> mapM (getitem named_entries) l = Ok (map Plain l)).
  { induction l as [|x l IH]; intros H; [reflexivity|]. cbn [mapM map]. rewrite (named_get x x) by (apply H; left; reflexivity). cbn [bind].
    rewrite IH by (intros n I; apply H; right; exact I). reflexivity. }
  rewrite M; [reflexivity|]. intros n I. exact (members_known k ns n A I).
Qed.
Lemma operators_ok : exists d, operators same = Ok {| oents := d; ogroups := Some operator_groups |} /\ (forall k, getitem d k = mget default_state k).
Proof using S.
  unfold operators. rewrite operators_state. cbn [bind]. unfold from_mutable.
  destruct (freeze same default_state true) as [d|e] eqn:F.
  - cbn [bind]. exists d. split; [reflexivity|]. exact (freeze_lookup same S default_state d F).
  - exfalso. rewrite frozen_form in F.
    assert (M : forall l, (forall k, In k l -> exists v, mget default_state k = Ok v) -> exists r, mapM (valued default_state) l = Ok r).
    { induction l as [|x l IH]; intros H; [exists []; reflexivity|]. cbn [mapM]. unfold valued at 1. destruct (H x (or_introl eq_refl)) as (v & ->). cbn [bind].
      destruct (IH (fun k I => H k (or_intror I))) as (r & ->). eexists. reflexivity. }
    destruct (M (map fst (kgroups default_state))) as (g & Hg).
    { intros k I. rewrite default_get. destruct (assoc operator_groups k) eqn:A; [eexists; reflexivity|]. apply assoc_none in A. contradiction. }
    rewrite Hg in F. cbn [bind] in F. destruct (M (flat_keys (ents default_state))) as (o & Ho).
    { intros k I. rewrite default_get. destruct (assoc operator_groups k) eqn:A; [eexists; reflexivity|].
      destruct (getitem named_entries k) as [v|e'] eqn:G; [eexists; reflexivity|]. apply getitem_error in G as (_ & G). contradiction. }
    rewrite Ho in F. discriminate F.
Qed.
End Table.
