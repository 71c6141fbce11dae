(** C87 continued: equality, squeeze, alias, and the views of a mapping over time; examples. *)
From Verif Require Import PyBase PyLemmas AliasedModel AliasedModel2 AliasedSpec AliasedProofs AliasedNames AliasedProperties
  AliasedProperties3 AliasedProperties4.

(** ** Equality *)
Section Equal.
Context {V : Type}.
Variable veq : V -> V -> bool.
Implicit Types d e : entries V.

(** the same names with equal values *)
Definition same_contents (f g : str -> result V) : Prop :=
  forall a, match f a, g a with
            | Ok v, Ok w => veq w v = true
            | Raise _, Raise _ => True
            | _, _ => False
            end.
Lemma flat_found d a : In a (flat_keys d) <-> exists v, getitem d a = Ok v.
Proof.
  split.
  - intros H. destruct (getitem d a) as [v|e] eqn:E; [exists v; reflexivity|]. apply getitem_error in E as (_ & E). contradiction.
  - intros (v & E). destruct (in_dec (list_eq_dec ascii_dec) a (flat_keys d)) as [Y|N]; [exact Y|].
    assert (X : getitem d a = Raise KeyError) by (apply getitem_error; split; [reflexivity|exact N]). congruence.
Qed.
Lemma items_all d : exists l, items_view d = Ok l /\ map fst l = flat_keys d /\ forall a v, In (a, v) l -> getitem d a = Ok v.
Proof.
  unfold items_view. assert (G : forall ks, incl ks (flat_keys d) -> exists l, mapM (fun k => v <- getitem d k ;; Ok (k, v)) ks = Ok l /\
    map fst l = ks /\ forall a v, In (a, v) l -> getitem d a = Ok v).
  { induction ks as [|k ks IH]; intros I; [exists []; split; [reflexivity|]; split; [reflexivity|intros a v []]|].
    destruct (proj1 (flat_found d k) (I k (or_introl eq_refl))) as (v & E). destruct IH as (l & EL & F & H); [intros z Z; apply I; right; exact Z|].
    exists ((k, v) :: l). cbn [mapM]. rewrite E. cbn [bind]. rewrite EL. split; [reflexivity|]. split; [cbn [map fst]; rewrite F; reflexivity|].
    intros a w [J|J]; [injection J as <- <-; exact E|exact (H a w J)]. }
  apply G. intros z Z. exact Z.
Qed.
(** Two aliased mappings without repeated names are equal exactly when they have the same names with equal
    values; how the names are grouped does not matter. *)
Theorem C87_equality d e : disjoint_groups (map fst d) -> disjoint_groups (map fst e) ->
  exists b, aliased_eq veq d e = Ok b /\ (b = true <-> same_contents (getitem d) (getitem e)).
Proof.
  intros Nd Ne. unfold aliased_eq, maplen. destruct (items_all d) as (l & EL & F & H).
  destruct (Nat.eqb (length (flat_keys d)) (length (flat_keys e))) eqn:L.
  - apply Nat.eqb_eq in L. rewrite EL. cbn [bind]. eexists. split; [reflexivity|]. rewrite forallb_forall. split.
    + intros A a. destruct (getitem d a) as [v|x] eqn:D.
      * assert (Ia : In a (flat_keys d)) by (apply flat_found; exists v; exact D). rewrite <- F in Ia.
        apply in_map_iff in Ia as ((a' & v') & EA & I). cbn [fst] in EA. subst a'. pose proof (H a v' I) as D'. rewrite D in D'. injection D' as <-.
        specialize (A _ I). unfold has_item in A. cbn [fst snd] in A. destruct (getitem e a); [exact A|discriminate].
      * destruct (getitem e a) as [w|y] eqn:E; [|exact Logic.I]. exfalso. apply getitem_error in D as (_ & D). apply D.
        assert (Ie : In a (flat_keys e)) by (apply flat_found; exists w; exact E).
        apply (NoDup_length_incl (l := flat_keys d) (l' := flat_keys e)); [exact Nd|lia| |exact Ie].
        intros b Ib. rewrite <- F in Ib. apply in_map_iff in Ib as ((b' & v') & EB & I). cbn [fst] in EB. subst b'.
        specialize (A _ I). unfold has_item in A. cbn [fst snd] in A. apply flat_found.
        destruct (getitem e b) as [u|]; [exists u; reflexivity|discriminate].
    + intros A (a, v) I. unfold has_item. cbn [fst snd]. specialize (A a). rewrite (H a v I) in A. destruct (getitem e a); [exact A|destruct A].
  - eexists. split; [reflexivity|]. split; [discriminate|]. intros A. exfalso. apply Nat.eqb_neq in L. apply L.
    assert (I1 : incl (flat_keys d) (flat_keys e)).
    { intros a I. apply flat_found in I as (v & D). specialize (A a). rewrite D in A. apply flat_found.
      destruct (getitem e a) as [w|]; [exists w; reflexivity|destruct A]. }
    assert (I2 : incl (flat_keys e) (flat_keys d)).
    { intros a I. apply flat_found in I as (v & D). specialize (A a). rewrite D in A. apply flat_found.
      destruct (getitem d a) as [w|]; [exists w; reflexivity|destruct A]. }
    apply Nat.le_antisymm; apply NoDup_incl_length; assumption.
Qed.

Lemma assoc_set_get {A} (l : list (str * A)) k v x : assoc (assoc_set l k v) x = if str_eqb k x then Some v else assoc l x.
Proof.
  induction l as [|(h, w) l IH]; cbn [assoc_set assoc]; [reflexivity|]. destruct (str_eqb h k) eqn:E; cbn [assoc].
  - apply str_eqb_eq in E. subst h. destruct (str_eqb k x); reflexivity.
  - rewrite IH. destruct (str_eqb h x) eqn:Q; [|reflexivity]. apply str_eqb_eq in Q. subst h.
    destruct (str_eqb k x) eqn:R; [|reflexivity]. apply str_eqb_eq in R. subst. rewrite str_eqb_refl in E. discriminate.
Qed.
Lemma assoc_set_keys {A} (l : list (str * A)) k v : NoDup (map fst l) -> NoDup (map fst (assoc_set l k v)).
Proof.
  induction l as [|(h, w) l IH]; cbn [assoc_set map fst]; intros N; [constructor; [intros []|constructor]|].
  inversion N as [|? ? N1 N2]; subst. destruct (str_eqb h k) eqn:E; cbn [map fst]; [exact N|]. constructor; [|exact (IH N2)].
  intros I. apply N1. clear - I E. induction l as [|(h', w') l IH]; cbn [assoc_set map fst] in I.
  - destruct I as [<-|[]]. rewrite str_eqb_refl in E. discriminate.
  - destruct (str_eqb h' k) eqn:Q; cbn [map fst] in I; [exact I|]. destruct I as [I|I]; [left; exact I|right; exact (IH I)].
Qed.
Lemma assoc_in {A} (l : list (str * A)) k v : NoDup (map fst l) -> (In (k, v) l <-> assoc l k = Some v).
Proof.
  induction l as [|(h, w) l IH]; cbn [assoc map fst]; intros N; [split; [intros []|discriminate]|].
  inversion N as [|? ? N1 N2]; subst. destruct (str_eqb h k) eqn:E.
  - apply str_eqb_eq in E. subst h. split.
    + intros [I|I]; [injection I as <-; reflexivity|]. exfalso. apply N1. apply (in_map fst) in I. exact I.
    + intros I. injection I as <-. left. reflexivity.
  - rewrite <- (IH N2). split; [intros [I|I]; [|exact I]|intros I; right; exact I]. injection I as -> ->. rewrite str_eqb_refl in E. discriminate.
Qed.
Lemma dict_of_items_get (l : list (str * V)) : NoDup (map fst (dict_of_items l)) /\
  forall k, assoc (dict_of_items l) k = match find (fun kv => str_eqb (fst kv) k) (rev l) with Some kv => Some (snd kv) | None => None end.
Proof.
  unfold dict_of_items. induction l as [|(k, v) l IH] using rev_ind; [split; [constructor|reflexivity]|].
  destruct IH as (N & G). rewrite fold_left_app. cbn [fold_left fst snd]. split; [apply assoc_set_keys, N|].
  intros x. rewrite assoc_set_get, rev_app_distr. cbn [rev app find fst]. destruct (str_eqb k x); [reflexivity|apply G].
Qed.
(** An aliased mapping and a plain dictionary, whatever the groups: the same names with equal values. *)
Theorem C87_equality_plain d (other : list (str * V)) : NoDup (map fst other) ->
  exists b, plain_eq veq d other = Ok b /\
    (b = true <-> forall a, match getitem d a, assoc other a with
                            | Ok v, Some w => veq v w = true
                            | Raise _, None => True
                            | _, _ => False
                            end).
Proof.
  intros NO. unfold plain_eq. destruct (items_all d) as (l & EL & F & H). rewrite EL. cbn [bind]. eexists. split; [reflexivity|].
  destruct (dict_of_items_get l) as (NM & GM). set (mine := dict_of_items l) in *.
  assert (GD : forall a, match getitem d a with Ok v => assoc mine a = Some v | Raise _ => assoc mine a = None end).
  { intros a. rewrite GM. destruct (find (fun kv => str_eqb (fst kv) a) (rev l)) as [(a', v')|] eqn:FD.
    - apply find_some in FD as (I & E). cbn [fst] in E. apply str_eqb_eq in E. subst a'. apply in_rev in I. rewrite (H a v' I). reflexivity.
    - destruct (getitem d a) as [v|] eqn:D; [|reflexivity]. exfalso.
      assert (I : In a (flat_keys d)) by (apply flat_found; exists v; exact D). rewrite <- F in I. apply in_map_iff in I as (kv & E & I).
      apply in_rev in I. pose proof (find_none _ _ FD _ I) as B. cbn beta in B. rewrite E, str_eqb_refl in B. discriminate. }
  rewrite andb_true_iff, Nat.eqb_eq, forallb_forall. split.
  - intros (L & A) a. pose proof (GD a) as G. destruct (getitem d a) as [v|x] eqn:D.
    + apply (assoc_in mine a v NM) in G. specialize (A _ G). cbn [fst snd] in A. destruct (assoc other a); [exact A|discriminate].
    + destruct (assoc other a) as [w|] eqn:O; [|exact Logic.I]. apply (assoc_in other a w NO) in O.
      assert (Im : In a (map fst mine)).
      { apply (NoDup_length_incl (l := map fst mine) (l' := map fst other)); [exact NM|rewrite !map_length; lia| |apply (in_map fst) in O; exact O].
        intros b Ib. apply in_map_iff in Ib as ((b' & v') & EB & I). cbn [fst] in EB. subst b'. specialize (A _ I). cbn [fst snd] in A.
        destruct (assoc other b) as [u|] eqn:O'; [|discriminate]. apply (assoc_in other b u NO) in O'. apply (in_map fst) in O'. exact O'. }
      apply in_map_iff in Im as ((a' & u) & EA & I). cbn [fst] in EA. subst a'. apply (assoc_in mine a u NM) in I. congruence.
  - intros A. split.
    + assert (I1 : incl (map fst mine) (map fst other)).
      { intros a I. apply in_map_iff in I as ((a' & v) & EA & I). cbn [fst] in EA. subst a'. apply (assoc_in mine a v NM) in I.
        specialize (A a). specialize (GD a). destruct (getitem d a) as [w|]; [|congruence].
        destruct (assoc other a) as [u|] eqn:O; [|destruct A]. apply (assoc_in other a u NO) in O. apply (in_map fst) in O. exact O. }
      assert (I2 : incl (map fst other) (map fst mine)).
      { intros a I. apply in_map_iff in I as ((a' & v) & EA & I). cbn [fst] in EA. subst a'. apply (assoc_in other a v NO) in I.
        specialize (A a). specialize (GD a). rewrite I in A. destruct (getitem d a) as [w|]; [|destruct A].
        apply (assoc_in mine a w NM) in GD. apply (in_map fst) in GD. exact GD. }
      rewrite <- (map_length fst mine), <- (map_length fst other). apply Nat.le_antisymm; apply NoDup_incl_length; assumption.
    + intros (a, v) I. cbn [fst snd]. apply (assoc_in mine a v NM) in I. specialize (A a). specialize (GD a).
      destruct (getitem d a) as [w|]; [|congruence]. assert (w = v) by congruence. subst w. destruct (assoc other a); [exact A|destruct A].
Qed.
End Equal.
Print Assumptions C87_equality.
Print Assumptions C87_equality_plain.
(** With a name in two groups, equality is not symmetric: the repeated name stands for a missing one. *)
Theorem C87_equality_refuted : exists (m1 m2 : list (ukey * nat)),
  let d := build_from_aliases group_eqb m1 in let e := build_from_aliases group_eqb m2 in
  aliased_eq Nat.eqb d e = Ok true /\ aliased_eq Nat.eqb e d = Ok false /\
  getitem e (s "c") = Ok 1 /\ getitem d (s "c") = Raise KeyError.
Proof.
  exists [(KTup [s "a"; s "b"], 1); (KTup [s "a"], 1)], [(KOne (s "a"), 1); (KOne (s "b"), 1); (KOne (s "c"), 1)].
  cbv zeta. split; [vm_compute; reflexivity|]. split; [vm_compute; reflexivity|]. split; vm_compute; reflexivity.
Qed.
Print Assumptions C87_equality_refuted.

(** ** [squeeze] *)
Lemma getitem_values {V W} (d : entries V) (d' : entries W) a : map fst d = map fst d' ->
  match getitem d a, getitem d' a with
  | Ok v, Ok w => exists n, nth_error (map snd d) n = Some v /\ nth_error (map snd d') n = Some w
  | Raise KeyError, Raise KeyError => True
  | _, _ => False
  end.
Proof.
  intros E. unfold getitem, resolve.
  assert (R : resolve_from 0 d a = resolve_from 0 d' a).
  { revert d' E. generalize 0. induction d as [|(g, v) d IH]; intros i [|(h, w) d'] E; try discriminate; [reflexivity|].
    cbn [map fst] in E. injection E as <- E. cbn [resolve_from]. rewrite (IH (Datatypes.S i) d' E). reflexivity. }
  rewrite <- R. destruct (resolve_from 0 d a) as [j|] eqn:Rj; [|exact Logic.I].
  pose proof (resolve_from_some d a 0 j Rj) as (n & g & v & -> & En & _). cbn [Nat.add].
  assert (Rj' : resolve_from 0 d' a = Some (0 + n)) by congruence.
  pose proof (resolve_from_some d' a 0 _ Rj') as (n' & g' & v' & EQ & En' & _). cbn [Nat.add] in EQ. subst n'. rewrite En, En'. exists n.
  split; apply (map_nth_error snd _ _) in En, En'; assumption.
Qed.
(** every interior value is a mapping *)
Definition interiors (d : entries avalue) : Prop := forall g v, In (g, v) d -> exists i, v = AInterior i.
(** [v] is a mapping with one entry, of the value [w] *)
Definition holds_only (v w : avalue) : Prop := exists k, v = AInterior [(k, w)].

Lemma all_single_interiors vs : Forall (fun v => exists i, v = AInterior i) vs ->
  all_single vs = Ok true /\ Forall (fun v => exists w, holds_only v w) vs \/
  all_single vs = Ok false /\ Exists (fun v => forall w, ~ holds_only v w) vs.
Proof.
  induction 1 as [|v vs (i & ->) F IH]; [left; split; [reflexivity|constructor]|]. cbn [all_single alength bind].
  destruct i as [|(k, w) [|e i]]; cbn [length Nat.eqb].
  - right. split; [reflexivity|]. left. intros w (k & E). discriminate.
  - destruct IH as [(E & H)|(E & H)]; [left|right]; (split; [exact E|]); [|right; exact H].
    constructor; [|exact H]. exists w, k. reflexivity.
  - right. split; [reflexivity|]. left. intros w' (k' & E). discriminate.
Qed.
(** If every value is a mapping with one entry, each name afterwards gives the only value of its mapping;
    if some value has another number of entries, nothing changes. *)
Theorem C87_squeeze d : interiors d ->
  exists d', squeeze d false = Ok d' /\ map fst d' = map fst d /\
    ((forall g v, In (g, v) d -> exists w, holds_only v w) ->
       forall a v w, getitem d a = Ok v -> holds_only v w -> getitem d' a = Ok w) /\
    ((exists g v, In (g, v) d /\ forall w, ~ holds_only v w) -> d' = d).
Proof.
  intros H. assert (F : Forall (fun v => exists i, v = AInterior i) (map snd d)).
  { apply Forall_forall. intros v I. apply in_map_iff in I as ((g & v') & <- & I). exact (H g v' I). }
  unfold squeeze. destruct (all_single_interiors _ F) as [(-> & A)|(-> & X)]; cbn [bind].
  - assert (M : exists vs, mapM only_value (map snd d) = Ok vs /\ Forall2 holds_only (map snd d) vs).
    { clear - A. induction A as [|v l (w & k & ->) A IH]; [exists []; split; [reflexivity|constructor]|].
      destruct IH as (vs & E & F2). exists (w :: vs). cbn [mapM only_value bind]. rewrite E. split; [reflexivity|]. constructor; [exists k; reflexivity|exact F2]. }
    destruct M as (vs & -> & F2). cbn [bind]. eexists. split; [reflexivity|].
    assert (L : length (map fst d) = length vs) by (rewrite map_length, <- (map_length snd d); clear - F2; induction F2; [reflexivity|cbn [length]; f_equal; assumption]).
    assert (E1 : map fst (combine (map fst d) vs) = map fst d) by (apply combine_fst; exact L).
    split; [exact E1|]. split.
    + intros _ a v w Ga (k & ->). pose proof (getitem_values d (combine (map fst d) vs) a (eq_sym E1)) as Q. rewrite Ga in Q.
      destruct (getitem (combine (map fst d) vs) a) as [w'|]; [|destruct Q]. destruct Q as (n & N1 & N2).
      rewrite (combine_snd _ _ L) in N2. f_equal. clear - F2 N1 N2. revert n N1 N2.
      induction F2 as [|x y l l' (k' & ->) F2 IH]; intros [|n] N1 N2; try discriminate; cbn [nth_error] in *; [|exact (IH n N1 N2)].
      congruence.
    + intros (g & v & I & N). exfalso. rewrite Forall_forall in A. destruct (A v) as (w & W); [apply (in_map snd) in I; exact I|]. exact (N w W).
  - eexists. split; [reflexivity|]. split; [reflexivity|]. split; [|reflexivity]. intros Y. exfalso. apply Exists_exists in X as (v & I & N).
    apply in_map_iff in I as ((g & v') & <- & I). destruct (Y g v' I) as (w & W). exact (N w W).
Qed.
Print Assumptions C87_squeeze.
(** In strict mode: the same result if all the entries have the same key, TypeError if two differ. *)
Theorem C87_squeeze_strict d g0 k0 w0 d0 : d = (g0, AInterior [(k0, w0)]) :: d0 ->
  (forall g v, In (g, v) d -> exists k w, v = AInterior [(k, w)]) ->
  ((forall g k w, In (g, AInterior [(k, w)]) d -> k = k0) -> squeeze d true = squeeze d false) /\
  ((exists g k w, In (g, AInterior [(k, w)]) d /\ k <> k0) -> squeeze d true = Raise TypeError).
Proof.
  intros E H. assert (A : all_single (map snd d) = Ok true).
  { clear E. induction d as [|(g, v) d IH]; [reflexivity|]. destruct (H g v (or_introl eq_refl)) as (k & w & ->).
    cbn [map snd all_single alength length bind Nat.eqb]. apply IH. intros g' v' I. apply (H g' v'). right. exact I. }
  unfold squeeze. rewrite A. cbn [bind].
  assert (C : forall l, (forall g v, In (g, v) l -> exists k w, v = AInterior [(k, w)]) ->
    ((forall g k w, In (g, AInterior [(k, w)]) l -> k = k0) -> same_only_key k0 (map snd l) = Ok tt) /\
    ((exists g k w, In (g : group, AInterior [(k, w)]) l /\ k <> k0) -> same_only_key k0 (map snd l) = Raise TypeError)).
  { induction l as [|(g, v) l IH]; intros HL; [split; [reflexivity|intros (g & k & w & [] & _)]|].
    destruct (HL g v (or_introl eq_refl)) as (k & w & ->). destruct IH as (I1 & I2); [intros g' v' I; apply (HL g' v'); right; exact I|].
    cbn [map snd same_only_key only_key bind]. destruct (str_eqb k k0) eqn:Q.
    - apply str_eqb_eq in Q. subst k. split.
      + intros Y. apply I1. intros g' k' w' I. apply (Y g' k' w'). right. exact I.
      + intros (g' & k' & w' & [I|I] & N); [injection I as _ <- _; congruence|]. apply I2. exists g', k', w'. split; assumption.
    - split; [|reflexivity]. intros Y. exfalso. assert (k = k0) by (apply (Y g k w); left; reflexivity). subst. rewrite str_eqb_refl in Q. discriminate. }
  subst d. cbn [map snd strict_check only_key bind]. destruct (C d0) as (C1 & C2); [intros g v I; apply (H g v); right; exact I|]. split.
  - intros Y. rewrite C1; [reflexivity|]. intros g k w I. apply (Y g k w). right. exact I.
  - intros (g & k & w & [I|I] & N); [injection I as _ <- _; congruence|]. rewrite C2; [reflexivity|]. exists g, k, w. split; assumption.
Qed.
Print Assumptions C87_squeeze_strict.
(** A strict squeeze of an empty mapping fails. *)
Theorem C87_squeeze_empty_refuted : squeeze [] true = Raise IndexError /\ squeeze [] false = Ok [].
Proof. split; reflexivity. Qed.
Print Assumptions C87_squeeze_empty_refuted.

(** ** [alias] *)
Theorem C87_alias {V} (d : entries V) k include : disjoint_groups (map fst d) ->
  match alias_of d k include with
  | Ok (Some g) => In k (flat_keys d) /\
      forall a, In a g <-> (include = true \/ a <> k) /\ exists h v, In (h, v) d /\ In k h /\ In a h
  | Ok None => include = true /\ ~ In k (flat_keys d)
  | Raise e => e = TypeError /\ include = false /\ ~ In k (flat_keys d)
  end.
Proof.
  intros N. unfold alias_of, resolve. destruct (resolve_from 0 d k) as [j|] eqn:R.
  - assert (K : In k (flat_keys d)).
    { destruct (in_dec (list_eq_dec ascii_dec) k (flat_keys d)) as [Y|Z]; [exact Y|]. apply (resolve_from_none d k 0) in Z. congruence. }
    apply resolve_from_some in R as (n & g & v & -> & En & Kg & _). cbn [Nat.add]. rewrite En. apply nth_error_In in En.
    assert (U : forall a, In a g <-> exists h w, In (h, w) d /\ In k h /\ In a h).
    { intros a. split; [intros A; exists g, v; split; [exact En|]; split; assumption|]. intros (h & w & I & Kh & A).
      pose proof (grouped_one d g v h w k N En I Kg Kh) as Q. injection Q as <- _. exact A. }
    split; [exact K|]. intros a. destruct include.
    + rewrite (U a). split; [intros Y; split; [left; reflexivity|exact Y]|intros (_ & Y); exact Y].
    + rewrite filter_In, negb_true_iff, str_eqb_neq, (U a). split.
      * intros (Y & Z). split; [right; exact Z|exact Y].
      * intros ([Z|Z] & Y); [discriminate|]. split; assumption.
  - apply resolve_from_none in R. destruct include; [split; [reflexivity|exact R]|]. split; [reflexivity|]. split; [reflexivity|exact R].
Qed.
Print Assumptions C87_alias.

(** ** Views over time *)
Section Views.
Context {V : Type}.
Implicit Types d : entries (pyval V).

Lemma run_results (st : mstate V) os : mrun st os = snd (m_results st os).
Proof.
  unfold mrun. revert st. induction os as [|o os IH]; intros st; [reflexivity|]. cbn [fold_left m_results].
  rewrite IH. destruct (mstep st o) as [st' r]. cbn [fst]. destruct (m_results st' os) as [rs st'']. reflexivity.
Qed.
Lemma run_grouped d os : well_grouped d -> Forall (fun o => plain_op o = true) os ->
  well_grouped (ents (mrun (mnew d) os)) /\ kgroups (mrun (mnew d) os) = [].
Proof.
  intros (N & F) P. rewrite run_results. set (dflt := Tup [] : pyval V).
  pose proof (rep_results os (mnew d) (cells_of d dflt) eq_refl P) as H.
  assert (R0 : rep (ents (mnew d)) (cells_of d dflt)) by (apply rep_init; [exact N|intros (g, v) I; exact (F g v I)]).
  specialize (H R0). destruct (m_results (mnew d) os) as [rs st], (c_results (cells_of d dflt) os) as [rs' c]. cbn [snd].
  destruct H as (_ & (l & E & R) & KG). split; [|exact KG]. split.
  - unfold disjoint_groups. change (NoDup (flat_keys (ents st))). rewrite <- E. eapply numbered_disjoint, R.
  - intros g v I. rewrite <- E in I. apply in_map_iff in I as ((i & (g' & v')) & EI & I). cbn [snd] in EI. injection EI as -> ->.
    destruct R as (_ & R & _). apply R in I as (_ & _ & NE & _). exact NE.
Qed.
Lemma mget_plain (st : mstate V) k : kgroups st = [] -> mget st k = getitem (ents st) k.
Proof. intros H. unfold mget. rewrite H. reflexivity. Qed.

(** A view of the groups always shows the current entries, whatever happened since it was made. *)
Theorem C87_group_views d os : well_grouped d -> Forall (fun o => plain_op o = true) os ->
  let w := view_of (mnew d) true in
  let st := mrun (mnew d) os in
  view_items st w = Ok (map (fun gv => (KTup (fst gv), snd gv)) (ents st)) /\
  view_len st w = length (ents st) /\
  (forall g v a, In (g, v) (ents st) -> In a g -> mget st a = Ok v).
Proof.
  intros W P w st. subst w. destruct (run_grouped d os W P) as (WG & KG). fold st in WG, KG. cbn [view_of view_items view_len].
  split; [|split; [reflexivity|]].
  - assert (G : forall d', incl d' (ents st) -> mapM (fun gv => v <- getgroup (ents st) (fst gv) ;; Ok (KTup (fst gv), v)) d'
                 = Ok (map (fun gv => (KTup (fst gv), snd gv)) d')).
    { induction d' as [|(g, v) d' IH]; intros I; [reflexivity|]. cbn [mapM fst]. rewrite (getgroup_in _ g v WG (I _ (or_introl eq_refl))).
      cbn [bind]. rewrite IH; [reflexivity|]. intros z Z. apply I. right. exact Z. }
    apply G. intros z Z. exact Z.
  - intros g v a I A. rewrite (mget_plain st a KG). apply (getitem_disjoint _ (proj1 WG)) with (g := g); assumption.
Qed.
(** A view of the names shows the current values as long as no names were added or removed: assignments
    to known names are seen through it. *)
Theorem C87_name_views d os : well_grouped d ->
  Forall (fun o => match o with OSet k _ => In k (flat_keys d) | _ => False end) os ->
  let w := view_of (mnew d) false in
  let st := mrun (mnew d) os in
  view_keys st w = map KOne (flat_keys (ents st)) /\ view_len st w = length (flat_keys (ents st)) /\
  exists l, view_items st w = Ok l /\ map fst l = map KOne (flat_keys d) /\
    forall a v, In (KOne a, v) l -> mget st a = Ok v.
Proof.
  intros W P w st. subst w.
  assert (P' : Forall (fun o : mop V => plain_op o = true) os).
  { apply Forall_forall. intros o I. rewrite Forall_forall in P. specialize (P o I). destruct o; [reflexivity|reflexivity|reflexivity|destruct P]. }
  destruct (run_grouped d os W P') as (WG & KG). fold st in WG, KG.
  assert (SN : forall i v (d0 : entries (pyval V)), map fst (set_nth i v d0) = map fst d0).
  { intros i v d0. revert i. induction d0 as [|(g, u) d0 IH]; intros [|i]; cbn [set_nth map fst]; try reflexivity. rewrite IH. reflexivity. }
  assert (FK : map fst (ents st) = map fst d).
  { unfold st, mrun. clear st WG KG P' W.
    assert (G : forall st0 : mstate V, map fst (ents st0) = map fst d -> map fst (ents (fold_left (fun st o => fst (mstep st o)) os st0)) = map fst d).
    { induction P as [|o os Ho P IH]; intros st0 E; [exact E|]. cbn [fold_left]. apply IH. destruct o as [k v|k|k als|n ks]; try destruct Ho.
      cbn [mstep fst]. unfold mset. cbn [with_ents ents]. destruct (resolve (ents st0) k) as [i|] eqn:R; [rewrite SN; exact E|].
      exfalso. apply resolve_from_none in R. apply R. unfold flat_keys. rewrite E. exact Ho. }
    apply G. reflexivity. }
  cbn [view_of view_keys view_len view_items mnew ents].
  assert (FF : flat_keys (ents st) = flat_keys d) by (unfold flat_keys; rewrite FK; reflexivity).
  split; [rewrite FF; reflexivity|]. split; [rewrite FF; reflexivity|].
  assert (G : forall ks, incl ks (flat_keys (ents st)) -> exists l, mapM (fun k => v <- mget st k ;; Ok (KOne k, v)) ks = Ok l /\
    map fst l = map KOne ks /\ forall a v, In (KOne a, v) l -> mget st a = Ok v).
  { induction ks as [|k ks IH]; intros I; [exists []; split; [reflexivity|]; split; [reflexivity|intros a v []]|].
    destruct (proj1 (flat_found (ents st) k) (I k (or_introl eq_refl))) as (v & E). rewrite <- (mget_plain st k KG) in E.
    destruct IH as (l & EL & F & H); [intros z Z; apply I; right; exact Z|]. exists ((KOne k, v) :: l). cbn [mapM]. rewrite E. cbn [bind]. rewrite EL.
    split; [reflexivity|]. split; [cbn [map fst]; rewrite F; reflexivity|]. intros a u [J|J]; [injection J as <- <-; exact E|exact (H a u J)]. }
  destruct (G (flat_keys d)) as (l & EL & F & H); [intros z Z; rewrite FF; exact Z|]. exists l. split; [exact EL|]. split; [exact F|exact H].
Qed.
End Views.
Print Assumptions C87_group_views.
Print Assumptions C87_name_views.
(** Unlike the views of a dictionary, a view of the names does not follow deletions and new names: it keeps
    its length, iterating over its items fails, and new names do not appear. *)
Theorem C87_views_follow_refuted : exists (d : entries (pyval nat)) k n,
  let w := view_of (mnew d) false in
  let st1 := mrun (mnew d) [ODel k] in let st2 := mrun (mnew d) [OSet n 7] in
  view_items (mnew d) w = Ok [(KOne k, Plain 1)] /\
  flat_keys (ents st1) = [] /\ view_len st1 w = 1 /\ view_items st1 w = Raise KeyError /\
  mget st2 n = Ok (Plain 7) /\ in_view st2 n = true /\ view_items st2 w = Ok [(KOne k, Plain 1)].
Proof. exists [([s "a"], Plain 1)], (s "a"), (s "b"). vm_compute. repeat split. Qed.
Print Assumptions C87_views_follow_refuted.

(** ** [freeze] *)
Section Freeze.
Context {V : Type}.
Variable same : group -> group -> bool.
Hypothesis S : sound_keys same.
(** Without groups, the frozen mapping has the same names with the same values. *)
Theorem C87_freeze (d : entries (pyval V)) os : well_grouped d -> Forall (fun o => plain_op o = true) os ->
  let st := mrun (mnew d) os in
  exists f, freeze same st false = Ok f /\ forall a, getitem f a = mget st a.
Proof using S.
  intros W P st. destruct (run_grouped d os W P) as (WG & KG). fold st in WG, KG. cbn [freeze].
  rewrite (aliased_items_ok _ WG). cbn [bind]. eexists. split; [reflexivity|]. intros a.
  rewrite (zip_disjoint same S), (mget_plain st a KG); [reflexivity|apply WG|]. intros (g, v) I. exact (proj2 WG g v I).
Qed.
(** With groups, every name gives its value and the name of every key group its tuple of values. *)
Theorem C87_freeze_groups (st : mstate V) : disjoint_groups (map fst (ents st)) -> NoDup (map fst (kgroups st)) ->
  (forall n ks, In (n, ks) (kgroups st) -> forall k, In k ks -> In k (flat_keys (ents st))) ->
  exists f, freeze same st true = Ok f /\
    (forall a, In a (flat_keys (ents st)) \/ In a (map fst (kgroups st)) -> getitem f a = mget st a) /\
    (forall a, ~ In a (flat_keys (ents st)) -> ~ In a (map fst (kgroups st)) -> getitem f a = Raise KeyError).
Proof using S.
  intros N NG KG.
  assert (GO : forall k, In k (flat_keys (ents st)) \/ In k (map fst (kgroups st)) -> exists v, mget st k = Ok v).
  { intros k H. unfold mget. destruct (assoc (kgroups st) k) as [ks|] eqn:A.
    - apply (assoc_in (kgroups st) k ks NG) in A.
      assert (M : exists vs, mapM (getitem (ents st)) ks = Ok vs).
      { specialize (KG k ks A). clear - KG. induction ks as [|x ks IH]; [exists []; reflexivity|].
        destruct (proj1 (flat_found (ents st) x) (KG x (or_introl eq_refl))) as (v & E). destruct IH as (vs & EV); [intros y Y; apply KG; right; exact Y|].
        exists (v :: vs). cbn [mapM]. rewrite E. cbn [bind]. rewrite EV. reflexivity. }
      destruct M as (vs & ->). exists (Tup vs). reflexivity.
    - destruct H as [H|H]; [apply flat_found, H|]. exfalso. apply in_map_iff in H as ((k' & ks) & E & I). cbn [fst] in E. subst k'.
      apply (assoc_in (kgroups st) k ks NG) in I. congruence. }
  assert (M : forall {A} (name : A -> str) (l : list A), (forall x, In x l -> exists v, mget st (name x) = Ok v) ->
    exists r, mapM (fun x => v <- mget st (name x) ;; Ok (name x, v)) l = Ok r /\ map fst r = map name l /\ forall k v, In (k, v) r -> mget st k = Ok v).
  { intros A name l. induction l as [|x l IH]; intros H; [exists []; split; [reflexivity|]; split; [reflexivity|intros k v []]|].
    destruct (H x (or_introl eq_refl)) as (v & E). destruct IH as (r & ER & F & G); [intros y Y; apply H; right; exact Y|].
    exists ((name x, v) :: r). cbn [mapM]. rewrite E. cbn [bind]. rewrite ER. split; [reflexivity|]. split; [cbn [map fst]; rewrite F; reflexivity|].
    intros k u [J|J]; [injection J as <- <-; exact E|exact (G k u J)]. }
  destruct (M str (fun k => k) (flat_keys (ents st))) as (mine & E1 & F1 & G1); [intros x I; apply GO; left; exact I|].
  destruct (M (str * list str)%type fst (kgroups st)) as (grouped & E2 & F2 & G2); [intros x I; apply GO; right; apply in_map, I|].
  cbn [freeze]. rewrite E1. cbn [bind]. rewrite E2. cbn [bind]. eexists. split; [reflexivity|].
  rewrite map_id in F1. destruct (dict_of_items_get (mine ++ grouped)) as (ND & GD). set (di := dict_of_items (mine ++ grouped)) in *.
  assert (BD : build_from_aliases same (map (fun kv => (KOne (fst kv), snd kv)) di) = map (fun kv => ([fst kv], snd kv)) di).
  { rewrite (build_disjoint same S).
    - rewrite map_map. reflexivity.
    - rewrite map_map. cbn [fst ugroup]. clear - ND. induction di as [|(k, v) l IH]; [constructor|]. cbn [map fst concat app].
      cbn [map fst] in ND. inversion ND as [|? ? N1 N2]; subst. constructor; [|exact (IH N2)]. intros H. apply N1.
      apply in_concat in H as (g & I & A). apply in_map_iff in I as (kv & <- & I). destruct A as [<-|[]]. apply in_map, I.
    - apply Forall_forall. intros kv I. apply in_map_iff in I as (x & <- & _). discriminate. }
  rewrite BD.
  assert (FK : flat_keys (map (fun kv : str * pyval V => ([fst kv], snd kv)) di) = map fst di).
  { unfold flat_keys. rewrite map_map. cbn [fst]. clear. induction di as [|(k, v) l IH]; [reflexivity|]. cbn [map concat fst app]. rewrite IH. reflexivity. }
  assert (KIN : forall a, assoc di a <> None <-> In a (flat_keys (ents st)) \/ In a (map fst (kgroups st))).
  { intros a. rewrite <- F1, <- F2, <- in_app_iff, <- map_app. rewrite GD. destruct (find (fun kv => str_eqb (fst kv) a) (rev (mine ++ grouped))) as [kv|] eqn:FD.
    - split; [intros _|discriminate]. apply find_some in FD as (I & E). apply str_eqb_eq in E. subst a. apply in_map, in_rev, I.
    - split; [congruence|]. intros H. exfalso. apply in_map_iff in H as (kv & <- & I). apply in_rev in I.
      pose proof (find_none _ _ FD _ I) as B. cbn beta in B. rewrite str_eqb_refl in B. discriminate. }
  assert (VAL : forall a v, assoc di a = Some v -> mget st a = Ok v).
  { intros a v. rewrite GD. destruct (find (fun kv => str_eqb (fst kv) a) (rev (mine ++ grouped))) as [(a', v')|] eqn:FD; [|discriminate].
    intros E. injection E as <-. cbn [snd]. apply find_some in FD as (I & E). cbn [fst] in E. apply str_eqb_eq in E. subst a'. apply in_rev in I.
    apply in_app_iff in I as [I|I]; [exact (G1 _ _ I)|exact (G2 _ _ I)]. }
  split.
  - intros a H. apply KIN in H. destruct (assoc di a) as [v|] eqn:A; [|congruence]. rewrite (VAL a v A).
    apply (assoc_in di a v ND) in A. apply (getitem_disjoint _) with (g := [a]); [rewrite FK; exact ND| |left; reflexivity].
    apply in_map_iff. exists (a, v). split; [reflexivity|exact A].
  - intros a H1 H2. apply getitem_error. split; [reflexivity|]. rewrite FK. intros I. apply in_map_iff in I as ((a' & v) & E & I). cbn [fst] in E. subst a'.
    apply (assoc_in di a v ND) in I. assert (X : assoc di a <> None) by congruence. apply KIN in X as [X|X]; contradiction.
Qed.
End Freeze.
Print Assumptions C87_freeze.
Print Assumptions C87_freeze_groups.

(** ** Examples: the ones of the documentation *)
Definition doc_mapping : list (str * list (str * avalue)) :=
  [(s "a", [(s "aliases", ANames [s "A"; s "a0"]); (s "n", AOther 1); (s "m", AText (s "foo"))]);
   (s "b", [(s "aliases", AText (s "B")); (s "n", AOther (-4))]); (s "c", [(s "n", AOther 42)])].
Example C87_doc_case :
  exists d, mapping_new group_eqb (FromMapping (interior_map doc_mapping)) NoAliases = Ok d /\
    getitem d (s "a0") = Ok (AInterior [(s "n", AOther 1); (s "m", AText (s "foo"))]) /\
    getitem d (s "B") = Ok (AInterior [(s "n", AOther (-4))]) /\
    getitem d (s "c") = Ok (AInterior [(s "n", AOther 42)]) /\
    getitem d (s "d") = Raise KeyError /\
    exists f, fromkeys group_eqb (KeysOfMapping (interior_map doc_mapping) (s "aliases")) (AOther (-1)) = Ok f /\
      map (getitem f) [s "a"; s "A"; s "a0"; s "b"; s "B"; s "c"] = repeat (Ok (AOther (-1))) 6.
Proof. vm_compute. eexists. split; [reflexivity|]. repeat (split; [reflexivity|]). eexists. split; reflexivity. Qed.
Example C87_table_case :
  let viewers := [(s ".nc", AOther 1)] in
  let hints := [(s ".nc", [s "netcdf"; s "NetCDF"; s "NETCDF"])] in
  disjoint_groups (map (fun e : str * list str => fst e :: snd e) hints) /\
  exists d, mapping_new group_eqb (FromMapping (map (fun kv => (KOne (fst kv), snd kv)) viewers)) (AliasTable hints) = Ok d /\
    getitem d (s "NetCDF") = Ok (AOther 1) /\ getitem d (s ".h5") = Raise KeyError.
Proof.
  cbv zeta. split.
  - cbv. repeat constructor; simpl; intuition discriminate.
  - vm_compute. eexists. split; [reflexivity|]. split; reflexivity.
Qed.
Example C87_merge_case :
  let d := [([s "a"; s "A"], AOther 1); ([s "b"], AOther 2)] in let e := [([s "A"; s "c"], AOther 3)] in
  well_grouped d /\ well_grouped e /\
  exists r, or_aliased group_eqb d e = Ok r /\
    map (getitem r) [s "a"; s "A"; s "b"; s "c"] = [Ok (AOther 1); Ok (AOther 3); Ok (AOther 2); Ok (AOther 3)].
Proof.
  cbv zeta. split; [|split].
  - split; [cbv; repeat constructor; simpl; intuition discriminate|]. intros g v [E|[E|[]]]; injection E as <- _; discriminate.
  - split; [cbv; repeat constructor; simpl; intuition discriminate|]. intros g v [E|[]]; injection E as <- _; discriminate.
  - vm_compute. eexists. split; reflexivity.
Qed.
Example C87_squeeze_case :
  let d := [([s "a"; s "A"], AInterior [(s "n", AOther 1)]); ([s "b"], AInterior [(s "m", AOther 2)])] in
  squeeze d false = Ok [([s "a"; s "A"], AOther 1); ([s "b"], AOther 2)] /\ squeeze d true = Raise TypeError.
Proof. split; reflexivity. Qed.
Example C87_freeze_case :
  let st := mrun (mnew [([s "a"; s "A"], Plain 1%nat); ([s "b"], Plain 2)]) [OGroup (s "G") [s "A"; s "b"]; OSet (s "a") 5] in
  exists f, freeze group_eqb st true = Ok f /\
    map (getitem f) [s "a"; s "A"; s "b"; s "G"; s "H"]
    = [Ok (Plain 5); Ok (Plain 5); Ok (Plain 2); Ok (Tup [Plain 5; Plain 2]); Raise KeyError].
Proof. vm_compute. eexists. split; reflexivity. Qed.
