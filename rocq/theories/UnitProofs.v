(** * Proofs about unit objects *)
From Verif Require Import PyBase PyLemmas SymbolicModel ContainerModel ContainerSpec ContainerProofs AliasedModel AliasedSpec AliasedProofs MetricModel UnitModel UnitSpec.

Section Units.
Set Default Proof Using "All".
Variable libm : Qc -> Qc -> option Qc.
Variable named : str -> option nunit.
Variables (same_u same_n : group -> group -> bool).
Hypothesis SU : forall g h, same_u g h = true -> same_names g h.
Hypothesis SN : forall g h, same_n g h = true -> same_names g h.
Hypothesis R : regular libm named.
Notation ufact := (unit_factory libm named same_u same_n).
Notation nfact := (named_factory named same_n).
Notation denotes := (denotes libm named).
Notation uname o := (format_expression (u_terms o)).

Definition spelled (k c : str) : Prop :=
  denotes (UStr k) c \/ exists n, named k = Some n /\ n_name n = k /\ n_symbol n = c.
Lemma spelled_unique k c c' : spelled k c -> spelled k c' -> c = c'.
Proof.
  assert (X : forall k c c', denotes (UStr k) c -> (exists n, named k = Some n /\ n_name n = k /\ n_symbol n = c') -> c = c').
  { clear k c c'. intros k c c' (ts & H & _ & <-) (n & N & <- & <-). eapply (reg_name _ _ R); eassumption. }
  intros [H|H] [H'|H'].
  - destruct H as (ts & H & _ & <-), H' as (ts' & H' & _ & <-). rewrite H in H'. injection H' as ->. reflexivity.
  - eapply X; eassumption.
  - symmetry. eapply X; eassumption.
  - destruct H as (n & N & _ & <-), H' as (n' & N' & _ & <-). congruence.
Qed.

Record entry_ok (e : group * pyval uobj) (f : nat) : Prop := {
  eo_obj : exists o, snd e = Plain o /\ In (uname o) (fst e) /\ u_terms o <> [] /\ u_id o < f;
  eo_spelled : forall o k, snd e = Plain o -> In k (fst e) -> spelled k (uname o) }.
Record inv (st : ustate) : Prop := {
  i_k : kgroups (units st) = [];
  i_kn : kgroups (instances st) = [];
  i_nodup : NoDup (flat_keys (ents (units st)));
  i_entry : forall e, In e (ents (units st)) -> entry_ok e (fresh st);
  i_ids : forall g o g' o', In (g, Plain o) (ents (units st)) -> In (g', Plain o') (ents (units st)) -> u_id o = u_id o' -> o = o';
  i_named : forall g v, In (g, v) (ents (instances st)) -> exists o, v = Plain o /\ (forall k, In k g -> k = n_name (o_unit o) \/ k = n_symbol (o_unit o)) /\ named (n_name (o_unit o)) = Some (o_unit o) }.
(** later states keep the objects under all their names *)
Definition later (st st' : ustate) : Prop :=
  fresh st <= fresh st' /\
  forall g o, In (g, Plain o) (ents (units st)) -> exists g', In (g', Plain o) (ents (units st')) /\ forall k, In k g -> In k g'.
Lemma later_refl st : later st st. Proof. split; [lia|eauto]. Qed.
Lemma later_trans a b c : later a b -> later b c -> later a c.
Proof. intros (L1 & H1) (L2 & H2). split; [lia|]. intros g o H. destruct (H1 g o H) as (g' & H' & K). destruct (H2 g' o H') as (g'' & H'' & K'). eauto. Qed.

Lemma dict_set_in {V} same (d : entries V) g v h w : In (h, w) (dict_set same d g v) -> In (h, w) d \/ ((h = g \/ same h g = true) /\ w = v).
Proof.
  induction d as [|(h', w') d IH]; cbn.
  - intros [[= <- <-]|[]]. auto.
  - destruct (same h' g) eqn:E; cbn.
    + intros [[= <- <-]|H]; auto.
    + intros [[= <- <-]|H]; [auto|]. destruct (IH H) as [K|([K|K] & ->)]; auto.
Qed.
Lemma dict_set_fresh {V} same (d : entries V) g v : (forall g h, same g h = true -> same_names g h) -> g <> [] ->
  (forall k, In k g -> ~ In k (flat_keys d)) -> dict_set same d g v = d ++ [(g, v)].
Proof.
  intros Sm Ne Fr. induction d as [|(h, w) d IH]; cbn; [reflexivity|]. destruct (same h g) eqn:E.
  - exfalso. destruct g as [|k g]; [congruence|]. apply (Fr k (or_introl eq_refl)). unfold flat_keys. cbn. apply in_app_iff. left.
    apply (Sm h (k :: g) E). left. reflexivity.
  - f_equal. apply IH. intros k Hk K. apply (Fr k Hk). unfold flat_keys in *. cbn. apply in_app_iff. auto.
Qed.
Lemma mget_in st k v : inv st -> mget (units st) k = Ok v -> exists g, In (g, v) (ents (units st)) /\ In k g.
Proof.
  intros I. unfold mget. rewrite (i_k _ I). cbn [assoc]. unfold getitem. destruct resolve as [i|] eqn:E; [|discriminate].
  destruct nth_error as [(g, w)|] eqn:N; [|discriminate]. intros [= <-]. exists g. split; [eapply nth_error_In, N|].
  unfold resolve in E. apply resolve_from_some in E as (n & g' & w' & -> & N' & K & _). cbn in N. rewrite N in N'. injection N' as <- <-. exact K.
Qed.
Lemma mget_of st g v k : inv st -> In (g, v) (ents (units st)) -> In k g -> mget (units st) k = Ok v.
Proof. intros I H K. unfold mget. rewrite (i_k _ I). cbn [assoc]. eapply getitem_disjoint; [apply (i_nodup _ I)|exact H|exact K]. Qed.
Lemma flat_in (st : ustate) k : In k (flat_keys (ents (units st))) <-> exists g v, In (g, v) (ents (units st)) /\ In k g.
Proof.
  unfold flat_keys. rewrite in_concat. split.
  - intros (g & H & K). apply in_map_iff in H as ((g', v) & <- & H). eauto.
  - intros (g & v & H & K). exists g. split; [apply in_map_iff; exists (g, v); auto|exact K].
Qed.

(** named units *)
Lemma nfact_ok st x r st' : inv st -> nfact st x = (r, st') -> inv st' /\ units st' = units st /\ later st st' /\
  match r with Ok o => named (n_name (o_unit o)) = Some (o_unit o) /\ (x = n_name (o_unit o) \/ x = n_symbol (o_unit o) \/ named x = Some (o_unit o)) | Raise _ => st' = st end.
Proof.
  intros I. unfold named_factory.
  assert (G : forall v, mget (instances st) x = Ok v -> exists o, v = Plain o /\ named (n_name (o_unit o)) = Some (o_unit o) /\ (x = n_name (o_unit o) \/ x = n_symbol (o_unit o))).
  { intros v. unfold mget. rewrite (i_kn _ I). cbn [assoc]. unfold getitem. destruct resolve as [i|] eqn:E; [|discriminate].
    destruct nth_error as [(g, w)|] eqn:N; [|discriminate]. intros [= <-].
    unfold resolve in E. apply resolve_from_some in E as (n & g' & w' & -> & N' & K & _). cbn in N. rewrite N in N'. injection N' as <- <-.
    apply nth_error_In in N. destruct (i_named _ I _ _ N) as (o & -> & Hg & Ho). exists o. split; [reflexivity|]. split; [exact Ho|]. apply Hg, K. }
  assert (X : forall n, named x = Some n -> inv (mkustate (units st) (with_ents (instances st) (dict_set same_n (ents (instances st)) (dedup [n_name n; n_symbol n]) (Plain (mknobj (fresh st) n)))) (S (fresh st)))).
  { intros n N. constructor; cbn [units instances fresh kgroups ents with_ents]; try apply I.
    - intros e H. destruct (i_entry _ I e H) as [(o & H1 & H2 & H3 & H4) H5]. constructor; [|exact H5]. exists o. repeat split; auto.
    - intros g v H. apply dict_set_in in H as [H|(Hg & ->)]; [exact (i_named _ I g v H)|].
      exists (mknobj (fresh st) n). cbn [o_unit]. split; [reflexivity|]. split; [|eapply (reg_full _ _ R), N].
      assert (Dd : forall k, In k (dedup [n_name n; n_symbol n]) -> k = n_name n \/ k = n_symbol n).
      { intros k Hk. apply (proj1 (dedup_in _ _)) in Hk. destruct Hk as [<-|[<-|[]]]; auto. }
      intros k Hk. apply Dd. destruct Hg as [->|Hg]; [exact Hk|]. apply (SN _ _ Hg), Hk. }
  assert (L : forall m, later st (mkustate (units st) m (S (fresh st)))) by (intros m; split; cbn [fresh units]; [lia|eauto]).
  unfold identify. destruct (mget (instances st) x) as [[o|l]|e] eqn:E.
  - intros [= <- <-]. destruct (G _ eq_refl) as (o' & [= <-] & H1 & H2). split; [exact I|]. split; [reflexivity|]. split; [apply later_refl|]. tauto.
  - destruct (G _ eq_refl) as (o' & K & _). discriminate.
  - destruct (named x) as [n|] eqn:N; intros [= <- <-]; [|auto using later_refl]. split; [apply X; reflexivity|]. split; [reflexivity|]. split; [apply L|].
    cbn [o_unit]. split; [eapply (reg_full _ _ R), N|auto].
Qed.

(** a new object with fresh names *)
Lemma store_ok st key ts : inv st -> ts <> [] -> In (format_expression ts) key ->
  (forall k, In k key -> spelled k (format_expression ts)) -> (forall k, In k key -> ~ In k (flat_keys (ents (units st)))) ->
  let o := mkuobj (fresh st) ts in
  let st' := mkustate (with_ents (units st) (dict_set same_u (ents (units st)) (dedup key) (Plain o))) (instances st) (S (fresh st)) in
  inv st' /\ later st st' /\ exists g, In (g, Plain o) (ents (units st')).
Proof.
  intros I Ne Hin Sp Fr o st'.
  assert (E : ents (units st') = ents (units st) ++ [(dedup key, Plain o)]).
  { apply dict_set_fresh; [exact SU| |].
    - intros K. apply (in_nil (a := format_expression ts)). rewrite <- K. apply (proj2 (dedup_in _ _)), Hin.
    - intros k Hk. apply (proj1 (dedup_in _ _)) in Hk. auto. }
  split; [constructor|split].
  - apply I.
  - apply I.
  - rewrite E. unfold flat_keys. rewrite map_app, concat_app. cbn [map concat fst]. rewrite app_nil_r. apply nodup_app_iff. split; [apply (i_nodup _ I)|]. split; [apply dedup_nodup|].
    intros k H1 H2. apply (proj1 (dedup_in _ _)) in H2. exact (Fr k H2 H1).
  - intros e. rewrite E, in_app_iff. intros [H|[<-|[]]].
    + destruct (i_entry _ I e H) as [(o' & H1 & H2 & H3 & H4) H5]. constructor; [|exact H5]. exists o'. repeat split; auto. cbn. lia.
    + constructor; cbn [fst snd].
      * exists o. split; [reflexivity|]. split; [apply (proj2 (dedup_in _ _)), Hin|]. split; [exact Ne|]. cbn. lia.
      * intros o' k [= <-] Hk. apply (proj1 (dedup_in _ _)) in Hk. apply Sp, Hk.
  - intros g o1 g' o2. rewrite E, !in_app_iff.
    assert (B : forall g o1, In (g, Plain o1) (ents (units st)) -> u_id o1 < fresh st).
    { intros g0 o0 H. destruct (i_entry _ I _ H) as [(o' & [= <-] & _ & _ & K) _]. exact K. }
    intros [H1|[H1|[]]] [H2|[H2|[]]].
    + exact (i_ids _ I g o1 g' o2 H1 H2).
    + injection H2 as <- <-. apply B in H1. cbn. lia.
    + injection H1 as <- <-. apply B in H2. cbn. lia.
    + congruence.
  - apply I.
  - split; [cbn; lia|]. intros g o' H. exists g. split; [rewrite E, in_app_iff; auto|auto].
  - exists (dedup key). rewrite E, in_app_iff. cbn. auto.
Qed.
Lemma del_nth_split {V} (d : entries (pyval V)) i e : nth_error d i = Some e -> exists a b, d = a ++ e :: b /\ del_nth i d = a ++ b.
Proof.
  revert i. induction d as [|(g, v) d IH]; intros [|i]; cbn; try discriminate.
  - intros [= <-]. exists [], d. auto.
  - intros H. destruct (IH i H) as (a & b & -> & E). exists ((g, v) :: a), b. cbn. rewrite E. auto.
Qed.
(** a new name for an object *)
Lemma alias_ok st x o g : inv st -> In (g, Plain o) (ents (units st)) -> spelled x (uname o) -> (x = uname o \/ ~ In x (flat_keys (ents (units st)))) ->
  exists m, malias (units st) (uname o) [x] = (m, Ok tt) /\ inv (mkustate m (instances st) (fresh st)) /\ later st (mkustate m (instances st) (fresh st)) /\
    exists g', In (g', Plain o) (ents m).
Proof.
  intros I Ho Sx Hx. unfold malias. cbn [malias_loop]. destruct (str_eqb x (uname o)) eqn:E.
  - exists (units st). split; [reflexivity|]. assert (mkustate (units st) (instances st) (fresh st) = st) as -> by (destruct st; reflexivity).
    split; [exact I|]. split; [apply later_refl|eauto].
  - destruct Hx as [->|Hx]; [rewrite str_eqb_refl in E; discriminate|].
    destruct (in_group x (flat_keys (ents (units st)))) eqn:F; [apply in_group_spec in F; contradiction|].
    assert (Hn : In (uname o) g).
    { destruct (i_entry _ I _ Ho) as [(o' & [= <-] & K & _) _]. exact K. }
    pose proof (mget_of st g _ _ I Ho Hn) as G. rewrite G.
    assert (Rs : exists i, resolve (ents (units st)) (uname o) = Some i /\ nth_error (ents (units st)) i = Some (g, Plain o)).
    { unfold mget in G. rewrite (i_k _ I) in G. cbn [assoc] in G. unfold getitem in G. destruct resolve as [i|] eqn:Er; [|discriminate]. exists i. split; [reflexivity|].
      unfold resolve in Er. apply resolve_from_some in Er as (n & g' & v' & -> & N & K & _). cbn. rewrite N. f_equal.
      apply In_nth_error in Ho as (m & Hm).
      pose proof (disjoint_unique _ (i_nodup _ I) n m g' g v' (Plain o) (uname o) N Hm K Hn) as ->. congruence. }
    destruct Rs as (i & -> & Ni). rewrite Ni. destruct (del_nth_split _ _ _ Ni) as (a & b & Ed & Dd). rewrite Dd.
    set (d' := (a ++ b) ++ [(x :: g, Plain o)]). exists (with_ents (units st) d').
    assert (InD : forall e, In e d' <-> (In e (ents (units st)) /\ e <> (g, Plain o)) \/ e = (x :: g, Plain o)).
    { assert (Nd : ~ In (g, Plain o) (a ++ b)).
      { intros K. pose proof (i_nodup _ I) as ND. rewrite Ed in ND. unfold flat_keys in ND. rewrite map_app in ND. cbn [map fst] in ND. rewrite concat_app in ND. cbn [concat] in ND.
        apply in_app_iff in K. apply nodup_app_iff in ND as (N1 & N2 & N3). destruct K as [K|K].
        - apply (N3 (uname o)); [apply in_concat; exists g; split; [apply in_map_iff; exists (g, Plain o); auto|exact Hn]|apply in_app_iff; auto].
        - apply nodup_app_iff in N2 as (_ & _ & N2). apply (N2 (uname o) Hn). apply in_concat. exists g. split; [apply in_map_iff; exists (g, Plain o); auto|exact Hn]. }
      intros e. unfold d'. rewrite Ed, !in_app_iff. cbn [In]. split.
      - intros [[K|K]|[<-|[]]]; [left; split; [auto|intros ->; apply Nd, in_app_iff; auto]|left; split; [auto|intros ->; apply Nd, in_app_iff; auto]|auto].
      - intros [([K|[K|K]] & Ne)| ->]; auto; congruence. }
    split; [reflexivity|]. split; [constructor|split].
    + apply I.
    + apply I.
    + cbn [units with_ents ents]. pose proof (i_nodup _ I) as ND. rewrite Ed in ND. unfold d', flat_keys in *. rewrite !map_app, !concat_app in *. cbn [map fst concat] in *. rewrite app_nil_r.
      assert (P : Permutation.Permutation ((concat (map fst a) ++ concat (map fst b)) ++ x :: g) (x :: concat (map fst a) ++ g ++ concat (map fst b))).
      { rewrite <- Permutation.Permutation_middle. apply Permutation.perm_skip. rewrite <- app_assoc. apply Permutation.Permutation_app_head, Permutation.Permutation_app_comm. }
      eapply Permutation.Permutation_NoDup; [symmetry; exact P|]. constructor; [|exact ND].
      intros K. apply Hx. rewrite Ed. unfold flat_keys. rewrite map_app, concat_app. exact K.
    + intros e He. cbn [units with_ents ents fresh] in *. apply InD in He as [(He & _)| ->]; [exact (i_entry _ I e He)|].
      destruct (i_entry _ I _ Ho) as [(o' & Eo & H2 & H3 & H4) H5]. cbn [snd fst] in *. injection Eo as <-. constructor; cbn [snd fst].
      * exists o. split; [reflexivity|]. split; [right; exact H2|]. auto.
      * intros o' k [= <-] [<-|Hk]; [exact Sx|]. apply H5; auto.
    + intros g1 o1 g2 o2 H1 H2. cbn [units with_ents ents] in *. apply InD in H1, H2.
      assert (Q : forall g1 o1, (In (g1, Plain o1) (ents (units st)) /\ (g1, Plain o1) <> (g, Plain o)) \/ (g1, Plain o1) = (x :: g, Plain o) -> exists g', In (g', Plain o1) (ents (units st))).
      { intros g0 o0 [(K & _)|[= -> ->]]; eauto. }
      destruct (Q _ _ H1) as (k1 & K1), (Q _ _ H2) as (k2 & K2). exact (i_ids _ I k1 o1 k2 o2 K1 K2).
    + apply I.
    + split; [cbn; lia|]. intros g1 o1 H1. cbn [units with_ents ents]. destruct (i_entry _ I _ H1) as [(o' & [= <-] & K & _) _].
      apply In_nth_error in H1 as H1'. destruct H1' as (m & Hm).
      destruct (Nat.eq_dec m i) as [->|D].
      * rewrite Ni in Hm. injection Hm as -> ->. exists (x :: g1). split; [apply InD; auto|cbn; auto].
      * exists g1. split; [apply InD; left; split; [exact H1|]|auto]. intros [= -> ->].
        exact (D (disjoint_unique _ (i_nodup _ I) m i g g (Plain o) (Plain o) (uname o) Hm Ni Hn Hn)).
    + exists (x :: g). apply InD. auto.
Qed.

Lemma available_spec st x o : inv st -> available st x = Some o ->
  exists k g, x = Some k /\ In (g, Plain o) (ents (units st)) /\ In k g.
Proof.
  intros I. unfold available. destruct x as [k|]; [|discriminate]. destruct (mget (units st) k) as [[o'|]|] eqn:E; try discriminate.
  destruct (u_terms o'); [discriminate|]. intros [= ->]. destruct (mget_in st k _ I E) as (g & H1 & H2). eauto.
Qed.
Lemma available_none st x : inv st -> available st (Some x) = None -> ~ In x (flat_keys (ents (units st))).
Proof.
  intros I. unfold available. intros H K. apply flat_in in K as (g & v & K1 & K2). rewrite (mget_of st g v x I K1 K2) in H.
  destruct (i_entry _ I _ K1) as [(o & Ev & _ & Ne & _) _]. cbn in Ev. subst v. destruct (u_terms o); [congruence|discriminate].
Qed.
(** the request for [a]: the object is registered and has the right name *)
Lemma ufact_ok st a r st' : inv st -> settled libm named a -> ufact st a = (r, st') -> inv st' /\ later st st' /\
  (forall o, r = Ok o -> exists g, In (g, Plain o) (ents (units st'))) /\
  (forall ts, arg_terms libm named a = Ok ts -> exists o, r = Ok o /\ uname o = format_expression ts).
Proof.
  intros I Se. unfold unit_factory. destruct (available st (arg_string a)) as [o|] eqn:Av.
  { intros [= <- <-]. split; [exact I|]. split; [apply later_refl|]. destruct (available_spec st _ o I Av) as (k & g & Ek & Hg & Hk). split.
    - intros o' [= <-]. eauto.
    - intros ts Ht. exists o. split; [reflexivity|]. destruct (Se ts Ht) as (_ & _ & S3). specialize (S3 k Ek).
      destruct (i_entry _ I _ Hg) as [_ H5]. specialize (H5 o k eq_refl Hk). apply (spelled_unique k); [exact H5|left; exact S3]. }
  destruct (arg_terms libm named a) as [ts|e] eqn:At.
  2: { intros [= <- <-]. split; [exact I|]. split; [apply later_refl|]. split; [discriminate|discriminate]. }
  destruct (Se ts At) as (S1 & S2 & S3). destruct S1 as (ts' & Hts & Ne & _). rewrite At in Hts; injection Hts as <-.
  set (name := format_expression ts) in *.
  destruct (contains (ents (units st)) name) eqn:Cn.
  - apply contains_spec in Cn. assert (Cn' := Cn). apply flat_in in Cn' as (g & v & Hg & Hk). rewrite (mget_of st g v name I Hg Hk).
    destruct (i_entry _ I _ Hg) as [(o & Ev & Hn & Ne' & _) H5]. cbn in Ev, Hn. subst v.
    assert (Nm : uname o = name) by (apply (spelled_unique name); [apply (H5 o name eq_refl Hk)|left; exact S2]).
    destruct a as [x|us].
    + destruct (alias_ok st x o g I Hg) as (m & Em & I' & L' & Hm).
      * left. rewrite Nm. exact (S3 x eq_refl).
      * right. exact (available_none st x I Av).
      * rewrite Nm in Em. rewrite Em. intros [= <- <-]. split; [exact I'|]. split; [exact L'|]. split; [intros o' [= <-]; exact Hm|]. intros ts' [= <-]. eauto.
    + intros [= <- <-]. split; [exact I|]. split; [apply later_refl|]. split; [intros o' [= <-]; eauto|]. intros ts' [= <-]. eauto.
  - assert (Nf : ~ In name (flat_keys (ents (units st)))) by (intros K; apply contains_spec in K; congruence).
    destruct (nfact st name) as ([this|e], st1) eqn:Nu.
    + destruct (nfact_ok st name _ st1 I Nu) as (I1 & Eu & L1 & Fn & Hx).
      assert (Sy : n_symbol (o_unit this) = name).
      { destruct Hx as [Hx|[Hx|Hx]]; [| auto |exact (reg_symbol _ _ R a ts _ At Hx)]. rewrite <- Hx in Fn. exact (reg_symbol _ _ R a ts _ At Fn). }
      assert (Sf : spelled (n_name (o_unit this)) name) by (right; exists (o_unit this); auto).
      intros [= <- <-]. destruct (store_ok st1 [n_name (o_unit this); n_symbol (o_unit this)] ts I1 Ne) as (I2 & L2 & Hg).
      * fold name. rewrite Sy. cbn. auto.
      * fold name. rewrite Sy. intros k [<-|[<-|[]]]; [exact Sf|left; exact S2].
      * rewrite Eu, Sy. intros k [<-|[<-|[]]]; [|exact Nf]. intros K. apply flat_in in K as (g & v & K1 & K2).
        destruct (i_entry _ I _ K1) as [(o & Ev & Hn & _) H5]. cbn in Ev, Hn. subst v. specialize (H5 o _ eq_refl K2). cbn [fst] in H5.
        rewrite (spelled_unique _ _ _ H5 Sf) in Hn. apply Nf, flat_in. eauto.
      * split; [exact I2|]. split; [eapply later_trans; eassumption|]. split; [intros o' [= <-]; exact Hg|]. intros ts' [= <-]. eauto.
    + destruct (nfact_ok st name _ st1 I Nu) as (I1 & Eu & L1 & ->). set (key := match arg_string a with Some (c :: x) => [name; c :: x] | _ => [name] end).
      assert (Kk : forall k, In k key -> k = name \/ arg_string a = Some k).
      { unfold key. destruct (arg_string a) as [[|c x]|]; cbn; intuition congruence. }
      intros [= <- <-]. destruct (store_ok st key ts I Ne) as (I2 & L2 & Hg).
      * fold name. unfold key. destruct (arg_string a) as [[|c x]|]; cbn; auto.
      * fold name. intros k Hk. destruct (Kk k Hk) as [->|E]; [left; exact S2|left; exact (S3 k E)].
      * intros k Hk. destruct (Kk k Hk) as [->|E]; [exact Nf|]. rewrite E in Av. exact (available_none st k I Av).
      * split; [exact I2|]. split; [exact L2|]. split; [intros o' [= <-]; exact Hg|]. intros ts' [= <-]. eauto.
Qed.
Notation hist := (unit_history libm named same_u same_n).
Lemma history_ok l : forall st, inv st -> Forall (settled_call libm named) l -> inv (hist st l) /\ later st (hist st l).
Proof.
  induction l as [|c l IH]; intros st I F; cbn [unit_history]; [auto using later_refl|]. inversion F as [|? ? F1 F2]; subst. destruct c as [a|x].
  - destruct (ufact st a) as (r, st1) eqn:E. destruct (ufact_ok st a r st1 I F1 E) as (I1 & L1 & _). cbn [snd]. destruct (IH st1 I1 F2) as (I2 & L2). split; [exact I2|]. eapply later_trans; eassumption.
  - destruct (nfact st x) as (r, st1) eqn:E. destruct (nfact_ok st x r st1 I E) as (I1 & _ & L1 & _). cbn [snd]. destruct (IH st1 I1 F2) as (I2 & L2). split; [exact I2|]. eapply later_trans; eassumption.
Qed.
Lemma inv_start : inv no_units.
Proof. constructor; cbn; try reflexivity; try contradiction. constructor. Qed.
Lemma same_object st o o' g g' : inv st -> In (g, Plain o) (ents (units st)) -> In (g', Plain o') (ents (units st)) ->
  (uname o = uname o' -> o = o') /\ (uname o <> uname o' -> u_id o <> u_id o').
Proof.
  intros I H H'. split.
  - intros E. destruct (i_entry _ I _ H) as [(x & [= <-] & K & _) _]. destruct (i_entry _ I _ H') as [(x' & [= <-] & K' & _) _]. cbn [fst] in *.
    pose proof (mget_of st g _ _ I H K) as G. pose proof (mget_of st g' _ _ I H' K') as G'. rewrite E in G. congruence.
  - intros D E. apply D. rewrite (i_ids _ I g o g' o' H H' E). reflexivity.
Qed.
End Units.
