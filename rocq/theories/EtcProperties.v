(** * C51, C65: unique instances and small utilities *)
From Verif Require Import PyBase PyLemmas ContainerModel ContainerProofs ContainerProofs2 EtcModel.

Lemma ekey_decides : forall a b, ekey_eqb a b = true <-> a = b.
Proof.
  intros [x|x] [y|y]; simpl; try (split; discriminate); rewrite str_eqb_eq; (split; [intros ->; reflexivity|intros E; inversion E; reflexivity]).
Qed.
Lemma n_decides' : forall a b : N, N.eqb a b = true <-> a = b.
Proof. intros; apply N.eqb_eq. Qed.

(** ** C51: instance sets *)
(** A history of requests: a class, positional and keyword arguments. *)
Definition call := (ecls * list earg * list (str * earg))%type.
Definition builder := ecls -> list earg -> list (str * earg) -> option exn.
Fixpoint requests (build : builder) (st : instances) (h : list call) : list (result object) * instances :=
  match h with
  | [] => ([], st)
  | (c, a, k) :: h' =>
      let '(r, st1) := request build st c a k in
      let '(rs, st2) := requests build st1 h' in (r :: rs, st2)
  end.
(** The path a call names, as the user gave it. *)
Inductive names_path : list earg -> list (str * earg) -> earg -> Prop :=
| by_keyword args kwargs p : lookup str_eqb kwargs (s "path") = Ok p -> p <> ANone -> names_path args kwargs p
| by_position p args kwargs : lookup str_eqb kwargs (s "path") = Raise KeyError \/ lookup str_eqb kwargs (s "path") = Ok ANone ->
    names_path (p :: args) kwargs p.
Definition is_path (p : earg) : Prop := (exists x, p = AStr' x) \/ (exists x, p = APath x).

Definition key_of (p : earg) : ekey := match p with AStr' x => KStr x | APath x => KPath x | _ => KStr [] end.
Lemma key_of_inj p q : is_path p -> is_path q -> key_of p = key_of q -> p = q.
Proof. intros [[x ->]|[x ->]] [[y ->]|[y ->]]; simpl; intros E; inversion E; reflexivity. Qed.
Lemma names_key args kwargs p : names_path args kwargs p -> is_path p -> generate_key args kwargs = Ok (key_of p).
Proof.
  intros NP IP. unfold generate_key. inversion NP as [a k q L NN|q a k L]; subst.
  - rewrite L. destruct IP as [[x ->]|[x ->]]; reflexivity.
  - destruct L as [L|L]; rewrite L; destruct IP as [[x ->]|[x ->]]; reflexivity.
Qed.

Definition good (st : instances) : Prop :=
  (forall k o, lookup ekey_eqb (i_table st) k = Ok o -> (o_id o < i_next st)%nat) /\
  (forall k k' o o', lookup ekey_eqb (i_table st) k = Ok o -> lookup ekey_eqb (i_table st) k' = Ok o' -> o_id o = o_id o' -> k = k').
Definition extends (st st' : instances) : Prop := forall k o, lookup ekey_eqb (i_table st) k = Ok o -> lookup ekey_eqb (i_table st') k = Ok o.
Lemma request_good build st c a k : good st -> good (snd (request build st c a k)) /\ extends st (snd (request build st c a k)).
Proof.
  intros [G1 G2]. unfold request. destruct (generate_key a k) as [key|e]; [|split; [split|intros ? ? X]; auto].
  destruct (lookup ekey_eqb (i_table st) key) as [o|e] eqn:L; [split; [split|intros ? ? X]; auto|].
  destruct (build c a k) as [e'|]; [split; [split|intros ? ? X]; auto|]. cbn [snd]. split.
  - split; cbn [i_table i_next]; intros k1; intros *; rewrite ?(dict_put_get ekey_eqb ekey_decides).
    + destruct (ekey_eqb key k1); [intros E; inversion E; simpl; lia|]. intros E. apply G1 in E. lia.
    + destruct (ekey_eqb key k1) eqn:E1, (ekey_eqb key k') eqn:E2; intros A B I.
      * apply ekey_decides in E1, E2. congruence.
      * inversion A; subst. apply G1 in B. simpl in I. lia.
      * inversion B; subst. apply G1 in A. simpl in I. lia.
      * eapply G2; eauto.
  - intros k1 o1 L1. cbn [i_table]. rewrite (dict_put_get ekey_eqb ekey_decides). destruct (ekey_eqb key k1) eqn:E1; [|exact L1].
    apply ekey_decides in E1. subst. congruence.
Qed.
Lemma request_stored build st c a k o : fst (request build st c a k) = Ok o ->
  exists key, generate_key a k = Ok key /\ lookup ekey_eqb (i_table (snd (request build st c a k))) key = Ok o.
Proof.
  unfold request. destruct (generate_key a k) as [key|e]; [|discriminate]. destruct (lookup ekey_eqb (i_table st) key) as [o'|e] eqn:L.
  - simpl. intros E; inversion E; subst. exists key. auto.
  - destruct (build c a k); [discriminate|]. cbn [fst snd]. intros E; inversion E; subst. exists key. split; [reflexivity|].
    cbn [i_table]. rewrite (dict_put_get ekey_eqb ekey_decides). rewrite (proj2 (ekey_decides key key) eq_refl). reflexivity.
Qed.
Lemma requests_good build h st : good st -> good (snd (requests build st h)) /\ extends st (snd (requests build st h)).
Proof.
  revert st. induction h as [|[[c a] k] h IH]; intros st G; [split; [exact G|intros ? ? X; exact X]|].
  cbn [requests]. destruct (request build st c a k) as [r st1] eqn:R. destruct (requests build st1 h) as [rs st2] eqn:Q. cbn [snd].
  pose proof (request_good build st c a k G) as [G1 X1]. rewrite R in G1, X1. cbn [snd] in *.
  destruct (IH st1 G1) as [G2 X2]. rewrite Q in G2, X2. cbn [snd] in *. split; [exact G2|]. intros k1 o1 L. apply X2, X1, L.
Qed.
Lemma requests_nth build h : forall st n r c a k, good st -> nth_error (fst (requests build st h)) n = Some (Ok r) -> nth_error h n = Some (c, a, k) ->
  exists key, generate_key a k = Ok key /\ lookup ekey_eqb (i_table (snd (requests build st h))) key = Ok r.
Proof.
  induction h as [|[[c0 a0] k0] h IH]; intros st n r c a k G N H; [destruct n; discriminate|].
  cbn [requests] in *. destruct (request build st c0 a0 k0) as [r0 st1] eqn:R. destruct (requests build st1 h) as [rs st2] eqn:Q. cbn [fst snd] in *.
  pose proof (request_good build st c0 a0 k0 G) as [G1 X1]. rewrite R in G1. cbn [snd] in G1.
  destruct n as [|n]; cbn [nth_error] in N, H.
  - inversion N; inversion H; subst. pose proof (request_stored build st c a k r) as RS. rewrite R in RS. destruct (RS eq_refl) as (key & GK & L).
    exists key. split; [exact GK|]. cbn [snd] in L. pose proof (requests_good build h st1 G1) as [_ X]. rewrite Q in X. cbn [snd] in X. apply X, L.
  - specialize (IH st1 n r c a k G1). rewrite Q in IH. cbn [fst snd] in IH. apply IH; assumption.
Qed.
Lemma no_instances_good : good no_instances.
Proof. split; intros; discriminate. Qed.

(** At any two points of any history, requests that name the same path give the
    same object, and requests that name different paths give different objects. *)
Theorem C51_instances build h i j c a k c' a' k' o o' p p' :
  nth_error h i = Some (c, a, k) -> nth_error h j = Some (c', a', k') ->
  nth_error (fst (requests build no_instances h)) i = Some (Ok o) -> nth_error (fst (requests build no_instances h)) j = Some (Ok o') ->
  names_path a k p -> names_path a' k' p' -> is_path p -> is_path p' ->
  (p = p' -> o = o') /\ (p <> p' -> o_id o <> o_id o').
Proof.
  intros H1 H2 N1 N2 P1 P2 I1 I2.
  destruct (requests_nth build h no_instances i o c a k no_instances_good N1 H1) as (key & GK & L).
  destruct (requests_nth build h no_instances j o' c' a' k' no_instances_good N2 H2) as (key' & GK' & L').
  rewrite (names_key _ _ _ P1 I1) in GK. rewrite (names_key _ _ _ P2 I2) in GK'. inversion GK; inversion GK'; subst key key'.
  destruct (requests_good build h no_instances no_instances_good) as [[_ G2] _]. split.
  - intros ->. rewrite L in L'. inversion L'. reflexivity.
  - intros NE EI. apply NE. apply key_of_inj; [assumption..|]. eapply G2; eauto.
Qed.
(** A call whose arguments name no path is a TypeError and creates nothing. *)
Theorem C51_no_path build st c a k :
  (forall p, names_path a k p -> ~ is_path p) -> request build st c a k = (Raise TypeError, st).
Proof.
  intros N. unfold request. assert (G : generate_key a k = Raise TypeError); [|rewrite G; reflexivity].
  assert (KP : forall q, names_path a k q -> match q with AStr' x => Ok (KStr x) | APath x => Ok (KPath x) | _ => Raise TypeError end = Raise TypeError).
  { intros q Q. specialize (N q Q). destruct q; try reflexivity; exfalso; apply N; [left|right]; eauto. }
  unfold generate_key. destruct (lookup str_eqb k (s "path")) as [q|e] eqn:L.
  - destruct q as [x|x| |n].
    { specialize (KP (AStr' x)). destruct a; apply KP; apply by_keyword; solve [exact L|discriminate]. }
    { specialize (KP (APath x)). destruct a; apply KP; apply by_keyword; solve [exact L|discriminate]. }
    2:{ destruct a; reflexivity. }
    destruct a as [|q a]; [reflexivity|]. apply KP. apply by_position. right; exact L.
  - assert (e = KeyError) as ->. { clear - L. induction k as [|[h w] k IH]; cbn [lookup] in L; [congruence|]. destruct (str_eqb h (s "path")); [discriminate|auto]. }
    destruct a as [|q a]; [reflexivity|]. apply KP. apply by_position. left; exact L.
Qed.
(** A constructor that fails leaves no trace: the next request tries again. *)
Theorem C51_failed_construction build st c a k e :
  fst (request build st c a k) = Raise e -> snd (request build st c a k) = st.
Proof.
  unfold request. destruct (generate_key a k) as [key|e']; [|reflexivity]. destruct (lookup _ _ _) as [o|e1]; [discriminate|].
  destruct (build c a k) as [e2|]; [reflexivity|discriminate].
Qed.
(** Refuted: the table belongs to the metaclass, so asking a second class for a
    path that a first class has already opened gives an object of the first class. *)
Theorem C51_classes_refuted build c c' p :
  c <> c' -> is_path p -> build c [p] [] = None ->
  exists o, fst (requests build no_instances [(c, [p], []); (c', [p], [])]) = [Ok o; Ok o] /\ o_class o = c.
Proof.
  intros _ IP B. cbn [requests]. unfold request at 1.
  rewrite (names_key [p] [] p (by_position p [] [] (or_introl eq_refl)) IP). cbn [lookup i_table no_instances]. rewrite B.
  unfold request. rewrite (names_key [p] [] p (by_position p [] [] (or_introl eq_refl)) IP). cbn [i_table dict_put lookup].
  rewrite (proj2 (ekey_decides _ _) eq_refl). eexists. split; [reflexivity|reflexivity].
Qed.
(** Refuted: a string and the path object with the same text are different keys. *)
Theorem C51_spelling_refuted build c x :
  build c [AStr' x] [] = None -> build c [APath x] [] = None ->
  exists o o', fst (requests build no_instances [(c, [AStr' x], []); (c, [APath x], [])]) = [Ok o; Ok o'] /\ o_id o <> o_id o'.
Proof.
  intros B1 B2. cbn [requests]. unfold request at 1. cbn [generate_key lookup i_table no_instances]. rewrite B1.
  unfold request. cbn [generate_key i_table dict_put lookup ekey_eqb]. rewrite B2. do 2 eexists. split; [reflexivity|]. simpl. discriminate.
Qed.

(** ** C51: singletons *)
Fixpoint singletons (mro : ecls -> list ecls) (st : singles) (h : list ecls) : list (oid * ecls) * singles :=
  match h with
  | [] => ([], st)
  | c :: h' => let '(r, st1) := singleton mro st c in let '(rs, st2) := singletons mro st1 h' in (r :: rs, st2)
  end.
(** Single inheritance: a class's ancestors are its parent and the parent's
    ancestors. *)
Definition single_inheritance (mro : ecls -> list ecls) : Prop :=
  forall c, exists l, mro c = c :: l /\ match l with [] => True | d :: _ => mro d = l end.
Definition well_ordered (mro : ecls -> list ecls) : Prop := forall c, exists l, mro c = c :: l.
Definition sgood (mro : ecls -> list ecls) (st : singles) : Prop :=
  (forall c x, lookup N.eqb (s_table st) c = Ok x -> snd x = c /\ (fst x < s_next st)%nat) /\
  (forall c d x y, lookup N.eqb (s_table st) c = Ok x -> lookup N.eqb (s_table st) d = Ok y -> fst x = fst y -> c = d).
Lemma attribute_in table l x : attribute table l = Some x -> exists d, In d l /\ lookup N.eqb table d = Ok x.
Proof.
  induction l as [|c l IH]; [discriminate|]. simpl. destruct (lookup N.eqb table c) eqn:L.
  - intros E; inversion E; subst. exists c. auto.
  - intros E. destruct (IH E) as (d & I & D). exists d. auto.
Qed.
Lemma attribute_none table l : attribute table l = None -> forall d, In d l -> exists e, lookup N.eqb table d = Raise e.
Proof.
  induction l as [|c l IH]; simpl; [intros _ d []|]. destruct (lookup N.eqb table c) eqn:L; [discriminate|]. intros E d [->|I]; eauto.
Qed.
Lemma singleton_good mro st c : sgood mro st -> sgood mro (snd (singleton mro st c)).
Proof.
  intros [G1 G2]. unfold singleton. destruct (attribute (s_table st) (mro c)) as [x|] eqn:A; [split; assumption|]. cbn [snd].
  split; cbn [s_table s_next]; intros d; intros *; rewrite ?(dict_put_get N.eqb n_decides').
  - destruct (N.eqb c d) eqn:E; [apply N.eqb_eq in E; subst; intros X; inversion X; simpl; split; [reflexivity|lia]|].
    intros X. destruct (G1 _ _ X) as [X1 X2]. split; [exact X1|lia].
  - destruct (N.eqb c d) eqn:E1, (N.eqb c d0) eqn:E2; intros X Y F.
    + apply N.eqb_eq in E1, E2. congruence.
    + inversion X; subst. destruct (G1 _ _ Y). simpl in F. lia.
    + inversion Y; subst. destruct (G1 _ _ X). simpl in F. lia.
    + eapply G2; eauto.
Qed.
Lemma attribute_mono table c x l : (forall d, In d l -> d <> c) -> attribute (dict_put N.eqb table c x) l = attribute table l.
Proof.
  induction l as [|d l IH]; intros N; [reflexivity|]. cbn [attribute]. rewrite (dict_put_get N.eqb n_decides').
  destruct (N.eqb c d) eqn:E; [apply N.eqb_eq in E; exfalso; apply (N d); [left; reflexivity|congruence]|].
  rewrite IH; [reflexivity|]. intros e I. apply N. right; exact I.
Qed.
Lemma singleton_stable mro st c d x : single_inheritance mro -> attribute (s_table st) (mro c) = Some x ->
  attribute (s_table (snd (singleton mro st d))) (mro c) = Some x.
Proof.
  intros SI. unfold singleton. destruct (attribute (s_table st) (mro d)) as [y|] eqn:A; [intros E; exact E|]. cbn [snd s_table].
  assert (G : forall n l, (length l <= n)%nat -> (match l with [] => True | e :: _ => mro e = l end) ->
    attribute (s_table st) l = Some x -> attribute (dict_put N.eqb (s_table st) d (s_next st, d)) l = Some x).
  { induction n as [|n IH]; intros l LE ML AL; [destruct l; [discriminate|simpl in LE; lia]|].
    destruct l as [|e l]; [discriminate|]. cbn [attribute] in *. rewrite (dict_put_get N.eqb n_decides').
    destruct (N.eqb d e) eqn:E.
    - apply N.eqb_eq in E. subst e. rewrite ML in A. cbn [attribute] in A. destruct (lookup N.eqb (s_table st) d); [discriminate|]. congruence.
    - destruct (lookup N.eqb (s_table st) e); [exact AL|]. apply IH; [simpl in LE; lia| |exact AL].
      destruct (SI e) as (l' & M & P). rewrite ML in M. inversion M; subst. exact P. }
  intros E. destruct (SI c) as (l & M & P). apply (G (length (mro c))); [lia| |exact E]. rewrite M. exact M.
Qed.
Lemma singletons_stable mro h : forall st c x, single_inheritance mro -> attribute (s_table st) (mro c) = Some x ->
  attribute (s_table (snd (singletons mro st h))) (mro c) = Some x.
Proof.
  induction h as [|d h IH]; intros st c x SI A; [exact A|]. cbn [singletons]. destruct (singleton mro st d) as [r st1] eqn:R.
  destruct (singletons mro st1 h) as [rs st2] eqn:Q. cbn [snd]. specialize (IH st1 c x SI). rewrite Q in IH. apply IH.
  pose proof (singleton_stable mro st c d x SI A) as B. rewrite R in B. exact B.
Qed.
Lemma singleton_answer mro st c : well_ordered mro -> attribute (s_table (snd (singleton mro st c))) (mro c) = Some (fst (singleton mro st c)).
Proof.
  intros W. unfold singleton. destruct (attribute (s_table st) (mro c)) as [x|] eqn:A; [exact A|]. cbn [fst snd s_table].
  destruct (W c) as [l ->]. cbn [attribute]. rewrite (dict_put_get N.eqb n_decides'), N.eqb_refl. reflexivity.
Qed.
Lemma single_ordered mro : single_inheritance mro -> well_ordered mro.
Proof. intros SI c. destruct (SI c) as (l & M & _). eauto. Qed.
Lemma singletons_final mro h : forall st i c x, single_inheritance mro -> nth_error h i = Some c -> nth_error (fst (singletons mro st h)) i = Some x ->
  attribute (s_table (snd (singletons mro st h))) (mro c) = Some x.
Proof.
  induction h as [|d h IH]; intros st i c x SI H N; [destruct i; discriminate|]. cbn [singletons] in *.
  destruct (singleton mro st d) as [r st1] eqn:R. destruct (singletons mro st1 h) as [rs st2] eqn:Q. cbn [fst snd] in *.
  destruct i as [|i]; cbn [nth_error] in *.
  - inversion H; inversion N; subst. pose proof (singleton_answer mro st c (single_ordered mro SI)) as A. rewrite R in A. cbn [fst snd] in A.
    pose proof (singletons_stable mro h st1 c x SI A) as B. rewrite Q in B. exact B.
  - specialize (IH st1 i c x SI H). rewrite Q in IH. apply IH. exact N.
Qed.
Lemma singletons_good mro h : forall st, sgood mro st -> sgood mro (snd (singletons mro st h)).
Proof.
  induction h as [|d h IH]; intros st G; [exact G|]. cbn [singletons]. pose proof (singleton_good mro st d G) as G1.
  destruct (singleton mro st d) as [r st1] eqn:R. specialize (IH st1 G1). destruct (singletons mro st1 h) as [rs st2] eqn:Q. exact IH.
Qed.

(** With single inheritance, at any two points of any history a class gives the
    same object, and classes without a common ancestor give different objects. *)
Theorem C51_singletons mro h i j c d x y :
  single_inheritance mro ->
  nth_error h i = Some c -> nth_error h j = Some d ->
  nth_error (fst (singletons mro no_singles h)) i = Some x -> nth_error (fst (singletons mro no_singles h)) j = Some y ->
  (c = d -> x = y) /\ ((forall e, In e (mro c) -> ~ In e (mro d)) -> fst x <> fst y).
Proof.
  intros SI H1 H2 N1 N2. pose proof (singletons_final mro h no_singles i c x SI H1 N1) as F1. pose proof (singletons_final mro h no_singles j d y SI H2 N2) as F2.
  split; [intros ->; congruence|]. intros DJ E. apply attribute_in in F1 as (e & I1 & L1). apply attribute_in in F2 as (e' & I2 & L2).
  assert (G : sgood mro (snd (singletons mro no_singles h))). { apply singletons_good. split; intros; discriminate. }
  rewrite (proj2 G e e' x y L1 L2 E) in I1. exact (DJ e' I1 I2).
Qed.
(** Every object handed out was created for the class or one of its ancestors. *)
Theorem C51_singleton_class mro h i c x :
  single_inheritance mro -> nth_error h i = Some c -> nth_error (fst (singletons mro no_singles h)) i = Some x -> In (snd x) (mro c).
Proof.
  intros SI H N. pose proof (singletons_final mro h no_singles i c x SI H N) as F. apply attribute_in in F as (e & I & L).
  assert (G : sgood mro (snd (singletons mro no_singles h))). { apply singletons_good. split; intros; discriminate. }
  destruct (proj1 G e x L) as [<- _]. exact I.
Qed.
(** Refuted: after its parent, a derived class hands out the parent's instance;
    after two unrelated parents, its own answer changes. *)
Definition demo_mro (c : ecls) : list ecls := if N.eqb c 2 then [2; 1]%N else [c].
Lemma demo_mro_single : single_inheritance demo_mro.
Proof.
  intros c. unfold demo_mro. destruct (N.eqb c 2) eqn:E.
  - apply N.eqb_eq in E. subst. exists [1%N]. split; reflexivity.
  - exists []. split; [reflexivity|exact I].
Qed.
Theorem C51_derived_refuted : fst (singletons demo_mro no_singles [1; 2]%N) = [(O, 1%N); (O, 1%N)].
Proof. reflexivity. Qed.
Definition diamond_mro (c : ecls) : list ecls := if N.eqb c 3 then [3; 2; 1]%N else [c].
Theorem C51_diamond_refuted : fst (singletons diamond_mro no_singles [1; 3; 2; 3]%N) = [(O, 1%N); (O, 1%N); (1%nat, 2%N); (1%nat, 2%N)].
Proof. reflexivity. Qed.
Example C51_singletons_example : fst (singletons demo_mro no_singles [2; 5; 1; 2; 5]%N) = [(O, 2%N); (1%nat, 5%N); (2%nat, 1%N); (O, 2%N); (1%nat, 5%N)].
Proof. reflexivity. Qed.
Definition accepts : builder := fun _ _ _ => None.
Example C51_instances_example :
  map (fun r => match r with Ok o => Some (o_id o) | _ => None end)
    (fst (requests accepts no_instances [(1%N, [AStr' (s "a")], []); (1%N, [], [(s "path", AStr' (s "b"))]); (1%N, [AStr' (s "a"); AOther 4%N], []); (1%N, [AOther 3%N], [])]))
  = [Some O; Some 1%nat; Some O; None].
Proof. reflexivity. Qed.

(** ** C51: sentinels *)
(** Part that holds: a request with a value that is not the name of an existing
    sentinel gives a new object that carries the name and the value.
    Missing: repeated requests (see below). *)
Theorem C51_sentinel_partial st name value :
  (forall i, value <> SSentinel i) -> (forall n, value <> SUnhashable n) ->
  (forall x, value = SStr x -> ~ In x (map fst (n_table st))) ->
  exists o, sentinel st name value = (Ok o, {| n_table := dict_put str_eqb (n_table st) name o; n_next := S (n_next st) |}) /\
    n_name o = name /\ n_value o = value /\ n_id o = n_next st.
Proof.
  intros N1 N2 N3. unfold sentinel. destruct value as [|b|q|x|n|i]; try (eexists; repeat split; reflexivity);
    [|exfalso; eapply N2; reflexivity|exfalso; eapply N1; reflexivity].
  assert (L : lookup str_eqb (n_table st) x = Raise KeyError).
  { specialize (N3 x eq_refl). clear - N3. induction (n_table st) as [|[k o] m IH]; [reflexivity|]. simpl in *. destruct (str_eqb k x) eqn:E.
    - apply str_eqb_eq in E. exfalso. apply N3. auto.
    - apply IH. auto. }
  rewrite L. eexists. repeat split; reflexivity.
Qed.
(** A sentinel compares equal to exactly the plain values its value equals, is
    false exactly for None and numbers equal to zero (False included). *)
Theorem C51_sentinel_truth o :
  sentinel_bool o = false <-> n_value o = SNone \/ n_value o = SBool false \/ n_value o = SNum 0%Qc.
Proof.
  unfold sentinel_bool. destruct (n_value o) as [|[]|q|x|n|i]; cbn [svalue_eqb snum orb];
    try (split; [discriminate|intros [X|[X|X]]; discriminate]); try (split; [auto|reflexivity]).
  - destruct (qc_eqb q 0%Qc) eqn:E.
    + split; [|reflexivity]. intros _. right; right. apply qc_eqb_eq in E. congruence.
    + split; [discriminate|]. intros [X|[X|X]]; try discriminate. inversion X; subst. discriminate.
Qed.
Theorem C51_shipped_sentinels :
  exists p n f, lookup str_eqb (n_table shipped_sentinels) (s "PASS") = Ok p /\ lookup str_eqb (n_table shipped_sentinels) (s "NULL") = Ok n /\
    lookup str_eqb (n_table shipped_sentinels) (s "FAIL") = Ok f /\ n_id p <> n_id n /\ n_id n <> n_id f /\ n_id p <> n_id f /\
    sentinel_bool p = true /\ sentinel_bool n = false /\ sentinel_bool f = false /\
    sentinel_eq_value p (SBool true) = true /\ sentinel_eq_value n SNone = true /\ sentinel_eq_value f (SBool false) = true.
Proof. do 3 eexists. repeat split; try reflexivity; vm_compute; discriminate. Qed.
(** Refuted: asking twice for the same name and value gives two different
    objects, which compare different although each equals the same plain value. *)
Theorem C51_sentinel_twice_refuted st name value :
  (forall i, value <> SSentinel i) -> (forall n, value <> SUnhashable n) ->
  (forall x, value = SStr x -> x <> name /\ ~ In x (map fst (n_table st))) ->
  exists o o' st1, sentinel st name value = (Ok o, st1) /\ fst (sentinel st1 name value) = Ok o' /\ sentinel_eq o o' = false /\
    n_value o = value /\ n_value o' = value.
Proof.
  intros N1 N2 N3. destruct (C51_sentinel_partial st name value N1 N2 (fun x E => proj2 (N3 x E))) as (o & E & _ & V & I).
  assert (N4 : forall x, value = SStr x -> ~ In x (map fst (dict_put str_eqb (n_table st) name o))).
  { intros x X IN. apply (dict_put_keys str_eqb str_decides) in IN as [IN|IN]; [exact (proj2 (N3 x X) IN)|exact (proj1 (N3 x X) IN)]. }
  destruct (C51_sentinel_partial {| n_table := dict_put str_eqb (n_table st) name o; n_next := S (n_next st) |} name value N1 N2 N4) as (o' & E' & _ & V' & I').
  exists o, o'. eexists. split; [exact E|]. rewrite E'. split; [reflexivity|]. unfold sentinel_eq. rewrite I, I'. cbn [n_next].
  split; [apply Nat.eqb_neq; lia|]. auto.
Qed.
(** Refuted: a sentinel whose value happens to be the name of another sentinel is
    that other sentinel. *)
Theorem C51_sentinel_confused_refuted :
  exists o, fst (sentinel shipped_sentinels (s "X") (SStr (s "PASS"))) = Ok o /\ n_name o = s "PASS" /\ n_value o = SBool true.
Proof. eexists. repeat split; reflexivity. Qed.

(** ** C65: small utilities *)
(** Joining one or more items gives a text that contains each of them. *)
Theorem C65_join c x : x <> [] -> exists t, join x c = Ok t /\ (forall a, In a x -> exists p q, t = p ++ a ++ q).
Proof.
  assert (JW : forall sep l a, In a l -> exists p q, join_with sep l = p ++ a ++ q).
  { intros sep l. induction l as [|b l IH]; intros a [].
    - subst. destruct l as [|s0 l]; [exists [], []; rewrite app_nil_r; reflexivity|]. exists [], (sep ++ join_with sep (s0 :: l)). reflexivity.
    - destruct l as [|b' l]; [destruct H|]. destruct (IH a H) as (p & q & E). exists (b ++ sep ++ p), q.
      change (join_with sep (b :: b' :: l)) with (b ++ sep ++ join_with sep (b' :: l)). rewrite E, <- !app_assoc. reflexivity. }
  intros N. destruct x as [|a [|b [|d x]]]; [congruence|..].
  - exists a. split; [reflexivity|]. intros z [<-|[]]. exists [], []. rewrite app_nil_r. reflexivity.
  - eexists. split; [reflexivity|]. intros z [<-|[<-|[]]].
    + exists []. eexists. reflexivity.
    + exists (a ++ s " " ++ c ++ s " "), []. rewrite app_nil_r, <- !app_assoc. reflexivity.
  - remember (a :: b :: d :: x) as y eqn:Y. exists (join_with (s ", ") (removelast y) ++ s ", " ++ c ++ s " " ++ last y []). split; [rewrite Y; reflexivity|].
    assert (NY : y <> []) by (subst; discriminate). intros z I. rewrite (app_removelast_last [] NY) in I. apply in_app_iff in I as [I|[<-|[]]].
    + destruct (JW (s ", ") _ z I) as (p & q & E). exists p, (q ++ s ", " ++ c ++ s " " ++ last y []).
      etransitivity; [apply (f_equal (fun w => w ++ s ", " ++ c ++ s " " ++ last y []) E)|]. rewrite <- !app_assoc. reflexivity.
    + exists (join_with (s ", ") (removelast y) ++ s ", " ++ c ++ s " "), []. rewrite app_nil_r, <- !app_assoc. reflexivity.
Qed.
(** Its exact form for three or more items. *)
Theorem C65_join_form c front a :
  (length front >= 2)%nat -> join (front ++ [a]) c = Ok (join_with (s ", ") front ++ s ", " ++ c ++ s " " ++ a).
Proof.
  intros L. destruct front as [|x [|y front]]; [simpl in L; lia|simpl in L; lia|].
  assert (R : removelast ((x :: y :: front) ++ [a]) = x :: y :: front) by (apply removelast_last).
  assert (LA : last ((x :: y :: front) ++ [a]) [] = a) by (apply last_last).
  transitivity (Ok (join_with (s ", ") (removelast ((x :: y :: front) ++ [a])) ++ s ", " ++ c ++ s " " ++ last ((x :: y :: front) ++ [a]) [])).
  - destruct front; reflexivity.
  - rewrite R, LA. reflexivity.
Qed.
(** Refuted: an empty list is an IndexError. *)
Theorem C65_join_empty_refuted c : join [] c = Raise IndexError.
Proof. reflexivity. Qed.
(** [apply] gives the first truthy result, calls no method after it, and gives
    nothing exactly if every method gives a falsy result. *)
Theorem C65_apply {A} (before after : list (called_result A)) x :
  (forall m, In m before -> m = Falsy) ->
  (forall a, x = Truthy a -> apply_methods (before ++ x :: after) = (Ok (Some a), S (length before))) /\
  (forall e, x = Failed e -> apply_methods (before ++ x :: after) = (Raise e, S (length before))) /\
  apply_methods before = (Ok None, length before).
Proof.
  intros F. induction before as [|b before IH]; [repeat split; intros; subst; reflexivity|].
  rewrite (F b (or_introl eq_refl)). destruct IH as (I1 & I2 & I3); [intros m I; apply F; right; exact I|].
  cbn [app apply_methods length]. repeat split.
  - intros a E. rewrite (I1 a E). reflexivity.
  - intros e E. rewrite (I2 e E). reflexivity.
  - rewrite I3. reflexivity.
Qed.
Theorem C65_allisinstance {A} (p : A -> bool) l :
  (l = [] -> allisinstance p l = Raise TypeError) /\ (l <> [] -> exists b, allisinstance p l = Ok b /\ (b = true <-> forall x, In x l -> p x = true)).
Proof.
  split; [intros ->; reflexivity|]. intros N. exists (forallb p l). split; [destruct l; [congruence|reflexivity]|]. apply forallb_forall.
Qed.
(** The widest type: one of the two, the more derived one, and the same in both
    orders; without a common ordering, the base if given and an error if not. *)
Definition partial_order (sub : ecls -> ecls -> bool) : Prop :=
  (forall c, sub c c = true) /\ (forall a b c, sub a b = true -> sub b c = true -> sub a c = true) /\
  (forall a b, sub a b = true -> sub b a = true -> a = b).
Theorem C65_widest sub a b base :
  partial_order sub ->
  widest sub a b base = widest sub b a base /\
  (forall t, widest sub a b base = Ok t -> sub a t = true /\ sub b t = true \/ (sub t a = true /\ sub t b = true)) /\
  (forall d t, base = Some d -> widest sub a b base = Ok t -> sub t d = true) /\
  (forall d, base = Some d -> (exists t, widest sub a b base = Ok t) <-> (sub a d = true /\ sub b d = true)) /\
  (base = None -> (exists t, widest sub a b base = Ok t) <-> (sub a b = true \/ sub b a = true)).
Proof.
  intros (R & T & AS). unfold widest.
  assert (SY : N.eqb a b = N.eqb b a) by apply N.eqb_sym.
  destruct (N.eqb a b) eqn:E; [apply N.eqb_eq in E; subst b|]; rewrite <- SY.
  - destruct base as [d|].
    + destruct (sub a d) eqn:D; cbn [andb negb]; (split; [reflexivity|]).
      * split; [intros t X; inversion X; subst; auto|]. split; [intros d' t X Y; inversion X; inversion Y; subst; auto|].
        split; [intros d' X; inversion X; subst; split; eauto|discriminate].
      * split; [discriminate|]. split; [discriminate|]. split; [|discriminate].
        intros d' X; inversion X; subst. split; [intros [t Y]; discriminate|]. rewrite D. intros [Y _]; discriminate.
    + split; [reflexivity|]. split; [intros t X; inversion X; subst; auto|]. split; [discriminate|]. split; [discriminate|].
      intros _. split; eauto.
  - destruct (sub a b) eqn:AB, (sub b a) eqn:BA.
    { pose proof (AS a b AB BA). subst. rewrite N.eqb_refl in E. discriminate. }
    all: destruct base as [d|]; [destruct (sub a d) eqn:AD, (sub b d) eqn:BD; cbn [andb negb]|]; repeat apply conj;
      try reflexivity; try discriminate; try (intros t X; inversion X; subst; auto; fail);
      try (intros d' t X Y; inversion X; inversion Y; subst; auto; fail);
      try (intros d' X; inversion X; subst; rewrite ?AD, ?BD; split; [intros [t Y]; first [discriminate Y|auto]|intros [Y Z]; first [discriminate|eauto]]; fail);
      try (intros _; split; [intros [t Y]; first [discriminate Y|auto]|intros [Y|Y]; first [discriminate Y|eauto]]; fail).
Qed.
(** Null objects: never a number, an array exactly if it has no elements, other
    containers and strings exactly if empty. *)
Theorem C65_isnull :
  (forall q, isnull (NNumber q) = false) /\ (forall n, isnull (NArray n) = true <-> n = O) /\ (forall l, isnull (NList l) = true <-> l = []) /\
  (forall x, isnull (NStr x) = true <-> x = []) /\ isnull NNone = true /\
  (forall l, isnull (NAmbiguous l) = true <-> forall x, In x l -> isnull x = true).
Proof.
  repeat apply conj; try reflexivity.
  - intros n. apply Nat.eqb_eq.
  - intros [|x l]; split; try reflexivity; discriminate.
  - intros [|x l]; split; try reflexivity; discriminate.
  - intros l. apply forallb_forall.
Qed.
(** Formatted arguments: positional ones first, separated by commas. *)
Theorem C65_strargs pos kwd :
  strargs pos kwd = join_with (s ", ") (pos ++ map (fun kv => fst kv ++ s "=" ++ snd kv) kwd).
Proof.
  assert (JA : forall sep a b, a <> [] -> b <> [] -> join_with sep (a ++ b) = join_with sep a ++ sep ++ join_with sep b).
  { intros sep a b NA NB. induction a as [|x a IH]; [congruence|]. destruct a as [|y a]; cbn [app].
    - destruct b; [congruence|reflexivity].
    - change (join_with sep (x :: y :: a)) with (x ++ sep ++ join_with sep (y :: a)). rewrite <- !app_assoc.
      rewrite <- IH by discriminate. reflexivity. }
  unfold strargs. destruct kwd as [|k kwd]; [simpl; rewrite app_nil_r; reflexivity|]. destruct pos as [|p pos]; [reflexivity|].
  rewrite JA; [reflexivity|discriminate|discriminate].
Qed.
Example C65_join_example : join [s "a"; s "b"; s "c"] (s "or") = Ok (s "a, b, or c").
Proof. reflexivity. Qed.
Example C65_strargs_example : strargs [s "1"; s "x"] [(s "k", s "2")] = s "1, x, k=2".
Proof. reflexivity. Qed.
Example C65_widest_example : partial_order (fun a b => N.leb b a) /\ widest (fun a b => N.leb b a) 3%N 5%N None = Ok 5%N.
Proof.
  split; [|reflexivity]. repeat apply conj; intros *; rewrite ?N.leb_le; lia.
Qed.

Print Assumptions C51_instances.
Print Assumptions C51_no_path.
Print Assumptions C51_failed_construction.
Print Assumptions C51_classes_refuted.
Print Assumptions C51_spelling_refuted.
Print Assumptions C51_singletons.
Print Assumptions C51_singleton_class.
Print Assumptions C51_derived_refuted.
Print Assumptions C51_diamond_refuted.
Print Assumptions C51_sentinel_partial.
Print Assumptions C51_sentinel_truth.
Print Assumptions C51_shipped_sentinels.
Print Assumptions C51_sentinel_twice_refuted.
Print Assumptions C51_sentinel_confused_refuted.
Print Assumptions C65_join.
Print Assumptions C65_join_form.
Print Assumptions C65_join_empty_refuted.
Print Assumptions C65_apply.
Print Assumptions C65_allisinstance.
Print Assumptions C65_widest.
Print Assumptions C65_isnull.
Print Assumptions C65_strargs.
