(** Lemmas about the file-system model. *)
From Verif Require Import PyBase PyLemmas ContainerModel ContainerSpec ContainerProofs ContainerProofs2 FsModel.

Lemma path_eqb_eq : forall p q, path_eqb p q = true <-> p = q.
Proof.
  induction p; destruct q; cbn; split; intro H; try reflexivity; try discriminate.
  - apply andb_true_iff in H as [H1 H2]. apply str_eqb_eq in H1. apply IHp in H2. congruence.
  - injection H as -> ->. rewrite str_eqb_refl. cbn. now apply IHp.
Qed.
Lemma path_eqb_refl : forall p, path_eqb p p = true.
Proof. intro. now apply path_eqb_eq. Qed.
Lemma path_eqb_neq : forall p q, p <> q -> path_eqb p q = false.
Proof. intros p q H. destruct (path_eqb p q) eqn:E; auto. apply path_eqb_eq in E. contradiction. Qed.

Lemma strip_prefix_some : forall p q r, strip_prefix p q = Some r <-> q = p ++ r.
Proof.
  induction p as [|x p IH]; intros q r; cbn.
  - split; congruence.
  - destruct q as [|y q]; [split; discriminate|].
    destruct (str_eqb x y) eqn:E.
    + apply str_eqb_eq in E as ->. rewrite IH. split; congruence.
    + split; [discriminate|]. intro H. injection H as -> _. rewrite str_eqb_refl in E. discriminate.
Qed.
Lemma at_or_below_iff : forall p q, at_or_below p q = true <-> exists r, q = p ++ r.
Proof.
  intros p q. unfold at_or_below. destruct (strip_prefix p q) eqn:E.
  - apply strip_prefix_some in E. split; eauto.
  - split; [discriminate|]. intros [r ->].
    assert (strip_prefix p (p ++ r) = Some r) by now apply strip_prefix_some. congruence.
Qed.
Lemma at_or_below_false : forall p q, at_or_below p q = false <-> ~ exists r, q = p ++ r.
Proof.
  intros. rewrite <- at_or_below_iff. destruct (at_or_below p q); split; intro H; try congruence.
Qed.
Lemma strip_prefix_none : forall p q, strip_prefix p q = None <-> ~ exists r, q = p ++ r.
Proof.
  intros. rewrite <- at_or_below_false. unfold at_or_below. destruct strip_prefix; split; congruence.
Qed.

Lemma prefix_comparable : forall (p q r t : path), p ++ r = q ++ t ->
  (exists u, q = p ++ u) \/ (exists u, p = q ++ u).
Proof.
  induction p as [|x p IH]; intros q r t H.
  - left. now exists q.
  - destruct q as [|y q]; [right; now exists (x :: p)|].
    cbn in H. injection H as -> H. destruct (IH _ _ _ H) as [[u ->]|[u ->]]; [left|right]; now exists u.
Qed.

(** ** Effects of the operations on what is found at a path *)

Lemma entry_put : forall f p n q, entry (put f p n) q = if path_eqb p q then Some n else entry f q.
Proof. reflexivity. Qed.
Lemma get_put : forall f p n q, p <> [] ->
  fs_get (put f p n) q = if path_eqb p q then Some n else fs_get f q.
Proof.
  intros f p n [|x q] H; cbn [fs_get].
  - now rewrite path_eqb_neq.
  - apply entry_put.
Qed.
Lemma get_put_same : forall f p n, p <> [] -> fs_get (put f p n) p = Some n.
Proof. intros. rewrite get_put by auto. now rewrite path_eqb_refl. Qed.
Lemma get_put_other : forall f p n q, p <> [] -> p <> q -> fs_get (put f p n) q = fs_get f q.
Proof. intros. rewrite get_put by auto. now rewrite path_eqb_neq. Qed.

Lemma entry_rmtree : forall f p q,
  entry (rmtree f p) q = if at_or_below p q then None else entry f q.
Proof.
  unfold rmtree. induction f as [|[k n] f IH]; intros p q; cbn [filter entry fst].
  - now destruct (at_or_below p q).
  - destruct (at_or_below p k) eqn:E; cbn [negb entry].
    + rewrite IH. destruct (path_eqb k q) eqn:K; [|reflexivity].
      apply path_eqb_eq in K as ->. now rewrite E.
    + destruct (path_eqb k q) eqn:K; [|apply IH].
      apply path_eqb_eq in K as ->. now rewrite E.
Qed.
Lemma get_rmtree : forall f p q, p <> [] ->
  fs_get (rmtree f p) q = if at_or_below p q then None else fs_get f q.
Proof.
  intros f p [|x q] H; cbn [fs_get].
  - destruct (at_or_below p []) eqn:E; [|reflexivity].
    apply at_or_below_iff in E as [r E]. destruct p; [contradiction|discriminate].
  - apply entry_rmtree.
Qed.

Lemma entry_rename : forall f p q x,
  ~ (exists r, q = p ++ r) -> ~ (exists r, p = q ++ r) ->
  entry (map (fun e => match strip_prefix p (fst e) with
                       | Some r => (q ++ r, snd e) | None => e end)
             (filter (fun e => negb (at_or_below q (fst e))) f)) x
  = match strip_prefix q x with
    | Some r => entry f (p ++ r)
    | None => if at_or_below p x then None else entry f x
    end.
Proof.
  intros f p q x H1 H2. induction f as [|[k n] f IH]; cbn [filter map entry].
  - destruct strip_prefix; [reflexivity|]. now destruct at_or_below.
  - cbn [fst]. destruct (at_or_below q k) eqn:E; cbn [negb map entry].
    + rewrite IH. apply at_or_below_iff in E as [t ->].
      destruct (strip_prefix q x) as [r|] eqn:X.
      * rewrite (path_eqb_neq (q ++ t) (p ++ r)); [reflexivity|].
        intro C. destruct (prefix_comparable _ _ _ _ C) as [[u U]|[u U]]; [apply H2 | apply H1]; eauto.
      * assert (q ++ t <> x) as N.
        { intro C. apply strip_prefix_none in X. apply X. exists t. now rewrite C. }
        rewrite (path_eqb_neq _ _ N). reflexivity.
    + cbn [fst snd]. destruct (strip_prefix p k) as [t|] eqn:K.
      * apply strip_prefix_some in K as ->.
        cbn [entry]. destruct (path_eqb (q ++ t) x) eqn:Q.
        -- apply path_eqb_eq in Q as <-.
           assert (strip_prefix q (q ++ t) = Some t) as -> by now apply strip_prefix_some.
           now rewrite path_eqb_refl.
        -- rewrite IH. destruct (strip_prefix q x) as [r|] eqn:X.
           ++ apply strip_prefix_some in X as ->.
              rewrite (path_eqb_neq (p ++ t) (p ++ r)); [reflexivity|].
              intro C. apply app_inv_head in C as ->. rewrite path_eqb_refl in Q. discriminate.
           ++ destruct (at_or_below p x) eqn:B; [reflexivity|].
              rewrite (path_eqb_neq (p ++ t) x); [reflexivity|].
              intro C. apply at_or_below_false in B. apply B. exists t. now rewrite C.
      * cbn [entry]. rewrite IH. destruct (strip_prefix q x) as [r|] eqn:X.
        -- apply strip_prefix_some in X as ->.
           rewrite (path_eqb_neq k (q ++ r)), (path_eqb_neq k (p ++ r)); [reflexivity| |].
           ++ intros ->. apply strip_prefix_none in K. apply K. eauto.
           ++ intros ->. apply at_or_below_false in E. apply E. eauto.
        -- destruct (path_eqb k x) eqn:KX; [|reflexivity].
           apply path_eqb_eq in KX as ->.
           assert (at_or_below p x = false) as -> by (apply at_or_below_false; now apply strip_prefix_none).
           reflexivity.
Qed.

Lemma rename_ok : forall f p q f', rename f p q = Ok f' ->
  exists_ f p = true /\ exists_ f q = false /\ is_dir f (parent q) = true
  /\ ~ (exists r, q = p ++ r).
Proof.
  intros f p q f' H. unfold rename in H.
  destruct (exists_ f p) eqn:A; cbn in H; [|discriminate].
  destruct (exists_ f q) eqn:B; [discriminate|].
  destruct (at_or_below p q) eqn:C; [discriminate|].
  destruct (is_dir f (parent q)) eqn:D; cbn in H; [|discriminate].
  repeat split; auto. now apply at_or_below_false.
Qed.
Lemma get_rename : forall f p q f' x, rename f p q = Ok f' -> p <> [] ->
  ~ (exists r, p = q ++ r) ->
  fs_get f' x = match strip_prefix q x with
                | Some r => fs_get f (p ++ r)
                | None => if at_or_below p x then None else fs_get f x
                end.
Proof.
  intros f p q f' x H Hp Hq. pose proof (rename_ok _ _ _ _ H) as (A & B & C & D).
  unfold rename in H. rewrite A, B in H. cbn in H.
  rewrite (proj2 (at_or_below_false p q) D), C in H. cbn in H. injection H as <-.
  assert (q <> []) as Hq' by (intros ->; apply Hq; now exists p).
  destruct x as [|x0 x].
  - cbn [fs_get]. destruct (strip_prefix q []) eqn:E.
    + apply strip_prefix_some in E. destruct q; [contradiction|discriminate].
    + destruct (at_or_below p []) eqn:E'; [|reflexivity].
      apply at_or_below_iff in E' as [r R]. destruct p; [contradiction|discriminate].
  - assert (forall g, fs_get g (x0 :: x) = entry g (x0 :: x)) as G by reflexivity.
    rewrite !G. rewrite entry_rename by auto.
    destruct (strip_prefix q (x0 :: x)); [|reflexivity].
    destruct p; [contradiction|reflexivity].
Qed.


Lemma snoc_nonempty : forall (p : path) x, p ++ [x] <> [].
Proof. intros p x H. apply app_eq_nil in H as [_ H]. discriminate. Qed.

Lemma mkdir_from_spec : forall todo f here ok f', mkdir_from f here todo ok = Ok f' ->
  (forall q, fs_get f q <> None -> fs_get f' q = fs_get f q)
  /\ (forall q, ~ (exists r, here ++ todo = q ++ r) -> fs_get f' q = fs_get f q)
  /\ (todo <> [] -> fs_get f' (here ++ todo) = Some Dir)
  /\ (forall k n, In (k, n) f' -> In (k, n) f \/ (exists r, here ++ todo = k ++ r)).
Proof.
  induction todo as [|x todo IH]; intros f here ok f' H.
  - cbn in H. injection H as <-. repeat split; auto. contradiction.
  - set (p := here ++ [x]) in *.
    pose proof (snoc_nonempty here x) as Np. fold p in Np.
    assert (here ++ x :: todo = p ++ todo) as Ap by (unfold p; now rewrite <- app_assoc).
    rewrite Ap.
    assert ((exists f1 ok1, (f1 = f /\ fs_get f p = Some Dir \/ f1 = put f p Dir /\ fs_get f p = None)
             /\ (todo = [] /\ f' = f1 \/ mkdir_from f1 p todo ok1 = Ok f'))) as (f1 & ok1 & H1 & H2).
    { destruct todo as [|y todo]; cbn [mkdir_from] in H; fold p in H.
      - destruct (fs_get f p) as [[|]|] eqn:E; try discriminate.
        + destruct ok; [|discriminate]. injection H as <-. exists f, true. auto.
        + injection H as <-. exists (put f p Dir), true. auto.
      - destruct (fs_get f p) as [[|]|] eqn:E; try discriminate.
        + exists f, ok. auto.
        + exists (put f p Dir), ok. auto. }
    assert (fs_get f1 p = Some Dir) as Dp.
    { destruct H1 as [[-> E]|[-> E]]; [assumption|]. now apply get_put_same. }
    assert (forall q, fs_get f q <> None -> fs_get f1 q = fs_get f q) as A1.
    { intros q Hq. destruct H1 as [[-> E]|[-> E]]; [reflexivity|].
      apply get_put_other; [assumption|]. intros <-. contradiction. }
    assert (forall q, ~ (exists r, p ++ todo = q ++ r) -> fs_get f1 q = fs_get f q) as B1.
    { intros q Hq. destruct H1 as [[-> E]|[-> E]]; [reflexivity|].
      apply get_put_other; [assumption|]. intros <-. apply Hq. now exists todo. }
    assert (forall k n, In (k, n) f1 -> In (k, n) f \/ (exists r, p ++ todo = k ++ r)) as C1.
    { intros k n Hk. destruct H1 as [[-> E]|[-> E]]; [now left|].
      destruct Hk as [Hk|Hk]; [|now left]. right. exists todo. congruence. }
    destruct H2 as [[-> ->]|H2].
    + rewrite app_nil_r in *. repeat split; auto.
    + destruct (IH _ _ _ _ H2) as (A & B & C & D). repeat split.
      * intros q Hq. rewrite A; [now apply A1|]. now rewrite A1.
      * intros q Hq. rewrite B by assumption. now apply B1.
      * intros _. destruct todo as [|y todo]; [|now apply C].
        rewrite app_nil_r. cbn in H2. congruence.
      * intros k n Hk. destruct (D _ _ Hk) as [Hk'|Hk']; [now apply C1|now right].
Qed.

Lemma mkdir_spec : forall f p ok f', mkdir f p ok = Ok f' -> p <> [] ->
  (forall q, fs_get f q <> None -> fs_get f' q = fs_get f q)
  /\ (forall q, ~ (exists r, p = q ++ r) -> fs_get f' q = fs_get f q)
  /\ fs_get f' p = Some Dir
  /\ (forall k n, In (k, n) f' -> In (k, n) f \/ (exists r, p = k ++ r)).
Proof.
  intros f p ok f' H Np. destruct (mkdir_from_spec _ _ _ _ _ H) as (A & B & C & D).
  cbn [app] in *. repeat split; auto.
Qed.

Lemma write_ok : forall f p c f', write f p c = Ok f' ->
  f' = put f p (File c) /\ fs_get f p <> Some Dir /\ is_dir f (parent p) = true /\ p <> [].
Proof.
  intros f p c f' H. unfold write in H.
  destruct (fs_get f p) as [[|c0]|] eqn:E; try discriminate;
  destruct (is_dir f (parent p)) eqn:D; try discriminate; injection H as <-;
  (repeat split; [congruence|]); intros ->; discriminate.
Qed.

Lemma is_dir_get : forall f p, is_dir f p = true <-> fs_get f p = Some Dir.
Proof. intros. unfold is_dir. destruct (fs_get f p) as [[|]|]; split; congruence. Qed.
Lemma exists_get : forall f p, exists_ f p = true <-> fs_get f p <> None.
Proof. intros. unfold exists_. destruct (fs_get f p); split; congruence. Qed.
Lemma exists_false : forall f p, exists_ f p = false <-> fs_get f p = None.
Proof. intros. unfold exists_. destruct (fs_get f p); split; congruence. Qed.

Lemma entry_in : forall f p n, entry f p = Some n -> In (p, n) f.
Proof.
  induction f as [|[q m] f IH]; cbn; intros p n H; [discriminate|].
  destruct (path_eqb q p) eqn:E; [left|right; auto].
  apply path_eqb_eq in E. congruence.
Qed.
Lemma in_entry : forall f p n, In (p, n) f -> entry f p <> None.
Proof.
  induction f as [|[q m] f IH]; cbn; intros p n H; [contradiction|].
  destruct (path_eqb q p) eqn:E; [discriminate|].
  destruct H as [H|H]; [|eauto]. injection H as -> ->. rewrite path_eqb_refl in E. discriminate.
Qed.

Lemma children_spec : forall f d x, In x (children f d) <-> exists n, In (d ++ [x], n) f.
Proof.
  induction f as [|[p n] f IH]; intros d x; cbn [children].
  - split; [intros []|intros [? []]].
  - assert (child d p = Some x <-> p = d ++ [x]) as C.
    { unfold child. destruct (strip_prefix d p) as [r|] eqn:E.
      - apply strip_prefix_some in E as ->. split; intro H.
        + destruct r as [|y [|]]; congruence.
        + apply app_inv_head in H as ->. reflexivity.
      - split; [discriminate|]. intros ->. apply strip_prefix_none in E. exfalso. apply E. eauto. }
    destruct (child d p) as [y|] eqn:E.
    + cbn [In]. rewrite IH. split.
      * intros [->|[m H]]; [exists n; left; f_equal; now apply C | exists m; now right].
      * intros [m [H|H]]; [left|right; eauto]. injection H as Hp _.
        apply C in Hp. congruence.
    + rewrite IH. split; intros [m H]; exists m; [now right|].
      destruct H as [H|H]; [|assumption]. injection H as Hp _. apply C in Hp. congruence.
Qed.

Lemma glob_spec : forall matches f d pat p, In p (glob matches f d pat) <->
  exists x, p = d ++ [x] /\ matches pat x = true /\ exists_ f p = true.
Proof.
  intros. unfold glob. rewrite in_map_iff. setoid_rewrite filter_In.
  setoid_rewrite (proj1 (proj2 (unique_items_spec str_eqb str_decides _))).
  setoid_rewrite children_spec.
  assert (forall x, (exists n, In (d ++ [x], n) f) <-> exists_ f (d ++ [x]) = true) as E.
  { intro x. rewrite exists_get.
    assert (fs_get f (d ++ [x]) = entry f (d ++ [x])) as ->.
    { pose proof (snoc_nonempty d x). destruct (d ++ [x]); [contradiction|reflexivity]. }
    split.
    - intros [n H]. eapply in_entry; eassumption.
    - intro H. destruct (entry f (d ++ [x])) as [n|] eqn:En; [|contradiction].
      exists n. now apply entry_in. }
  split.
  - intros (x & <- & Hx & M). exists x. repeat split; auto. now apply E.
  - intros (x & -> & M & Hx). exists x. repeat split; auto. now apply E.
Qed.

(** ** [str(path)] *)

Lemma no_slash_split : forall (x y : str) (r t : str),
  ~ In "/"%char x -> ~ In "/"%char y ->
  (r = [] \/ exists r', r = "/"%char :: r') -> (t = [] \/ exists t', t = "/"%char :: t') ->
  x ++ r = y ++ t -> x = y /\ r = t.
Proof.
  induction x as [|a x IH]; intros y r t Hx Hy Hr Ht H.
  - destruct y as [|b y]; [auto|]. exfalso. cbn in H.
    destruct Hr as [->|[r' ->]]; [discriminate|]. injection H as <- _. apply Hy. now left.
  - destruct y as [|b y].
    + exfalso. cbn in H. destruct Ht as [->|[t' ->]]; [discriminate|]. injection H as -> _. apply Hx. now left.
    + cbn in H. injection H as -> H. destruct (IH y r t) as [-> ->]; auto.
      * intro C. apply Hx. now right.
      * intro C. apply Hy. now right.
Qed.
Lemma path_str_rel_head : forall p, path_str_rel p = [] \/ exists r, path_str_rel p = "/"%char :: r.
Proof. destruct p; cbn; eauto. Qed.
Lemma path_str_rel_inj : forall p q,
  Forall (fun x => ~ In "/"%char x) p -> Forall (fun x => ~ In "/"%char x) q ->
  path_str_rel p = path_str_rel q -> p = q.
Proof.
  induction p as [|x p IH]; intros [|y q] Hp Hq H; try discriminate; auto.
  cbn in H. injection H as H. inversion Hp; inversion Hq; subst.
  apply no_slash_split in H as [-> H]; auto using path_str_rel_head.
  f_equal. now apply IH.
Qed.
Lemma path_str_inj : forall p q,
  Forall (fun x => x <> [] /\ ~ In "/"%char x) p -> Forall (fun x => x <> [] /\ ~ In "/"%char x) q ->
  path_str p = path_str q -> p = q.
Proof.
  intros p q Hp Hq H.
  assert (forall l, Forall (fun x : str => x <> [] /\ ~ In "/"%char x) l -> Forall (fun x => ~ In "/"%char x) l) as W.
  { intros l Hl. eapply Forall_impl; [|exact Hl]. now intros a []. }
  destruct p as [|x p], q as [|y q]; auto.
  - exfalso. cbn in H. injection H as H. inversion Hq; subst. destruct y; [now destruct H2|discriminate].
  - exfalso. cbn in H. injection H as H. inversion Hp; subst. destruct x; [now destruct H2|discriminate].
  - now apply path_str_rel_inj; auto.
Qed.
Lemma path_str_head : forall p, exists r, path_str p = "/"%char :: r.
Proof. destruct p; cbn; eauto. Qed.
