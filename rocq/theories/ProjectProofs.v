(** Invariants of the project model. *)
From Verif Require Import PyBase PyLemmas ContainerModel ContainerSpec ContainerProofs ContainerProofs2
  FsModel FsProofs ProjectModel ProjectSpec.

Definition settings (w : world) := (w_root w, w_branches w, w_base w, w_log w, w_attrs w).

(** ** A small program logic: predicates on the disk, fixed settings *)
Definition triple {A} (S0 : world -> Prop) (P : fs -> Prop) (m : M A) (Q : A -> fs -> Prop) (E : exn -> fs -> Prop) : Prop :=
  forall w, S0 w -> P (w_fs w) ->
  settings (fst (m w)) = settings w /\ S0 (fst (m w)) /\
  match snd (m w) with Ok a => Q a (w_fs (fst (m w))) | Raise e => E e (w_fs (fst (m w))) end.

(** [S0] only looks at the settings. *)
Definition of_settings (S0 : world -> Prop) : Prop := forall w w', settings w = settings w' -> S0 w -> S0 w'.

Lemma t_bind : forall {A B} (S0 : world -> Prop) (P : fs -> Prop) (m : M A) (k : A -> M B) (Q : A -> fs -> Prop) (R : B -> fs -> Prop) (E : exn -> fs -> Prop),
  triple S0 P m Q E -> (forall a, triple S0 (Q a) (k a) R E) -> triple S0 P (mbind m k) R E.
Proof.
  intros A B S0 P m k Q R E Hm Hk w Hs Hw. unfold mbind.
  specialize (Hm w Hs Hw). destruct (m w) as [w' [a|e]]; cbn [fst snd] in *.
  - destruct Hm as (E1 & S1 & Q1). specialize (Hk a w' S1 Q1).
    destruct (k a w') as [w'' r]; cbn [fst snd] in *. destruct Hk as (E2 & S2 & R2).
    repeat split; auto. congruence.
  - exact Hm.
Qed.
Lemma t_get : forall {A} (S0 : world -> Prop) (P : fs -> Prop) (g : world -> A) (Q : _ -> fs -> Prop) (E : exn -> fs -> Prop),
  (forall w, S0 w -> P (w_fs w) -> Q (g w) (w_fs w)) -> triple S0 P (get g) Q E.
Proof. intros A S0 P g Q E H w Hs Hw. cbn. repeat split; auto. Qed.
Lemma t_lift : forall {A} (S0 : world -> Prop) (P : fs -> Prop) (r : result A) (Q : _ -> fs -> Prop) (E : exn -> fs -> Prop),
  (forall f, P f -> match r with Ok a => Q a f | Raise e => E e f end) -> triple S0 P (lift r) Q E.
Proof. intros A S0 P r Q E H w Hs Hw. cbn. repeat split; auto. now apply H. Qed.
Lemma t_ret : forall {A} (S0 : world -> Prop) (P : fs -> Prop) (a : A) (Q : _ -> fs -> Prop) (E : exn -> fs -> Prop),
  (forall f, P f -> Q a f) -> triple S0 P (ret a) Q E.
Proof. intros A S0 P a Q E H w Hs Hw. cbn. repeat split; auto. Qed.
Lemma t_raise : forall {A} (S0 : world -> Prop) (P : fs -> Prop) e (Q : A -> fs -> Prop) (E : exn -> fs -> Prop),
  (forall f, P f -> E e f) -> triple S0 P (raise e) Q E.
Proof. intros A S0 P a Q E H w Hs Hw. cbn. repeat split; auto. Qed.
Lemma t_disk : forall (S0 : world -> Prop) (P : fs -> Prop) op (Q : _ -> fs -> Prop) (E : exn -> fs -> Prop), of_settings S0 ->
  (forall f, P f -> E killed f) ->
  (forall f, P f -> match op f with Ok f' => Q tt f' | Raise e => E e f end) ->
  triple S0 P (disk op) Q E.
Proof.
  intros S0 P op Q E HS HK H w Hs Hw. unfold disk, mbind, get, lift, set_fs. cbn.
  specialize (H _ Hw). destruct (op (w_fs w)) as [f'|e]; cbn.
  - destruct (w_steps w); cbn; repeat split; auto.
    eapply HS; [|exact Hs]. reflexivity.
  - repeat split; auto.
Qed.
Lemma t_weaken : forall {A} (S0 : world -> Prop) (P P' : fs -> Prop) (m : M A) (Q Q' : A -> fs -> Prop) (E E' : exn -> fs -> Prop),
  triple S0 P' m Q' E' -> (forall f, P f -> P' f) -> (forall a f, Q' a f -> Q a f) -> (forall e f, E' e f -> E e f) ->
  triple S0 P m Q E.
Proof.
  intros A S0 P P' m Q Q' E E' H HP HQ HE w Hs Hw. specialize (H w Hs (HP _ Hw)).
  destruct H as (A1 & A2 & A3). repeat split; auto. destruct (snd (m w)); auto.
Qed.
Lemma t_if : forall {A} (S0 : world -> Prop) (P : fs -> Prop) (b : bool) (m1 m2 : M A) (Q : _ -> fs -> Prop) (E : exn -> fs -> Prop),
  (b = true -> triple S0 P m1 Q E) -> (b = false -> triple S0 P m2 Q E) -> triple S0 P (if b then m1 else m2) Q E.
Proof. intros. destruct b; auto. Qed.

(** The precondition may be used outside the program. *)
Lemma t_pre : forall {A} (S0 : world -> Prop) (P : fs -> Prop) (m : M A) (Q : _ -> fs -> Prop) (E : exn -> fs -> Prop),
  (forall f0, P f0 -> triple S0 (eq f0) m Q E) -> triple S0 P m Q E.
Proof. intros A S0 P m Q E H w Hs Hw. now apply (H _ Hw). Qed.

(** ** Dictionaries *)
Lemma lookup_find : forall {V} (d : list (str * V)) k,
  lookup str_eqb d k = match find (fun e => str_eqb (fst e) k) d with Some e => Ok (snd e) | None => Raise KeyError end.
Proof.
  induction d as [|[a v] d IH]; intro k; cbn; [reflexivity|].
  destruct (str_eqb a k) eqn:E.
  - reflexivity.
  - apply IH.
Qed.
Definition keys {V} (d : list (str * V)) : list str := map fst d.
Lemma find_keys : forall {V} (d : list (str * V)) k,
  find (fun e => str_eqb (fst e) k) d <> None <-> In k (keys d).
Proof.
  induction d as [|[a v] d IH]; intro k; cbn; [split; [congruence|intros []]|].
  destruct (str_eqb a k) eqn:E.
  - apply str_eqb_eq in E. split; [auto|discriminate].
  - rewrite IH. split; [auto|]. intros [->|H]; [rewrite str_eqb_refl in E; discriminate|assumption].
Qed.
Lemma keys_put : forall {V} (d : list (str * V)) k v k', In k' (keys (dict_put str_eqb d k v)) <-> k' = k \/ In k' (keys d).
Proof.
  unfold keys. induction d as [|[a u] d IH]; intros k v k'; cbn.
  - intuition.
  - destruct (str_eqb a k) eqn:E; cbn.
    + apply str_eqb_eq in E as ->. intuition.
    + rewrite IH. intuition.
Qed.
Lemma keys_without : forall {V} (d : list (str * V)) k k', In k' (keys (without_key d k)) <-> k' <> k /\ In k' (keys d).
Proof.
  intros V d k k'. unfold keys, without_key. rewrite !in_map_iff. setoid_rewrite filter_In. split.
  - intros (e & <- & He & N). apply negb_true_iff in N. split; [|eauto].
    intro C. rewrite C, str_eqb_refl in N. discriminate.
  - intros (N & e & <- & He). exists e. repeat split; auto. apply negb_true_iff. now apply str_eqb_neq.
Qed.

(** ** Errors of the disk *)
Lemma write_err f p c e : write f p c = Raise e -> e <> killed /\ e <> operation_error.
Proof.
  unfold write. destruct (fs_get f p) as [[|]|]; [|destruct is_dir|destruct is_dir]; intro H; inversion H; split; discriminate.
Qed.
Lemma read_err f p e : read f p = Raise e -> e <> killed /\ e <> operation_error.
Proof.
  unfold read. destruct (fs_get f p) as [[|]|]; intro H; inversion H; split; discriminate.
Qed.
Lemma mkdir_from_err todo : forall f here ok e, mkdir_from f here todo ok = Raise e -> e <> killed /\ e <> operation_error.
Proof.
  induction todo as [|x todo IH]; intros f here ok e H; [discriminate|].
  destruct todo as [|y todo]; cbn [mkdir_from] in H; destruct (fs_get f (here ++ [x])) as [[|]|];
  try (now apply IH in H); try discriminate; try (destruct ok; try discriminate);
  inversion H; split; discriminate.
Qed.
Lemma rename_err f p q e : rename f p q = Raise e -> e <> killed /\ e <> operation_error.
Proof.
  unfold rename. destruct (negb (exists_ f p)); [intro H; inversion H; split; discriminate|].
  destruct (exists_ f q); [intro H; inversion H; split; discriminate|].
  destruct (at_or_below p q); [intro H; inversion H; split; discriminate|].
  destruct (negb (is_dir f (parent q))); intro H; inversion H; split; discriminate.
Qed.

(** ** The invariants *)
Section Invariants.
Set Default Proof Using "All".
Variables (D : path -> Prop) (L : path) (len : nat).
Hypothesis D_len : forall d, D d -> length d = len.
Hypothesis D_proper : forall d, D d -> proper_path d.
Hypothesis L_out : forall d, D d -> ~ within d L.
Hypothesis L_proper : proper_path L.
Hypothesis L_ne : L <> [].

Definition RP (p : path) : Prop := exists d x, D d /\ proper_name x /\ p = d ++ [x].

(** the run directories and the directories above them *)
Definition AD (q : path) : Prop := exists d, D d /\ within q d.

Record inv (f : fs) : Prop := {
  inv_dirs : forall d, AD d -> fs_get f d = Some Dir;
  inv_runs : forall p, RP p -> fs_get f p <> None -> fs_get f p = Some Dir;
  inv_names : forall p n, In (p, n) f -> proper_path p;
  inv_parent : fs_get f (parent L) = Some Dir }.

Definition logv (f : fs) : option (list (str * json)) :=
  match fs_get f L with Some (File (Json (JObj d))) => Some d | _ => None end.

Lemma RP_len p : RP p -> length p = len + 1.
Proof. intros (d & x & Hd & _ & ->). rewrite app_length, (D_len d Hd). reflexivity. Qed.
Lemma RP_ne p : RP p -> p <> [].
Proof. intros H ->. apply RP_len in H. cbn in H. lia. Qed.
Lemma RP_proper p : RP p -> proper_path p.
Proof.
  intros (d & x & Hd & Hx & ->). apply Forall_app. split; [now apply D_proper|]. now constructor.
Qed.
Lemma RP_not_D p : RP p -> ~ D p.
Proof. intros H C. apply RP_len in H. apply D_len in C. lia. Qed.
Lemma RP_within p q : RP p -> RP q -> within p q -> p = q.
Proof.
  intros Hp Hq [r ->]. apply RP_len in Hp. apply RP_len in Hq. rewrite app_length in Hq.
  destruct r; [now rewrite app_nil_r|]. cbn in Hq. lia.
Qed.
Lemma RP_within_D p d r : RP p -> AD d -> d <> p ++ r.
Proof.
  intros Hp (d0 & Hd & t & E) ->. apply RP_len in Hp. apply D_len in Hd.
  rewrite E, !app_length in Hd. lia.
Qed.
Lemma RP_AD p d x : D d -> p = d ++ [x] -> forall q, within q p -> q = p \/ AD q.
Proof.
  intros Hd -> q [r R]. destruct r as [|a r] using rev_ind; [left; now rewrite app_nil_r in R|].
  right. rewrite app_assoc in R. apply app_inj_tail in R as [R _]. exists d. split; [assumption|]. now exists r.
Qed.
Lemma RP_within_L p r : RP p -> L <> p ++ r.
Proof.
  intros (d & x & Hd & _ & ->) ->. apply (L_out d Hd). exists ([x] ++ r). now rewrite app_assoc.
Qed.
Lemma parent_app (p : path) x : parent (p ++ [x]) = p.
Proof. unfold parent. apply removelast_last. Qed.
Lemma L_split : exists x, L = parent L ++ [x].
Proof. destruct (exists_last L_ne) as (a & x & E). exists x. rewrite E, parent_app. reflexivity. Qed.
Lemma RP_within_parent p r : RP p -> parent L <> p ++ r.
Proof.
  intros Hp H. destruct L_split as [x E]. rewrite H in E. rewrite <- app_assoc in E. now apply RP_within_L in E.
Qed.
Lemma str_inj p q : proper_path p -> proper_path q -> path_str p = path_str q -> p = q.
Proof. apply path_str_inj. Qed.

(** Steps that change the disk *)

Definition step_ok (f f' : fs) (p : path) : Prop :=
  inv f' /\ (fs_get f L <> None -> fs_get f' L = fs_get f L)
  /\ (forall q, RP q -> q <> p -> fs_get f' q = fs_get f q).

Lemma mkdir_frame f f' p : inv f -> RP p -> mkdir f p false = Ok f' ->
  forall q, q <> p -> fs_get f' q = fs_get f q.
Proof.
  intros I Hp H q N. destruct (mkdir_spec _ _ _ _ H (RP_ne _ Hp)) as (A & B & C & E).
  destruct Hp as (d & x & Hd & Hx & Ep). destruct (at_or_below q p) eqn:W.
  - apply at_or_below_iff in W as [r R]. destruct (RP_AD p d x Hd Ep q) as [?|Hq]; [now exists r|contradiction|].
    rewrite A; [reflexivity|]. rewrite (inv_dirs f I q Hq). discriminate.
  - apply B. apply at_or_below_false in W. intros [r R]. apply W. eauto.
Qed.

Lemma step_mkdir f f' p : inv f -> RP p -> mkdir f p false = Ok f' ->
  step_ok f f' p /\ fs_get f' p = Some Dir.
Proof.
  intros I Hp H. destruct (mkdir_spec _ _ _ _ H (RP_ne _ Hp)) as (A & B & C & E).
  assert (forall q, RP q -> q <> p -> fs_get f' q = fs_get f q) as Hq.
  { intros q Hq N. apply B. intros [r R]. apply N. apply (RP_within q p Hq Hp). now exists r. }
  repeat split; auto.
  - intros d Hd. rewrite A; [now apply I|]. rewrite (inv_dirs f I d Hd). discriminate.
  - intros q HRq Hn. destruct (path_eqb q p) eqn:Q.
    + apply path_eqb_eq in Q as ->. assumption.
    + assert (q <> p) by (intros ->; rewrite path_eqb_refl in Q; discriminate).
      rewrite Hq in Hn |- * by auto. now apply (inv_runs f I).
  - intros q n Hn. destruct (E _ _ Hn) as [Hin|[r R]]; [now apply (inv_names f I q n)|].
    pose proof (RP_proper _ Hp) as PP. rewrite R in PP. now apply Forall_app in PP.
  - rewrite A; [exact (inv_parent f I)|]. rewrite (inv_parent f I). discriminate.
Qed.

Lemma step_put f p y c : inv f -> RP p -> proper_name y ->
  step_ok f (put f (p ++ [y]) (File c)) p /\ fs_get (put f (p ++ [y]) (File c)) p = fs_get f p.
Proof.
  intros I Hp Hy.
  assert (forall q, (forall r, q <> p ++ r) \/ q = p -> fs_get (put f (p ++ [y]) (File c)) q = fs_get f q) as G.
  { intros q Hq. apply get_put_other; [apply snoc_nonempty|]. intros <-.
    destruct Hq as [Hq|Hq].
    - now apply (Hq [y]).
    - apply (f_equal (@length _)) in Hq. rewrite app_length in Hq. cbn in Hq. lia. }
  assert (forall q, RP q -> fs_get (put f (p ++ [y]) (File c)) q = fs_get f q) as GR.
  { intros q Hq. apply G. destruct (path_eqb q p) eqn:E; [right; now apply path_eqb_eq|left].
    intros r ->. rewrite <- (RP_within p (p ++ r) Hp Hq) in E; [|now exists r].
    rewrite path_eqb_refl in E. discriminate. }
  split; [|now apply G; right].
  repeat split; auto.
  - intros d Hd. rewrite G; [now apply I|]. left. intros r. now apply RP_within_D.
  - intros q HRq. rewrite GR by auto. now apply (inv_runs f I).
  - intros q n [H|H]; [|now apply (inv_names f I q n)]. injection H as <- _.
    apply Forall_app. split; [now apply RP_proper|]. now constructor.
  - rewrite G; [exact (inv_parent f I)|]. left. intro r. now apply RP_within_parent.
  - intros _. apply G. left. intro r. now apply RP_within_L.
Qed.

Lemma step_log f c : inv f -> (fs_get f L <> Some Dir) ->
  inv (put f L (File c)) /\ fs_get (put f L (File c)) L = Some (File c)
  /\ (forall q, RP q -> fs_get (put f L (File c)) q = fs_get f q).
Proof.
  intros I HL.
  assert (forall q, q <> L -> fs_get (put f L (File c)) q = fs_get f q) as G.
  { intros q Hq. apply get_put_other; auto. }
  assert (forall q, RP q -> fs_get (put f L (File c)) q = fs_get f q) as GR.
  { intros q Hq. apply G. intros ->. apply (RP_within_L L [] Hq). now rewrite app_nil_r. }
  repeat split; auto.
  - intros d Hd. rewrite G; [now apply I|]. intros ->. apply HL. now apply I.
  - intros q HRq. rewrite GR by auto. now apply (inv_runs f I).
  - intros q n [H|H]; [|now apply (inv_names f I q n)]. injection H as <- _. assumption.
  - rewrite G; [exact (inv_parent f I)|]. destruct L_split as [x E]. intro C.
    apply (f_equal (@length _)) in E. rewrite app_length, C in E. cbn in E. lia.
  - now apply get_put_same.
Qed.

Lemma below_dec (p q : path) : (exists r, q = p ++ r) \/ ~ (exists r, q = p ++ r).
Proof.
  destruct (at_or_below p q) eqn:E; [left; now apply at_or_below_iff|right; now apply at_or_below_false].
Qed.

Lemma step_rmtree f p : inv f -> RP p ->
  step_ok f (rmtree f p) p /\ fs_get (rmtree f p) p = None.
Proof.
  intros I Hp.
  assert (forall q, ~ (exists r, q = p ++ r) -> fs_get (rmtree f p) q = fs_get f q) as G.
  { intros q Hq. rewrite get_rmtree by now apply RP_ne. now rewrite (proj2 (at_or_below_false p q) Hq). }
  assert (forall q, (exists r, q = p ++ r) -> fs_get (rmtree f p) q = None) as N.
  { intros q Hq. rewrite get_rmtree by now apply RP_ne. now rewrite (proj2 (at_or_below_iff p q) Hq). }
  assert (forall q, RP q -> q <> p -> fs_get (rmtree f p) q = fs_get f q) as GR.
  { intros q Hq Nq. apply G. intros Hr. apply Nq. symmetry. now apply (RP_within p q). }
  split; [|apply N; exists []; now rewrite app_nil_r].
  repeat split; auto.
  - intros d Hd. rewrite G; [now apply I|]. intros [r R]. now apply (RP_within_D p d r).
  - intros q HRq Hn. destruct (below_dec p q) as [B|B].
    + rewrite (N q B) in Hn. congruence.
    + rewrite (G q B) in Hn |- *. now apply (inv_runs f I).
  - intros q n H. apply filter_In in H as [H _]. now apply (inv_names f I q n).
  - rewrite G; [exact (inv_parent f I)|]. intros [r R]. now apply (RP_within_parent p r).
  - intros _. apply G. intros [r R]. now apply (RP_within_L p r).
Qed.

Lemma step_rename f f' p q : inv f -> RP p -> RP q -> rename f p q = Ok f' ->
  inv f' /\ (fs_get f' L = fs_get f L) /\ fs_get f' p = None /\ fs_get f' q = fs_get f p
  /\ (forall x, RP x -> x <> p -> x <> q -> fs_get f' x = fs_get f x) /\ p <> q.
Proof.
  intros I Hp Hq H. pose proof (rename_ok _ _ _ _ H) as (A & B & C & E).
  assert (p <> q) as Npq by (intros ->; apply E; exists []; now rewrite app_nil_r).
  assert (~ exists r, p = q ++ r) as E'.
  { intros Hr. apply Npq. symmetry. now apply (RP_within q p). }
  pose proof (fun x => get_rename f p q f' x H (RP_ne _ Hp) E') as G.
  assert (forall x, ~ (exists r, x = q ++ r) -> ~ (exists r, x = p ++ r) -> fs_get f' x = fs_get f x) as G1.
  { intros x Nx Px. rewrite G. rewrite (proj2 (strip_prefix_none q x) Nx).
    now rewrite (proj2 (at_or_below_false p x) Px). }
  assert (fs_get f' p = None) as Gp.
  { rewrite G. rewrite (proj2 (strip_prefix_none q p) E').
    rewrite (proj2 (at_or_below_iff p p)); [reflexivity|]. exists []. now rewrite app_nil_r. }
  assert (fs_get f' q = fs_get f p) as Gq.
  { rewrite G. assert (strip_prefix q q = Some []) as -> by (apply strip_prefix_some; now rewrite app_nil_r).
    now rewrite app_nil_r. }
  assert (forall x, RP x -> x <> p -> x <> q -> fs_get f' x = fs_get f x) as GR.
  { intros x Hx N1 N2. apply G1; intros Hr; [apply N2|apply N1]; symmetry; [now apply (RP_within q x)|now apply (RP_within p x)]. }
  repeat split; auto.
  - intros d Hd. rewrite G1; [now apply I| |]; intros [r R]; [now apply (RP_within_D q d r)|now apply (RP_within_D p d r)].
  - intros x Hx Nx. destruct (path_eqb x p) eqn:X1; [apply path_eqb_eq in X1 as ->; congruence|].
    destruct (path_eqb x q) eqn:X2.
    + apply path_eqb_eq in X2 as ->. rewrite Gq in Nx |- *. now apply (inv_runs f I).
    + assert (x <> p) by (intros ->; rewrite path_eqb_refl in X1; discriminate).
      assert (x <> q) by (intros ->; rewrite path_eqb_refl in X2; discriminate).
      rewrite GR in Nx |- * by auto. now apply (inv_runs f I).
  - intros x n Hn. unfold rename in H. rewrite A, B in H. cbn in H.
    rewrite (proj2 (at_or_below_false p q) E), C in H. cbn in H. injection H as <-.
    apply in_map_iff in Hn as ([k m] & Hk & Hin). apply filter_In in Hin as [Hin _].
    cbn [fst snd] in Hk. apply (inv_names f I) in Hin.
    destruct (strip_prefix p k) as [r|] eqn:K.
    + injection Hk as <- _. apply strip_prefix_some in K as ->. apply Forall_app in Hin as [_ Hr].
      apply Forall_app. split; [now apply RP_proper|assumption].
    + injection Hk as <- _. assumption.
  - rewrite G1; [exact (inv_parent f I)| |]; intros [r R]; [now apply (RP_within_parent q r)|now apply (RP_within_parent p r)].
  - apply G1; intros [r R]; [now apply (RP_within_L q r)|now apply (RP_within_L p r)].
Qed.

(** ** Agreement of the log with the directories *)

(** [X]: keys that may be stale; [Y]: runs that may lack a record. *)
Definition J (X : str -> Prop) (Y : path -> Prop) (f : fs) : Prop :=
  inv f /\ exists d, logv f = Some d
  /\ (forall k, In k (keys d) -> common_key k \/ X k \/ exists p, RP p /\ k = path_str p /\ fs_get f p = Some Dir)
  /\ (forall p, RP p -> fs_get f p = Some Dir -> ~ Y p -> In (path_str p) (keys d)).
Definition nothing {A} (_ : A) : Prop := False.
Definition anything {A} (_ : A) : Prop := True.
Definition crashed (f : fs) : Prop :=
  inv f /\ (fs_get f L = Some (File (Text [])) \/ exists k0, J (eq k0) anything f).
Definition Err (Y : path -> Prop) (e : exn) (f : fs) : Prop :=
  (e = killed /\ crashed f) \/ (e = operation_error /\ J nothing Y f)
  \/ (e <> killed /\ e <> operation_error /\ J nothing anything f).

Lemma J_weaken (X X' : str -> Prop) (Y Y' : path -> Prop) f : (forall k, X k -> X' k) -> (forall p, Y p -> Y' p) -> J X Y f -> J X' Y' f.
Proof.
  intros HX HY (I & d & Ed & A & B). split; [assumption|]. exists d. repeat split; auto.
  intros k Hk. destruct (A k Hk) as [H|[H|H]]; auto.
Qed.
Lemma J_any X Y f : J X Y f -> J X anything f.
Proof. apply J_weaken; auto. intros; exact Logic.I. Qed.
Lemma J_inv X Y f : J X Y f -> inv f. Proof. now intros []. Qed.
Lemma J_same X Y f f' : inv f' -> fs_get f' L = fs_get f L -> (forall q, RP q -> fs_get f' q = fs_get f q) ->
  J X Y f -> J X Y f'.
Proof.
  intros I' HL Hq (I & d & Ed & A & B). split; [assumption|]. exists d. repeat split.
  - unfold logv in *. now rewrite HL.
  - intros k Hk. destruct (A k Hk) as [H|[H|(p & Hp & -> & H)]]; auto.
    right; right. exists p. repeat split; auto. now rewrite Hq.
  - intros p Hp Hd N. apply B; auto. now rewrite <- Hq.
Qed.
Lemma J_log X Y f : J X Y f -> exists d, logv f = Some d.
Proof. intros (I & d & Ed & _). eauto. Qed.
Lemma logv_not_dir f d : logv f = Some d -> fs_get f L <> Some Dir /\ fs_get f L <> None.
Proof. unfold logv. destruct (fs_get f L) as [[|c]|]; try discriminate. split; discriminate. Qed.
Lemma crashed_J f : J nothing anything f -> crashed f.
Proof.
  intro H. split; [now apply J_inv in H|]. right. exists []. revert H. apply J_weaken; auto. intros k [].
Qed.

Variables (root0 : path) (branches0 : list str) (base0 : str) (A0 : attrs).
Hypothesis config_proper : proper_name (a_config A0).
Hypothesis output_proper : proper_name (a_output A0).
Definition S0 (w : world) : Prop := settings w = (root0, branches0, base0, L, A0).
Lemma S0_settings : of_settings S0.
Proof. intros w w' E H. unfold S0 in *. congruence. Qed.

(** Reading the log and writing it back *)
Lemma t_log_update X Y f0 (upd : log_dict -> log_dict) : J X Y f0 ->
  triple S0 (eq f0) (d <<- log_read ;; log_dump (upd d))
    (fun _ f => exists d, logv f0 = Some d /\ logv f = Some (upd d) /\ inv f
                /\ (forall q, RP q -> fs_get f q = fs_get f0 q)
                /\ (forall q, q <> L -> fs_get f q = fs_get f0 q))
    (fun e f => e = killed /\ (f = f0 \/ (inv f /\ fs_get f L = Some (File (Text []))))).
Proof.
  intros (I & d & Ed & _). pose proof (logv_not_dir _ _ Ed) as [ND NN].
  eapply t_bind with (Q := fun d' f => f = f0 /\ d' = d).
  - intros w Hs Hw. unfold log_read, mbind, get, lift. cbn.
    assert (w_log w = L) as WL by (unfold S0, settings in Hs; congruence). rewrite WL.
    unfold read. unfold logv in Ed. rewrite <- Hw. destruct (fs_get f0 L) as [[|c]|]; try discriminate.
    destruct c as [|[| | |d']]; try discriminate. injection Ed as ->. cbn. repeat split; auto.
  - intros d'. apply t_pre. intros f1 [-> ->].
    eapply t_bind with (Q := fun p f => f = f0 /\ p = L).
    { apply t_get. intros w Hs <-. split; auto. unfold S0, settings in Hs; congruence. }
    intros p. apply t_pre. intros f1 [-> ->].
    destruct (step_log f0 (Text []) I ND) as (I1 & G1 & R1).
    eapply t_bind with (Q := fun _ f => f = put f0 L (File (Text []))).
    { apply t_disk; [apply S0_settings| |].
      - intros f <-. auto.
      - intros f <-. destruct (write f0 L (Text [])) as [f'|e] eqn:W.
        + now apply write_ok in W.
        + exfalso. unfold write in W. rewrite (proj2 (is_dir_get f0 (parent L)) (inv_parent f0 I)) in W.
          destruct (fs_get f0 L) as [[|]|]; congruence. }
    intros _. apply t_pre. intros f1 ->.
    assert (fs_get (put f0 L (File (Text []))) L <> Some Dir) as ND1 by (rewrite G1; discriminate).
    destruct (step_log _ (Json (JObj (upd d))) I1 ND1) as (I2 & G2 & R2).
    apply t_disk; [apply S0_settings| |].
    + intros f <-. split; auto.
    + intros f <-. destruct (write _ L (Json (JObj (upd d)))) as [f'|e] eqn:W.
      * apply write_ok in W as (-> & _). exists d. split; [assumption|].
        split; [unfold logv; now rewrite G2|]. split; [exact I2|]. split.
        -- intros q Hq. rewrite R2 by auto. now apply R1.
        -- intros q Hq. rewrite !get_put_other by auto. reflexivity.
      * exfalso. unfold write in W. rewrite (proj2 (is_dir_get _ (parent L)) (inv_parent _ I1)) in W.
        rewrite G1 in W. discriminate.
Qed.

(** The body of one run *)
Lemma put_in_run X Y f p y c : RP p -> proper_name y -> J X Y f -> fs_get f p = Some Dir ->
  J X Y (put f (p ++ [y]) (File c)) /\ fs_get (put f (p ++ [y]) (File c)) p = Some Dir.
Proof.
  intros Hp Hy HJ Hd. destruct (step_put f p y c (J_inv _ _ _ HJ) Hp Hy) as ((I & HL & HR) & G).
  split; [|congruence]. destruct (J_log _ _ _ HJ) as [d Ed].
  destruct (logv_not_dir _ _ Ed) as [_ NN].
  apply (J_same X Y f); [assumption|now apply HL| |assumption]. intros q Hq. destruct (path_eqb q p) eqn:E.
  - apply path_eqb_eq in E as ->. assumption.
  - apply HR; auto. intros ->. rewrite path_eqb_refl in E. discriminate.
Qed.
Lemma files_in_run X Y p files : RP p -> (forall x t, In (x, t) files -> proper_name x) ->
  forall f, J X Y f -> fs_get f p = Some Dir ->
  J X Y (write_files f p files) /\ fs_get (write_files f p files) p = Some Dir.
Proof.
  intros Hp. induction files as [|[x t] files IH]; intros Hn f HJ Hd; cbn; [auto|].
  destruct (put_in_run X Y f p x (Text t) Hp (Hn x t (or_introl eq_refl)) HJ Hd) as [HJ' Hd'].
  apply IH; auto. intros y u Hu. apply (Hn y u). now right.
Qed.

Definition with_run (Y : path -> Prop) (p : path) : path -> Prop := fun q => Y q \/ q = p.

Lemma Err_other Y e f X : e <> killed /\ e <> operation_error -> J nothing X f -> Err Y e f.
Proof. intros [N1 N2] H. right; right. split; [assumption|]. split; [assumption|]. exact (J_any _ _ _ H). Qed.
Lemma Err_killed Y f X : J nothing X f -> Err Y killed f.
Proof. intros H. left. split; auto. apply crashed_J. exact (J_any _ _ _ H). Qed.

Lemma t_write_in_run Y Z p y c : RP p -> proper_name y ->
  triple S0 (fun f => J nothing Z f /\ fs_get f p = Some Dir) (disk (fun f => write f (p ++ [y]) c))
    (fun _ f => J nothing Z f /\ fs_get f p = Some Dir) (Err Y).
Proof.
  intros Hp Hy. apply t_disk; [apply S0_settings| |].
  - intros f [H _]. exact (Err_killed _ _ _ H).
  - intros f [H Hd]. destruct (write f (p ++ [y]) c) as [f'|e] eqn:W.
    + apply write_ok in W as (-> & _). now apply put_in_run.
    + apply write_err in W. eapply Err_other; eauto.
Qed.

Lemma t_locate Y Z p o x b :
  triple S0 (fun f => J nothing Z f /\ fs_get f p = Some Dir) (locate o x b)
    (fun _ f => J nothing Z f /\ fs_get f p = Some Dir) (Err Y).
Proof.
  unfold locate. eapply t_bind with (Q := fun _ f => J nothing Z f /\ fs_get f p = Some Dir).
  { apply t_get. auto. }
  intros f0. apply t_if; intros _.
  - apply t_ret. auto.
  - destruct (which o x).
    + apply t_ret. auto.
    + apply t_raise. intros f [H _]. eapply Err_other; [split; discriminate|exact H].
Qed.

Lemma t_create_run Y o config nproc p : RP p ->
  (forall x t, In (x, t) (output_files o p) -> proper_name x) ->
  (returncode o p = 0%Z \/ Y p) ->
  triple S0 (fun f => J nothing (with_run Y p) f /\ fs_get f p = Some Dir) (create_run o config nproc p)
    (fun _ f => J nothing Y f) (Err Y).
Proof.
  intros Hp Hf Hrc. unfold create_run.
  set (K := fun f => J nothing (with_run Y p) f /\ fs_get f p = Some Dir).
  eapply t_bind with (Q := fun _ => K); [apply t_get; auto|]. intros root.
  eapply t_bind with (Q := fun _ => K); [apply t_get; auto|]. intros f0.
  eapply t_bind with (Q := fun a f => K f /\ a = A0).
  { apply t_get. intros w Hs Hw. split; auto. unfold S0, settings in Hs; congruence. }
  intros a. apply t_pre. intros f1 [HK ->].
  apply t_weaken with (P' := K) (Q' := fun _ f => J nothing Y f) (E' := Err Y); auto; [|intros f <-; auto].
  eapply t_bind with (Q := fun _ => K).
  { apply t_if; intros _; [apply t_ret; auto|]. apply t_if; intros _; [apply t_ret; auto|].
    apply t_raise. intros f [H _]. eapply Err_other; [split; discriminate|exact H]. }
  intros inputs. eapply t_bind with (Q := fun _ => K).
  { apply t_disk; [apply S0_settings| |].
    - intros f [H _]. exact (Err_killed _ _ _ H).
    - intros f [H Hd]. unfold copy_file. destruct (read f inputs) as [c|e] eqn:R; cbn.
      + destruct (write f (p ++ [a_config A0]) c) as [f'|e] eqn:W.
        * apply write_ok in W as (-> & _). now apply put_in_run.
        * apply write_err in W. eapply Err_other; eauto.
      + apply read_err in R. eapply Err_other; eauto. }
  intros _. eapply t_bind with (Q := fun _ => K); [apply t_locate|]. intros mpirun.
  eapply t_bind with (Q := fun _ => K); [apply t_locate|]. intros eprem.
  eapply t_bind with (Q := fun _ => K); [now apply t_write_in_run|]. intros _.
  eapply t_bind with (Q := fun _ => K).
  { apply t_disk; [apply S0_settings| |].
    - intros f [H _]. exact (Err_killed _ _ _ H).
    - intros f [H Hd]. now apply files_in_run. }
  intros _. apply t_if; intro Z.
  - apply t_pre. intros f2 [HJ Hd]. unfold log_create.
    eapply t_weaken; [apply (t_log_update _ _ f2 _ HJ)|auto| |].
    + intros _ f (d & Ed & Ed' & I' & HR & _). destruct HJ as (I & d0 & Ed0 & A & B).
      assert (d0 = d) as -> by congruence.
      split; [assumption|]. eexists. split; [exact Ed'|]. split.
      * intros k Hk. apply keys_put in Hk as [->|Hk].
        -- right; right. exists p. repeat split; auto. now rewrite HR.
        -- destruct (A k Hk) as [?|[[]|(q & Hq & -> & Dq)]]; auto.
           right; right. exists q. repeat split; auto. now rewrite HR.
      * intros q Hq Dq NY. apply keys_put. destruct (path_eqb q p) eqn:E.
        -- apply path_eqb_eq in E as ->. now left.
        -- right. apply B; auto; [now rewrite <- HR|]. intros [C|C]; [auto|].
           subst. rewrite path_eqb_refl in E. discriminate.
    + intros e f (-> & [->|[If Tf]]).
      * exact (Err_killed _ _ _ HJ).
      * left. split; auto. split; auto.
  - apply t_ret. intros f [(I & d & Ed & A & B) Hd].
    apply Z.eqb_neq in Z. destruct Hrc as [Hrc|Hrc]; [contradiction|].
    split; [assumption|]. exists d. repeat split; auto.
    intros q Hq Dq NY. apply B; auto. intros [C|C]; [auto|]. subst. contradiction.
Qed.

Lemma t_operate {A B} Y (op : A -> M (option B)) force (body : B -> M unit) ps :
  (forall p, In p ps -> triple S0 (J nothing Y)
     (r <<- op p ;; match r with Some b => _ <<- body b ;; ret true | None => ret false end)
     (fun _ => J nothing Y) (Err Y)) ->
  triple S0 (J nothing Y) (operate op force body ps) (fun _ => J nothing Y) (Err Y).
Proof.
  induction ps as [|p ps IH]; intros H; cbn [operate]; [apply t_ret; auto|].
  assert (triple S0 (J nothing Y) (operate op force body ps) (fun _ => J nothing Y) (Err Y)) as IH'.
  { apply IH. intros q Hq. apply H. now right. }
  specialize (H p (or_introl eq_refl)).
  intros w Hs Hw. specialize (H w Hs Hw). unfold mbind in *.
  destruct (op p w) as [w1 [[b|]|e]]; cbn [fst snd] in *.
  - destruct (body b w1) as [w2 [u|e]]; cbn [fst snd] in *; [|exact H].
    destruct H as (E1 & S1 & Q1). specialize (IH' w2 S1 Q1).
    destruct (operate op force body ps w2) as [w3 r]. cbn [fst snd] in *.
    destruct IH' as (E2 & S2 & R2). repeat split; auto. congruence.
  - destruct H as (E1 & S1 & Q1). destruct force.
    + specialize (IH' w1 S1 Q1). destruct (operate op true body ps w1) as [w3 r]. cbn [fst snd] in *.
      destruct IH' as (E2 & S2 & R2). repeat split; auto. congruence.
    + cbn. repeat split; auto. right; left. auto.
  - exact H.
Qed.

Lemma t_run_step Y o config nproc p : RP p ->
  (forall x t, In (x, t) (output_files o p) -> proper_name x) -> (returncode o p = 0%Z \/ Y p) ->
  triple S0 (J nothing Y)
     (r <<- op_mkdir p ;; match r with Some b => _ <<- create_run o config nproc b ;; ret true | None => ret false end)
     (fun _ => J nothing Y) (Err Y).
Proof.
  intros Hp Hf Hrc.
  eapply t_bind with (Q := fun r f => match r with
     | Some q => q = p /\ J nothing (with_run Y p) f /\ fs_get f p = Some Dir
     | None => J nothing Y f end).
  - unfold op_mkdir. eapply t_bind with (Q := fun f0 f => f = f0 /\ J nothing Y f); [apply t_get; auto|].
    intros f0. apply t_pre. intros f1 [-> HJ]. apply t_if; intro X.
    + apply t_ret. intros f <-. assumption.
    + apply exists_false in X.
      eapply t_bind with (Q := fun _ f => J nothing (with_run Y p) f /\ fs_get f p = Some Dir).
      * apply t_disk; [apply S0_settings| |].
        -- intros f <-. exact (Err_killed _ _ _ HJ).
        -- intros f <-. destruct (mkdir f0 p false) as [f'|e] eqn:Mk.
           ++ destruct (step_mkdir f0 f' p (J_inv _ _ _ HJ) Hp Mk) as ((I & HL & HR) & G).
              split; [|assumption]. destruct HJ as (I0 & d & Ed & A & B).
              destruct (logv_not_dir _ _ Ed) as [_ NN]. specialize (HL NN).
              split; [assumption|]. exists d. repeat split.
              ** unfold logv in *. now rewrite HL.
              ** intros k Hk. destruct (A k Hk) as [?|[[]|(q & Hq & -> & Dq)]]; auto.
                 right; right. exists q. repeat split; auto. rewrite HR; auto. intros ->. congruence.
              ** intros q Hq Dq N. assert (q <> p) by (intros ->; apply N; now right).
                 apply B; auto; [now rewrite <- HR|]. intro C. apply N. now left.
           ++ apply mkdir_from_err in Mk. eapply Err_other; eauto.
      * intros _. apply t_ret. auto.
  - intros [q|].
    + apply t_pre. intros f0 (-> & HJ & Hd).
      eapply t_bind with (Q := fun _ => J nothing Y).
      * eapply t_weaken; [apply (t_create_run Y o config nproc p Hp Hf Hrc)| | |]; auto.
        intros f <-. auto.
      * intros _. apply t_ret. auto.
    + apply t_ret. auto.
Qed.

Lemma t_mv_step Y p q : RP p -> RP q ->
  triple S0 (J nothing Y)
     (r <<- op_mv (p, q) ;;
      match r with Some pq => _ <<- log_mv (path_str (fst pq)) (path_str (snd pq)) ;; ret true | None => ret false end)
     (fun _ => J nothing Y) (Err Y).
Proof.
  intros Hp Hq.
  eapply t_bind with (Q := fun r f => match r with
     | Some pq => pq = (p, q) /\ J (eq (path_str p)) (with_run Y q) f /\ fs_get f q = Some Dir /\ fs_get f p = None
     | None => J nothing Y f end).
  - unfold op_mv. eapply t_bind with (Q := fun f0 f => f = f0 /\ J nothing Y f); [apply t_get; auto|].
    intros f0. apply t_pre. intros f1 [-> HJ].
    apply t_if; intro X1; [apply t_ret; intros f <-; assumption|].
    apply t_if; intro X2; [apply t_ret; intros f <-; assumption|].
    apply t_if; intro X3; [apply t_ret; intros f <-; assumption|].
    apply negb_false_iff in X2. apply is_dir_get in X2. apply exists_false in X3.
    eapply t_bind with (Q := fun _ f => J (eq (path_str p)) (with_run Y q) f /\ fs_get f q = Some Dir /\ fs_get f p = None).
    + apply t_disk; [apply S0_settings| |].
      * intros f <-. exact (Err_killed _ _ _ HJ).
      * intros f <-. destruct (rename f0 p q) as [f'|e] eqn:Rn.
        -- destruct (step_rename f0 f' p q (J_inv _ _ _ HJ) Hp Hq Rn) as (I & HL & Gp & Gq & HR & Npq).
           split; [|split; congruence]. destruct HJ as (I0 & d & Ed & A & B).
           split; [assumption|]. exists d. repeat split.
           ++ unfold logv in *. now rewrite HL.
           ++ intros k Hk. destruct (A k Hk) as [?|[[]|(x & Hx & -> & Dx)]]; auto.
              destruct (path_eqb x p) eqn:E.
              ** apply path_eqb_eq in E as ->. now right; left.
              ** right; right. exists x. repeat split; auto. rewrite HR; auto.
                 --- intros ->. rewrite path_eqb_refl in E. discriminate.
                 --- intros ->. congruence.
           ++ intros x Hx Dx N. assert (x <> q) by (intros ->; apply N; now right).
              assert (x <> p) by (intros ->; congruence).
              apply B; auto; [now rewrite <- HR|]. intro C. apply N. now left.
        -- apply rename_err in Rn. eapply Err_other; eauto.
    + intros _. apply t_ret. auto.
  - intros [pq|]; [|apply t_ret; auto].
    apply t_pre. intros f0 (-> & HJ & Hdq & Hdp). cbn [fst snd].
    eapply t_bind with (Q := fun _ => J nothing Y); [|intros _; apply t_ret; auto].
    destruct HJ as (I & d & Ed & A & B).
    assert (J (eq (path_str p)) (with_run Y q) f0) as HJ by (split; [assumption|]; exists d; auto).
    (* does the log know the run? *)
    intros w Hs Hw. pose proof Hw as Hw'.
    assert (log_read w = (w, Ok d)) as LR.
    { unfold log_read, mbind, get, lift. cbn.
      assert (w_log w = L) as WL by (unfold S0, settings in Hs; congruence). rewrite WL.
      unfold read. unfold logv in Ed. rewrite <- Hw.
      destruct (fs_get f0 L) as [[|c]|]; try discriminate.
      destruct c as [|[| | |d']]; try discriminate. injection Ed as ->. reflexivity. }
    assert (log_mv (path_str p) (path_str q) w = match lookup str_eqb d (path_str p) with
      | Raise _ => (w, Raise log_key_error)
      | Ok v => log_dump (dict_put str_eqb (without_key d (path_str p)) (path_str q) v) w end) as ->.
    { unfold log_mv, mbind. rewrite LR. destruct lookup; reflexivity. }
    destruct (lookup str_eqb d (path_str p)) as [v|e] eqn:Lk.
    + pose proof (t_log_update _ _ f0 (fun d => dict_put str_eqb (without_key d (path_str p)) (path_str q) v) HJ w Hs Hw) as T.
      unfold mbind in T. rewrite LR in T.
      destruct T as (T1 & T2 & T3). repeat split; auto.
      destruct (snd (log_dump _ w)) as [u|e].
      * destruct T3 as (d' & Ed' & Ed2 & I' & HR & _). assert (d' = d) as -> by congruence.
        split; [assumption|]. eexists. split; [exact Ed2|]. split.
        -- intros k Hk. apply keys_put in Hk as [->|Hk].
           ++ right; right. exists q. repeat split; auto. now rewrite HR.
           ++ apply keys_without in Hk as [Nk Hk]. destruct (A k Hk) as [?|[?|(x & Hx & -> & Dx)]]; auto; [congruence|].
              right; right. exists x. repeat split; auto. now rewrite HR.
        -- intros x Hx Dx NY. apply keys_put. destruct (path_eqb x q) eqn:E.
           ++ apply path_eqb_eq in E as ->. now left.
           ++ right. apply keys_without. rewrite HR in Dx by auto. split.
              ** intro C. apply str_inj in C; auto using RP_proper. subst. congruence.
              ** apply B; auto. intros [C|C]; [auto|]. subst. rewrite path_eqb_refl in E. discriminate.
      * destruct T3 as (-> & [Tf|[If Tf]]).
        -- left. split; auto. rewrite Tf. split; auto. right. exists (path_str p). exact (J_any _ _ _ HJ).
        -- left. split; auto. split; auto.
    + assert (~ In (path_str p) (keys d)) as NK.
      { rewrite <- find_keys. rewrite lookup_find in Lk. destruct find; [discriminate|]. congruence. }
      cbn. repeat split; auto.
      right; right. split; [discriminate|]. split; [discriminate|].
      rewrite <- Hw. split; [assumption|]. exists d. repeat split; auto.
      * intros k Hk. destruct (A k Hk) as [?|[?|?]]; auto. congruence.
      * intros x _ _ C. exfalso. apply C. exact Logic.I.
Qed.

Lemma t_rm_step Y p : RP p ->
  triple S0 (J nothing Y)
     (r <<- op_rm p ;; match r with Some b => _ <<- log_rm (path_str b) ;; ret true | None => ret false end)
     (fun _ => J nothing Y) (Err Y).
Proof.
  intros Hp.
  eapply t_bind with (Q := fun r f => match r with
     | Some q => q = p /\ J (eq (path_str p)) Y f /\ fs_get f p = None
     | None => J nothing Y f end).
  - unfold op_rm. eapply t_bind with (Q := fun f0 f => f = f0 /\ J nothing Y f); [apply t_get; auto|].
    intros f0. apply t_pre. intros f1 [-> HJ].
    apply t_if; intro X1; [apply t_ret; intros f <-; assumption|].
    apply t_if; intro X2; [apply t_ret; intros f <-; assumption|].
    eapply t_bind with (Q := fun _ f => J (eq (path_str p)) Y f /\ fs_get f p = None).
    + apply t_disk; [apply S0_settings| |].
      * intros f <-. exact (Err_killed _ _ _ HJ).
      * intros f <-. destruct (step_rmtree f0 p (J_inv _ _ _ HJ) Hp) as ((I & HL & HR) & G).
        split; [|assumption]. destruct HJ as (I0 & d & Ed & A & B).
        destruct (logv_not_dir _ _ Ed) as [_ NN]. specialize (HL NN).
        split; [assumption|]. exists d. repeat split.
        -- unfold logv in *. now rewrite HL.
        -- intros k Hk. destruct (A k Hk) as [?|[[]|(q & Hq & -> & Dq)]]; auto.
           destruct (path_eqb q p) eqn:E.
           ++ apply path_eqb_eq in E as ->. now right; left.
           ++ right; right. exists q. repeat split; auto. rewrite HR; auto.
              intros ->. rewrite path_eqb_refl in E. discriminate.
        -- intros q Hq Dq N. assert (q <> p) by (intros ->; congruence).
           apply B; auto. now rewrite <- HR.
    + intros _. apply t_ret. auto.
  - intros [q|]; [|apply t_ret; auto].
    apply t_pre. intros f0 (-> & HJ & Hdp).
    eapply t_bind with (Q := fun _ => J nothing Y); [|intros _; apply t_ret; auto].
    unfold log_rm. eapply t_weaken; [apply (t_log_update _ _ f0 _ HJ)|auto| |].
    + intros _ f (d & Ed & Ed' & I' & HR & _). destruct HJ as (I & d0 & Ed0 & A & B).
      assert (d0 = d) as -> by congruence.
      split; [assumption|]. eexists. split; [exact Ed'|]. split.
      * intros k Hk. apply keys_without in Hk as [Nk Hk].
        destruct (A k Hk) as [?|[?|(q & Hq & -> & Dq)]]; auto; [congruence|].
        right; right. exists q. repeat split; auto. now rewrite HR.
      * intros q Hq Dq NY. rewrite HR in Dq by auto. apply keys_without. split; [|now apply B].
        intro C. apply str_inj in C; auto using RP_proper. subst. congruence.
    + intros e f (-> & [->|[If Tf]]).
      * left. split; auto. split; [now apply J_inv in HJ|]. right. exists (path_str p). exact (J_any _ _ _ HJ).
      * left. split; auto. split; auto.
Qed.

End Invariants.
