(** New projects, and projects opened again. *)
From Verif Require Import PyBase PyLemmas ContainerModel ContainerSpec ContainerProofs ContainerProofs2
  FsModel FsProofs ProjectModel ProjectSpec ProjectProofs ProjectProofs2.
Open Scope nat_scope.

(** ** Components *)
Lemma split_slash_word x r : ~ In "/"%char x -> split_slash (x ++ "/"%char :: r) = x :: split_slash r.
Proof.
  induction x as [|c x IH]; intros H; cbn [app split_slash].
  - reflexivity.
  - destruct (Ascii.eqb_spec c "/"%char) as [->|N]; [exfalso; apply H; now left|].
    rewrite IH; [reflexivity|]. intro. apply H. now right.
Qed.
Lemma split_slash_last x : ~ In "/"%char x -> split_slash x = [x].
Proof.
  induction x as [|c x IH]; intros H; cbn [split_slash]; [reflexivity|].
  destruct (Ascii.eqb_spec c "/"%char) as [->|N]; [exfalso; apply H; now left|].
  rewrite IH; [reflexivity|]. intro. apply H. now right.
Qed.
Lemma split_slash_clean x : Forall (fun w => ~ In "/"%char w) (split_slash x).
Proof.
  induction x as [|c x IH]; cbn [split_slash]; [repeat constructor; intros []|].
  destruct (Ascii.eqb_spec c "/"%char) as [->|N]; [constructor; [intros []|assumption]|].
  destruct (split_slash x) as [|w ws]; [repeat constructor; intros [|[]]; auto|].
  inversion IH; subst. constructor; [intros [|]; auto|assumption].
Qed.
Lemma components_plain x : plain_path (components x).
Proof.
  unfold plain_path, components. apply Forall_forall. intros w Hw. apply filter_In in Hw as [Hw F].
  apply negb_true_iff, orb_false_iff in F as [F1 F2].
  pose proof (split_slash_clean x) as C. rewrite Forall_forall in C.
  split; [split|].
  - intros ->. discriminate.
  - now apply C.
  - intros ->. now rewrite str_eqb_refl in F2.
Qed.
Definition keep (w : str) : bool := negb (str_eqb w [] || str_eqb w (s ".")).
Lemma keep_plain w : plain_name w -> keep w = true.
Proof.
  intros [[A _] B]. unfold keep. apply negb_true_iff, orb_false_iff. split; now apply str_eqb_neq.
Qed.
Lemma components_path p : plain_path p -> components (path_str p) = p.
Proof.
  assert (forall p, plain_path p -> p <> [] -> filter keep (split_slash (path_str_rel p)) = p) as H.
  { induction p0 as [|x p0 IH]; intros Hp N; [contradiction|]. inversion Hp; subst.
    cbn [path_str_rel split_slash]. change (Ascii.eqb "/" "/") with true. cbn iota.
    change (filter keep ([] :: ?l)) with (filter keep l).
    destruct p0 as [|y p0].
    - cbn [path_str_rel]. rewrite app_nil_r, split_slash_last by apply H1. cbn [filter]. now rewrite keep_plain.
    - cbn [path_str_rel]. rewrite split_slash_word by apply H1. cbn [filter]. rewrite keep_plain by assumption.
      f_equal. apply IH; [assumption|discriminate]. }
  intros Hp. destruct p as [|x p]; [reflexivity|]. apply H; [assumption|discriminate].
Qed.
Lemma localize_plain x : localize x = [] \/ plain_name (localize x).
Proof.
  unfold localize. pose proof (components_plain x) as C. unfold plain_path in C.
  destruct (components x) as [|a l] using rev_ind; [now left|]. right. rewrite last_last.
  apply Forall_app in C as [_ C]. now inversion C.
Qed.
Lemma localize_path p x : plain_path p -> plain_name x -> localize (path_str (p ++ [x])) = x.
Proof.
  intros Hp Hx. unfold localize. rewrite components_path; [apply last_last|].
  apply Forall_app. split; [assumption|]. now constructor.
Qed.
Lemma components_name x : plain_name x -> components x = [x].
Proof.
  intros H. unfold components. rewrite split_slash_last by apply H. fold keep. cbn [filter].
  change (negb (str_eqb x [] || str_eqb x (s "."))) with (keep x). now rewrite keep_plain.
Qed.
Lemma localize_local x : x = [] \/ plain_name x -> localize (local_str x) = x.
Proof.
  intros [->|H]; [reflexivity|]. destruct x as [|c x]; [now destruct H as [[]]|].
  cbn [local_str]. unfold localize. now rewrite components_name.
Qed.
Lemma or_str_full x d : x <> [] -> or_str (Some x) d = x.
Proof. destruct x; [contradiction|reflexivity]. Qed.
Lemma or_str_ne x d : d <> [] -> or_str x d <> [].
Proof. destruct x as [[|]|]; cbn; congruence. Qed.
Lemma local_str_ne x : local_str x <> []. Proof. destruct x; discriminate. Qed.

(** ** The suffix of the log *)
Lemma rfind_json_tail : rfind "."%char (s ".json") = Some O. Proof. reflexivity. Qed.
Lemma rfind_app c x y i : rfind c y = Some i -> rfind c (x ++ y) = Some (length x + i).
Proof. induction x as [|a x IH]; intros H; cbn; [assumption|]. now rewrite IH. Qed.
Lemma stem_ne x : x <> [] -> stem x <> [].
Proof.
  intros H. unfold stem. destruct (rfind "."%char x) as [i|]; [|assumption].
  destruct (Nat.ltb 0 i) eqn:E; cbn [andb]; [|assumption]. destruct (Nat.ltb i (length x - 1)); [|assumption].
  apply Nat.ltb_lt in E. destruct i; [lia|]. destruct x; [contradiction|discriminate].
Qed.
Lemma stem_json x : x <> [] -> stem (x ++ s ".json") = x.
Proof.
  intros H. unfold stem. rewrite (rfind_app _ x (s ".json") 0) by reflexivity.
  rewrite app_length, Nat.add_0_r. change (length (s ".json")) with 5.
  assert (0 < length x) as Pos by (destruct x; [contradiction|cbn; lia]).
  rewrite (proj2 (Nat.ltb_lt 0 (length x)) Pos).
  assert (length x < length x + 5 - 1) as Lt by lia. rewrite (proj2 (Nat.ltb_lt _ _) Lt).
  cbn [andb]. rewrite firstn_app, Nat.sub_diag, firstn_all. cbn. now rewrite app_nil_r.
Qed.
Lemma in_firstn {T} (c : T) n l : In c (firstn n l) -> In c l.
Proof. revert l. induction n; intros [|a l] H; cbn in *; auto; [destruct H|]. destruct H; auto. Qed.
Lemma stem_in c x : In c (stem x) -> In c x.
Proof.
  unfold stem. destruct (rfind "."%char x); [|auto]. destruct (_ && _); [|auto]. apply in_firstn.
Qed.
Lemma json_plain x y : plain_name x -> with_suffix_json x = Ok y -> plain_name y /\ with_suffix_json y = Ok y
  /\ exists z, z <> [] /\ y = z ++ s ".json".
Proof.
  intros [[N H] D] E. destruct x as [|c x]; [contradiction|]. cbn [with_suffix_json] in E.
  pose proof (stem_ne (c :: x) N) as Ns. set (z := stem (c :: x)) in *.
  assert (forall b, In b z -> In b (c :: x)) as Sub by (intro; apply stem_in). clearbody z. injection E as <-.
  split; [split; [split|]|split].
  - destruct z; discriminate.
  - intros C. apply in_app_or in C as [C|C]; [auto|]. cbn in C. repeat (destruct C as [C|C]; [discriminate|]). destruct C.
  - intros C. apply (f_equal (@length _)) in C. rewrite app_length in C. cbn in C. lia.
  - assert (forall y, y <> [] -> with_suffix_json y = Ok (stem y ++ s ".json")) as W by (intros [|]; [contradiction|reflexivity]).
    rewrite W by (destruct z; discriminate). now rewrite stem_json.
  - now exists z.
Qed.

(** ** Attributes are read back as they were written *)
Lemma attrs_of_inv root o a : attrs_of root o = Ok a ->
  a_root a = root
  /\ a_branches a = match o_branches o with Some l => l | None => [] end
  /\ a_config a = or_str (o_config o) (s "eprem.cfg")
  /\ a_inputs a = join_local root (localize (or_str (o_inputs o) (s "inputs")))
  /\ a_output a = localize (or_str (o_output o) (s "eprem.log"))
  /\ a_rundir a = localize (or_str (o_rundir o) (s "runs"))
  /\ plain_name (a_logname a) /\ with_suffix_json (a_logname a) = Ok (a_logname a)
  /\ exists z, z <> [] /\ a_logname a = z ++ s ".json".
Proof.
  unfold attrs_of. intros H. destruct (with_suffix_json _) as [l|e] eqn:E; [|discriminate].
  cbn in H. injection H as <-. cbn [a_root a_branches a_config a_inputs a_output a_rundir a_logname].
  do 6 (split; [reflexivity|]).
  destruct (localize_plain (or_str (o_logname o) (s "runs"))) as [C|P]; [rewrite C in E; discriminate|].
  now apply (json_plain _ _ P E).
Qed.

Lemma attrs_again root o a : plain_path root -> attrs_of root o = Ok a -> a_inputs a <> root ->
  exists o', options_of (without_key (match serial a with JObj d => d | _ => [] end) (s "root")) = Ok o'
  /\ attrs_of (components (path_str root)) o' = Ok a.
Proof.
  intros Hr E Hi. destruct (attrs_of_inv _ _ _ E) as (A1 & A2 & A3 & A4 & A5 & A6 & A7 & A8 & _).
  destruct (localize_plain (or_str (o_inputs o) (s "inputs"))) as [C|Pi].
  { exfalso. apply Hi. rewrite A4, C. reflexivity. }
  assert (a_inputs a = root ++ [localize (or_str (o_inputs o) (s "inputs"))]) as A4'.
  { rewrite A4. unfold join_local. destruct (localize _); [now destruct Pi as [[]]|reflexivity]. }
  eexists. split.
  - unfold serial. cbn [without_key filter fst].
    repeat match goal with |- context [negb (str_eqb (s ?x) (s ?y))] =>
      let v := eval vm_compute in (negb (str_eqb (s x) (s y))) in change (negb (str_eqb (s x) (s y))) with v end.
    cbn iota. unfold options_of, get_strs, get_str. cbn [lookup].
    repeat match goal with |- context [str_eqb (s ?x) (s ?y)] =>
      let v := eval vm_compute in (str_eqb (s x) (s y)) in change (str_eqb (s x) (s y)) with v end.
    cbn iota.
    assert (forall l, mapM (fun j => match j with JStr x => Ok x | _ => Raise TypeError end) (map JStr l) = Ok l) as ->.
    { induction l as [|x l IH]; cbn; [reflexivity|]. now rewrite IH. }
    cbn [bind]. reflexivity.
  - unfold attrs_of. cbn [o_branches o_config o_inputs o_output o_rundir o_logname].
    rewrite components_path by assumption.
    assert (a_config a <> []) as Nc by (rewrite A3; apply or_str_ne; discriminate).
    rewrite (or_str_full (a_config a)) by assumption.
    rewrite !or_str_full by (apply local_str_ne || (rewrite A4'; destruct (path_str_head (root ++ [localize (or_str (o_inputs o) (s "inputs"))])) as [r ->]; discriminate)).
    rewrite !localize_local; auto.
    2: { rewrite A6. apply localize_plain. }
    2: { rewrite A5. apply localize_plain. }
    rewrite A8. cbn [bind]. rewrite A4', localize_path by assumption.
    unfold join_local. destruct (localize (or_str (o_inputs o) (s "inputs"))) as [|c x] eqn:El; [now destruct Pi as [[]]|].
    try rewrite El in A4'. destruct a; cbn in *. congruence.
Qed.

(** ** Directories *)
Lemma mkdir_from_dirs todo : forall f here ok f', mkdir_from f here todo ok = Ok f' ->
  forall t1 t2, todo = t1 ++ t2 -> t1 <> [] -> fs_get f' (here ++ t1) = Some Dir.
Proof.
  induction todo as [|x todo IH]; intros f here ok f' H t1 t2 E N.
  - destruct t1; [contradiction|discriminate].
  - destruct t1 as [|y t1]; [contradiction|]. cbn in E. injection E as <- E.
    destruct (mkdir_from_spec _ _ _ _ _ H) as (_ & _ & C & _).
    destruct todo as [|z todo].
    + destruct t1; [|discriminate]. now apply C.
    + cbn [mkdir_from] in H.
      assert (exists f1, mkdir_from f1 (here ++ [x]) (z :: todo) ok = Ok f' /\ fs_get f1 (here ++ [x]) = Some Dir) as (f1 & H1 & G).
      { destruct (fs_get f (here ++ [x])) as [[|]|] eqn:Ef; [exists f; auto|discriminate|].
        exists (put f (here ++ [x]) Dir). split; [assumption|]. apply get_put_same. apply snoc_nonempty. }
      change (here ++ x :: t1) with (here ++ [x] ++ t1). rewrite app_assoc.
      destruct t1 as [|y t1].
      * rewrite app_nil_r. destruct (mkdir_from_spec _ _ _ _ _ H1) as (A & _). rewrite A; [assumption|congruence].
      * apply (IH _ _ _ _ H1 _ t2); [assumption|discriminate].
Qed.
Lemma mkdir_dirs f p ok f' : mkdir f p ok = Ok f' -> forall q, within q p -> fs_get f' q = Some Dir.
Proof.
  intros H q [r R]. destruct q as [|x q]; [reflexivity|]. apply (mkdir_from_dirs p f [] ok f' H (x :: q) r); [assumption|discriminate].
Qed.
Lemma mkdir_from_again todo : forall f here, (forall t1 t2, todo = t1 ++ t2 -> t1 <> [] -> fs_get f (here ++ t1) = Some Dir) ->
  mkdir_from f here todo true = Ok f.
Proof.
  induction todo as [|x todo IH]; intros f here H; [reflexivity|].
  assert (fs_get f (here ++ [x]) = Some Dir) as G by (apply (H [x] todo); [reflexivity|discriminate]).
  destruct todo as [|y todo]; cbn [mkdir_from]; rewrite G; [reflexivity|]. apply IH.
  intros t1 t2 E N. specialize (H (x :: t1) t2). rewrite <- app_assoc. apply H; [cbn; congruence|discriminate].
Qed.
Lemma mkdir_again f p : (forall q, within q p -> fs_get f q = Some Dir) -> mkdir f p true = Ok f.
Proof. intros H. apply mkdir_from_again. intros t1 t2 -> N. apply H. now exists t2. Qed.
Lemma mkdirs_again f ps : (forall p q, In p ps -> within q p -> fs_get f q = Some Dir) -> mkdirs f ps = Ok f.
Proof.
  induction ps as [|p ps IH]; intros H; cbn; [reflexivity|].
  rewrite mkdir_again by (intros q Hq; apply (H p); [now left|assumption]). cbn. apply IH. intros. apply (H p0); [now right|assumption].
Qed.

(** nothing that existed changes *)
Definition extends (f f' : fs) : Prop := forall q, fs_get f q <> None -> fs_get f' q = fs_get f q.
Lemma extends_refl f : extends f f. Proof. now intros q. Qed.
Lemma extends_trans f g h : extends f g -> extends g h -> extends f h.
Proof. intros A B q Hq. rewrite B, A; auto. now rewrite A. Qed.
Lemma extends_get f f' q n : extends f f' -> fs_get f q = Some n -> fs_get f' q = Some n.
Proof. intros A H. rewrite A; congruence. Qed.
Lemma extends_mkdir f p ok f' : p <> [] -> mkdir f p ok = Ok f' -> extends f f'.
Proof. intros N H. now destruct (mkdir_spec _ _ _ _ H N). Qed.
Lemma extends_write f p c f' : fs_get f p = None -> write f p c = Ok f' -> extends f f'.
Proof.
  intros G W. apply write_ok in W as (-> & _ & _ & N). intros q Hq. apply get_put_other; [assumption|].
  intros <-. congruence.
Qed.
Lemma mkdirs_spec f ps f' : (forall p, In p ps -> p <> []) -> mkdirs f ps = Ok f' ->
  extends f f' /\ (forall p q, In p ps -> within q p -> fs_get f' q = Some Dir)
  /\ (forall k n, In (k, n) f' -> In (k, n) f \/ exists p, In p ps /\ within k p).
Proof.
  revert f. induction ps as [|p ps IH]; intros f Hn H; cbn in H.
  - injection H as <-. split; [apply extends_refl|]. split; [intros p q []|auto].
  - destruct (mkdir f p true) as [f1|e] eqn:E; [|discriminate]. cbn in H.
    destruct (IH f1 (fun q Hq => Hn q (or_intror Hq)) H) as (A & B & C).
    pose proof (Hn p (or_introl eq_refl)) as Np.
    pose proof (extends_mkdir _ _ _ _ Np E) as X. split; [now apply extends_trans with f1|]. split.
    + intros p0 q [<-|Hp] W; [|now apply (B p0)]. apply (extends_get f1); [assumption|]. now apply (mkdir_dirs f p true).
    + intros k n Hk. destruct (C k n Hk) as [Hk1|(q & Hq & W)]; [|right; exists q; split; [now right|assumption]].
      destruct (mkdir_spec _ _ _ _ E Np) as (_ & _ & _ & D). destruct (D k n Hk1) as [?|[r R]]; [now left|].
      right. exists p. split; [now left|]. now exists r.
Qed.

Lemma tree_prefix f q n : tree f -> In (q, n) f -> forall b a, q = a ++ b -> fs_get f a <> None.
Proof.
  intros T H b. revert q n H. induction b as [|x b IH] using rev_ind; intros q n H a E.
  - rewrite app_nil_r in E. subst. destruct a; [discriminate|]. cbn. now apply in_entry in H.
  - destruct (T q n H) as [_ D]. rewrite E, app_assoc in D. unfold parent in D. rewrite removelast_last in D.
    apply is_dir_get in D. destruct (a ++ b) as [|c l] eqn:Eab.
    + destruct a; [discriminate|discriminate].
    + cbn [fs_get] in D. apply entry_in in D. now apply (IH _ _ D).
Qed.

(** What a disk must contain for the project with the attributes [a] to be
    opened from it. *)
Definition opens (a : attrs) (f : fs) : Prop :=
  fs_get f (conf (a_root a)) = Some (File (Json (serial a)))
  /\ fs_get f (log_path a) <> None
  /\ (forall d q, In d (listing_of (a_root a) (a_branches a) (a_rundir a)) -> within q d -> fs_get f q = Some Dir)
  /\ fs_get f (a_root a ++ [s "__main__.py"]) <> None
  /\ (forall q, within q (a_inputs a) -> fs_get f q = Some Dir).

Definition world_of (f : fs) (a : attrs) (n : nat) : world :=
  mkworld f (a_root a) (a_branches a) (a_rundir a) (log_path a) a n.

Definition nothing_given : options := mkoptions None None None None None None.

Lemma opens_again a f o script n : plain_path (a_root a) -> attrs_of (a_root a) o = Ok a -> a_inputs a <> a_root a ->
  opens a f -> open_project f (a_root a) None nothing_given script n = Ok (world_of f a n).
Proof.
  intros Hr Ha Hi (O1 & O2 & O3 & O4 & O5). unfold open_project, init_project, get_attrs.
  assert (exists_ f (a_root a) = true) as ->.
  { apply exists_get. rewrite O5; [discriminate|]. destruct (attrs_of_inv _ _ _ Ha) as (_ & _ & _ & -> & _).
    unfold join_local. destruct (localize _); [exists []; now rewrite app_nil_r|]. now eexists. }
  cbn [negb no_options nothing_given].
  assert (restore f (a_root a) = Ok a) as ->.
  { unfold restore, read. rewrite O1. cbn [bind serial].
    destruct (attrs_again (a_root a) o a Hr Ha Hi) as (o' & E1 & E2). cbn [serial] in E1.
    cbn [lookup]. change (str_eqb (s "root") (s "root")) with true. cbn iota. rewrite E1. cbn [bind]. exact E2. }
  unfold get_log. rewrite (proj2 (exists_get f (log_path a)) O2). cbn [bind].
  rewrite mkdirs_again by (intros; eapply O3; eauto). cbn [bind].
  unfold setup_cli. rewrite (proj2 (exists_get f _) O4). cbn [bind].
  rewrite mkdir_again by assumption. reflexivity.
Qed.

Lemma fresh_project f p o script n w : tree f -> proper_path p -> exists_ f p = false -> named_options o ->
  open_project f p None o script n = Ok w ->
  sound w /\ (forall q, run_path w q -> exists_ (w_fs w) q = false)
  /\ log_contents w = Some [(s "config", JStr (a_config (w_attrs w))); (s "output", JStr (local_str (a_output (w_attrs w))))]
  /\ attrs_of p o = Ok (w_attrs w) /\ opens (w_attrs w) (w_fs w) /\ w = world_of (w_fs w) (w_attrs w) n
  /\ (a_inputs (w_attrs w) = p \/ exists x, a_inputs (w_attrs w) = p ++ [x]).
Proof.
  intros T Pp Np (NB & NC & NO & NR) H. unfold open_project, init_project, get_attrs in H.
  rewrite Np in H. cbn [negb] in H. unfold create_project in H.
  destruct (attrs_of p o) as [a|e] eqn:Ea; [|discriminate].
  destruct (attrs_of_inv _ _ _ Ea) as (A1 & A2 & A3 & A4 & A5 & A6 & A7 & A8 & z & Nz & A9).
  rewrite A1 in H. destruct (mkdir f p false) as [f1|e] eqn:E1; [|discriminate].
  destruct (write f1 (conf p) (Json (serial a))) as [f2|e] eqn:E2; [|discriminate].
  destruct (get_log f2 a) as [f3|e] eqn:E3; [|discriminate]. cbn [bind] in H. rewrite ?A1 in H.
  destruct (mkdirs f3 (listing_of p (a_branches a) (a_rundir a))) as [f4|e] eqn:E4; [|discriminate]. cbn [bind] in H.
  destruct (setup_cli f4 a script) as [f5|e] eqn:E5; [|discriminate]. cbn [bind] in H.
  destruct (mkdir f5 (a_inputs a) true) as [f6|e] eqn:E6; [|discriminate]. cbn [bind] in H.
  injection H as <-. cbn [w_fs w_attrs].
  assert (p <> []) as Pne by (intros ->; discriminate).
  apply exists_false in Np.
  assert (forall q m, In (q, m) f -> ~ within p q) as F0.
  { intros q m Hq [r R]. now apply (tree_prefix f q m T Hq r p R). }
  assert (forall x, fs_get f1 (p ++ [x]) = None) as F1.
  { intro x. destruct (mkdir_spec _ _ _ _ E1 Pne) as (_ & B & _). rewrite B.
    - destruct (fs_get f (p ++ [x])) as [m|] eqn:G; [|reflexivity]. exfalso.
      destruct (p ++ [x]) as [|c l] eqn:El; [now apply snoc_nonempty in El|]. cbn [fs_get] in G.
      apply entry_in in G. rewrite <- El in G. apply (F0 _ _ G). now exists [x].
    - intros [r R]. apply (f_equal (@length _)) in R. rewrite !app_length in R. cbn in R. lia. }
  assert (log_path a = p ++ [a_logname a]) as EL by (unfold log_path; now rewrite A1).
  assert (a_logname a <> s ".eprem.conf") as NL1.
  { rewrite A9. intros C. apply (f_equal (@rev _)) in C. rewrite rev_app_distr in C. cbn in C. discriminate. }
  assert (a_logname a <> s "__main__.py") as NL2.
  { rewrite A9. intros C. apply (f_equal (@rev _)) in C. rewrite rev_app_distr in C. cbn in C. discriminate. }
  assert (fs_get f2 (log_path a) = None) as G2.
  { apply write_ok in E2 as (-> & _). rewrite get_put_other; [rewrite EL; apply F1|apply snoc_nonempty|].
    unfold conf. rewrite EL. intros C. apply app_inj_tail in C as [_ C]. congruence. }
  assert (extends f1 f2) as X2.
  { apply (extends_write _ (conf p) _ _ (F1 _) E2). }
  unfold get_log in E3. rewrite (proj2 (exists_false _ _) G2) in E3.
  pose proof (extends_write _ _ _ _ G2 E3) as X3.
  assert (forall d, In d (listing_of p (a_branches a) (a_rundir a)) -> d <> []) as Dn.
  { intros d Hd. unfold listing_of, join_local in Hd. destruct (a_branches a).
    - destruct Hd as [<-|[]]. destruct (a_rundir a); [assumption|]. apply snoc_nonempty.
    - apply in_map_iff in Hd as (b & <- & _). destruct (a_rundir a); apply snoc_nonempty. }
  destruct (mkdirs_spec _ _ _ Dn E4) as (X4 & D4 & K4).
  assert (extends f4 f5) as X5.
  { unfold setup_cli in E5. rewrite A1 in E5. destruct (exists_ f4 (p ++ [s "__main__.py"])) eqn:G.
    - injection E5 as <-. apply extends_refl.
    - apply exists_false in G. destruct script as [t|e]; [|discriminate]. now apply (extends_write _ _ _ _ G E5). }
  assert (a_inputs a <> []) as Ni.
  { rewrite A4. unfold join_local. destruct (localize (or_str (o_inputs o) (s "inputs"))); [assumption|]. apply snoc_nonempty. }
  pose proof (extends_mkdir _ _ _ _ Ni E6) as X6.
  assert (extends f3 f6) as X36 by (eapply extends_trans; [exact X4|]; eapply extends_trans; [exact X5|exact X6]).
  assert (extends f4 f6) as X46 by (eapply extends_trans; [exact X5|exact X6]).
  assert (fs_get f6 (log_path a) = Some (File (Json (JObj [(s "config", JStr (a_config a));
                                         (s "output", JStr (local_str (a_output a)))])))) as GL.
  { apply (extends_get f3); [assumption|]. apply write_ok in E3 as (-> & _ & _ & N). now apply get_put_same. }
  assert (fs_get f6 (conf p) = Some (File (Json (serial a)))) as GC.
  { apply (extends_get f3); [assumption|]. apply (extends_get f2); [assumption|].
    apply write_ok in E2 as (-> & _ & _ & N). now apply get_put_same. }
  assert (fs_get f6 p = Some Dir) as GP.
  { apply (extends_get f3); [assumption|]. apply (extends_get f2); [assumption|].
    apply (extends_get f1); [assumption|]. apply (mkdir_dirs f p false); [assumption|]. exists []. now rewrite app_nil_r. }
  assert (a_inputs a = p \/ exists x, a_inputs a = p ++ [x]) as Pi.
  { rewrite A4. unfold join_local. destruct (localize (or_str (o_inputs o) (s "inputs"))); [now left|]. right. now eexists. }
  assert (opens a f6) as HO.
  { unfold opens. rewrite A1. split; [exact GC|]. split; [rewrite GL; discriminate|]. split; [|split].
    - intros d q Hd W. apply (extends_get f4); [assumption|]. now apply (D4 d).
    - assert (fs_get f5 (p ++ [s "__main__.py"]) <> None) as G5.
      { unfold setup_cli in E5. rewrite A1 in E5. destruct (exists_ f4 (p ++ [s "__main__.py"])) eqn:G.
        - injection E5 as <-. now apply exists_get.
        - destruct script as [t|e]; [|discriminate]. cbn [bind] in E5.
          apply write_ok in E5 as (-> & _ & _ & N). rewrite get_put_same by assumption. discriminate. }
      rewrite X6; assumption.
    - intros q W. now apply (mkdir_dirs _ _ _ _ E6). }
  set (w := mkworld f6 p (a_branches a) (a_rundir a) (log_path a) a n).
  assert (proper_name (a_rundir a)) as PR.
  { rewrite A6 in *. destruct (localize_plain (or_str (o_rundir o) (s "runs"))) as [C|C]; [contradiction|apply C]. }
  assert (forall d, In d (listing_of p (a_branches a) (a_rundir a)) <-> run_directory w d) as LI.
  { intro d. apply (listing_iff w d). apply PR. }
  (* entries are proper and not too deep *)
  set (k := match a_branches a with [] => 1 | _ => 2 end).
  assert (forall q m, In (q, m) f6 -> proper_path q /\ (within p q -> length q <= length p + k)) as Bd.
  { assert (forall q, proper_path q -> length q <= length p + k -> proper_path q /\ (within p q -> length q <= length p + k)) as Bq by auto.
    assert (1 <= k) as Hk by (unfold k; destruct (a_branches a); lia).
    assert (forall x, proper_name x -> proper_path (p ++ [x]) /\ (within p (p ++ [x]) -> length (p ++ [x]) <= length p + k)) as Bx.
    { intros x Hx. split; [apply Forall_app; split; [assumption|now constructor]|]. intros _. rewrite app_length. cbn. lia. }
    assert (forall q r, p = q ++ r -> proper_path q /\ (within p q -> length q <= length p + k)) as Bp.
    { intros q r R. split; [rewrite R in Pp; apply Forall_app in Pp; apply Pp|]. intros _. rewrite R, app_length. lia. }
    intros q m H6. destruct (mkdir_spec _ _ _ _ E6 Ni) as (_ & _ & _ & K6).
    destruct (K6 _ _ H6) as [H5|[r R]].
    2: { assert (forall q r x, proper_name x -> p ++ [x] = q ++ r -> proper_path q /\ (within p q -> length q <= length p + k)) as By.
         { intros q0 r0 x Hx R0. destruct r0 as [|y r0] using rev_ind; [rewrite app_nil_r in R0; subst q0; now apply Bx|].
           rewrite app_assoc in R0. apply app_inj_tail in R0 as [R0 _]. now apply (Bp q0 r0). }
         rewrite A4 in R. unfold join_local in R.
         destruct (localize_plain (or_str (o_inputs o) (s "inputs"))) as [C|C].
         - rewrite C in R. now apply (Bp q r).
         - destruct (localize (or_str (o_inputs o) (s "inputs"))) as [|c0 x0] eqn:El; [now apply (Bp q r)|]. apply (By q r (c0 :: x0)); [apply C|assumption]. }
    assert (In (q, m) f4 \/ q = p ++ [s "__main__.py"]) as [H4|Em].
    { unfold setup_cli in E5. rewrite A1 in E5. destruct (exists_ f4 (p ++ [s "__main__.py"])).
      - injection E5 as <-. now left.
      - destruct script as [t|e]; [|discriminate]. cbn [bind] in E5. apply write_ok in E5 as (-> & _). destruct H5 as [H5|H5]; [right; congruence|now left]. }
    2: { rewrite Em. apply Bx. split; [discriminate|]. cbn. intros C. repeat (destruct C as [C|C]; [discriminate|]). destruct C. }
    destruct (K4 _ _ H4) as [H3|(d & Hd & [r R])].
    2: { apply LI in Hd. assert (length d = length p + k) as Ld.
         { rewrite (run_directory_len w d Hd). reflexivity. }
         assert (proper_path d) as Pd.
         { destruct Hd as [[_ ->]|(b & Hb & ->)]; (apply Forall_app; split; [exact Pp|]).
           - now constructor.
           - constructor; [|now constructor]. cbn in Hb. rewrite A2 in Hb. rewrite Forall_forall in NB. now apply NB. }
         rewrite R in Pd. apply Forall_app in Pd as [Pd _]. split; [assumption|]. intros _. rewrite <- Ld, R, app_length. lia. }
    apply write_ok in E3 as (-> & _). destruct H3 as [H3|H3].
    { injection H3 as <- _. rewrite EL. apply Bx. apply A7. }
    apply write_ok in E2 as (-> & _). destruct H3 as [H3|H3].
    { injection H3 as <- _. apply Bx. split; [discriminate|]. cbn. intros C. repeat (destruct C as [C|C]; [discriminate|]). destruct C. }
    destruct (mkdir_spec _ _ _ _ E1 Pne) as (_ & _ & _ & K1). destruct (K1 _ _ H3) as [H1|[r R]]; [|now apply (Bp q r)].
    split; [now apply (T q m)|]. intros W. now apply F0 in H1. }
  assert (forall q, run_path w q -> exists_ f6 q = false) as NoRun.
  { intros q (d & x & Hd & _ & _ & ->). apply exists_false. destruct (fs_get f6 (d ++ [x])) as [m|] eqn:G; [|reflexivity].
    exfalso. assert (within p (d ++ [x])) as W.
    { destruct Hd as [[_ ->]|(b & _ & ->)]; cbn; rewrite <- app_assoc; eexists; reflexivity. }
    destruct (d ++ [x]) as [|c l] eqn:El; [now apply snoc_nonempty in El|]. cbn [fs_get] in G. apply entry_in in G.
    apply Bd in G as [_ G]. specialize (G W). rewrite <- El, app_length in G.
    pose proof (run_directory_len w d Hd) as Ld. change (length d = length p + k) in Ld. cbn in G. lia. }
  assert (sound w) as Hs.
  { constructor; cbn [w w_root w_base w_branches w_attrs w_fs w_log].
    - exact Pp.
    - exact PR.
    - now rewrite A2.
    - now rewrite A3.
    - rewrite A5 in *. destruct (localize_plain (or_str (o_output o) (s "eprem.log"))) as [C|C]; [contradiction|apply C].
    - intros d q Hd W. apply is_dir_get. apply (extends_get f4); [assumption|]. apply (D4 d); [|assumption]. now apply LI.
    - intros q Hq X. rewrite (NoRun q Hq) in X. discriminate.
    - intros q m Hq. now apply (Bd q m).
    - unfold readable, log_contents. cbn [w w_fs w_log]. rewrite GL. discriminate.
    - apply is_dir_get. rewrite EL. unfold parent. now rewrite removelast_last.
    - intros d Hd [r R]. rewrite EL in R.
      destruct Hd as [[Hb Ed]|(b & Hb & Ed)]; cbn [w w_root w_base w_branches] in *.
      + assert (fs_get f6 d = Some Dir) as GD.
        { apply (extends_get f4); [assumption|]. apply (D4 d d); [apply LI; left; now split|]. exists []. now rewrite app_nil_r. }
        assert (r = []) as ->.
        { apply (f_equal (@length _)) in R. rewrite Ed, !app_length in R. cbn in R. destruct r; [reflexivity|cbn in R; lia]. }
        rewrite app_nil_r in R. rewrite EL in GL. rewrite R in GL. congruence.
      + apply (f_equal (@length _)) in R. rewrite Ed, !app_length in R. cbn in R. lia. }
  split; [exact Hs|]. split; [exact NoRun|]. split.
  { unfold log_contents. cbn [w w_fs w_log]. now rewrite GL. }
  split; [reflexivity|]. split; [exact HO|]. split; [|exact Pi].
  unfold world_of, w. now rewrite A1.
Qed.
