(** Property C88: a project can be created and opened. *)
From Verif Require Import PyBase PyLemmas ContainerModel ContainerSpec ContainerProofs
  FsModel FsProofs ProjectModel ProjectSpec ProjectProofs ProjectProofs2 ProjectProofs3 ProjectProofs4
  ProjectProofs5 ProjectProofs6 ProjectProofs7 ProjectProperties ScriptModel.

(** ** The specification *)

(** The file of a project with which it can be run as a program. *)
Definition script_file (root : path) : path := root ++ [s "__main__.py"].

(** No directory of the project is itself called like that file. *)
Definition no_such_directory (o : options) : Prop :=
  (forall bs, o_branches o = Some bs -> ~ In (s "__main__.py") bs)
  /\ (o_branches o = None \/ o_branches o = Some [] -> localize (or_str (o_rundir o) (s "runs")) <> s "__main__.py").

(** ** The text of the script *)

Lemma index_none x l : ~ In x l -> index_of x l = Raise ValueError.
Proof.
  induction l as [|y l IH]; intros H; cbn; [reflexivity|].
  destruct (str_eqb y x) eqn:E; [apply str_eqb_eq in E; exfalso; apply H; now left|].
  rewrite IH; [reflexivity|]. intros C. apply H. now right.
Qed.
Lemma index_first x a b : ~ In x a -> index_of x (a ++ x :: b) = Ok (length a).
Proof.
  induction a as [|y a IH]; intros H; cbn; [now rewrite str_eqb_refl|].
  destruct (str_eqb y x) eqn:E; [apply str_eqb_eq in E; exfalso; apply H; now left|].
  rewrite IH; [reflexivity|]. intros C. apply H. now right.
Qed.

(** Were there a line in the template that imports the module, the script would
    be the template with the directory of the package made known just before
    that line, and with a call of the command line at its end. *)
Theorem C88_script_text : forall module directory before after,
  ~ In (line (s "import " ++ module)) before ->
  compose_script module directory (before ++ line (s "import " ++ module) :: after)
  = Ok (concat before
        ++ line (s "import pathlib") ++ line (s "import sys") ++ line []
        ++ line (s "sys.path.append('" ++ directory ++ s "')") ++ line []
        ++ line (s "import " ++ module) ++ concat after
        ++ line (s "if __name__ == '__main__':") ++ line (s "    cli.run()") ++ line []).
Proof.
  intros m d a b H. unfold compose_script. rewrite index_first by assumption. cbn [bind].
  rewrite firstn_app, Nat.sub_diag, firstn_all, firstn_O, app_nil_r.
  rewrite skipn_app, Nat.sub_diag, skipn_all, skipn_O. cbn [app].
  rewrite concat_app. cbn [concat]. unfold path_spec. now rewrite <- !app_assoc.
Qed.
Print Assumptions C88_script_text.

(** Only two lines of the template have the form of the line looked for. *)
Definition starts_with (p x : str) : bool := str_eqb (firstn (length p) x) p.
Lemma starts p x : starts_with p (p ++ x) = true.
Proof. unfold starts_with. rewrite firstn_app, Nat.sub_diag, firstn_all, firstn_O, app_nil_r. apply str_eqb_refl. Qed.
Lemma import_lines : filter (starts_with (s "import ")) template = [line (s "import argparse"); line (s "import typing")].
Proof. vm_compute. reflexivity. Qed.

(** With the template of the package no script can be composed, whatever the
    name under which the module was loaded. *)
Theorem C88_template_refuted : forall module directory,
  module <> s "argparse" -> module <> s "typing" ->
  shipped_script module directory = Raise ValueError.
Proof.
  intros m d N1 N2. unfold shipped_script, compose_script. rewrite index_none; [reflexivity|].
  intros H. assert (In (line (s "import " ++ m)) (filter (starts_with (s "import ")) template)) as F.
  { apply filter_In. split; [assumption|]. unfold line. rewrite <- app_assoc. apply starts. }
  rewrite import_lines in F. unfold line in F. destruct F as [F|[F|[]]].
  - apply N1. change (s "import argparse") with (s "import " ++ s "argparse") in F.
    rewrite <- !app_assoc in F. apply app_inv_head in F. apply app_inj_tail in F as [F _]. now symmetry.
  - apply N2. change (s "import typing") with (s "import " ++ s "typing") in F.
    rewrite <- !app_assoc in F. apply app_inv_head in F. apply app_inj_tail in F as [F _]. now symmetry.
Qed.
Print Assumptions C88_template_refuted.

(** ** Creating *)

(** The steps of the constructor before the script *)
Definition prepared (f : fs) (p : path) (o : options) (a : attrs) (f4 : fs) : Prop :=
  exists f1 f2 f3, attrs_of p o = Ok a /\ mkdir f p false = Ok f1
  /\ write f1 (conf p) (Json (serial a)) = Ok f2 /\ get_log f2 a = Ok f3
  /\ mkdirs f3 (listing_of p (a_branches a) (a_rundir a)) = Ok f4.

Lemma open_new f p o script n : exists_ f p = false ->
  (exists a f4, prepared f p o a f4
     /\ open_disk f p o script = match setup_cli f4 a script with
          | Raise _ => f4
          | Ok f5 => match mkdir f5 (a_inputs a) true with Ok f6 => f6 | Raise _ => f5 end end
     /\ open_project f p None o script n = match setup_cli f4 a script with
          | Raise e => Raise e
          | Ok f5 => match mkdir f5 (a_inputs a) true with
               | Ok f6 => Ok (world_of f6 a n) | Raise e => Raise e end end)
  \/ exists e, forall script', open_project f p None o script' n = Raise e.
Proof.
  intros Np. unfold open_disk, open_project, init_project, get_attrs. rewrite Np. cbn [negb].
  unfold create_project. destruct (attrs_of p o) as [a|e] eqn:Ea; [|right; now exists e].
  destruct (attrs_of_inv _ _ _ Ea) as (A1 & _). rewrite A1.
  destruct (mkdir f p false) as [f1|e] eqn:E1; [|right; now exists e].
  destruct (write f1 (conf p) (Json (serial a))) as [f2|e] eqn:E2; [|right; now exists e].
  destruct (get_log f2 a) as [f3|e] eqn:E3; [|right; now exists e]. cbn [bind]. rewrite ?A1.
  destruct (mkdirs f3 (listing_of p (a_branches a) (a_rundir a))) as [f4|e] eqn:E4; [|right; now exists e].
  left. exists a, f4. split; [now exists f1, f2, f3|]. split; [reflexivity|]. cbn [bind].
  destruct (setup_cli f4 a script) as [f5|e]; cbn [bind]; [|reflexivity].
  destruct (mkdir f5 (a_inputs a) true) as [f6|e]; cbn [bind]; [|reflexivity].
  unfold world_of. now rewrite A1.
Qed.

Lemma no_script_yet f p o a f4 : tree f -> proper_path p -> exists_ f p = false -> named_options o ->
  no_such_directory o -> prepared f p o a f4 -> fs_get f4 (script_file p) = None.
Proof.
  intros T Pp Np (NB & NC & NO & NR) (N1 & N2) (f1 & f2 & f3 & Ea & E1 & E2 & E3 & E4).
  destruct (attrs_of_inv _ _ _ Ea) as (A1 & A2 & A3 & A4 & A5 & A6 & A7 & A8 & z & Nz & A9).
  assert (p <> []) as Pne by (intros ->; discriminate).
  assert (p ++ [s "__main__.py"] <> []) as Sne by (destruct p; discriminate).
  apply exists_false in Np.
  assert (forall q m, In (q, m) f -> ~ within p q) as F0.
  { intros q m Hq [r R]. now apply (tree_prefix f q m T Hq r p R). }
  assert (forall d, In d (listing_of p (a_branches a) (a_rundir a)) -> d <> [] /\ ~ within (script_file p) d) as Dn.
  { intros d Hd. unfold listing_of, join_local in Hd. rewrite A2, A6 in Hd.
    destruct (localize (or_str (o_rundir o) (s "runs"))) as [|c0 x0] eqn:El; [contradiction|].
    assert (forall x l, within (script_file p) (p ++ x :: l) -> x = s "__main__.py") as Wx.
    { intros x l [r R]. unfold script_file in R. rewrite <- app_assoc in R. apply app_inv_head in R.
      cbn [app] in R. congruence. }
    destruct (o_branches o) as [[|b bs]|] eqn:Eb.
    - destruct Hd as [<-|[]]. split; [destruct p; discriminate|]. intros W. apply Wx in W. apply N2 in W; [assumption|now right].
    - apply in_map_iff in Hd as (b' & <- & Hb). split; [destruct p; discriminate|]. intros W. rewrite <- app_assoc in W.
      apply Wx in W. subst b'. now apply (N1 (b :: bs)).
    - destruct Hd as [<-|[]]. split; [destruct p; discriminate|]. intros W. apply Wx in W. apply N2 in W; [assumption|now left]. }
  destruct (mkdirs_spec _ _ _ (fun d Hd => proj1 (Dn d Hd)) E4) as (_ & _ & K4).
  destruct (fs_get f4 (script_file p)) as [m|] eqn:G; [exfalso|reflexivity].
  unfold script_file in *. destruct (p ++ [s "__main__.py"]) as [|c l] eqn:El; [contradiction|]. cbn [fs_get] in G.
  apply entry_in in G. rewrite <- El in *.
  assert (a_logname a <> s "__main__.py") as NL2.
  { rewrite A9. intros C. apply (f_equal (@rev _)) in C. rewrite rev_app_distr in C. cbn in C. discriminate. }
  destruct (K4 _ _ G) as [H3|(d & Hd & W)]; [|now apply (Dn d Hd)].
  unfold get_log in E3. destruct (exists_ f2 (log_path a)).
  2: apply write_ok in E3 as (-> & _); destruct H3 as [H3|H3].
  2: { injection H3 as H3 _. unfold log_path in H3. rewrite A1 in H3. apply app_inj_tail in H3 as [_ H3]. contradiction. }
  1: injection E3 as <-.
  all: apply write_ok in E2 as (-> & _); destruct H3 as [H3|H3];
    [injection H3 as H3 _; unfold conf in H3; apply app_inj_tail in H3 as [_ H3]; discriminate|].
  all: destruct (mkdir_spec _ _ _ _ E1 Pne) as (_ & _ & _ & K1); destruct (K1 _ _ H3) as [H1|[r R]];
    [apply (F0 _ _ H1); now exists [s "__main__.py"]|].
  all: apply (f_equal (@length _)) in R; rewrite !app_length in R; cbn in R; lia.
Qed.

(** Creating a project where there is nothing fails in every case: no call of
    the constructor on a new path returns a project. *)
Theorem C88_create_refuted : forall f p o module directory n w,
  tree f -> proper_path p -> exists_ f p = false -> named_options o -> no_such_directory o ->
  module <> s "argparse" -> module <> s "typing" ->
  open_project f p None o (shipped_script module directory) n <> Ok w.
Proof.
  intros f p o m d n w T Pp Np No Nd M1 M2. rewrite (C88_template_refuted m d M1 M2).
  destruct (open_new f p o (Raise ValueError) n Np) as [(a & f4 & P & _ & ->)|(e & ->)]; [|discriminate].
  pose proof (no_script_yet _ _ _ _ _ T Pp Np No Nd P) as G.
  destruct P as (f1 & f2 & f3 & Ea & _). destruct (attrs_of_inv _ _ _ Ea) as (A1 & _).
  unfold setup_cli. rewrite A1. apply exists_false in G. unfold script_file in G. rewrite G. discriminate.
Qed.
Print Assumptions C88_create_refuted.

Lemma failed_state f p o n t w :
  tree f -> proper_path p -> exists_ f p = false -> named_options o -> no_such_directory o ->
  open_project f p None o (Ok t) n = Ok w ->
  exists a f4 f5, open_disk f p o (Raise ValueError) = f4
  /\ open_project f p None o (Raise ValueError) n = Raise ValueError
  /\ attrs_of p o = Ok a /\ w = world_of (w_fs w) a n
  /\ write f4 (p ++ [s "__main__.py"]) (Text t) = Ok f5 /\ mkdir f5 (a_inputs a) true = Ok (w_fs w)
  /\ extends f4 (w_fs w)
  /\ fs_get f4 (conf p) = Some (File (Json (serial a)))
  /\ fs_get f4 (log_path a) <> None
  /\ (forall d q, In d (listing_of p (a_branches a) (a_rundir a)) -> within q d -> fs_get f4 q = Some Dir)
  /\ fs_get f4 (p ++ [s "__main__.py"]) = None.
Proof.
  intros T Pp Np No Nd H.
  destruct (fresh_project f p o (Ok t) n w T Pp Np No H) as (Hs & _ & LC & _).
  destruct (open_new f p o (Ok t) n Np) as [(a & f4 & P & _ & E)|(e & E)]; [|rewrite E in H; discriminate].
  destruct (open_new f p o (Raise ValueError) n Np) as [(a' & f4' & P' & Ed & E')|(e & E')];
    [|rewrite E' in H; discriminate].
  assert (a' = a /\ f4' = f4) as [-> ->].
  { destruct P as (f1 & f2 & f3 & Q1 & Q2 & Q3 & Q4 & Q5), P' as (g1 & g2 & g3 & R1 & R2 & R3 & R4 & R5). 
    rewrite Q1 in R1. injection R1 as <-. rewrite Q2 in R2. injection R2 as <-. rewrite Q3 in R3. injection R3 as <-.
    rewrite Q4 in R4. injection R4 as <-. rewrite Q5 in R5. injection R5 as <-. now split. }
  pose proof (no_script_yet _ _ _ _ _ T Pp Np No Nd P) as G. apply exists_false in G. unfold script_file in G.
  destruct P as (f1 & f2 & f3 & Ea & E1 & E2 & E3 & E4).
  destruct (attrs_of_inv _ _ _ Ea) as (A1 & A2 & A3 & A4 & A5 & A6 & A7 & A8 & z & Nz & A9).
  unfold setup_cli in *. rewrite A1, G in *. cbn [bind] in *.
  rewrite H in E. destruct (write f4 (p ++ [s "__main__.py"]) (Text t)) as [f5|e] eqn:E5; [|discriminate].
  destruct (mkdir f5 (a_inputs a) true) as [f6|e] eqn:E6; [|discriminate]. injection E as ->.
  cbn [w_attrs w_fs w_log world_of].
  assert (p <> []) as Pne by (intros ->; discriminate).
  destruct No as (NB & NC & NO & NR).
  assert (forall d0, In d0 (listing_of p (a_branches a) (a_rundir a)) -> d0 <> []) as Dn.
  { intros d0 Hd. unfold listing_of, join_local in Hd. destruct (a_branches a).
    - destruct Hd as [<-|[]]. destruct (a_rundir a); [assumption|]. apply snoc_nonempty.
    - apply in_map_iff in Hd as (b & <- & _). destruct (a_rundir a); apply snoc_nonempty. }
  destruct (mkdirs_spec _ _ _ Dn E4) as (X4 & D4 & _).
  assert (a_inputs a <> []) as Ni.
  { rewrite A4. unfold join_local. destruct (localize (or_str (o_inputs o) (s "inputs"))); [assumption|]. apply snoc_nonempty. }
  assert (extends f4 f6) as X46.
  { eapply extends_trans; [|exact (extends_mkdir _ _ _ _ Ni E6)].
    apply exists_false in G. exact (extends_write _ _ _ _ G E5). }
  assert (exists c, fs_get f3 (log_path a) = Some c) as [c Gl].
  { unfold get_log in E3. destruct (exists_ f2 (log_path a)) eqn:Gx.
    - injection E3 as <-. apply exists_get in Gx. destruct (fs_get f2 (log_path a)) as [c|]; [now exists c|contradiction].
    - apply write_ok in E3 as (-> & _ & _ & N). rewrite get_put_same by assumption. now eexists. }
  assert (fs_get f3 (conf p) = Some (File (Json (serial a)))) as Gc.
  { assert (fs_get f2 (conf p) = Some (File (Json (serial a)))) as Gc2.
    { apply write_ok in E2 as (-> & _ & _ & N). now apply get_put_same. }
    unfold get_log in E3. destruct (exists_ f2 (log_path a)) eqn:Gx; [injection E3 as <-; assumption|].
    apply exists_false in Gx. now rewrite (extends_write _ _ _ _ Gx E3) by congruence. }
  exists a, f4, f5. rewrite Ed, E'.
  split; [reflexivity|]. split; [reflexivity|]. split; [assumption|]. split; [reflexivity|].
  split; [assumption|]. split; [assumption|]. split; [assumption|].
  split; [apply (extends_get f3); assumption|].
  split; [rewrite (extends_get _ _ _ _ X4 Gl); discriminate|].
  split; [exact D4|]. now apply exists_false.
Qed.

(** What the failed attempt leaves: if with some text for the script the project
    would have been created, the exception is [ValueError], and the settings,
    the log and the directories of the runs are on the disk, but no script. *)
Theorem C88_left_behind : forall f p o module directory n t w,
  tree f -> proper_path p -> exists_ f p = false -> named_options o -> no_such_directory o ->
  module <> s "argparse" -> module <> s "typing" ->
  open_project f p None o (Ok t) n = Ok w ->
  let f' := open_disk f p o (shipped_script module directory) in
  open_project f p None o (shipped_script module directory) n = Raise ValueError
  /\ fs_get f' (p ++ [s ".eprem.conf"]) = Some (File (Json (serial (w_attrs w))))
  /\ fs_get f' (w_log w) = fs_get (w_fs w) (w_log w)
  /\ (forall d, In d (listing w) -> is_dir f' d = true)
  /\ exists_ f' (p ++ [s "__main__.py"]) = false.
Proof.
  intros f p o m d n t w T Pp Np No Nd M1 M2 H f'. unfold f'. clear f'. rewrite (C88_template_refuted m d M1 M2).
  destruct (failed_state f p o n t w T Pp Np No Nd H) as (a & f4 & f5 & -> & -> & Ea & Ew & E5 & E6 & X & Gc & Gl & D4 & G).
  destruct (attrs_of_inv _ _ _ Ea) as (A1 & _).
  split; [reflexivity|]. rewrite Ew. cbn [w_attrs w_fs w_log world_of].
  split; [exact Gc|]. split; [symmetry; now apply X|]. split; [|now apply exists_false].
  intros d0 Hd. apply is_dir_get. apply (D4 d0); [|exists []; now rewrite app_nil_r].
  unfold listing, world_of in Hd. cbn in Hd. now rewrite A1 in Hd.
Qed.
Print Assumptions C88_left_behind.

(** The directories that hold the inputs are asked for again. *)
Lemma inputs_within root o a : attrs_of root o = Ok a -> within root (a_inputs a).
Proof.
  intros E. destruct (attrs_of_inv _ _ _ E) as (_ & _ & _ & -> & _). unfold join_local.
  destruct (localize _); [exists []; now rewrite app_nil_r|now eexists].
Qed.

Lemma restored f p o a : plain_path p -> attrs_of p o = Ok a -> a_inputs a <> p ->
  fs_get f (conf p) = Some (File (Json (serial a))) -> restore f p = Ok a.
Proof.
  intros Pl Ea Ni Gc. unfold restore, read. rewrite Gc. cbn [bind serial].
  destruct (attrs_again p o a Pl Ea Ni) as (o' & E1 & E2). cbn [serial] in E1.
  cbn [lookup]. change (str_eqb (s "root") (s "root")) with true. cbn iota.
  rewrite E1. cbn [bind]. destruct (attrs_of_inv _ _ _ Ea) as (A1 & _). rewrite A1. exact E2.
Qed.

(** Once a project was left like that, each later attempt to open it fails in the
    same way and changes nothing. *)
Theorem C88_open_again_refuted : forall f p o module directory n t w m,
  tree f -> plain_path p -> exists_ f p = false -> named_options o -> no_such_directory o ->
  module <> s "argparse" -> module <> s "typing" ->
  open_project f p None o (Ok t) n = Ok w -> a_inputs (w_attrs w) <> p ->
  let nothing := mkoptions None None None None None None in
  let f' := open_disk f p o (shipped_script module directory) in
  open_project f' p None nothing (shipped_script module directory) m = Raise ValueError
  /\ open_disk f' p nothing (shipped_script module directory) = f'.
Proof.
  intros f p o m d n t w k T Pl Np No Nd M1 M2 H Ni nothing f'. unfold f', nothing. clear f' nothing.
  rewrite (C88_template_refuted m d M1 M2).
  assert (proper_path p) as Pp by (eapply Forall_impl; [|exact Pl]; now intros a []).
  destruct (failed_state f p o n t w T Pp Np No Nd H) as (a & f4 & f5 & -> & _ & Ea & Ew & E5 & E6 & X & Gc & Gl & D4 & G).
  rewrite Ew in Ni. cbn in Ni. destruct (attrs_of_inv _ _ _ Ea) as (A1 & _).
  unfold open_project, open_disk, init_project, get_attrs.
  assert (exists_ f4 p = true) as ->.
  { apply write_ok in E5 as (_ & _ & P5 & _). unfold parent in P5. rewrite removelast_last in P5.
    apply is_dir_get in P5. apply exists_get. congruence. }
  cbn [negb no_options]. rewrite (restored f4 p o a Pl Ea Ni Gc).
  unfold get_log. rewrite (proj2 (exists_get f4 (log_path a)) Gl). cbn [bind]. rewrite A1.
  rewrite mkdirs_again by (intros; eapply D4; eauto). cbn [bind].
  unfold setup_cli. rewrite A1, (proj2 (exists_false f4 _) G). split; reflexivity.
Qed.
Print Assumptions C88_open_again_refuted.

(** The way out: when a file with that name is put into the directory by hand,
    the project opens, whatever the template is, and it is exactly the project
    that was asked for. *)
Theorem C88_repaired : forall f p o module directory n t w script',
  tree f -> plain_path p -> exists_ f p = false -> named_options o -> no_such_directory o ->
  module <> s "argparse" -> module <> s "typing" ->
  open_project f p None o (Ok t) n = Ok w -> a_inputs (w_attrs w) <> p ->
  let f' := open_disk f p o (shipped_script module directory) in
  open_project (put f' (p ++ [s "__main__.py"]) (File (Text t))) p None
    (mkoptions None None None None None None) script' n = Ok w.
Proof.
  intros f p o m d n t w script' T Pl Np No Nd M1 M2 H Ni f'. unfold f'. clear f'.
  rewrite (C88_template_refuted m d M1 M2).
  assert (proper_path p) as Pp by (eapply Forall_impl; [|exact Pl]; now intros a []).
  destruct (failed_state f p o n t w T Pp Np No Nd H) as (a & f4 & f5 & -> & _ & Ea & Ew & E5 & E6 & X & Gc & Gl & D4 & G).
  rewrite Ew in Ni. cbn in Ni. destruct (attrs_of_inv _ _ _ Ea) as (A1 & _).
  pose proof (extends_write _ _ _ _ G E5) as X5. apply write_ok in E5 as (E5 & _ & P5 & N5). rewrite <- E5.
  unfold open_project, init_project, get_attrs.
  assert (exists_ f5 p = true) as ->.
  { unfold parent in P5. rewrite removelast_last in P5. apply is_dir_get in P5. apply exists_get.
    rewrite (extends_get _ _ _ _ X5 P5). discriminate. }
  cbn [negb no_options]. rewrite (restored f5 p o a Pl Ea Ni (extends_get _ _ _ _ X5 Gc)).
  unfold get_log. assert (exists_ f5 (log_path a) = true) as ->.
  { apply exists_get. rewrite X5; assumption. }
  cbn [bind]. rewrite A1.
  rewrite mkdirs_again by (intros d0 q Hd Hq; apply (extends_get _ _ _ _ X5); eapply D4; eauto). cbn [bind].
  unfold setup_cli. rewrite A1. assert (exists_ f5 (p ++ [s "__main__.py"]) = true) as ->.
  { apply exists_get. rewrite E5, get_put_same by assumption. discriminate. }
  cbn [bind]. rewrite E6. cbn [bind]. rewrite Ew. unfold world_of. now rewrite A1.
Qed.
Print Assumptions C88_repaired.

(** An ordinary project meets the hypotheses: two branches, below a directory
    that exists, with the module loaded as a part of the package. *)
Example C88_example : exists w,
  tree ex_fs /\ plain_path ex_root /\ exists_ ex_fs ex_root = false
  /\ named_options (ex_options ab) /\ no_such_directory (ex_options ab)
  /\ open_project ex_fs ex_root None (ex_options ab) (Ok (s "pass")) 100 = Ok w /\ a_inputs (w_attrs w) <> ex_root
  /\ open_project ex_fs ex_root None (ex_options ab) (shipped_script (s "eprempy.project") (s "/usr/lib/eprempy")) 100
     = Raise ValueError
  /\ exists_ (open_disk ex_fs ex_root (ex_options ab) (shipped_script (s "eprempy.project") (s "/usr/lib/eprempy")))
       (ex_root ++ [s "inputs"]) = false.
Proof.
  eexists. split; [exact ex_tree|]. split; [exact ex_plain|]. split; [reflexivity|].
  split; [exact (ex_named ab ex_ab)|].
  split. { split; [intros bs E; injection E as <-; cbn; intuition discriminate|]. intros [E|E]; discriminate. }
  split; [vm_compute; reflexivity|]. split; [discriminate|]. split; vm_compute; reflexivity.
Qed.

(** The one exception: a directory of runs with the name of the script. *)
Example C88_exception : exists w,
  open_project ex_fs ex_root None (mkoptions None None None None (Some (s "__main__.py")) None)
    (shipped_script (s "eprempy.project") (s "/usr/lib/eprempy")) 100 = Ok w.
Proof. eexists. vm_compute. reflexivity. Qed.
