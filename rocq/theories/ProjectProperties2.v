(** Properties C68 and C40 (continued): the configuration that a new run gets,
    and opening a project that exists. *)
From Verif Require Import PyBase PyLemmas ContainerModel ContainerSpec ContainerProofs ContainerProofs2
  FsModel FsProofs ProjectModel ProjectSpec ProjectProofs ProjectProofs2 ProjectProofs3 ProjectProofs4
  ProjectProofs5 ProjectProofs6 ProjectProofs7 ProjectProperties.
Set Default Proof Using "Type".

(** ** Specification *)

(** The file that the user means by [config]: the one of that name in the
    directory [inputs] of the project if there is one, otherwise the one with
    that path below the current directory. *)
Definition meant (w : world) (inputs here : path) (config : list str) (c : content) : Prop :=
  fs_get (w_fs w) (inputs ++ config) = Some (File c)
  \/ (forall c', fs_get (w_fs w) (inputs ++ config) <> Some (File c'))
     /\ fs_get (w_fs w) (here ++ config) = Some (File c).

(** A place that no run of the project can change. *)
Definition out_of_reach (w : world) (q : path) : Prop :=
  q <> w_log w /\ forall p, run_path w p -> ~ within p q.

(** Nothing that the simulation writes has the name of the configuration file. *)
Definition kept_apart (w : world) (o : outside) : Prop :=
  a_output (w_attrs w) <> a_config (w_attrs w)
  /\ forall p x t, In (x, t) (output_files o p) -> x <> a_config (w_attrs w).

(** ** One run *)
Lemma files_keep p files y : (forall x t, In (x, t) files -> x <> y) -> forall f,
  fs_get (write_files f p files) (p ++ [y]) = fs_get f (p ++ [y]).
Proof.
  induction files as [|[x t] files IH]; intros H f; cbn [write_files]; [reflexivity|].
  rewrite IH by (intros x' t' Hx; apply (H x' t'); now right).
  rewrite get_put_other; [reflexivity|apply snoc_nonempty|].
  intros E. apply app_inj_tail in E as [_ E]. apply (H x t); [now left|assumption].
Qed.

Definition given (w : world) (here : path) (config : list str) (c : content) : Prop :=
  meant w (w_root w ++ [s "inputs"]) here config c.

Lemma meant_read w here config c inputs :
  given w here config c ->
  (if is_file (w_fs w) (w_root w ++ s "inputs" :: config) then @ret path (w_root w ++ s "inputs" :: config)
              else if exists_ (w_fs w) (here ++ config) then ret (here ++ config)
              else raise (OtherError "NonExistentPathError")) w = (w, Ok inputs) ->
  fs_get (w_fs w) inputs = Some (File c).
Proof.
  unfold given, meant. rewrite <- app_assoc. cbn [app]. intros G.
  set (q := w_root w ++ s "inputs" :: config) in *. clearbody q. unfold is_file, exists_, ret, raise.
  destruct (fs_get (w_fs w) q) as [[|c']|] eqn:E.
  - destruct G as [G|[_ G]]; [discriminate|]. rewrite G. intros H. injection H as <-. exact G.
  - destruct G as [G|[G _]]; [|now elim (G c')]. intros H. injection H as <-. now rewrite E.
  - destruct G as [G|[_ G]]; [discriminate|]. rewrite G. intros H. injection H as <-. exact G.
Qed.

Lemma create_config o config nproc p w w' c :
  kept_apart w o -> (forall r, p ++ r <> w_log w) ->
  given w (cwd o) config c -> create_run o config nproc p w = (w', Ok tt) ->
  fs_get (w_fs w') (p ++ [a_config (w_attrs w)]) = Some (File c).
Proof.
  intros [N1 N2] NL G E. unfold create_run in E. unfold mbind at 1, get at 1 in E. unfold mbind at 1, get at 1 in E.
  unfold mbind at 1, get at 1 in E. cbn beta iota zeta in E.
  match type of E with mbind ?m _ _ = _ => set (sel := m) in E end.
  unfold mbind at 1 in E. destruct (sel w) as [w1 [inputs|e]] eqn:Es; [|discriminate].
  assert (w1 = w) as ->.
  { unfold sel in Es. revert Es. destruct (is_file _ _); [|destruct (exists_ _ _)]; unfold ret, raise; congruence. }
  apply (meant_read w (cwd o) config c inputs G) in Es. clear sel.
  unfold mbind at 1 in E.
  destruct (disk (fun f => copy_file f inputs (p ++ [a_config (w_attrs w)])) w) as [w2 [u|e]] eqn:Ed; [|discriminate].
  apply disk_result in Ed as (f2 & Ed & F2 & S2). unfold copy_file, read in Ed. rewrite Es in Ed. cbn [bind] in Ed.
  apply write_ok in Ed as (-> & _).
  assert (fs_get (w_fs w2) (p ++ [a_config (w_attrs w)]) = Some (File c)) as G2.
  { rewrite F2. apply get_put_same, snoc_nonempty. }
  assert (forall x b v v' q, locate o x b v = (v', Ok q) -> v' = v) as Loc.
  { intros x b v v' q. unfold locate, mbind, get. cbn beta iota zeta. destruct (exists_ _ _); [unfold ret; congruence|].
    destruct (which o x); unfold ret, raise; congruence. }
  unfold mbind at 1 in E. destruct (locate o (s "mpirun") (parent (parent p)) w2) as [w3 [mp|e]] eqn:E3; [|discriminate].
  apply Loc in E3 as ->.
  unfold mbind at 1 in E. destruct (locate o (s "eprem") (parent (parent p)) w2) as [w4 [ep|e]] eqn:E4; [|discriminate].
  apply Loc in E4 as ->.
  unfold mbind at 1 in E.
  destruct (disk (fun f => write f (p ++ [a_output (w_attrs w)]) (Text [])) w2) as [w5 [u5|e]] eqn:E5; [|discriminate].
  apply disk_result in E5 as (f5 & E5 & F5 & S5). apply write_ok in E5 as (-> & _).
  assert (fs_get (w_fs w5) (p ++ [a_config (w_attrs w)]) = Some (File c)) as G5.
  { rewrite F5, get_put_other; [exact G2|apply snoc_nonempty|]. intros C. apply app_inj_tail in C as [_ C]. now apply N1. }
  unfold mbind at 1 in E.
  destruct (disk (fun f => Ok (write_files f p (output_files o p))) w5) as [w6 [u6|e]] eqn:E6; [|discriminate].
  apply disk_result in E6 as (f6 & E6 & F6 & S6). injection E6 as <-.
  assert (fs_get (w_fs w6) (p ++ [a_config (w_attrs w)]) = Some (File c)) as G6.
  { rewrite F6, files_keep; [exact G5|]. intros x t Hx. eapply N2; eauto. }
  assert (w_log w6 = w_log w) as EL by (unfold settings in *; congruence).
  destruct (Z.eqb (returncode o p) 0).
  - unfold log_create in E. unfold mbind in E. destruct (log_read w6) as [w7 [d|e]] eqn:E7; [|discriminate].
    assert (w7 = w6) as ->.
    { revert E7. unfold log_read, mbind, get, lift. cbn. destruct (read _ _) as [[t|[| |[|]|]]|]; unfold ret, raise; congruence. }
    pose proof E as E8. apply log_dump_result in E8 as (_ & _ & Fr). rewrite Fr; [exact G6|]. rewrite EL. apply NL.
  - injection E as <-. exact G6.
Qed.

(** ** All the selected runs *)
Section Run.
Variable w0 : world.
Hypothesis H0 : sound w0.
Variable o : outside.
Variable config : list str.
Variable nproc : str.
Hypothesis HK : kept_apart w0 o.
Hypothesis Hin : out_of_reach w0 (w_root w0 ++ s "inputs" :: config).
Hypothesis Hcwd : out_of_reach w0 (cwd o ++ config).

Definition eff2 (w w' : world) (p : path) : Prop :=
  run_eff w0 o w w' p
  /\ settings w = settings w0
  /\ forall c, given w (cwd o) config c -> fs_get (w_fs w') (p ++ [a_config (w_attrs w0)]) = Some (File c).

Lemma reach_frame w w' p q : RP (run_directory w0) p -> out_of_reach w0 q -> run_eff w0 o w w' p ->
  fs_get (w_fs w') q = fs_get (w_fs w) q.
Proof using.
  intros Hp [N R] (Fr & _). apply Fr; [assumption|]. intros W. revert W. apply R. now apply ofw_run_path.
Qed.

Lemma given_frame w w' p c : RP (run_directory w0) p -> run_eff w0 o w w' p -> settings w = settings w0 -> settings w' = settings w0 ->
  given w (cwd o) config c -> given w' (cwd o) config c.
Proof using Hin Hcwd.
  intros Hp He S S'. assert (w_root w = w_root w0) as R by (unfold settings in *; congruence).
  assert (w_root w' = w_root w0) as R' by (unfold settings in *; congruence).
  unfold given, meant. rewrite R, R', <- !app_assoc. cbn [app].
  rewrite (reach_frame w w' p _ Hp Hin He), (reach_frame w w' p _ Hp Hcwd He). auto.
Qed.

Lemma chain_settings force w ps w' : chain run_can eff2 force w ps w' ->
  (forall p, In p ps -> RP (run_directory w0) p) -> settings w' = settings w0 -> forall c, given w (cwd o) config c ->
  (forall p, RP (run_directory w0) p -> exists_ (w_fs w) p = true -> forall r, fs_get (w_fs w') (p ++ r) = fs_get (w_fs w) (p ++ r))
  /\ (forall p, In p ps -> exists_ (w_fs w) p = false -> fs_get (w_fs w') (p ++ [a_config (w_attrs w0)]) = Some (File c)).
Proof using H0 Hin Hcwd.
  induction 1 as [w|w a l w' Hf Hc Ch IH|w a l w1 w' Hc He Ch IH]; intros HU S c G.
  - split; [reflexivity|intros p []].
  - destruct (IH (fun p Hp => HU p (or_intror Hp)) S c G) as [A B]. split; [exact A|].
    intros p [->|Hp] Ne; [|now apply B]. unfold run_can in Hc. rewrite Ne in Hc. discriminate.
  - pose proof (HU a (or_introl eq_refl)) as Ha. destruct He as (He & Sw & Hg).
    assert (settings w1 = settings w0) as S1.
    { clear - Ch S. induction Ch as [w|w a l w' Hf Hc Ch IH|w a l w1' w' Hc He Ch IH]; [assumption|now apply IH|apply He]. }
    destruct (IH (fun p Hp => HU p (or_intror Hp)) S c (given_frame w w1 a c Ha He Sw S1 G)) as [A B].
    pose proof He as (Fr & _ & At). destruct At as (Da & _).
    assert (exists_ (w_fs w1) a = true) as Ea by (unfold is_dir in Da; unfold exists_; destruct (fs_get (w_fs w1) a); auto).
    split.
    + intros p Hp Ep r. assert (p <> a) as Npa by (intros ->; unfold run_can in Hc; rewrite Ep in Hc; discriminate).
      assert (forall r, fs_get (w_fs w1) (p ++ r) = fs_get (w_fs w) (p ++ r)) as K.
      { intros r'. apply Fr; [now apply (rp_log w0 H0)|]. now apply (rp_apart w0 p a r'). }
      rewrite A; [apply K|assumption|]. specialize (K []). rewrite app_nil_r in K. unfold exists_ in *. now rewrite K.
    + intros p [->|Hp] Ne.
      * rewrite (A p Ha Ea). now apply Hg.
      * destruct (path_eq_dec p a) as [->|Npa]; [rewrite (A a Ha Ea); now apply Hg|]. apply B; [assumption|].
        assert (fs_get (w_fs w1) p = fs_get (w_fs w) p) as K.
        { pose proof (rp_apart w0 p a [] (HU p (or_intror Hp)) Ha Npa) as W. pose proof (rp_log w0 H0 p [] (HU p (or_intror Hp))) as W'.
          rewrite app_nil_r in W, W'. now apply Fr. }
        unfold exists_ in *. now rewrite K.
Qed.

Lemma run_step2 p w w' out : RP (run_directory w0) p ->
  (forall x t, In (x, t) (output_files o p) -> proper_name x) -> Inv w0 w ->
  (r <<- op_mkdir p ;; match r with Some b => _ <<- create_run o config nproc b ;; ret true | None => ret false end) w
  = (w', out) ->
  match out with
  | Ok true => run_can w p = true /\ eff2 w w' p /\ Inv w0 w'
  | Ok false => run_can w p = false /\ w' = w
  | Raise e => e <> operation_error
  end.
Proof using H0 HK Hin Hcwd.
  intros Hp Hf HI E. pose proof (run_step_result w0 H0 o config nproc p w w' out Hp Hf HI E) as R.
  destruct out as [[|]|e]; [|exact R|exact R]. destruct R as (R1 & R2 & R3). split; [assumption|]. split; [|assumption].
  split; [assumption|]. pose proof (proj1 HI) as Sw. split; [exact Sw|].
  intros c G. unfold mbind at 1 in E. unfold op_mkdir in E. unfold mbind at 1, get in E.
  destruct (exists_ (w_fs w) p) eqn:X; [injection E as <- HH; discriminate|].
  unfold mbind in E. destruct (disk (fun f => mkdir f p false) w) as [w1 r1] eqn:E1.
  pose proof E1 as E1'. apply disk_result in E1'. destruct r1 as [u|e]; [|discriminate].
  destruct E1' as (f1 & Mk & Ef1 & S1). unfold ret at 1 in E. cbn beta iota in E.
  destruct (create_run o config nproc p w1) as [w2 [u2|e]] eqn:E2; [|discriminate]. destruct u2.
  injection E as <-.
  assert (w_attrs w1 = w_attrs w0) as EA by (unfold settings in *; congruence).
  assert (w_log w1 = w_log w0) as EL by (unfold settings in *; congruence).
  assert (w_root w1 = w_root w) as ER by (unfold settings in *; congruence).
  assert (w_root w = w_root w0) as ER0 by (unfold settings in *; congruence).
  rewrite <- EA. apply (create_config o config nproc p w1 w2 c); [unfold kept_apart; rewrite EA; exact HK|intros r; rewrite EL; now apply (rp_log w0 H0)| |exact E2].
  assert (forall q, out_of_reach w0 q -> fs_get f1 q = fs_get (w_fs w) q) as K.
  { intros q [_ R]. pose proof (proj1 (Inv_J w0 w HI)) as IV.
    apply (mkdir_frame (run_directory w0) (w_log w0) (depth w0) (fun d Hd => run_directory_len w0 d Hd) (run_directory_proper w0 H0)
        (sound_log_place w0 H0) (sound_log_proper w0 H0) (sound_log_ne w0 H0) _ _ p IV Hp Mk).
    intros ->. apply (R p); [now apply ofw_run_path|]. exists []. now rewrite app_nil_r. }
  revert G. unfold given, meant. rewrite ER, ER0, <- !app_assoc, Ef1. cbn [app]. rewrite (K _ Hin), (K _ Hcwd). auto.
Qed.
End Run.

(** ** C68: a new run has the configuration that the user asked for *)
Theorem C68_run_configuration : forall o config x bs nproc errors w w' c d,
  sound w -> logged_runs_exist w -> proper_request (Run o config x bs nproc errors) -> kept_apart w o ->
  out_of_reach w (w_root w ++ s "inputs" :: config) -> out_of_reach w (cwd o ++ config) ->
  meant w (w_root w ++ [s "inputs"]) (cwd o) config c ->
  project_run o config x bs nproc errors w = (w', Ok tt) ->
  selected w bs d -> exists_ (w_fs w) (d ++ [x]) = false ->
  fs_get (w_fs w') (d ++ [x; a_config (w_attrs w)]) = Some (File c).
Proof.
  intros o config x bs nproc errors w w' c d Hs Hl [Hx Hf] HK Hin Hc G E Sd Ne.
  unfold project_run in E. unfold mbind at 1, get in E.
  assert (proper_name (w_base w)) as Nb by apply Hs.
  set (ps := define_one w x bs) in *.
  assert (forall a, In a ps <-> exists d, selected w bs d /\ a = d ++ [x]) as Hps.
  { intro a. unfold ps, define_one. rewrite in_map_iff. split; intros (d' & A & B); exists d'.
    - split; [|now symmetry]. now apply selected_iff.
    - split; [now symmetry|]. now apply selected_iff. }
  assert (forall a, In a ps -> RP (run_directory w) a) as HU.
  { intros a Ha. apply Hps in Ha as (d' & Hd & ->). exists d', x. split; [|now split]. now apply (selected_dir w bs). }
  pose proof (operate_chain run_can (eff2 w o config) op_mkdir (negb errors) (create_run o config nproc) (Inv w) ps
    (fun a v v' r Ha Hv Ev => run_step2 w Hs o config nproc HK Hin Hc a v v' r (HU a Ha) (Hf a) Hv Ev) w w' _ (Inv_refl w Hs Hl) E) as OC.
  cbn beta iota in OC.
  assert (settings w' = settings w) as S'.
  { assert (perform wildcard (Run o config x bs nproc errors) w = (w', Ok tt)) as P by exact E.
    now destruct (perform_logged wildcard (Run o config x bs nproc errors) _ _ _ Hs Hl (conj Hx Hf) P ltac:(discriminate)) as (_ & _ & K). }
  destruct (chain_settings w Hs o config Hin Hc _ _ _ _ OC HU S' c G) as [_ B].
  replace (d ++ [x; a_config (w_attrs w)]) with ((d ++ [x]) ++ [a_config (w_attrs w)]) by now rewrite <- app_assoc.
  apply B; [|assumption]. apply Hps. eauto.
Qed.
Print Assumptions C68_run_configuration.

(** With the default name of the directory for inputs, this is the directory of
    the project; with the default name of the configuration file, the simulation
    reads the copy. *)
Definition project_file (w : world) (config : list str) : path := a_inputs (w_attrs w) ++ config.

(** The property fails for a project made with [inputs='in']: the file in the
    directory for inputs of the project is not found, although it exists, and
    the file of the same name in the current directory is used. *)
Definition odd_options : options := mkoptions None None (Some (s "in")) None None None.
Definition odd_world : world :=
  match open_project ex_fs ex_root None odd_options (Ok []) 100 with
  | Ok w => mkworld (put (w_fs w) (ex_root ++ [s "in"; s "eprem.cfg"]) (File (Text (s "mass = 2")))) (w_root w) (w_branches w) (w_base w) (w_log w) (w_attrs w) (w_steps w)
  | Raise _ => ex_world [] 0
  end.
Theorem C68_custom_inputs_refuted :
  a_inputs (w_attrs odd_world) = ex_root ++ [s "in"]
  /\ fs_get (w_fs odd_world) (project_file odd_world [s "eprem.cfg"]) = Some (File (Text (s "mass = 2")))
  /\ exists w', project_run (ex_outside 0) [s "eprem.cfg"] (s "r1") [] (s "4") true odd_world = (w', Ok tt)
     /\ fs_get (w_fs w') (ex_root ++ [s "runs"; s "r1"; s "eprem.cfg"]) = Some (File (Text (s "mass = 1"))).
Proof.
  split; [vm_compute; reflexivity|]. split; [vm_compute; reflexivity|].
  eexists. split; vm_compute; reflexivity.
Qed.
Print Assumptions C68_custom_inputs_refuted.

(** It fails for a project made with [config='my.cfg']: the configuration is
    copied under that name, but the recorded command reads [eprem.cfg], which
    does not exist in the directory of the run. *)
Definition renamed_world : world :=
  match open_project ex_fs ex_root None (mkoptions None (Some (s "my.cfg")) None None None None) (Ok []) 100 with
  | Ok w => w | Raise _ => ex_world [] 0 end.
Theorem C68_custom_config_refuted : exists w' cmd,
  project_run (ex_outside 0) [s "eprem.cfg"] (s "r1") [] (s "4") true renamed_world = (w', Ok tt)
  /\ record_of w' (path_str (ex_root ++ [s "runs"; s "r1"])) = Some (JObj [(s "command", JStr cmd); (s "time", JStr (s "noon"))])
  /\ (exists before, cmd = before ++ s " eprem.cfg")
  /\ fs_get (w_fs w') (ex_root ++ [s "runs"; s "r1"; s "my.cfg"]) = Some (File (Text (s "mass = 1")))
  /\ fs_get (w_fs w') (ex_root ++ [s "runs"; s "r1"; s "eprem.cfg"]) = None.
Proof.
  eexists. eexists. split; [vm_compute; reflexivity|]. split; [vm_compute; reflexivity|].
  split; [|split; vm_compute; reflexivity].
  exists (s "nice -n 10 ionice -c 2 -n 3 /bin --mca btl_base_warn_component_unused 0 -n 4 /bin"). vm_compute. reflexivity.
Qed.
Print Assumptions C68_custom_config_refuted.

(** The precedence of the file in the project over the one in the current
    directory, in two branches at once. *)
Definition both_world : world :=
  let w := ex_world ab 100 in
  mkworld (put (w_fs w) (ex_root ++ [s "inputs"; s "eprem.cfg"]) (File (Text (s "mass = 4")))) (w_root w) (w_branches w) (w_base w) (w_log w) (w_attrs w) (w_steps w).
Example C68_example : exists w',
  meant both_world (w_root both_world ++ [s "inputs"]) ex_home [s "eprem.cfg"] (Text (s "mass = 4"))
  /\ kept_apart both_world (ex_outside 0)
  /\ out_of_reach both_world (w_root both_world ++ [s "inputs"; s "eprem.cfg"])
  /\ out_of_reach both_world (ex_home ++ [s "eprem.cfg"])
  /\ project_run (ex_outside 0) [s "eprem.cfg"] (s "r1") [s "b"] (s "4") true both_world = (w', Ok tt)
  /\ selected both_world [s "b"] (ex_root ++ [s "b"; s "runs"])
  /\ fs_get (w_fs w') (ex_root ++ [s "b"; s "runs"; s "r1"; s "eprem.cfg"]) = Some (File (Text (s "mass = 4")))
  /\ fs_get (w_fs w') (ex_root ++ [s "a"; s "runs"; s "r1"]) = None.
Proof.
  assert (forall p, run_path both_world p -> exists b x, In b ab /\ p = ex_root ++ [b; s "runs"; x]) as RPs.
  { intros p (d & x & [[C _]|(b & Hb & ->)] & _ & _ & ->); [discriminate C|].
    exists b, x. split; [exact Hb|]. cbn [w_root both_world]. change (w_root (ex_world ab 100)) with ex_root. now rewrite <- app_assoc. }
  eexists. split; [left; vm_compute; reflexivity|]. split.
  { split; [discriminate|]. intros p x t [H|[]]. injection H as <- _. discriminate. }
  split; [|split; [|split; [vm_compute; reflexivity|split; [|split; vm_compute; reflexivity]]]].
  - split; [discriminate|]. intros p Hp [r R]. destruct (RPs p Hp) as (b & x & [<-|[<-|[]]] & ->); discriminate R.
  - split; [discriminate|]. intros p Hp [r R]. destruct (RPs p Hp) as (b & x & [<-|[<-|[]]] & ->); discriminate R.
  - right. exists (s "b"). split; [right; now left|]. split; [reflexivity|right; now left].
Qed.

(** ** C40, continued: an existing project is not reconfigured *)
Theorem C40_existing_not_overwritten : forall f p o script n,
  exists_ f p = true ->
  (o_branches o <> None \/ o_config o <> None \/ o_inputs o <> None \/ o_output o <> None \/ o_rundir o <> None \/ o_logname o <> None) ->
  open_project f p None o script n = Raise (OtherError "ProjectExistsError").
Proof.
  intros f p o script n Hp Ho. unfold open_project, init_project, get_attrs. rewrite Hp. cbn [negb].
  destruct o as [[|] [|] [|] [|] [|] [|]]; cbn [no_options] in *; try reflexivity.
  cbn in Ho. intuition congruence.
Qed.
Print Assumptions C40_existing_not_overwritten.
Example C40_existing_example :
  exists_ (w_fs (ex_world ab 100)) ex_root = true
  /\ open_project (w_fs (ex_world ab 100)) ex_root None (ex_options ab) (Ok []) 9 = Raise (OtherError "ProjectExistsError").
Proof. split; vm_compute; reflexivity. Qed.
