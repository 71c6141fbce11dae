(** Property C89, continued: surprises, effects on projects, the package. *)
From Verif Require Import PyBase PyLemmas ContainerModel ContainerProofs ContainerProofs2 FsModel FsProofs ProjectModel ProjectSpec
  ProjectProofs5 ScriptModel ScriptProperties CommandModel CommandSpec CommandProofs CommandProperties.

(** ** Lists of branches *)

Lemma well_written_snoc p items n args o : well_written p items -> called p n o -> fitting (okind o) args -> Forall plain args ->
  well_written p (items ++ [Option n args]).
Proof.
  intros H C F Pa. induction items as [|[t|m b] r IH]; cbn [app well_written] in *.
  - split; [|split; [assumption|exact I]]. exists o. split; [assumption|]. split; [assumption|]. discriminate.
  - destruct H as [H1 H2]. split; [assumption|]. now apply IH.
  - destruct H as ((o' & C' & F' & G) & Pb & H2). split; [|split; [assumption|now apply IH]].
    exists o'. split; [assumption|]. split; [assumption|]. intros Gk t r' E. destruct r as [|i r]; [discriminate|].
    cbn in E. injection E as -> _. now apply (G Gk t r).
Qed.

(** Whatever follows [-b] is a branch: a line in which the name of the run or the
    configuration comes after the branches is refused. *)
Theorem C89_branches_last_refuted : forall p items n args,
  In p [run_parser; mv_parser; rm_parser; create_parser] -> well_written p items -> In n branch_names -> Forall plain args ->
  length (bare items) <> length (positionals p) ->
  parse p (line_of items ++ n :: args) = UsageError.
Proof.
  intros p items n args Hp Ww Hn Pa N.
  assert (line_of items ++ n :: args = line_of (items ++ [Option n args])) as ->.
  { unfold line_of. rewrite flat_map_app. cbn. now rewrite app_nil_r. }
  assert (In p parsers) as Ip by (unfold parsers; cbn in *; tauto).
  apply C89_refused; [assumption| |].
  - apply (well_written_snoc p items n args (mkopt [s "-b"; s "--branches"] (s "branches") KMany false)); [assumption| |exact I|assumption].
    split; [|assumption]. cbn in Hp. repeat (destruct Hp as [<-|Hp]; [cbn; tauto|]). destruct Hp.
  - intros (C & _). apply N. unfold bare in C. rewrite flat_map_app in C. cbn in C. rewrite app_nil_r in C. exact C.
Qed.
Print Assumptions C89_branches_last_refuted.

Example C89_branches_last_example : dispatch script_commands (map s ["rm"; "-b"; "A"; "r1"]%string) = UsageError
  /\ dispatch script_commands (map s ["rm"; "r1"; "-b"; "A"]%string) = Parsed (Ok (CallRm (s "r1") (Some [s "A"]) true true)).
Proof. split; vm_compute; reflexivity. Qed.

(** ** Showing runs *)
Definition run_names : list str := [s "-r"; s "--run"].
Definition run_words (nr : str * str) : list str := [fst nr; snd nr].

Lemma show_chunks l : Forall (fun nr => In (fst nr) run_names /\ plain (snd nr)) l ->
  exists o, o = mkopt [s "-r"; s "--run"] (s "runs") KExtend true
  /\ chunks show_parser (flat_map run_words l) = ([], map (fun nr => (o, [snd nr])) l).
Proof.
  intros H. eexists. split; [reflexivity|]. induction H as [|[n r] l [Hn Pr] _ IH]; [reflexivity|].
  cbn [fst snd] in *. cbn [flat_map run_words fst snd app map chunks]. rewrite IH.
  assert (W : well_formed show_parser) by (apply parsers_wf; unfold parsers; member).
  rewrite (find_plain show_parser W r Pr).
  rewrite (find_called show_parser W n (mkopt [s "-r"; s "--run"] (s "runs") KExtend true)); [reflexivity|].
  split; [cbn; tauto|exact Hn].
Qed.

Lemma show_options l : forall st, Forall (fun x => x = s "-r") (seen st) ->
  let o := mkopt [s "-r"; s "--run"] (s "runs") KExtend true in
  exists st', take_options st (map (fun nr : str * str => (o, [snd nr])) l) = Parsed st'
  /\ extra st' = extra st /\ todo st' = todo st
  /\ (forall x, x <> s "runs" -> ns st' x = ns st x)
  /\ (l = [] -> ns st' (s "runs") = ns st (s "runs"))
  /\ (l <> [] -> ns st' (s "runs") = VTexts (match ns st (s "runs") with VTexts k => k | _ => [] end ++ flat_map (fun nr => characters (snd nr)) l)).
Proof.
  induction l as [|[n r] l IH]; intros st Hs o.
  - exists st. split; [reflexivity|]. split; [reflexivity|]. split; [reflexivity|]. split; [reflexivity|]. split; [reflexivity|]. intros N. now destruct N.
  - cbn [map take_options snd o okind consume dest exclusive].
    assert (conflict st o = false) as ->.
    { unfold conflict. cbn [o exclusive option_name strings hd andb]. clear -Hs. induction Hs as [|x k -> Hk IHk]; [reflexivity|].
      cbn [existsb]. now rewrite str_eqb_refl. }
    cbn [take_positionals]. fold o.
    set (st1 := mkpstate _ _ _ _).
    destruct (IH st1) as (st' & E & X & T & Q & N0 & N1).
    { constructor; [reflexivity|exact Hs]. }
    exists st'. split; [exact E|]. split; [exact X|]. split; [exact T|].
    assert (ns st1 (s "runs") = VTexts (match ns st (s "runs") with VTexts k => k | _ => [] end ++ characters r)) as V1.
    { unfold st1, assign. cbn [ns]. rewrite str_eqb_refl. unfold extended. destruct (ns st (s "runs")); reflexivity. }
    split; [|split; [discriminate|]].
    + intros x Hx. rewrite Q by assumption. unfold st1, assign. cbn [ns].
      destruct (str_eqb x (s "runs")) eqn:Ex; [apply str_eqb_eq in Ex; contradiction|reflexivity].
    + intros _. destruct l as [|nr l].
      * rewrite N0 by reflexivity. rewrite V1. cbn. now rewrite app_nil_r.
      * rewrite N1 by discriminate. rewrite V1. cbn [flat_map snd]. now rewrite <- app_assoc.
Qed.

(** [show path -r run ...] asks for the characters of the names of the runs, not
    for the runs. *)
Theorem C89_show_refuted : forall path l, plain path -> Forall (fun nr => In (fst nr) run_names /\ plain (snd nr)) l ->
  dispatch project_commands (s "show" :: path :: flat_map run_words l)
  = Parsed (Ok (CallShow path (flat_map (fun nr => map (fun c => [c]) (snd nr)) l))).
Proof.
  intros path l Pp H.
  change (dispatch project_commands (s "show" :: path :: flat_map run_words l)) with
    (match parse show_parser (path :: flat_map run_words l) with
     | Parsed a => Parsed (Ok (CallShow (given_text (a (s "path"))) (match texts (a (s "runs")) with Some l => l | None => [] end)))
     | UsageError => UsageError | Unmodelled => Unmodelled end).
  assert (W : well_formed show_parser) by (apply parsers_wf; unfold parsers; member).
  unfold parse. match goal with |- context [existsb ?g ?ts] => assert (existsb g ts = false) as -> end.
  { cbn [existsb]. rewrite (proj1 (plain_dashed path) Pp). cbn [andb orb].
    clear -H W. induction H as [|[n r] l [Hn Pr] _ IH]; [reflexivity|]. cbn [fst snd] in *. cbn [flat_map run_words fst snd app existsb].
    rewrite (find_called show_parser W n (mkopt [s "-r"; s "--run"] (s "runs") KExtend true)) by (split; [cbn; tauto|exact Hn]).
    rewrite Bool.andb_false_r, (proj1 (plain_dashed r) Pr). exact IH. }
  destruct (show_chunks l H) as (o & Eo & Ec). cbn [chunks]. rewrite Ec, (find_plain show_parser W path Pp).
  cbn [show_parser positionals take_positionals todo ns extra seen].
  match goal with |- context [take_options ?st _] => set (st0 := st) end.
  destruct (show_options l st0) as (st' & E & X & T & Q & N0 & N1); [constructor|]. subst o. rewrite E, X, T.
  cbn [st0 extra todo required show_parser]. cbn iota beta. rewrite Q by (vm_compute; discriminate).
  replace (ns st0 (s "path")) with (VText path) by (unfold st0, assign; cbn [ns]; now rewrite str_eqb_refl).
  cbn [given_text]. do 3 f_equal.
  destruct l as [|nr l].
  - rewrite N0 by reflexivity. reflexivity.
  - rewrite N1 by discriminate. reflexivity.
Qed.
Print Assumptions C89_show_refuted.

(** [show path -a] asks for all runs. *)
Theorem C89_show_all : forall path n, plain path -> In n [s "-a"; s "--all"] ->
  dispatch project_commands [s "show"; path; n] = Parsed (Ok (CallShow path [s "*"])).
Proof.
  intros path n Pp Hn. apply plain_dashed in Pp as Pd.
  assert (W : well_formed show_parser) by (apply parsers_wf; unfold parsers; member).
  change (dispatch project_commands [s "show"; path; n]) with
    (match parse show_parser [path; n] with
     | Parsed a => Parsed (Ok (CallShow (given_text (a (s "path"))) (match texts (a (s "runs")) with Some l => l | None => [] end)))
     | UsageError => UsageError | Unmodelled => Unmodelled end).
  unfold parse. cbn [existsb]. rewrite Pd.
  pose proof (find_called show_parser W n (mkopt [s "-a"; s "--all"] (s "runs") (KConst (s "*")) true)) as Fn.
  rewrite Fn by (split; [cbn; tauto|exact Hn]). rewrite Bool.andb_false_r. cbn [andb orb chunks].
  rewrite Fn by (split; [cbn; tauto|exact Hn]). rewrite (find_plain show_parser W path Pp). reflexivity.
Qed.
Print Assumptions C89_show_all.

Example C89_show_example :
  dispatch project_commands (map s ["show"; "prj"; "-r"; "run1"; "--run"; "b"]%string)
  = Parsed (Ok (CallShow (s "prj") [s "r"; s "u"; s "n"; s "1"; s "b"]))
  /\ dispatch project_commands (map s ["show"; "prj"; "-r"; "run1"; "-a"]%string) = UsageError.
Proof. split; vm_compute; reflexivity. Qed.

(** ** The subcommand *)
Definition command_names (table : list (str * (parser * (namespace -> call)))) : list str := map fst table.

(** Without a subcommand there is no usage message: [KeyError] is raised. *)
Theorem C89_no_command_refuted : forall table, dispatch table [] = Parsed (Raise KeyError).
Proof. reflexivity. Qed.
Print Assumptions C89_no_command_refuted.

(** Another name is a usage error. *)
Theorem C89_unknown_command : forall table t ts, plain t -> ~ In t (command_names table) ->
  dispatch table (t :: ts) = UsageError.
Proof.
  intros table t ts Pt N. cbn. rewrite (proj1 (plain_dashed t) Pt).
  destruct (lookup str_eqb table t) as [[p k]|e] eqn:E; [|reflexivity]. exfalso. apply N.
  clear -E. revert E. unfold command_names.
  induction table as [|[x v] r IH]; cbn; [discriminate|]. destruct (str_eqb x t) eqn:Q; [apply str_eqb_eq in Q; now left|].
  intros E. right. now apply IH.
Qed.
Print Assumptions C89_unknown_command.
Example C89_unknown_example : command_names script_commands = map s ["run"; "mv"; "rm"]%string
  /\ command_names project_commands = map s ["create"; "reset"; "rename"; "remove"; "show"]%string
  /\ plain (s "move") /\ ~ In (s "move") (command_names script_commands).
Proof. split; [reflexivity|]. split; [reflexivity|]. split; [is_plain|]. cbn. intuition discriminate. Qed.

(** ** Effects on the project *)

(** The commands of the script perform the operation on the project in the
    directory of the script, in the named branches; nothing and [-b] alone mean
    all branches. *)
Theorem C89_script_effects : forall matches o clock script k f directory w,
  open_project f directory None (mkoptions None None None None None None) script k = Ok w ->
  (forall items target bs force verbose, well_written rm_parser items -> bare items = [target] ->
     says_list items branch_names bs -> says_flag items force_names force -> says_flag items verbose_names verbose ->
     script_main matches o clock script k f directory (s "rm" :: line_of items)
     = Parsed (Ok (project_rm matches target (match bs with Some l => l | None => [] end) (negb force) w)))
  /\ (forall items source target bs force verbose, well_written mv_parser items -> bare items = [source; target] ->
     says_list items branch_names bs -> says_flag items force_names force -> says_flag items verbose_names verbose ->
     script_main matches o clock script k f directory (s "mv" :: line_of items)
     = Parsed (Ok (project_mv source target (match bs with Some l => l | None => [] end) (negb force) w))).
Proof.
  intros matches o clock script k f directory w E. split.
  - intros items target bs force verbose Ww B Sb Sf Sv. unfold script_main.
    rewrite (C89_script_rm items target bs force verbose Ww B Sb Sf Sv). unfold no_settings. rewrite E. reflexivity.
  - intros items source target bs force verbose Ww B Sb Sf Sv. unfold script_main.
    rewrite (C89_script_mv items source target bs force verbose Ww B Sb Sf Sv). unfold no_settings. rewrite E. reflexivity.
Qed.
Print Assumptions C89_script_effects.

(** [run]: the programs given with [-m] and [-e] are those below the current
    directory with these names; an empty name or none leaves the choice open; the
    number of processes is written in decimals, at least 1. *)
Theorem C89_script_run_effect : forall matches o clock script k f directory w,
  open_project f directory None (mkoptions None None None None None None) script k = Ok w ->
  forall items config name bs np mpirun eprem force verbose, well_written run_parser items -> bare items = [config] ->
  says_text items [s "-t"; s "--target"] name -> says_list items branch_names bs -> says_text items [s "-n"; s "--nproc"] np ->
  says_flag items force_names force -> says_text items [s "-m"; s "--mpirun"] mpirun -> says_text items [s "-e"; s "--eprem"] eprem ->
  says_flag items verbose_names verbose ->
  exists o', script_main matches o clock script k f directory (s "run" :: line_of items)
     = Parsed (Ok (project_run o' (components config) (match name with Some (c :: r) => c :: r | _ => clock end)
          (match bs with Some l => l | None => [] end)
          (str_of_N (match np with Some t => N.max 1 (N_of_str t) | None => 1 end)) (negb force) w))
  /\ (forall t, mpirun = Some t -> t <> [] -> environment o' (s "mpirun") = Some (resolved (cwd o) t))
  /\ (mpirun = None \/ mpirun = Some [] -> environment o' (s "mpirun") = None)
  /\ (forall t, eprem = Some t -> t <> [] -> environment o' (s "eprem") = Some (resolved (cwd o) t))
  /\ (eprem = None \/ eprem = Some [] -> environment o' (s "eprem") = None)
  /\ which o' = which o /\ cwd o' = cwd o /\ output_files o' = output_files o /\ returncode o' = returncode o /\ now o' = now o.
Proof.
  intros matches o clock script k f directory w E items config name bs np mpirun eprem force verbose Ww B St Sb Sn Sf Sm Se Sv.
  exists (chosen o mpirun eprem). split.
  - unfold script_main. rewrite (C89_script_run items config name bs np mpirun eprem force verbose Ww B St Sb Sn Sf Sm Se Sv).
    unfold no_settings. rewrite E. cbn [bind]. do 2 f_equal. unfold perform_call. f_equal.
    unfold processes. destruct np as [t|]; [|reflexivity]. f_equal. destruct (N.eqb_spec (N_of_str t) 0); lia.
  - unfold chosen. cbn [environment which cwd output_files returncode now].
    change (str_eqb (s "mpirun") (s "mpirun")) with true. change (str_eqb (s "eprem") (s "mpirun")) with false.
    change (str_eqb (s "eprem") (s "eprem")) with true. cbn iota.
    split; [intros t -> Nt; destruct t; [contradiction|reflexivity]|].
    split; [intros [->| ->]; reflexivity|].
    split; [intros t -> Nt; destruct t; [contradiction|reflexivity]|].
    split; [intros [->| ->]; reflexivity|]. repeat split; reflexivity.
Qed.
Print Assumptions C89_script_run_effect.

(** The commands for projects open the project at the path and perform the
    operation. *)
Theorem C89_project_effects : forall matches o clock script k f path w,
  open_project f (resolved (cwd o) path) None (mkoptions None None None None None None) script k = Ok w ->
  (forall items force verbose, well_written reset_parser items -> bare items = [path] ->
     says_flag items force_names force -> says_flag items verbose_names verbose ->
     project_main matches o clock script k f (s "reset" :: line_of items) = Parsed (Ok (project_reset matches force w))
     /\ project_main matches o clock script k f (s "remove" :: line_of items) = Parsed (Ok (project_remove force w)))
  /\ (forall items target force verbose, well_written rename_parser items -> bare items = [path; target] ->
     says_flag items force_names force -> says_flag items verbose_names verbose ->
     project_main matches o clock script k f (s "rename" :: line_of items)
     = Parsed (Ok (project_rename (resolved (cwd o) target) force w))).
Proof.
  intros matches o clock script k f path w E. split.
  - intros items force verbose Ww B Sf Sv. unfold project_main.
    rewrite (C89_reset items path force verbose Ww B Sf Sv), (C89_remove items path force verbose Ww B Sf Sv).
    unfold execute, no_settings. rewrite E. split; reflexivity.
  - intros items target force verbose Ww B Sf Sv. unfold project_main.
    rewrite (C89_rename items path target force verbose Ww B Sf Sv). unfold execute, no_settings. rewrite E. reflexivity.
Qed.
Print Assumptions C89_project_effects.

(** [create] opens the project at the path with the settings that are given; with
    [--copy] and the path of a project, from that project (C59 for what is
    copied); without it, or with an empty text, from nothing. *)
Theorem C89_create_effect : forall matches o clock script k f items path bs config inputs output rundir logname copy source,
  well_written create_parser items -> bare items = [path] ->
  says_list items branch_names bs -> says_text items [s "-c"; s "--config"] config -> says_text items [s "-i"; s "--inputs"] inputs ->
  says_text items [s "-o"; s "--output"] output -> says_text items [s "-d"; s "--rundir"] rundir ->
  says_text items [s "-l"; s "--logname"] logname -> says_text items [s "--copy"] copy ->
  (exists q, copy = Some q /\ q <> [] /\ source = Some (resolved (cwd o) q)) \/ ((copy = None \/ copy = Some []) /\ source = None) ->
  let ending := project_main matches o clock script k f (s "create" :: line_of items) in
  let opened := open_project f (resolved (cwd o) path) source (mkoptions bs config inputs output rundir logname) script k in
  (forall w, opened = Ok w -> ending = Parsed (Ok (w, Ok tt))) /\ (forall e, opened = Raise e -> ending = Parsed (Raise e)).
Proof.
  intros matches o clock script k f items path bs config inputs output rundir logname copy source Ww B S1 S2 S3 S4 S5 S6 S7 Src ending opened.
  assert (E : ending = Parsed (w <- opened ;; Ok (w, Ok tt))).
  { unfold ending, opened, project_main. rewrite (C89_create items path bs config inputs output rundir logname copy Ww B S1 S2 S3 S4 S5 S6 S7). unfold execute.
    destruct Src as [(q & -> & N & ->)|([->| ->] & ->)]; [destruct q; [contradiction|]| |]; reflexivity. }
  rewrite E. split; intros x ->; reflexivity.
Qed.
Print Assumptions C89_create_effect.
Example C89_create_copy_example :
  let items := [Bare (s "new"); Option (s "--copy") [s "old"]] in
  well_written create_parser items /\ bare items = [s "new"] /\ says_text items [s "--copy"] (Some (s "old")) /\
  says_list items branch_names None /\ says_text items [s "-c"; s "--config"] None /\
  dispatch project_commands (s "create" :: line_of items) = Parsed (Ok (CallCreate (s "new") (mkoptions None None None None None None) (Some (s "old")))).
Proof.
  split; [|split; [reflexivity|split; [|split; [|split; [|vm_compute; reflexivity]]]]].
  - cbn [well_written]. split; [is_plain|]. split; [|split; [repeat constructor; is_plain|exact I]].
    exists (mkopt [s "--copy"] (s "copy") KOne false). split; [split; cbn; tauto|]. split; [eexists; reflexivity|intros [|]; discriminate].
  - exists [Bare (s "new")], (s "--copy"), []. split; [reflexivity|]. split; [left; reflexivity|]. intros (n & x & _ & []).
  - intros (n & x & K & [J|[J|[]]]); [discriminate J|]. injection J as <- <-. cbn in K. repeat (destruct K as [K|K]; [discriminate K|]). destruct K.
  - intros (n & x & K & [J|[J|[]]]); [discriminate J|]. injection J as <- <-. cbn in K. repeat (destruct K as [K|K]; [discriminate K|]). destruct K.
Qed.

(** With the template of this commit no [create] command for a new path
    succeeds, however it is written. *)
Theorem C89_create_command_refuted : forall matches o clock directory k f items path bs config inputs output rundir logname r,
  well_written create_parser items -> bare items = [path] ->
  says_list items branch_names bs -> says_text items [s "-c"; s "--config"] config -> says_text items [s "-i"; s "--inputs"] inputs ->
  says_text items [s "-o"; s "--output"] output -> says_text items [s "-d"; s "--rundir"] rundir ->
  says_text items [s "-l"; s "--logname"] logname -> says_text items [s "--copy"] None ->
  let given := mkoptions bs config inputs output rundir logname in
  tree f -> proper_path (resolved (cwd o) path) -> exists_ f (resolved (cwd o) path) = false ->
  ProjectSpec.named_options given -> no_such_directory given ->
  project_main matches o clock (shipped_script (s "__main__") directory) k f (s "create" :: line_of items) <> Parsed (Ok r).
Proof.
  intros matches o clock directory k f items path bs config inputs output rundir logname r Ww B S1 S2 S3 S4 S5 S6 S7 given T Pp Np No Nd.
  unfold project_main. rewrite (C89_create items path bs config inputs output rundir logname None Ww B S1 S2 S3 S4 S5 S6 S7).
  unfold execute. fold given. destruct (open_project f (resolved (cwd o) path) None given (shipped_script (s "__main__") directory) k) as [w|e] eqn:E; [|discriminate].
  exfalso. revert E. apply C88_create_refuted; try assumption; vm_compute; discriminate.
Qed.
Print Assumptions C89_create_command_refuted.

(** ** The command line of the package *)
Definition generate_names : list str := [s "-g"; s "--generate"].
Definition compare_names : list str := [s "-c"; s "--compare"].

Theorem C89_configfile : forall items source verbose diff names,
  well_written configfile_parser items -> bare items = [] ->
  says_text items [s "-s"; s "--source"] source -> says_flag items verbose_names verbose ->
  says_flag items [s "--diff"] diff -> says_flag items [s "--names"] names ->
  (forall file, last_is items generate_names [file] -> ~ has items compare_names ->
     package_main false (s "configfile" :: line_of items)
     = Parsed (match file with [] => DoNothing | _ => Generate file source verbose end))
  /\ (forall files, last_is items compare_names files -> ~ has items generate_names ->
     package_main false (s "configfile" :: line_of items) = Parsed (Compare files source diff names))
  /\ (has items generate_names -> has items compare_names -> package_main false (s "configfile" :: line_of items) = UsageError)
  /\ (~ has items generate_names -> ~ has items compare_names -> package_main false (s "configfile" :: line_of items) = UsageError).
Proof.
  intros items source verbose diff names Ww B Ss Sv Sd Sn.
  assert (W : well_formed configfile_parser) by (apply parsers_wf; unfold parsers; member).
  assert (Ip : In configfile_parser parsers) by (unfold parsers; member).
  set (og := mkopt [s "-g"; s "--generate"] (s "generate") KOne true).
  set (oc := mkopt [s "-c"; s "--compare"] (s "files") KMany1 true).
  assert (forall o, In o (opts configfile_parser) -> exclusive o = true -> o = og \/ o = oc) as Xo.
  { intros o Io X. cbn in Io. repeat (destruct Io as [<-|Io]; [first [discriminate | now left | now right]|]). destruct Io. }
  assert (Gg : forall o names, In o (opts configfile_parser) -> strings o = names -> (given configfile_parser items o <-> has items names)).
  { intros o nms Io <-. split.
    - intros (n & args & I & [_ C]). now exists n, args.
    - intros (n & args & C & I). exists n, args. split; [assumption|now split]. }
  assert (Hg := Gg og generate_names ltac:(member) eq_refl). assert (Hc := Gg oc compare_names ltac:(member) eq_refl). clear Gg.
  assert (forall o, given configfile_parser items o -> In o (opts configfile_parser)) as Gi by (intros o (n & args & _ & [Io _]); exact Io).
  change (package_main false (s "configfile" :: line_of items)) with
    (match parse configfile_parser (line_of items) with
     | Parsed a => Parsed (configfile_action a) | UsageError => UsageError | Unmodelled => Unmodelled end).
  assert (Read : forall a, settings_of configfile_parser items a ->
    text (a (s "source")) = source /\ on (a (s "verbose")) = verbose /\ on (a (s "diff")) = diff /\ on (a (s "names")) = names).
  { intros a S. split; [|split; [|split]].
    - exact (read_text configfile_parser W items a S (one "-s" "--source" "source") ltac:(member) ltac:(sole) source eq_refl Ss).
    - exact (read_flag configfile_parser W items a S (flag "-v" "--verbose" "verbose") ltac:(member) ltac:(sole) verbose eq_refl Sv).
    - exact (read_flag configfile_parser W items a S (mkopt [s "--diff"] (s "diff") KFlag false) ltac:(member) ltac:(sole) diff eq_refl Sd).
    - exact (read_flag configfile_parser W items a S (mkopt [s "--names"] (s "names") KFlag false) ltac:(member) ltac:(sole) names eq_refl Sn). }
  assert (Last : forall nms args, last_is items nms args -> has items nms).
  { intros nms args (before & n & after & -> & Hn & _). exists n, args. split; [assumption|]. apply in_or_app. right. now left. }
  split; [|split; [|split]].
  - intros file L N. destruct (C89_accepted configfile_parser items Ip Ww) as (a & E & S).
    { split; [now rewrite B|]. split.
      - intros o o' G G' X X'. destruct (Xo o (Gi o G) X) as [->| ->]; [|exfalso; now apply N, Hc].
        destruct (Xo o' (Gi o' G') X') as [->| ->]; [reflexivity|exfalso; now apply N, Hc].
      - intros _. exists og. split; [apply Hg; eapply Last; exact L|reflexivity]. }
    rewrite E. destruct (Read a S) as (R1 & R2 & R3 & R4).
    pose proof (setting_last configfile_parser W items a S og ltac:(member) ltac:(sole) [file] L) as V. cbn in V.
    destruct V as (t & Et & V). injection Et as <-.
    pose proof (setting_none configfile_parser W items a S oc ltac:(member) ltac:(sole) N) as V2. cbn in V2.
    change (a (s "generate") = VText file) in V. change (a (s "files") = VNone) in V2.
    unfold configfile_action. rewrite V, V2, R1, R2. now destruct file.
  - intros files L N. destruct (C89_accepted configfile_parser items Ip Ww) as (a & E & S).
    { split; [now rewrite B|]. split.
      - intros o o' G G' X X'. destruct (Xo o (Gi o G) X) as [->| ->]; [exfalso; now apply N, Hg|].
        destruct (Xo o' (Gi o' G') X') as [->| ->]; [exfalso; now apply N, Hg|reflexivity].
      - intros _. exists oc. split; [apply Hc; eapply Last; exact L|reflexivity]. }
    rewrite E. destruct (Read a S) as (R1 & R2 & R3 & R4).
    pose proof (setting_last configfile_parser W items a S oc ltac:(member) ltac:(sole) files L) as V. cbn in V.
    pose proof (setting_none configfile_parser W items a S og ltac:(member) ltac:(sole) N) as V2. cbn in V2.
    change (a (s "files") = VTexts files) in V. change (a (s "generate") = VNone) in V2.
    assert (files <> []) as Nf.
    { destruct L as (before & n & after & Ei & Hn & _).
      clear -oc Ww Ei Hn W. revert items Ei Ww. induction before as [|i before IH]; intros items Ei Ww; subst items.
      - cbn in Ww. destruct Ww as ((o & C & F & _) & _). assert (o = oc) as ->.
        { apply (distinct_options _ W n o oc C). split; [member|exact Hn]. }
        exact F.
      - cbn [app] in Ww. apply (IH (before ++ Option n files :: after) eq_refl). destruct i; cbn in Ww; apply Ww. }
    unfold configfile_action. rewrite V, V2, R1, R3, R4. destruct files; [contradiction|reflexivity].
  - intros H1 H2. rewrite (C89_refused configfile_parser items Ip Ww); [reflexivity|].
    intros (_ & C & _). assert (og = oc) as Q by (apply C; [now apply Hg|now apply Hc|reflexivity|reflexivity]). discriminate.
  - intros H1 H2. rewrite (C89_refused configfile_parser items Ip Ww); [reflexivity|].
    intros (_ & _ & C). destruct (C eq_refl) as (o & G & X). destruct (Xo o (Gi o G) X) as [->| ->]; [now apply H1, Hg|now apply H2, Hc].
Qed.
Print Assumptions C89_configfile.

(** [-V] counts before everything else; nothing at all is a usage error. *)
Theorem C89_version : forall l, Forall (fun t => t = s "-V" \/ t = s "--version") l ->
  package_main false l = (match l with [] => UsageError | _ => Parsed PrintVersion end)
  /\ forall items, well_written configfile_parser items -> complete configfile_parser items -> l <> [] ->
     package_main false (l ++ s "configfile" :: line_of items) = Parsed PrintVersion.
Proof.
  intros l H. split.
  - assert (forall b l, Forall (fun t => t = s "-V" \/ t = s "--version") l ->
      package_main b l = (if (b || match l with [] => false | _ => true end)%bool then Parsed PrintVersion else UsageError)) as Q.
    { intros b k Hk. revert b. induction Hk as [|t k Ht _ IH]; intros b; [now destruct b|].
      cbn [package_main]. replace (is_version t) with true by (destruct Ht as [->| ->]; reflexivity). rewrite IH. now destruct b. }
    rewrite (Q false l H). now destruct l.
  - intros items Ww C Nl. assert (In configfile_parser parsers) as Ip by (unfold parsers; member). destruct (C89_accepted configfile_parser items Ip Ww C) as (a & E & _).
    assert (forall b l, Forall (fun t => t = s "-V" \/ t = s "--version") l -> (b = true \/ l <> []) ->
      package_main b (l ++ s "configfile" :: line_of items) = Parsed PrintVersion) as Q.
    { intros b k Hk. revert b. induction Hk as [|t k Ht _ IH]; intros b [Hb|Hb].
      - subst b. change (package_main true ([] ++ s "configfile" :: line_of items)) with
          (match parse configfile_parser (line_of items) with
           | Parsed a => Parsed PrintVersion | UsageError => UsageError | Unmodelled => Unmodelled end). now rewrite E.
      - contradiction.
      - cbn [app package_main]. replace (is_version t) with true by (destruct Ht as [->| ->]; reflexivity). apply IH. now left.
      - cbn [app package_main]. replace (is_version t) with true by (destruct Ht as [->| ->]; reflexivity). apply IH. now left. }
    apply Q; [assumption|now right].
Qed.
Print Assumptions C89_version.

Example C89_package_example :
  package_main false (map s ["configfile"; "--diff"; "-c"; "a.cfg"; "b.cfg"; "-s"; "src"]%string)
  = Parsed (Compare [s "a.cfg"; s "b.cfg"] (Some (s "src")) true false)
  /\ package_main false (map s ["configfile"; "-v"; "-g"; "new.cfg"]%string) = Parsed (Generate (s "new.cfg") None true)
  /\ package_main false (map s ["configfile"; "-g"; ""]%string) = Parsed DoNothing
  /\ package_main false (map s ["configfile"; "-g"; "a"; "-c"; "b"]%string) = UsageError.
Proof. repeat split; vm_compute; reflexivity. Qed.
