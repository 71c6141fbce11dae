(** What the properties of src/eprempy/project.py say, without the code. *)
From Verif Require Import PyBase ContainerModel FsModel ProjectModel.

(** A name that can be one component of a path. *)
Definition proper_name (x : str) : Prop := x <> [] /\ ~ In "/"%char x.
Definition proper_path (p : path) : Prop := Forall proper_name p.

(** [q] lies strictly below [p]. *)
Definition below (p q : path) : Prop := exists r, r <> [] /\ q = p ++ r.
Definition within (p q : path) : Prop := exists r, q = p ++ r.

(** The directories that hold the runs: one, or one per branch. *)
Definition run_directory (w : world) (d : path) : Prop :=
  (w_branches w = [] /\ d = w_root w ++ [w_base w])
  \/ (exists b, In b (w_branches w) /\ d = w_root w ++ [b; w_base w]).
(** The run named [x] in the directory [d]. *)
Definition run_path (w : world) (p : path) : Prop :=
  exists d x, run_directory w d /\ x <> [] /\ ~ In "/"%char x /\ p = d ++ [x].

(** The record of a run in the log file, if the log file can be read. *)
Definition log_contents (w : world) : option (list (str * json)) :=
  match fs_get (w_fs w) (w_log w) with
  | Some (File (Json (JObj d))) => Some d
  | _ => None
  end.
Definition readable (w : world) : Prop := log_contents w <> None.
Definition record_of (w : world) (key : str) : option json :=
  match log_contents w with
  | Some d => match find (fun e => str_eqb (fst e) key) d with
              | Some e => Some (snd e)
              | None => None
              end
  | None => None
  end.
(** Keys of the log that are not runs: the attributes common to all runs. *)
Definition common_key (k : str) : Prop := k = s "config" \/ k = s "output".

(** What the user does. *)
Inductive request :=
| Run (o : outside) (config : list str) (run : str) (branches : list str) (nproc : str) (errors : bool)
| Mv (source target : str) (branches : list str) (errors : bool)
| Rm (pattern : str) (branches : list str) (errors : bool).

Definition perform (matches : str -> str -> bool) (r : request) : M unit :=
  match r with
  | Run o c n b np e => project_run o c n b np e
  | Mv x y b e => project_mv x y b e
  | Rm x b e => project_rm matches x b e
  end.

(** Requests whose names are names of entries of a run directory. *)
Definition proper_request (r : request) : Prop :=
  match r with
  | Run o c n _ _ _ => proper_name n
      /\ (forall p x t, In (x, t) (output_files o p) -> proper_name x)
  | Mv x y _ _ => proper_name x /\ proper_name y
  | Rm _ _ _ => True
  end.

(** A history: each request is performed in the world that the previous one
    left, whether it succeeded or raised; the outcomes are kept. *)
Fixpoint history (matches : str -> str -> bool) (rs : list request) (w : world) : world * list (result unit) :=
  match rs with
  | [] => (w, [])
  | r :: rs' =>
      let (w1, out) := perform matches r w in
      let (w2, outs) := history matches rs' w1 in
      (w2, out :: outs)
  end.

(** The process was not killed. *)
Definition survived (out : result unit) : Prop := out <> Raise killed.
(** The request did what it was asked, or was refused where it would have been
    impossible or unsafe. *)
Definition done_or_refused (out : result unit) : Prop := out = Ok tt \/ out = Raise operation_error.
Definition simulation_succeeds (r : request) : Prop :=
  match r with Run o _ _ _ _ _ => forall p, returncode o p = 0%Z | _ => True end.

(** The state of a project on disk from which histories start. *)
Record sound (w : world) : Prop := {
  sound_root : proper_path (w_root w);
  sound_base : proper_name (w_base w);
  sound_branches : Forall proper_name (w_branches w);
  sound_config : proper_name (a_config (w_attrs w));
  sound_output : proper_name (a_output (w_attrs w));
  (** the directories for runs exist, and so do the directories above them *)
  sound_dirs : forall d q, run_directory w d -> within q d -> is_dir (w_fs w) q = true;
  (** they contain only directories *)
  sound_runs : forall p, run_path w p -> exists_ (w_fs w) p = true -> is_dir (w_fs w) p = true;
  (** the names on the disk are names *)
  sound_names : forall p n, In (p, n) (w_fs w) -> proper_path p;
  (** the log file is readable and is not inside them *)
  sound_log : readable w;
  sound_log_parent : is_dir (w_fs w) (parent (w_log w)) = true;
  sound_log_place : forall d, run_directory w d -> ~ within d (w_log w) }.

(** Every run in the log is a run directory. *)
Definition logged_runs_exist (w : world) : Prop :=
  forall k, record_of w k <> None -> ~ common_key k ->
  exists p, run_path w p /\ k = path_str p /\ is_dir (w_fs w) p = true.
(** Every run directory is in the log. *)
Definition existing_runs_logged (w : world) : Prop :=
  forall p, run_path w p -> is_dir (w_fs w) p = true -> record_of w (path_str p) <> None.

(** The run directories that a request with the argument [branches] concerns:
    all of them, or those of the named branches. *)
Definition selected (w : world) (bs : list str) (d : path) : Prop :=
  (w_branches w = [] /\ d = w_root w ++ [w_base w] /\ (bs = [] \/ In (name (w_root w)) bs))
  \/ (exists b, In b (w_branches w) /\ d = w_root w ++ [b; w_base w] /\ (bs = [] \/ In b bs)).

(** The run at [p], with everything in it and its record, is as before. *)
Definition untouched (w w' : world) (p : path) : Prop :=
  (forall r, fs_get (w_fs w') (p ++ r) = fs_get (w_fs w) (p ++ r))
  /\ record_of w' (path_str p) = record_of w (path_str p).
(** The run at [p], with everything in it and its record, is now at [q]. *)
Definition moved (w w' : world) (p q : path) : Prop :=
  (forall r, fs_get (w_fs w') (q ++ r) = fs_get (w_fs w) (p ++ r))
  /\ (forall r, fs_get (w_fs w') (p ++ r) = None)
  /\ record_of w' (path_str q) = record_of w (path_str p)
  /\ record_of w' (path_str p) = None.
Definition removed (w w' : world) (p : path) : Prop :=
  (forall r, fs_get (w_fs w') (p ++ r) = None) /\ record_of w' (path_str p) = None.
(** A new run directory whose record has a command and the time of the call. *)
Definition created (o : outside) (w w' : world) (p : path) : Prop :=
  is_dir (w_fs w') p = true
  /\ exists cmd, record_of w' (path_str p) = Some (JObj [(s "command", JStr cmd); (s "time", JStr (now o))]).
(** The outcome of asking for a new run: if the simulation ends well the run is
    recorded, otherwise the log says about it what it said before. *)
Definition attempted (o : outside) (w w' : world) (p : path) : Prop :=
  is_dir (w_fs w') p = true
  /\ (returncode o p = 0%Z -> created o w w' p)
  /\ (returncode o p <> 0%Z -> record_of w' (path_str p) = record_of w (path_str p)).

(** A name that [pathlib] keeps as a component of a path. *)
Definition plain_name (x : str) : Prop := proper_name x /\ x <> s ".".
Definition plain_path (p : path) : Prop := Forall plain_name p.

(** The disk is a tree of proper names: what has a parent lies in a directory. *)
Definition tree (f : fs) : Prop :=
  forall p n, In (p, n) f -> proper_path p /\ is_dir f (parent p) = true.

(** Options that give the runs, the log of a run and the configuration file a
    name. *)
Definition named_options (o : options) : Prop :=
  Forall proper_name (match o_branches o with Some l => l | None => [] end)
  /\ proper_name (or_str (o_config o) (s "eprem.cfg"))
  /\ localize (or_str (o_output o) (s "eprem.log")) <> []
  /\ localize (or_str (o_rundir o) (s "runs")) <> [].
