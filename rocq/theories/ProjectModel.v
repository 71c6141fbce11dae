(** Model of src/eprempy/project.py: RunLog, _PathOperation, RunPaths, Attrs
    and Interface (the command lines at the end of the file are in CommandModel;
    the printed messages are not modelled). *)
From Verif Require Import PyBase ContainerModel FsModel.

(** ** The world: the disk, and the attributes of one [Interface] object *)

(** src/eprempy/project.py:593-613 [Attrs.__init__]: the public attributes. *)
Record attrs := mkattrs {
  a_root : path; a_branches : list str; a_config : str; a_inputs : path;
  a_output : str; a_rundir : str; a_logname : str }.

(** src/eprempy/project.py:359-370 and 689-723: the mutable state.  [w_root],
    [w_branches], [w_base] are the attributes of [RunPaths]; its cached
    [_listing] is recomputed here, because [update] (372-393), the only method
    that changes what it depends on, resets it. *)
Record world := mkworld {
  w_fs : fs; w_root : path; w_branches : list str; w_base : str;
  w_log : path; w_attrs : attrs;
  w_steps : nat }.

(** [w_steps] is not in the code: it is the number of changes that the process
    can still make to the disk before it is killed, so that a theorem for every
    [w_steps] is a theorem for every crash point. *)
Definition killed : exn := OtherError "Killed".

(** Python statements: they change the world even when they end by raising. *)
Definition M (A : Type) := world -> world * result A.
Definition ret {A} (a : A) : M A := fun w => (w, Ok a).
Definition raise {A} (e : exn) : M A := fun w => (w, Raise e).
Definition mbind {A B} (m : M A) (k : A -> M B) : M B :=
  fun w => match m w with
           | (w', Ok a) => k a w'
           | (w', Raise e) => (w', Raise e)
           end.
Notation "x <<- m ;; k" := (mbind m (fun x => k))
  (at level 61, m at next level, right associativity).
Definition get {A} (g : world -> A) : M A := fun w => (w, Ok (g w)).
Definition lift {A} (r : result A) : M A := fun w => (w, r).
Definition set_fs (f : fs) : M unit :=
  fun w => match w_steps w with
           | O => (w, Raise killed)
           | S n => (mkworld f (w_root w) (w_branches w) (w_base w) (w_log w) (w_attrs w) n, Ok tt)
           end.
(** One change of the disk, which either succeeds or leaves the disk alone. *)
Definition disk (op : fs -> result fs) : M unit :=
  f <<- get w_fs ;; f' <<- lift (op f) ;; set_fs f'.

Definition operation_error : exn := OtherError "PathOperationError".
Definition path_type_error : exn := OtherError "PathTypeError".
Definition log_key_error : exn := OtherError "LogKeyError".

(** ** RunLog (src/eprempy/project.py:48-260) *)

Definition log_dict := list (str * json).

(** src/eprempy/project.py:226-230 [_asdict] *)
Definition log_read : M log_dict :=
  f <<- get w_fs ;; p <<- get w_log ;;
  c <<- lift (read f p) ;;
  match c with
  | Json (JObj d) => ret d
  | Json (JList []) => ret []
  | Json _ => raise TypeError
  | Text _ => raise (OtherError "JSONDecodeError")
  end.

(** src/eprempy/project.py:232-239 [dump]: opening the file empties it, then the
    dictionary is written. *)
Definition log_dump (d : log_dict) : M unit :=
  p <<- get w_log ;;
  _ <<- disk (fun f => write f p (Text [])) ;;
  disk (fun f => write f p (Json (JObj d))).

(** src/eprempy/project.py:142-158 [create] with one mapping *)
Definition log_create (key : str) (new : json) : M unit :=
  d <<- log_read ;; log_dump (dict_put str_eqb d key new).

(** src/eprempy/project.py:91-95 [__getitem__] *)
Definition log_get (key : str) : M json :=
  d <<- log_read ;;
  lift (match lookup str_eqb d key with Ok v => Ok v | Raise _ => Raise log_key_error end).

Definition without_key {V} (d : list (str * V)) (k : str) : list (str * V) :=
  filter (fun e => negb (str_eqb (fst e) k)) d.

(** src/eprempy/project.py:207-218 [mv] *)
Definition log_mv (old new : str) : M unit :=
  d <<- log_read ;;
  match lookup str_eqb d old with
  | Raise _ => raise log_key_error
  | Ok v => log_dump (dict_put str_eqb (without_key d old) new v)
  end.

(** src/eprempy/project.py:220-224 [rm] *)
Definition log_rm (target : str) : M unit :=
  d <<- log_read ;; log_dump (without_key d target).

(** src/eprempy/project.py:193-205 [append] *)
Definition log_append (target key : str) (value : json) : M unit :=
  d <<- log_read ;;
  match lookup str_eqb d target with
  | Raise _ => raise log_key_error
  | Ok (JObj r) => log_dump (dict_put str_eqb d target (JObj (dict_put str_eqb r key value)))
  | Ok _ => raise TypeError
  end.

(** [dict.update], as used by [load] (src/eprempy/project.py:160-179, modelled in
    RunLogModel) *)
Definition dict_update {V} (d new : list (str * V)) : list (str * V) :=
  fold_left (fun d e => dict_put str_eqb d (fst e) (snd e)) new d.

(** src/eprempy/project.py:97-124 [update_directory]: the new path is assigned
    before [source] is computed from it (lines 120-121). *)
Fixpoint log_mv_all (source new : str) (keys : list str) : M unit :=
  match keys with
  | [] => ret tt
  | k :: keys' => _ <<- log_mv k (str_replace source new k) ;; log_mv_all source new keys'
  end.
Definition set_log (p : path) : M unit :=
  fun w => (mkworld (w_fs w) (w_root w) (w_branches w) (w_base w) p (w_attrs w) (w_steps w), Ok tt).
Definition log_update_directory (new : path) : M unit :=
  f <<- get w_fs ;;
  if negb (exists_ f new) then raise path_type_error
  else if negb (is_dir f new) then raise path_type_error
  else
    old <<- get w_log ;;
    _ <<- set_log (new ++ [name old]) ;;
    here <<- get w_log ;;
    let source := path_str (parent here) in
    d <<- log_read ;;
    log_mv_all source (path_str new) (map fst d).

(** ** RunPaths (src/eprempy/project.py:356-588) *)

(** [root / local], where [[]] stands for [pathlib.Path('.')]. *)
Definition join_local (root : path) (x : str) : path :=
  match x with [] => root | _ => root ++ [x] end.

(** src/eprempy/project.py:562-577 [listing] *)
Definition listing_of (root : path) (branches : list str) (base : str) : list path :=
  match branches with
  | [] => [join_local root base]
  | _ => map (fun b => join_local (root ++ [b]) base) branches
  end.
Definition listing (w : world) : list path := listing_of (w_root w) (w_branches w) (w_base w).

(** src/eprempy/project.py:549-560 [_get_rundirs] *)
Definition rundirs (w : world) (branches : list str) : list path :=
  match branches with
  | [] => listing w
  | _ => filter (fun d => mem str_eqb (name (parent d)) branches) (listing w)
  end.

(** src/eprempy/project.py:483-507 [define] with one name, with two names, and
    with a pattern (an empty pattern counts as none, and then, there being no
    names, everything is listed). *)
Definition define_one (w : world) (x : str) (branches : list str) : list path :=
  map (fun d => d ++ [x]) (rundirs w branches).
Definition define_two (w : world) (x y : str) (branches : list str) : list (path * path) :=
  map (fun d => (d ++ [x], d ++ [y])) (rundirs w branches).
Definition define_pattern (matches : str -> str -> bool) (w : world) (pattern : str)
    (branches : list str) : list path :=
  let pattern := match pattern with [] => s "*" | _ => pattern end in
  flat_map (fun d => glob matches (w_fs w) d pattern) (rundirs w branches).

(** src/eprempy/project.py:418-426 [_mkdir]; an error that is returned, not
    raised, is [Ok None]. *)
Definition op_mkdir (p : path) : M (option path) :=
  f <<- get w_fs ;;
  if exists_ f p then ret None
  else _ <<- disk (fun f => mkdir f p false) ;; ret (Some p).

(** src/eprempy/project.py:438-456 [_mv] *)
Definition op_mv (pq : path * path) : M (option (path * path)) :=
  let (p, q) := pq in
  f <<- get w_fs ;;
  if negb (exists_ f p) then ret None
  else if negb (is_dir f p) then ret None
  else if exists_ f q then ret None
  else _ <<- disk (fun f => rename f p q) ;; ret (Some (p, q)).

(** src/eprempy/project.py:469-481 [_rm] *)
Definition op_rm (p : path) : M (option path) :=
  f <<- get w_fs ;;
  if negb (exists_ f p) then ret None
  else if negb (is_dir f p) then ret None
  else _ <<- disk (fun f => Ok (rmtree f p)) ;; ret (Some p).

(** src/eprempy/project.py:271-340 [_PathOperation.__iter__], driven by the
    [for] loop of the caller, whose body runs after each successful step. *)
Fixpoint operate {A B} (operator : A -> M (option B)) (force : bool) (body : B -> M unit)
    (paths : list A) : M unit :=
  match paths with
  | [] => ret tt
  | p :: paths' =>
      r <<- operator p ;;
      match r with
      | Some b => _ <<- body b ;; operate operator force body paths'
      | None => if force then operate operator force body paths'
                else raise operation_error
      end
  end.

(** ** Interface *)

(** The outside world of one run: the [environment] argument, what
    [shutil.which] finds, the current directory, the files that the simulation
    leaves in its working directory, its return code, and the time. *)
Record outside := mkoutside {
  environment : str -> option path;
  which : str -> option path;
  cwd : path;
  output_files : path -> list (str * str);
  returncode : path -> Z;
  now : str }.

(** src/eprempy/paths.py:45-62 [locate]; [pathlib.Path(None)] raises. *)
Definition locate (o : outside) (x : str) (branch : path) : M path :=
  f <<- get w_fs ;;
  let it := match environment o x with Some p => p | None => branch ++ [x] end in
  if exists_ f it then ret it
  else match which o x with Some p => ret p | None => raise TypeError end.

Definition command (mpirun eprem : path) (nproc : str) : str :=
  s "nice -n 10 ionice -c 2 -n 3 " ++ path_str mpirun
  ++ s " --mca btl_base_warn_component_unused 0 -n " ++ nproc ++ s " "
  ++ path_str eprem ++ s " eprem.cfg".

Fixpoint write_files (f : fs) (p : path) (files : list (str * str)) : fs :=
  match files with
  | [] => f
  | (x, t) :: files' => write_files (put f (p ++ [x]) (File (Text t))) p files'
  end.

(** src/eprempy/project.py:934-985 [_create_run].  [config] is a relative path. *)
Definition create_run (o : outside) (config : list str) (nproc : str) (p : path) : M unit :=
  root <<- get w_root ;; f <<- get w_fs ;; a <<- get w_attrs ;;
  let prjcfg := root ++ s "inputs" :: config in
  inputs <<- (if is_file f prjcfg then ret prjcfg
              else if exists_ f (cwd o ++ config) then ret (cwd o ++ config)
              else raise (OtherError "NonExistentPathError")) ;;
  _ <<- disk (fun f => copy_file f inputs (p ++ [a_config a])) ;;
  let branch := parent (parent p) in
  mpirun <<- locate o (s "mpirun") branch ;;
  eprem <<- locate o (s "eprem") branch ;;
  let cmd := command mpirun eprem nproc in
  _ <<- disk (fun f => write f (p ++ [a_output a]) (Text [])) ;;
  _ <<- disk (fun f => Ok (write_files f p (output_files o p))) ;;
  if Z.eqb (returncode o p) 0
  then log_create (path_str p) (JObj [(s "command", JStr cmd); (s "time", JStr (now o))])
  else ret tt.

(** src/eprempy/project.py:912-932 [run]; [name] is given or made from the clock. *)
Definition project_run (o : outside) (config : list str) (run : str) (branches : list str)
    (nproc : str) (errors : bool) : M unit :=
  ps <<- get (fun w => define_one w run branches) ;;
  operate op_mkdir (negb errors) (create_run o config nproc) ps.

(** src/eprempy/project.py:987-1006 [mv] *)
Definition project_mv (source target : str) (branches : list str) (errors : bool) : M unit :=
  ps <<- get (fun w => define_two w source target branches) ;;
  operate op_mv (negb errors) (fun pq => log_mv (path_str (fst pq)) (path_str (snd pq))) ps.

(** src/eprempy/project.py:1008-1026 [rm] *)
Definition project_rm (matches : str -> str -> bool) (run : str) (branches : list str)
    (errors : bool) : M unit :=
  ps <<- get (fun w => define_pattern matches w run branches) ;;
  operate op_rm (negb errors) (fun p => log_rm (path_str p)) ps.

(** src/eprempy/project.py:853-855 [reset] *)
Definition project_reset (matches : str -> str -> bool) (force : bool) : M unit :=
  project_rm matches (s "*") [] (negb force).

(** src/eprempy/project.py:372-393 [RunPaths.update] with a new root *)
Definition set_root (p : path) : M unit :=
  fun w => (mkworld (w_fs w) p (w_branches w) (w_base w) (w_log w) (w_attrs w) (w_steps w), Ok tt).
Definition paths_update_root (new : path) : M unit :=
  f <<- get w_fs ;;
  if exists_ f new then raise path_type_error
  else root <<- get w_root ;;
       _ <<- disk (fun f => rename f root new) ;; set_root new.

(** src/eprempy/project.py:886-901 [_update_metadata] (without [sys.path]) *)
Definition update_metadata (source target : str) (metadata : path) : M unit :=
  f <<- get w_fs ;;
  c <<- lift (read f metadata) ;;
  match c with
  | Json (JObj d) =>
      _ <<- disk (fun f => write f metadata (Text [])) ;;
      disk (fun f => write f metadata (Json (JObj
              (dict_put str_eqb (without_key d source) (s "root") (JStr target)))))
  | Json _ => raise TypeError
  | Text _ => raise (OtherError "JSONDecodeError")
  end.

(** src/eprempy/project.py:857-884 [rename] *)
Definition project_rename (new : path) (force : bool) : M unit :=
  old <<- get w_root ;; f <<- get w_fs ;;
  if exists_ f new && negb force then raise operation_error
  else
    _ <<- paths_update_root new ;;
    _ <<- log_update_directory new ;;
    update_metadata (path_str old) (path_str new) (new ++ [s ".eprem.conf"]).

(** src/eprempy/project.py:903-910 [remove] *)
Definition project_remove (force : bool) : M unit :=
  f <<- get w_fs ;; root <<- get w_root ;;
  if is_dir f root then disk (fun f => Ok (rmtree f root))
  else if force then ret tt else raise (OtherError "FileNotFoundError").

(** src/eprempy/project.py:518-536 [runs]: names of the runs and their branches *)
Definition project_runs (matches : str -> str -> bool) (w : world) : list (str * list str) :=
  match w_branches w with
  | [] => map (fun p => (name p, [])) (glob matches (w_fs w) (join_local (w_root w) (w_base w)) (s "*"))
  | bs =>
      map (fun r => (r, filter (fun b => is_dir (w_fs w) (join_local (w_root w ++ [b]) (w_base w) ++ [r])) bs))
          (unique_items str_eqb
             (flat_map (fun b => map name (glob matches (w_fs w) (join_local (w_root w ++ [b]) (w_base w)) (s "*"))) bs))
  end.

(** ** Attributes (src/eprempy/project.py:590-684) *)

(** Keyword arguments: [None] or missing is [None] here. *)
Record options := mkoptions {
  o_branches : option (list str); o_config : option str; o_inputs : option str;
  o_output : option str; o_rundir : option str; o_logname : option str }.

(** Python [x or default] *)
Definition or_str (x : option str) (d : str) : str :=
  match x with Some (c :: t) => c :: t | _ => d end.

(** src/eprempy/paths.py:24-42 [localize]: the last component; [[]] stands for
    [pathlib.Path('.')], which has no name. *)
Definition localize (x : str) : str := last (components x) [].

(** [Path.with_suffix('.json')] of a path of one component. *)
Fixpoint rfind (c : ascii) (x : str) : option nat :=
  match x with
  | [] => None
  | a :: x' => match rfind c x' with
               | Some i => Some (S i)
               | None => if Ascii.eqb a c then Some O else None
               end
  end.
Definition stem (x : str) : str :=
  match rfind "."%char x with
  | Some i => if Nat.ltb 0 i && Nat.ltb i (length x - 1) then firstn i x else x
  | None => x
  end.
Definition with_suffix_json (x : str) : result str :=
  match x with [] => Raise ValueError | _ => Ok (stem x ++ s ".json") end.

(** src/eprempy/project.py:593-613 [Attrs.__init__] *)
Definition attrs_of (root : path) (o : options) : result attrs :=
  let branches := match o_branches o with Some l => l | None => [] end in
  let config := or_str (o_config o) (s "eprem.cfg") in
  let inputs := localize (or_str (o_inputs o) (s "inputs")) in
  let output := localize (or_str (o_output o) (s "eprem.log")) in
  let rundir := localize (or_str (o_rundir o) (s "runs")) in
  logname <- with_suffix_json (localize (or_str (o_logname o) (s "runs"))) ;;
  Ok (mkattrs root branches config (join_local root inputs) output rundir logname).

(** [str(Path)] of a path of at most one component. *)
Definition local_str (x : str) : str := match x with [] => s "." | _ => x end.

(** src/eprempy/project.py:624-639 [serial] *)
Definition serial (a : attrs) : json := JObj [
  (s "root", JStr (path_str (a_root a)));
  (s "branches", JList (map JStr (a_branches a)));
  (s "config", JStr (a_config a));
  (s "inputs", JStr (path_str (a_inputs a)));
  (s "output", JStr (local_str (a_output a)));
  (s "rundir", JStr (local_str (a_rundir a)));
  (s "logname", JStr (local_str (a_logname a)))].

Definition conf (root : path) : path := root ++ [s ".eprem.conf"].

(** Reading keyword arguments back from the dictionary. *)
Definition get_str (d : list (str * json)) (k : str) : result (option str) :=
  match lookup str_eqb d k with
  | Raise _ => Ok None
  | Ok JNull => Ok None
  | Ok (JStr x) => Ok (Some x)
  | Ok _ => Raise TypeError
  end.
Definition get_strs (d : list (str * json)) (k : str) : result (option (list str)) :=
  match lookup str_eqb d k with
  | Raise _ => Ok None
  | Ok JNull => Ok None
  | Ok (JList l) => x <- mapM (fun j => match j with JStr x => Ok x | _ => Raise TypeError end) l ;; Ok (Some x)
  | Ok _ => Raise TypeError
  end.
Definition options_of (d : list (str * json)) : result options :=
  b <- get_strs d (s "branches") ;; c <- get_str d (s "config") ;;
  i <- get_str d (s "inputs") ;; o <- get_str d (s "output") ;;
  r <- get_str d (s "rundir") ;; l <- get_str d (s "logname") ;;
  Ok (mkoptions b c i o r l).

(** src/eprempy/project.py:768-773 [_restore_project] *)
Definition restore (f : fs) (p : path) : result attrs :=
  c <- read f (conf p) ;;
  match c with
  | Json (JObj d) =>
      match lookup str_eqb d (s "root") with
      | Raise _ => Raise KeyError
      | Ok (JStr here) => o <- options_of (without_key d (s "root")) ;; attrs_of (components here) o
      | Ok _ => Raise TypeError
      end
  | Json (JList []) => Raise KeyError
  | Json _ => Raise TypeError
  | Text _ => Raise (OtherError "JSONDecodeError")
  end.

(** src/eprempy/project.py:760-766 [_create_project] *)
Definition create_project (f : fs) (p : path) (o : options) : fs * result attrs :=
  match attrs_of p o with
  | Raise e => (f, Raise e)
  | Ok a =>
      match mkdir f (a_root a) false with
      | Raise e => (f, Raise e)
      | Ok f1 =>
          match write f1 (conf p) (Json (serial a)) with
          | Raise e => (f1, Raise e)
          | Ok f2 => (f2, Ok a)
          end
      end
  end.

Definition no_options (o : options) : bool :=
  match o with mkoptions None None None None None None => true | _ => false end.

(** src/eprempy/project.py:739-758 [_get_attrs] *)
Definition get_attrs (f : fs) (p : path) (o : options) : fs * result attrs :=
  if negb (exists_ f p) then create_project f p o
  else if no_options o then (f, restore f p)
  else (f, Raise (OtherError "ProjectExistsError")).

(** src/eprempy/project.py:615-622 [Attrs.options], as keyword arguments *)
Definition options_again (a : attrs) : options :=
  mkoptions (Some (a_branches a)) (Some (a_config a)) (Some (path_str (a_inputs a)))
    (Some (local_str (a_output a))) (Some (local_str (a_rundir a))) (Some (local_str (a_logname a))).

(** Python [copied.update(options)] where every keyword is present, absent
    arguments being given as [None] (project.py:689-723, 725-737). *)
Definition update_options (copied given : options) : options := given.

(** src/eprempy/project.py:725-737 [_init_project] *)
Definition init_project (f : fs) (p : path) (copy : option path) (o : options) : fs * result attrs :=
  match copy with
  | None => get_attrs f p o
  | Some q =>
      match restore f q with
      | Raise e => (f, Raise e)
      | Ok a => get_attrs f p (update_options (options_again a) o)
      end
  end.

(** src/eprempy/project.py:775-784 [_get_log]; the new log holds the two
    common attributes. *)
Definition log_path (a : attrs) : path := a_root a ++ [a_logname a].
Definition get_log (f : fs) (a : attrs) : result fs :=
  if exists_ f (log_path a) then Ok f
  else write f (log_path a) (Json (JObj [(s "config", JStr (a_config a));
                                         (s "output", JStr (local_str (a_output a)))])).

(** src/eprempy/project.py:359-370 [RunPaths.__init__] *)
Fixpoint mkdirs (f : fs) (ps : list path) : result fs :=
  match ps with
  | [] => Ok f
  | p :: ps' => f' <- mkdir f p true ;; mkdirs f' ps'
  end.

(** src/eprempy/project.py:786-810 [_setup_cli]: writes one script file, unless
    there is one.  [script] is the text that lines 791-806 compose from the
    template of the package, or the exception that they raise; ScriptModel
    computes it for the template of this commit (it is [ValueError]). *)
Definition setup_cli (f : fs) (a : attrs) (script : result str) : result fs :=
  let p := a_root a ++ [s "__main__.py"] in
  if exists_ f p then Ok f else t <- script ;; write f p (Text t).

(** src/eprempy/project.py:689-723 [Interface.__init__].  ([base or 'runs'] is
    applied to a [Path], which is always true.) *)
Definition open_project (f : fs) (p : path) (copy : option path) (o : options) (script : result str) (steps : nat) : result world :=
  match init_project f p copy o with
  | (_, Raise e) => Raise e
  | (f0, Ok a) =>
      f1 <- get_log f0 a ;;
      f2 <- mkdirs f1 (listing_of (a_root a) (a_branches a) (a_rundir a)) ;;
      f3 <- setup_cli f2 a script ;;
      f4 <- mkdir f3 (a_inputs a) true ;;
      f5 <- (match copy with
             | None => Ok f4
             | Some q => c <- restore f4 q ;; copytree f4 (a_inputs c) (a_inputs a)
             end) ;;
      Ok (mkworld f5 (a_root a) (a_branches a) (a_rundir a) (log_path a) a steps)
  end.
