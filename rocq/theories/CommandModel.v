(** Model of the command lines: src/eprempy/interfaces.py [CLI],
    src/eprempy/_project_main.py (run, mv, rm), src/eprempy/project.py:1103-1325
    (create, reset, rename, remove, show) and src/eprempy/__main__.py, with the
    part of Python's argparse that they use.

    Simplifications: an argument that begins with a dash, has at least two
    characters and is not exactly one of the option strings is not modelled
    (abbreviations, [--name=value], [-nvalue], [-h], [--], negative numbers): the
    outcome is then [Unmodelled].  Usage errors, where argparse prints a message
    and exits with status 2, are [UsageError]. *)
From Verif Require Import PyBase ContainerModel FsModel ProjectModel RunLogModel.

(** ** argparse *)

(** How an option uses the arguments after it: [nargs] of argparse together with
    [action] and [type]. *)
Inductive kind :=
  | KOne                 (* one argument, stored *)
  | KInt                 (* one argument, [type=int] *)
  | KFlag                (* [action='store_true'] *)
  | KMany                (* [nargs='*'] *)
  | KMany1               (* [nargs='+'] *)
  | KExtend              (* [action='extend'] with one argument *)
  | KConst (v : str).    (* [action='store_const'] *)

Inductive value := VNone | VText (t : str) | VNum (n : N) | VFlag (b : bool) | VTexts (l : list str).

(** [exclusive]: the option belongs to the (only) mutually exclusive group. *)
Record opt := mkopt { strings : list str; dest : str; okind : kind; exclusive : bool }.
Record parser := mkparser { positionals : list str; opts : list opt; required : bool }.

(** The attributes of the namespace. *)
Definition namespace := str -> value.
Definition assign (ns : namespace) (k : str) (v : value) : namespace :=
  fun x => if str_eqb x k then v else ns x.

(** Defaults: [False] for flags, 1 for the number of processes, [None] else. *)
Definition default_of (k : kind) : value :=
  match k with KFlag => VFlag false | KInt => VNum 1 | _ => VNone end.
Definition defaults (p : parser) : namespace :=
  fun x => match find (fun o => str_eqb (dest o) x) (opts p) with
           | Some o => default_of (okind o)
           | None => VNone
           end.

Inductive outcome (A : Type) := Parsed (a : A) | UsageError | Unmodelled.
Arguments Parsed {A} _.
Arguments UsageError {A}.
Arguments Unmodelled {A}.

(** argparse [_parse_optional]: what is not an option *)
Definition dashed (t : str) : bool :=
  match t with c :: _ :: _ => Ascii.eqb c "-"%char | _ => false end.
Definition find_opt (p : parser) (t : str) : option opt :=
  find (fun o => mem str_eqb t (strings o)) (opts p).

(** argparse [_parse_known_args]: the arguments before the first option, and
    each option with the arguments up to the next one *)
Fixpoint chunks (p : parser) (ts : list str) : list str * list (opt * list str) :=
  match ts with
  | [] => ([], [])
  | t :: ts' =>
      let '(args, os) := chunks p ts' in
      match find_opt p t with
      | Some o => ([], (o, args) :: os)
      | None => (t :: args, os)
      end
  end.

(** Python [int(text)]: only numerals are modelled; texts with a sign, a blank
    or an underscore, some of which Python accepts, are [Unmodelled]. *)
Definition int_of (t : str) : outcome N :=
  match t with
  | [] => UsageError
  | _ => if forallb is_digit t then Parsed (N_of_str t)
         else if existsb (fun c => is_space c || Ascii.eqb c "_" || Ascii.eqb c "+" || Ascii.eqb c "-")%char t
              then Unmodelled else UsageError
  end.

(** The state of the parser: positional arguments to come, the namespace,
    whether there were superfluous arguments, the options of the exclusive group
    that were seen *)
Record pstate := mkpstate { todo : list str; ns : namespace; extra : bool; seen : list str }.

(** argparse [consume_positionals]: one argument each, as long as there are any *)
Fixpoint take_positionals (st : pstate) (args : list str) : pstate :=
  match args with
  | [] => st
  | t :: args' =>
      match todo st with
      | [] => mkpstate [] (ns st) true (seen st)
      | x :: xs => take_positionals (mkpstate xs (assign (ns st) x (VText t)) (extra st) (seen st)) args'
      end
  end.

(** argparse [_ExtendAction]: [items.extend(values)], where [values] is the text
    itself, so that its characters are added *)
Definition characters (t : str) : list str := map (fun c => [c]) t.
Definition extended (v : value) (t : str) : value :=
  match v with
  | VTexts l => VTexts (l ++ characters t)
  | _ => VTexts (characters t)
  end.

(** argparse [consume_optional]: the value of the option, and the arguments that
    are left *)
Definition consume (k : kind) (old : value) (args : list str) : outcome (value * list str) :=
  match k with
  | KFlag => Parsed (VFlag true, args)
  | KConst v => Parsed (VText v, args)
  | KMany => Parsed (VTexts args, [])
  | KMany1 => match args with [] => UsageError | _ => Parsed (VTexts args, []) end
  | KOne => match args with [] => UsageError | t :: r => Parsed (VText t, r) end
  | KExtend => match args with [] => UsageError | t :: r => Parsed (extended old t, r) end
  | KInt =>
      match args with
      | [] => UsageError
      | t :: r => match int_of t with
                  | Parsed n => Parsed (VNum n, r)
                  | UsageError => UsageError
                  | Unmodelled => Unmodelled
                  end
      end
  end.

(** Options of the exclusive group conflict with each other, not with
    themselves; they are told apart by their first string. *)
Definition option_name (o : opt) : str := hd [] (strings o).
Definition conflict (st : pstate) (o : opt) : bool :=
  exclusive o && existsb (fun x => negb (str_eqb x (option_name o))) (seen st).

Fixpoint take_options (st : pstate) (os : list (opt * list str)) : outcome pstate :=
  match os with
  | [] => Parsed st
  | (o, args) :: os' =>
      match consume (okind o) (ns st (dest o)) args with
      | UsageError => UsageError
      | Unmodelled => Unmodelled
      | Parsed (v, rest) =>
          if conflict st o then UsageError
          else take_options
                 (take_positionals
                    (mkpstate (todo st) (assign (ns st) (dest o) v) (extra st)
                       (if exclusive o then option_name o :: seen st else seen st)) rest) os'
      end
  end.

(** argparse [parse_args] of one subcommand *)
Definition parse (p : parser) (ts : list str) : outcome namespace :=
  if existsb (fun t => dashed t && match find_opt p t with Some _ => false | None => true end) ts then Unmodelled
  else
    let '(args, os) := chunks p ts in
    match take_options (take_positionals (mkpstate (positionals p) (defaults p) false []) args) os with
    | UsageError => UsageError
    | Unmodelled => Unmodelled
    | Parsed st =>
        if extra st then UsageError
        else match todo st with
             | _ :: _ => UsageError
             | [] => match required p, seen st with
                     | true, [] => UsageError
                     | _, _ => Parsed (ns st)
                     end
             end
    end.

(** ** The parsers *)
Definition flag (a b d : string) : opt := mkopt [s a; s b] (s d) KFlag false.
Definition one (a b d : string) : opt := mkopt [s a; s b] (s d) KOne false.

(** src/eprempy/_project_main.py:46-107 *)
Definition run_parser : parser := mkparser [s "config"] [
  one "-t" "--target" "target";
  mkopt [s "-b"; s "--branches"] (s "branches") KMany false;
  mkopt [s "-n"; s "--nproc"] (s "nproc") KInt false;
  flag "-f" "--force" "force";
  one "-m" "--mpirun" "mpirun";
  one "-e" "--eprem" "eprem";
  flag "-v" "--verbose" "verbose"] false.

(** src/eprempy/_project_main.py:110-153 *)
Definition mv_parser : parser := mkparser [s "source"; s "target"] [
  mkopt [s "-b"; s "--branches"] (s "branches") KMany false;
  flag "-f" "--force" "force"; flag "-v" "--verbose" "verbose"] false.

(** src/eprempy/_project_main.py:156-183 *)
Definition rm_parser : parser := mkparser [s "target"] [
  mkopt [s "-b"; s "--branches"] (s "branches") KMany false;
  flag "-f" "--force" "force"; flag "-v" "--verbose" "verbose"] false.

(** src/eprempy/project.py:1138-1196 *)
Definition create_parser : parser := mkparser [s "path"] [
  mkopt [s "-b"; s "--branches"] (s "branches") KMany false;
  one "-c" "--config" "config"; one "-i" "--inputs" "inputs"; one "-o" "--output" "output";
  one "-d" "--rundir" "rundir"; one "-l" "--logname" "logname";
  mkopt [s "--copy"] (s "copy") KOne false;
  flag "-v" "--verbose" "verbose"] false.

(** src/eprempy/project.py:1209-1224 and 1268-1283 *)
Definition reset_parser : parser := mkparser [s "path"] [
  flag "-f" "--force" "force"; flag "-v" "--verbose" "verbose"] false.
Definition remove_parser : parser := reset_parser.

(** src/eprempy/project.py:1237-1256 *)
Definition rename_parser : parser := mkparser [s "path"; s "target"] [
  flag "-f" "--force" "force"; flag "-v" "--verbose" "verbose"] false.

(** src/eprempy/project.py:1294-1320 *)
Definition show_parser : parser := mkparser [s "path"] [
  mkopt [s "-r"; s "--run"] (s "runs") KExtend true;
  mkopt [s "-a"; s "--all"] (s "runs") (KConst (s "*")) true] false.

(** src/eprempy/__main__.py:27-70 *)
Definition configfile_parser : parser := mkparser [] [
  one "-s" "--source" "source";
  mkopt [s "-g"; s "--generate"] (s "generate") KOne true;
  mkopt [s "-c"; s "--compare"] (s "files") KMany1 true;
  flag "-v" "--verbose" "verbose";
  mkopt [s "--diff"] (s "diff") KFlag false;
  mkopt [s "--names"] (s "names") KFlag false] true.

(** ** Which function is called with what *)

(** Python reads attributes of known types; other values do not occur. *)
Definition text (v : value) : option str := match v with VText t => Some t | _ => None end.
Definition texts (v : value) : option (list str) :=
  match v with VTexts l => Some l | VText t => Some (characters t) | _ => None end.
Definition on (v : value) : bool := match v with VFlag b => b | _ => false end.
Definition number (v : value) : N := match v with VNum n => n | _ => 0 end.
Definition given_text (v : value) : str := match v with VText t => t | _ => [] end.

(** The calls that are made, with the arguments as Python values: [None] is
    [None]. *)
Inductive call :=
  | CallRun (config : str) (name : option str) (branches : option (list str)) (nproc : N)
      (mpirun eprem : option str) (errors silent : bool)
  | CallMv (source target : str) (branches : option (list str)) (errors silent : bool)
  | CallRm (target : str) (branches : option (list str)) (errors silent : bool)
  | CallCreate (path : str) (o : options) (copy : option str)
  | CallReset (path : str) (force silent : bool)
  | CallRename (path target : str) (force silent : bool)
  | CallRemove (path : str) (force silent : bool)
  | CallShow (path : str) (runs : list str).

(** src/eprempy/interfaces.py:57-61 [CLI.run]: without a subcommand the
    namespace has no function and [parsed.pop('func')] raises [KeyError]; an
    option before the subcommand is an unrecognized argument. *)
Definition dispatch (table : list (str * (parser * (namespace -> call)))) (ts : list str) : outcome (result call) :=
  match ts with
  | [] => Parsed (Raise KeyError)
  | t :: ts' =>
      if dashed t then Unmodelled
      else match lookup str_eqb table t with
           | Raise _ => UsageError
           | Ok (p, k) => match parse p ts' with
                          | Parsed a => Parsed (Ok (k a))
                          | UsageError => UsageError
                          | Unmodelled => Unmodelled
                          end
           end
  end.

(** src/eprempy/_project_main.py:25-45, 110-127, 156-171 *)
Definition script_commands : list (str * (parser * (namespace -> call))) := [
  (s "run", (run_parser, fun a => CallRun (given_text (a (s "config"))) (text (a (s "target"))) (texts (a (s "branches")))
     (number (a (s "nproc"))) (text (a (s "mpirun"))) (text (a (s "eprem")))
     (negb (on (a (s "force")))) (negb (on (a (s "verbose"))))));
  (s "mv", (mv_parser, fun a => CallMv (given_text (a (s "source"))) (given_text (a (s "target"))) (texts (a (s "branches")))
     (negb (on (a (s "force")))) (negb (on (a (s "verbose"))))));
  (s "rm", (rm_parser, fun a => CallRm (given_text (a (s "target"))) (texts (a (s "branches")))
     (negb (on (a (s "force")))) (negb (on (a (s "verbose"))))))].

(** src/eprempy/project.py:1109-1137, 1199-1208, 1227-1236, 1259-1267, 1286-1293 *)
Definition project_commands : list (str * (parser * (namespace -> call))) := [
  (s "create", (create_parser, fun a => CallCreate (given_text (a (s "path")))
     (mkoptions (texts (a (s "branches"))) (text (a (s "config"))) (text (a (s "inputs"))) (text (a (s "output")))
        (text (a (s "rundir"))) (text (a (s "logname")))) (text (a (s "copy")))));
  (s "reset", (reset_parser, fun a => CallReset (given_text (a (s "path"))) (on (a (s "force"))) (negb (on (a (s "verbose"))))));
  (s "rename", (rename_parser, fun a => CallRename (given_text (a (s "path"))) (given_text (a (s "target")))
     (on (a (s "force"))) (negb (on (a (s "verbose"))))));
  (s "remove", (remove_parser, fun a => CallRemove (given_text (a (s "path"))) (on (a (s "force"))) (negb (on (a (s "verbose"))))));
  (s "show", (show_parser, fun a => CallShow (given_text (a (s "path")))
     (match texts (a (s "runs")) with Some l => l | None => [] end)))].

(** ** What the calls do to a project *)

(** [paths.normalize] of a text, seen from the current directory (no [~], no
    [..], no links, as in FsModel) *)
Definition resolved (cwd : path) (t : str) : path :=
  match t with
  | c :: _ => if Ascii.eqb c "/" then components t else cwd ++ components t
  | [] => cwd
  end.

(** [branches] as given to the operations: nothing and [None] mean all
    (src/eprempy/project.py:475-500). *)
Definition branch_list (b : option (list str)) : list str := match b with Some l => l | None => [] end.

(** [environment.get(name) or ...] in src/eprempy/paths.py:45-62 *)
Definition chosen (o : outside) (mpirun eprem : option str) : outside :=
  mkoutside (fun x =>
      let pick t := match t with Some (c :: r) => Some (resolved (cwd o) (c :: r)) | _ => None end in
      if str_eqb x (s "mpirun") then pick mpirun
      else if str_eqb x (s "eprem") then pick eprem else None)
    (which o) (cwd o) (output_files o) (returncode o) (now o).

(** [name or datetime...strftime(...)] (src/eprempy/project.py:923): [clock] is
    the text made from the date and time *)
Definition run_name (clock : str) (n : option str) : str :=
  match n with Some (c :: r) => c :: r | _ => clock end.
(** [nproc or 1] (src/eprempy/project.py:956) *)
Definition processes (n : N) : str := str_of_N (if N.eqb n 0 then 1%N else n).

(** src/eprempy/project.py:912-1026: the operations of an open project.  [shown]
    collects the runs that [show] asks for. *)
Definition perform_call (matches : str -> str -> bool) (o : outside) (clock : str) (c : call) : M unit :=
  match c with
  | CallRun config name branches nproc mpirun eprem errors _ =>
      project_run (chosen o mpirun eprem) (components config) (run_name clock name)
        (branch_list branches) (processes nproc) errors
  | CallMv source target branches errors _ => project_mv source target (branch_list branches) errors
  | CallRm target branches errors _ => project_rm matches target (branch_list branches) errors
  | CallCreate _ _ _ => ret tt
  | CallReset _ force _ => project_reset matches force
  | CallRename _ target force _ => project_rename (resolved (cwd o) target) force
  | CallRemove _ force _ => project_remove force
  | CallShow _ _ => ret tt
  end.

(** src/eprempy/project.py:1103-1325: one command line of [python -m
    eprempy.project], from the disk [f]; the result of a call that gets an open
    project is the world after it and how it ended. *)
Definition no_settings : options := mkoptions None None None None None None.
Definition execute (matches : str -> str -> bool) (o : outside) (clock : str) (script : result str) (n : nat)
    (f : fs) (c : call) : result (world * result unit) :=
  let at_ t := open_project f (resolved (cwd o) t) None no_settings script n in
  match c with
  | CallCreate p given copy =>
      w <- open_project f (resolved (cwd o) p)
             (match copy with Some (x :: t) => Some (resolved (cwd o) (x :: t)) | _ => None end) given script n ;;
      Ok (w, Ok tt)
  | CallReset p _ _ | CallRename p _ _ _ | CallRemove p _ _ | CallShow p _ =>
      w <- at_ p ;; Ok (perform_call matches o clock c w)
  | CallRun _ _ _ _ _ _ _ _ | CallMv _ _ _ _ _ | CallRm _ _ _ _ => Raise TypeError
  end.
Definition project_main (matches : str -> str -> bool) (o : outside) (clock : str) (script : result str) (n : nat)
    (f : fs) (ts : list str) : outcome (result (world * result unit)) :=
  match dispatch project_commands ts with
  | Parsed (Ok c) => Parsed (execute matches o clock script n f c)
  | Parsed (Raise e) => Parsed (Raise e)
  | UsageError => UsageError
  | Unmodelled => Unmodelled
  end.

(** src/eprempy/_project_main.py: the same for the script of a project, which
    opens the project in its own directory *)
Definition script_main (matches : str -> str -> bool) (o : outside) (clock : str) (script : result str) (n : nat)
    (f : fs) (directory : path) (ts : list str) : outcome (result (world * result unit)) :=
  match dispatch script_commands ts with
  | Parsed (Ok c) => Parsed (w <- open_project f directory None no_settings script n ;;
                             Ok (perform_call matches o clock c w))
  | Parsed (Raise e) => Parsed (Raise e)
  | UsageError => UsageError
  | Unmodelled => Unmodelled
  end.

(** src/eprempy/__main__.py:10-91 and src/eprempy/cli.py:24-44: what the command
    line of the package does.  [-V] has no argument and may come before the mode;
    it is modelled alone or before everything else. *)
Inductive package_action :=
  | PrintVersion
  | Generate (file : str) (source : option str) (verbose : bool)
  | Compare (files : list str) (source : option str) (diff names : bool)
  | DoNothing.
Definition configfile_action (a : namespace) : package_action :=
  match a (s "generate"), a (s "files") with
  | VText (c :: t), _ => Generate (c :: t) (text (a (s "source"))) (on (a (s "verbose")))
  | _, VTexts (x :: l) => Compare (x :: l) (text (a (s "source"))) (on (a (s "diff"))) (on (a (s "names")))
  | _, _ => DoNothing
  end.
Definition is_version (t : str) : bool := str_eqb t (s "-V") || str_eqb t (s "--version").
Fixpoint package_main (version : bool) (ts : list str) : outcome package_action :=
  match ts with
  | [] => if version then Parsed PrintVersion else UsageError
  | t :: ts' =>
      if is_version t then package_main true ts'
      else if dashed t then Unmodelled
      else if str_eqb t (s "configfile") then
        match parse configfile_parser ts' with
        | Parsed a => Parsed (if version then PrintVersion else configfile_action a)
        | UsageError => UsageError
        | Unmodelled => Unmodelled
        end
      else UsageError
  end.
