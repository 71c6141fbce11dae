(** Model of the script that each project keeps (src/eprempy/project.py:786-810
    [Interface._setup_cli]) and of what an attempt to open a project leaves on
    the disk. *)
From Verif Require Import PyBase ContainerModel FsModel ProjectModel.

(** Python [list.index] *)
Fixpoint index_of (x : str) (l : list str) : result nat :=
  match l with
  | [] => Raise ValueError
  | y :: l' => if str_eqb y x then Ok 0%nat else i <- index_of x l' ;; Ok (S i)
  end.

(** The character that ends a line. *)
Definition newline : ascii := Ascii.ascii_of_nat 10.
Definition line (x : str) : str := x ++ [newline].

(** src/eprempy/project.py:795-801: [repr] of a directory without quotation
    marks, backslashes and control characters is the text between apostrophes
    (simplification: other directories are quoted in the same way here). *)
Definition path_spec (directory : str) : str :=
  line (s "import pathlib") ++ line (s "import sys") ++ line []
  ++ line (s "sys.path.append('" ++ directory ++ s "')") ++ line [].

(** src/eprempy/project.py:791-806: [module] is the name of the module
    (Python [__name__]), [directory] the directory of the package and [template]
    the lines of its file _project_main.py.  (isort, which may be applied to the
    file afterwards in lines 807-808, is not modelled.) *)
Definition compose_script (module directory : str) (template : list str) : result str :=
  i <- index_of (line (s "import " ++ module)) template ;;
  Ok (concat (firstn i template ++ path_spec directory :: skipn i template)
      ++ line (s "if __name__ == '__main__':") ++ line (s "    cli.run()") ++ line []).

(** src/eprempy/_project_main.py:1-183, all of it, line by line (generated from
    the file). *)
Definition template : list str := map line [
  s """""""";
  s "Create and modify runs in this EPREM project.";
  s """""""";
  s "";
  s "import argparse";
  s "import typing";
  s "";
  s "from . import etc";
  s "from . import interfaces";
  s "from . import project";
  s "from . import paths";
  s "";
  s "";
  s "FILEPATH = paths.normalize(__file__)";
  s "DIRECTORY = FILEPATH.parent";
  s "";
  s "";
  s "cli = interfaces.CLI(";
  s "    formatter_class=argparse.RawTextHelpFormatter,";
  s "    description=etc.doc2help(__doc__),";
  s ")";
  s "";
  s "";
  s "@cli.include";
  s "def run(";
  s "    config: str,";
  s "    target: str=None,";
  s "    branches: typing.Union[str, typing.Iterable[str]]=None,";
  s "    nproc: int=None,";
  s "    force: bool=False,";
  s "    verbose: bool=False,";
  s "    **environment";
  s ") -> None:";
  s "    """"""Set up and execute a new EPREM run in all applicable branches.""""""";
  s "    prj = project.Interface(DIRECTORY)";
  s "    prj.run(";
  s "        config=config,";
  s "        name=target,";
  s "        branches=branches,";
  s "        nproc=nproc,";
  s "        environment=environment,";
  s "        errors=(not force),";
  s "        silent=(not verbose),";
  s "    )";
  s "cli.subcommands['run'].add_argument(";
  s "    'config',";
  s "    help=(";
  s "        ""the EPREM config file to use""";
  s "        "";\nmay be a (possibly relative) path""";
  s "        ""\nor the name of a file in""";
  s "        f""\n{DIRECTORY}/inputs""";
  s "    ),";
  s ")";
  s "cli.subcommands['run'].add_argument(";
  s "    '-t',";
  s "    '--target',";
  s "    help=""the name to the new run\n(default: created from date and time)"",";
  s ")";
  s "cli.subcommands['run'].add_argument(";
  s "    '-b',";
  s "    '--branches',";
  s "    help=""the affected branches\n(default: all)"",";
  s "    nargs='*',";
  s "    metavar=('A', 'B'),";
  s ")";
  s "cli.subcommands['run'].add_argument(";
  s "    '-n',";
  s "    '--nproc',";
  s "    help=""the number of parallel processes to use\n(default: 1)"",";
  s "    type=int,";
  s "    default=1,";
  s "    metavar='N',";
  s ")";
  s "cli.subcommands['run'].add_argument(";
  s "    '-f',";
  s "    '--force',";
  s "    help=""do not raise exceptions when creating a new run"",";
  s "    action='store_true',";
  s ")";
  s "cli.subcommands['run'].add_argument(";
  s "    '-m',";
  s "    '--mpirun',";
  s "    help=""path to the MPI binary to use\n(default: search $PATH)"",";
  s ")";
  s "cli.subcommands['run'].add_argument(";
  s "    '-e',";
  s "    '--eprem',";
  s "    help=""path to the EPREM executable to run\n(default: search $PATH)"",";
  s ")";
  s "cli.subcommands['run'].add_argument(";
  s "    '-v',";
  s "    '--verbose',";
  s "    help=""print runtime messages"",";
  s "    action='store_true',";
  s ")";
  s "";
  s "";
  s "@cli.include";
  s "def mv(";
  s "    source: str,";
  s "    target: str,";
  s "    branches: typing.Union[str, typing.Iterable[str]]=None,";
  s "    force: bool=False,";
  s "    verbose: bool=False,";
  s ") -> None:";
  s "    """"""Rename an existing EPREM run in all applicable branches.""""""";
  s "    prj = project.Interface(DIRECTORY)";
  s "    prj.mv(";
  s "        source,";
  s "        target,";
  s "        branches=branches,";
  s "        errors=(not force),";
  s "        silent=(not verbose),";
  s "    )";
  s "cli.subcommands['mv'].add_argument(";
  s "    'source',";
  s "    help=""the current name of the run(s)"",";
  s ")";
  s "cli.subcommands['mv'].add_argument(";
  s "    'target',";
  s "    help=""the new name of the run(s)"",";
  s ")";
  s "cli.subcommands['mv'].add_argument(";
  s "    '-b',";
  s "    '--branches',";
  s "    help=""the affected branches\n(default: all)"",";
  s "    nargs='*',";
  s "    metavar=('A', 'B'),";
  s ")";
  s "cli.subcommands['mv'].add_argument(";
  s "    '-f',";
  s "    '--force',";
  s "    help=""do not raise exceptions when renaming a file"",";
  s "    action='store_true',";
  s ")";
  s "cli.subcommands['mv'].add_argument(";
  s "    '-v',";
  s "    '--verbose',";
  s "    help=""print runtime messages"",";
  s "    action='store_true',";
  s ")";
  s "";
  s "";
  s "@cli.include";
  s "def rm(";
  s "    target: str,";
  s "    branches: typing.Union[str, typing.Iterable[str]]=None,";
  s "    force: bool=False,";
  s "    verbose: bool=False,";
  s ") -> None:";
  s "    """"""Remove an existing EPREM run in all applicable branches.""""""";
  s "    prj = project.Interface(DIRECTORY)";
  s "    prj.rm(";
  s "        target,";
  s "        branches=branches,";
  s "        errors=(not force),";
  s "        silent=(not verbose),";
  s "    )";
  s "cli.subcommands['rm'].add_argument(";
  s "    'target',";
  s "    help=""the name of the run(s) to remove"",";
  s ")";
  s "cli.subcommands['rm'].add_argument(";
  s "    '-b',";
  s "    '--branches',";
  s "    help=""the affected branches\n(default: all)"",";
  s "    nargs='*',";
  s "    metavar=('A', 'B'),";
  s ")";
  s "cli.subcommands['rm'].add_argument(";
  s "    '-f',";
  s "    '--force',";
  s "    help=""do not raise exceptions when removing a file"",";
  s "    action='store_true',";
  s ")";
  s "cli.subcommands['rm'].add_argument(";
  s "    '-v',";
  s "    '--verbose',";
  s "    help=""print runtime messages"",";
  s "    action='store_true',";
  s ")";
  s "";
  s ""
].

(** The script at this commit. *)
Definition shipped_script (module directory : str) : result str := compose_script module directory template.

(** src/eprempy/project.py:359-370 [RunPaths.__init__]: the disk after the
    directories were made, as far as this succeeds *)
Fixpoint mkdirs_disk (f : fs) (ps : list path) : fs :=
  match ps with
  | [] => f
  | p :: ps' => match mkdir f p true with Ok f' => mkdirs_disk f' ps' | Raise _ => f end
  end.

(** src/eprempy/project.py:689-723 [Interface.__init__] without a project to
    copy: the disk that is left, whether or not the constructor raises. *)
Definition open_disk (f : fs) (p : path) (o : options) (script : result str) : fs :=
  match init_project f p None o with
  | (f0, Raise _) => f0
  | (f0, Ok a) =>
      match get_log f0 a with
      | Raise _ => f0
      | Ok f1 =>
          let dirs := listing_of (a_root a) (a_branches a) (a_rundir a) in
          match mkdirs f1 dirs with
          | Raise _ => mkdirs_disk f1 dirs
          | Ok f2 =>
              match setup_cli f2 a script with
              | Raise _ => f2
              | Ok f3 => match mkdir f3 (a_inputs a) true with Ok f4 => f4 | Raise _ => f3 end
              end
          end
      end
  end.
