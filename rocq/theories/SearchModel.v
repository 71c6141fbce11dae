(** Model of the search for files: paths.py 103-125 [fullpath], 204-208 [file_lines],
    219-242 [search], 245-255 [find_file_by_template].
    Source: /repo/src/eprempy/paths.py.

    Simplifications: those of FsModel (no links, no [~], no [..]); the
    current directory is [None] once it has been removed. *)
From Verif Require Import PyBase FsModel ConfigModel.

(** [pathlib.Path(d) / text]: an absolute text replaces the directory *)
Definition join (d : path) (text : str) : path :=
  match text with
  | "/"%char :: _ => components text
  | _ => d ++ components text
  end.
(** [pathlib.Path.cwd()] *)
Definition current (cwd : option path) : result path :=
  match cwd with Some d => Ok d | None => Raise (OtherError "FileNotFoundError") end.
Definition absolute (text : str) : bool := match text with "/"%char :: _ => true | _ => false end.

(** 103-125 [fullpath]; only a relative path needs the current directory *)
Definition fullpath (f : fs) (cwd : option path) (text : str) (strict : bool) : result path :=
  new <- (if absolute text then Ok (components text) else d <- current cwd ;; Ok (join d text)) ;;
  if strict && negb (exists_ f new) then Raise (OtherError "NonExistentPathError") else Ok new.

(** 236-242: the loop of [search]; the current directory is the last one and
    is passed as a path already resolved *)
Fixpoint search_in (f : fs) (cwd : option path) (file : str) (dirs : list str) (here : path) : result (option path) :=
  match dirs with
  | [] =>
      if negb (exists_ f here) then Raise (OtherError "NonExistentPathError")
      else if is_dir f here then
             if exists_ f (join here file) then Ok (Some (join here file)) else Ok None
           else Ok None
  | p :: dirs' =>
      d <- fullpath f cwd p true ;;
      if is_dir f d then
        if exists_ f (join d file) then Ok (Some (join d file)) else search_in f cwd file dirs' here
      else search_in f cwd file dirs' here
  end.
(** 219-242 [search]: the list of directories is built first *)
Definition search (f : fs) (cwd : option path) (file : str) (dirs : list str) : result (option path) :=
  here <- current cwd ;; search_in f cwd file dirs here.

(** 251-255: the loop of [find_file_by_template] *)
Fixpoint first_template (f : fs) (d : path) (templates : list (str -> str)) (name : str) : option path :=
  match templates with
  | [] => None
  | t :: ts => if exists_ f (join d (t name)) then Some (join d (t name)) else first_template f d ts name
  end.
(** 245-255 [find_file_by_template]: the default directory is the one that was
    current when the module was imported ([imported]) *)
Definition find_file_by_template (f : fs) (imported cwd : option path) (templates : list (str -> str)) (name : str) (directory : option str)
  : result (option path) :=
  d <- match directory with
       | Some t => fullpath f cwd t true
       | None => d <- current imported ;;
                 if negb (exists_ f d) then Raise (OtherError "NonExistentPathError") else Ok d
       end ;;
  Ok (first_template f d templates name).

(** 204-208 [file_lines]: the number of lines; a text that ends with a newline has no further, empty line *)
Definition readlines (text : str) : list str :=
  let ls := file_lines text in
  match last ls [] with [] => removelast ls | _ => ls end.
Definition count_lines (f : fs) (p : path) : result nat :=
  c <- read f p ;;
  match c with
  | Text x => Ok (length (readlines x))
  | Json _ => Raise (OtherError "a JSON file has no modelled text")
  end.
