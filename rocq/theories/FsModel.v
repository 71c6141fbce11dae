(** A fragment of the file system and of [pathlib], [shutil] and [json], as
    used by src/eprempy/project.py and src/eprempy/paths.py.

    Simplifications, common to every definition below:
    - a path is the list of the components of an absolute path; there are no
      symbolic links, no [~] and no [..] components, so that
      [pathlib.Path.resolve] is the identity on it;
    - a file system is a list of entries, the first entry for a path being the
      valid one; permissions, quotas and concurrent processes are not modelled;
    - a file holds a text or a JSON value ([json.load] after [json.dump] is
      taken to give the value back; the [sort_keys] option, which only changes
      the order of keys, is not modelled). *)
From Verif Require Import PyBase ContainerModel.

Definition path := list str.

Inductive json := JNull | JStr (x : str) | JList (l : list json) | JObj (l : list (str * json)).
Inductive content := Text (x : str) | Json (j : json).
Inductive node := Dir | File (c : content).
Definition fs := list (path * node).

Definition path_eqb : path -> path -> bool := list_eqb str_eqb.

(** [strip_prefix p q] is the part of [q] below [p], if [q] lies at or below [p]. *)
Fixpoint strip_prefix (p q : path) : option path :=
  match p, q with
  | [], _ => Some q
  | x :: p', y :: q' => if str_eqb x y then strip_prefix p' q' else None
  | _ :: _, [] => None
  end.
Definition at_or_below (p q : path) : bool :=
  match strip_prefix p q with Some _ => true | None => false end.

Fixpoint entry (f : fs) (p : path) : option node :=
  match f with
  | [] => None
  | (q, n) :: f' => if path_eqb q p then Some n else entry f' p
  end.

(** What is found at a path; the root directory always exists. *)
Definition fs_get (f : fs) (p : path) : option node :=
  match p with [] => Some Dir | _ => entry f p end.

(** [Path.exists], [Path.is_dir], [Path.is_file]. *)
Definition exists_ (f : fs) (p : path) : bool :=
  match fs_get f p with Some _ => true | None => false end.
Definition is_dir (f : fs) (p : path) : bool :=
  match fs_get f p with Some Dir => true | _ => false end.
Definition is_file (f : fs) (p : path) : bool :=
  match fs_get f p with Some (File _) => true | _ => false end.

Definition put (f : fs) (p : path) (n : node) : fs := (p, n) :: f.

(** [Path.parent]. *)
Definition parent (p : path) : path := removelast p.
(** [Path.name]. *)
Definition name (p : path) : str := last p [].

(** [Path.mkdir(parents=True, exist_ok=...)]: every missing ancestor is made. *)
Fixpoint mkdir_from (f : fs) (here : path) (todo : list str) (exist_ok : bool) : result fs :=
  match todo with
  | [] => Ok f
  | [x] =>
      let p := here ++ [x] in
      match fs_get f p with
      | None => Ok (put f p Dir)
      | Some Dir => if exist_ok then Ok f else Raise (OtherError "FileExistsError")
      | Some (File _) => Raise (OtherError "FileExistsError")
      end
  | x :: todo' =>
      let p := here ++ [x] in
      match fs_get f p with
      | None => mkdir_from (put f p Dir) p todo' exist_ok
      | Some Dir => mkdir_from f p todo' exist_ok
      | Some (File _) => Raise (OtherError "NotADirectoryError")
      end
  end.
Definition mkdir (f : fs) (p : path) (exist_ok : bool) : result fs := mkdir_from f [] p exist_ok.

(** [Path.open('r')] followed by reading everything. *)
Definition read (f : fs) (p : path) : result content :=
  match fs_get f p with
  | Some (File c) => Ok c
  | Some Dir => Raise (OtherError "IsADirectoryError")
  | None => Raise (OtherError "FileNotFoundError")
  end.

(** [Path.open('w')] followed by writing the content. *)
Definition write (f : fs) (p : path) (c : content) : result fs :=
  match fs_get f p with
  | Some Dir => Raise (OtherError "IsADirectoryError")
  | _ => if is_dir f (parent p) then Ok (put f p (File c))
         else Raise (OtherError "FileNotFoundError")
  end.

(** [shutil.rmtree]: the directory and everything below it disappear. *)
Definition rmtree (f : fs) (p : path) : fs :=
  filter (fun e => negb (at_or_below p (fst e))) f.

(** [Path.rename] of a directory.  Every caller in project.py has tested that
    the target does not exist; the model therefore raises if it does, where
    POSIX would still accept an empty directory. *)
Definition rename (f : fs) (p q : path) : result fs :=
  if negb (exists_ f p) then Raise (OtherError "FileNotFoundError")
  else if exists_ f q then Raise (OtherError "FileExistsError")
  else if at_or_below p q then Raise (OtherError "OSError")
  else if negb (is_dir f (parent q)) then Raise (OtherError "FileNotFoundError")
  else Ok (map (fun e => match strip_prefix p (fst e) with
                         | Some r => (q ++ r, snd e)
                         | None => e
                         end)
               (filter (fun e => negb (at_or_below q (fst e))) f)).

(** [shutil.copytree(src, dst, dirs_exist_ok=True)]. *)
Definition copytree (f : fs) (src dst : path) : result fs :=
  if negb (is_dir f src) then Raise (OtherError "FileNotFoundError")
  else Ok (fold_right (fun e g => match strip_prefix src (fst e) with
                                  | Some r => put g (dst ++ r) (snd e)
                                  | None => g
                                  end) f f).

(** [shutil.copy(src, dst)] to a file name. *)
Definition copy_file (f : fs) (src dst : path) : result fs :=
  c <- read f src ;; write f dst c.

(** The names of the entries of a directory. *)
Definition child (d p : path) : option str :=
  match strip_prefix d p with Some [x] => Some x | _ => None end.
Fixpoint children (f : fs) (d : path) : list str :=
  match f with
  | [] => []
  | (p, _) :: f' => match child d p with Some x => x :: children f' d | None => children f' d end
  end.

(** [Path.glob(pattern)] for a pattern of one component.  Which names a pattern
    matches is a parameter of the model; the order, which Python leaves to the
    operating system, is that of the list of entries. *)
Definition glob (matches : str -> str -> bool) (f : fs) (d : path) (pattern : str) : list path :=
  map (fun x => d ++ [x]) (filter (matches pattern) (unique_items str_eqb (children f d))).

(** Patterns with [*] and [?] (Python [fnmatch] without character sets). *)
Fixpoint wildcard (pattern x : str) {struct pattern} : bool :=
  match pattern with
  | [] => match x with [] => true | _ => false end
  | c :: pattern' =>
      if Ascii.eqb c "*"%char
      then (fix try (x : str) : bool :=
              wildcard pattern' x || match x with [] => false | _ :: x' => try x' end) x
      else match x with
           | [] => false
           | y :: x' => (Ascii.eqb c "?"%char || Ascii.eqb c y) && wildcard pattern' x'
           end
  end.

(** [str(path)] for an absolute path. *)
Fixpoint path_str_rel (p : path) : str :=
  match p with
  | [] => []
  | x :: p' => "/"%char :: x ++ path_str_rel p'
  end.
Definition path_str (p : path) : str := match p with [] => s "/" | _ => path_str_rel p end.

(** The components of [pathlib.Path(text)], without empty ones and [.]. *)
Fixpoint split_slash (x : str) : list str :=
  match x with
  | [] => [[]]
  | c :: x' =>
      if Ascii.eqb c "/"%char then [] :: split_slash x'
      else match split_slash x' with
           | w :: ws => (c :: w) :: ws
           | [] => [[c]]
           end
  end.
Definition components (x : str) : list str :=
  filter (fun w => negb (str_eqb w [] || str_eqb w (s "."))) (split_slash x).

(** Python [str.replace(old, new)] for a non-empty [old]. *)
Fixpoint str_prefix (p x : str) : option str :=
  match p, x with
  | [], _ => Some x
  | a :: p', b :: x' => if Ascii.eqb a b then str_prefix p' x' else None
  | _ :: _, [] => None
  end.
Fixpoint replace_from (fuel : nat) (old new x : str) : str :=
  match fuel with
  | O => x
  | S fuel' =>
      match str_prefix old x with
      | Some rest => new ++ replace_from fuel' old new rest
      | None => match x with [] => [] | c :: x' => c :: replace_from fuel' old new x' end
      end
  end.
Definition str_replace (old new x : str) : str := replace_from (S (length x)) old new x.
