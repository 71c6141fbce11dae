(** The rest of src/eprempy/project.py: the run log as a mapping
    (RunLog, lines 48-260) and the listings, the name and the truth value of a
    project (RunPaths 509-547, Interface 767-852, 903-910, 1040-1098). *)
From Verif Require Import PyBase ContainerModel FsModel ProjectModel.

(** ** RunLog *)

(** src/eprempy/project.py:51-81 [RunLog.__init__]; [common] as JSON values
    ([dump], 232-239, writes a path as a text). *)
Definition log_open (f : fs) (p : path) (common : log_dict) : result fs :=
  if exists_ f p then match common with [] => Ok f | _ => Raise TypeError end
  else write f p (Json (JObj common)).

(** src/eprempy/project.py:83-89 [__len__], [__iter__] *)
Definition log_len : M nat := d <<- log_read ;; ret (length d).
Definition log_iter : M (list str) := d <<- log_read ;; ret (map fst d).
(** [key in log]: collections.abc.Mapping calls [__getitem__] and waits for a
    KeyError.  LogKeyError (project.py:37-38) is a subclass of KeyError. *)
Definition log_contains (key : str) : M bool := d <<- log_read ;; ret (mem str_eqb key (map fst d)).

(** What a caller may give as a value: something that [json.dump] can write, or
    something else (a date, a numpy number, a path inside a record). *)
Inductive given := Writable (j : json) | Unwritable.
Fixpoint all_writable (l : list (str * given)) : option (list (str * json)) :=
  match l with
  | [] => Some []
  | (k, Writable j) :: l' => option_map (cons (k, j)) (all_writable l')
  | (_, Unwritable) :: _ => None
  end.
(** src/eprempy/project.py:232-239 [dump] when [json.dump] fails on the way: the
    file was emptied when it was opened, and the error is raised.  (The
    beginning of the new text, which is no JSON text because its first brace is
    never closed, may be left; here: the empty text.) *)
Definition log_spoil : M unit :=
  p <<- get w_log ;; _ <<- disk (fun f => write f p (Text [])) ;; raise TypeError.

(** src/eprempy/project.py:142-158 [create]: any number of mappings, each given by
    its items, and keyword arguments. *)
Definition log_create_any (key : str) (mapping : list (list (str * given))) (items : list (str * given)) : M unit :=
  d <<- log_read ;;
  match mapping, items with
  | _ :: _, _ :: _ => raise TypeError
  | _ :: _ :: _, [] => raise TypeError
  | _, _ =>
      let new := match mapping with [m] => match m with [] => items | _ => m end | _ => items end in
      match all_writable new with
      | Some j => log_dump (dict_put str_eqb d key (JObj j))
      | None => log_spoil
      end
  end.

(** src/eprempy/project.py:193-205 [append] *)
Definition log_append_any (target key : str) (value : given) : M unit :=
  d <<- log_read ;;
  match lookup str_eqb d target with
  | Raise _ => raise log_key_error
  | Ok (JObj r) =>
      match value with
      | Writable j => log_dump (dict_put str_eqb d target (JObj (dict_put str_eqb r key j)))
      | Unwritable => log_spoil
      end
  | Ok _ => raise TypeError
  end.

(** Python [Path.suffix] of a name, [str.lower], [str.lstrip('.')] *)
Definition suffix (x : str) : str :=
  match rfind "."%char x with
  | Some i => if Nat.ltb 0 i && Nat.ltb i (length x - 1) then skipn i x else []
  | None => []
  end.
Definition lower_letter (c : ascii) : ascii :=
  let n := N_of_ascii c in if N.leb 65 n && N.leb n 90 then ascii_of_N (n + 32) else c.
Fixpoint no_dots (x : str) : str :=
  match x with c :: x' => if Ascii.eqb c "."%char then no_dots x' else x | [] => [] end.

(** src/eprempy/project.py:181-191 [_source_loader]; [yaml]: what [yaml.safe_load]
    makes of the file, if the package is installed. *)
Inductive loader := LJson | LYaml.
Definition source_loader (have_yaml : bool) (filetype : str) : result loader :=
  let t := no_dots (map lower_letter filetype) in
  if str_eqb t (s "yaml") then if have_yaml then Ok LYaml else Raise (OtherError "ReadTypeError")
  else if str_eqb t (s "json") then Ok LJson else Raise ValueError.
Definition loaded (yaml : content -> result json) (l : loader) (c : content) : result json :=
  match l with
  | LYaml => yaml c
  | LJson => match c with Json j => Ok j | Text _ => Raise (OtherError "JSONDecodeError") end
  end.
(** [dict.update(j)] (a list of pairs, which Python also accepts, is refused
    here), guarded by the truth value of [j] *)
Definition update_with (d : log_dict) (j : json) : result log_dict :=
  match j with
  | JObj new => Ok (dict_update d new)
  | JNull | JStr [] | JList [] => Ok d
  | _ => Raise ValueError
  end.
(** src/eprempy/project.py:160-179 [load] and [_read_from_file] *)
Definition log_load_file (have_yaml : bool) (yaml : content -> result json) (key : str) (source : path) (filetype : option str) : M unit :=
  d <<- log_read ;;
  d' <<- log_read ;;
  l <<- lift (source_loader have_yaml (or_str filetype (suffix (name source)))) ;;
  f <<- get w_fs ;;
  c <<- lift (read f source) ;;
  j <<- lift (loaded yaml l c) ;;
  contents <<- lift (update_with d' j) ;;
  log_dump (dict_put str_eqb d key (JObj contents)).

(** ** Listings *)

(** src/eprempy/project.py:538-547 [branches]: the branches and their runs *)
Definition project_branches (matches : str -> str -> bool) (w : world) : list (str * list str) :=
  match w_branches w with
  | [] => []
  | bs => map (fun b => (b, map fst (filter (fun rb => mem str_eqb b (snd rb)) (project_runs matches w)))) (unique_items str_eqb bs)
  end.
(** src/eprempy/project.py:509-516 [resolve] *)
Definition resolve (w : world) (target : str) (branches : list str) : list path :=
  match branches with
  | [] => [join_local (w_root w) (w_base w) ++ [target]]
  | _ => map (fun b => join_local (w_root w ++ [b]) (w_base w) ++ [target]) branches
  end.
(** src/eprempy/project.py:843-851 [_show_run]: the paths printed for a run, or
    the message that there is none *)
Definition show_run (matches : str -> str -> bool) (w : world) (run : str) : option (list path) :=
  match lookup str_eqb (project_runs matches w) run with
  | Ok branches => Some (resolve w run branches)
  | Raise _ => None
  end.
(** src/eprempy/project.py:812-829 [show]: the runs that are shown *)
Definition shown_runs (matches : str -> str -> bool) (w : world) (runs : list str) : list str :=
  match runs with
  | [r] => if str_eqb r (s "*") then map fst (project_runs matches w) else runs
  | _ => runs
  end.

(** ** One [Interface] object: the world, whether it is valid (the constructor,
    689-723, sets it at the end), the name once it was asked for, and an
    identity of its attribute object *)
Record object := mkobject { o_world : world; o_valid : bool; o_name : option str; o_id : nat }.
(** src/eprempy/project.py:1044-1052 [name] *)
Definition object_name (x : object) : object * str :=
  match o_name x with
  | Some n => (x, n)
  | None => let n := name (w_root (o_world x)) in (mkobject (o_world x) (o_valid x) (Some n) (o_id x), n)
  end.
(** src/eprempy/project.py:857-884 [rename] keeps [_name] *)
Definition object_rename (new : path) (force : bool) (x : object) : object * result unit :=
  let (w, r) := project_rename new force (o_world x) in (mkobject w (o_valid x) (o_name x) (o_id x), r).
(** src/eprempy/project.py:903-910 [remove] *)
Definition object_remove (force : bool) (x : object) : object * result unit :=
  match project_remove force (o_world x) with
  | (w, Ok t) => (mkobject w false (o_name x) (o_id x), Ok t)
  | (w, Raise e) => (mkobject w (o_valid x) (o_name x) (o_id x), Raise e)
  end.
(** src/eprempy/project.py:1088-1092 [__eq__]: [Attrs] (590-684) defines no
    equality, so that Python compares identities. *)
Definition object_eq (x y : object) : bool := Nat.eqb (o_id x) (o_id y).
