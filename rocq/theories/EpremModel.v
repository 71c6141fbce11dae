(** * Model of locating observers (eprem.py; datafile/_viewers.py View._map)

    A directory is the list of the names of its entries, in the order in which
    the operating system lists them; names are distinct.  Patterns contain [*]
    and [?] as wildcards.  Python iterates over sets of strings in an order that
    changes from one interpreter to the next, so the order of a set of prefixes
    is an argument of the model.  Not modelled: character sets in patterns, ids
    that contain a slash, underscores inside integer texts, reading the file. *)
From Verif Require Import PyBase ContainerModel FsModel ParameterModel.

(** Python [format(n, '0w')]: zeros between the sign and the digits. *)
Definition zeros (n : nat) : str := repeat "0"%char n.
Definition pad (width : nat) (z : Z) : str :=
  match z with
  | Zneg p => let d := str_of_N (Npos p) in "-"%char :: zeros (width - 1 - length d) ++ d
  | _ => let d := str_of_N (Z.to_N z) in zeros (width - length d) ++ d
  end.
(** Python [int(text)] *)
Definition z_of_text (x : str) : result Z :=
  let y := strip x in
  match unsigned y with
  | [] => Raise ValueError
  | ds => if forallb is_digit ds then
            let n := Z.of_N (N_of_str ds) in
            Ok (match y with c :: _ => if Ascii.eqb c "-" then Z.opp n else n | [] => n end)
          else Raise ValueError
  end.

(** eprem.py 143 and 181: the sets of prefixes *)
Definition stream_prefixes : list str := [s "stream"; s "obs"; s "flux"].
Definition point_prefixes : list str := [s "point"; s "p_obs"].
(** An id is an integer, a text, or something else. *)
Inductive obsid := IdInt (z : Z) | IdStr (x : str) | IdOther.
(** 145-152 [Stream.patterns], for the prefixes in some order *)
Definition stream_patterns (order : list str) (id : obsid) : result (list str) :=
  match id with
  | IdInt z => Ok (map (fun prefix => prefix ++ pad 6 z ++ s ".*") order)
  | _ => Raise TypeError
  end.
(** 183-195 [Point.patterns] *)
Definition point_patterns (order : list str) (id : obsid) : result (list str) :=
  match id with
  | IdOther => Raise TypeError
  | IdInt z => Ok (map (fun prefix => prefix ++ pad 3 z ++ s ".*") order)
  | IdStr x =>
      let numbered := match z_of_text x with Ok z => map (fun prefix => prefix ++ pad 3 z ++ s ".*") order | Raise _ => [] end in
      Ok (numbered ++ [x ++ s ".*"])
  end.
(** 252-272 [observer]: [order] is that of the set of ['obs'] and ['flux'] *)
Inductive obskind := KStream | KPoint.
Definition observer_patterns (order : list str) (id : obsid) : result (obskind * list str) :=
  match id with
  | IdOther => Raise TypeError
  | IdInt z => Ok (KStream, map (fun prefix => prefix ++ pad 6 z ++ s ".*") order)
  | IdStr x =>
      let numbered := match z_of_text x with Ok z => [s "p_obs" ++ pad 3 z ++ s ".*"] | Raise _ => [] end in
      Ok (KPoint, numbered ++ [x ++ s ".*"])
  end.

(** 439-456 [_build_datapath] *)
Definition source_error : exn := OtherError "SourcePathError".
Definition matching (listing : list str) (pattern : str) : list str := filter (wildcard pattern) listing.
Fixpoint build_datapath (patterns : list str) (listing : list str) : result str :=
  match patterns with
  | [] => Raise source_error
  | pattern :: rest =>
      match matching listing pattern with
      | [x] => Ok x
      | [] => build_datapath rest listing
      | _ => Raise source_error
      end
  end.

(** 459-491 [_build_confpath].  A configuration argument is nothing, a text or a
    path object; the result is a name in the directory or another full path.
    [resolve]: the full path of an existing file, relative to the current
    directory ([paths.fullpath] with [strict]). *)
Definition config_names : list str := [s "eprem_input_file"; s "*.cfg"; s "*.ini"; s "*.in"].
Inductive confarg := CNone | CText (x : str) | CPath (x : str).
Inductive confpath := InDirectory (x : str) | Elsewhere (x : str).
Fixpoint guess_config (names : list str) (listing : list str) : result confpath :=
  match names with
  | [] => Raise ValueError
  | name :: rest => match matching listing name with x :: _ => Ok (InDirectory x) | [] => guess_config rest listing end
  end.
(** [Path(x).name == x] for a text: one component without slashes, neither
    empty nor [.] *)
Definition is_name (x : str) : bool :=
  negb (existsb (Ascii.eqb "/") x) && negb (str_eqb x []) && negb (str_eqb x (s ".")).
Definition build_confpath (resolve : str -> option str) (listing : list str) (config : confarg) : result confpath :=
  match config with
  | CNone => guess_config config_names listing
  | CText x =>
      if is_name x then if existsb (str_eqb x) listing then Ok (InDirectory x) else Raise ValueError
      else match resolve x with Some p => Ok (Elsewhere p) | None => Raise (OtherError "NonExistentPathError") end
  | CPath x => match resolve x with Some p => Ok (Elsewhere p) | None => Raise (OtherError "NonExistentPathError") end
  end.

(** 298-315 [_create_observer], up to opening the files.  The source is missing,
    not a directory, or a directory with a listing. *)
Inductive source := Missing | NotDirectory | Directory (listing : list str).
Record located := { l_data : str; l_conf : confpath }.
Definition create_observer (resolve : str -> option str) (patterns : list str) (src : source) (config : confarg) : result located :=
  match src with
  | Missing => Raise (OtherError "NonExistentPathError")
  | NotDirectory => Raise source_error
  | Directory listing =>
      datapath <- build_datapath patterns listing ;;
      confpath <- build_confpath resolve listing config ;;
      Ok {| l_data := datapath; l_conf := confpath |}
  end.
(** 275-284 [stream], 287-295 [point], 245-272 [observer] *)
Definition open_stream resolve order id src config : result located :=
  patterns <- stream_patterns order id ;; create_observer resolve patterns src config.
Definition open_point resolve order id src config : result located :=
  patterns <- point_patterns order id ;; create_observer resolve patterns src config.
Definition open_observer resolve order id src config : result (obskind * located) :=
  kp <- observer_patterns order id ;;
  l <- create_observer resolve (snd kp) src config ;; Ok (fst kp, l).

(** pathlib [PurePath.suffix] and [stem]: the last dot, unless it is the first
    or the last character. *)
Fixpoint last_dot (x : str) : option (str * str) :=
  match x with
  | [] => None
  | c :: x' =>
      match last_dot x' with
      | Some (a, b) => Some (c :: a, b)
      | None => if Ascii.eqb c "." then Some ([], x') else None
      end
  end.
Definition suffix (x : str) : str :=
  match last_dot x with Some (_ :: _, b) => match b with [] => [] | _ => "."%char :: b end | _ => [] end.
Definition stem (x : str) : str :=
  match last_dot x with Some (a, b) => match a, b with _ :: _, _ :: _ => a | _, _ => x end | None => x end.

(** 407-417 [_get_observer_id]: the prefixes in some order; [lstrip] removes
    every leading character that occurs in the prefix. *)
Fixpoint starts (p x : str) : bool :=
  match p, x with [], _ => true | a :: p', b :: x' => Ascii.eqb a b && starts p' x' | _, [] => false end.
Definition in_chars (p : str) (c : ascii) : bool := existsb (Ascii.eqb c) p.
Inductive obskey := KeyInt (z : Z) | KeyStr (x : str).
Definition obskey_eqb (a b : obskey) : bool :=
  match a, b with KeyInt x, KeyInt y => Z.eqb x y | KeyStr x, KeyStr y => str_eqb x y | _, _ => false end.
Fixpoint get_observer_id (prefixes : list str) (x : str) : result obskey :=
  match prefixes with
  | [] => Raise ValueError
  | prefix :: rest =>
      if starts prefix (stem x) then
        let key := lstrip_chars (in_chars prefix) (stem x) in
        if existsb (str_eqb prefix) stream_prefixes then z <- z_of_text key ;; Ok (KeyInt z)
        else Ok (KeyStr key)
      else get_observer_id rest x
  end.
(** datafile/_viewers.py 129-142: only ['.nc'] is a suffix *)
Definition viewable (x : str) : bool := str_eqb (suffix x) (s ".nc").
(** 341-374 [Dataset.streams], [Dataset.points], [Dataset.observers]: file names
    by key; [order] is the order of the prefixes of the kind, [all] that of the
    union of the prefixes. *)
Definition observer_files (order : list str) (listing : list str) : list str :=
  filter viewable (flat_map (fun prefix => matching listing (prefix ++ s "*")) order).
Definition observer_map (order all : list str) (listing : list str) : result (list (obskey * str)) :=
  pairs <- mapM (fun x => k <- get_observer_id all x ;; Ok (k, x)) (observer_files order listing) ;;
  Ok (dict_of obskey_eqb pairs).
Definition dataset_observers (so po all : list str) (listing : list str) : result (list (obskey * str)) :=
  a <- observer_map so all listing ;;
  b <- observer_map po all listing ;;
  Ok (dict_of obskey_eqb (a ++ b)).

(** datafile/_viewers.py 238-247 [View._map]: members of the reference list that
    the file has; [get] raises a KeyError for a missing one. *)
Definition view_map {A} (get : str -> result A) (reference : list str) : result (list (str * A)) :=
  pairs <- mapM (fun k => match get k with
                          | Ok v => Ok [(k, v)]
                          | Raise KeyError => Ok []
                          | Raise e => Raise e
                          end) reference ;;
  Ok (concat pairs).
