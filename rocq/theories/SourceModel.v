(** * Model of the readers of EPREM source files
    (parameter/_src.py 20-122, 161-225, 265-470; paths.py 132-193)

    Paths are relative to /repo/src/eprempy.  Texts are Latin-1.  Regular
    expressions are built from the patterns of SymbolicModel: the list of the
    possible matches in the order in which Python's matcher tries them.  The
    value of a constant and of a parameter is the subject of ParameterModel. *)
From Verif Require Import PyBase ContainerModel SymbolicModel ConfigModel ParameterModel.

(** ** patterns *)
(** a literal text *)
Definition p_text (t : str) : pat := fun x => if starts t x then [(t, skipn (length t) x)] else [].
(** a pattern, then what follows, which may use the matched text *)
Definition p_then {A} (p : pat) (k : str -> str -> list A) (x : str) : list A :=
  flat_map (fun m => k (fst m) (snd m)) (p x).
(** [\Z] *)
Definition p_end {A} (r : A) (x : str) : list A := match x with [] => [r] | _ => [] end.

(** ** constants: _src.py 161-189 [BaseTypeDef] *)
(** [[0-9A-Z_]] *)
Definition is_const (c : ascii) : bool :=
  is_digit c || Ascii.eqb c "_" || (let n := N_of_ascii c in N.leb 65 n && N.leb n 90).
(** [[-+\.\*\/\d\w\s\(\)]] *)
Definition is_value (c : ascii) : bool :=
  Ascii.eqb c "-" || Ascii.eqb c "+" || Ascii.eqb c "." || Ascii.eqb c "*" || Ascii.eqb c "/"
  || is_digit c || is_word c || is_space c || Ascii.eqb c "(" || Ascii.eqb c ")".
(** 166-181 [pattern] *)
Definition re_define : str -> list (str * str) :=
  p_then (p_text (s "#define")) (fun _ =>
  p_then (p_plus is_space) (fun _ =>
  p_then (p_plus is_const) (fun name =>
  p_then (p_plus is_space) (fun _ =>
  p_then (p_plus is_value) (fun value =>
  p_end (name, value)))))).
(** 183-186 [match]; 188-190 [parse] returns the same pair *)
Definition define_match (line : str) : option (str * str) := hd_error (re_define (strip line)).

(** ** calls: _src.py 265-330 [FunctionCall] *)
Definition dquote : ascii := "034"%char.
Definition not_newline (c : ascii) : bool := negb (Ascii.eqb c newline).
Definition re_mode : pat :=
  p_seq (p_text (s "read")) (p_alt (p_text (s "Int")) (p_alt (p_text (s "Double")) (p_alt (p_text (s "DoubleArray")) (p_text (s "String"))))).
Record call := mkcall { cmode : str; ckey : str; cargs : str }.
(** 277-304 [pattern] *)
Definition re_call : str -> list call :=
  p_then (p_star is_space) (fun _ =>
  p_then (p_opt (p_text (s "config."))) (fun _ =>
  p_then (p_plus is_word) (fun _ =>
  p_then (p_star is_space) (fun _ =>
  p_then (p_text (s "=")) (fun _ =>
  p_then (p_star is_space) (fun _ =>
  p_then (p_opt (p_text (s "(char*)"))) (fun _ =>
  p_then re_mode (fun mode =>
  p_then (p_text (s "(")) (fun _ =>
  p_then (p_seq (p_text [dquote]) (p_seq (p_star is_word) (p_text [dquote]))) (fun key =>
  p_then (p_star is_space) (fun _ =>
  p_then (p_text (s ",")) (fun _ =>
  p_then (p_lazystar not_newline) (fun args =>
  p_then (p_text (s ")")) (fun _ =>
  p_then (p_text (s ";")) (fun _ =>
  p_then (p_star is_space) (fun _ =>
  p_end (mkcall mode key args))))))))))))))))).
(** 306-309 [match] *)
Definition call_match (line : str) : option call := hd_error (re_call (strip line)).
(** 320-331 [_keys] *)
Definition argument_keys (mode : str) : list str :=
  if str_eqb mode (s "readInt") || str_eqb mode (s "readDouble") then [s "defaultVal"; s "minVal"; s "maxVal"]
  else if str_eqb mode (s "readString") then [s "defaultVal"]
  else [s "defaultSize"; s "size"; s "defaultVal"; s "minVal"; s "maxVal"].
(** [x.strip] of spaces and double quotes *)
Definition is_blank_quote (c : ascii) : bool := Ascii.eqb c " " || Ascii.eqb c dquote.
(** 311-318 [parse], 333-336 [_normalize] *)
Definition call_parse (c : call) : str * list (str * str) :=
  (strip_chars is_blank_quote (ckey c),
   (s "mode", cmode c) ::
   combine (argument_keys (cmode c)) (map (strip_chars is_blank_quote) (split_from (s ",") 0 [] (cargs c)))).

(** ** arrays: _src.py 333-385 [VariableDefinition] *)
Record array := mkarray { aname : str; asize : str; avalue : str }.
Definition re_number : pat := p_seq (p_star is_digit) (p_opt (p_seq (p_text (s ".")) (p_plus is_digit))).
Definition re_member : pat := p_seq (p_opt (p_text (s "config."))) (p_plus is_word).
(** 342-363 [pattern] *)
Definition re_array : str -> list array :=
  p_then (p_star is_space) (fun _ =>
  p_then (p_text (s "Scalar_t")) (fun _ =>
  p_then (p_star is_space) (fun _ =>
  p_then (p_plus is_word) (fun name =>
  p_then (p_text (s "[")) (fun _ =>
  p_then (p_plus is_digit) (fun size =>
  p_then (p_text (s "]")) (fun _ =>
  p_then (p_star is_space) (fun _ =>
  p_then (p_text (s "=")) (fun _ =>
  p_then (p_star is_space) (fun _ =>
  p_then (p_text (s "{")) (fun _ =>
  p_then (p_alt re_number re_member) (fun value =>
  p_then (p_text (s "}")) (fun _ =>
  p_then (p_text (s ";")) (fun _ =>
  p_then (p_star is_space) (fun _ =>
  p_end (mkarray name size value)))))))))))))))).
(** 365-368 [match] *)
Definition array_match (line : str) : option array := hd_error (re_array (strip line)).
(** 370-376 [parse]: the size and the text of the list with one element;
    [container.wrap] puts a string in a list *)
Definition array_parse (a : array) : str * (N * str) :=
  (aname a, (N_of_str (asize a), s "[" ++ avalue a ++ s "]")).

(** ** paths.py 169-193 [TextFile.extract]

    The lines of [readlines] end with the newline that [file_lines] leaves out;
    [strip] removes it.  Every match is a dictionary that is not empty. *)
Definition extract {A V} (m : str -> option A) (p : A -> str * V) (text : str) : list (str * V) :=
  fold_left (fun d l => match m l with Some a => dict_put str_eqb d (fst (p a)) (snd (p a)) | None => d end) (file_lines text) [].

(** 203-205 [BaseTypesH.load_from_source] *)
Definition load_constants (text : str) : list (str * str) := extract define_match (fun nv => nv) text.
(** 446-454 [_get_assignments], [_get_array_defaults] *)
Definition get_assignments (text : str) : list (str * list (str * str)) := extract call_match call_parse text.
Definition get_arrays (text : str) : list (str * (N * str)) := extract array_match array_parse text.
(** 401-417 [ConfigurationC.load_from_source] *)
Definition substitute (arrays : list (str * (N * str))) (attrs : list (str * str)) : result (list (str * str)) :=
  d <- lookup str_eqb attrs (s "defaultVal") ;;
  match lookup str_eqb arrays d with
  | Raise _ => Ok attrs
  | Ok (_, v) =>
      m <- lookup str_eqb attrs (s "mode") ;;
      hi <- lookup str_eqb attrs (s "maxVal") ;;
      lo <- lookup str_eqb attrs (s "minVal") ;;
      Ok [(s "mode", m); (s "defaultVal", v); (s "maxVal", hi); (s "minVal", lo)]
  end.
Definition load_parameters (text : str) : result (list (str * list (str * str))) :=
  mapM (fun ka => a <- substitute (get_arrays text) (snd ka) ;; Ok (fst ka, a)) (get_assignments text).

(** ** attributes: a text, or one of the types in 388-395 [_types] *)
Inductive attr := AText (x : str) | AType (t : ptype).
Definition type_of_mode (a : attr) : result attr :=
  match a with
  | AText m =>
      if str_eqb m (s "readInt") then Ok (AType TInt)
      else if str_eqb m (s "readDouble") then Ok (AType TFloat)
      else if str_eqb m (s "readString") then Ok (AType TStr)
      else if str_eqb m (s "readDoubleArray") then Ok (AType TList)
      else Raise KeyError
  | AType _ => Raise KeyError
  end.
(** [_types.invert()] *)
Definition mode_of_type (a : attr) : result attr :=
  match a with
  | AType TInt => Ok (AText (s "readInt"))
  | AType TFloat => Ok (AText (s "readDouble"))
  | AType TStr => Ok (AText (s "readString"))
  | AType TList => Ok (AText (s "readDoubleArray"))
  | AText _ => Raise KeyError
  end.
(** 456-470 [_replace] *)
Definition replace_attr (old new : str) (conv : attr -> result attr) (m : list (str * list (str * attr))) : result (list (str * list (str * attr))) :=
  mapM (fun ka =>
          x <- lookup str_eqb (snd ka) old ;;
          y <- conv x ;;
          Ok (fst ka, fold_left (fun d kv => dict_put str_eqb d (fst kv) (snd kv))
                        (filter (fun kv => negb (str_eqb (fst kv) old)) (snd ka)) [(new, y)])) m.
(** 398-399 [standardize], on texts as they are loaded *)
Definition texts (m : list (str * list (str * str))) : list (str * list (str * attr)) :=
  map (fun ka => (fst ka, map (fun kv => (fst kv, AText (snd kv))) (snd ka))) m.
Definition standardize (m : list (str * list (str * str))) : result (list (str * list (str * attr))) :=
  replace_attr (s "mode") (s "type") type_of_mode (texts m).

(** ** files: 28-45 [SourceFile.__init__], 73-88 [build_path]

    What is found under [srcdir]: nothing given, a path that does not exist, a
    directory with or without the file, or a file.  The file can be read. *)
Inductive location := NotGiven | NoSuchPath | Directory (file : option str) | File (text : str).
Definition source_text (l : location) : result (option str) :=
  match l with
  | NotGiven => Ok None
  | NoSuchPath => Raise (OtherError "NonExistentPathError")
  | Directory f => Ok f
  | File t => Ok (Some t)
  end.
Definition constants_file (package : list (str * str)) (l : location) : result (list (str * str)) :=
  t <- source_text l ;;
  match t with Some x => Ok (load_constants x) | None => Ok package end.
Definition parameters_file (package : list (str * list (str * str))) (l : location) : result (list (str * list (str * attr))) :=
  t <- source_text l ;;
  m <- match t with Some x => load_parameters x | None => Ok package end ;;
  standardize m.

(** 419-424 [ConfigurationC.__getitem__]; 426-437 [get] with the formats; the
    metadata of a parameter are a parameter of the model *)
Definition get_raw (defs : list (str * list (str * attr))) (key : str) : result (option (list (str * attr))) :=
  raw <- replace_attr (s "type") (s "mode") mode_of_type defs ;;
  Ok (match lookup str_eqb raw key with Ok a => Some a | Raise _ => None end).
(** 432: [{**None}] is a [TypeError] *)
Definition type_name (a : attr) : attr :=
  match a with
  | AType TInt => AText (s "int") | AType TFloat => AText (s "float")
  | AType TStr => AText (s "str") | AType TList => AText (s "list")
  | AText x => AText x
  end.
Definition get_full (meta : list (str * list (str * attr))) (defs : list (str * list (str * attr))) (key : str) : result (list (str * attr)) :=
  match lookup str_eqb defs key with
  | Raise _ => Raise TypeError
  | Ok a =>
      let extra := match lookup str_eqb meta key with Ok m => m | Raise _ => [] end in
      let loaded := fold_left (fun d kv => dict_put str_eqb d (fst kv) (snd kv)) extra a in
      mapM (fun kv => if str_eqb (fst kv) (s "type") then match snd kv with AType _ => Ok (fst kv, type_name (snd kv)) | AText _ => Raise AttributeError end
                      else Ok kv) loaded
  end.
(** 103-122 [todict]: the keys, in order or sorted *)
Definition todict {V} (defs : list (str * V)) (get : str -> result V) (sort : bool) : result (list (str * V)) :=
  let ks := map fst defs in
  mapM (fun k => v <- get k ;; Ok (k, v)) (if sort then sort_by str_ltb ks else ks).

(** ** what the evaluation of defaults reads (_config.py 37-62): type and default text *)
Definition reference (defs : list (str * list (str * attr))) : result (list (str * (ptype * str))) :=
  mapM (fun ka => t <- lookup str_eqb (snd ka) (s "type") ;; d <- lookup str_eqb (snd ka) (s "defaultVal") ;;
                  match t, d with AType t, AText d => Ok (fst ka, (t, d)) | _, _ => Raise TypeError end) defs.
