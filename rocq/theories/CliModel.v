(** * Model of the command line: configuration files (cli.py).

    Texts written to the file and to the terminal are modelled exactly; the texts of single
    values (what Python and numpy print for a number) are parameters.  Not modelled: the
    argument parser and the clock (the time is a text). *)
From Verif Require Import PyBase ContainerModel SymbolicModel ConfigModel ParameterModel.
Local Open Scope nat_scope.

(** ** Text *)
Definition blanks (n : nat) : str := repeat " "%char n.
(** [str.ljust], [str.rjust], [str.center] *)
Definition ljust (w : nat) (x : str) : str := x ++ blanks (w - length x).
Definition rjust (w : nat) (x : str) : str := blanks (w - length x) ++ x.
Definition center (w : nat) (x : str) : str :=
  let pad := w - length x in
  let left := Nat.div2 pad + (if Nat.odd pad && Nat.odd w then 1 else 0) in
  blanks left ++ x ++ blanks (pad - left).
Definition maximum (l : list nat) : result nat :=
  match l with [] => Raise ValueError | x :: r => Ok (fold_left Nat.max r x) end.

(** ** Paths: full paths are lists of components *)
Definition path := list str.
Fixpoint joined (l : list str) : str :=
  match l with [] => [] | [x] => x | x :: r => x ++ "/"%char :: joined r end.
Definition path_str (p : path) : str := "/"%char :: joined p.
Fixpoint common2 (a b : path) : path :=
  match a, b with x :: a', y :: b' => if str_eqb x y then x :: common2 a' b' else [] | _, _ => [] end.
(** [os.path.commonpath] of full paths *)
Definition commonpath (l : list path) : result path :=
  match l with [] => Raise ValueError | p :: r => Ok (fold_left common2 r p) end.
(** [os.path.relpath] of a path below the start *)
Definition relpath (start p : path) : str :=
  match skipn (length start) p with [] => s "." | l => joined l end.

(** ** Values: cli.py 187-203 *)
Section Values.
Context {D : Type}.
(** [str(d)], [repr(d)] and [d is None] of a number; what numpy prints for an array *)
Variables (dstr drepr : D -> str) (dnone : D -> bool) (astr arepr : list D -> str).
(** a parameter: a plain object, or a Variable with its numbers, the text of its unit and
    whether the unit equals '1' *)
Inductive argument := Bare (d : D) | Quantity (data : list D) (unit : str) (one : bool).
(** 199-203 [_get_arg_value], printed with [str] and with [repr] *)
Definition arg_str (a : argument) : str :=
  match a with Bare d => dstr d | Quantity [d] _ _ => dstr d | Quantity l _ _ => astr l end.
Definition arg_repr (a : argument) : str :=
  match a with Bare d => drepr d | Quantity [d] _ _ => drepr d | Quantity l _ _ => arepr l end.
Definition arg_none (a : argument) : bool :=
  match a with Bare d => dnone d | Quantity [d] _ _ => dnone d | Quantity _ _ _ => false end.
(** 187-196 [_format_arg_string]; the text of a unit has no quotes *)
Definition format_arg (a : argument) : str :=
  match a with
  | Bare d => dstr d
  | Quantity _ u one =>
      if one || arg_none a then arg_repr a
      else if str_eqb u (s "d") || str_eqb u (s "day") then arg_str a ++ s " 'day'"
      else arg_str a ++ s " '" ++ u ++ s "'"
  end.
End Values.

(** ** Comparison *)
(** the parameters that a source directory, or the package, knows: their names
    ([ConfigurationC]) and their displayed defaults ([parameter.interface] and 187-196) *)
Record source := { names : list str; shown_default : str -> result str; written_default : str -> result str }.
(** a configuration file: its settings ([parameter.configfile]) and the displayed values of
    the interface made from it *)
Record config := { settings : list (str * str); shown_value : str -> str }.

Section Compare.
Variable package : source.
(** [paths.fullpath(arg, strict=True)] and [parameter.interface(path)] *)
Variable fullpath : str -> result path.
Variable load : path -> result config.
(** [srcdir=None] is the package *)
Definition tables (src : option source) : source := match src with Some x => x | None => package end.

(** 172-184 [_normalize_paths] *)
Definition normalize_paths (args : list str) : result (list (path * str)) :=
  full <- mapM (fun a => p <- fullpath a ;; Ok (a, p)) args ;;
  let unique := dict_of str_eqb full in
  common <- commonpath (map snd unique) ;;
  Ok (map (fun kv => (snd kv, relpath common (snd kv))) (dict_of str_eqb (map (fun kv => (path_str (snd kv), snd kv)) unique))).
(** 155-169 [_map_parameter]: an empty setting counts as none *)
Definition map_parameter (key : str) (targets : list (str * config)) : list (str * str) :=
  map (fun t => (fst t, match lookup str_eqb (settings (snd t)) key with
                        | Ok (_ :: _) => shown_value (snd t) key
                        | _ => s "(default)"
                        end)) targets.
(** 137 the heading of a group *)
Definition heading (key default : str) : str := s "  " ++ key ++ s " (default: " ++ default ++ s ")  ".
(** [{k: str(i) for i, k in enumerate(d)}] *)
Fixpoint numbered {A} (i : nat) (l : list A) : list (A * str) :=
  match l with [] => [] | x :: r => (x, str_of_N (N.of_nat i)) :: numbered (i + 1) r end.
(** 136-145 *)
Fixpoint build (diff : bool) (targets : list (str * config)) (keys : list str) (built : list (str * list (str * str))) : result (list (str * list (str * str))) :=
  match keys with
  | [] => Ok built
  | key :: r =>
      d <- shown_default package key ;;
      let current := map_parameter key targets in
      match current with
      | [] => Raise IndexError
      | (_, v0) :: _ =>
          build diff targets r (if negb diff || existsb (fun v => negb (str_eqb (snd v) v0)) current
                                then dict_put str_eqb built (heading key d) current else built)
      end
  end.
(** 112-152 [_build_arg_dict] *)
Definition build_arg_dict (files : list str) (src : option source) (diff named : bool) : result (list (str * list (str * str))) :=
  normalized <- normalize_paths files ;;
  let mapped := if named then normalized else numbered 0 (map fst normalized) in
  targets <- mapM (fun pl => c <- load (fst pl) ;; Ok (snd pl, c)) mapped ;;
  let targets := dict_of str_eqb targets in
  let keys := sort_by str_ltb (names (tables src)) in
  built <- build diff targets keys (map (fun k => (k, [])) keys) ;;
  Ok (if diff then filter (fun kv => match snd kv with [] => false | _ => true end) built else built).

(** 82-110: the printed lines *)
Definition widths (args : list (str * list (str * str))) : result (nat * nat) :=
  match filter (fun kv => match snd kv with [] => false | _ => true end) args with
  | [] => Raise (OtherError "StopIteration")
  | (_, top) :: _ =>
      pwidth <- maximum (map (fun kv => length (fst kv)) args) ;;
      lwidth <- maximum (map (fun kv => length (fst kv)) top) ;;
      vwidth <- maximum (filter (fun n => Nat.ltb 0 n) (flat_map (fun kv => map (fun r => length (snd r)) (snd kv)) args)) ;;
      Ok (lwidth, Nat.max pwidth (lwidth + Nat.min 78 (vwidth + 2)))
  end.
Definition block (lwidth cwidth : nat) (kv : str * list (str * str)) : list str :=
  [center cwidth (fst kv); repeat "-"%char cwidth]
  ++ map (fun r => ljust lwidth (fst r) ++ rjust (cwidth - lwidth) (snd r)) (snd kv) ++ [[]].
Definition layout (args : list (str * list (str * str))) : result (list str) :=
  w <- widths args ;; Ok ([] :: flat_map (block (fst w) (snd w)) args).
(** 64-110 [compare_config_files] *)
Definition compare_config_files (files : list str) (src : option source) (diff named : bool) : result (list str) :=
  match files with
  | [] => Raise (OtherError "UserError")
  | _ => args <- build_arg_dict files src diff named ;; layout args
  end.

(** ** Generation: 36-61 [generate_config_file]; the text that is written *)
Definition written_lines (now : str) (pairs : list (str * str)) : list str :=
  [s "# EPREM default configuration file"; s "# Generated at " ++ now; s "# --------------------------------"]
  ++ map (fun kv => fst kv ++ s "=" ++ snd kv) pairs ++ [s "# --------------------------------"].
Definition generate_config_file (now : str) (src : option source) : result str :=
  pairs <- mapM (fun k => v <- written_default (tables src) k ;; Ok (k, v)) (sort_by str_ltb (names (tables src))) ;;
  Ok (concat (map (fun l => l ++ [newline]) (written_lines now pairs))).

(** 19-33 [run], [run_configfile_subparser]: which of the two is done; None: nothing *)
Inductive output := Wrote (text : str) | Printed (lines : list str) | Nothing.
Record options := { o_generate : option str; o_files : list str; o_source : option source; o_diff : bool; o_names : bool }.
Definition run (now mode : str) (o : options) : result output :=
  if str_eqb mode (s "configfile") then
    match o_generate o with
    | Some (_ :: _) => t <- generate_config_file now (o_source o) ;; Ok (Wrote t)
    | _ => match o_files o with
           | [] => Ok Nothing
           | fs => l <- compare_config_files fs (o_source o) (o_diff o) (o_names o) ;; Ok (Printed l)
           end
    end
  else Raise (OtherError "CLIError").
End Compare.

(** ** Written defaults: 46-49 with the interface of ParameterModel.v *)
(** the value and unit of a parameter as the object that [interface[key]] returns: without a
    unit the value itself, with a unit a Variable *)
Definition joined_by (sep : str) (l : list str) : str :=
  match l with [] => [] | x :: r => x ++ concat (map (fun y => sep ++ y) r) end.
Definition numbers (num : Qc -> str) (l : list pvalue) : result (list str) :=
  mapM (fun v => match v with PNum q => Ok (num q) | _ => Raise (OtherError "unmodelled value") end) l.
Definition written_value (num : Qc -> str) (vu : pvalue * option str) : result str :=
  match vu with
  | (PNum q, _) => Ok (num q)
  | (PStr x, None) => Ok x
  | (PNone, None) => Ok (s "None")
  | (PList [PNum q], Some _) => Ok (num q)
  | (PList l, None) => t <- numbers num l ;; Ok (s "[" ++ joined_by (s ", ") t ++ s "]")
  | (PList l, Some _) => t <- numbers num l ;; Ok (s "[" ++ joined_by (s " ") t ++ s "]")
  | _ => Raise (OtherError "unmodelled value")
  end.
