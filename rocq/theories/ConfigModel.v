(** * Model of configuration files (parameter/_config.py 145-270, paths.py 211-216)

    Paths are relative to /repo/src/eprempy.  Texts are Latin-1.  A Python set of
    comment markers is the list of its members in the order in which it happens
    to be traversed. *)
From Verif Require Import PyBase ContainerModel SymbolicModel.

(** [x.startswith(p)] *)
Fixpoint starts (p x : str) : bool :=
  match p, x with
  | [], _ => true
  | a :: p', b :: x' => Ascii.eqb a b && starts p' x'
  | _ :: _, [] => false
  end.
(** [str.split] by a separator that is not empty: [skip] characters of a
    separator are still to be passed, [acc] is the current part, reversed *)
Fixpoint split_from (p : str) (skip : nat) (acc x : str) : list str :=
  match x with
  | [] => [rev acc]
  | c :: x' =>
      match skip with
      | S k => split_from p k acc x'
      | O => if starts p x then rev acc :: split_from p (length p - 1) [] x'
             else split_from p 0 (c :: acc) x'
      end
  end.
Definition split (p x : str) : result (list str) :=
  match p with [] => Raise ValueError | _ => Ok (split_from p 0 [] x) end.

(** paths.py 211-216 [strip_inline_comments] *)
Fixpoint cut_comments (cs : list str) (x : str) : result str :=
  match cs with
  | [] => Ok x
  | c :: cs' => ps <- split c x ;; cut_comments cs' (hd [] ps)
  end.
Definition strip_inline_comments (x : str) (cs : list str) : result str := y <- cut_comments cs x ;; Ok (strip y).

(** _config.py 258-264: one line, without its newline; [None]: ignored *)
Definition parse_line (cs : list str) (line : str) : result (option (str * str)) :=
  match line with
  | [] => Ok None
  | c :: _ =>
      if mem str_eqb [c] cs then Ok None
      else tmp <- strip_inline_comments line cs ;;
           ps <- split (s "=") tmp ;;
           match ps with
           | [k; v] => Ok (Some (strip k, strip v))
           | _ => Raise ValueError                       (* unpacking *)
           end
  end.
(** 254-265 [_parse_config], on the lines of the file *)
Fixpoint parse_lines (cs : list str) (lines : list str) (pairs : list (str * str)) : result (list (str * str)) :=
  match lines with
  | [] => Ok pairs
  | l :: lines' =>
      p <- parse_line cs l ;;
      parse_lines cs lines' (match p with None => pairs | Some (k, v) => dict_put str_eqb pairs k v end)
  end.
(** A file opened in text mode: "\r\n" and "\r" end lines too.  The last piece
    is not a line if it is empty; empty lines are ignored, so it is kept. *)
Definition newline : ascii := "010"%char.
Definition return_ : ascii := "013"%char.
Fixpoint newlines (x : str) : str :=
  match x with
  | [] => []
  | c :: x' =>
      if Ascii.eqb c return_ then
        newline :: match x' with
                   | d :: x'' => if Ascii.eqb d newline then newlines x'' else newlines x'
                   | [] => []
                   end
      else c :: newlines x'
  end.
Definition file_lines (text : str) : list str := split_from [newline] 0 [] (newlines text).
Definition parse_config (cs : list str) (text : str) : result (list (str * str)) := parse_lines cs (file_lines text) [].

(** ** ConfigFile *)

(** 230-236 [parsed]; 266-309 [configfile_factory]: the default marker *)
Definition comments_of (cs : list str) : list str := match cs with [] => [s "#"] | _ => cs end.
Definition config_parsed (cs : list str) (text : str) : result (list (str * str)) := parse_config (comments_of cs) text.
(** 186-190 [__getitem__]; [ConfigKeyError] is a [KeyError] *)
Definition config_get (d : list (str * str)) (k : str) : result str := lookup str_eqb d k.

(** 200-227 [diff].  The other operand: a config file, a path object with the
    text it leads to, or a string.  A path is only accepted with the keyword
    argument [comments], which [ConfigFile.__init__] requires; a string has no
    method [open]. *)
Inductive diff_arg := DConfig (d : list (str * str)) | DPath (text : result str) | DString.
Definition diff_other (o : diff_arg) (comments : option (list str)) : result (list (str * str)) :=
  match o, comments with
  | DConfig d, _ => Ok d
  | _, None => Raise TypeError
  | DPath t, Some cs => x <- t ;; config_parsed cs x
  | DString, Some _ => Raise AttributeError
  end.
Definition without_keys (a b : list (str * str)) : list str := filter (fun k => negb (mem str_eqb k (map fst b))) (map fst a).
Record config_diff := mkdiff { keys0 : list str; keys1 : list str; full0 : list (str * str); full1 : list (str * str) }.
Definition diff (a : list (str * str)) (o : diff_arg) (comments : option (list str)) : result config_diff :=
  b <- diff_other o comments ;;
  Ok (mkdiff (without_keys a b) (without_keys b a) a b).
(** 192-198 [compare]; [sorted] of a set of names *)
Definition value_or_none (d : list (str * str)) (k : str) : option str := match lookup str_eqb d k with Ok v => Some v | Raise _ => None end.
Definition compare (a : list (str * str)) (o : diff_arg) (comments : option (list str)) : result (list (str * (option str * option str))) :=
  df <- diff a o comments ;;
  let keys := sort_by str_ltb (unique_items str_eqb (map fst (full0 df) ++ map fst (full1 df))) in
  Ok (map (fun k => (k, (value_or_none (full0 df) k, value_or_none (full1 df) k))) keys).
