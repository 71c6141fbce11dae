(** * Model of the texts of EPREM source files as Python dictionaries
    (parameter/_src.py 94-157, 207-224, 426-443)

    Paths are relative to /repo/src/eprempy.  Texts are Latin-1.  The metadata
    (parameter/_metadata.py 19-608) are a parameter of the model; so is the text
    that Python writes for a number. *)
From Verif Require Import PyBase ContainerModel SymbolicModel ConfigModel ParameterModel SourceModel.

(** ** values *)
Inductive value := VText (x : str) | VType (t : ptype) | VNumber (shown : str) | VNone | VTexts (l : list str).

Definition newline : ascii := "010"%char.
Definition single : ascii := "039"%char.
Definition double : ascii := "034"%char.
Definition backslash : ascii := "092"%char.

(** [repr] of a text: double quotation marks if there are only single ones in it *)
Definition hex_digit (n : N) : ascii := ascii_of_N (if (n <? 10)%N then 48 + n else 87 + n)%N.
Definition not_printed (n : N) : bool := ((n <? 32) || ((127 <=? n) && (n <=? 160)) || (n =? 173))%N.
Definition escape_char (q c : ascii) : str :=
  let n := N_of_ascii c in
  if Ascii.eqb c q || Ascii.eqb c backslash then [backslash; c]
  else if Ascii.eqb c newline then [backslash; "n"%char]
  else if Ascii.eqb c "009"%char then [backslash; "t"%char]
  else if Ascii.eqb c "013"%char then [backslash; "r"%char]
  else if not_printed n then [backslash; "x"%char; hex_digit (n / 16)%N; hex_digit (n mod 16)%N]
  else [c].
Definition repr_quote (x : str) : ascii :=
  if existsb (Ascii.eqb single) x && negb (existsb (Ascii.eqb double) x) then double else single.
Definition repr_str (x : str) : str :=
  let q := repr_quote x in q :: flat_map (escape_char q) x ++ [q].
(** the name of a type, and [str] and [repr] of the type *)
Definition ptype_name (t : ptype) : str :=
  match t with TInt => s "int" | TFloat => s "float" | TStr => s "str" | TList => s "list" end.
Definition ptype_text (t : ptype) : str := s "<class '" ++ ptype_name t ++ s "'>".
Definition repr_value (v : value) : str :=
  match v with
  | VText x => repr_str x
  | VType t => ptype_text t
  | VNumber x => x
  | VNone => s "None"
  | VTexts l => s "[" ++ join (s ", ") (map repr_str l) ++ s "]"
  end.
Definition str_value (v : value) : str := match v with VText x => x | _ => repr_value v end.

(** ** 125-149 [tolines]: a mapping, or an object that is written as it is *)
Inductive current := CMap (m : list (str * value)) | CValue (v : value).
Definition pad (indent : nat) : str := repeat " "%char indent.
Definition attribute_text (indent : nat) (kv : str * value) : str :=
  pad indent ++ pad indent ++ repr_str (fst kv) ++ s ": "
    ++ (if str_eqb (fst kv) (s "type") then str_value (snd kv) else repr_value (snd kv)) ++ s ",".
Definition current_text (indent : nat) (c : current) : str :=
  match c with CMap m => join [newline] (map (attribute_text indent) m) | CValue v => str_value v end.
Definition entry_text (indent : nat) (kc : str * current) : str :=
  pad indent ++ repr_str (fst kc) ++ s ": {" ++ [newline] ++ current_text indent (snd kc) ++ [newline] ++ pad indent ++ s "}".
Definition tolines (indent : nat) (d : list (str * current)) : list str := map (entry_text indent) d.
(** 151-157 [SourceFile.tostring] *)
Definition tostring (indent : nat) (d : list (str * current)) : str :=
  join [newline] (map (fun line => line ++ s ",") (tolines indent d)).
(** 222-224, 441-443 *)
Definition titled (title body : str) : str := title ++ s " = {" ++ [newline] ++ body ++ [newline] ++ s "}".

(** ** the format 'full': [v.__name__ if k == 'type' else v] *)
Definition named_type (kv : str * value) : result (str * value) :=
  if str_eqb (fst kv) (s "type") then match snd kv with VType t => Ok (fst kv, VText (ptype_name t)) | _ => Raise AttributeError end
  else Ok kv.
Definition put_all (extra d : list (str * value)) : list (str * value) :=
  fold_left (fun d kv => dict_put str_eqb d (fst kv) (snd kv)) extra d.
Definition metadata_of (meta : list (str * list (str * value))) (key : str) : list (str * value) :=
  match lookup str_eqb meta key with Ok m => m | Raise _ => [] end.
(** 109-123 [todict]: the keys in order or sorted, each with what [get] returns *)
Definition todict_as {W} (keys : list str) (get : str -> result W) (sort : bool) : result (list (str * W)) :=
  mapM (fun k => v <- get k ;; Ok (k, v)) (if sort then sort_by str_ltb keys else keys).
(** 432-437: [{**None}] is a [TypeError] *)
Definition value_of (a : attr) : value := match a with AText x => VText x | AType t => VType t end.
Definition full_parameter (meta : list (str * list (str * value))) (defs : list (str * list (str * attr))) (key : str) : result (list (str * value)) :=
  match lookup str_eqb defs key with
  | Raise _ => Raise TypeError
  | Ok a => mapM named_type (put_all (metadata_of meta key) (map (fun kv => (fst kv, value_of (snd kv))) a))
  end.
Definition as_maps (d : list (str * list (str * value))) : list (str * current) := map (fun km => (fst km, CMap (snd km))) d.
(** [ConfigurationC.tostring(indent, mode='full', sort)] *)
Definition parameters_text (meta : list (str * list (str * value))) (defs : list (str * list (str * attr))) (indent : nat) (sort : bool) : result str :=
  d <- todict_as (map fst defs) (full_parameter meta defs) sort ;; Ok (titled (s "CONFIGURATION_C") (tostring indent (as_maps d))).
(** [ConfigurationC.tostring(indent, sort)]: without a format, [get] is that of the mapping *)
Definition parameters_default_text (defs : list (str * list (str * attr))) (indent : nat) (sort : bool) : result str :=
  d <- todict_as (map fst defs) (fun k => a <- lookup str_eqb defs k ;; Ok (map (fun kv => (fst kv, value_of (snd kv))) a)) sort ;;
  Ok (titled (s "CONFIGURATION_C") (tostring indent (as_maps d))).

Section Constants.
Variable libm : Qc -> Qc -> option Qc.
(** what [repr] writes for an [int] (true) and for a [float] *)
Variable number_text : bool -> Qc -> str.
Variable consts : list (str * str).
Variable ctypes : list (str * bool).
Variable meta : list (str * list (str * value)).
(** 96-101 [get] with 226-241: the value is computed; a constant that is not
    there has the default value [None] *)
Definition constant_value (fuel : nat) (key : str) : result value :=
  match lookup str_eqb consts key with
  | Raise _ => Ok VNone
  | Ok _ => q <- bt_compute libm consts ctypes fuel key ;;
            isint <- lookup str_eqb ctypes key ;; Ok (VNumber (number_text isint q))
  end.
(** 207-219: 'value', then the metadata, in order *)
Definition full_constant (fuel : nat) (key : str) : result (list (str * value)) :=
  v <- constant_value fuel key ;;
  extra <- mapM named_type (metadata_of meta key) ;;
  Ok (put_all extra [(s "value", v)]).
(** [BaseTypesH.tostring(indent, mode='full', sort)] *)
Definition constants_text (fuel indent : nat) (sort : bool) : result str :=
  d <- todict_as (map fst consts) (full_constant fuel) sort ;; Ok (titled (s "BASETYPES_H") (tostring indent (as_maps d))).
(** [BaseTypesH.tostring(indent, sort)] *)
Definition constants_default_text (fuel indent : nat) (sort : bool) : result str :=
  d <- todict_as (map fst consts) (constant_value fuel) sort ;;
  Ok (titled (s "BASETYPES_H") (tostring indent (map (fun kv => (fst kv, CValue (snd kv))) d))).
End Constants.
