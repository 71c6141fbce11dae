(** * Model of parameter defaults and the runtime interface
    (parameter/_config.py 18-128, 303-408; parameter/_src.py 188-262, 356-470;
    parameter/_runtime.py 123-250)

    Paths are relative to /repo/src/eprempy.  Numbers are exact: an [int] or a
    [float] is a rational, decimal literals are read exactly, and sums, products
    and integral powers are exact; only non-integral powers go through [libm].
    The tables of definitions (from the package database or from EPREM source
    files) are parameters of the model.  Not modelled: texts with underscores
    between digits, and the texts [float] and [complex] accept beyond decimal
    literals ("inf", "nan", "1j", ...); the cache of computed constants. *)
From Verif Require Import PyBase ContainerModel SymbolicModel AliasedModel ConfigModel.
Local Open Scope Qc_scope.

(** ** numbers *)
(** [int(x)] for a text *)
Definition unsigned (x : str) : str := match x with c :: x' => if is_sign c then x' else x | [] => [] end.
Definition int_of_str (x : str) : result Qc :=
  let y := strip x in
  match unsigned y with
  | [] => Raise ValueError
  | ds => if forallb is_digit ds then
            let n := zq (Z.of_N (N_of_str ds)) in
            Ok (match y with c :: _ => if Ascii.eqb c "-" then - n else n | [] => n end)
          else Raise ValueError
  end.
(** [float(x)] for a text *)
Definition numeral_start (x : str) : bool :=
  match x with
  | c :: x' => is_digit c || (Ascii.eqb c "." && match x' with d :: _ => is_digit d | [] => false end)
  | [] => false
  end.
Definition float_of_str (x : str) : result Qc :=
  let y := strip x in
  if numeral_start (unsigned y) && negb (existsb (Ascii.eqb "/") y) then fraction_of_str y else Raise ValueError.
(** _config.py 371-408 [cast] *)
Definition cast (x : str) : option Qc :=
  match int_of_str x with
  | Ok q => Some q
  | Raise _ => match float_of_str x with Ok q => Some q | Raise _ => None end
  end.

(** ** values *)
Inductive pvalue := PNum (q : Qc) | PStr (x : str) | PList (l : list pvalue) | PNone.
Inductive ptype := TInt | TFloat | TStr | TList.

(** [x.strip(chars)] *)
Fixpoint lstrip_chars (f : ascii -> bool) (x : str) : str :=
  match x with c :: x' => if f c then lstrip_chars f x' else x | [] => [] end.
Definition strip_chars (f : ascii -> bool) (x : str) : str := rev (lstrip_chars f (rev (lstrip_chars f x))).
Definition is_bracket (c : ascii) : bool := Ascii.eqb c "[" || Ascii.eqb c "]".
Definition is_quote (c : ascii) : bool := Ascii.eqb c " " || Ascii.eqb c "'".
(** _config.py 357-365 [stringlist] *)
Definition ends_with (c : ascii) (x : str) : bool := match rev x with d :: _ => Ascii.eqb c d | [] => false end.
Definition stringlist (x : str) : result (list pvalue) :=
  if starts (s "[") x && ends_with "]" x then
    match strip_chars is_bracket x with
    | [] => Ok []
    | inside => items <- split (s ",") inside ;;
                mapM (fun i => match cast (strip_chars is_quote i) with Some q => Ok (PNum q) | None => Raise TypeError end) items
    end
  else Raise TypeError.
(** 307-354 [_convert], [soft_convert]: the text itself if it cannot be converted *)
Definition convert (x : str) (t : ptype) : pvalue :=
  match t with
  | TStr => PStr x
  | TInt => match int_of_str x with Ok q => PNum q | Raise _ => PStr x end
  | TFloat => match float_of_str x with Ok q => PNum q | Raise _ => PStr x end
  | TList => match stringlist x with Ok l => PList l | Raise _ => PStr x end
  end.
(** [isinstance(value, type)], for a value that [convert] returned for the type *)
Definition has_type (v : pvalue) (t : ptype) : bool :=
  match v, t with
  | PNum _, TInt | PNum _, TFloat | PStr _, TStr | PList _, TList => true
  | _, _ => false
  end.

(** ** constants: _src.py 188-262 [BaseTypesH] *)
Section Definitions.
Variable libm : Qc -> Qc -> option Qc.
(** [SourceFile.definitions] of baseTypes.h: texts; [types]: is the constant an [int]? *)
Variable consts : list (str * str).
Variable ctypes : list (str * bool).

Definition has_text (p x : str) : bool := match split p x with Ok (_ :: _ :: _) => true | _ => false end.
Definition symbolic_text (x : str) : bool := has_text (s "*") x || has_text (s "/") x || has_text (s "sqrt") x.
(** symbolic/_operand.py 669-694 [Term.__call__], then 756-767 [float]: the
    constructor of the new term replaces a zero coefficient by one *)
Definition term_call (t : operand) (x : Qc) : result Qc :=
  if str_eqb (base t) (s "1") then Raise TypeError
  else p <- fr_pow libm x (expo t) ;; Ok (or1 (coef t * p)).
(** _src.py 252-262 [_evaluate]: unknown symbols are passed over *)
Fixpoint bt_evaluate (f : str -> result Qc) (ts : list operand) (value : Qc) : result Qc :=
  match ts with
  | [] => Ok value
  | t :: ts' =>
      if mem str_eqb (base t) (map fst consts) then
        x <- f (base t) ;; y <- term_call t x ;; bt_evaluate f ts' (value * y)
      else if str_eqb (base t) (s "1") then bt_evaluate f ts' (value * coef t)
      else bt_evaluate f ts' value
  end.
(** 231-241 [_compute]; [isinstance(target, None)] is a [TypeError] *)
Fixpoint bt_compute (fuel : nat) (key : str) : result Qc :=
  match fuel with
  | O => Raise RecursionError
  | S n =>
      target <- lookup str_eqb consts key ;;
      match lookup str_eqb ctypes key with
      | Raise _ => Raise TypeError
      | Ok isint =>
          if symbolic_text target then
            e <- expression_of_str libm target ;; bt_evaluate (bt_compute n) e 1
          else if isint then int_of_str target else float_of_str target
      end
  end.

(** ** defaults: _config.py 18-128 [Defaults] *)
(** the entries of configuration.c: type and default text *)
Variable params : list (str * (ptype * str)).

Definition is_word (c : ascii) : bool :=
  is_alpha c || is_digit c || Ascii.eqb c "_" ||
  (let n := N_of_ascii c in                       (* Latin-1 letters and numerals: str.isalnum *)
   ((192 <=? n) && negb ((n =? 215) || (n =? 247)) || (n =? 170) || (n =? 178) || (n =? 179) || (n =? 181)
    || (n =? 185) || (n =? 186) || (n =? 188) || (n =? 189) || (n =? 190))%N).
Definition config_dot : str := s "config.".
(** 65 [_struct_member] *)
Definition struct_member (x : str) : bool := starts config_dot x && forallb is_word (skipn 7 x).
(** [x.replace('config.', '')] *)
Definition drop_config (x : str) : str := concat (split_from config_dot 0 [] x).
(** 86-102 [_compute_sum]: the first two terms only; [None] without an operator *)
Definition number_of (v : pvalue) : result Qc := match v with PNum q => Ok q | _ => Raise TypeError end.
Definition two_terms (sign : Qc) (vs : list pvalue) : result Qc :=
  match vs with
  | a :: b :: _ => y <- number_of b ;; x <- number_of a ;; Ok (x + sign * y)
  | _ => Raise IndexError
  end.
Definition compute_sum (f : str -> result pvalue) (x : str) : result (option Qc) :=
  if has_text (s "+") x then
    ps <- split (s "+") x ;; vs <- mapM (fun p => f (strip p)) ps ;; r <- two_terms 1 vs ;; Ok (Some r)
  else if has_text (s "-") x then
    ps <- split (s "-") x ;; vs <- mapM (fun p => f (strip p)) ps ;; r <- two_terms (- (1)) vs ;; Ok (Some r)
  else Ok None.
Fixpoint product (l : list Qc) : Qc := match l with [] => 1 | q :: l' => q * product l' end.
(** 67-84 [_resolve] *)
Definition resolve_text (f : str -> result pvalue) (x : str) : result pvalue :=
  if struct_member x then f (drop_config x)
  else
    let interior := strip_chars is_bracket x in
    if struct_member interior then v <- f (drop_config interior) ;; Ok (PList [v])
    else
      sum <- compute_sum f x ;;
      let rest :=
        if has_text (s "*") x || has_text (s "/") x then
          ts <- expression_of_str libm (drop_config x) ;;
          vs <- mapM (fun t => v <- f (base t) ;; q <- number_of v ;; p <- fr_pow libm q (expo t) ;; Ok (coef t * p)) ts ;;
          Ok (PNum (product vs))
        else Raise TypeError in
      match sum with
      | Some q => if qc_eqb q 0 then rest else Ok (PNum q)
      | None => rest
      end.
Definition third : Qc := mkq 1 3.
(** 46-63 [_evaluate], 104-115 [_get_argument]; a zero that [cast] returns
    counts as a failure *)
Fixpoint eval_param (fuel : nat) (x : str) : result pvalue :=
  match fuel with
  | O => Raise RecursionError
  | S n =>
      let rest :=
        if str_eqb x (s "N_PROCS") then Ok PNone
        else if str_eqb x (s "third") then Ok (PNum third)
        else match lookup str_eqb params x with
             | Ok (t, text) =>
                 let v := convert text t in
                 if has_type v t then Ok v
                 else match v with PStr y => eval_param n y | _ => Raise TypeError end
             | Raise _ =>
                 if mem str_eqb x (map fst consts) then q <- bt_compute n x ;; Ok (PNum q)
                 else resolve_text (eval_param n) x
             end in
      match cast x with
      | Some q => if qc_eqb q 0 then rest else Ok (PNum q)
      | None => rest
      end
  end.
(** 37-41 [__getitem__] *)
Definition default_of (fuel : nat) (name : str) : result pvalue :=
  if mem str_eqb name (map fst params) then eval_param fuel name else Raise KeyError.
(** [{**defaults}]: every default, in order *)
Definition all_defaults (fuel : nat) : result (list (str * pvalue)) :=
  mapM (fun p => v <- default_of fuel (fst p) ;; Ok (fst p, v)) params.

(** ** the runtime interface: _runtime.py 123-250 *)
(** [_metadata._LOCAL]: names and default values *)
Variable locals : list (str * pvalue).
(** [_metadata.UNITS] and the groups [_metadata.ALIASES] *)
Variable units : list (str * option str).
Variable aliases : list gentry.
Variable same : group -> group -> bool.

(** [d.update(u)] *)
Definition update {V} (d u : list (str * V)) : list (str * V) := fold_left (fun d kv => dict_put str_eqb d (fst kv) (snd kv)) u d.
(** 209-222: the converted settings of the known parameters *)
Definition user_settings (cfg : list (str * str)) : list (str * pvalue) :=
  flat_map (fun p => match lookup str_eqb cfg (fst p) with
                     | Ok x => [(fst p, convert x (fst (snd p)))]
                     | Raise _ => []
                     end) params.
(** 200-228 [interface_factory]: names with values and units *)
Definition unit_of (k : str) : option str := match lookup str_eqb units k with Ok u => u | Raise _ => None end.
Definition interface_base (fuel : nat) (cfg : option (list (str * str))) : result (list (str * (pvalue * option str))) :=
  ds <- all_defaults fuel ;;
  let init := update (update [] locals) ds in
  let final := match cfg with Some c => update init (user_settings c) | None => init end in
  Ok (map (fun kv => (fst kv, (snd kv, unit_of (fst kv)))) final).
(** aliased.py 265-277, 315-340: one group per name *)
Definition alias_group (k : str) : group := dedup (k :: match groups_get aliases k with Some g => gnames g | None => [] end).
Definition interface (fuel : nat) (cfg : option (list (str * str))) : result (entries (pvalue * option str)) :=
  b <- interface_base fuel cfg ;;
  Ok (fold_left (fun d kv => dict_set same d (alias_group (fst kv)) (snd kv)) b []).
(** _runtime.py 155-168 [__getitem__]: the value, and the unit with which it
    becomes a [Variable], or no unit *)
Definition truthy (v : pvalue) : bool :=
  match v with PNum q => negb (qc_eqb q 0) | PStr [] | PList [] | PNone => false | _ => true end.
Definition interface_get (i : entries (pvalue * option str)) (k : str) : result (pvalue * option str) :=
  vu <- getitem i k ;;
  deg <- getitem i (s "useDegrees") ;;
  Ok (fst vu, match snd vu with
              | Some u => if str_eqb u (s "rad") && truthy (fst deg) then Some (s "deg") else Some u
              | None => None
              end).
End Definitions.
