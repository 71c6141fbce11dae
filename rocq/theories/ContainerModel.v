(** Model of [eprempy/container.py].  Source: /repo/src/eprempy/container.py.

    Members of collections have a type [A] with a decidable Python equality
    [eqb]; hashing is assumed consistent with it. *)
From Verif Require Import PyBase.

Section Generic.
Context {A : Type}.
Variable eqb : A -> A -> bool.

(** Python [x in l] *)
Definition mem (x : A) (l : list A) : bool := existsb (eqb x) l.

(** 32-54 [unique], the loop 50-54 *)
Fixpoint unique_loop (collection items : list A) : list A :=
  match items with
  | [] => collection
  | item :: items' =>
      if mem item collection then unique_loop collection items'
      else unique_loop (collection ++ [item]) items'
  end.
Definition unique_items (items : list A) : list A := unique_loop [] items.
(** 32-54 [unique] as called: [iter] gives the members of an argument, [None] if
    it is not iterable (TypeError in the [for] statement) *)
Definition unique (iter : A -> option (list A)) (strict : bool) (args : list A) : result (list A) :=
  match args, strict with
  | [x], false => match iter x with
                  | Some items => Ok (unique_items items)
                  | None => Raise TypeError
                  end
  | _, _ => Ok (unique_items args)
  end.

(** Python [l.index(v)] and slices [l[i:j]], [l[i:]] with non-negative bounds *)
Fixpoint index_of (v : A) (l : list A) : result nat :=
  match l with
  | [] => Raise ValueError
  | x :: l' => if eqb x v then Ok 0 else i <- index_of v l' ;; Ok (S i)
  end.
Definition slice_from (i : nat) (l : list A) : list A := skipn i l.
Definition slice (i j : nat) (l : list A) : list A := firstn (j - i) (skipn i l).
Fixpoint list_eqb (a b : list A) : bool :=
  match a, b with
  | [], [] => true
  | x :: a', y :: b' => eqb x y && list_eqb a' b'
  | _, _ => false
  end.

(** 1092-1101, the loop of [merge] *)
Fixpoint merge_loop (x y ab out : list A) (za zb : nat) : result (list A) :=
  match ab with
  | [] => Ok (out ++ slice_from za x ++ slice_from zb y)
  | v :: ab' =>
      ia <- index_of v x ;;
      ib <- index_of v y ;;
      merge_loop x y ab' ((out ++ slice za ia x ++ slice zb ib y) ++ [v]) (ia + 1) (ib + 1)
  end.
(** 1063-1104 [merge] *)
Definition merge (these those : list A) : result (list A) :=
  let x := these in
  let y := those in
  if existsb (fun i => mem i y) x then
    let ab := filter (fun i => mem i y) x in
    let ba := filter (fun i => mem i x) y in
    if negb (list_eqb ab ba) then Raise MergeError
    else merge_loop x y ab [] 0 0
  else Ok (x ++ y).
End Generic.

(** ** nearest (994-1056), one-dimensional arrays of exact numbers

    Numbers are exact rationals: the rounding of [array - target] in double
    precision and NaN are not modelled; nor are arrays of higher dimension. *)
Definition absq (q : Qc) : Qc := if qc_ltb q 0 then (- q)%Qc else q.

(** numpy [argmin]: the first index of the smallest member *)
Fixpoint argmin_from (best : nat) (bestv : Qc) (i : nat) (l : list Qc) : nat :=
  match l with
  | [] => best
  | v :: l' => if qc_ltb v bestv then argmin_from i v (S i) l' else argmin_from best bestv (S i) l'
  end.
Definition argmin (l : list Qc) : result nat :=
  match l with
  | [] => Raise ValueError
  | v :: l' => Ok (argmin_from 0 v 1 l')
  end.
(** Python/numpy subscription by an integer, negative ones from the end *)
Definition pyindex {B} (l : list B) (i : Z) : result B :=
  let j := if (i <? 0)%Z then (i + Z.of_nat (length l))%Z else i in
  if (j <? 0)%Z then Raise IndexError
  else match nth_error l (Z.to_nat j) with Some v => Ok v | None => Raise IndexError end.
(** 1039-1044: [while array[index] < target: index += 1], IndexError -> -1.
    [fuel]: the loop ends after at most [length array + 1] steps. *)
Fixpoint seek_up (fuel : nat) (array : list Qc) (target : Qc) (index : Z) : Z :=
  match fuel with
  | O => (-1)%Z
  | S f => match pyindex array index with
           | Ok v => if qc_ltb v target then seek_up f array target (index + 1) else index
           | Raise _ => (-1)%Z
           end
  end.
(** 1045-1050: [while array[index] > target: index -= 1], IndexError -> 0 *)
Fixpoint seek_down (fuel : nat) (array : list Qc) (target : Qc) (index : Z) : Z :=
  match fuel with
  | O => 0%Z
  | S f => match pyindex array index with
           | Ok v => if qc_ltb target v then seek_down f array target (index - 1) else index
           | Raise _ => 0%Z
           end
  end.
Inductive bound := NoBound | Lower | Upper.
(** 1037-1056 *)
Definition nearest (values : list Qc) (target : Qc) (b : bound) : result (Z * Qc) :=
  i <- argmin (map (fun v => absq (v - target)) values) ;;
  let n := length values in
  let index := match b with
               | NoBound => Z.of_nat i
               | Lower => seek_up (n + 2) values target (Z.of_nat i)
               | Upper => seek_down (2 * n + 2) values target (Z.of_nat i)
               end in
  v <- pyindex values index ;;
  Ok (index, v).

(** ** slice2range (1156-1190) *)
Record pyslice := { sl_start : option Z; sl_stop : option Z; sl_step : option Z }.
(** members of [range(start, stop, step)] *)
Fixpoint range_up (fuel : nat) (i stop step : Z) : list Z :=
  match fuel with
  | O => []
  | S f => if (i <? stop)%Z then i :: range_up f (i + step) stop step else []
  end.
Fixpoint range_down (fuel : nat) (i stop step : Z) : list Z :=
  match fuel with
  | O => []
  | S f => if (stop <? i)%Z then i :: range_down f (i + step) stop step else []
  end.
Definition range_list (start stop step : Z) : list Z :=
  if (0 <? step)%Z then range_up (Z.to_nat (stop - start)) start stop step
  else range_down (Z.to_nat (start - stop)) start stop step.
(** Python [x or d] for integers *)
Definition or_z (x : option Z) (d : Z) : Z :=
  match x with Some 0%Z => d | Some z => z | None => d end.
Definition slice2range (sl : pyslice) (stop : option Z) : result (list Z) :=
  match sl_stop sl, stop with
  | None, None => Raise TypeError
  | Some e, _ => Ok (range_list (or_z (sl_start sl) 0) e (or_z (sl_step sl) 1))
  | None, Some e => Ok (range_list (or_z (sl_start sl) 0) e (or_z (sl_step sl) 1))
  end.

(** ** Graph (348-432) *)
Definition node := str.
(** weights: [None], or an exact number (double rounding of [1 / weight] is not
    modelled) *)
Definition weight := option Qc.
Definition connections := list ((node * node) * weight).
Definition edge_eqb (a b : node * node) : bool :=
  str_eqb (fst a) (fst b) && str_eqb (snd a) (snd b).
Fixpoint conn_get (c : connections) (e : node * node) : option weight :=
  match c with
  | [] => None
  | (e', w) :: c' => if edge_eqb e' e then Some w else conn_get c' e
  end.
(** 424: [1 / weight if weight else weight] *)
Definition inverse_weight (w : weight) : weight :=
  match w with
  | Some q => if qc_eqb q 0 then Some q else Some (/ q)%Qc
  | None => None
  end.
Definition add_edge (c : connections) (ev : (node * node) * weight) : connections :=
  match conn_get c (fst ev) with Some _ => c | None => c ++ [ev] end.
(** 414-428 [add_connection] *)
Definition add_connection (c : connections) (start stop : node) (w : weight) : connections :=
  add_edge (add_edge c ((start, stop), w)) ((stop, start), inverse_weight w).
(** 352-366 [__init__] and any later additions *)
Definition build_graph (base : list ((node * node) * weight)) : connections :=
  fold_left (fun c e => add_connection c (fst (fst e)) (snd (fst e)) (snd e)) base [].
(** 406-412 [get_weight] *)
Definition get_weight (c : connections) (a b : node) : result weight :=
  match conn_get c (a, b) with Some w => Ok w | None => Raise KeyError end.
(** 380-383 [nodes], 385-404 [get_adjacencies] *)
Definition nodes (c : connections) : list node :=
  flat_map (fun e => [fst (fst e); snd (fst e)]) c.
Definition get_adjacencies (c : connections) (n : node) : list (node * weight) :=
  if mem str_eqb n (nodes c)
  then map (fun e => (snd (fst e), snd e)) (filter (fun e => str_eqb (fst (fst e)) n) c)
  else [].

(** ** Bijection (711-791) *)
Section Bij.
Context {K V : Type}.
Variable keqb : K -> K -> bool.
Variable veqb : V -> V -> bool.
(** the number of distinct members of a list (Python [len(set(l))]) *)
Definition count_distinct {T} (eqb : T -> T -> bool) (l : list T) : nat := length (unique_items eqb l).
(** 714-729 [__init__]; the argument is a mapping: its keys are distinct *)
Definition bijection (m : list (K * V)) : result (list (K * V)) :=
  let n_keys := length m in
  let n_values := count_distinct veqb (map snd m) in
  if Nat.ltb n_values n_keys then Raise (OtherError "InjectiveTypeError")
  else if negb (Nat.eqb n_keys n_values) then Raise (OtherError "NonInvertibleError")
  else Ok m.
(** Python [d[k]] *)
Fixpoint lookup (m : list (K * V)) (k : K) : result V :=
  match m with
  | [] => Raise KeyError
  | (k', v) :: m' => if keqb k' k then Ok v else lookup m' k
  end.
(** [d[k] = v] *)
Fixpoint dict_put (m : list (K * V)) (k : K) (v : V) : list (K * V) :=
  match m with
  | [] => [(k, v)]
  | (k', v') :: m' => if keqb k' k then (k', v) :: m' else (k', v') :: dict_put m' k v
  end.
(** dictionary display / comprehension *)
Definition dict_of (l : list (K * V)) : list (K * V) :=
  fold_left (fun d kv => dict_put d (fst kv) (snd kv)) l [].
End Bij.
(** 743-745 [invert] *)
Definition invert {K V} (keqb : K -> K -> bool) (veqb : V -> V -> bool) (m : list (K * V)) : result (list (V * K)) :=
  bijection keqb (dict_of veqb (map (fun kv => (snd kv, fst kv)) m)).
(** 747-791 [find] without and with a default *)
Definition bij_find {K V} (keqb : K -> K -> bool) (veqb : V -> V -> bool) (m : list (K * V)) (v : V) (default : option K)
  : result K :=
  i <- invert keqb veqb m ;;
  match lookup veqb i v, default with
  | Ok k, _ => Ok k
  | Raise e, None => Raise e
  | Raise _, Some d => Ok d
  end.

(** ** Table (504-671) *)
Section Tables.
Context {V : Type}.
Variable veqb : V -> V -> bool.
Definition row := list (str * V).
Definition row_get (r : row) (k : str) : result V := lookup str_eqb r k.
Definition has_key (r : row) (k : str) : bool := mem str_eqb k (map fst r).
(** 558-564 [keys]: common keys; the first row must exist *)
Definition is_common (t : list row) (k : str) : result bool :=
  match t with
  | [] => Raise IndexError
  | _ => Ok (forallb (fun r => has_key r k) t)
  end.
(** 566-571 [__getitem__] *)
Definition table_get (t : list row) (k : str) : result (list V) :=
  c <- is_common t k ;;
  if c then mapM (fun r => row_get r k) t else Raise (OtherError "TableKeyError").
(** 581-594 [find] *)
Definition table_find (t : list row) (v : V) : result (list row) :=
  match filter (fun r => mem veqb v (map snd r)) t with
  | [] => Raise (OtherError "MissingValueError")
  | found => Ok found
  end.
Definition table_find_unique (t : list row) (v : V) : result row :=
  match filter (fun r => mem veqb v (map snd r)) t with
  | [] => Raise (OtherError "MissingValueError")
  | [r] => Ok r
  | _ => Raise (OtherError "AmbiguousValueError")
  end.
Definition row_matches (kv : str * V) (r : row) : bool :=
  match row_get r (fst kv) with Ok w => veqb w (snd kv) | Raise _ => false end.
(** number of rows of the whole table with this value under this key *)
Definition count_matches (t : list row) (kv : str * V) : nat := length (filter (row_matches kv) t).
(** 649-671 [__call__]; [n] is the number of pairs checked before, [total] the
    length of the request *)
Fixpoint table_call_from (t : list row) (strict : bool) (total n : nat) (subset : list row)
  (request : list (str * V)) : result row :=
  match request with
  | [] => match strict, subset with
          | true, [r] => Ok r
          | _, _ => Raise (OtherError "TableLookupError")
          end
  | kv :: request' =>
      c <- is_common t (fst kv) ;;
      if negb c then Raise (OtherError "TableKeyError")
      else
        let n' := S n in
        let subset' := filter (row_matches kv) subset in
        if strict then table_call_from t strict total n' subset' request'
        else if Nat.ltb n' (count_matches t kv) && Nat.eqb total n'
             then Raise (OtherError "AmbiguousRequestError")
             else match subset' with
                  | [r] => Ok r
                  | _ => table_call_from t strict total n' subset' request'
                  end
  end.
Definition table_call (t : list row) (strict : bool) (request : list (str * V)) : result row :=
  table_call_from t strict (length request) 0 t request.
End Tables.
Arguments row V : clear implicits.

(** ** ObjectRegistry (811-981) *)
Section Registry.
Context {O : Type}.
(** an object to register: its [__qualname__]/[__name__], if any *)
Record registry := { reg_items : list (str * O); reg_init : list (str * O); reg_count : N }.
Definition new_registry (base : list (str * O)) : registry :=
  {| reg_items := dict_of str_eqb base; reg_init := dict_of str_eqb base; reg_count := 1 |}.
Definition reg_has (r : registry) (k : str) : bool := mem str_eqb k (map fst (reg_items r)).
(** [f"{proposed}_{count}"] *)
Definition numbered_key (proposed : str) (n : N) : str := proposed ++ "_"%char :: str_of_N n.
(** 938-967 [_get_mapping_key], [_get_default_key]: the key and the new count.
    Objects have a name (without one the key would be [None]). *)
Definition mapping_key (r : registry) (objname : str) (user : option str) (overwrite : bool) : str * N :=
  let default := if negb (reg_has r objname) then (objname, reg_count r)
                 else (numbered_key objname (reg_count r), N.succ (reg_count r)) in
  match user with
  | Some (c :: u) => if negb (reg_has r (c :: u)) || overwrite then (c :: u, reg_count r) else default
  | _ => default
  end.
(** 843-936 [register] *)
Definition register (r : registry) (obj : O) (objname : str) (user : option str) (overwrite : bool) : str * registry :=
  let '(key, n) := mapping_key r objname user overwrite in
  (key, {| reg_items := dict_put str_eqb (reg_items r) key obj; reg_init := reg_init r; reg_count := n |}).
(** 973-975 [reset] *)
Definition reset (r : registry) : registry :=
  {| reg_items := reg_init r; reg_init := reg_init r; reg_count := reg_count r |}.
Definition reg_get (r : registry) (k : str) : result O := lookup str_eqb (reg_items r) k.
End Registry.
Arguments registry O : clear implicits.

(** ** wrap / unwrap / size (73-180, 1116-1153) on nested lists *)
Inductive nested (A : Type) := Leaf (a : A) | Text (t : str) | Nest (l : list (nested A)).
Arguments Leaf {A} a.
Arguments Text {A} t.
Arguments Nest {A} l.
(** 148-155 [unwrap] without [newtype] ([seed = [obj]] first) *)
Fixpoint unwrap {A} (x : nested A) : nested A :=
  match x with
  | Nest [y] => unwrap y
  | _ => x
  end.
(** 158-180 [wrap] *)
Definition wrap {A} (x : nested A) : list (nested A) :=
  match x with
  | Nest l => l
  | _ => [x]
  end.
(** 154: [newtype(wrap(seed))] *)
Definition unwrap_new {A} (x : nested A) : list (nested A) := wrap (unwrap x).
(** 1116-1153 [size]: strings are iterable but not separable *)
Fixpoint size {A} (x : nested A) : result nat :=
  match x with
  | Leaf _ => Raise TypeError
  | Text _ => Raise TypeError
  | Nest l => (fix go (l : list (nested A)) : result nat :=
                 match l with
                 | [] => Ok 0
                 | y :: l' =>
                     n <- match y with Leaf _ => Ok 1 | _ => size y end ;;
                     m <- go l' ;; Ok (n + m)
                 end) l
  end.
