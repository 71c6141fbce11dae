(** Model of the rest of [eprempy/aliased.py]: mappings built with aliases given beside the values,
    squeeze, fromkeys, alias, equality, freeze, and the views of a mapping.
    Source: /repo/src/eprempy/aliased.py.

    As in AliasedModel, names are texts and a group is the list of its members. *)
From Verif Require Import PyBase AliasedModel.

(** Values of a user's mapping: a text, a list or tuple of texts, a mapping (from texts), or any
    other object.  [AOther] stands for objects without length and without [get], such as numbers. *)
Inductive avalue :=
| AText (x : str) | ANames (l : list str) | AInterior (d : list (str * avalue)) | AOther (n : Z).

Section Build.
(** see AliasedModel: whether a [dict] takes two groups for the same key *)
Variable same : group -> group -> bool.

(** 201-214 [Groups.get] for a key of the user's mapping.  A tuple of names is no member of a group
    (its text in brackets is no name), so only an equal group is found. *)
Definition groups_find (gs : list gentry) (k : ukey) : option gentry :=
  match k with
  | KOne x => groups_get gs x
  | KTup ks => find (fun g => group_eqb (dedup ks) (gnames g)) gs
  end.

(** What [aliases] may be (574-614): nothing, a text, a [Groups] object, another aliased mapping
    (of which only the keys matter), or a plain mapping from names to a text or an iterable of texts. *)
Inductive aliases_arg :=
| NoAliases | AliasKey (x : str) | AliasGroups (gs : list gentry) | AliasMapping (ks : list group)
| AliasTable (t : list (str * list str)).

(** 260-275 [keysfrom] with groups: the key and the group that contains it *)
Definition key_with_groups (gs : list gentry) (k : ukey) : group :=
  dedup (ugroup k ++ match groups_find gs k with Some g => gnames g | None => [] end).
(** [Group(v.get(aliases, ()))] (275): the names in an interior value.  A text is one name; an
    interior mapping is iterated over its keys; any other object becomes an alias that is no text. *)
Definition names_in (v : option avalue) : list str :=
  match v with
  | Some (AText x) => [x]
  | Some (ANames l) => l
  | Some (AInterior d) => map fst d
  | Some (AOther _) | None => []
  end.
(** 272-275 [keysfrom] with the name of an entry: the values must have [get] *)
Definition key_with_entry (x : str) (kv : ukey * avalue) : result group :=
  match snd kv with
  | AInterior d => Ok (dedup (ugroup (fst kv) ++ names_in (assoc d x)))
  | _ => Raise AttributeError
  end.
(** 355-361: the interior mapping without the aliases *)
Definition without_entry (x : str) (v : avalue) : avalue :=
  match v with
  | AInterior d => AInterior (filter (fun e => negb (str_eqb (fst e) x)) d)
  | _ => v
  end.
(** [dict(zip(keys, values))] (361) *)
Definition zip_dict {V} (kvs : list (group * V)) : entries V :=
  fold_left (fun d gv => dict_set same d (fst gv) (snd gv)) kvs [].
(** 316-361 [_build_from_key] *)
Definition build_from_groups {V} (m : list (ukey * V)) (gs : list gentry) : entries V :=
  zip_dict (map (fun kv => (key_with_groups gs (fst kv), snd kv)) m).
Definition build_from_entry (m : list (ukey * avalue)) (x : str) : result (entries avalue) :=
  ks <- mapM (key_with_entry x) m ;;
  Ok (zip_dict (combine ks (map (fun kv => without_entry x (snd kv)) m))).
(** 288-291: is there an entry called aliases in some interior mapping? *)
Definition aliases_name : str := s "aliases".
Definition has_aliases (v : avalue) : bool :=
  match v with AInterior d => in_group aliases_name (map fst d) | _ => false end.
(** 292-297 without given aliases; keys that are names or tuples of names always make a [Group] *)
Definition build_implicit (m : list (ukey * avalue)) : result (entries avalue) :=
  if existsb has_aliases (map snd m) then build_from_entry m aliases_name
  else Ok (build_from_aliases same m).
(** 278-299 [_build_mapping].  Empty groups and the empty text count as no aliases. *)
Definition build_mapping (m : list (ukey * avalue)) (a : aliases_arg) : result (entries avalue) :=
  match m with
  | [] => Ok []
  | _ =>
      match a with
      | NoAliases => build_implicit m
      | AliasKey [] => build_implicit m
      | AliasKey x => build_from_entry m x
      | AliasGroups [] => build_implicit m
      | AliasGroups gs => Ok (build_from_groups m gs)
      | AliasMapping [] | AliasTable [] => build_implicit m
      | AliasMapping ks => Ok (build_from_groups m (groups_init ks))
      | AliasTable t => Ok (build_from_groups m (groups_init (map (fun e => fst e :: snd e) t)))
      end
  end.

(** 648-672 [_resolve], [_look_up_key] for a group: the first stored key that is equal to it *)
Fixpoint getgroup {V} (d : entries V) (g : group) : result V :=
  match d with
  | [] => Raise KeyError
  | (h, v) :: d' => if group_eqb h g then Ok v else getgroup d' g
  end.
(** 438-444 [items(aliased=True)] *)
Definition aliased_items {V} (d : entries V) : result (list (group * V)) :=
  mapM (fun gv => v <- getgroup d (fst gv) ;; Ok (fst gv, v)) d.
(** What the constructor may be given (574-600): another aliased mapping (then [aliases] is not
    used), or a mapping with names or tuples of names as keys. *)
Inductive mapping_arg := FromMapping (m : list (ukey * avalue)) | FromAliased (d : entries avalue).
Definition mapping_new (m : mapping_arg) (a : aliases_arg) : result (entries avalue) :=
  match m with
  | FromAliased d => items <- aliased_items d ;; Ok (zip_dict items)
  | FromMapping m => build_mapping m a
  end.

(** 787-796 [__or__] of two aliased mappings: the items of both in one [dict], built again.  The
    keys are groups, so [_build_from_aliases] never finds one inside another. *)
Definition as_items (d : list (group * avalue)) : list (ukey * avalue) :=
  map (fun gv => (KTup (fst gv), snd gv)) d.
Definition or_aliased (d e : entries avalue) : result (entries avalue) :=
  x <- aliased_items d ;;
  y <- aliased_items e ;;
  build_mapping (as_items (zip_dict (x ++ y))) NoAliases.

(** 705-762 [fromkeys]: from groups or an iterable of keys, or from a mapping *)
Inductive keys_arg := KeysOf (ks : list ukey) | KeysOfMapping (m : list (ukey * avalue)) (key : str)
                    | KeysOfAliased (d : entries avalue).
Definition fromkeys (k : keys_arg) (value : avalue) : result (entries avalue) :=
  match k with
  | KeysOf ks => build_mapping (map (fun k => (k, value)) ks) NoAliases
  | KeysOfMapping m key =>
      ks <- mapM (key_with_entry key) m ;;
      build_mapping (as_items (zip_dict (map (fun g => (g, value)) ks))) NoAliases
  | KeysOfAliased d =>
      build_mapping (as_items (zip_dict (map (fun gv => (fst gv, value)) d))) NoAliases
  end.
End Build.

(** 674-703 [squeeze]: the result, and what the mapping is afterwards.  [len] of a value: *)
Definition alength (v : avalue) : result nat :=
  match v with
  | AText x => Ok (length x)
  | ANames l => Ok (length l)
  | AInterior d => Ok (length d)
  | AOther _ => Raise TypeError
  end.
(** [all(len(mapping) == 1 for ...)] stops at the first other length *)
Fixpoint all_single (l : list avalue) : result bool :=
  match l with
  | [] => Ok true
  | v :: l' => n <- alength v ;; if Nat.eqb n 1 then all_single l' else Ok false
  end.
(** [tuple(v.keys())[0]], [tuple(v.values())[0]] for a value of length one *)
Definition only_key (v : avalue) : result str :=
  match v with
  | AInterior ((k, _) :: _) => Ok k
  | AInterior [] => Raise IndexError
  | _ => Raise AttributeError
  end.
Definition only_value (v : avalue) : result avalue :=
  match v with
  | AInterior ((_, w) :: _) => Ok w
  | AInterior [] => Raise IndexError
  | _ => Raise AttributeError
  end.
(** 694-700: every other key against the first *)
Fixpoint same_only_key (k0 : str) (l : list avalue) : result unit :=
  match l with
  | [] => Ok tt
  | v :: l' => k <- only_key v ;; if str_eqb k k0 then same_only_key k0 l' else Raise TypeError
  end.
Definition strict_check (l : list avalue) : result unit :=
  match l with
  | [] => Raise IndexError
  | v :: l' => k0 <- only_key v ;; same_only_key k0 l'
  end.
Definition squeeze (d : entries avalue) (strict : bool) : result (entries avalue) :=
  single <- all_single (map snd d) ;;
  if single then
    _ <- (if strict then strict_check (map snd d) else Ok tt) ;;
    vs <- mapM only_value (map snd d) ;;
    Ok (combine (map fst d) vs)
  else Ok d.

(** 764-777 [Mapping.alias] of a name *)
Definition alias_of {V} (d : entries V) (k : str) (include : bool) : result (option group) :=
  match resolve d k with
  | Some i => match nth_error d i with
              | Some (g, _) => Ok (Some (if include then g else filter (fun a => negb (str_eqb a k)) g))
              | None => Raise KeyError
              end
  | None => if include then Ok None else Raise TypeError      (* None - [key] *)
  end.

Section Equality.
Context {V : Type}.
Variable veq : V -> V -> bool.
(** 779-785 [__eq__] of two aliased mappings: their items as sets.  [Set.__eq__] compares the
    lengths and looks up every item of the first in the second. *)
Definition items_view (d : entries V) : result (list (str * V)) :=
  mapM (fun k => v <- getitem d k ;; Ok (k, v)) (flat_keys d).
Definition has_item (d : entries V) (kv : str * V) : bool :=
  match getitem d (fst kv) with Ok v => veq v (snd kv) | Raise _ => false end.
Definition aliased_eq (d e : entries V) : result bool :=
  if Nat.eqb (maplen d) (maplen e) then
    items <- items_view d ;; Ok (forallb (has_item e) items)
  else Ok false.
(** 783-785 with any other mapping, here a [dict] of names: [dict(self.items()) == dict(other)] *)
Definition dict_of_items (l : list (str * V)) : list (str * V) :=
  fold_left (fun d kv => assoc_set d (fst kv) (snd kv)) l [].
Definition plain_eq (d : entries V) (other : list (str * V)) : result bool :=
  items <- items_view d ;;
  let mine := dict_of_items items in
  Ok (Nat.eqb (length mine) (length other)
      && forallb (fun kv => match assoc other (fst kv) with Some v => veq (snd kv) v | None => false end) mine).
End Equality.

Section Views.
Context {V : Type}.
Notation val := (pyval V).
(** 395-404 [MappingView.__init__]: a view of the names keeps the list of names of the moment; a view
    with [aliased=True] keeps the keys of the dictionary itself, which follow its changes. *)
Inductive view := NamesView (names : list str) | GroupsView.
Definition view_of (st : mstate V) (aliased : bool) : view :=
  if aliased then GroupsView else NamesView (flat_keys (ents st)).
(** 406-408 [len(view)] *)
Definition view_len (st : mstate V) (w : view) : nat :=
  match w with NamesView ns => length ns | GroupsView => length (ents st) end.
(** 421-426 [list(keys)]: each key is a group; a name stands for the group of that name only *)
Definition view_keys (st : mstate V) (w : view) : list ukey :=
  match w with NamesView ns => map KOne ns | GroupsView => map (fun gv => KTup (fst gv)) (ents st) end.
(** 438-444 [list(items)]; 429-435 [list(values)] are the second components *)
Definition view_items (st : mstate V) (w : view) : result (list (ukey * val)) :=
  match w with
  | NamesView ns => mapM (fun k => v <- mget st k ;; Ok (KOne k, v)) ns
  | GroupsView => mapM (fun gv => v <- getgroup (ents st) (fst gv) ;; Ok (KTup (fst gv), v)) (ents st)
  end.
(** [collections.abc.KeysView.__contains__]: the mapping itself is asked *)
Definition in_view (st : mstate V) (k : str) : bool := contains (ents st) k.

(** 995-1007 [freeze]: a new mapping; with groups, every name and every key group is a key of its own *)
Definition freeze (same : group -> group -> bool) (st : mstate V) (groups : bool) : result (entries val) :=
  if groups then
    mine <- mapM (fun k => v <- mget st k ;; Ok (k, v)) (flat_keys (ents st)) ;;
    grouped <- mapM (fun kg => v <- mget st (fst kg) ;; Ok (fst kg, v)) (kgroups st) ;;
    Ok (build_from_aliases same (map (fun kv => (KOne (fst kv), snd kv)) (dict_of_items (mine ++ grouped))))
  else
    items <- aliased_items (ents st) ;;
    Ok (zip_dict same items).
End Views.
