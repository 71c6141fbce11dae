(** Model of [eprempy/aliased.py]: alias groups, aliased mappings, name maps.
    Source: /repo/src/eprempy/aliased.py.

    Names are strings.  A [Group] (15-97) wraps a Python set of names; here it is
    the list of its members, of which the order is never observed.  Groups are
    given flat: the removal of redundant nesting (Group.__init__ 32-42,
    container.unwrap) is not modelled. *)
From Verif Require Import PyBase.

Definition group := list str.
Definition in_group (k : str) (g : group) : bool := existsb (str_eqb k) g.
(** members of a Python set: repeated names count once *)
Fixpoint dedup (l : list str) : list str :=
  match l with
  | [] => []
  | x :: l' => if in_group x l' then dedup l' else x :: dedup l'
  end.
Definition group_eqb (a b : group) : bool :=
  forallb (fun k => in_group k b) a && forallb (fun k => in_group k a) b.

(** ** Groups (103-236) *)

(** A member of [Groups._groups]: a [Group], or an iterable stored as given by
    [update] (153-164 appends the argument itself). *)
Record gentry := { gnames : list str; graw : bool }.

(** 106-118 [Groups.__init__] *)
Definition groups_init (ks : list (list str)) : list gentry :=
  map (fun k => {| gnames := dedup k; graw := false |}) ks.
(** 123-126 [flat] *)
Definition groups_flat (gs : list gentry) : list str := concat (map gnames gs).
(** 201-214 [get]: the first group that contains the name, or equals [{name}] *)
Fixpoint groups_get (gs : list gentry) (x : str) : option gentry :=
  match gs with
  | [] => None
  | g :: gs' => if in_group x (gnames g) || group_eqb [x] (gnames g) then Some g
                else groups_get gs' x
  end.
(** 166-170 [_search]: the first member of the argument that is in a group *)
Fixpoint groups_search (gs : list gentry) (ks : list str) : option gentry :=
  match ks with
  | [] => None
  | k :: ks' => match groups_get gs k with
                | Some g => Some g
                | None => groups_search gs ks'
                end
  end.
(** Python [list.remove]: the first equal item, or [ValueError] *)
Fixpoint groups_remove (g : gentry) (gs : list gentry) : result (list gentry) :=
  match gs with
  | [] => Raise ValueError
  | h :: gs' => if group_eqb (gnames g) (gnames h) then Ok gs'
                else r <- groups_remove g gs' ;; Ok (h :: r)
  end.
(** 153-164 [_merge] for arguments that are lists or tuples of names.  The
    search always runs in the original groups [self], not in [these]; the union
    of two plain sequences is a [TypeError]. *)
Fixpoint groups_merge_from (self these : list gentry) (others : list (list str))
  : result (list gentry) :=
  match others with
  | [] => Ok these
  | o :: os =>
      match groups_search self o with
      | Some found =>
          t <- groups_remove found these ;;
          if graw found then Raise TypeError
          else groups_merge_from self (t ++ [{| gnames := dedup (gnames found ++ o); graw := false |}]) os
      | None => groups_merge_from self (these ++ [{| gnames := o; graw := true |}]) os
      end
  end.
(** 137-144 [update] *)
Definition groups_update (gs : list gentry) (others : list (list str)) : result (list gentry) :=
  groups_merge_from gs gs others.
(** 146-151 [merge]: the result goes through [__init__] *)
Definition groups_merge (gs : list gentry) (others : list (list str)) : result (list gentry) :=
  r <- groups_merge_from gs gs others ;; Ok (groups_init (map gnames r)).
(** 172-179 [add] *)
Definition groups_add (gs : list gentry) (ks : list str) : result (list gentry) :=
  if existsb (fun k => in_group k (groups_flat gs)) ks then Raise ValueError
  else Ok (gs ++ [{| gnames := dedup ks; graw := false |}]).
(** 181-184 [discard] *)
Definition groups_discard (gs : list gentry) (x : str) : result (list gentry) :=
  match groups_get gs x with Some g => groups_remove g gs | None => Ok gs end.
(** 216-229 [without], for keys that are names *)
Definition groups_without (gs : list gentry) (ks : list str) : list gentry :=
  groups_init (map gnames
    (filter (fun g => forallb (fun k => negb (in_group k (gnames g))
                                        && negb (group_eqb (gnames g) [k])) ks) gs)).

(** ** Mapping (450-824) *)

(** a key of the user's mapping: a name, or a tuple of names *)
Inductive ukey := KOne (k : str) | KTup (ks : list str).
Definition ugroup (k : ukey) : group :=
  match k with KOne k => [k] | KTup ks => dedup ks end.

Section Maps.
Context {V : Type}.
(** [as_dict]: groups with values, in insertion order *)
Definition entries := list (group * V).

(** Does the [dict] treat two [Group] keys as the same key?  It needs equal
    members, but the hash (52-54) depends on the iteration order of the set, so
    equal groups may still be kept apart: [same] is arbitrary here, and the
    theorems assume only that it implies equal members. *)
Variable same : group -> group -> bool.

Fixpoint dict_set (d : entries) (g : group) (v : V) : entries :=
  match d with
  | [] => [(g, v)]
  | (h, w) :: d' => if same h g then (h, v) :: d' else (h, w) :: dict_set d' g v
  end.
(** first stored group that contains the name *)
Fixpoint first_with (d : entries) (k : str) : option group :=
  match d with
  | [] => None
  | (h, _) :: d' => if in_group k h then Some h else first_with d' k
  end.
(** assignment to a stored key object *)
Fixpoint first_set (d : entries) (k : str) (v : V) : entries :=
  match d with
  | [] => []
  | (h, w) :: d' => if in_group k h then (h, v) :: d' else (h, w) :: first_set d' k v
  end.
(** 302-313 [_build_from_aliases], one item.  A tuple is never a member of a
    group of names, so only single names are looked up. *)
Definition build_step (d : entries) (kv : ukey * V) : entries :=
  match fst kv with
  | KOne k => match first_with d k with
              | Some _ => first_set d k (snd kv)
              | None => dict_set d [k] (snd kv)
              end
  | KTup ks => dict_set d (ugroup (KTup ks)) (snd kv)
  end.
Definition build_from_aliases (m : list (ukey * V)) : entries := fold_left build_step m [].

(** 570-571, 899-903 [_flat_dict]: a later group overrides the alias.  The
    result is the position of the group in [as_dict]. *)
Fixpoint resolve_from (i : nat) (d : entries) (k : str) : option nat :=
  match d with
  | [] => None
  | (g, _) :: d' => match resolve_from (S i) d' k with
                    | Some j => Some j
                    | None => if in_group k g then Some i else None
                    end
  end.
(** 632-636 [_resolve] for a name *)
Definition resolve (d : entries) (k : str) : option nat := resolve_from 0 d k.
(** 622-630 [__getitem__] *)
Definition getitem (d : entries) (k : str) : result V :=
  match resolve d k with
  | Some i => match nth_error d i with Some (_, v) => Ok v | None => Raise KeyError end
  | None => Raise KeyError
  end.
(** 608-613 [__contains__] *)
Definition contains (d : entries) (k : str) : bool :=
  match resolve d k with Some _ => true | None => false end.
(** 595-598 [_flat_keys], 618-620 [__len__] *)
Definition flat_keys (d : entries) : list str := concat (map fst d).
Definition maplen (d : entries) : nat := length (flat_keys d).

(** 783-793 [__or__] with a plain mapping from names to values: the items of
    both, built again *)
Definition or_plain (d : entries) (other : list (str * V)) : entries :=
  build_from_aliases (map (fun gv => (KTup (fst gv), snd gv)) d
                      ++ map (fun kv => (KOne (fst kv), snd kv)) other).

(** 821-823 [copy] *)
Definition copy (d : entries) : entries :=
  build_from_aliases (map (fun gv => (KTup (fst gv), snd gv)) d).
End Maps.
Arguments entries V : clear implicits.

(** ** MutableMapping (827-1007) *)

(** Stored values: what the user stored, or the tuple that a key group yields
    (873-879). *)
Inductive pyval (V : Type) := Plain (v : V) | Tup (l : list (pyval V)).
Arguments Plain {V} v.
Arguments Tup {V} l.

Section Mutable.
Context {V : Type}.
Notation val := (pyval V).

(** the entries and the key groups ([_groups], 870-872) *)
Record mstate := { ents : entries val; kgroups : list (str * list str) }.

Fixpoint assoc {A} (l : list (str * A)) (k : str) : option A :=
  match l with
  | [] => None
  | (h, a) :: l' => if str_eqb h k then Some a else assoc l' k
  end.
Fixpoint assoc_set {A} (l : list (str * A)) (k : str) (a : A) : list (str * A) :=
  match l with
  | [] => [(k, a)]
  | (h, b) :: l' => if str_eqb h k then (h, a) :: l' else (h, b) :: assoc_set l' k a
  end.
Fixpoint set_nth (i : nat) (v : val) (d : entries val) : entries val :=
  match d, i with
  | [], _ => []
  | (g, _) :: d', O => (g, v) :: d'
  | e :: d', S i => e :: set_nth i v d'
  end.
Fixpoint del_nth (i : nat) (d : entries val) : entries val :=
  match d, i with
  | [], _ => []
  | _ :: d', O => d'
  | e :: d', S i => e :: del_nth i d'
  end.

(** 873-879 [__getitem__]: the name of a key group takes precedence *)
Definition mget (st : mstate) (k : str) : result val :=
  match assoc (kgroups st) k with
  | Some ks => vs <- mapM (getitem (ents st)) ks ;; Ok (Tup vs)
  | None => getitem (ents st) k
  end.
Definition with_ents (st : mstate) (d : entries val) : mstate :=
  {| ents := d; kgroups := kgroups st |}.
(** 881-885 [__setitem__] *)
Definition mset (st : mstate) (k : str) (v : val) : mstate :=
  with_ents st (match resolve (ents st) k with
                | Some i => set_nth i v (ents st)
                | None => ents st ++ [([k], v)]
                end).
(** 887-893 [__delitem__] *)
Definition mdel (st : mstate) (k : str) : result mstate :=
  match resolve (ents st) k with
  | Some i => Ok (with_ents st (del_nth i (ents st)))
  | None => Raise KeyError
  end.
(** 904-932 [alias] with new aliases: each is checked and registered in turn;
    on an error the aliases registered so far stay.  Registering appends the
    enlarged group and deletes the old one. *)
Fixpoint malias_loop (st : mstate) (k : str) (als : list str) : mstate * result unit :=
  match als with
  | [] => (st, Ok tt)
  | a :: als' =>
      if str_eqb a k then malias_loop st k als'
      else if in_group a (flat_keys (ents st)) then
        (st, match resolve (ents st) k with
             | Some _ => Raise KeyError
             | None => Raise TypeError                (* None - [key] *)
             end)
      else match resolve (ents st) k with
           | None => (st, Raise TypeError)            (* None | alias *)
           | Some i =>
               match nth_error (ents st) i, mget st k with
               | Some (g, _), Ok v =>
                   malias_loop (with_ents st (del_nth i (ents st) ++ [(a :: g, v)])) k als'
               | _, Raise e => (st, Raise e)
               | _, _ => (st, Raise KeyError)
               end
           end
  end.
(** 920-921: without new aliases, a view of the current ones *)
Definition malias (st : mstate) (k : str) (als : list str) : mstate * result unit :=
  match als with
  | [] => (st, match resolve (ents st) k with Some _ => Ok tt | None => Raise TypeError end)
  | _ => malias_loop st k als
  end.
(** 934-992 [group] *)
Definition mgroup (st : mstate) (n : str) (ks : list str) : mstate * result unit :=
  if contains (ents st) n then (st, Raise ValueError)
  else match ks with
       | [] => (st, match assoc (kgroups st) n with Some _ => Ok tt | None => Raise KeyError end)
       | _ => ({| ents := ents st; kgroups := assoc_set (kgroups st) n ks |}, Ok tt)
       end.

(** one operation of a history *)
Inductive mop := OSet (k : str) (v : V) | ODel (k : str) | OAlias (k : str) (als : list str)
               | OGroup (n : str) (ks : list str).
Definition mstep (st : mstate) (o : mop) : mstate * result unit :=
  match o with
  | OSet k v => (mset st k (Plain v), Ok tt)
  | ODel k => match mdel st k with Ok st' => (st', Ok tt) | Raise e => (st, Raise e) end
  | OAlias k als => malias st k als
  | OGroup n ks => mgroup st n ks
  end.
Definition mrun (st : mstate) (os : list mop) : mstate := fold_left (fun st o => fst (mstep st o)) os st.
(** 870-872: a new mutable mapping has no key groups *)
Definition mnew (d : entries val) : mstate := {| ents := d; kgroups := [] |}.
End Mutable.
Arguments mstate V : clear implicits.
Arguments mop V : clear implicits.

(** ** NameMap (1010-1160) *)

(** Alias definitions: a mapping from names to aliases (1094-1117, first two
    forms, after [_remove]), or an iterable of groups. *)
Inductive defs := DMap (m : list (str * list str)) | DIter (gs : list (list str)).

(** 1123-1126 [_remove] *)
Definition remove_name (k : str) (als : list str) : list str :=
  filter (fun a => negb (str_eqb a k)) als.
(** 1092-1121 [_get_aliases]; the result is a dict (a later entry replaces the
    value of an earlier one) *)
Definition get_aliases (names : list str) (d : defs) : list (str * list str) :=
  match d with
  | DMap m => fold_left (fun acc kv => assoc_set acc (fst kv) (remove_name (fst kv) (snd kv))) m []
  | DIter gs => fold_left (fun acc kv => assoc_set acc (fst kv) (snd kv))
                  (flat_map (fun g => map (fun k => (k, g)) (filter (fun k => in_group k g) names)) gs) []
  end.
(** 1055-1068 [_get_names] *)
Definition get_names (d : defs) (refs : option (list str)) : result (list str) :=
  match refs, d with
  | Some r, _ => Ok r
  | None, DMap m => Ok (map fst m)
  | None, DIter _ => Raise TypeError
  end.
(** 1070-1090 [_build_mapping] *)
Fixpoint apply_aliases (st : mstate str) (us : list (str * list str)) : result (mstate str) :=
  match us with
  | [] => Ok st
  | (k, als) :: us' =>
      let '(st', r) := malias st k als in
      match r with Ok _ => apply_aliases st' us' | Raise e => Raise e end
  end.
Definition identity_map (names : list str) : entries (pyval str) :=
  build_from_aliases (fun _ _ => false) (map (fun k => (KOne k, Plain k)) names).
Definition namemap (d : defs) (refs : option (list str)) : result (entries (pyval str)) :=
  names <- get_names d refs ;;
  st <- apply_aliases (mnew (identity_map names)) (get_aliases names d) ;;
  Ok (ents st).
(** 1128-1132 [__getitem__] *)
Definition namemap_get (m : entries (pyval str)) (k : str) : result (pyval str) := getitem m k.
