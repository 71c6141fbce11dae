(** * Model of unique instances and small utilities (etc.py, paths.py PathSet)

    Objects are identified by a number, in order of creation.  Not modelled:
    re-running [__init__] on an existing singleton, printing, documentation
    helpers, property helpers. *)
From Verif Require Import PyBase ContainerModel.

Definition ecls := N.
Definition oid := nat.

(** ** Instance sets *)
(** Arguments as far as [PathSet._generate_key] looks at them. *)
Inductive earg := AStr' (x : str) | APath (x : str) | ANone | AOther (n : N).
Inductive ekey := KStr (x : str) | KPath (x : str).
Definition ekey_eqb (a b : ekey) : bool :=
  match a, b with KStr x, KStr y | KPath x, KPath y => str_eqb x y | _, _ => false end.
Record object := { o_id : oid; o_class : ecls; o_args : list earg; o_kwargs : list (str * earg) }.
(** The table of instances is an attribute of the metaclass, hence shared by
    all the classes that use it; [i_next] counts the objects created. *)
Record instances := { i_table : list (ekey * object); i_next : oid }.
Definition no_instances : instances := {| i_table := []; i_next := 0 |}.
(** paths.py 80-86 [PathSet._generate_key] *)
Definition generate_key (args : list earg) (kwargs : list (str * earg)) : result ekey :=
  let named := match lookup str_eqb kwargs (s "path") with Ok x => x | Raise _ => ANone end in
  let path := match named, args with ANone, a :: _ => a | _, _ => named end in
  match path with
  | AStr' x => Ok (KStr x)
  | APath x => Ok (KPath x)
  | _ => Raise TypeError
  end.
(** etc.py 99-104 [InstanceSet.__call__]; [build] says whether the constructor
    of the class accepts the arguments. *)
Definition request (build : ecls -> list earg -> list (str * earg) -> option exn)
    (st : instances) (c : ecls) (args : list earg) (kwargs : list (str * earg)) : result object * instances :=
  match generate_key args kwargs with
  | Raise e => (Raise e, st)
  | Ok key =>
      match lookup ekey_eqb (i_table st) key with
      | Ok o => (Ok o, st)
      | Raise _ =>
          match build c args kwargs with
          | Some e => (Raise e, st)
          | None =>
              let o := {| o_id := i_next st; o_class := c; o_args := args; o_kwargs := kwargs |} in
              (Ok o, {| i_table := dict_put ekey_eqb (i_table st) key o; i_next := S (i_next st) |})
          end
      end
  end.

(** ** Singletons *)
(** etc.py 271-283 [Singleton.__new__].  The state records for which classes the
    class's own [_exists] is set, with the instance; [mro] lists a class and its
    ancestors below [Singleton], nearest first, and an attribute is looked up in
    that order. *)
Record singles := { s_table : list (ecls * (oid * ecls)); s_next : oid }.
Definition no_singles : singles := {| s_table := []; s_next := 0 |}.
Fixpoint attribute (table : list (ecls * (oid * ecls))) (mro : list ecls) : option (oid * ecls) :=
  match mro with
  | [] => None
  | c :: mro' => match lookup N.eqb table c with Ok x => Some x | Raise _ => attribute table mro' end
  end.
Definition singleton (mro : ecls -> list ecls) (st : singles) (c : ecls) : (oid * ecls) * singles :=
  match attribute (s_table st) (mro c) with
  | Some x => (x, st)
  | None => ((s_next st, c), {| s_table := dict_put N.eqb (s_table st) c (s_next st, c); s_next := S (s_next st) |})
  end.

(** ** Sentinels *)
(** Values a sentinel may stand for; numbers include booleans ([True == 1]). *)
Inductive svalue := SNone | SBool (b : bool) | SNum (q : Qc) | SStr (x : str) | SUnhashable (n : N) | SSentinel (i : oid).
Definition snum (v : svalue) : option Qc :=
  match v with SBool b => Some (if b then 1 else 0)%Qc | SNum q => Some q | _ => None end.
(** [a == b] on plain values *)
Definition svalue_eqb (a b : svalue) : bool :=
  match snum a, snum b with
  | Some p, Some q => qc_eqb p q
  | _, _ =>
      match a, b with
      | SNone, SNone => true
      | SStr x, SStr y => str_eqb x y
      | SUnhashable m, SUnhashable n => N.eqb m n
      | SSentinel i, SSentinel j => Nat.eqb i j
      | _, _ => false
      end
  end.
Record sentinel_object := { n_id : oid; n_name : str; n_value : svalue }.
Record sentinels := { n_table : list (str * sentinel_object); n_next : oid }.
(** etc.py 396-412 [_SentinelType._create] and 442-464 [sentinel].  The table is
    keyed by names but searched by value, so only a string value can be found. *)
Definition sentinel (st : sentinels) (name : str) (value : svalue) : result sentinel_object * sentinels :=
  match value with
  | SSentinel _ => (Raise (OtherError "SentinelValueError"), st)
  | SUnhashable _ => (Raise TypeError, st)
  | _ =>
      let found := match value with SStr x => lookup str_eqb (n_table st) x | _ => Raise KeyError end in
      match found with
      | Ok o => (Ok o, st)
      | Raise _ =>
          let o := {| n_id := n_next st; n_name := name; n_value := value |} in
          (Ok o, {| n_table := dict_put str_eqb (n_table st) name o; n_next := S (n_next st) |})
      end
  end.
(** 467-474 the sentinels of the module *)
Definition shipped_sentinels : sentinels :=
  let st0 := {| n_table := []; n_next := 0 |} in
  let st1 := snd (sentinel st0 (s "PASS") (SBool true)) in
  let st2 := snd (sentinel st1 (s "NULL") SNone) in
  snd (sentinel st2 (s "FAIL") (SBool false)).
(** 422-426 [__eq__] with a plain value or with a sentinel *)
Definition sentinel_eq_value (a : sentinel_object) (v : svalue) : bool := svalue_eqb (n_value a) v.
Definition sentinel_eq (a b : sentinel_object) : bool := Nat.eqb (n_id a) (n_id b).
(** 428-432 [__bool__]: membership in [(None, False)] compares with [==]. *)
Definition sentinel_bool (a : sentinel_object) : bool :=
  if svalue_eqb (n_value a) SNone || svalue_eqb (n_value a) (SBool false) then false else true.

(** ** Small utilities *)
(** 20-30 [strargs], with the arguments already printed by [strfmt]. *)
Fixpoint join_with (sep : str) (l : list str) : str :=
  match l with [] => [] | [x] => x | x :: l' => x ++ sep ++ join_with sep l' end.
Definition strargs (pos : list str) (kwd : list (str * str)) : str :=
  let strpos := join_with (s ", ") pos in
  match kwd with
  | [] => strpos
  | _ =>
      let strkwd := join_with (s ", ") (map (fun kv => fst kv ++ s "=" ++ snd kv) kwd) in
      match pos with [] => strkwd | _ => strpos ++ s ", " ++ strkwd end
  end.
(** 495-524 [join], with the items already printed by [f]. *)
Definition join (x : list str) (c : str) : result str :=
  match x with
  | [a] => Ok a
  | [a; b] => Ok (a ++ s " " ++ c ++ s " " ++ b)
  | [] => Raise IndexError
  | _ => Ok (join_with (s ", ") (removelast x) ++ s ", " ++ c ++ s " " ++ last x [])
  end.
(** 120-128 [apply]: the methods are called lazily, one after the other.  A
    method gives a truthy result, a falsy one, or an exception; the model also
    returns how many methods were called. *)
Inductive called_result (A : Type) := Truthy (a : A) | Falsy | Failed (e : exn).
Arguments Truthy {A} a. Arguments Falsy {A}. Arguments Failed {A} e.
Fixpoint apply_methods {A} (methods : list (called_result A)) : result (option A) * nat :=
  match methods with
  | [] => (Ok None, O)
  | Truthy a :: _ => (Ok (Some a), 1%nat)
  | Falsy :: rest => let '(r, n) := apply_methods rest in (r, S n)
  | Failed e :: _ => (Raise e, 1%nat)
  end.
(** 527-556 [allisinstance] *)
Definition allisinstance {A} (isinstance : A -> bool) (targets : list A) : result bool :=
  match targets with [] => Raise TypeError | _ => Ok (forallb isinstance targets) end.
(** 610-642 [widest], on the types of the arguments *)
Definition widest (sub : ecls -> ecls -> bool) (a b : ecls) (base : option ecls) : result ecls :=
  match base with
  | None =>
      if N.eqb a b then Ok a else if sub a b then Ok a else if sub b a then Ok b else Raise ValueError
  | Some base =>
      if negb (sub a base && sub b base) then Raise TypeError
      else if sub a base && sub b base then
        if N.eqb a b then Ok a else if sub a b then Ok a else if sub b a then Ok b else Ok base
      else if sub a base then Ok a else if sub b base then Ok b else Raise ValueError
  end.
(** 477-492 [isnull].  [NArray]: a numpy array or other object with a size, and
    its number of elements; [NList]: a list, tuple or other container, falsy iff
    empty; [NAmbiguous]: an object without a size whose truth value is undefined,
    with its items. *)
Inductive nval :=
| NNumber (q : Qc) | NNone | NStr (x : str) | NBytesLike (empty : bool)
| NArray (size : nat) | NList (l : list nval) | NAmbiguous (l : list nval) | NObject (truth : bool).
Fixpoint isnull (x : nval) : bool :=
  match x with
  | NNumber _ => false
  | NArray n => Nat.eqb n 0
  | NNone => true
  | NStr t => match t with [] => true | _ => false end
  | NBytesLike e => e
  | NList l => match l with [] => true | _ => false end
  | NAmbiguous l => forallb isnull l
  | NObject t => negb t
  end.
