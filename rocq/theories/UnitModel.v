(** * Model of the creation of units (metric/_units.py 400-447) and of named
    units (metric/_defined.py 205-248), with their caches.

    Paths are relative to /repo/src/eprempy.  Objects carry a number that stands
    for their identity.  [named] is _reference.NAMED_UNITS; [same] tells whether
    Python's dict identifies two equal groups (see AliasedModel.v). *)
From Verif Require Import PyBase SymbolicModel AliasedModel MetricModel.

(** a [Unit] and a [NamedUnit] *)
Record uobj := mkuobj { u_id : nat; u_terms : list operand }.
Record nobj := mknobj { o_id : nat; o_unit : nunit }.
(** _units.py 395 [_units], _defined.py 212 [_instances] *)
Record ustate := mkustate { units : mstate uobj; instances : mstate nobj; fresh : nat }.
Definition no_units : ustate := mkustate (mnew []) (mnew []) 0.

(** the argument of [unit_factory]: a string, or the terms of an expression *)
Inductive uarg := UStr (x : str) | UTerms (ts : list operand).

Section Units.
Variable libm : Qc -> Qc -> option Qc.
Variable named : str -> option nunit.
Variables (same_u same_n : group -> group -> bool).

(** _defined.py 215-248 [_NamedUnitMeta.__call__] on a string *)
Definition named_factory (st : ustate) (x : str) : result nobj * ustate :=
  match mget (instances st) x with
  | Ok (Plain o) => (Ok o, st)
  | _ => match identify named x with
         | Raise e => (Raise e, st)
         | Ok n =>
             let o := mknobj (fresh st) n in
             (Ok o, mkustate (units st)
                      (with_ents (instances st) (dict_set same_n (ents (instances st)) (dedup [n_name n; n_symbol n]) (Plain o)))
                      (S (fresh st)))
         end
  end.

(** _units.py 489-494 [_as_symbol] *)
Definition as_symbol (t : operand) : result operand :=
  match named (base t) with
  | None => Raise KeyError
  | Some n => b <- term_factory 1%Qc (Some (n_symbol n)) 1%Qc ;; op_pow libm b (expo t)
  end.
(** 418: the expression of the argument *)
Definition arg_expression (a : uarg) : result (list operand) :=
  match a with
  | UStr x => expression_of_str libm x
  | UTerms ts => expression_of_terms libm ts
  end.
(** 422-423: the terms of the unit *)
Definition arg_terms (a : uarg) : result (list operand) :=
  e <- arg_expression a ;; mapM as_symbol e.
(** 405-412: the string that stands for a single unit *)
Definition arg_string (a : uarg) : option str :=
  match a with
  | UStr x => Some x
  | UTerms [t] => Some (format_term t)
  | UTerms _ => None
  end.
(** 413-415: an empty unit is false in a boolean context *)
Definition available (st : ustate) (x : option str) : option uobj :=
  match x with
  | None => None
  | Some x => match mget (units st) x with
              | Ok (Plain o) => match u_terms o with [] => None | _ => Some o end
              | _ => None
              end
  end.
(** 400-447 [unit_factory] *)
Definition unit_factory (st : ustate) (a : uarg) : result uobj * ustate :=
  match available st (arg_string a) with
  | Some o => (Ok o, st)
  | None =>
      match arg_terms a with
      | Raise e => (Raise e, st)
      | Ok symbols =>
          let name := format_expression symbols in
          match (if contains (ents (units st)) name then mget (units st) name else Raise KeyError) with
          | Ok (Plain existing) =>
              match a with
              | UStr x => let '(m, r) := malias (units st) name [x] in
                          (match r with Ok _ => Ok existing | Raise e => Raise e end, mkustate m (instances st) (fresh st))
              | UTerms _ => (Ok existing, st)
              end
          | _ =>
              let store (st : ustate) (key : list str) : result uobj * ustate :=
                let o := mkuobj (fresh st) symbols in
                (Ok o, mkustate (with_ents (units st) (dict_set same_u (ents (units st)) (dedup key) (Plain o)))
                                (instances st) (S (fresh st))) in
              match named_factory st name with
              | (Ok this, st') => store st' [n_name (o_unit this); n_symbol (o_unit this)]
              | (Raise _, st') =>
                  store st' (match arg_string a with Some (c :: x) => [name; c :: x] | _ => [name] end)
              end
          end
      end
  end.

(** a history of creations: units and named units *)
Inductive ucall := CUnit (a : uarg) | CNamed (x : str).
Fixpoint unit_history (st : ustate) (calls : list ucall) : ustate :=
  match calls with
  | [] => st
  | CUnit a :: l => unit_history (snd (unit_factory st a)) l
  | CNamed x :: l => unit_history (snd (named_factory st x)) l
  end.
End Units.
