(** Reference behaviour of aliased mappings, independent of how they are stored:
    every name owns at most one cell, aliases are names that own the same cell. *)
From Verif Require Import PyBase AliasedModel.

Section Cells.
Context {V : Type}.
Record cells := { owner : str -> option nat; content : nat -> V; fresh : nat }.

Definition c_get (c : cells) (k : str) : result V :=
  match owner c k with Some i => Ok (content c i) | None => Raise KeyError end.
(** assignment: to the cell of the name, or to a new cell *)
Definition c_set (c : cells) (k : str) (v : V) : cells :=
  match owner c k with
  | Some i => {| owner := owner c;
                 content := fun j => if Nat.eqb j i then v else content c j; fresh := fresh c |}
  | None => {| owner := fun x => if str_eqb x k then Some (fresh c) else owner c x;
               content := fun j => if Nat.eqb j (fresh c) then v else content c j;
               fresh := S (fresh c) |}
  end.
(** deletion: of the name and all its aliases *)
Definition c_del (c : cells) (k : str) : cells * result unit :=
  match owner c k with
  | None => (c, Raise KeyError)
  | Some i => ({| owner := fun x => match owner c x with
                                     | Some j => if Nat.eqb j i then None else Some j
                                     | None => None
                                     end;
                  content := content c; fresh := fresh c |}, Ok tt)
  end.
(** a new alias: an unused name becomes another owner of the cell *)
Definition c_alias1 (c : cells) (k a : str) : cells * result unit :=
  match owner c k, owner c a with
  | None, _ => (c, Raise TypeError)
  | Some _, Some _ => (c, Raise KeyError)
  | Some i, None => ({| owner := fun x => if str_eqb x a then Some i else owner c x;
                        content := content c; fresh := fresh c |}, Ok tt)
  end.
Fixpoint c_alias (c : cells) (k : str) (als : list str) : cells * result unit :=
  match als with
  | [] => (c, Ok tt)
  | a :: als' => if str_eqb a k then c_alias c k als'
                 else match c_alias1 c k a with
                      | (c', Ok _) => c_alias c' k als'
                      | (c', Raise e) => (c', Raise e)
                      end
  end.
End Cells.
Arguments cells V : clear implicits.

(** operations without key groups *)
Definition plain_op {V} (o : mop V) : bool := match o with OGroup _ _ => false | _ => true end.
Definition c_step {V} (c : cells (pyval V)) (o : mop V) : cells (pyval V) * result unit :=
  match o with
  | OSet k v => (c_set c k (Plain v), Ok tt)
  | ODel k => c_del c k
  | OAlias k [] => (c, match owner c k with Some _ => Ok tt | None => Raise TypeError end)
  | OAlias k als => c_alias c k als
  | OGroup _ _ => (c, Ok tt)
  end.
Fixpoint c_results {V} (c : cells (pyval V)) (os : list (mop V)) : list (result unit) * cells (pyval V) :=
  match os with
  | [] => ([], c)
  | o :: os' => let '(c', r) := c_step c o in let '(rs, c'') := c_results c' os' in (r :: rs, c'')
  end.
Fixpoint m_results {V} (st : mstate V) (os : list (mop V)) : list (result unit) * mstate V :=
  match os with
  | [] => ([], st)
  | o :: os' => let '(st', r) := mstep st o in let '(rs, st'') := m_results st' os' in (r :: rs, st'')
  end.

(** the cells of a list of disjoint groups *)
Fixpoint position {V} (d : entries V) (k : str) (i : nat) : option nat :=
  match d with
  | [] => None
  | (g, _) :: d' => if in_group k g then Some i else position d' k (S i)
  end.
Definition cells_of {V} (d : entries V) (dflt : V) : cells V :=
  {| owner := fun k => position d k 0;
     content := fun i => match nth_error d i with Some (_, v) => v | None => dflt end;
     fresh := length d |}.

(** no name in two groups, nor twice in one *)
Definition disjoint_groups (gs : list (list str)) : Prop := NoDup (concat gs).
(** the same names *)
Definition same_names (a b : list str) : Prop := forall k, In k a <-> In k b.
