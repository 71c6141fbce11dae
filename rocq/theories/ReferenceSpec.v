(** What the tables of names mean (C92), independently of aliased mappings. *)
From Verif Require Import PyBase ReferenceModel.

(** [x] is a name of the quantity in row [r]; of the parameter in row [p] *)
Definition called (r : refrow) (x : str) : Prop := x = r_name r \/ In x (r_aliases r).
Definition pcalled (p : str * list str) (x : str) : Prop := x = fst p \/ In x (snd p).
(** [x] and [k] are the same text or two names of one quantity of the table *)
Definition same_quantity (table : list refrow) (k x : str) : Prop :=
  x = k \/ exists r, In r table /\ called r k /\ called r x.
(** the same, for quantities first and then for parameters *)
Definition same_argument (table : list refrow) (parameters : list (str * list str)) (k x : str) : Prop :=
  same_quantity table k x \/
  ((forall r, In r table -> ~ called r k) /\ exists p, In p parameters /\ pcalled p k /\ pcalled p x).
