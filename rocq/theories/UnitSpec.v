(** * Vocabulary of the properties of unit objects *)
From Verif Require Import PyBase SymbolicModel MetricModel UnitModel.

(** What is asked of the table of named units: full names are unambiguous; a
    symbol stands for itself; a full name that can be written as a unit denotes
    the unit's symbol. *)
Record regular (libm : Qc -> Qc -> option Qc) (named : str -> option nunit) : Prop := {
  reg_full : forall u n, named u = Some n -> named (n_name n) = Some n;
  reg_symbol : forall a ts n, arg_terms libm named a = Ok ts -> named (format_expression ts) = Some n -> n_symbol n = format_expression ts;
  reg_name : forall u n ts, named u = Some n -> arg_terms libm named (UStr (n_name n)) = Ok ts -> format_expression ts = n_symbol n }.

(** The name of the unit that an argument denotes: the string of its terms,
    written in symbols. *)
Definition denotes (libm : Qc -> Qc -> option Qc) (named : str -> option nunit) (a : uarg) (name : str) : Prop :=
  exists ts, arg_terms libm named a = Ok ts /\ ts <> [] /\ format_expression ts = name.
(** The argument's name denotes itself, and so does the string of a single
    term. *)
Definition settled (libm : Qc -> Qc -> option Qc) (named : str -> option nunit) (a : uarg) : Prop :=
  forall ts, arg_terms libm named a = Ok ts ->
    denotes libm named a (format_expression ts) /\
    denotes libm named (UStr (format_expression ts)) (format_expression ts) /\
    forall x, arg_string a = Some x -> denotes libm named (UStr x) (format_expression ts).
Definition settled_call libm named (c : ucall) : Prop :=
  match c with CUnit a => settled libm named a | CNamed _ => True end.
