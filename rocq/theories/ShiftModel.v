(** Model of [>>] and [<<] between units: metric/_units.py 87-136 ([Unit]) and
    metric/_defined.py 660-711 ([NamedUnit]).

    Paths are relative to /repo/src/eprempy.  Factors are exact ([scales], MetricModel.v),
    so [float(conversion)] (_conversions.py 30-34) is the factor of the conversion. *)
From Verif Require Import PyBase SymbolicModel MetricModel.

Section Shift.
Variable libm : Qc -> Qc -> option Qc.
Variable S : scales.
(** the tables of MetricModel.v *)
Variable named : str -> option nunit.
Variable conv : list ((str * str) * num S).
Variable node_order : list str.
Variable sys_order : list system.
Variable qunit : str -> system -> option str.
Variable qdim : str -> system -> option str.

(** what stands on either side: a [Unit] (its terms), a [NamedUnit], a text, or
    an object of any other class without these operators *)
Inductive side := SUnit (terms : list operand) | SNamed (n : nunit) | SText (t : str) | SOther.
(** the answer of a special method: [None] is [NotImplemented] *)
Definition answer : Type := option (result (num S)).

Notation factory := (conversion_factory libm S named conv node_order sys_order qunit qdim).
(** [float(_conversions.conversion_factory(u, v))] *)
Definition request (k : ccache S) (u v : str) : ccache S * answer := let '(k', r) := factory k u v in (k', Some r).

(** _defined.py 717-770 [ratio] where one argument may be a text *)
Definition as_named (x : side) : result nunit :=
  match x with SNamed n => Ok n | SText t => identify named t | _ => Raise TypeError end.
Definition ratio_of (x y : side) : answer := Some (n <- as_named x ;; m <- as_named y ;; ratio S n m).

(** [self >> other]: _units.py 87-114, _defined.py 660-678 *)
Definition rshift_method (k : ccache S) (self other : side) : ccache S * answer :=
  match self, other with
  | SUnit a, SUnit b => request k (format_expression a) (format_expression b)
  | SUnit a, SText t => request k (format_expression a) t
  | SNamed _, SNamed _ | SNamed _, SText _ => (k, ratio_of self other)
  | _, _ => (k, None)
  end.
(** [other >> self] with [self] on the right: _units.py 116-120, _defined.py 680-684 *)
Definition rrshift_method (k : ccache S) (self other : side) : ccache S * answer :=
  match self, other with
  | SUnit a, SText t => request k t (format_expression a)
  | SNamed _, SText _ => (k, ratio_of other self)
  | _, _ => (k, None)
  end.
(** [self << other]: _units.py 122-126, _defined.py 686-705 *)
Definition lshift_method (k : ccache S) (self other : side) : ccache S * answer :=
  match self, other with
  | SUnit a, SUnit b => request k (format_expression b) (format_expression a)
  | SUnit a, SText t => request k t (format_expression a)
  | SNamed _, SNamed _ | SNamed _, SText _ => (k, ratio_of other self)
  | _, _ => (k, None)
  end.
(** [other << self] with [self] on the right: _units.py 128-132, _defined.py 707-711 *)
Definition rlshift_method (k : ccache S) (self other : side) : ccache S * answer :=
  match self, other with
  | SUnit a, SText t => request k (format_expression a) t
  | SNamed _, SText _ => (k, ratio_of self other)
  | _, _ => (k, None)
  end.

(** The operators: Python asks the left operand, then, if it answers
    [NotImplemented], the right one, and then raises [TypeError]. *)
Definition binary (left right : ccache S -> side -> side -> ccache S * answer) (k : ccache S) (x y : side) : ccache S * result (num S) :=
  match left k x y with
  | (k', Some r) => (k', r)
  | (k', None) => match right k' y x with
                  | (k'', Some r) => (k'', r)
                  | (k'', None) => (k'', Raise TypeError)
                  end
  end.
Definition rshift := binary rshift_method rrshift_method.
Definition lshift := binary lshift_method rlshift_method.
End Shift.
