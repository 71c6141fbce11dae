(** Specification of command lines (C89): what a user writes, item by item. *)
From Verif Require Import PyBase CommandModel.

(** A command line is a sequence of items: a bare argument, or an option with
    the arguments that belong to it. *)
Inductive item := Bare (t : str) | Option (name : str) (args : list str).
Definition words (i : item) : list str :=
  match i with Bare t => [t] | Option n args => n :: args end.
Definition line_of (items : list item) : list str := flat_map words items.

(** An argument that cannot be taken for an option *)
Definition plain (t : str) : Prop := forall r, t = "-"%char :: r -> r = [].

(** [o] is the option that is called [n]. *)
Definition called (p : parser) (n : str) (o : opt) : Prop := In o (opts p) /\ In n (strings o).

(** How many arguments go with an option *)
Definition fitting (k : kind) (args : list str) : Prop :=
  match k with
  | KFlag | KConst _ => args = []
  | KOne | KExtend => exists t, args = [t]
  | KInt => exists t, args = [t] /\ t <> [] /\ Forall (fun c => is_digit c = true) t
  | KMany => True
  | KMany1 => args <> []
  end.
Definition greedy (k : kind) : Prop := k = KMany \/ k = KMany1.

(** Items that are written correctly: options exist and have what they need, and
    a list of arguments is ended by another option or by the end of the line. *)
Fixpoint well_written (p : parser) (items : list item) : Prop :=
  match items with
  | [] => True
  | Bare t :: r => plain t /\ well_written p r
  | Option n args :: r =>
      (exists o, called p n o /\ fitting (okind o) args /\ (greedy (okind o) -> forall t r', r <> Bare t :: r'))
      /\ Forall plain args /\ well_written p r
  end.

(** The bare arguments, in order *)
Definition bare (items : list item) : list str :=
  flat_map (fun i => match i with Bare t => [t] | _ => [] end) items.

(** Some item is the option [o]. *)
Definition given (p : parser) (items : list item) (o : opt) : Prop :=
  exists n args, In (Option n args) items /\ called p n o.

(** The value that an option gives *)
Definition value_for (k : kind) (args : list str) (v : value) : Prop :=
  match k with
  | KFlag => v = VFlag true
  | KConst t => v = VText t
  | KOne => exists t, args = [t] /\ v = VText t
  | KInt => exists t, args = [t] /\ v = VNum (N_of_str t)
  | KMany | KMany1 => v = VTexts args
  | KExtend => True
  end.

(** The settings that a correct line gives: bare arguments in order; for each
    setting the last option for it, and the default if there is none. *)
Record settings_of (p : parser) (items : list item) (a : namespace) : Prop := {
  bare_in_order : forall k x t, nth_error (positionals p) k = Some x -> nth_error (bare items) k = Some t -> a x = VText t;
  last_counts : forall before n args after o, items = before ++ Option n args :: after -> called p n o ->
    (forall o', given p after o' -> dest o' <> dest o) -> value_for (okind o) args (a (dest o));
  else_default : forall d, ~ In d (positionals p) -> (forall o, given p items o -> dest o <> d) ->
    (forall o, In o (opts p) -> dest o = d -> a d = match okind o with KFlag => VFlag false | KInt => VNum 1 | _ => VNone end) }.

(** A line that is complete: as many bare arguments as there are names for them,
    at most one of the options that exclude each other, and one if one is needed. *)
Definition complete (p : parser) (items : list item) : Prop :=
  length (bare items) = length (positionals p)
  /\ (forall o o', given p items o -> given p items o' -> exclusive o = true -> exclusive o' = true -> o = o')
  /\ (required p = true -> exists o, given p items o /\ exclusive o = true).

(** Parsers in which options and names are told apart *)
Record well_formed (p : parser) : Prop := {
  dashes : forall n o, called p n o -> ~ plain n;
  distinct_options : forall n o o', called p n o -> called p n o' -> o = o';
  named_options : forall o, In o (opts p) -> strings o <> [];
  distinct_names : NoDup (positionals p);
  names_apart : forall o, In o (opts p) -> ~ In (dest o) (positionals p);
  same_default : forall o o', In o (opts p) -> In o' (opts p) -> dest o = dest o' ->
    default_of (okind o) = default_of (okind o') }.
