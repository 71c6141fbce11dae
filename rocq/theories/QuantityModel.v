(** Model of the parsing of measurable input.
    Source: /repo/src/eprempy/quantity/_functions.py ([parse], [ismeasurable])
    and quantity/__init__.py ([measure]).

    The type [A] of real numbers is arbitrary (integers, floats, also nan and
    inf); [to_float] is [float] of a real number (it raises OverflowError for
    huge integers), [float_str] is [float] of a string ([None]: ValueError), and
    [compare_one] is the exception, if any, that comparing an object with the
    unit [1] raises (line 211: the comparison parses the object as a symbolic
    expression; its result is never used). *)
From Verif Require Import PyBase ContainerModel.

(** The Python objects a caller may pass.  [Seq] is a list or a tuple: [parse]
    treats them alike.  [Range] is a [range] object (or another iterable of
    numbers at the outermost level), [Uni t] a [metric.Unit] with
    [str(unit) = t], [Other] an object that is not iterable. *)
Inductive item (A : Type) :=
| Num (a : A) | Str (t : str) | Uni (t : str) | Nothing | Other
| Range (l : list A) | Seq (l : list (item A)).
Arguments Num {A} a.
Arguments Str {A} t.
Arguments Uni {A} t.
Arguments Nothing {A}.
Arguments Other {A}.
Arguments Range {A} l.
Arguments Seq {A} l.

Section Parse.
Variable A : Type.
Variable to_float : A -> result A.
Variable float_str : str -> option A.
Variable compare_one : item A -> option exn.

Definition is_num (x : item A) : bool := match x with Num _ => true | _ => false end.
Definition is_seq (x : item A) : bool := match x with Seq _ => true | _ => false end.
Definition is_str (x : item A) : bool := match x with Str _ => true | _ => false end.
Definition is_uni (x : item A) : bool := match x with Uni _ => true | _ => false end.
(** [isinstance(arg, (str, metric.Unit))] *)
Definition is_unit (x : item A) : bool := is_str x || is_uni x.

(** [float(arg)] for an arbitrary object *)
Definition float_of (x : item A) : result A :=
  match x with
  | Num a => to_float a
  | Str t => match float_str t with Some a => Ok a | None => Raise ValueError end
  | _ => Raise TypeError
  end.

(** [str(unit)] *)
Definition text (x : item A) : str := match x with Str t | Uni t => t | _ => [] end.

(** [types.count(t)] *)
Definition count (p : item A -> bool) (l : list (item A)) : nat := length (filter p l).

(** What [parse(..., distribute=True)] returns is a tuple of these: a pair, or -
    where [distribute] gets lost - a bare value or the unit. *)
Inductive out := Pair (x : item A) (u : str) | Value (x : item A) | Unit (u : str).

(** 199-230: flat numerical iterables; then an explicit unit.  [l] has at least
    two members, not all of them lists, and at most one string and one unit. *)
Definition parse_rest (l : list (item A)) : result (list (item A) * str) :=
  if forallb is_num l then Ok (l, s "1")
  else
    let last := List.last l Nothing in
    match (if existsb is_unit l
           then (if match last with Str t => str_eqb t (s "1") | _ => false end then None else compare_one last)
           else None) with
    | Some e => Raise e
    | None =>
        if is_unit last then
          if forallb is_num (removelast l) then Ok (removelast l, text last)
          else match l with
               | Seq vs :: _ => Ok (vs, text last)
               | Range vs :: _ => Ok (map Num vs, text last)
               | _ => Raise ParsingTypeError
               end
        else Raise ParsingTypeError
    end.

(** 181-197: more than one string.  [parse] is called again, without
    [distribute], on a list of at least two floats or of floats and a string, so
    that it goes straight to [parse_rest]. *)
Definition parse_strings (l : list (item A)) : result (list (item A) * str) :=
  match mapM float_of l with
  | Ok vs => parse_rest (map Num vs)
  | Raise ValueError =>
      match mapM float_of (removelast l) with
      | Ok vs => parse_rest (map Num vs ++ [List.last l Nothing])
      | Raise ValueError => Raise ParsingValueError
      | Raise e => Raise e
      end
  | Raise e => Raise e
  end.

(** 169-230 for a list that is not a list of lists *)
Definition parse_list (l : list (item A)) : result (list (item A) * str) :=
  if 1 <? count is_uni l then Raise ParsingValueError
  else if 1 <? count is_str l then parse_strings l
  else parse_rest l.

(** 256-265: combine what was parsed from each member *)
Definition combine (ps : list (list (item A) * str)) : result (list (item A) * str) :=
  match ps with
  | [] => Raise IndexError
  | (_, u) :: _ =>
      if existsb (fun p => negb (str_eqb (snd p) u)) ps then Raise ParsingValueError
      else Ok (concat (map fst ps), u)
  end.

(** A comprehension over the members of a list ([mapM] in a form that allows
    nested recursion) *)
Definition each {B} (f : item A -> result B) : list (item A) -> result (list B) :=
  fix go l := match l with
              | [] => Ok []
              | x :: l' => y <- f x ;; ys <- go l' ;; Ok (y :: ys)
              end.

(** 95-230 [parse(x, distribute=False)].  Line 139 strips redundant lists; here
    the recursion does it: [unwrap [y] = unwrap y].  A unit by itself is an
    iterable of symbolic terms, which are neither numbers nor units. *)
Fixpoint parse (x : item A) : result (list (item A) * str) :=
  match x with
  | Seq [y] => parse y
  | Nothing => Raise ParsingTypeError
  | Seq [] => Raise ParsingValueError
  | Num a => Ok ([Num a], s "1")
  | Str t =>
      match t with
      | [] => Raise ParsingValueError
      | _ => match float_str t with Some a => Ok ([Num a], s "1") | None => Raise ParsingTypeError end
      end
  | Other => Raise ParsingTypeError
  | Uni _ => Raise ParsingTypeError
  | Range l => match l with [] => Raise ParsingValueError | _ => Ok (map Num l, s "1") end
  | Seq l => if forallb is_seq l then ps <- each parse l ;; combine ps else parse_list l
  end.

(** 233-237 [_wrap_measurable] *)
Definition wrap_pairs (p : list (item A) * str) : list out := map (fun x => Pair x (snd p)) (fst p).

(** 169-230 with [distribute=True]: the strings branch calls [parse] without it *)
Definition parse_list_pairs (l : list (item A)) : result (list out) :=
  if 1 <? count is_uni l then Raise ParsingValueError
  else if 1 <? count is_str l then
    p <- parse_strings l ;; Ok (map Value (fst p) ++ [Unit (snd p)])
  else p <- parse_rest l ;; Ok (wrap_pairs p).

(** 95-230 and 240-248 [parse(x, distribute=True)] *)
Fixpoint parse_pairs (x : item A) : result (list out) :=
  match x with
  | Seq [y] => parse_pairs y
  | Seq [] => Raise ParsingValueError
  | Seq l =>
      if forallb is_seq l then ps <- each parse_pairs l ;; Ok (concat ps)
      else parse_list_pairs l
  | _ => p <- parse x ;; Ok (wrap_pairs p)
  end.

(** 31-73 [ismeasurable]; line 57 tests the object as given, not unwrapped *)
Fixpoint is_measurable_args (x : item A) : bool :=
  match x with
  | Seq [y] => is_measurable_args y
  | Num _ => true
  | Range l => true
  | Seq l =>
      if forallb is_num l then true
      else if (let last := List.last l Nothing in
               is_unit last
               && match l with
                  | Seq vs :: _ => forallb is_num vs
                  | Range _ :: _ => true
                  | Str [] :: _ => true
                  | Str _ :: _ | Uni _ :: _ => false
                  | _ => forallb is_num (removelast l)
                  end) then true
      else forallb (fun i => is_seq i && negb (match i with Seq [] => true | _ => false end) && is_measurable_args i) l
  | _ => false
  end.
(** 57: null input *)
Definition is_null (x : item A) : bool :=
  match x with
  | Nothing => true
  | Str [] | Range [] | Seq [] => true
  | _ => false
  end.
Definition is_measurable (x : item A) : bool := negb (is_null x) && is_measurable_args x.

(** quantity/__init__.py 120-160 [measure(x0, x1, ...)] for arguments that are
    not measured objects; [make] is [measurement(data, unit=unit)], which parses
    the unit.  [MeasuringTypeError] replaces the two parsing errors. *)
Definition measuring_type_error : exn := OtherError "MeasuringTypeError".
Definition measure {M} (make : list (item A) -> str -> result M) (args : list (item A)) : result M :=
  match args with
  | [] => Raise measuring_type_error
  | _ =>
      match parse (Seq args) with
      | Ok (vs, u) => make vs u
      | Raise ParsingValueError | Raise ParsingTypeError => Raise measuring_type_error
      | Raise e => Raise e
      end
  end.
End Parse.
