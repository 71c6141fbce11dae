(** Model of the named numeric operators: numeric/_operations.py and numeric/_operators.py.
    Source: /repo/src/eprempy/numeric/_operations.py, _operators.py, with the
    mappings of aliased.py (AliasedModel).

    An operator function ([operator.add], [builtins.pow], ...) is represented
    by its canonical name: the 23 functions are distinct objects, and every entry of the
    table has a builtin of its own name.  What a
    function computes is a parameter [apply].  Keyword arguments are passed on
    unchanged by the code and are part of [apply].  The order of a Python set is
    a parameter of [generate]. *)
From Verif Require Import PyBase AliasedModel.

(** _operations.py 11-187 [_OPERATION_METADATA]: names with their aliases (transcribed by a script) *)
Definition operation_table : list (str * list str) := [
  (s "int", []);
  (s "float", []);
  (s "complex", []);
  (s "eq", [s "equal"]);
  (s "ne", [s "not equal"; s "unequal"]);
  (s "lt", [s "less than"; s "less"]);
  (s "le", [s "less than or equal to"; s "less or equal"]);
  (s "gt", [s "greater than"; s "greater"]);
  (s "ge", [s "greater than or equal to"; s "greater or equal"]);
  (s "abs", [s "absolute"]);
  (s "pos", [s "positive"]);
  (s "neg", [s "negative"]);
  (s "round", []);
  (s "floor", []);
  (s "ceil", [s "ceiling"]);
  (s "trunc", [s "truncate"]);
  (s "add", [s "addition"]);
  (s "sub", [s "subtraction"; s "subtract"]);
  (s "mul", [s "multiplication"; s "multiply"]);
  (s "truediv", [s "true divide"; s "true_divide"; s "divide"; s "division"; s "true division"; s "floating-point division"]);
  (s "floordiv", [s "floor divide"; s "floor_divide"; s "floor division"]);
  (s "mod", [s "mod"; s "remainder"]);
  (s "pow", [s "power"])
].
(** the same table: the special methods of each operator, forward, reverse and in place *)
Definition method_table : list (str * list str) := [
  (s "int", [s "__int__"]);
  (s "float", [s "__float__"]);
  (s "complex", [s "__complex__"]);
  (s "eq", [s "__eq__"]);
  (s "ne", [s "__ne__"]);
  (s "lt", [s "__lt__"]);
  (s "le", [s "__le__"]);
  (s "gt", [s "__gt__"]);
  (s "ge", [s "__ge__"]);
  (s "abs", [s "__abs__"]);
  (s "pos", [s "__pos__"]);
  (s "neg", [s "__neg__"]);
  (s "round", [s "__round__"]);
  (s "floor", [s "__floor__"]);
  (s "ceil", [s "__ceil__"]);
  (s "trunc", [s "__trunc__"]);
  (s "add", [s "__add__"; s "__radd__"; s "__iadd__"]);
  (s "sub", [s "__sub__"; s "__rsub__"; s "__isub__"]);
  (s "mul", [s "__mul__"; s "__rmul__"; s "__imul__"]);
  (s "truediv", [s "__truediv__"; s "__rtruediv__"; s "__itruediv__"]);
  (s "floordiv", [s "__floordiv__"; s "__rfloordiv__"; s "__ifloordiv__"]);
  (s "mod", [s "__mod__"; s "__rmod__"; s "__imod__"]);
  (s "pow", [s "__pow__"; s "__rpow__"; s "__ipow__"])
].
(** _operators.py 60-247: the arguments that a special method gives to its operator;
    [Key]: a keyword argument passed on ([ndigits], [mod]) *)
Inductive slot := Self | Other | Key.
Definition dunder_table : list (str * (str * list slot)) := [
  (s "__int__", (s "int", [Self]));
  (s "__float__", (s "float", [Self]));
  (s "__complex__", (s "complex", [Self]));
  (s "__eq__", (s "eq", [Self; Other]));
  (s "__ne__", (s "ne", [Self; Other]));
  (s "__lt__", (s "lt", [Self; Other]));
  (s "__gt__", (s "gt", [Self; Other]));
  (s "__le__", (s "le", [Self; Other]));
  (s "__ge__", (s "ge", [Self; Other]));
  (s "__abs__", (s "abs", [Self]));
  (s "__pos__", (s "pos", [Self]));
  (s "__neg__", (s "neg", [Self]));
  (s "__round__", (s "round", [Self; Key]));
  (s "__floor__", (s "floor", [Self]));
  (s "__ceil__", (s "ceil", [Self]));
  (s "__trunc__", (s "trunc", [Self]));
  (s "__add__", (s "add", [Self; Other]));
  (s "__radd__", (s "add", [Other; Self]));
  (s "__iadd__", (s "add", [Self; Other]));
  (s "__sub__", (s "sub", [Self; Other]));
  (s "__rsub__", (s "sub", [Other; Self]));
  (s "__isub__", (s "sub", [Self; Other]));
  (s "__mul__", (s "mul", [Self; Other]));
  (s "__rmul__", (s "mul", [Other; Self]));
  (s "__imul__", (s "mul", [Self; Other]));
  (s "__truediv__", (s "truediv", [Self; Other]));
  (s "__rtruediv__", (s "truediv", [Other; Self]));
  (s "__itruediv__", (s "truediv", [Self; Other]));
  (s "__floordiv__", (s "floordiv", [Self; Other]));
  (s "__rfloordiv__", (s "floordiv", [Other; Self]));
  (s "__ifloordiv__", (s "floordiv", [Self; Other]));
  (s "__mod__", (s "mod", [Self; Other]));
  (s "__rmod__", (s "mod", [Other; Self]));
  (s "__imod__", (s "mod", [Self; Other]));
  (s "__pow__", (s "pow", [Self; Other; Key]));
  (s "__rpow__", (s "pow", [Other; Self; Key]));
  (s "__ipow__", (s "pow", [Self; Other; Key]))
].

(** _operations.py 262-296 [_OPERATOR_GROUPS], in order of insertion *)
Definition g_ordering := [s "lt"; s "le"; s "gt"; s "ge"].
Definition g_unary := [s "abs"; s "pos"; s "neg"].
Definition g_additive := [s "add"; s "sub"].
Definition g_multiplicative := [s "mul"; s "truediv"].
Definition g_comparative := g_ordering ++ [s "eq"; s "ne"].
Definition g_algebraic := g_additive ++ g_multiplicative ++ [s "pow"].
Definition g_binary := g_comparative ++ g_additive ++ g_multiplicative.
Definition g_real := g_comparative ++ g_algebraic ++ g_unary ++ [s "floordiv"; s "mod"].
Definition g_scalar := g_real ++ [s "round"].
Definition operator_groups : list (str * list str) := [
  (s "cast", [s "int"; s "float"; s "complex"]);
  (s "unary", g_unary);
  (s "ordering", g_ordering);
  (s "additive", g_additive);
  (s "multiplicative", g_multiplicative);
  (s "math", [s "floor"; s "ceil"; s "trunc"]);
  (s "comparative", g_comparative);
  (s "algebraic", g_algebraic);
  (s "binary", g_binary);
  (s "real", g_real);
  (s "scalar", g_scalar)
].

Section Operators.
(** whether the [dict] takes two [Group] keys for the same key, as in AliasedModel *)
Variable same : group -> group -> bool.

(** 188 [_OPERATIONS] and 311-314 [_builtins]: the group of names of each operator, with its function;
    315 [MutableMapping(_builtins)] *)
Definition builtins_mapping : entries (pyval str) :=
  build_from_aliases same (map (fun ka => (KTup (fst ka :: snd ka), Plain (fst ka))) operation_table).
(** 316-317: register the groups in turn *)
Fixpoint register_groups (st : mstate str) (gs : list (str * list str)) : result (mstate str) :=
  match gs with
  | [] => Ok st
  | (n, ks) :: gs' => let (st', r) := mgroup st n ks in _ <- r ;; register_groups st' gs'
  end.
(** 298-318 [_build_operators] *)
Definition build_operators : result (mstate str) := register_groups (mnew builtins_mapping) operator_groups.

(** aliased.py 995-1007 [freeze]: with [groups], the values of all names and of all key groups become
    items of a new mapping, each name on its own *)
Definition freeze {V} (st : mstate V) (groups : bool) : result (entries (pyval V)) :=
  if groups then
    grouped <- mapM (fun g => v <- mget st (fst g) ;; Ok (KOne (fst g), v)) (kgroups st) ;;
    own <- mapM (fun k => v <- mget st k ;; Ok (KOne k, v)) (flat_keys (ents st)) ;;
    Ok (build_from_aliases same (own ++ grouped))
  else Ok (ents st).

(** _operations.py 321-329 [Mapping]: the items, and the groups if it was made from a mutable mapping *)
Record opmap := { oents : entries (pyval str); ogroups : option (list (str * list str)) }.
Definition from_mutable (st : mstate str) : result opmap :=
  d <- freeze st true ;; Ok {| oents := d; ogroups := Some (kgroups st) |}.
Definition from_plain (d : entries (pyval str)) : opmap := {| oents := d; ogroups := None |}.
(** 410 [_OPERATORS] *)
Definition operators : result opmap := st <- build_operators ;; from_mutable st.

(** ** Calls *)
Section Calls.
Context {Arg Res : Type}.
Variable apply : str -> list Arg -> result Res.

(** the result of one function, or a tuple of results *)
Inductive outcome := One (r : Res) | Many (rs : list Res).
Definition call_value (v : pyval str) (args : list Arg) : result Res :=
  match v with
  | Plain f => apply f args
  | Tup _ => Raise TypeError                        (* a tuple is not callable *)
  end.
(** 360-370 [__call__] *)
Definition call (m : opmap) (k : str) (args : list Arg) : result outcome :=
  match getitem (oents m) k with
  | Raise _ => Raise ValueError
  | Ok (Tup l) => rs <- mapM (fun f => call_value f args) l ;; Ok (Many rs)
  | Ok v => r <- call_value v args ;; Ok (One r)
  end.
(** 354-358 [_compute] *)
Definition compute (gs : list (str * list str)) (name : str) (f : pyval str) (args : list Arg) : result outcome :=
  match assoc gs (s "unary") with
  | None => Raise KeyError
  | Some u => if in_group name u
              then rs <- mapM (fun a => call_value f [a]) args ;; Ok (Many rs)
              else r <- call_value f args ;; Ok (One r)
  end.
(** 341-346: the check of the names for a single argument *)
Fixpoint all_unary (gs : list (str * list str)) (names : list str) : result unit :=
  match names with
  | [] => Ok tt
  | n :: names' => match assoc gs (s "unary") with
                   | None => Raise KeyError
                   | Some u => if in_group n u then all_unary gs names' else Raise ValueError
                   end
  end.
(** the [dict] of a comprehension *)
Definition dict_items {A} (l : list (str * A)) : list (str * A) :=
  fold_left (fun d kv => assoc_set d (fst kv) (snd kv)) l [].
(** 331-352 [callgroup] *)
Definition callgroup (m : opmap) (k : str) (args : list Arg) : result (list (str * outcome)) :=
  match ogroups m with
  | None => Raise AttributeError
  | Some gs =>
      match assoc gs k with
      | None => Raise KeyError
      | Some names =>
          v <- getitem (oents m) k ;;
          match v with
          | Plain _ => Raise TypeError              (* zip *)
          | Tup ops =>
              match args with
              | [a] =>
                  _ <- all_unary gs names ;;
                  rs <- mapM (fun nf => r <- call_value (snd nf) [a] ;; Ok (fst nf, One r)) (combine names ops) ;;
                  Ok (dict_items rs)
              | _ =>
                  rs <- mapM (fun nf => r <- compute gs (fst nf) (snd nf) args ;; Ok (fst nf, r)) (combine names ops) ;;
                  Ok (dict_items rs)
              end
          end
      end
  end.
(** _operators.py: a special method applied to an object, if binary to another, and
    perhaps to one more argument ([ndigits], [mod]), which most methods do not accept *)
Definition takes (sl : slot) (slots : list slot) : bool :=
  existsb (fun x => match x, sl with Self, Self | Other, Other | Key, Key => true | _, _ => false end) slots.
Definition call_dunder (d : str) (self : Arg) (other : option Arg) (key : option Arg) : result Res :=
  match assoc dunder_table d with
  | None => Raise AttributeError
  | Some (f, slots) =>
      let given o := match o with Some a => [a] | None => [] end in
      if takes Other slots
      then match other with
           | None => Raise TypeError                (* missing argument *)
           | Some _ => if negb (takes Key slots) && match key with Some _ => true | None => false end then Raise TypeError
                       else apply f (concat (map (fun sl => match sl with Self => [self] | Other => given other | Key => given key end) slots))
           end
      else match other with
           | Some _ => Raise TypeError              (* superfluous argument *)
           | None => if negb (takes Key slots) && match key with Some _ => true | None => false end then Raise TypeError
                     else apply f (concat (map (fun sl => match sl with Self => [self] | Other => given other | Key => given key end) slots))
           end
  end.
End Calls.

(** 372-407 [generate]: the yielded values ([order]: the iteration order of a set of names) *)
Definition generate (order : list str -> list str) (m : opmap) (names excluded : list str) : result (list (pyval str)) :=
  match names with
  | [] => mapM (getitem (oents m)) (flat_keys (oents m))
  | _ => match ogroups m with
         | None => Raise AttributeError
         | Some gs =>
             let keys := concat (map (fun n => match assoc gs n with Some ks => ks | None => [n] end) names) in
             mapM (getitem (oents m)) (order (filter (fun k => negb (in_group k excluded)) (dedup keys)))
         end
  end.

(** 426-437 [resolve]: the argument is a name, a function (an operator given by its
    canonical name, or some other callable), or neither *)
Inductive operation := ByName (k : str) | ByFunc (f : str) | OtherCallable (n : nat) | NotAnOperation.
Definition is_value (m : opmap) (f : str) : bool :=
  existsb (fun k => match getitem (oents m) k with Ok (Plain g) => str_eqb g f | _ => false end) (flat_keys (oents m)).
Definition resolve_operation (m : opmap) (o : operation) (strict : bool) : result (option (pyval str)) :=
  let missing := if strict then Raise ValueError else Ok None in
  match o with
  | NotAnOperation => Raise TypeError
  | ByFunc f => if is_value m f then Ok (Some (Plain f)) else missing
  | OtherCallable _ => missing
  | ByName k => match getitem (oents m) k with Ok v => Ok (Some v) | Raise _ => missing end
  end.
End Operators.
Arguments outcome Res : clear implicits.
Arguments One {Res} r.
Arguments Many {Res} rs.
