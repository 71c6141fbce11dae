(** Specification of measurable input (C25, C60), independent of the parser. *)
From Verif Require Import PyBase QuantityModel.

Section Spec.
Variable A : Type.
Variable to_float : A -> result A.
Variable float_str : str -> option A.
Variable compare_one : item A -> option exn.

(** [u] is a unit with the text [t]; comparing it with [1] must not raise (that
    is, it can be read as a symbolic expression) *)
Definition unit_text (u : item A) (t : str) : Prop :=
  (u = Str t \/ u = Uni t) /\ (u = Str (s "1") \/ compare_one u = None).

(** [x] stands for the number [a]: as a number, or as a numerical string *)
Definition numeric (x : item A) (a : A) : Prop :=
  (exists b, x = Num b /\ to_float b = Ok a) \/ (exists t, x = Str t /\ float_str t = Some a).

(** [measures x vs t]: [x] consists of the numbers [vs], in this order, with the
    unit [t] ([1] if [x] has no unit) *)
Inductive measures : item A -> list A -> str -> Prop :=
(** a number, a numerical string, a range *)
| M_number a : measures (Num a) [a] (s "1")
| M_string t a : t <> [] -> float_str t = Some a -> measures (Str t) [a] (s "1")
| M_range vs : vs <> [] -> measures (Range vs) vs (s "1")
(** redundant lists *)
| M_wrapped x vs t : measures x vs t -> measures (Seq [x]) vs t
(** (v0, v1, ...) *)
| M_numbers vs : 2 <= length vs -> measures (Seq (map Num vs)) vs (s "1")
(** (v0, v1, ..., unit) *)
| M_numbers_unit vs u t : vs <> [] -> unit_text u t -> measures (Seq (map Num vs ++ [u])) vs t
(** ((v0, v1, ...), unit), also with a range *)
| M_list_unit vs u t : unit_text u t -> measures (Seq [Seq (map Num vs); u]) vs t
| M_range_unit vs u t : unit_text u t -> measures (Seq [Range vs; u]) vs t
(** numbers and at least two numerical strings *)
| M_strings xs vs : Forall2 numeric xs vs ->
    (exists a t b t' c, xs = a ++ Str t :: b ++ Str t' :: c) -> measures (Seq xs) vs (s "1")
(** numbers and at least one numerical string, then a unit *)
| M_strings_unit xs vs t : Forall2 numeric xs vs -> (exists t', In (Str t') xs) ->
    float_str t = None -> unit_text (Str t) t -> measures (Seq (xs ++ [Str t])) vs t
(** several of these lists, with the same unit *)
| M_many xs vss t : 2 <= length xs -> (forall x, In x xs -> exists l, x = Seq l) ->
    Forall2 (fun x vs => measures x vs t) xs vss -> measures (Seq xs) (concat vss) t.

(** [x] has no list of the form ((v0, v1, ...), more, ..., unit) and none of the
    form (list, unit) where the list holds something else than numbers. *)
Definition headed (l : list (item A)) : Prop := forall h m u,
  l = h :: m ++ [u] -> (exists t, u = Str t \/ u = Uni t) ->
  (forall vs, h = Seq vs -> m = [] /\ forall v, In v vs -> exists a, v = Num a)
  /\ (forall vs, h = Range vs -> m = []).
Inductive regular : item A -> Prop :=
| R_seq l : headed l -> ((forall x, In x l -> exists k, x = Seq k) -> Forall regular l) -> regular (Seq l)
| R_other x : (forall l, x <> Seq l) -> regular x.

(** [x] has no numerical strings: a string occurs only as the last of several
    members of a list *)
Inductive plain : item A -> Prop :=
| P_seq l : (forall x, In x (removelast l) -> forall t, x <> Str t) ->
    (length l = 1 \/ (forall x, In x l -> exists k, x = Seq k) -> Forall plain l) -> plain (Seq l)
| P_other x : (forall l, x <> Seq l) -> (forall t, x <> Str t) -> plain x.
End Spec.
