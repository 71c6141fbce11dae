(** * Model of the unit texts of EPREM output (metric/_reference.py 822-847)

    The argument is the unit attribute of a file variable: a text, or nothing
    ([None]) when the variable has no unit.  Unit objects as arguments are not
    modelled. *)
From Verif Require Import PyBase.

(** 822-828 [_NONSTANDARD] *)
Definition NONSTANDARD : list (str * str) :=
  [(s "julian date", s "day"); (s "shell", s "1"); (s "cos(mu)", s "1"); (s "e-", s "e");
   (s "# / cm^2 s sr MeV", s "# / cm^2 s sr MeV/nuc")].
(** Python [dict.get(key, default)] *)
Fixpoint get_or (l : list (str * str)) (k default : str) : str :=
  match l with
  | [] => default
  | (a, b) :: l' => if str_eqb a k then b else get_or l' k default
  end.
(** Python [x.split('/', maxsplit=1)]: the texts before and after the first
    slash; [None] when there is no slash *)
Fixpoint split_slash (x : str) : option (str * str) :=
  match x with
  | [] => None
  | c :: x' =>
      if Ascii.eqb c "/" then Some ([], x')
      else match split_slash x' with Some (a, b) => Some (c :: a, b) | None => None end
  end.
(** 835-847 [standardize].  For [None], [str(None)] is not in the table and the
    test ['/' in None] raises a TypeError. *)
Definition standardize (u : option str) : result str :=
  match u with
  | None => Raise TypeError
  | Some x =>
      let x := get_or NONSTANDARD x x in
      match split_slash x with
      | Some (num, den) => Ok (strip num ++ s " / " ++ s "(" ++ strip den ++ s ")")
      | None => Ok x
      end
  end.
