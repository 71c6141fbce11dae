(** * numpy's floating-point numbers without rounding.

    Nothing in this file models eprempy itself; it fixes how the results of
    numpy's arithmetic are represented where division by zero, logarithms and
    roots occur: a real number, an infinity, or NaN.  Rounding, overflow and the
    sign of zero are not represented: zero is +0. *)
From Coq Require Import Reals.
From Verif Require Import PyBase.

Inductive num := Fin (r : R) | PInf | NInf | NaN.
Definition finite (a : num) : Prop := exists r, a = Fin r.

Definition nneg (a : num) : num := match a with Fin r => Fin (- r) | PInf => NInf | NInf => PInf | NaN => NaN end.
Definition nadd (a b : num) : num :=
  match a, b with
  | Fin x, Fin y => Fin (x + y)
  | NaN, _ | _, NaN | PInf, NInf | NInf, PInf => NaN
  | PInf, _ | _, PInf => PInf
  | NInf, _ | _, NInf => NInf
  end.
Definition nsub (a b : num) : num := nadd a (nneg b).
(** infinity times a number *)
Definition inf_times (pos : bool) (x : R) : num :=
  if Req_EM_T x 0 then NaN
  else if Rlt_dec 0 x then if pos then PInf else NInf
  else if pos then NInf else PInf.
Definition nmul (a b : num) : num :=
  match a, b with
  | Fin x, Fin y => Fin (x * y)
  | NaN, _ | _, NaN => NaN
  | PInf, Fin x | Fin x, PInf => inf_times true x
  | NInf, Fin x | Fin x, NInf => inf_times false x
  | PInf, PInf | NInf, NInf => PInf
  | PInf, NInf | NInf, PInf => NInf
  end.
Definition ndiv (a b : num) : num :=
  match a, b with
  | Fin x, Fin y =>
      if Req_EM_T y 0 then if Req_EM_T x 0 then NaN else if Rlt_dec 0 x then PInf else NInf
      else Fin (x / y)
  | NaN, _ | _, NaN => NaN
  | Fin _, (PInf | NInf) => Fin 0
  | PInf, Fin y => if Rlt_dec y 0 then NInf else PInf
  | NInf, Fin y => if Rlt_dec y 0 then PInf else NInf
  | _, _ => NaN
  end.
Definition nsqrt (a : num) : num :=
  match a with
  | Fin x => if Rlt_dec x 0 then NaN else Fin (sqrt x)
  | PInf => PInf
  | _ => NaN
  end.
Definition nlog (a : num) : num :=
  match a with
  | Fin x => if Rlt_dec x 0 then NaN else if Req_EM_T x 0 then NInf else Fin (ln x)
  | PInf => PInf
  | _ => NaN
  end.
(** numpy.power for a non-negative base *)
Definition npower (b e : num) : num :=
  match b, e with
  | Fin x, Fin y =>
      if Req_EM_T x 1 then Fin 1
      else if Req_EM_T y 0 then Fin 1
      else if Rlt_dec x 0 then NaN
      else if Req_EM_T x 0 then if Rlt_dec 0 y then Fin 0 else PInf
      else Fin (Rpower x y)
  | Fin x, PInf => if Req_EM_T x 1 then Fin 1 else if Rlt_dec 1 x then PInf else Fin 0
  | Fin x, NInf => if Req_EM_T x 1 then Fin 1 else if Rlt_dec 1 x then Fin 0 else PInf
  | Fin x, NaN => if Req_EM_T x 1 then Fin 1 else NaN
  | PInf, Fin y => if Req_EM_T y 0 then Fin 1 else if Rlt_dec 0 y then PInf else Fin 0
  | PInf, PInf => PInf
  | PInf, NInf => Fin 0
  | _, Fin y => if Req_EM_T y 0 then Fin 1 else NaN
  | _, _ => NaN
  end.
(** x ** n for a natural number n *)
Fixpoint npow (a : num) (n : nat) : num := match n with O => Fin 1 | S O => a | S m => nmul a (npow a m) end.
Definition ncos (a : num) : num := match a with Fin x => Fin (cos x) | _ => NaN end.
Definition nsin (a : num) : num := match a with Fin x => Fin (sin x) | _ => NaN end.
Definition narccos (a : num) : num :=
  match a with Fin x => if Rlt_dec x (-1) then NaN else if Rlt_dec 1 x then NaN else Fin (acos x) | _ => NaN end.
Definition nabs (a : num) : num := match a with Fin x => Fin (Rabs x) | NaN => NaN | _ => PInf end.
(** a > b, a < b: false if either is NaN *)
Definition nlt (a b : num) : bool :=
  match a, b with
  | Fin x, Fin y => if Rlt_dec x y then true else false
  | NaN, _ | _, NaN => false
  | NInf, NInf | PInf, _ => false
  | NInf, _ => true
  | Fin _, PInf => true
  | Fin _, NInf => false
  end.
Definition nsum (l : list num) : num := fold_right nadd (Fin 0) l.
