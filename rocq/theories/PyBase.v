(** Common vocabulary of the models: Python exceptions as values, Python
    strings, rational numbers (Python [fractions.Fraction]), doubles.

    Nothing in this file models eprempy itself; it fixes how the Python
    runtime is represented. *)
From Coq Require Export Ascii String ZArith NArith Lia QArith Qcanon Bool Arith List.
From Coq Require Import DecimalN DecimalNat.
Export ListNotations.
#[global] Open Scope nat_scope.
#[global] Open Scope list_scope.

(** ** Exceptions as values *)

(** The exception classes that the modelled code can raise. *)
Inductive exn : Type :=
| TypeError | ValueError | KeyError | IndexError | ZeroDivisionError
| AttributeError | OverflowError | RecursionError
| NotImplementedResult            (* Python [NotImplemented] reaching the caller: TypeError *)
| ParsingValueError | ParsingTypeError
| MergeError | OtherError (name : string)
| OutOfFuel.                      (* model artefact: never a Python outcome *)

Inductive result (A : Type) : Type :=
| Ok (a : A)
| Raise (e : exn).
Arguments Ok {A} a.
Arguments Raise {A} e.

Definition bind {A B} (m : result A) (f : A -> result B) : result B :=
  match m with Ok a => f a | Raise e => Raise e end.
Notation "x <- m ;; k" := (bind m (fun x => k))
  (at level 61, m at next level, right associativity).

(** Python comprehension [[f(x) for x in xs]] where [f] may raise. *)
Fixpoint mapM {A B} (f : A -> result B) (xs : list A) : result (list B) :=
  match xs with
  | [] => Ok []
  | x :: xs' => y <- f x ;; ys <- mapM f xs' ;; Ok (y :: ys)
  end.

Definition is_ok {A} (m : result A) : bool :=
  match m with Ok _ => true | Raise _ => false end.

(** ** Strings: lists of characters (Latin-1 code points) *)

Definition str := list ascii.
Definition s (x : string) : str := list_ascii_of_string x.

Definition ascii_eqb := Ascii.eqb.

Fixpoint str_eqb (a b : str) : bool :=
  match a, b with
  | [], [] => true
  | x :: a', y :: b' => Ascii.eqb x y && str_eqb a' b'
  | _, _ => false
  end.

(** Python [<] on strings: lexicographic by code point. *)
Fixpoint str_ltb (a b : str) : bool :=
  match a, b with
  | [], [] => false
  | [], _ :: _ => true
  | _ :: _, [] => false
  | x :: a', y :: b' =>
      if N.ltb (N_of_ascii x) (N_of_ascii y) then true
      else if N.eqb (N_of_ascii x) (N_of_ascii y) then str_ltb a' b' else false
  end.

Definition is_digit (c : ascii) : bool :=
  let n := N_of_ascii c in (N.leb 48 n && N.leb n 57).

Definition is_alpha (c : ascii) : bool :=
  let n := N_of_ascii c in
  (N.leb 65 n && N.leb n 90) || (N.leb 97 n && N.leb n 122).

(** [str.isspace] / regular-expression [\s] restricted to Latin-1. *)
Definition is_space (c : ascii) : bool :=
  let n := N_of_ascii c in
  (N.leb 9 n && N.leb n 13) || (N.leb 28 n && N.leb n 32)
  || N.eqb n 133 || N.eqb n 160.

Fixpoint lstrip (x : str) : str :=
  match x with
  | c :: x' => if is_space c then lstrip x' else x
  | [] => []
  end.
Definition rstrip (x : str) : str := rev (lstrip (rev x)).
(** Python [str.strip()]. *)
Definition strip (x : str) : str := rstrip (lstrip x).

(** Decimal digits of a natural number, and back. *)
Fixpoint str_of_uint (d : Decimal.uint) : str :=
  match d with
  | Decimal.Nil => []
  | Decimal.D0 d => "0"%char :: str_of_uint d
  | Decimal.D1 d => "1"%char :: str_of_uint d
  | Decimal.D2 d => "2"%char :: str_of_uint d
  | Decimal.D3 d => "3"%char :: str_of_uint d
  | Decimal.D4 d => "4"%char :: str_of_uint d
  | Decimal.D5 d => "5"%char :: str_of_uint d
  | Decimal.D6 d => "6"%char :: str_of_uint d
  | Decimal.D7 d => "7"%char :: str_of_uint d
  | Decimal.D8 d => "8"%char :: str_of_uint d
  | Decimal.D9 d => "9"%char :: str_of_uint d
  end.

(** Python [str(n)] for a natural number. *)
Definition str_of_N (n : N) : str :=
  match n with N0 => s "0" | _ => str_of_uint (N.to_uint n) end.

Definition digit_val (c : ascii) : N := (N_of_ascii c - 48)%N.

(** Python [int(digits)] for a string of ASCII digits. *)
Definition N_of_str (x : str) : N :=
  fold_left (fun a c => (10 * a + digit_val c)%N) x 0%N.

(** Python [str(z)] for an integer. *)
Definition str_of_Z (z : Z) : str :=
  match z with
  | Zneg p => "-"%char :: str_of_N (Npos p)
  | _ => str_of_N (Z.to_N z)
  end.

(** ** Rationals: Python [fractions.Fraction] *)

Definition qnum (q : Qc) : Z := Qnum (this q).
Definition qden (q : Qc) : positive := Qden (this q).
Definition mkq (n : Z) (d : positive) : Qc := Q2Qc (n # d).
Definition zq (z : Z) : Qc := mkq z 1.

Definition qc_eqb (a b : Qc) : bool :=
  Z.eqb (qnum a) (qnum b) && Pos.eqb (qden a) (qden b).
Definition qc_ltb (a b : Qc) : bool :=
  Z.ltb (qnum a * Zpos (qden b)) (qnum b * Zpos (qden a)).
Definition qc_leb (a b : Qc) : bool :=
  Z.leb (qnum a * Zpos (qden b)) (qnum b * Zpos (qden a)).

Definition q_isint (q : Qc) : bool := Pos.eqb (qden q) 1.

(** Python [str(Fraction)]. *)
Definition str_of_q (q : Qc) : str :=
  if q_isint q then str_of_Z (qnum q)
  else str_of_Z (qnum q) ++ "/"%char :: str_of_N (Npos (qden q)).

(** Integer powers; negative powers of zero raise in Python, so callers test. *)
Definition qpowz (q : Qc) (z : Z) : Qc :=
  match z with
  | Z0 => 1%Qc
  | Zpos p => Qcpower q (Pos.to_nat p)
  | Zneg p => Qcinv (Qcpower q (Pos.to_nat p))
  end.

(** ** Doubles

    [fl q] is the double nearest to [q] (ties to even), as produced by Python's
    [float(Fraction)], seen again as an exact rational.  Overflow (above about
    1.8e308) and subnormal numbers are not modelled: the exponent is
    unbounded. *)
Definition round_half_even (n : Z) (d : positive) : Z :=
  let q := (n / Zpos d)%Z in
  let r := (n mod Zpos d)%Z in
  match Z.compare (2 * r) (Zpos d) with
  | Lt => q
  | Gt => (q + 1)%Z
  | Eq => if Z.even q then q else (q + 1)%Z
  end.

Definition fl_pos (n d : positive) : Qc :=
  (* exponent such that n/d / 2^e lies in (2^51, 2^53) *)
  let e0 := (Z.log2 (Zpos n) - Z.log2 (Zpos d) - 52)%Z in
  let scaled (e : Z) : Z * positive :=
    if Z.leb 0 e then (Zpos n, (d * Z.to_pos (2 ^ e))%positive)
    else (Zpos n * 2 ^ (- e), d)%Z in
  let ge53 (e : Z) :=
    let '(a, b) := scaled e in Z.leb (2 ^ 52 * Zpos b) a in
  let e := if ge53 e0 then e0 else (e0 - 1)%Z in
  let '(a, b) := scaled e in
  let m := round_half_even a b in
  if Z.leb 0 e then zq (m * 2 ^ e) else mkq m (Z.to_pos (2 ^ (- e))).

Definition fl (q : Qc) : Qc :=
  match qnum q with
  | Z0 => 0%Qc
  | Zpos n => fl_pos n (qden q)
  | Zneg n => (- fl_pos n (qden q))%Qc
  end.

(** [q] is exactly representable as a double (unbounded exponent). *)
Definition is_double (q : Qc) : bool := qc_eqb (fl q) q.
