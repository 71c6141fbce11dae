(** Model of [eprempy/symbolic]: operands, terms, the string parser and
    algebraic reduction.  Source: /repo/src/eprempy/symbolic/. *)
From Verif Require Import PyBase.

(** ** Regular expressions

    A pattern maps a string to the list of its matches at the start of the
    string, each split as (matched text, remaining text), in the order in which
    Python's backtracking matcher tries them.  [re.match] takes the first,
    [re.fullmatch] the first with an empty remainder. *)
Definition pat := str -> list (str * str).

Definition p_eps : pat := fun x => [([], x)].
(** one character of a class *)
Definition p_chr (f : ascii -> bool) : pat := fun x =>
  match x with c :: x' => if f c then [([c], x')] else [] | [] => [] end.
(** concatenation *)
Definition p_seq (p q : pat) : pat := fun x =>
  flat_map (fun m => map (fun n => (fst m ++ fst n, snd n)) (q (snd m))) (p x).
(** ordered alternation [p|q] *)
Definition p_alt (p q : pat) : pat := fun x => p x ++ q x.
(** greedy option [p?] *)
Definition p_opt (p : pat) : pat := p_alt p p_eps.
(** greedy repetition of a character class, [f*] *)
Fixpoint p_star (f : ascii -> bool) (x : str) : list (str * str) :=
  match x with
  | c :: x' =>
      if f c then map (fun m => (c :: fst m, snd m)) (p_star f x') ++ [([], x)]
      else [([], x)]
  | [] => [([], [])]
  end.
(** greedy [f+] *)
Definition p_plus (f : ascii -> bool) : pat := p_seq (p_chr f) (p_star f).
(** lazy repetition [f*?] *)
Fixpoint p_lazystar (f : ascii -> bool) (x : str) : list (str * str) :=
  ([], x) ::
  match x with
  | c :: x' => if f c then map (fun m => (c :: fst m, snd m)) (p_lazystar f x') else []
  | [] => []
  end.
(** lazy [f+?] *)
Definition p_lazyplus (f : ascii -> bool) : pat := p_seq (p_chr f) (p_lazystar f).
(** positive look-ahead [(?=p)] and negative look-ahead [(?!p)] *)
Definition p_ahead (p : pat) : pat := fun x =>
  match p x with [] => [] | _ => [([], x)] end.
Definition p_notahead (p : pat) : pat := fun x =>
  match p x with [] => [([], x)] | _ => [] end.

Definition is_c (c : ascii) : ascii -> bool := fun x => Ascii.eqb x c.
Definition is_sign (c : ascii) : bool := Ascii.eqb c "-" || Ascii.eqb c "+".
Definition is_e (c : ascii) : bool := Ascii.eqb c "e" || Ascii.eqb c "E".

(** _operand.py 126-136 [OperandFactory.rational] (the same text at 647-657) *)
Definition re_rational : pat :=
  p_seq (p_opt (p_chr is_sign))
  (p_seq (p_ahead (p_alt (p_chr is_digit) (p_seq (p_chr (is_c ".")) (p_chr is_digit))))
  (p_seq (p_star is_digit)
         (p_alt
            (p_seq (p_chr (is_c "/")) (p_lazyplus is_digit))
            (p_seq (p_opt (p_seq (p_chr (is_c ".")) (p_star is_digit)))
                   (p_opt (p_seq (p_chr is_e)
                          (p_seq (p_opt (p_chr is_sign)) (p_plus is_digit)))))))).

(** _operand.py 137-140 [OperandFactory.base] *)
Definition is_basechar (c : ascii) : bool :=
  is_alpha c || Ascii.eqb c "#" || Ascii.eqb c "_".
Definition re_base : pat := p_seq (p_plus is_basechar) (p_star is_digit).

(** _operand.py 148: [exponent = \^rational] *)
Definition re_exponent : pat := p_seq (p_chr (is_c "^")) re_rational.

(** Captured groups of the 'variable' and 'constant' patterns; [None] is an
    optional group that did not take part (Python [None]). *)
Record groups := { g_coef : option str; g_base : option str; g_exp : option str }.

(** matches of [(?P<name>p)?], with the group's text *)
Definition cap_opt (p : pat) (x : str) : list (option str * str) :=
  map (fun m => (Some (fst m), snd m)) (p x) ++ [(None, x)].

(** _operand.py 155-160 the 'variable' pattern: coefficient? base exponent? *)
Definition re_variable (x : str) : list (groups * str) :=
  flat_map (fun c =>
    flat_map (fun b =>
      map (fun e => ({| g_coef := fst c; g_base := Some (fst b); g_exp := fst e |}, snd e))
          (cap_opt re_exponent (snd b)))
      (re_base (snd c)))
    (cap_opt re_rational x).

(** _operand.py 150-154 the 'constant' pattern: coefficient exponent? *)
Definition re_constant (x : str) : list (groups * str) :=
  flat_map (fun c =>
    map (fun e => ({| g_coef := Some (fst c); g_base := None; g_exp := fst e |}, snd e))
        (cap_opt re_exponent (snd c)))
    (re_rational x).

(** [re.match] and [re.fullmatch] *)
Definition first_match {A} (l : list (A * str)) : option (A * str) := hd_error l.
Definition full_match {A} (l : list (A * str)) : option (A * str) :=
  find (fun m => match snd m with [] => true | _ => false end) l.

Inductive mode := MMatch | MFull.
Definition run_mode {A} (md : mode) (l : list (A * str)) : option (A * str) :=
  match md with MMatch => first_match l | MFull => full_match l end.

(** ** Numbers in strings *)

(** longest prefix of digits *)
Fixpoint span_digits (x : str) : str * str :=
  match x with
  | c :: x' => if is_digit c then let '(a, b) := span_digits x' in (c :: a, b) else ([], x)
  | [] => ([], [])
  end.

(** Python [fractions.Fraction(text)] for a text matched by [re_rational]
    (standard library, fractions.py [_RATIONAL_FORMAT]), without its sign. *)
Definition fraction_unsigned (x : str) : result Qc :=
  let '(num, x) := span_digits x in
  match x with
  | [] => Ok (zq (Z.of_N (N_of_str num)))
  | c :: x' =>
      if Ascii.eqb c "/" then
        let '(den, rest) := span_digits x' in
        match rest, den, N_of_str den with
        | [], _ :: _, Npos d => Ok (mkq (Z.of_N (N_of_str num)) d)
        | [], _ :: _, N0 => Raise ZeroDivisionError
        | _, _, _ => Raise ValueError
        end
      else
        let '(dec, x) := if Ascii.eqb c "." then span_digits x' else ([], x) in
        let mant := zq (Z.of_N (N_of_str num)) + mkq (Z.of_N (N_of_str dec))
                        (Z.to_pos (10 ^ Z.of_nat (length dec)))%Z in
        match x with
        | [] => Ok mant
        | c :: x' =>
            if is_e c then
              let '(eneg, x) :=
                match x' with
                | c :: x'' => if is_sign c then (Ascii.eqb c "-", x'') else (false, x')
                | [] => (false, x')
                end in
              let '(ed, rest) := span_digits x in
              match ed, rest with
              | _ :: _, [] =>
                  let e := Z.of_N (N_of_str ed) in
                  Ok (if eneg then mant / zq (10 ^ e) else mant * zq (10 ^ e))
              | _, _ => Raise ValueError
              end
            else Raise ValueError
        end
  end%Qc.
(** ... with its sign *)
Definition fraction_of_str (x : str) : result Qc :=
  match x with
  | c :: x' =>
      if is_sign c then
        q <- fraction_unsigned x' ;; Ok (if Ascii.eqb c "-" then (- q)%Qc else q)
      else fraction_unsigned x
  | [] => fraction_unsigned x
  end.

(** ** Operands and terms *)

(** _operand.py 20-81 [Operand] with its three attributes; [isterm] tells
    whether the Python object is a [Term] (634).  The base of a term is its
    symbol, or ['1'] for a constant. *)
Record operand := { coef : Qc; base : str; expo : Qc; isterm : bool }.

(** _operand.py 65-76 [Operand.__init__]: [coefficient or 1], [base or '1'],
    [exponent or 1]; so zero and the empty string are replaced by one. *)
Definition or1 (q : Qc) : Qc := if qc_eqb q 0 then 1%Qc else q.
Definition mk_operand (t : bool) (c : Qc) (b : str) (e : Qc) : operand :=
  {| coef := or1 c; base := match b with [] => s "1" | _ => b end;
     expo := or1 e; isterm := t |}.

(** _operand.py 662-667 [_base_re.fullmatch(base)] *)
Definition base_is_valid (b : str) : bool :=
  match full_match (re_rational b) with
  | Some _ => true
  | None => match full_match (re_base b) with Some _ => true | None => false end
  end.

(** _operand.py 815-852 [term_factory] with keyword arguments; [None] base is
    an absent keyword. *)
Definition term_factory (c : Qc) (b : option str) (e : Qc) : result operand :=
  match b with
  | Some b => if base_is_valid b then Ok (mk_operand true c b e) else Raise ValueError
  | None => Ok (mk_operand true c [] e)
  end.

Section Floats.
(** [libm_pow x y]: Python's [float ** float] for [x <> 1] and inexact cases;
    [None] stands for an exception or a complex result, which the code then
    fails to turn into a [Fraction].  [1.0 ** y] is [1.0] (C99 [pow]). *)
Variable libm_pow : Qc -> Qc -> option Qc.

(** float power of a float *)
Definition float_pow (x y : Qc) : result Qc :=
  if qc_eqb x 1 then Ok 1%Qc
  else match libm_pow x y with Some r => Ok r | None => Raise TypeError end.

(** [Fraction ** Fraction] (standard library): exact for an integral exponent,
    float power otherwise. *)
Definition fr_pow (c p : Qc) : result Qc :=
  if q_isint p then
    if qc_eqb c 0 && Z.ltb (qnum p) 0 then Raise ZeroDivisionError
    else Ok (qpowz c (qnum p))
  else float_pow (fl c) (fl p).

(** _operand.py 83-87 [Operand.__pow__] with an exact (Fraction) power *)
Definition op_pow (o : operand) (p : Qc) : result operand :=
  c <- fr_pow (coef o) p ;;
  Ok (mk_operand (isterm o) c (base o) (expo o * p)%Qc).

(** _operand.py 83-87 [Operand.__pow__] with a Python float power: the
    coefficient is [float(c) ** p], the exponent [float(e) * p]. *)
Definition op_powf (o : operand) (p : Qc) : result operand :=
  c <- float_pow (fl (coef o)) p ;;
  Ok (mk_operand (isterm o) c (base o) (fl (fl (expo o) * p))%Qc).

(** ** Operand parsing *)

(** A parsed part: the operand and the unparsed rest (_part.py 16-92 [Match]). *)
Definition opmatch := (operand * str)%type.

(** _operand.py 595-599 [_standard_exponent]: remove ['^'] and convert;
    [None] (no group) becomes the default 1 (_operand.py 569-585). *)
Definition std_exponent (g : option str) : result Qc :=
  match g with
  | None | Some [] => Ok 1%Qc
  | Some t => q <- fraction_of_str (filter (fun c => negb (Ascii.eqb c "^")) t) ;; Ok (or1 q)
  end.
(** _operand.py 587-589 [_standard_coefficient] *)
Definition std_coef (g : option str) : result Qc :=
  match g with
  | None | Some [] => Ok 1%Qc
  | Some t => q <- fraction_of_str t ;; Ok q
  end.

(** _operand.py 445-451 [_build_variable] *)
Definition build_variable (g : groups) : result operand :=
  c <- std_coef (g_coef g) ;;
  e <- match g_exp g with
       | None => Ok 1%Qc
       | Some t => fraction_of_str (filter (fun c => negb (Ascii.eqb c "^")) t)
       end ;;
  term_factory c (g_base g) e.

(** _operand.py 453-460 [_build_constant]: [float(coefficient ** exponent)] *)
Definition build_constant (g : groups) : result operand :=
  c <- std_coef (g_coef g) ;;
  e <- match g_exp g with
       | None => Ok 1%Qc
       | Some t => fraction_of_str (filter (fun c => negb (Ascii.eqb c "^")) t)
       end ;;
  r <- fr_pow c e ;;
  term_factory (fl r) None 1%Qc.

(** _operand.py 400-428 [_match_simplex] (always called with [start=0]) *)
Definition match_simplex (md : mode) (x : str) : result (option opmatch) :=
  match run_mode md (re_variable x), run_mode md (re_constant x) with
  | None, None => Ok None
  | Some (gv, rv), Some (gc, rc) =>
      if Nat.eqb (length rv) (length rc)     (* equal matched text *)
      then o <- build_constant gc ;; Ok (Some (o, rc))
      else o <- build_variable gv ;; Ok (Some (o, rv))
  | Some (gv, rv), None => o <- build_variable gv ;; Ok (Some (o, rv))
  | None, Some (gc, rc) => o <- build_constant gc ;; Ok (Some (o, rc))
  end.

(** _operand.py 554-567 [find_bounds], the loop from position [i] *)
Fixpoint find_bounds_from (init : bool) (count : Z) (i0 i : nat) (x : str)
  : option (nat * nat) :=
  match x with
  | [] => None
  | c :: x' =>
      let '(init, count, i0) :=
        if Ascii.eqb c "(" then
          (true, (count + 1)%Z, if init then i0 else i)
        else if Ascii.eqb c ")" then (init, (count - 1)%Z, i0)
        else (init, count, i0) in
      if init && Z.eqb count 0 then Some (i0, S i)
      else find_bounds_from init count i0 (S i) x'
  end.
(** _operand.py 491-567 *)
Definition find_bounds (x : str) := find_bounds_from false 0 0 0 x.

(** Python slices [x[a:b]] for [0 <= a <= b <= len(x)] *)
Definition slice (x : str) (a b : nat) : str := firstn (b - a) (skipn a x).

(** _operand.py 462-489 [_match_complex] (always called with [start=0]) *)
Definition match_complex (md : mode) (x : str) : result (option opmatch) :=
  match find_bounds x with
  | None => Ok None
  | Some (i0, e) =>
      let b := slice x (S i0) (e - 1) in
      m <- match_simplex MFull (firstn i0 x) ;;
      let '(cf, i0) := match m with
                       | Some (o, _) => (coef o, 0)
                       | None => (1%Qc, i0)
                       end in
      match md, i0 with
      | MMatch, S _ => Ok None
      | _, _ =>
          let '(ex, e) :=
            match first_match (re_exponent (skipn e x)) with
            | Some (t, _) => (Some t, e + length t)
            | None => (None, e)
            end in
          match md with
          | MFull =>
              if Nat.eqb i0 0 && Nat.eqb e (length x) then
                q <- std_exponent ex ;;
                Ok (Some (mk_operand false cf b q, skipn e x))
              else Ok None
          | MMatch =>
              q <- std_exponent ex ;;
              Ok (Some (mk_operand false cf b q, skipn e x))
          end
      end
  end.

(** _operand.py 373-398 [search]: simple first, then complex *)
Definition search (md : mode) (x : str) : result (option opmatch) :=
  m <- match_simplex md x ;;
  match m with Some r => Ok (Some r) | None => match_complex md x end.

(** _operand.py 354-371 [OperandFactory.parse] *)
Definition operand_parse (x : str) : result (option opmatch) := search MMatch (strip x).

(** ** Operators *)

(** _operator.py 6-28 *)
Inductive operator := OMul | ODiv | OSqrt.

(** _operator.py 37-49: the three patterns (look-behind at the start of the
    string always succeeds) *)
Definition re_op (c other : ascii) : pat :=
  p_seq (p_star is_space) (p_seq (p_chr (is_c c))
        (p_seq (p_star is_space) (p_notahead (p_chr (is_c other))))).
Definition re_sqrt : pat :=
  p_seq (p_star is_space)
  (p_seq (p_chr (is_c "s")) (p_seq (p_chr (is_c "q")) (p_seq (p_chr (is_c "r"))
  (p_seq (p_chr (is_c "t")) (p_star is_space))))).

(** _operator.py 50-57 [OperatorFactory.parse] *)
Definition operator_parse (x : str) : option (operator * str) :=
  match first_match (re_op "*" "/" x) with
  | Some (_, r) => Some (OMul, r)
  | None =>
      match first_match (re_op "/" "*" x) with
      | Some (_, r) => Some (ODiv, r)
      | None =>
          match first_match (re_sqrt x) with
          | Some (_, r) => Some (OSqrt, r)
          | None => None
          end
      end
  end.

(** _parser.py 230-242 [_evaluate]; ['sqrt'] raises to the float 0.5 *)
Definition evaluate (op : operator) (o : operand) : result operand :=
  match op with
  | OMul => Ok o
  | ODiv => op_pow o (zq (-1))
  | OSqrt => op_powf o (mkq 1 2)
  end.

(** ** The parser *)

(** _parser.py 140-160 [_parse_operand] with [_get_operator] (162-176),
    [_get_operand] (178-187) and [_compute_operand] (189-197), for the default
    [operator_order='ignore'] (_parser.py 221).  One loop iteration consumes at
    least one character; [fuel] bounds the iterations. *)
Fixpoint parse_operand (fuel : nat) (p : Qc) (x : str) : result (list operand) :=
  match x with
  | [] => Ok []
  | _ =>
      match fuel with
      | O => Raise OutOfFuel
      | S fuel =>
          let '(op, x) := match operator_parse x with
                          | Some (op, r) => (Some op, r)
                          | None => (None, x)
                          end in
          m <- operand_parse x ;;
          match m, op with
          | Some (o, r), Some op =>
              o <- op_pow o p ;; o <- evaluate op o ;;
              os <- parse_operand fuel p r ;; Ok (o :: os)
          | Some (o, r), None =>
              o <- op_pow o p ;;
              os <- parse_operand fuel p r ;; Ok (o :: os)
          | None, _ => Raise ParsingValueError
          end
      end
  end.

(** _parser.py 129-138 [_resolve_operations] and 244-250 [_update_terms];
    [fuel] bounds the nesting depth. *)
Fixpoint resolve (fuel : nat) (o : operand) : result (list operand) :=
  match fuel with
  | O => Raise OutOfFuel
  | S fuel =>
      os <- parse_operand (length (base o)) (expo o) (base o) ;;
      tss <- mapM (fun o => if isterm o then Ok [o] else resolve fuel o) os ;;
      k <- term_factory (coef o) None 1%Qc ;;
      Ok (concat tss ++ [k])
  end.

(** _parser.py 124-127 [Parser.parse] *)
Definition parse (x : str) : result (list operand) :=
  resolve (S (S (length x))) (mk_operand false 1%Qc x 1%Qc).

(** ** Reduction *)

(** _expression.py 414-425: accumulate coefficient and exponent per base, in
    order of first appearance (Python [dict]) *)
Definition acc := list (str * (Qc * Qc)).
Fixpoint acc_add (a : acc) (t : operand) : acc :=
  match a with
  | [] => [(base t, (coef t, expo t))]
  | (b, (c, e)) :: a' =>
      if str_eqb b (base t) then (b, (c * coef t, e + expo t)%Qc) :: a'
      else (b, (c, e)) :: acc_add a' t
  end.

(** stable insertion sort: Python [sorted] *)
Fixpoint insert_by {A} (lt : A -> A -> bool) (x : A) (l : list A) : list A :=
  match l with
  | [] => [x]
  | y :: l' => if lt y x then y :: insert_by lt x l' else x :: l
  end.
Definition sort_by {A} (lt : A -> A -> bool) (l : list A) : list A :=
  fold_right (insert_by lt) [] l.

(** [sorted(..., key=base)], then [sorted(..., key=exponent, reverse=True)];
    both keep the order of equal keys *)
Definition base_lt (a b : operand) : bool := str_ltb (base a) (base b).
Definition expo_gt (a b : operand) : bool := qc_ltb (expo b) (expo a).

(** _expression.py 397-445 [reduce] on the concatenation of its groups *)
Definition reduce (ts : list operand) : result (list operand) :=
  let reduced := fold_left acc_add ts [] in
  let fracs := map (fun kv => fst (snd kv)) reduced in
  tmp <- mapM (fun kv => term_factory 1%Qc (Some (fst kv)) (snd (snd kv)))
              (filter (fun kv => negb (str_eqb (fst kv) (s "1"))
                                 && negb (qc_eqb (snd (snd kv)) 0)) reduced) ;;
  let variables := sort_by expo_gt (sort_by base_lt tmp) in
  match fracs with
  | [] => Raise TypeError                       (* functools.reduce of nothing *)
  | f :: fs =>
      let c := fold_left Qcmult fs f in
      constant <- term_factory c None 1%Qc ;;
      match variables with
      | [] => Ok [constant]
      | _ => if qc_eqb c 1 then Ok variables else Ok (constant :: variables)
      end
  end.

(** ** Printing *)

(** _operand.py 724-740 [_format_coefficient], [_ambiguous_coefficient] *)
Definition format_coefficient (t : operand) : str :=
  if negb (str_eqb (base t) (s "1")) && qc_eqb (coef t) 1 then []
  else if negb (str_eqb (base t) (s "1")) && negb (q_isint (coef t))
  then "("%char :: str_of_q (coef t) ++ [")"%char]
  else if qc_eqb (fl (coef t)) (zq (Z.quot (qnum (coef t)) (Zpos (qden (coef t)))))
  then str_of_Z (Z.quot (qnum (coef t)) (Zpos (qden (coef t))))
  else str_of_q (coef t).
(** _operand.py 742-750 [_format_exponent] with no style *)
Definition format_exponent (t : operand) : str :=
  if str_eqb (base t) (s "1") || qc_eqb (expo t) 1 then []
  else "^"%char :: str_of_q (expo t).
(** _operand.py 696-722 [Term.format] with no style *)
Definition format_term (t : operand) : str :=
  if str_eqb (base t) (s "1") then format_coefficient t
  else format_coefficient t ++ base t ++ format_exponent t.

Fixpoint join (sep : str) (l : list str) : str :=
  match l with
  | [] => []
  | [x] => x
  | x :: l' => x ++ sep ++ join sep l'
  end.

(** _expression.py 67-80 [Expression.format]: the default [str(expression)] *)
Definition format_expression (ts : list operand) : str := join (s " ") (map format_term ts).

(** _expression.py 386-394 [_init_terms]: parse, then reduce *)
Definition init_terms (x : str) : result (list operand) :=
  ts <- parse x ;; reduce ts.

(** _expression.py 336-383 [expression_factory] on a string ([standard]
    returns it unchanged; the empty string is null, hence an empty expression) *)
Definition expression_of_str (x : str) : result (list operand) :=
  match x with [] => Ok [] | _ => init_terms x end.

(** _expression.py 336-383 [expression_factory] on a list of terms:
    every part is printed in parentheses, joined with ['*'], and parsed again *)
Definition standard_terms (ts : list operand) : str :=
  join (s "*") (map (fun t => "("%char :: format_term t ++ [")"%char]) ts).
Definition expression_of_terms (ts : list operand) : result (list operand) :=
  expression_of_str (standard_terms ts).

(** ** The algebra of expressions (lists of reduced terms) *)

(** _expression.py 179-190 [Expression.__mul__] *)
Definition emul (a b : list operand) : result (list operand) :=
  match b with
  | [] => Raise NotImplementedResult
  | _ => r <- reduce (a ++ b) ;; expression_of_terms r
  end.

(** _expression.py 196-207 [Expression.__truediv__]; [-1] is an exact power *)
Definition ediv (a b : list operand) : result (list operand) :=
  match b with
  | [] => Raise NotImplementedResult
  | _ => b' <- mapM (fun t => op_pow t (zq (-1))) b ;;
         r <- reduce (a ++ b') ;; expression_of_terms r
  end.

(** _expression.py 213-224 [Expression.__pow__]: the power becomes a float *)
Definition epow (a : list operand) (p : Qc) : result (list operand) :=
  let p := fl p in
  if qc_eqb p 0 then Raise NotImplementedResult
  else ts <- mapM (fun t => op_powf t p) a ;;
       r <- reduce ts ;; expression_of_terms r.

(** _operand.py 96-105 [Operand.__eq__]: equal base, equal doubles *)
Definition operand_eqb (a b : operand) : bool :=
  str_eqb (base a) (base b)
  && qc_eqb (fl (expo a)) (fl (expo b)) && qc_eqb (fl (coef a)) (fl (coef b)).

(** _expression.py 158-177 [Expression.__eq__]: compare sorted by
    (base, exponent, coefficient) *)
Definition key_lt (a b : operand) : bool :=
  if str_ltb (base a) (base b) then true
  else if str_eqb (base a) (base b) then
    if qc_ltb (expo a) (expo b) then true
    else if qc_eqb (expo a) (expo b) then qc_ltb (coef a) (coef b) else false
  else false.
Fixpoint list_eqb {A} (eqb : A -> A -> bool) (a b : list A) : bool :=
  match a, b with
  | [], [] => true
  | x :: a', y :: b' => eqb x y && list_eqb eqb a' b'
  | _, _ => false
  end.
Definition eeq (a b : list operand) : bool :=
  Nat.eqb (length a) (length b)
  && list_eqb operand_eqb (sort_by key_lt a) (sort_by key_lt b).

End Floats.
