(** * Model of the unit-conversion code (metric/_conversions.py) and of named
    units (metric/_defined.py).

    Paths are relative to /repo/src/eprempy.  Numerical factors are elements of
    a set with multiplication, inverse and rational powers ([scales]) instead of
    doubles: rounding, underflow and overflow are not modelled.  No factor is
    zero, so the truth tests on factors in the source ([if factor := ...]) only
    ask whether a factor was found.  Tables are parameters of the model; the
    actual tables are in MetricTables.v.  Instances of [NamedUnit] are pure
    lookups here; their cache is modelled in UnitModel.v. *)
From Verif Require Import PyBase SymbolicModel ContainerModel.

(** exact factors *)
Record scales := mkscales {
  num : Type;
  one : num;
  mul : num -> num -> num;
  inv : num -> num;
  pw : num -> Qc -> num;      (* [x ** q] *)
  ten : num }.                (* the number 10 *)
Arguments one {s}. Arguments mul {s}. Arguments inv {s}. Arguments pw {s}. Arguments ten {s}.

(** _defined.py 177-190 [Prefix], [BaseUnit]; the factor of a prefix is a power
    of ten, given by its exponent *)
Record nunit := mknunit {
  p_sym : str; p_name : str; p_exp : Z;
  b_sym : str; b_name : str; b_quantity : str }.
(** _defined.py 220-223: full name and symbol *)
Definition n_name (n : nunit) : str := p_name n ++ b_name n.
Definition n_symbol (n : nunit) : str := p_sym n ++ b_sym n.
Definition same_prefix (a b : nunit) : bool :=
  str_eqb (p_sym a) (p_sym b) && str_eqb (p_name a) (p_name b) && Z.eqb (p_exp a) (p_exp b).
Definition same_base (a b : nunit) : bool :=
  str_eqb (b_sym a) (b_sym b) && str_eqb (b_name a) (b_name b) && str_eqb (b_quantity a) (b_quantity b).
(** _defined.py 634-639 [NamedUnit.__eq__] *)
Definition nunit_eq (a b : nunit) : bool := same_prefix a b && same_base a b.

Definition UnitParsingError : exn := OtherError "UnitParsingError".
Definition UnitConversionError : exn := OtherError "UnitConversionError".
Definition SystemAmbiguityError : exn := OtherError "SystemAmbiguityError".

(** 'mks' and 'cgs' *)
Inductive system := Mks | Cgs.
Definition system_eqb (a b : system) : bool :=
  match a, b with Mks, Mks | Cgs, Cgs => true | _, _ => false end.

Section Metric.
(** Python's [float ** float] (SymbolicModel.v) *)
Variable libm : Qc -> Qc -> option Qc.
Variable S : scales.
(** _reference.NAMED_UNITS *)
Variable named : str -> option nunit.
(** container.Graph([_CONVERSIONS]).connections: both directions of every entry *)
Variable conv : list ((str * str) * num S).
(** the iteration order of the set [CONVERSIONS.nodes] *)
Variable node_order : list str.
(** the iteration order of the set [SYSTEMS] *)
Variable sys_order : list system.
(** _defined.CANONICAL['units'][system][quantity] and
    _defined.DIMENSIONS[quantity][system]; [None]: KeyError *)
Variable qunit : str -> system -> option str.
Variable qdim : str -> system -> option str.

(** ** Named units *)

(** _defined.py 234-268 [identify] *)
Definition identify (x : str) : result nunit :=
  match named x with Some n => Ok n | None => Raise UnitParsingError end.
(** _defined.py 717-770 [ratio] of two named units *)
Definition ratio (a b : nunit) : result (num S) :=
  if nunit_eq b a then Ok one
  else if negb (same_base b a) then Raise ValueError
  else Ok (mul (pw ten (zq (p_exp a))) (inv (pw ten (zq (p_exp b))))).

(** ** The conversion graph *)
Fixpoint conv_get (c : list ((str * str) * num S)) (e : str * str) : option (num S) :=
  match c with
  | [] => None
  | (e', w) :: c' => if edge_eqb e' e then Some w else conv_get c' e
  end.
(** container.py 380-383 [Graph.nodes] *)
Definition conv_nodes : list str := flat_map (fun e => [fst (fst e); snd (fst e)]) conv.
(** container.py 385-404 [Graph.get_adjacencies] *)
Definition adjacencies (u : str) : list (str * num S) :=
  map (fun e => (snd (fst e), snd e)) (filter (fun e => str_eqb (fst (fst e)) u) conv).

(** ** Conversions of strings *)

(** _conversions.py 272-281 [_get_aliases_of] *)
Definition aliases_of (u : str) : list str :=
  match named u with Some n => [u; n_symbol n; n_name n] | None => [u] end.
Fixpoint first_some {A B} (f : A -> option B) (l : list A) : option B :=
  match l with [] => None | x :: l' => match f x with Some y => Some y | None => first_some f l' end end.
(** _conversions.py 254-269 [_search] *)
Definition search (u0 u1 : str) : option (num S) :=
  match conv_get conv (u0, u1) with
  | Some w => Some w
  | None => first_some (fun ux => first_some (fun uy => conv_get conv (ux, uy)) (aliases_of u1)) (aliases_of u0)
  end.
(** _conversions.py 180-201 [_simple_conversion] (the argument [scale] is 1.0 in
    every call) *)
Definition simple_conversion (u0 u1 : str) : option (num S) :=
  if str_eqb u0 u1 then Some one
  else match search u0 u1 with
       | Some w => Some w
       | None => match named u0, named u1 with
                 | Some n0, Some n1 => match ratio n0 n1 with Ok r => Some r | Raise _ => None end
                 | _, _ => None
                 end
       end.
(** _conversions.py 229-251 [_rescale]; [nx << n0] is the ratio of n0 to nx *)
Definition rescale (u0 u1 : str) : option (num S) :=
  match named u0 with
  | None => None
  | Some n0 => first_some (fun ux =>
      match named ux with
      | None => None
      | Some nx => if same_base nx n0
                   then match search ux u1, ratio n0 nx with
                        | Some found, Ok r => Some (mul r found)
                        | _, _ => None
                        end
                   else None
      end) node_order
  end.
(** _conversions.py 204-226 [_rescale_conversion] *)
Definition rescale_conversion (u0 u1 : str) : option (num S) :=
  match (if mem str_eqb u0 conv_nodes then None else rescale u0 u1) with
  | Some w => Some w
  | None => match (if mem str_eqb u1 conv_nodes then None else rescale u1 u0) with
            | Some w => Some (inv w)
            | None => None
            end
  end.
(** _conversions.py 143-160 [_standard_conversion] *)
Definition standard_conversion (u0 u1 : str) : option (num S) :=
  match simple_conversion u0 u1 with Some w => Some w | None => rescale_conversion u0 u1 end.

(** _conversions.py 126-140 [_recursive_conversion]: the list [checked] is
    shared by all calls of one search, hence returned *)
Fixpoint recursive_conversion (fuel : nat) (checked : list str) (u0 u1 : str) : result (list str * option (num S)) :=
  match fuel with
  | O => Raise OutOfFuel
  | Datatypes.S fuel' =>
      if mem str_eqb u0 checked then Ok (checked, None)
      else
        let checked := checked ++ [u0] in
        match standard_conversion u0 u1 with
        | Some w => Ok (checked, Some w)
        | None =>
            (fix loop (checked : list str) (adj : list (str * num S)) : result (list str * option (num S)) :=
               match adj with
               | [] => Ok (checked, None)
               | (unit, weight) :: adj' =>
                   cr <- recursive_conversion fuel' checked unit u1 ;;
                   match snd cr with
                   | Some value => Ok (fst cr, Some (mul weight value))
                   | None => loop (fst cr) adj'
                   end
               end) checked (adjacencies u0)
        end
  end.
(** _conversions.py 117-123 [_convert_as_strings] *)
Definition convert_as_strings (u0 u1 : str) : result (option (num S)) :=
  cr <- recursive_conversion (2 + length conv_nodes) [] u0 u1 ;; Ok (snd cr).

(** ** Metric systems of named units (_defined.py) *)

(** 618-625 [is_fundamental_in] *)
Definition is_fundamental_in (n : nunit) (y : system) : result bool :=
  match qunit (b_quantity n) y with
  | None => Raise KeyError
  | Some c => Ok (str_eqb (n_symbol n) c || str_eqb (n_name n) c)
  end.
(** 608-616 [is_defined_in] *)
Definition is_defined_in (n : nunit) (y : system) : result bool :=
  f <- is_fundamental_in n y ;;
  if f then Ok true
  else match qunit (b_quantity n) y with
       | None => Raise KeyError
       | Some c => Ok (match named c with Some r => same_base n r | None => false end)
       end.
(** 588-606 [is_allowed_in] *)
Definition is_allowed_in (n : nunit) (y : system) : result bool :=
  m <- is_defined_in n Mks ;; c <- is_defined_in n Cgs ;;
  Ok (if m || c then (if system_eqb y Mks then m else c) else true).
(** a dimension in one system: an expression, or [None] *)
Definition dimexpr := option (list operand).
(** [symbolic.expression(v) or None] *)
Definition dim_of_str (v : option str) : result dimexpr :=
  match v with
  | None => Ok None
  | Some x => e <- expression_of_str libm x ;; Ok (match e with [] => None | _ => Some e end)
  end.
(** 549-586 [dimensions], [_get_dimensions] *)
Definition nu_dimensions (n : nunit) : result (system -> dimexpr) :=
  m <- is_defined_in n Mks ;; c <- is_defined_in n Cgs ;;
  match qdim (b_quantity n) Mks, qdim (b_quantity n) Cgs with
  | Some dm, Some dc =>
      em <- dim_of_str (if negb m && c then None else Some dm) ;;
      ec <- dim_of_str (if m && negb c then None else Some dc) ;;
      Ok (fun y => match y with Mks => em | Cgs => ec end)
  | _, _ => Raise KeyError
  end.
Definition dim_eq (a b : dimexpr) : bool :=
  match a, b with Some a, Some b => eeq a b | None, None => true | _, _ => false end.
(** 487-506 [_resolve_system] with no argument *)
Definition resolve_system (n : nunit) : result system :=
  m <- is_fundamental_in n Mks ;; c <- is_fundamental_in n Cgs ;;
  if m && negb c then Ok Mks
  else if c && negb m then Ok Cgs
  else d <- nu_dimensions n ;;
       if dim_eq (d Mks) (d Cgs) then Ok Mks
       else match d Mks, d Cgs with
            | None, _ => Ok Cgs
            | _, None => Ok Mks
            | _, _ => Raise SystemAmbiguityError
            end.
(** _reference.py 353-364 [_BASE_QUANTITIES].find(symbol, unique=True)['name'] *)
Definition base_quantity (d : str) : result str :=
  if str_eqb d (s "1") then Ok (s "identity")
  else if str_eqb d (s "N") then Ok (s "amount")
  else if str_eqb d (s "I") then Ok (s "current")
  else if str_eqb d (s "L") then Ok (s "length")
  else if str_eqb d (s "J") then Ok (s "luminous intensity")
  else if str_eqb d (s "M") then Ok (s "mass")
  else if str_eqb d (s "H") then Ok (s "temperature")
  else if str_eqb d (s "T") then Ok (s "time")
  else Raise ValueError.
(** the terms of the base units of a dimension (465-477, 533-545) *)
Definition base_terms (y : system) (d : list operand) : result (list operand) :=
  mapM (fun t => q <- base_quantity (base t) ;;
                 match qunit q y with
                 | None => Raise KeyError
                 | Some u => term_factory 1%Qc (Some u) (expo t)
                 end) d.
(** 508-547 [_reduce] and 476-485 [reduce] with no argument: scale exponent and
    terms ([Reduction.units] drops the base '1', 289-297); [None] if the unit
    is not defined in the system *)
Definition nu_reduce (n : nunit) : result (option (Z * list operand)) :=
  y <- resolve_system n ;;
  def <- is_defined_in n y ;;
  if negb def then Ok None
  else d <- nu_dimensions n ;;
       match d y with
       | None => Raise TypeError
       | Some e =>
           if Nat.eqb (length e) 1 then
             match qunit (b_quantity n) y with
             | None => Raise KeyError
             | Some c =>
                 if str_eqb (n_symbol n) c
                 then t <- term_factory 1%Qc (Some (n_symbol n)) 1%Qc ;; Ok (Some (0%Z, [t]))
                 else t <- term_factory 1%Qc (Some c) 1%Qc ;;
                      nc <- identify c ;;
                      if nunit_eq nc n then Ok (Some (0%Z, [t]))
                      else if negb (same_base nc n) then Raise ValueError
                      else Ok (Some ((p_exp n - p_exp nc)%Z, [t]))
             end
           else ts <- base_terms y e ;; Ok (Some (p_exp n, ts))
       end.

(** ** Conversions of expressions *)

Definition is_unity (b : str) : bool := str_eqb b (s "#") || str_eqb b (s "1").

(** Python [list.remove] *)
Fixpoint list_remove (t : operand) (l : list operand) : result (list operand) :=
  match l with
  | [] => Raise ValueError
  | x :: l' => if operand_eqb x t then Ok l' else r <- list_remove t l' ;; Ok (x :: r)
  end.
Definition tmem (t : operand) (l : list operand) : bool := existsb (fun x => operand_eqb x t) l.

(** _conversions.py 394-398: all dimensions of the named unit are '1' *)
Definition dimensionless_unit (u : str) : result bool :=
  n <- identify u ;; d <- nu_dimensions n ;;
  Ok (dim_eq (d Mks) (Some [mk_operand true 1%Qc (s "1") 1%Qc]) && dim_eq (d Cgs) (Some [mk_operand true 1%Qc (s "1") 1%Qc])).
Definition inverse_powers (t : operand) (l : list operand) : list operand :=
  filter (fun x => negb (operand_eqb x t) && qc_eqb (expo x) (- expo t)%Qc) l.
Fixpoint first_conversion (u0 : str) (e : Qc) (l : list operand) : result (option (num S * operand)) :=
  match l with
  | [] => Ok None
  | t :: l' => c <- convert_as_strings u0 (base t) ;;
               match c with
               | Some f => Ok (Some (pw f e, t))
               | None => first_conversion u0 e l'
               end
  end.
(** _conversions.py 380-408 [_match_exponents] *)
Definition match_exponents (t : operand) (l : list operand) : result (option (num S * operand)) :=
  dl <- dimensionless_unit (base t) ;;
  if dl then Ok (Some (one, t))
  else first_conversion (base t) (expo t) (inverse_powers t l).

(** _conversions.py 348-372 [_resolve_terms] *)
Fixpoint resolve_loop (todo matched unmatched : list operand) (factor : num S) : result (option (num S)) :=
  match todo with
  | [] => Ok (match unmatched with [] => Some factor | _ => None end)
  | t :: todo' =>
      if tmem t matched then resolve_loop todo' matched unmatched factor
      else m <- match_exponents t unmatched ;;
           match m with
           | None => resolve_loop todo' matched unmatched factor
           | Some (value, x) =>
               if operand_eqb x t
               then u <- list_remove t unmatched ;; resolve_loop todo' (matched ++ [t]) u (mul factor value)
               else u <- list_remove t unmatched ;; u <- list_remove x u ;;
                    resolve_loop todo' (matched ++ [t; x]) u (mul factor value)
           end
  end.
Definition resolve_terms (ts : list operand) : result (option (num S)) :=
  if Nat.leb (length ts) 1 then Ok None else resolve_loop ts [] ts one.

(** [reduction.scale ** exponent]: a float raised to a [Fraction]; integral
    powers are taken as correctly rounded *)
Definition scale_power (k : Z) (e : Qc) : result Qc :=
  let c := fl (qpowz (zq 10) k) in
  if q_isint e then Ok (fl (qpowz c (qnum e))) else float_pow libm c (fl e).
(** _conversions.py 316-326 [_reduce_unit] *)
Definition reduce_unit (u : str) (e : Qc) : result (option (list operand)) :=
  n <- identify u ;; r <- nu_reduce n ;;
  match r with
  | None => Ok None
  | Some (k, ts) =>
      l <- mapM (fun t => c <- scale_power k e ;;
                          term_factory c (Some (base t)) (e * expo t)%Qc)
                (filter (fun t => negb (str_eqb (base t) (s "1"))) ts) ;;
      Ok (match l with [] => None | _ => Some l end)
  end.
(** _conversions.py 304-313 [_decompose_unit] *)
Fixpoint decompose_norms (n : nunit) (u : str) (e : Qc) (ys : list system) : result (option (num S * list operand)) :=
  match ys with
  | [] => Ok None
  | y :: ys' =>
      match qunit (b_quantity n) Mks, qunit (b_quantity n) Cgs with
      | Some cm, Some cc =>
          nm <- identify cm ;; nc <- identify cc ;;       (* [NamedUnit.norm], 384-396 *)
          let v := n_symbol (match y with Mks => nm | Cgs => nc end) in
          r <- reduce_unit v e ;;
          match r with
          | None => decompose_norms n u e ys'
          | Some l => c <- convert_as_strings u v ;;
                      match c with
                      | Some f => Ok (Some (pw f e, l))
                      | None => decompose_norms n u e ys'
                      end
          end
      | _, _ => Raise KeyError
      end
  end.
Definition decompose_unit (t : operand) : result (option (num S * list operand)) :=
  r <- reduce_unit (base t) (expo t) ;;
  match r with
  | Some l => Ok (Some (one, l))
  | None => n <- identify (base t) ;; decompose_norms n (base t) (expo t) sys_order
  end.
(** _conversions.py 329-345 [_cancel_terms] *)
Fixpoint cancel_inner (t : operand) (inverses matched unmatched : list operand) : result (list operand * list operand) :=
  match inverses with
  | [] => Ok (matched, unmatched)
  | x :: l => if str_eqb (base x) (base t)
              then u <- list_remove t unmatched ;; u <- list_remove x u ;; cancel_inner t l (matched ++ [t; x]) u
              else cancel_inner t l matched unmatched
  end.
Fixpoint cancel_loop (all todo matched unmatched : list operand) : result (list operand) :=
  match todo with
  | [] => Ok unmatched
  | t :: todo' =>
      if tmem t matched then cancel_loop all todo' matched unmatched
      else mu <- cancel_inner t (inverse_powers t all) matched unmatched ;;
           cancel_loop all todo' (fst mu) (snd mu)
  end.
Definition cancel_terms (ts : list operand) : result (list operand) := cancel_loop ts ts [] ts.
(** _conversions.py 284-301 [_convert_by_dimensions] *)
Fixpoint decompose_all (ts : list operand) (factor : num S) (acc : list operand) : result (num S * list operand) :=
  match ts with
  | [] => Ok (factor, acc)
  | t :: ts' => d <- decompose_unit t ;;
                match d with
                | Some (scale, units) => decompose_all ts' (mul factor scale) (acc ++ units)
                | None => decompose_all ts' factor acc
                end
  end.
Definition convert_by_dimensions (ts : list operand) : result (option (num S)) :=
  fd <- decompose_all ts one [] ;;
  let (factor, decomposed) := (fd : num S * list operand) in
  e <- expression_of_terms libm decomposed ;;
  unit1 <- expression_of_str libm (s "1") ;;
  if eeq e unit1 then Ok (Some factor)
  else cancelled <- cancel_terms decomposed ;;
       reduced <- expression_of_terms libm cancelled ;;
       r <- resolve_terms reduced ;;
       Ok (match r with Some f => Some (mul factor f) | None => None end).
(** _conversions.py 163-177 [_convert_as_expressions] *)
Definition convert_as_expressions (u0 u1 : str) : result (option (num S)) :=
  e0 <- expression_of_str libm u0 ;; e1 <- expression_of_str libm u1 ;;
  if eeq e0 e1 then Ok (Some one)
  else q <- ediv libm e0 e1 ;;
       let terms := filter (fun t => negb (is_unity (base t))) q in
       r <- resolve_terms terms ;;
       match r with
       | Some f => Ok (Some f)
       | None => convert_by_dimensions terms
       end.
(** _conversions.py 104-114 [_convert] *)
Definition convert (u0 u1 : str) : result (num S) :=
  c <- convert_as_strings u0 u1 ;;
  match c with
  | Some f => Ok f
  | None => c <- convert_as_expressions u0 u1 ;;
            match c with Some f => Ok f | None => Raise UnitConversionError end
  end.

(** ** The module-level cache (_conversions.py 64-101) *)
Definition ccache := list ((str * str) * num S).
Definition cache_set (k : ccache) (e : str * str) (w : num S) : ccache :=
  (e, w) :: filter (fun x => negb (edge_eqb (fst x) e)) k.
(** [conversion_factory]: stores the conversion and its inverse; the result is
    the factor of the returned [Conversion] *)
Definition conversion_factory (k : ccache) (u0 u1 : str) : ccache * result (num S) :=
  match conv_get k (u0, u1) with
  | Some f => (k, Ok f)
  | None => match convert u0 u1 with
            | Ok f => (cache_set (cache_set k (u0, u1) f) (u1, u0) (inv f), Ok f)
            | Raise e => (k, Raise e)
            end
  end.
Fixpoint conversion_history (k : ccache) (requests : list (str * str)) : ccache :=
  match requests with
  | [] => k
  | (u0, u1) :: l => conversion_history (fst (conversion_factory k u0 u1)) l
  end.
End Metric.
