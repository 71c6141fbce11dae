(** What symbolic expressions mean, independently of how the code reduces them.
    A list of terms denotes a monomial: a numeric coefficient and, for every
    symbol, a total exponent.  (The base "1" marks numeric constants.) *)
From Verif Require Import PyBase SymbolicModel.
From Coq Require Import Sorting.Sorted.

(** product of the coefficients *)
Definition mono_coef (ts : list operand) : Qc :=
  fold_right (fun t c => coef t * c)%Qc 1%Qc ts.

(** total exponent of the symbol [b] *)
Definition mono_expo (b : str) (ts : list operand) : Qc :=
  fold_right (fun t e => if str_eqb (base t) b then expo t + e else e)%Qc 0%Qc ts.

Definition one_base : str := s "1".

Definition same_monomial (ts us : list operand) : Prop :=
  mono_coef ts = mono_coef us /\
  forall b, b <> one_base -> mono_expo b ts = mono_expo b us.

(** Every object of class [Term] satisfies this: the constructor replaces zero
    coefficients and exponents, and the factory validates the base
    (see [term_factory_ok] in SymbolicProofs). *)
Definition term_ok (t : operand) : Prop :=
  isterm t = true /\ coef t <> 0%Qc /\ expo t <> 0%Qc /\ base_is_valid (base t) = true.

(** A constant term and a variable term. *)
Definition const_term (c : Qc) : operand :=
  {| coef := c; base := one_base; expo := 1%Qc; isterm := true |}.
Definition var_term (b : str) (e : Qc) : operand :=
  {| coef := 1%Qc; base := b; expo := e; isterm := true |}.

(** Sorted by falling exponent, then by rising symbol. *)
Definition before (a b : operand) : Prop :=
  (expo b < expo a)%Qc \/ (expo a = expo b /\ str_ltb (base a) (base b) = true).

(** Canonical expressions: at most one constant, in front; then variables with
    coefficient one, non-zero exponents, strictly sorted, no symbol twice. *)
Definition canonical (r : list operand) : Prop :=
  exists c vs,
    r = (match vs with
         | [] => [const_term c]
         | _ => if qc_eqb c 1 then vs else const_term c :: vs
         end) /\
    c <> 0%Qc /\
    Forall (fun t => exists b e, t = var_term b e /\ b <> one_base /\ e <> 0%Qc
                                 /\ base_is_valid b = true) vs /\
    StronglySorted before vs /\ NoDup (map base vs).

(** ** Meaning of written expressions

    A small grammar of written expressions, its text and its meaning.  The
    meaning is the usual one: juxtaposition and [*] multiply, [/] divides by the
    next factor only, parentheses group, [^] raises. *)

Inductive sep :=
| Blank (n : nat)           (* n+1 blanks: juxtaposition *)
| Times (n m : nat)         (* n blanks, "*", m blanks *)
| Over (n m : nat).         (* n blanks, "/", m blanks *)

Inductive factor :=
| FVar (b : str) (e : Qc)            (* symbol to a power *)
| FConst (c : Qc)                    (* number *)
| FGroup (x : written) (e : Qc)      (* ( ... )^e *)
with written :=
| WOne (f : factor)
| WMore (f : factor) (o : sep) (rest : written).

Definition blanks (n : nat) : str := repeat " "%char n.
Definition sep_text (o : sep) : str :=
  match o with
  | Blank n => blanks (S n)
  | Times n m => blanks n ++ "*"%char :: blanks m
  | Over n m => blanks n ++ "/"%char :: blanks m
  end.
Definition power_text (e : Qc) : str := if qc_eqb e 1 then [] else "^"%char :: str_of_q e.
Fixpoint factor_text (f : factor) : str :=
  match f with
  | FVar b e => b ++ power_text e
  | FConst c => str_of_q c
  | FGroup x e => "("%char :: written_text x ++ ")"%char :: power_text e
  end
with written_text (x : written) : str :=
  match x with
  | WOne f => factor_text f
  | WMore f o r => factor_text f ++ sep_text o ++ written_text r
  end.

(** exponent of the symbol [b] *)
Definition is_over (o : sep) : bool := match o with Over _ _ => true | _ => false end.
Definition signed (inv : bool) (q : Qc) : Qc := if inv then (- q)%Qc else q.
Fixpoint factor_expo (b : str) (f : factor) : Qc :=
  match f with
  | FVar b' e => if str_eqb b' b then e else 0%Qc
  | FConst _ => 0%Qc
  | FGroup x e => (e * written_expo b false x)%Qc
  end
with written_expo (b : str) (inv : bool) (x : written) : Qc :=
  match x with
  | WOne f => signed inv (factor_expo b f)
  | WMore f o r => (signed inv (factor_expo b f) + written_expo b (is_over o) r)%Qc
  end.

(** numeric coefficient (groups with numbers have integral powers, see below) *)
Definition inverted (inv : bool) (q : Qc) : Qc := if inv then Qcinv q else q.
Fixpoint factor_coef (f : factor) : Qc :=
  match f with
  | FVar _ _ => 1%Qc
  | FConst c => c
  | FGroup x e => qpowz (written_coef false x) (qnum e)
  end
with written_coef (inv : bool) (x : written) : Qc :=
  match x with
  | WOne f => inverted inv (factor_coef f)
  | WMore f o r => (inverted inv (factor_coef f) * written_coef (is_over o) r)%Qc
  end.

(** Symbols: letters, '#' or '_', then digits; not starting with "sqrt". *)
Definition is_symbol (b : str) : bool :=
  match b with
  | [] => false
  | c :: _ => is_basechar c &&
              (fix go (x : str) : bool :=
                 match x with
                 | [] => true
                 | c :: x' => if is_basechar c then go x' else forallb is_digit x
                 end) b
  end.
Definition sqrt_prefix (b : str) : bool := str_eqb (firstn 4 b) (s "sqrt").

(** Numbers the notation can carry: the denominator has one digit. *)
Definition short_den (q : Qc) : bool := Pos.leb (qden q) 9.

(** [o] may be followed by the text of [f]: a number directly after "/" would be
    read as a denominator. *)
Definition starts_number (f : factor) : bool :=
  match f with FConst _ => true | _ => false end.
Definition head_factor (x : written) : factor :=
  match x with WOne f => f | WMore f _ _ => f end.
Definition sep_ok (o : sep) (next : factor) : bool :=
  match o with Over 0 0 => negb (starts_number next) | _ => true end.

Fixpoint factor_ok (int : bool) (f : factor) : bool :=
  match f with
  | FVar b e => is_symbol b && negb (sqrt_prefix b) && negb (qc_eqb e 0) && short_den e
  | FConst c => negb (qc_eqb c 0) && short_den c && is_double c && (int || qc_eqb c 1)
  | FGroup x e => negb (qc_eqb e 0) && short_den e && written_ok (int && q_isint e) x
  end
with written_ok (int : bool) (x : written) : bool :=
  match x with
  | WOne f => factor_ok int f
  | WMore f o r => factor_ok int f && sep_ok o (head_factor r) && written_ok int r
  end.

(** Expressions whose numbers the notation can carry: symbols as above,
    exponents with one-digit denominators, and a coefficient that is exactly a
    double with a one-digit denominator. *)
Definition printable_term (t : operand) : bool :=
  if str_eqb (base t) one_base
  then negb (qc_eqb (coef t) 0) && short_den (coef t) && is_double (coef t)
  else is_symbol (base t) && negb (sqrt_prefix (base t)) && negb (qc_eqb (expo t) 0) && short_den (expo t).
Definition printable (r : list operand) : bool := forallb printable_term r.

(** [r] is the canonical product, quotient or power. *)
Definition is_product (r a b : list operand) : Prop :=
  canonical r /\ mono_coef r = (mono_coef a * mono_coef b)%Qc /\ forall x, x <> one_base -> mono_expo x r = (mono_expo x a + mono_expo x b)%Qc.
Definition is_quotient (r a b : list operand) : Prop :=
  canonical r /\ mono_coef r = (mono_coef a / mono_coef b)%Qc /\ forall x, x <> one_base -> mono_expo x r = (mono_expo x a - mono_expo x b)%Qc.
(** power of an expression without a numeric coefficient *)
Definition is_power (r a : list operand) (p : Qc) : Prop :=
  canonical r /\ mono_coef r = 1%Qc /\ forall x, x <> one_base -> mono_expo x r = (p * mono_expo x a)%Qc.
(** all exponents are exactly doubles, and stay so when multiplied by [p] *)
Definition exact_expos (p : Qc) (a : list operand) : bool :=
  forallb (fun t => is_double (expo t) && is_double (expo t * p)%Qc) a.
