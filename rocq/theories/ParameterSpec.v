(** * Vocabulary of the properties of parameters (no eprempy code)

    Decimal numerals, and the arithmetic value of a definition. *)
From Verif Require Import PyBase SymbolicSpec ConfigSpec.
Local Open Scope Qc_scope.

(** ** decimal numerals *)
Record decimal := { d_sign : option bool;               (* true: minus *)
                    d_int : str; d_frac : option str;
                    d_exp : option (ascii * option bool * str) }.
Definition digits (x : str) : Prop := Forall (fun c => is_digit c = true) x.
Definition decimal_ok (d : decimal) : Prop :=
  digits (d_int d) /\ match d_frac d with Some f => digits f | None => True end /\
  (d_int d <> [] \/ exists f, d_frac d = Some f /\ f <> []) /\
  match d_exp d with Some (e, _, ds) => (e = "e"%char \/ e = "E"%char) /\ digits ds /\ ds <> [] | None => True end.
Definition sign_text (x : option bool) : str := match x with Some true => s "-" | Some false => s "+" | None => [] end.
Definition decimal_text (d : decimal) : str :=
  sign_text (d_sign d) ++ d_int d ++ match d_frac d with Some f => "."%char :: f | None => [] end ++
  match d_exp d with Some (e, sg, ds) => e :: sign_text sg ++ ds | None => [] end.
Definition nat_value (ds : str) : Z := Z.of_N (N_of_str ds).
Definition decimal_value (d : decimal) : Qc :=
  let m := zq (nat_value (d_int d)) +
           match d_frac d with Some f => mkq (nat_value f) (Z.to_pos (10 ^ Z.of_nat (length f))) | None => 0 end in
  let m := match d_exp d with
           | Some (_, Some true, ds) => m / zq (10 ^ nat_value ds)
           | Some (_, _, ds) => m * zq (10 ^ nat_value ds)
           | None => m
           end in
  match d_sign d with Some true => - m | _ => m end.
(** the text is a numeral for [q], perhaps between blanks *)
Definition numeral (x : str) (q : Qc) : Prop :=
  exists d, decimal_ok d /\ trimmed x (decimal_text d) /\ q = decimal_value d.
Definition integer_numeral (x : str) (q : Qc) : Prop :=
  exists d, decimal_ok d /\ d_frac d = None /\ d_exp d = None /\ trimmed x (decimal_text d) /\ q = decimal_value d.

(** ** products of powers, with values for the symbols *)
Fixpoint factor_value (v : str -> Qc) (f : factor) : Qc :=
  match f with
  | FVar b e => qpowz (v b) (qnum e)
  | FConst c => c
  | FGroup x e => qpowz (written_value v false x) (qnum e)
  end
with written_value (v : str -> Qc) (inv : bool) (x : written) : Qc :=
  match x with
  | WOne f => inverted inv (factor_value v f)
  | WMore f o r => inverted inv (factor_value v f) * written_value v (is_over o) r
  end.
Fixpoint factor_symbols (f : factor) : list str :=
  match f with FVar b _ => [b] | FConst _ => [] | FGroup x _ => written_symbols x end
with written_symbols (x : written) : list str :=
  match x with WOne f => factor_symbols f | WMore f _ r => factor_symbols f ++ written_symbols r end.
(** all exponents are integers *)
Fixpoint factor_integral (f : factor) : bool :=
  match f with FVar _ e => q_isint e | FConst _ => true | FGroup x e => q_isint e && written_integral x end
with written_integral (x : written) : bool :=
  match x with WOne f => factor_integral f | WMore f _ r => factor_integral f && written_integral r end.
(** the text, with "config." before the symbols that [pre] marks *)
Fixpoint member_factor (pre : str -> bool) (f : factor) : str :=
  match f with
  | FVar b e => (if pre b then s "config." ++ b else b) ++ power_text e
  | FConst c => str_of_q c
  | FGroup x e => "("%char :: member_text pre x ++ ")"%char :: power_text e
  end
with member_text (pre : str -> bool) (x : written) : str :=
  match x with
  | WOne f => member_factor pre f
  | WMore f o r => member_factor pre f ++ sep_text o ++ member_text pre r
  end.

(** ** the value of a definition *)
Inductive kind := KInt | KFloat | KString | KArray.
(** A parameter's name: word characters, no digit first. *)
Definition word_char (c : ascii) : bool := is_alpha c || is_digit c || Ascii.eqb c "_".
Definition name_ok (x : str) : Prop :=
  match x with [] => False | c :: _ => is_digit c = false end /\ Forall (fun c => word_char c = true) x.

Section Values.
(** constants: name, is it an integer?, text; parameters: name, kind, text *)
Variable constants : list (str * (bool * str)).
Variable parameters : list (str * (kind * str)).
(** a condition on numerals and sums that are parts of a definition *)
Variable fine : Qc -> Prop.

(** a numeral of the type declared for it *)
Definition literal (int : bool) (text : str) (q : Qc) : Prop := if int then integer_numeral text q else numeral text q.

Inductive constant_value : str -> Qc -> Prop :=
| CV_literal name int text q : In (name, (int, text)) constants -> literal int text q -> constant_value name q
| CV_product name int w v : In (name, (int, written_text w)) constants -> written_ok true w = true -> written_integral w = true ->
    In "*"%char (written_text w) \/ In "/"%char (written_text w) ->
    (forall b, In b (written_symbols w) -> constant_value b (v b)) -> (forall b, In b (written_symbols w) -> v b <> 0) ->
    constant_value name (written_value v false w).

Definition kind_int (k : kind) : option bool := match k with KInt => Some true | KFloat => Some false | _ => None end.
Inductive definition_value : str -> Qc -> Prop :=
| DV_numeral x q : numeral x q -> fine q -> definition_value x q
| DV_third : definition_value (s "third") (mkq 1 3)
| DV_literal name k i text q : In (name, (k, text)) parameters -> kind_int k = Some i -> literal i text q -> definition_value name q
| DV_definition name k i text q : In (name, (k, text)) parameters -> kind_int k = Some i -> (forall r, ~ numeral text r) ->
    definition_value text q -> definition_value name q
| DV_constant name q : ~ In name (map fst parameters) -> constant_value name q -> definition_value name q
| DV_member name q : name_ok name -> definition_value name q -> definition_value (s "config." ++ name) q
| DV_sum a b a' b' p q : ~ In "+"%char a -> ~ In "+"%char b -> trimmed a a' -> trimmed b b' ->
    (forall r, ~ numeral (a ++ "+"%char :: b) r) -> definition_value a' p -> definition_value b' q -> fine (p + q) ->
    definition_value (a ++ "+"%char :: b) (p + q)
| DV_difference a b a' b' p q : (forall c, In c a \/ In c b -> c <> "+"%char /\ c <> "-"%char) -> trimmed a a' -> trimmed b b' ->
    (forall r, ~ numeral (a ++ "-"%char :: b) r) -> definition_value a' p -> definition_value b' q -> fine (p - q) ->
    definition_value (a ++ "-"%char :: b) (p - q)
| DV_product w pre v : written_ok true w = true -> written_integral w = true ->
    In "*"%char (member_text pre w) \/ In "/"%char (member_text pre w) ->
    ~ In "+"%char (member_text pre w) -> ~ In "-"%char (member_text pre w) ->
    (forall b, In b (written_symbols w) -> definition_value b (v b)) -> (forall b, In b (written_symbols w) -> v b <> 0) ->
    definition_value (member_text pre w) (written_value v false w).
End Values.

(** The tables are usable: proper names, no duplicates, and none of the two
    names with a built-in meaning. *)
Definition tables_ok (constants : list (str * (bool * str))) (parameters : list (str * (kind * str))) : Prop :=
  NoDup (map fst constants) /\ NoDup (map fst parameters) /\
  Forall (fun c => name_ok (fst c)) constants /\ Forall (fun p => name_ok (fst p)) parameters /\
  ~ In (s "third") (map fst constants ++ map fst parameters) /\ ~ In (s "N_PROCS") (map fst constants ++ map fst parameters).
