(** Properties C25, C60: measurable input. *)
From Verif Require Import PyBase PyLemmas QuantityModel QuantitySpec QuantityProofs.
From Coq Require Import Lia.

(** A concrete reading of numbers: strings of digits are numbers. *)
Definition ex_float (t : str) : option Z :=
  match t with
  | [] => None
  | _ => if forallb is_digit t then Some (Z.of_N (N_of_str t)) else None
  end.
Definition ex_none (_ : item Z) : option exn := None.
Notation ex_parse := (parse Z Ok ex_float ex_none).
Notation ex_measures := (measures Z Ok ex_float ex_none).
Definition num (z : Z) : item Z := Num z.

(** ** C25 *)

(** Input that consists of numbers with a unit, in any of the documented forms
    and at any depth of nesting, gives exactly these numbers and this unit. *)
Theorem C25_values_and_unit_kept : forall A to_float float_str compare_one x vs t,
  measures A to_float float_str compare_one x vs t ->
  parse A to_float float_str compare_one x = Ok (map Num vs, t).
Proof. exact parse_measures. Qed.
Print Assumptions C25_values_and_unit_kept.

(** Conversely, regular input is accepted only if it is in one of these forms. *)
Theorem C25_nothing_else_accepted_partial : forall A to_float float_str compare_one,
  (forall a, to_float a <> Raise ValueError) ->
  forall x ys t, regular A x -> parse A to_float float_str compare_one x = Ok (ys, t) ->
  exists vs, ys = map Num vs /\ measures A to_float float_str compare_one x vs t.
Proof. exact parse_sound. Qed.
Print Assumptions C25_nothing_else_accepted_partial.

(** Lists with different units are rejected. *)
Theorem C25_mixed_units_rejected : forall A to_float float_str compare_one xs vss ts,
  2 <= length xs -> (forall x, In x xs -> exists l, x = Seq l) ->
  Forall2 (fun x p => measures A to_float float_str compare_one x (fst p) (snd p)) xs (List.combine vss ts) ->
  length vss = length ts -> (exists t t', In t ts /\ In t' ts /\ t <> t') ->
  parse A to_float float_str compare_one (Seq xs) = Raise ParsingValueError.
Proof. exact parse_mixed. Qed.
Print Assumptions C25_mixed_units_rejected.

(** Null input is rejected, however deeply it is wrapped. *)
Fixpoint wrapped {A} (n : nat) (x : item A) : item A := match n with 0 => x | S n => Seq [wrapped n x] end.
Theorem C25_null_rejected : forall A to_float float_str compare_one n,
  parse A to_float float_str compare_one (wrapped n (Seq [])) = Raise ParsingValueError
  /\ parse A to_float float_str compare_one (wrapped n (Str [])) = Raise ParsingValueError
  /\ parse A to_float float_str compare_one (wrapped n (Range [])) = Raise ParsingValueError
  /\ parse A to_float float_str compare_one (wrapped n Nothing) = Raise ParsingTypeError.
Proof. intros A tf fs co n. induction n as [|n IH]; [repeat split; reflexivity|]. exact IH. Qed.
Print Assumptions C25_null_rejected.

(** With [distribute=True] each value comes with the unit. *)
Theorem C25_distribute_partial : forall A to_float float_str compare_one x vs t,
  plain A x -> measures A to_float float_str compare_one x vs t ->
  parse_pairs A to_float float_str compare_one x = Ok (map (fun v => Pair A (Num v) t) vs).
Proof. exact pairs_measures. Qed.
Print Assumptions C25_distribute_partial.

(** Measuring arguments makes a measurement of exactly the values and the unit. *)
Theorem C25_measure : forall A to_float float_str compare_one M (make : list (item A) -> str -> result M) args vs t,
  measures A to_float float_str compare_one (Seq args) vs t ->
  measure A to_float float_str compare_one make args = make (map Num vs) t.
Proof.
  intros A tf fs co M make args vs t H. unfold measure. destruct args as [|x args].
  - pose proof (parse_measures _ _ _ _ _ _ _ H). discriminate.
  - now rewrite (parse_measures _ _ _ _ _ _ _ H).
Qed.
Print Assumptions C25_measure.

(** Where the property fails: values after a leading list are dropped. *)
Theorem C25_values_dropped_refuted :
  ex_parse (Seq [Seq [num 1; num 2]; Seq [num 3; num 4]; Str (s "m")]) = Ok ([num 1; num 2], s "m").
Proof. reflexivity. Qed.
(** - ... what is in a leading list need not be numbers; *)
Theorem C25_not_numbers_refuted :
  ex_parse (Seq [Seq [Str (s "a"); Nothing]; Str (s "m")]) = Ok ([Str (s "a"); Nothing], s "m").
Proof. reflexivity. Qed.
(** - ... one numerical string after numbers is taken for the unit, two are not; *)
Theorem C25_numerical_string_refuted :
  ex_parse (Seq [num 1; Str (s "2")]) = Ok ([num 1], s "2")
  /\ ex_parse (Seq [Str (s "1"); Str (s "2")]) = Ok ([num 1; num 2], s "1").
Proof. split; reflexivity. Qed.
(** - ... equal units that are written differently count as different; *)
Theorem C25_spelling_refuted :
  ex_parse (Seq [Seq [num 1; Str (s "m/s")]; Seq [num 2; Str (s "m s^-1")]]) = Raise ParsingValueError.
Proof. reflexivity. Qed.
(** - ... [distribute] is lost when there are numerical strings; *)
Theorem C25_distribute_lost_refuted :
  parse_pairs Z Ok ex_float ex_none (Seq [Str (s "1"); Str (s "m")]) = Ok [Value Z (num 1); Unit Z (s "m")].
Proof. reflexivity. Qed.
(** - ... and [distribute] accepts mixed units. *)
Theorem C25_distribute_mixed_refuted :
  parse_pairs Z Ok ex_float ex_none (Seq [Seq [num 1; Str (s "m")]; Seq [num 2; Str (s "s")]])
  = Ok [Pair Z (num 1) (s "m"); Pair Z (num 2) (s "s")].
Proof. reflexivity. Qed.
Print Assumptions C25_values_dropped_refuted.

(** Two nested lists with a common unit, one of them with strings. *)
Definition ex_item : item Z :=
  Seq [Seq [Seq [Seq [num 1; num 2]; Uni (s "m")]]; Seq [Str (s "3"); num 4; Str (s "m")]].
Example ex_item_measures : ex_measures ex_item [1; 2; 3; 4]%Z (s "m").
Proof.
  apply (M_many _ _ _ _ _ [[1; 2]; [3; 4]]%Z); [cbn; lia| |].
  - intros x [<-|[<-|[]]]; eauto.
  - constructor; [|constructor; [|constructor]].
    + apply M_wrapped. apply (M_list_unit _ _ _ _ [1; 2]%Z). split; [now right|now right].
    + apply (M_strings_unit _ _ _ _ [Str (s "3"); num 4]).
      * constructor; [right; exists (s "3"); now split|]. constructor; [left; exists 4%Z; now split|constructor].
      * exists (s "3"). now left.
      * reflexivity.
      * split; [now left|now right].
Qed.
Example C25_example : ex_parse ex_item = Ok ([num 1; num 2; num 3; num 4], s "m")
  /\ regular Z ex_item /\ ex_parse (Seq [ex_item; Seq [num 5; Str (s "s")]]) = Raise ParsingValueError.
Proof.
  split; [exact (C25_values_and_unit_kept _ _ _ _ _ _ _ ex_item_measures)|]. split; [|reflexivity].
  assert (forall l : list (item Z), (forall x, In x l -> forall k, x <> Seq k /\ forall r, x <> Range r) -> headed Z l) as Hno.
  { intros l H h m u -> _. split; intros vs ->.
    - destruct (H _ (or_introl eq_refl) vs) as [A _]. now destruct A.
    - destruct (H _ (or_introl eq_refl) []) as [_ B]. now destruct (B vs). }
  assert (forall l : list (item Z), l <> [] -> (forall x, In x l -> exists k, x = Seq k) -> headed Z l) as Hall.
  { intros l N H h m u -> (t & Ht). exfalso. destruct (H u) as [k Hk]; [right; apply in_or_app; right; now left|]. destruct Ht; congruence. }
  assert (regular Z (Seq [num 1; num 2])) as R1.
  { apply R_seq; [apply Hno; intros x [<-|[<-|[]]] k; split; discriminate|].
    intros H. destruct (H (num 1) (or_introl eq_refl)). discriminate. }
  apply R_seq.
  - apply Hall; [discriminate|]. intros x [<-|[<-|[]]]; eauto.
  - intros _. constructor; [|constructor; [|constructor]].
    + apply R_seq; [apply Hall; [discriminate|]; intros x [<-|[]]; eauto|]. intros _. constructor; [|constructor].
      apply R_seq.
      * intros h m u E _. destruct m as [|? [|]]; try discriminate.
        injection E as <- <-. split; intros vs Q; [|discriminate]. injection Q as <-. split; [reflexivity|].
        intros v [<-|[<-|[]]]; eexists; reflexivity.
      * intros H. destruct (H (Uni (s "m"))) as [k Hk]; [right; now left|discriminate].
    + apply R_seq; [apply Hno; intros x [<-|[<-|[<-|[]]]] k; split; discriminate|].
      intros H. destruct (H (num 4)) as [k Hk]; [right; now left|discriminate].
Qed.

(** ** C60: asking whether input is measurable *)

(** Input without numerical strings that has a meaning is measurable. *)
Theorem C60_meaningful_is_measurable_partial : forall A to_float float_str compare_one x vs t,
  plain A x -> measures A to_float float_str compare_one x vs t -> is_measurable A x = true.
Proof.
  intros A tf fs co x vs t Pl M. unfold is_measurable. rewrite (args_complete A tf fs co x vs t Pl M), andb_comm. cbn [andb].
  destruct x as [| [|]| | | | [|] | [|]]; try reflexivity; apply (parse_measures A tf fs co) in M; discriminate.
Qed.
Print Assumptions C60_meaningful_is_measurable_partial.

(** Conversely, measuring measurable input without numerical strings succeeds or
    reports a bad value (mixed units, or empty lists inside), or comparing its
    unit with [1] raises. *)
Theorem C60_measurable_is_parsed_partial : forall A to_float float_str compare_one x,
  plain A x -> is_measurable A x = true ->
  (exists p, parse A to_float float_str compare_one x = Ok p)
  \/ parse A to_float float_str compare_one x = Raise ParsingValueError
  \/ exists u e, compare_one u = Some e /\ parse A to_float float_str compare_one x = Raise e.
Proof. intros A tf fs co x Pl H. apply args_sound; [exact Pl|]. unfold is_measurable in H. now apply andb_prop in H. Qed.
Print Assumptions C60_measurable_is_parsed_partial.

(** Where the property fails: an empty list within a list is measurable but
    cannot be measured; numerical strings can be measured but are not measurable;
    a leading list followed by two strings is measurable, but raises TypeError. *)
Theorem C60_empty_refuted : is_measurable Z (Seq [Seq []]) = true /\ ex_parse (Seq [Seq []]) = Raise ParsingValueError.
Proof. split; reflexivity. Qed.
Theorem C60_strings_refuted : is_measurable Z (Str (s "1")) = false /\ ex_parse (Str (s "1")) = Ok ([num 1], s "1").
Proof. split; reflexivity. Qed.
Theorem C60_type_error_refuted :
  is_measurable Z (Seq [Seq [num 1]; Str (s "s"); Str (s "m")]) = true
  /\ ex_parse (Seq [Seq [num 1]; Str (s "s"); Str (s "m")]) = Raise TypeError.
Proof. split; reflexivity. Qed.
Print Assumptions C60_type_error_refuted.

Example C60_example : plain Z (Seq [num 1; num 2; Str (s "m")]) /\ ex_measures (Seq [num 1; num 2; Str (s "m")]) [1; 2]%Z (s "m")
  /\ is_measurable Z (Seq [num 1; num 2; Str (s "m")]) = true.
Proof.
  split; [|split; [|reflexivity]].
  - apply P_seq; [intros x [<-|[<-|[]]] t; discriminate|]. intros [L|H]; [discriminate|]. destruct (H (num 1) (or_introl eq_refl)); discriminate.
  - apply (M_numbers_unit _ _ _ _ [1; 2]%Z); [discriminate|]. split; [now left|now right].
Qed.
