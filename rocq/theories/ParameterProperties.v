(** * C34, C35, C64: parameter defaults and the runtime interface *)
From Verif Require Import PyBase PyLemmas ContainerModel ContainerProofs ContainerProofs2 SymbolicModel SymbolicSpec SymbolicProofs
  SymbolicParse ConfigModel ConfigSpec ConfigProofs ParameterModel ParameterSpec ParameterNumbers ParameterProducts ParameterProofs ParameterTables.
From Coq Require Import Lia.
Local Open Scope Qc_scope.

(** The model's tables for given definitions. *)
Definition texts_of (constants : list (str * (bool * str))) : list (str * str) := map (fun c => (fst c, snd (snd c))) constants.
Definition types_of (constants : list (str * (bool * str))) : list (str * bool) := map (fun c => (fst c, fst (snd c))) constants.
Definition reference_of (parameters : list (str * (kind * str))) : list (str * (ptype * str)) :=
  map (fun p => (fst p, (ktype (fst (snd p)), snd (snd p)))) parameters.

(** ** C34 *)
(** Numbers are read as written, and nothing else is read as a number. *)
Theorem C34_numbers x q : (float_of_str x = Ok q <-> numeral x q) /\ (int_of_str x = Ok q <-> integer_numeral x q) /\
  (cast x = Some q <-> numeral x q).
Proof. split; [apply float_numeral|]. split; [apply int_numeral|apply cast_numeral]. Qed.
Print Assumptions C34_numbers.

(** A constant has its arithmetic value, if no constant it refers to is zero. *)
Theorem C34_constants libm constants parameters name q : tables_ok constants parameters -> constant_value constants name q ->
  exists n0, forall n, (n0 <= n)%nat -> bt_compute libm (texts_of constants) (types_of constants) n name = Ok q.
Proof. intros T C. exact (constants_computed libm constants parameters T name q C). Qed.
Print Assumptions C34_constants.

(** A parameter has the arithmetic value of its definition.  Missing: literal
    zeros and vanishing sums inside a definition, and products with vanishing
    factors (refuted below for sums and constants). *)
Theorem C34_arithmetic_partial libm constants parameters name q : tables_ok constants parameters -> In name (map fst parameters) ->
  definition_value constants parameters (fun q => q <> 0) name q ->
  exists n0, forall n, (n0 <= n)%nat ->
    default_of libm (texts_of constants) (types_of constants) (reference_of parameters) n name = Ok (PNum q).
Proof.
  intros T I D. destruct (definitions_evaluated libm constants parameters T name q D) as (n0 & H). exists n0. intros n L.
  unfold default_of. assert (M : mem str_eqb name (map fst (reference_of parameters)) = true).
  { apply (mem_spec str_eqb str_decides). unfold reference_of. rewrite map_map. exact I. }
  rewrite M. apply H, L.
Qed.
Print Assumptions C34_arithmetic_partial.

(** Hence the value does not depend on how one reads the definitions. *)
Theorem C34_one_value constants parameters name p q : tables_ok constants parameters -> In name (map fst parameters) ->
  definition_value constants parameters (fun q => q <> 0) name p -> definition_value constants parameters (fun q => q <> 0) name q -> p = q.
Proof.
  intros T I D E. destruct (C34_arithmetic_partial (fun _ _ => None) _ _ _ _ T I D) as (n & H).
  destruct (C34_arithmetic_partial (fun _ _ => None) _ _ _ _ T I E) as (m & G). specialize (H (n + m)%nat ltac:(lia)). specialize (G (n + m)%nat ltac:(lia)).
  congruence.
Qed.
Print Assumptions C34_one_value.

(** Strings are returned as written. *)
Lemma eval_string libm constants parameters name text n : tables_ok constants parameters -> In (name, (KString, text)) parameters ->
  eval_param libm (texts_of constants) (types_of constants) (reference_of parameters) (S n) name = Ok (PStr text).
Proof.
  intros T I. assert (Im : In name (map fst parameters)) by exact (in_map fst _ _ I).
  destruct (param_plain constants parameters T name Im) as (C & N1 & N2). unfold texts_of, types_of, reference_of.
  rewrite (eval_rest libm constants parameters T n name C N1 N2), (param_lookup constants parameters T name KString text I). reflexivity.
Qed.
Theorem C34_strings libm constants parameters name text n : tables_ok constants parameters -> In (name, (KString, text)) parameters ->
  default_of libm (texts_of constants) (types_of constants) (reference_of parameters) (S n) name = Ok (PStr text).
Proof.
  intros T I. unfold default_of.
  assert (M : mem str_eqb name (map fst (reference_of parameters)) = true).
  { apply (mem_spec str_eqb str_decides). unfold reference_of. rewrite map_map. exact (in_map fst _ _ I). }
  rewrite M. apply eval_string; assumption.
Qed.
Print Assumptions C34_strings.

(** Lists of numbers, in brackets. *)
Fixpoint joined (sep : str) (l : list str) : str :=
  match l with [] => [] | [x] => x | x :: l' => x ++ sep ++ joined sep l' end.
Lemma lstrip_none f x : (forall c, In c x -> f c = false) -> lstrip_chars f x = x.
Proof. destruct x as [|c x]; intros H; [reflexivity|]. cbn [lstrip_chars]. rewrite (H c (or_introl eq_refl)). reflexivity. Qed.
Lemma lstrip_head f c x : f c = false -> lstrip_chars f (c :: x) = c :: x.
Proof. intros H. cbn [lstrip_chars]. rewrite H. reflexivity. Qed.
Lemma lstrip_part f a z : (match z with c :: _ => f c = false | [] => True end) -> exists p a', a = p ++ a' /\ lstrip_chars f (a ++ z) = a' ++ z.
Proof.
  intros H. induction a as [|c a (p & a' & -> & IH)].
  - exists [], []. split; [reflexivity|]. destruct z; [reflexivity|apply lstrip_head, H].
  - cbn [app lstrip_chars]. destruct (f c) eqn:E; [exists (c :: p), a'; split; [reflexivity|exact IH]|].
    exists [], (c :: p ++ a'). split; reflexivity.
Qed.
Lemma blank_app x y : blank (x ++ y) <-> blank x /\ blank y.
Proof. apply Forall_app. Qed.
Lemma numeral_stripped x q : numeral x q -> cast (strip_chars is_quote x) = Some q.
Proof.
  intros (d & O & (a & b & E & A & B & Y) & V). apply cast_numeral. exists d. split; [exact O|]. split; [|exact V].
  assert (Q : forall c, In c (decimal_text d) -> is_quote c = false).
  { intros c Hc. destruct (decimal_chars d c O Hc) as [H|[H|[H|H]]].
    - destruct (is_quote c) eqn:K; [|reflexivity]. unfold is_quote in K. apply orb_true_iff in K as [K|K]; apply Ascii.eqb_eq in K; subst c; discriminate.
    - destruct (is_quote c) eqn:K; [|reflexivity]. unfold is_quote in K. apply orb_true_iff in K as [K|K]; apply Ascii.eqb_eq in K; subst c; discriminate.
    - subst c. reflexivity.
    - destruct (is_quote c) eqn:K; [|reflexivity]. unfold is_quote in K. apply orb_true_iff in K as [K|K]; apply Ascii.eqb_eq in K; subst c; discriminate. }
  assert (NE : decimal_text d <> []).
  { intros H. rewrite decimal_parts in H. apply app_eq_nil in H as (_ & H). pose proof (start_ok d O) as K. rewrite H in K. discriminate. }
  set (y := decimal_text d) in *. clearbody y. destruct y as [|c y].
  - congruence.
  - subst x. unfold strip_chars.
    destruct (lstrip_part is_quote a ((c :: y) ++ b)) as (p & a' & Ea & ->); [apply Q; left; reflexivity|].
    rewrite rev_app_distr. rewrite (rev_app_distr (c :: y) b). rewrite <- app_assoc.
    destruct (lstrip_part is_quote (rev b) (rev (c :: y) ++ rev a')) as (p' & b' & Eb & ->).
    { destruct (rev (c :: y)) as [|e r] eqn:R; [apply (f_equal (@length ascii)) in R; rewrite rev_length in R; discriminate|].
      cbn [app]. apply Q. rewrite <- (rev_involutive (c :: y)), R. apply in_rev. rewrite rev_involutive. left. reflexivity. }
    exists a', (rev b'). split.
    + rewrite !rev_app_distr, !rev_involutive. rewrite <- app_assoc. reflexivity.
    + rewrite Ea in A. apply blank_app in A as (_ & A). split; [exact A|]. split; [|exact Y].
      assert (B' : b = rev b' ++ rev p') by (rewrite <- rev_app_distr, <- Eb, rev_involutive; reflexivity). rewrite B' in B. apply blank_app in B. tauto.
Qed.

Lemma split_joined l : l <> [] -> Forall (fun x => ~ In ","%char x) l -> split (s ",") (joined (s ",") l) = Ok l.
Proof.
  intros NE F. change (s ",") with [","%char]. unfold split. f_equal. destruct l as [|x l]; [congruence|]. clear NE. revert x F.
  induction l as [|y l IH]; intros x F; inversion F as [|? ? Nx F']; subst.
  - cbn [joined]. rewrite split_char, (proj2 (after_none _ x) Nx). reflexivity.
  - change (joined [","%char] (x :: y :: l)) with (x ++ ","%char :: joined [","%char] (y :: l)).
    rewrite split_char. destruct (after_app ","%char x (joined [","%char] (y :: l)) Nx) as (E1 & E2). rewrite E1, E2.
    cbn [rev app]. f_equal. apply IH, F'.
Qed.
Definition list_text (l : list str) : str := "["%char :: joined (s ",") l ++ ["]"%char].
Lemma joined_in c l : In c (joined (s ",") l) -> c = ","%char \/ exists x, In x l /\ In c x.
Proof.
  induction l as [|x l IH]; [intros []|]. destruct l as [|y l]; [intros H; right; exists x; split; [left; reflexivity|exact H]|].
  cbn [joined]. rewrite !in_app_iff. intros [H|[H|H]].
  - right. exists x. split; [left; reflexivity|exact H].
  - left. destruct H as [<-|[]]. reflexivity.
  - destruct (IH H) as [K|(z & K1 & K2)]; [left; exact K|right; exists z; split; [right; exact K1|exact K2]].
Qed.
Lemma numerals_read l qs : Forall2 numeral l qs -> stringlist (list_text l) = Ok (map PNum qs).
Proof.
  intros F. unfold stringlist. replace (starts (s "[") (list_text l)) with true by reflexivity.
  assert (EW : ends_with "]" (list_text l) = true).
  { unfold ends_with, list_text. change ("["%char :: joined (s ",") l ++ ["]"%char]) with (("["%char :: joined (s ",") l) ++ ["]"%char]).
    rewrite rev_app_distr. reflexivity. }
  rewrite EW. cbn [andb].
  assert (NC : forall x q c, numeral x q -> In c x -> c <> ","%char /\ is_bracket c = false).
  { intros x q c N I. destruct (numeral_chars x q c N I) as [H|[H|[H|[H|H]]]]; (split; [intros ->; discriminate|]);
      destruct (is_bracket c) eqn:K; try reflexivity; unfold is_bracket in K; apply orb_true_iff in K as [K|K]; apply Ascii.eqb_eq in K; subst c; discriminate. }
  assert (IN : forall x, In x l -> exists q, numeral x q).
  { clear -F. induction F as [|x q l qs N F IH]; intros y I; [destruct I|]. destruct I as [<-|I]; [exists q; exact N|exact (IH y I)]. }
  assert (NB : forall c, In c (joined (s ",") l) -> is_bracket c = false).
  { intros c I. destruct (joined_in c l I) as [->|(x & Ix & Ic)]; [reflexivity|]. destruct (IN x Ix) as (q & N). exact (proj2 (NC x q c N Ic)). }
  assert (ST : strip_chars is_bracket (list_text l) = joined (s ",") l).
  { unfold strip_chars, list_text. cbn [lstrip_chars]. change (is_bracket "[") with true. cbn iota.
    assert (L1 : lstrip_chars is_bracket (joined (s ",") l ++ ["]"%char]) = match l with [] => [] | _ => joined (s ",") l ++ ["]"%char] end).
    { destruct F as [|x q l qs N F]; [reflexivity|]. assert (exists c r, joined (s ",") (x :: l) = c :: r) as (c & r & E).
      { destruct x as [|c x]; [|destruct l; eexists; eexists; reflexivity]. exfalso. apply cast_numeral in N. discriminate. }
      rewrite E. cbn [app]. apply lstrip_head. apply NB. rewrite E. left. reflexivity. }
    rewrite L1. destruct F as [|x q l qs N F]; [reflexivity|]. rewrite rev_app_distr. cbn [rev app lstrip_chars]. change (is_bracket "]") with true. cbn iota.
    rewrite lstrip_none; [apply rev_involutive|]. intros c I. apply NB. apply in_rev, I. }
  rewrite ST. destruct F as [|x q l qs N F]; [reflexivity|].
  assert (SP : split (s ",") (joined (s ",") (x :: l)) = Ok (x :: l)).
  { apply split_joined; [discriminate|]. apply Forall_forall. intros y I H. destruct (IN y I) as (q' & N'). exact (proj1 (NC y q' _ N' H) eq_refl). }
  destruct (joined (s ",") (x :: l)) as [|c r] eqn:E.
  { exfalso. destruct x as [|c x]; [apply cast_numeral in N; discriminate|]. destruct l; discriminate. }
  rewrite SP. cbn [bind]. assert (F' : Forall2 numeral (x :: l) (q :: qs)) by (constructor; assumption). revert F'. generalize (x :: l) (q :: qs). clear.
  induction 1 as [|x q l qs N F IH]; [reflexivity|]. cbn [mapM map]. rewrite (numeral_stripped x q N). cbn [bind]. rewrite IH. reflexivity.
Qed.
Theorem C34_lists libm constants parameters name l qs n : tables_ok constants parameters ->
  In (name, (KArray, list_text l)) parameters -> Forall2 numeral l qs ->
  default_of libm (texts_of constants) (types_of constants) (reference_of parameters) (S n) name = Ok (PList (map PNum qs)).
Proof.
  intros T I F. assert (Im : In name (map fst parameters)) by exact (in_map fst _ _ I). unfold default_of.
  assert (M : mem str_eqb name (map fst (reference_of parameters)) = true).
  { apply (mem_spec str_eqb str_decides). unfold reference_of. rewrite map_map. exact Im. }
  rewrite M. destruct (param_plain constants parameters T name Im) as (C & N1 & N2). unfold texts_of, types_of, reference_of.
  rewrite (eval_rest libm constants parameters T n name C N1 N2), (param_lookup constants parameters T name KArray _ I). cbn [ktype convert].
  rewrite (numerals_read l qs F). reflexivity.
Qed.
Print Assumptions C34_lists.

(** A list with one reference. *)
Lemma bracket_member x : name_ok x -> strip_chars is_bracket (list_text [config_dot ++ x]) = config_dot ++ x /\
  (exists e, stringlist (list_text [config_dot ++ x]) = Raise e) /\ struct_member (config_dot ++ x) = true.
Proof.
  intros NX. assert (NB : forall c, In c (config_dot ++ x) -> is_bracket c = false /\ c <> ","%char).
  { intros c I. apply in_app_or in I as [I|I]; [cbn in I; repeat (destruct I as [<-|I]; [split; [reflexivity|discriminate]|]); destruct I|].
    pose proof (name_char x c NX I) as W. split; [|intros ->; discriminate].
    destruct (is_bracket c) eqn:K; [|reflexivity]. unfold is_bracket in K. apply orb_true_iff in K as [K|K]; apply Ascii.eqb_eq in K; subst c; discriminate. }
  assert (ST : strip_chars is_bracket (list_text [config_dot ++ x]) = config_dot ++ x).
  { unfold strip_chars, list_text. cbn [joined lstrip_chars]. change (is_bracket "[") with true. cbn iota.
    replace (lstrip_chars is_bracket ((config_dot ++ x) ++ ["]"%char])) with ((config_dot ++ x) ++ ["]"%char]) by reflexivity.
    rewrite rev_app_distr. cbn [rev app lstrip_chars]. change (is_bracket "]") with true. cbn iota.
    rewrite lstrip_none; [apply rev_involutive|]. intros c I. apply NB. apply in_rev, I. }
  split; [exact ST|]. split.
  - unfold stringlist. destruct (_ && _); [|eexists; reflexivity]. rewrite ST. change (config_dot ++ x) with ("c"%char :: (s "onfig." ++ x)). cbv iota.
    assert (SP : split (s ",") ("c"%char :: s "onfig." ++ x) = Ok ["c"%char :: s "onfig." ++ x]).
    { apply (split_joined ["c"%char :: s "onfig." ++ x]); [discriminate|]. constructor; [|constructor]. intros I. exact (proj2 (NB _ I) eq_refl). }
    rewrite SP. cbn [bind mapM].
    assert (CN : cast (strip_chars is_quote ("c"%char :: s "onfig." ++ x)) = None).
    { apply cast_none. unfold strip_chars. rewrite lstrip_head by reflexivity.
      intros q. change ("c"%char :: s "onfig." ++ x) with (s "config" ++ "."%char :: x). rewrite rev_app_distr.
      destruct (lstrip_part is_quote (rev ("."%char :: x)) (rev (s "config"))) as (p & a' & _ & ->); [reflexivity|].
      rewrite rev_app_distr, rev_involutive. intros N. destruct (numeral_head _ _ _ N) as [H|[H|[H|H]]]; discriminate. }
    rewrite CN. eexists. reflexivity.
  - unfold struct_member. rewrite starts_app. change (skipn 7 (config_dot ++ x)) with x. cbn [andb]. apply forallb_forall. intros c I.
    destruct (word_bits c (name_char x c NX I)) as (_ & _ & _ & _ & _ & _ & _ & W). exact W.
Qed.
Theorem C34_member_list libm constants parameters name x q : tables_ok constants parameters ->
  In (name, (KArray, list_text [s "config." ++ x])) parameters -> name_ok x ->
  definition_value constants parameters (fun q => q <> 0) x q ->
  exists n0, forall n, (n0 <= n)%nat ->
    default_of libm (texts_of constants) (types_of constants) (reference_of parameters) n name = Ok (PList [PNum q]).
Proof.
  intros T I NX D. destruct (definitions_evaluated libm constants parameters T x q D) as (n0 & H). exists (S (S n0)). intros [|[|n]] L; try lia.
  assert (Im : In name (map fst parameters)) by exact (in_map fst _ _ I). unfold default_of.
  assert (M : mem str_eqb name (map fst (reference_of parameters)) = true).
  { apply (mem_spec str_eqb str_decides). unfold reference_of. rewrite map_map. exact Im. }
  rewrite M. destruct (param_plain constants parameters T name Im) as (C & N1 & N2). unfold texts_of, types_of, reference_of.
  rewrite (eval_rest libm constants parameters T (S n) name C N1 N2), (param_lookup constants parameters T name KArray _ I). cbn [ktype convert].
  destruct (bracket_member x NX) as (ST & (e & SL) & SM). change (s "config." ++ x) with (config_dot ++ x). rewrite SL. cbn [has_type].
  rewrite (eval_resolve libm constants parameters T n _ "["%char); [| |left; reflexivity|reflexivity].
  2:{ apply cast_none. eapply not_numeral_char; [left; reflexivity|reflexivity|reflexivity|reflexivity|discriminate|reflexivity]. }
  unfold resolve_text. replace (struct_member (list_text [config_dot ++ x])) with false by reflexivity.
  rewrite ST, SM. assert (DC : drop_config (config_dot ++ x) = x).
  { apply (drops_drop (config_dot ++ x) x). apply (drops_marker [] x x); [intros []|]. constructor. intros J. pose proof (name_char x _ NX J). discriminate. }
  rewrite DC, H by lia. reflexivity.
Qed.
Print Assumptions C34_member_list.

(** ** the fuel does not matter *)
Lemma mapM_more {A B} (f g : A -> result B) l r : (forall x v, In x l -> f x = Ok v -> g x = Ok v) -> mapM f l = Ok r -> mapM g l = Ok r.
Proof.
  revert r. induction l as [|x l IH]; intros r H E; [exact E|]. cbn [mapM] in *. apply bind_ok in E as (y & Ey & E). apply bind_ok in E as (ys & Es & E).
  rewrite (H x y (or_introl eq_refl) Ey). cbn [bind]. rewrite (IH ys); [exact E| |exact Es]. intros z w I. apply H. right. exact I.
Qed.
Section Fuel.
Variable libm : Qc -> Qc -> option Qc.
Variables (consts : list (str * str)) (ctypes : list (str * bool)) (params : list (str * (ptype * str))).
Lemma bt_evaluate_more f g ts : (forall x v, f x = Ok v -> g x = Ok v) -> forall acc r,
  bt_evaluate libm consts f ts acc = Ok r -> bt_evaluate libm consts g ts acc = Ok r.
Proof.
  intros H. induction ts as [|t ts IH]; intros acc r E; [exact E|]. cbn [bt_evaluate] in *. destruct (mem str_eqb (base t) (map fst consts)).
  - apply bind_ok in E as (x & Ex & E). rewrite (H _ _ Ex). cbn [bind]. apply bind_ok in E as (y & Ey & E). rewrite Ey. cbn [bind]. apply IH, E.
  - destruct (str_eqb (base t) (s "1")); apply IH, E.
Qed.
Lemma bt_compute_more n : forall x v, bt_compute libm consts ctypes n x = Ok v -> bt_compute libm consts ctypes (S n) x = Ok v.
Proof.
  induction n as [|n IH]; intros x v E; [discriminate|]. cbn [bt_compute] in E. change (bt_compute libm consts ctypes (S (S n)) x) with
    (target <- lookup str_eqb consts x ;;
      match lookup str_eqb ctypes x with
      | Raise _ => Raise TypeError
      | Ok isint =>
          if symbolic_text target then
            e <- expression_of_str libm target ;; bt_evaluate libm consts (bt_compute libm consts ctypes (S n)) e 1
          else if isint then int_of_str target else float_of_str target
      end).
  destruct (lookup str_eqb consts x) as [t|]; [|exact E]. cbn [bind] in *. destruct (lookup str_eqb ctypes x) as [i|]; [|exact E].
  destruct (symbolic_text t); [|exact E]. apply bind_ok in E as (e & Ee & E). rewrite Ee. cbn [bind]. exact (bt_evaluate_more _ _ e IH 1 v E).
Qed.
Lemma resolve_more f g x v : (forall x v, f x = Ok v -> g x = Ok v) -> resolve_text libm f x = Ok v -> resolve_text libm g x = Ok v.
Proof.
  intros H. unfold resolve_text. destruct (struct_member x); [apply H|]. destruct (struct_member (strip_chars is_bracket x)).
  - intros E. apply bind_ok in E as (y & Ey & E). rewrite (H _ _ Ey). exact E.
  - intros E. apply bind_ok in E as (o & Eo & E).
    assert (CS : compute_sum g x = Ok o).
    { unfold compute_sum in *. destruct (has_text (s "+") x); [|destruct (has_text (s "-") x); [|exact Eo]];
        (apply bind_ok in Eo as (ps & Ep & Eo); rewrite Ep; cbn [bind]; apply bind_ok in Eo as (vs & Ev & Eo);
         rewrite (mapM_more (fun p => f (strip p)) (fun p => g (strip p)) ps vs); [exact Eo|intros z w _; apply H|exact Ev]). }
    rewrite CS. cbn [bind].
    assert (R : forall r, (if has_text (s "*") x || has_text (s "/") x then
          ts <- expression_of_str libm (drop_config x) ;;
          vs <- mapM (fun t => v <- f (base t) ;; q <- number_of v ;; p <- fr_pow libm q (expo t) ;; Ok (coef t * p)) ts ;;
          Ok (PNum (product vs))
        else Raise TypeError) = Ok r ->
        (if has_text (s "*") x || has_text (s "/") x then
          ts <- expression_of_str libm (drop_config x) ;;
          vs <- mapM (fun t => v <- g (base t) ;; q <- number_of v ;; p <- fr_pow libm q (expo t) ;; Ok (coef t * p)) ts ;;
          Ok (PNum (product vs))
        else Raise TypeError) = Ok r).
    { intros r Er. destruct (_ || _); [|exact Er]. apply bind_ok in Er as (ts & Et & Er). rewrite Et. cbn [bind].
      apply bind_ok in Er as (vs & Ev & Er). rewrite (mapM_more (fun t => v <- f (base t) ;; q <- number_of v ;; p <- fr_pow libm q (expo t) ;; Ok (coef t * p)) (fun t => v <- g (base t) ;; q <- number_of v ;; p <- fr_pow libm q (expo t) ;; Ok (coef t * p)) ts vs);
        [exact Er| |exact Ev].
      intros t w _ Ew. apply bind_ok in Ew as (z & Ez & Ew). rewrite (H _ _ Ez). exact Ew. }
    destruct o as [q|]; [destruct (qc_eqb q 0); [apply R, E|exact E]|apply R, E].
Qed.
Lemma eval_more n : forall x v, eval_param libm consts ctypes params n x = Ok v -> eval_param libm consts ctypes params (S n) x = Ok v.
Proof.
  induction n as [|n IH]; intros x v E; [discriminate|].
  assert (U : forall m, eval_param libm consts ctypes params (S m) x =
      let rest :=
        if str_eqb x (s "N_PROCS") then Ok PNone
        else if str_eqb x (s "third") then Ok (PNum third)
        else match lookup str_eqb params x with
             | Ok (t, text) =>
                 let v := convert text t in
                 if has_type v t then Ok v
                 else match v with PStr y => eval_param libm consts ctypes params m y | _ => Raise TypeError end
             | Raise _ =>
                 if mem str_eqb x (map fst consts) then q <- bt_compute libm consts ctypes m x ;; Ok (PNum q)
                 else resolve_text libm (eval_param libm consts ctypes params m) x
             end in
      match cast x with
      | Some q => if qc_eqb q 0 then rest else Ok (PNum q)
      | None => rest
      end) by reflexivity.
  rewrite (U (S n)). rewrite (U n) in E. cbv zeta in *.
  assert (R : forall r, (if str_eqb x (s "N_PROCS") then Ok PNone
        else if str_eqb x (s "third") then Ok (PNum third)
        else match lookup str_eqb params x with
             | Ok (t, text) =>
                 if has_type (convert text t) t then Ok (convert text t)
                 else match convert text t with PStr y => eval_param libm consts ctypes params n y | _ => Raise TypeError end
             | Raise _ =>
                 if mem str_eqb x (map fst consts) then q <- bt_compute libm consts ctypes n x ;; Ok (PNum q)
                 else resolve_text libm (eval_param libm consts ctypes params n) x
             end) = Ok r -> (if str_eqb x (s "N_PROCS") then Ok PNone
        else if str_eqb x (s "third") then Ok (PNum third)
        else match lookup str_eqb params x with
             | Ok (t, text) =>
                 if has_type (convert text t) t then Ok (convert text t)
                 else match convert text t with PStr y => eval_param libm consts ctypes params (S n) y | _ => Raise TypeError end
             | Raise _ =>
                 if mem str_eqb x (map fst consts) then q <- bt_compute libm consts ctypes (S n) x ;; Ok (PNum q)
                 else resolve_text libm (eval_param libm consts ctypes params (S n)) x
             end) = Ok r).
  { intros r Er. destruct (str_eqb x (s "N_PROCS")); [exact Er|]. destruct (str_eqb x (s "third")); [exact Er|].
    destruct (lookup str_eqb params x) as [(t, text)|e].
    - destruct (has_type _ t); [exact Er|]. destruct (convert text t); try exact Er. apply IH, Er.
    - destruct (mem str_eqb x (map fst consts)); [|exact (resolve_more _ _ x r IH Er)].
      apply bind_ok in Er as (q & Eq & Er). rewrite (bt_compute_more n x q Eq). exact Er. }
  destruct (cast x) as [q|]; [destruct (qc_eqb q 0); [apply R, E|exact E]|apply R, E].
Qed.
End Fuel.
Theorem C34_fuel libm consts ctypes params name v n : default_of libm consts ctypes params n name = Ok v ->
  forall m, (n <= m)%nat -> default_of libm consts ctypes params m name = Ok v.
Proof.
  intros E m L. induction L as [|m L IH]; [exact E|]. unfold default_of in *. destruct (mem str_eqb name (map fst params)); [|exact IH]. apply eval_more, IH.
Qed.
Print Assumptions C34_fuel.

(** ** the shipped tables *)
Fixpoint distinct (l : list str) : bool := match l with [] => true | x :: l' => negb (mem str_eqb x l') && distinct l' end.
Lemma distinct_nodup l : distinct l = true -> NoDup l.
Proof.
  induction l as [|x l IH]; cbn [distinct]; intros H; [constructor|]. apply andb_true_iff in H as (H & D). constructor; [|apply IH, D].
  apply (mem_false str_eqb str_decides). destruct (mem str_eqb x l); [discriminate|reflexivity].
Qed.
Definition name_b (x : str) : bool := match x with [] => false | c :: _ => negb (is_digit c) && forallb word_char x end.
Lemma name_b_ok x : name_b x = true -> name_ok x.
Proof.
  destruct x as [|c x]; [discriminate|]. unfold name_b. intros H. apply andb_true_iff in H as (A & B). split; [destruct (is_digit c); [discriminate|reflexivity]|].
  apply Forall_forall. intros d I. rewrite forallb_forall in B. apply B, I.
Qed.
Lemma tables_by_computation constants parameters :
  distinct (map fst constants) && distinct (map fst parameters) && forallb name_b (map fst constants ++ map fst parameters) &&
  negb (mem str_eqb (s "third") (map fst constants ++ map fst parameters)) &&
  negb (mem str_eqb (s "N_PROCS") (map fst constants ++ map fst parameters)) = true -> tables_ok constants parameters.
Proof.
  intros H. rewrite !andb_true_iff, forallb_app, !andb_true_iff in H. destruct H as ((((H1 & H2) & (H3 & H4)) & H5) & H6).
  split; [apply distinct_nodup, H1|]. split; [apply distinct_nodup, H2|].
  assert (F : forall (A : Type) (l : list (str * A)), forallb name_b (map fst l) = true -> Forall (fun c => name_ok (fst c)) l).
  { intros A l E. apply Forall_forall. intros c I. apply name_b_ok. rewrite forallb_forall in E. apply E, in_map, I. }
  split; [apply F, H3|]. split; [apply F, H4|].
  split; apply (mem_false str_eqb str_decides); [destruct (mem str_eqb (s "third") _)|destruct (mem str_eqb (s "N_PROCS") _)]; (discriminate || reflexivity).
Qed.
Theorem C34_shipped_tables_ok : tables_ok shipped_constants shipped_parameters.
Proof. apply tables_by_computation. vm_compute. reflexivity. Qed.
(** Every shipped default can be evaluated; the ones that are not literals: *)
Definition shipped_default libm n name := default_of libm (texts_of shipped_constants) (types_of shipped_constants) (reference_of shipped_parameters) n (s name).
Theorem C34_shipped libm n : (8 <= n)%nat ->
  (forall p, In p shipped_parameters -> exists v, default_of libm (texts_of shipped_constants) (types_of shipped_constants) (reference_of shipped_parameters) n (fst p) = Ok v) /\
  shipped_default libm n "simStopTime" = Ok (PNum (mkq 1041666666667 100000000000000)) /\
  shipped_default libm n "rScale" = Ok (PNum (mkq 69600000000 14959787070000)) /\
  shipped_default libm n "obsR" = Ok (PList [PNum (mkq 69600000000 14959787070000)]) /\
  shipped_default libm n "idealShockScale" = Ok (PNum (mkq 10000000 46491)) /\
  shipped_default libm n "rigidityPower" = Ok (PNum (mkq 1 3)) /\
  shipped_default libm n "numNodesPerStream" = Ok PNone /\
  shipped_default libm n "epCalcStartTime" = Ok (PNum 0) /\
  shipped_default libm n "warningsFile" = Ok (PStr (s "warningsXXX.txt")).
Proof.
  intros L. split.
  - intros p I.
    assert (A : forallb (fun p => is_ok (default_of libm (texts_of shipped_constants) (types_of shipped_constants) (reference_of shipped_parameters) 8 (fst p))) shipped_parameters = true)
      by (vm_compute; reflexivity).
    rewrite forallb_forall in A. specialize (A p I). destruct (default_of _ _ _ _ 8 (fst p)) as [v|e] eqn:E; [|discriminate].
    exists v. exact (C34_fuel _ _ _ _ _ _ _ E n L).
  - assert (K : forall name v, shipped_default libm 8 name = Ok v -> shipped_default libm n name = Ok v).
    { intros name v E. exact (C34_fuel _ _ _ _ _ _ _ E n L). }
    assert (Q : forall name p q, shipped_default libm 8 name = Ok (PNum p) -> this p = this q -> shipped_default libm n name = Ok (PNum q)).
    { intros name p q E H. apply K. rewrite E. do 2 f_equal. apply Qc_is_canon. rewrite H. reflexivity. }
    split; [eapply Q; [vm_compute; reflexivity|vm_compute; reflexivity]|].
    split; [eapply Q; [vm_compute; reflexivity|vm_compute; reflexivity]|].
    split; [apply K; vm_compute; reflexivity|].
    split; [eapply Q; [vm_compute; reflexivity|vm_compute; reflexivity]|].
    split; [eapply Q; [vm_compute; reflexivity|vm_compute; reflexivity]|].
    split; [apply K; vm_compute; reflexivity|].
    split; [eapply Q; [vm_compute; reflexivity|vm_compute; reflexivity]|].
    apply K. vm_compute. reflexivity.
Qed.
Print Assumptions C34_shipped.

(** ** where the value is not the arithmetic one *)
Definition some_parameters (text : str) : list (str * (kind * str)) :=
  [(s "x", (KFloat, text)); (s "y", (KFloat, s "2.0")); (s "zero", (KFloat, s "0.0"))].
Definition x_default libm text n := default_of libm [] [] (reference_of (some_parameters text)) n (s "x").
Lemma some_numeral text d : decimal_ok d -> decimal_text d = text -> strip text = text -> numeral text (decimal_value d).
Proof. intros O E T. exists d. split; [exact O|]. split; [|reflexivity]. rewrite E. pose proof (strip_trimmed text) as H. rewrite T in H. exact H. Qed.
Definition dec (i f : str) : decimal := {| d_sign := None; d_int := i; d_frac := Some f; d_exp := None |}.
Definition int_dec (i : str) : decimal := {| d_sign := None; d_int := i; d_frac := None; d_exp := None |}.
Lemma dec_ok i f : forallb is_digit i = true -> forallb is_digit f = true -> i <> [] -> decimal_ok (dec i f).
Proof.
  intros A B C. rewrite forallb_forall in A, B. split; [apply Forall_forall, A|]. split; [apply Forall_forall, B|]. split; [left; exact C|exact I].
Qed.
Lemma int_dec_ok i : forallb is_digit i = true -> i <> [] -> decimal_ok (int_dec i).
Proof. intros A C. rewrite forallb_forall in A. split; [apply Forall_forall, A|]. split; [exact I|]. split; [left; exact C|exact I]. Qed.
(** A literal zero in a sum, and a sum that is zero, are rejected. *)
Theorem C34_zero_refuted :
  (definition_value [] (some_parameters (s "1.0 + 0")) (fun _ => True) (s "x") (1 + 0) /\
   forall libm n, is_ok (x_default libm (s "1.0 + 0") n) = false) /\
  (definition_value [] (some_parameters (s "config.y - 2.0")) (fun _ => True) (s "x") (decimal_value (dec (s "2") (s "0")) - decimal_value (dec (s "2") (s "0"))) /\
   forall libm n, is_ok (x_default libm (s "config.y - 2.0") n) = false).
Proof.
  assert (N : forall t c, In c t -> is_space c = false -> is_digit c = false -> is_sign c = false -> c <> "."%char -> is_e c = false -> forall q, ~ numeral t q)
    by exact not_numeral_char.
  split; split.
  - apply (DV_definition _ _ _ (s "x") KFloat false (s "1.0 + 0")); [left; reflexivity|reflexivity| |].
    + intros r H. apply cast_numeral in H. vm_compute in H. discriminate.
    + replace (1 + 0) with (decimal_value (dec (s "1") (s "0")) + decimal_value (int_dec (s "0"))) by (apply Qc_is_canon; vm_compute; reflexivity).
      apply (DV_sum [] _ _ (s "1.0 ") (s " 0") (s "1.0") (s "0")).
      * intros I. cbn in I. repeat destruct I as [I|I]; try discriminate I; exact I.
      * intros I. cbn in I. repeat destruct I as [I|I]; try discriminate I; exact I.
      * exact (strip_trimmed (s "1.0 ")).
      * exact (strip_trimmed (s " 0")).
      * intros r H. apply cast_numeral in H. vm_compute in H. discriminate.
      * apply DV_numeral; [|exact I]. apply some_numeral; [|reflexivity|reflexivity]. apply dec_ok; [reflexivity|reflexivity|discriminate].
      * apply DV_numeral; [|exact I]. apply some_numeral; [|reflexivity|reflexivity]. apply int_dec_ok; [reflexivity|discriminate].
      * exact I.
  - intros libm n. destruct n as [|[|[|[|[|n]]]]]; vm_compute; reflexivity.
  - apply (DV_definition _ _ _ (s "x") KFloat false (s "config.y - 2.0")); [left; reflexivity|reflexivity| |].
    + intros r H. apply cast_numeral in H. vm_compute in H. discriminate.
    + apply (DV_difference [] _ _ (s "config.y ") (s " 2.0") (s "config.y") (s "2.0")).
      * intros c [H|H]; cbn in H; (repeat (destruct H as [<-|H]; [split; discriminate|])); destruct H.
      * exact (strip_trimmed (s "config.y ")).
      * exact (strip_trimmed (s " 2.0")).
      * intros r H. apply cast_numeral in H. vm_compute in H. discriminate.
      * apply (DV_member [] _ _ (s "y")); [split; [reflexivity|repeat constructor]|]. apply (DV_literal _ _ _ (s "y") KFloat false (s "2.0")).
        -- right. left. reflexivity.
        -- reflexivity.
        -- apply some_numeral; [|reflexivity|reflexivity]. apply dec_ok; [reflexivity|reflexivity|discriminate].
      * apply DV_numeral; [|exact I]. apply some_numeral; [|reflexivity|reflexivity]. apply dec_ok; [reflexivity|reflexivity|discriminate].
      * exact I.
  - intros libm n. destruct n as [|[|[|[|[|n]]]]]; vm_compute; reflexivity.
Qed.
Print Assumptions C34_zero_refuted.
(** Of three terms only the first two count; an exponent with a minus sign is
    taken for a difference. *)
Theorem C34_sums_refuted libm n :
  x_default libm (s "1 + 2 + 3") (4 + n) = Ok (PNum (zq 3)) /\
  is_ok (x_default libm (s "config.y - 2.5e-4") n) = false /\
  is_ok (x_default libm (s "1e-3 * config.y") n) = false.
Proof.
  split; [vm_compute; reflexivity|]. split; (destruct n as [|[|[|[|[|[|n]]]]]]; vm_compute; reflexivity).
Qed.
Print Assumptions C34_sums_refuted.
(** A factor zero in a constant is replaced by one, and unknown symbols are
    passed over. *)
Theorem C34_constants_refuted libm n :
  bt_compute libm [(s "ZERO", s "0.0"); (s "TWO", s "2.0"); (s "A", s "ZERO * TWO"); (s "B", s "TWO * UNKNOWN")]
    [(s "ZERO", false); (s "TWO", false); (s "A", false); (s "B", false)] (3 + n) (s "A") = Ok (zq 2) /\
  bt_compute libm [(s "ZERO", s "0.0"); (s "TWO", s "2.0"); (s "A", s "ZERO * TWO"); (s "B", s "TWO * UNKNOWN")]
    [(s "ZERO", false); (s "TWO", false); (s "A", false); (s "B", false)] (3 + n) (s "B") = Ok (zq 2).
Proof. split; vm_compute; reflexivity. Qed.
Print Assumptions C34_constants_refuted.
(** A definition that refers to itself is not noticed: whatever the limit of
    the recursion, it is reached. *)
Theorem C34_circular libm n : x_default libm (s "config.x") n = Raise RecursionError.
Proof.
  unfold x_default, default_of. replace (mem _ _ _) with true by reflexivity.
  assert (H : eval_param libm [] [] (reference_of (some_parameters (s "config.x"))) n (s "x") = Raise RecursionError /\
              eval_param libm [] [] (reference_of (some_parameters (s "config.x"))) n (s "config.x") = Raise RecursionError); [|tauto].
  induction n as [|n (A & B)]; [split; reflexivity|]. split.
  - change (eval_param libm [] [] (reference_of (some_parameters (s "config.x"))) (S n) (s "x")) with
      (eval_param libm [] [] (reference_of (some_parameters (s "config.x"))) n (s "config.x")). exact B.
  - change (eval_param libm [] [] (reference_of (some_parameters (s "config.x"))) (S n) (s "config.x")) with
      (eval_param libm [] [] (reference_of (some_parameters (s "config.x"))) n (s "x")). exact A.
Qed.
Print Assumptions C34_circular.
