(** * Numerals: the parsers agree with the specification *)
From Verif Require Import PyBase PyLemmas SymbolicModel SymbolicRegex ConfigModel ConfigSpec ConfigProofs ParameterModel ParameterSpec.
From Coq Require Import Lia.
Local Open Scope Qc_scope.

Lemma span_digits_spec x : forall a b, span_digits x = (a, b) -> x = a ++ b /\ digits a /\ nothead is_digit b = true.
Proof.
  induction x as [|c x IH]; simpl; intros a b H; [injection H as <- <-; split; [reflexivity|split; [constructor|reflexivity]]|].
  destruct (is_digit c) eqn:D.
  - destruct (span_digits x) as (a' & b'). injection H as <- <-. destruct (IH _ _ eq_refl) as (E & F & N).
    split; [cbn; f_equal; exact E|]. split; [constructor; assumption|exact N].
  - injection H as <- <-. split; [reflexivity|]. split; [constructor|]. simpl. rewrite D. reflexivity.
Qed.
Lemma digit_not_e c : is_e c = true -> is_digit c = false.
Proof. unfold is_e. intros H. apply orb_true_iff in H as [H|H]; apply Ascii.eqb_eq in H; subst; reflexivity. Qed.
Lemma digit_not_sign c : is_sign c = true -> is_digit c = false.
Proof. unfold is_sign. intros H. apply orb_true_iff in H as [H|H]; apply Ascii.eqb_eq in H; subst; reflexivity. Qed.
Lemma sign_not_digit c : is_digit c = true -> is_sign c = false.
Proof. intros H. destruct (is_sign c) eqn:E; [|reflexivity]. rewrite (digit_not_sign _ E) in H. discriminate. Qed.
Lemma digits_in c x : digits x -> In c x -> is_digit c = true.
Proof. intros H. revert c. apply Forall_forall, H. Qed.

Definition mantissa (i : str) (f : str) : Qc := zq (nat_value i) + mkq (nat_value f) (Z.to_pos (10 ^ Z.of_nat (length f))).
Lemma mantissa_nil i : mantissa i [] = zq (nat_value i).
Proof. unfold mantissa. cbn. apply Qcplus_0_r. Qed.
Definition exp_text (e : option (ascii * option bool * str)) : str := match e with Some (e, sg, ds) => e :: sign_text sg ++ ds | None => [] end.
Definition frac_text (f : option str) : str := match f with Some f => "."%char :: f | None => [] end.
Definition scaled (m : Qc) (e : option (ascii * option bool * str)) : Qc :=
  match e with
  | Some (_, Some true, ds) => m / zq (10 ^ nat_value ds)
  | Some (_, _, ds) => m * zq (10 ^ nat_value ds)
  | None => m
  end.
Definition exp_ok (e : option (ascii * option bool * str)) : Prop :=
  match e with Some (e, _, ds) => (e = "e"%char \/ e = "E"%char) /\ digits ds /\ ds <> [] | None => True end.
Lemma exp_head e : exp_ok e -> nothead is_digit (exp_text e) = true /\ nothead (Ascii.eqb ".") (exp_text e) = true /\ nothead (Ascii.eqb "/") (exp_text e) = true.
Proof. destruct e as [((c & sg) & ds)|]; [|intros _; repeat split; reflexivity]. intros ([->| ->] & _); repeat split; reflexivity. Qed.

Lemma nothead_eqb a c x : nothead (Ascii.eqb a) (c :: x) = true -> Ascii.eqb c a = false.
Proof. unfold nothead. intros H. apply negb_true_iff in H. rewrite Ascii.eqb_sym. exact H. Qed.
Lemma nothead_digit c x : nothead is_digit (c :: x) = true -> is_digit c = false.
Proof. unfold nothead. apply negb_true_iff. Qed.
(** the scale factor, as the code computes it *)
Definition code_scale (mant : Qc) (x : str) : result Qc :=
  match x with
  | [] => Ok mant
  | c :: x' =>
      if is_e c then
        let '(eneg, x) := match x' with c :: x'' => if is_sign c then (Ascii.eqb c "-", x'') else (false, x') | [] => (false, x') end in
        let '(ed, rest) := span_digits x in
        match ed, rest with
        | _ :: _, [] => let e := Z.of_N (N_of_str ed) in Ok (if eneg then mant / zq (10 ^ e) else mant * zq (10 ^ e))
        | _, _ => Raise ValueError
        end
      else Raise ValueError
  end.
Lemma code_scale_text m e : exp_ok e -> code_scale m (exp_text e) = Ok (scaled m e).
Proof.
  destruct e as [((c & sg) & ds)|]; [|reflexivity]. cbn [exp_ok exp_text]. intros (C & D & NE).
  assert (E : is_e c = true) by (destruct C as [->| ->]; reflexivity). cbn [code_scale]. rewrite E.
  assert (S0 : span_digits ds = (ds, [])) by (rewrite <- (app_nil_r ds) at 1; apply span_digits_app; [exact D|reflexivity]).
  destruct ds as [|d ds]; [congruence|].
  destruct sg as [[|]|]; cbn [sign_text].
  - change (s "-" ++ d :: ds) with ("-"%char :: d :: ds). cbv beta iota. change (is_sign "-") with true. cbv iota. rewrite S0. reflexivity.
  - change (s "+" ++ d :: ds) with ("+"%char :: d :: ds). cbv beta iota. change (is_sign "+") with true. cbv iota. rewrite S0. reflexivity.
  - cbn [app]. rewrite sign_not_digit by (inversion D; assumption). rewrite S0. reflexivity.
Qed.
Lemma code_scale_inv m x q : code_scale m x = Ok q -> exists e, exp_ok e /\ x = exp_text e /\ q = scaled m e.
Proof.
  destruct x as [|c x]; cbn [code_scale]; [intros H; injection H as <-; exists None; repeat split|].
  destruct (is_e c) eqn:E; [|discriminate].
  assert (C : c = "e"%char \/ c = "E"%char).
  { unfold is_e in E. apply orb_true_iff in E as [E|E]; apply Ascii.eqb_eq in E; auto. }
  assert (G : forall sg y, let '(ed, rest) := span_digits y in
     match ed, rest with _ :: _, [] => Ok (if match sg with Some true => true | _ => false end then m / zq (10 ^ Z.of_N (N_of_str ed)) else m * zq (10 ^ Z.of_N (N_of_str ed))) | _, _ => Raise ValueError end = Ok q ->
     exists ed, digits ed /\ ed <> [] /\ y = ed /\ q = scaled m (Some (c, sg, ed))).
  { intros sg y. destruct (span_digits y) as (ed & rest) eqn:S. apply span_digits_spec in S as (-> & D & _).
    destruct ed as [|d ed]; [discriminate|]. destruct rest; [|discriminate]. intros H. injection H as <-. exists (d :: ed).
    split; [exact D|]. split; [discriminate|]. split; [apply app_nil_r|]. destruct sg as [[|]|]; reflexivity. }
  destruct x as [|d x].
  - intros H. discriminate.
  - destruct (is_sign d) eqn:SD.
    + unfold is_sign in SD. apply orb_true_iff in SD as [SD|SD]; apply Ascii.eqb_eq in SD; subst d.
      * specialize (G (Some true) x). cbv beta iota in G |- *. change (Ascii.eqb "-" "-") with true. intros H.
        destruct (span_digits x) as (ed & rest). cbv zeta in H. destruct (G H) as (ed' & D & NE & -> & Q).
        exists (Some (c, Some true, ed')). split; [split; [exact C|split; assumption]|]. split; [reflexivity|exact Q].
      * specialize (G (Some false) x). cbv beta iota in G |- *. change (Ascii.eqb "+" "-") with false. intros H.
        destruct (span_digits x) as (ed & rest). cbv zeta in H. destruct (G H) as (ed' & D & NE & -> & Q).
        exists (Some (c, Some false, ed')). split; [split; [exact C|split; assumption]|]. split; [reflexivity|exact Q].
    + specialize (G None (d :: x)). intros H. destruct (span_digits (d :: x)) as (ed & rest). cbv zeta in H.
      destruct (G H) as (ed' & D & NE & -> & Q).
      exists (Some (c, None, ed')). split; [split; [exact C|split; assumption]|]. split; [reflexivity|exact Q].
Qed.
Lemma fraction_code i x : digits i -> nothead is_digit x = true -> nothead (Ascii.eqb "/") x = true ->
  fraction_unsigned (i ++ x) = match x with
  | [] => Ok (zq (nat_value i))
  | c :: x' => if Ascii.eqb c "." then let '(dec, y) := span_digits x' in code_scale (mantissa i dec) y else code_scale (mantissa i []) x
  end.
Proof.
  intros D N S. unfold fraction_unsigned. rewrite span_digits_app by assumption. destruct x as [|c x]; [reflexivity|].
  assert (Ascii.eqb c "/" = false) as ->.
  { exact (nothead_eqb _ _ _ S). }
  destruct (Ascii.eqb c "."); [destruct (span_digits x) as (dec & y); reflexivity|reflexivity].
Qed.
Lemma fraction_text i f e : digits i -> match f with Some f => digits f | None => True end -> exp_ok e ->
  fraction_unsigned (i ++ frac_text f ++ exp_text e) = Ok (scaled (match f with Some f => mantissa i f | None => zq (nat_value i) end) e).
Proof.
  intros Di Df Oe. destruct (exp_head e Oe) as (H1 & H2 & H3). destruct f as [f|]; cbn [frac_text].
  - rewrite fraction_code; [|exact Di|reflexivity|reflexivity]. cbn [app]. change (Ascii.eqb "." ".") with true. cbv iota.
    rewrite span_digits_app by assumption. apply code_scale_text, Oe.
  - cbn [app]. rewrite fraction_code by assumption. rewrite mantissa_nil. destruct (exp_text e) as [|c x] eqn:X.
    + destruct e as [((c & sg) & ds)|]; [discriminate|reflexivity].
    + rewrite (nothead_eqb _ _ _ H2).
      rewrite <- X. apply code_scale_text, Oe.
Qed.
Lemma fraction_inv y q : fraction_unsigned y = Ok q -> ~ In "/"%char y ->
  exists i f e, y = i ++ frac_text f ++ exp_text e /\ digits i /\ match f with Some f => digits f | None => True end /\ exp_ok e /\
    q = scaled (match f with Some f => mantissa i f | None => zq (nat_value i) end) e.
Proof.
  intros H NS. destruct (span_digits y) as (i & x) eqn:S. apply span_digits_spec in S as (-> & Di & Nx).
  rewrite fraction_code in H; [|exact Di|exact Nx|].
  2:{ destruct x as [|c x]; [reflexivity|]. unfold nothead. destruct (Ascii.eqb_spec "/" c) as [<-|_]; [|reflexivity]. exfalso. apply NS, in_or_app. right. left. reflexivity. }
  destruct x as [|c x].
  - injection H as <-. exists i, None, None. repeat split; assumption.
  - destruct (Ascii.eqb_spec c ".") as [->|NC].
    + destruct (span_digits x) as (dec & z) eqn:S. apply span_digits_spec in S as (-> & Dd & _).
      apply code_scale_inv in H as (e & Oe & -> & ->). exists i, (Some dec), e. repeat split; assumption.
    + rewrite mantissa_nil in H. apply code_scale_inv in H as (e & Oe & -> & ->). exists i, None, e. repeat split; assumption.
Qed.

(** ** floats *)
Lemma decimal_parts d : decimal_text d = sign_text (d_sign d) ++ d_int d ++ frac_text (d_frac d) ++ exp_text (d_exp d).
Proof. reflexivity. Qed.
Definition unsigned_value (i : str) (f : option str) (e : option (ascii * option bool * str)) : Qc :=
  scaled (match f with Some f => mantissa i f | None => zq (nat_value i) end) e.
Lemma decimal_value_parts d : decimal_value d =
  match d_sign d with Some true => - unsigned_value (d_int d) (d_frac d) (d_exp d) | _ => unsigned_value (d_int d) (d_frac d) (d_exp d) end.
Proof.
  unfold decimal_value, unsigned_value. destruct (d_frac d) as [f|]; [reflexivity|]. rewrite Qcplus_0_r.
  destruct (d_exp d) as [((c & sg) & ds)|]; reflexivity.
Qed.
Lemma start_ok d : decimal_ok d -> numeral_start (d_int d ++ frac_text (d_frac d) ++ exp_text (d_exp d)) = true.
Proof.
  intros (Di & Df & NE & _). destruct (d_int d) as [|c i]; cbn [app].
  - destruct NE as [NE|(f & E & NE)]; [congruence|]. rewrite E in *. destruct f as [|c f]; [congruence|]. cbn. inversion Df. rewrite H1. reflexivity.
  - cbn. inversion Di. rewrite H1. reflexivity.
Qed.
Lemma start_unsigned x : numeral_start x = true -> unsigned x = x.
Proof.
  destruct x as [|c x]; [reflexivity|]. cbn. intros H. destruct (is_sign c) eqn:S; [|reflexivity].
  rewrite (digit_not_sign _ S) in H. cbn in H. apply andb_true_iff in H as (H & _). apply Ascii.eqb_eq in H. subst. discriminate.
Qed.
Lemma unsigned_text d : decimal_ok d -> unsigned (decimal_text d) = d_int d ++ frac_text (d_frac d) ++ exp_text (d_exp d).
Proof.
  intros O. rewrite decimal_parts. destruct (d_sign d) as [[|]|]; cbn [sign_text].
  - reflexivity.
  - reflexivity.
  - cbn [app]. apply start_unsigned, start_ok, O.
Qed.
Lemma fraction_of_decimal d : decimal_ok d -> fraction_of_str (decimal_text d) = Ok (decimal_value d).
Proof.
  intros O. pose proof O as (Di & Df & NE & Oe). pose proof (fraction_text _ _ _ Di Df Oe) as F.
  rewrite decimal_value_parts, decimal_parts. fold (unsigned_value (d_int d) (d_frac d) (d_exp d)) in F.
  destruct (d_sign d) as [[|]|]; cbn [sign_text].
  - change (s "-" ++ ?x) with ("-"%char :: x). unfold fraction_of_str. change (is_sign "-") with true. cbv iota. rewrite F. reflexivity.
  - change (s "+" ++ ?x) with ("+"%char :: x). unfold fraction_of_str. change (is_sign "+") with true. cbv iota. rewrite F. reflexivity.
  - cbn [app]. pose proof (start_unsigned _ (start_ok d O)) as U. unfold fraction_of_str.
    destruct (d_int d ++ frac_text (d_frac d) ++ exp_text (d_exp d)) as [|c x]; [exact F|]. cbn in U.
    destruct (is_sign c); [|exact F]. apply (f_equal (@length ascii)) in U. cbn in U. lia.
Qed.
Lemma no_slash d : decimal_ok d -> ~ In "/"%char (decimal_text d).
Proof.
  intros (Di & Df & _ & Oe). rewrite decimal_parts. rewrite !in_app_iff. intros [H|[H|[H|H]]].
  - destruct (d_sign d) as [[|]|]; cbn in H; [destruct H as [H|[]]; discriminate|destruct H as [H|[]]; discriminate|destruct H].
  - pose proof (digits_in _ _ Di H). discriminate.
  - destruct (d_frac d) as [f|]; [|destruct H]. destruct H as [H|H]; [discriminate|]. pose proof (digits_in _ _ Df H). discriminate.
  - destruct (d_exp d) as [((c & sg) & ds)|]; [|destruct H]. destruct Oe as (C & D & _). cbn [exp_text] in H.
    destruct H as [H|H]; [destruct C; subst; discriminate|]. apply in_app_or in H as [H|H].
    + destruct sg as [[|]|]; cbn in H; [destruct H as [H|[]]; discriminate|destruct H as [H|[]]; discriminate|destruct H].
    + pose proof (digits_in _ _ D H). discriminate.
Qed.
Lemma exists_slash x : existsb (Ascii.eqb "/") x = true <-> In "/"%char x.
Proof. rewrite existsb_exists. split; [intros (c & H & E); apply Ascii.eqb_eq in E; subst; exact H|]. intros H. exists "/"%char. split; [exact H|reflexivity]. Qed.
Lemma float_numeral x q : float_of_str x = Ok q <-> numeral x q.
Proof.
  unfold float_of_str, numeral. split.
  - destruct (numeral_start (unsigned (strip x)) && _) eqn:C; [|discriminate]. apply andb_true_iff in C as (NS & SL).
    apply negb_true_iff in SL. assert (NSl : ~ In "/"%char (strip x)) by (rewrite <- exists_slash, SL; discriminate). clear SL. intros H.
    set (y := strip x) in *. pose proof (strip_trimmed x) as T. fold y in T. clearbody y.
    assert (G : exists sg z q', y = sign_text sg ++ z /\ unsigned y = z /\ fraction_unsigned z = Ok q' /\ q = match sg with Some true => - q' | _ => q' end).
    { unfold fraction_of_str in H. destruct y as [|c y]; [exists None, [], q; repeat split; exact H|].
      destruct (is_sign c) eqn:S.
      - destruct (fraction_unsigned y) as [q'|e] eqn:F; [|discriminate]. cbn [bind] in H. injection H as <-.
        assert (C : c = "-"%char \/ c = "+"%char) by (unfold is_sign in S; apply orb_true_iff in S as [S|S]; apply Ascii.eqb_eq in S; auto).
        destruct C as [->| ->]; [exists (Some true), y, q'|exists (Some false), y, q']; repeat split; exact F.
      - exists None, (c :: y), q. cbn [sign_text app]. repeat split; [|exact H]. cbn. rewrite S. reflexivity. }
    destruct G as (sg & z & q' & E & U & F & Q).
    assert (NZ : ~ In "/"%char z) by (intros I; apply NSl; rewrite E; apply in_or_app; right; exact I).
    apply fraction_inv in F as (i & f & e & Ez & Di & Df & Oe & Eq); [|exact NZ].
    exists {| d_sign := sg; d_int := i; d_frac := f; d_exp := e |}. split; [|split].
    + split; [exact Di|]. split; [exact Df|]. split; [|exact Oe]. cbn [d_int d_frac]. rewrite U, Ez in NS.
      destruct i as [|c i]; [|left; discriminate]. right. destruct f as [f|].
      * exists f. split; [reflexivity|]. intros ->. destruct (exp_head e Oe) as (X & _). cbn [app frac_text] in NS. unfold numeral_start in NS. change (is_digit ".") with false in NS.
        apply andb_true_iff in NS as (_ & NS). destruct (exp_text e) as [|c x']; [discriminate|]. rewrite (nothead_digit _ _ X) in NS. discriminate.
      * exfalso. cbn [app frac_text] in NS. destruct (exp_head e Oe) as (X & X' & _). destruct (exp_text e) as [|c x']; [discriminate|].
        unfold numeral_start in NS. rewrite (nothead_digit _ _ X), (nothead_eqb _ _ _ X') in NS. discriminate.
    + rewrite decimal_parts. cbn [d_sign d_int d_frac d_exp]. rewrite <- Ez, <- E. exact T.
    + rewrite decimal_value_parts. cbn [d_sign d_int d_frac d_exp]. unfold unsigned_value. rewrite <- Eq. exact Q.
  - intros (d & O & T & ->). apply trimmed_strip in T. rewrite <- T. rewrite (unsigned_text d O), (start_ok d O).
    assert (existsb (Ascii.eqb "/") (decimal_text d) = false) as ->.
    { destruct (existsb (Ascii.eqb "/") (decimal_text d)) eqn:X; [|reflexivity]. apply exists_slash in X. exfalso. exact (no_slash d O X). }
    cbn [negb andb]. apply fraction_of_decimal, O.
Qed.

(** ** integers *)
Lemma digits_forallb x : forallb is_digit x = true <-> digits x.
Proof. unfold digits. rewrite forallb_forall, Forall_forall. reflexivity. Qed.
Lemma int_numeral x q : int_of_str x = Ok q <-> integer_numeral x q.
Proof.
  unfold int_of_str, integer_numeral. split.
  - pose proof (strip_trimmed x) as T. set (y := strip x) in *. clearbody y.
    destruct (unsigned y) as [|c ds] eqn:U; [discriminate|]. destruct (forallb is_digit (c :: ds)) eqn:D; [|discriminate].
    apply digits_forallb in D. intros H. injection H as <-.
    assert (G : exists sg, y = sign_text sg ++ c :: ds /\
       match y with a :: _ => if Ascii.eqb a "-" then - zq (nat_value (c :: ds)) else zq (nat_value (c :: ds)) | [] => zq (nat_value (c :: ds)) end
       = match sg with Some true => - zq (nat_value (c :: ds)) | _ => zq (nat_value (c :: ds)) end).
    { destruct y as [|a y]; [discriminate|]. cbn in U. destruct (is_sign a) eqn:S.
      - subst y. unfold is_sign in S. apply orb_true_iff in S as [S|S]; apply Ascii.eqb_eq in S; subst a; [exists (Some true)|exists (Some false)]; split; reflexivity.
      - injection U as -> ->. exists None. split; [reflexivity|]. destruct (Ascii.eqb_spec c "-") as [->|_]; [discriminate|reflexivity]. }
    destruct G as (sg & E & V). exists {| d_sign := sg; d_int := c :: ds; d_frac := None; d_exp := None |}.
    split; [split; [exact D|]; split; [exact I|]; split; [left; discriminate|exact I]|]. split; [reflexivity|]. split; [reflexivity|].
    split; [rewrite decimal_parts; cbn [d_sign d_int d_frac d_exp frac_text exp_text]; rewrite app_nil_r, <- E; exact T|].
    rewrite decimal_value_parts. cbn [d_sign d_int d_frac d_exp]. unfold unsigned_value, scaled. exact V.
  - intros (d & O & Ff & Fe & T & ->). apply trimmed_strip in T. rewrite <- T. clear T x. rewrite (unsigned_text d O).
    destruct O as (Di & _ & NE & _). rewrite decimal_value_parts, decimal_parts, Ff, Fe. cbn [frac_text exp_text app]. rewrite app_nil_r.
    destruct NE as [NE|(f & E & _)]; [|rewrite Ff in E; discriminate]. destruct (d_int d) as [|c ds]; [congruence|].
    rewrite (proj2 (digits_forallb (c :: ds)) Di). f_equal. unfold unsigned_value, scaled.
    destruct (d_sign d) as [[|]|]; cbn [sign_text].
    + reflexivity.
    + reflexivity.
    + cbn [app]. destruct (Ascii.eqb_spec c "-") as [->|_]; [|reflexivity]. inversion Di as [|? ? X _]. discriminate.
Qed.
Lemma integer_is_numeral x q : integer_numeral x q -> numeral x q.
Proof. intros (d & O & _ & _ & T & V). exists d. split; [exact O|split; assumption]. Qed.
Lemma numeral_functional x p q : numeral x p -> numeral x q -> p = q.
Proof. intros P Q. apply float_numeral in P, Q. congruence. Qed.
Lemma cast_numeral x q : cast x = Some q <-> numeral x q.
Proof.
  unfold cast. destruct (int_of_str x) as [p|e] eqn:E.
  - apply int_numeral, integer_is_numeral in E. split; [intros H; injection H as <-; exact E|]. intros H. f_equal. eapply numeral_functional; eassumption.
  - destruct (float_of_str x) as [p|e'] eqn:F.
    + rewrite float_numeral in F. split; [intros H; injection H as <-; exact F|]. intros H. f_equal. eapply numeral_functional; eassumption.
    + split; [discriminate|]. intros H. apply float_numeral in H. congruence.
Qed.
Lemma cast_none x : cast x = None <-> forall q, ~ numeral x q.
Proof.
  destruct (cast x) as [q|] eqn:E.
  - split; [discriminate|]. intros H. apply cast_numeral in E. exfalso. exact (H q E).
  - split; [|reflexivity]. intros _ q H. apply cast_numeral in H. congruence.
Qed.
Lemma float_fails x : (forall q, ~ numeral x q) -> exists e, float_of_str x = Raise e.
Proof. intros H. destruct (float_of_str x) eqn:E; [|eexists; reflexivity]. apply float_numeral in E. exfalso. exact (H _ E). Qed.
Lemma int_fails x : (forall q, ~ numeral x q) -> exists e, int_of_str x = Raise e.
Proof. intros H. destruct (int_of_str x) eqn:E; [|eexists; reflexivity]. apply int_numeral, integer_is_numeral in E. exfalso. exact (H _ E). Qed.
