(** Parsing terminates on every string: the loops of the parser consume input,
    so the fuel of the model is never exhausted. *)
From Verif Require Import PyBase PyLemmas SymbolicModel SymbolicSpec SymbolicProofs SymbolicRegex SymbolicParse.
From Coq Require Import ZifyBool ZifyNat.

(** ** matches are prefixes *)
Definition sound (p : pat) : Prop := forall x m, In m (p x) -> x = fst m ++ snd m.
Lemma sound_eps : sound p_eps.
Proof. intros x m [<-|[]]. reflexivity. Qed.
Lemma sound_chr f : sound (p_chr f).
Proof. intros [|c x] m H; [contradiction|]. simpl in H. destruct (f c); [destruct H as [<-|[]]; reflexivity | contradiction]. Qed.
Lemma sound_seq p q : sound p -> sound q -> sound (p_seq p q).
Proof.
  intros P Q x m H. unfold p_seq in H. apply in_flat_map in H as (a & Ha & H).
  apply in_map_iff in H as (b & <- & Hb). cbn [fst snd].
  rewrite <- app_assoc. etransitivity; [exact (P _ _ Ha)|]. f_equal. exact (Q _ _ Hb).
Qed.
Lemma sound_alt p q : sound p -> sound q -> sound (p_alt p q).
Proof. intros P Q x m H. apply in_app_or in H as [H|H]; auto. Qed.
Lemma sound_opt p : sound p -> sound (p_opt p).
Proof. intros P. apply sound_alt; [exact P | apply sound_eps]. Qed.
Lemma sound_star f : sound (p_star f).
Proof.
  intros x. induction x as [|c x IH]; simpl; intros m H.
  - destruct H as [<-|[]]. reflexivity.
  - destruct (f c).
    + apply in_app_or in H as [H|[<-|[]]]; [|reflexivity].
      apply in_map_iff in H as (n & <- & Hn). simpl. f_equal. apply IH, Hn.
    + destruct H as [<-|[]]. reflexivity.
Qed.
Lemma sound_lazystar f : sound (p_lazystar f).
Proof.
  intros x. induction x as [|c x IH]; simpl; intros m [<-|H]; try reflexivity; try contradiction.
  destruct (f c); [|contradiction]. apply in_map_iff in H as (n & <- & Hn). simpl. f_equal. apply IH, Hn.
Qed.
Lemma sound_ahead p : sound (p_ahead p).
Proof. intros x m H. unfold p_ahead in H. destruct (p x); [contradiction|]. destruct H as [<-|[]]. reflexivity. Qed.
Lemma sound_notahead p : sound (p_notahead p).
Proof. intros x m H. unfold p_notahead in H. destruct (p x); [|contradiction]. destruct H as [<-|[]]. reflexivity. Qed.
Ltac snd_tac := repeat first [apply sound_seq | apply sound_opt | apply sound_alt | apply sound_ahead | apply sound_notahead
  | apply sound_chr | apply sound_star | apply sound_lazystar | apply sound_eps].
Lemma sound_rational : sound re_rational.
Proof. unfold re_rational. snd_tac. Qed.
Lemma sound_base : sound re_base.
Proof. unfold re_base, p_plus. snd_tac. Qed.
Lemma sound_exponent : sound re_exponent.
Proof. unfold re_exponent. apply sound_seq; [apply sound_chr | apply sound_rational]. Qed.
Lemma cap_opt_length p x m : sound p -> In m (cap_opt p x) -> length (snd m) <= length x.
Proof.
  intros P H. apply in_app_or in H as [H|[<-|[]]]; [|simpl; lia].
  apply in_map_iff in H as (n & <- & Hn). simpl. apply P in Hn. rewrite Hn, app_length. lia.
Qed.
Lemma base_nonempty x m : In m (re_base x) -> length (snd m) < length x.
Proof.
  intros H. pose proof (sound_base _ _ H) as E. rewrite E, app_length.
  unfold re_base, p_plus, p_seq in H. apply in_flat_map in H as (a & Ha & H).
  apply in_map_iff in H as (n & <- & Hn). apply in_flat_map in Ha as (b & Hb & Ha).
  apply in_map_iff in Ha as (n' & <- & Hn'). unfold p_chr in Hb.
  destruct x as [|c x]; [contradiction|]. destruct (is_basechar c); [|contradiction].
  destruct Hb as [<-|[]]. simpl. lia.
Qed.
Lemma variable_length x m : In m (re_variable x) -> length (snd m) < length x.
Proof.
  intros H. unfold re_variable in H. apply in_flat_map in H as (c & Hc & H).
  apply in_flat_map in H as (b & Hb & H). apply in_map_iff in H as (e & <- & He). simpl.
  apply (cap_opt_length _ _ _ sound_rational) in Hc. apply base_nonempty in Hb.
  apply (cap_opt_length _ _ _ sound_exponent) in He. lia.
Qed.

(** ** a number at the start is not empty *)
Definition tail_pat : pat :=
  p_alt (p_seq (p_chr (is_c "/")) (p_lazyplus is_digit))
        (p_seq (p_opt (p_seq (p_chr (is_c ".")) (p_star is_digit)))
               (p_opt (p_seq (p_chr is_e) (p_seq (p_opt (p_chr is_sign)) (p_plus is_digit))))).
Definition body_pat : pat :=
  p_seq (p_ahead (p_alt (p_chr is_digit) (p_seq (p_chr (is_c ".")) (p_chr is_digit))))
        (p_seq (p_star is_digit) tail_pat).
Lemma opt_nonempty p x : p_opt p x <> [].
Proof. unfold p_opt, p_alt, p_eps. destruct (p x); discriminate. Qed.
Lemma seq_nonempty p q x : p x <> [] -> (forall y, q y <> []) -> p_seq p q x <> [].
Proof.
  intros P Q. unfold p_seq. destruct (p x) as [|m l]; [congruence|]. simpl.
  intros E. apply app_eq_nil in E as [E _]. apply map_eq_nil in E. exact (Q _ E).
Qed.
Lemma tail_nonempty x : tail_pat x <> [].
Proof.
  unfold tail_pat, p_alt. intros E. apply app_eq_nil in E as [_ E].
  eapply seq_nonempty; [apply opt_nonempty | intros y; apply opt_nonempty | exact E].
Qed.
Lemma seq_hd p q x a l : p x = a :: l -> q (snd a) <> [] ->
  exists b, hd_error (q (snd a)) = Some b /\ hd_error (p_seq p q x) = Some (fst a ++ fst b, snd b).
Proof.
  intros E Q. unfold p_seq, pat, str in *. rewrite E. simpl. destruct (q (snd a)) as [|b t]; [congruence|].
  exists b. split; reflexivity.
Qed.
Lemma star_first f c x : f c = true -> exists m l, p_star f (c :: x) = m :: l /\ fst m <> [].
Proof.
  intros H. simpl. rewrite H.
  assert (N : p_star f x <> []).
  { destruct x as [|d x]; simpl; [discriminate|]. destruct (f d); [|discriminate].
    intros E. apply app_eq_nil in E as [_ E]. discriminate. }
  destruct (p_star f x) as [|m l]; [congruence|]. simpl. eexists _, _. split; [reflexivity|]. discriminate.
Qed.
Lemma body_first x m : hd_error (body_pat x) = Some m -> fst m <> [].
Proof.
  unfold body_pat. intros H.
  destruct (p_ahead (p_alt (p_chr is_digit) (p_seq (p_chr (is_c ".")) (p_chr is_digit))) x) as [|a l] eqn:EA.
  { unfold p_seq in H at 1. rewrite EA in H. discriminate. }
  assert (a = ([], x) /\ p_alt (p_chr is_digit) (p_seq (p_chr (is_c ".")) (p_chr is_digit)) x <> []) as [-> NA].
  { unfold p_ahead in EA. destruct (p_alt _ _ x) eqn:E2; [discriminate|]. injection EA as <- <-. split; [reflexivity | discriminate]. }
  assert (ST : exists y, p_seq (p_star is_digit) tail_pat x <> [] /\ hd_error (p_seq (p_star is_digit) tail_pat x) = Some y /\ fst y <> []).
  { destruct x as [|c x]; [exfalso; apply NA; reflexivity|].
    destruct (is_digit c) eqn:D.
    - destruct (star_first is_digit c x D) as (m0 & l0 & E0 & N0).
      destruct (seq_hd (p_star is_digit) tail_pat (c :: x) m0 l0 E0 (tail_nonempty _)) as (b & Hb & HH).
      eexists. split; [|split; [exact HH|]].
      + intros E. rewrite E in HH. discriminate.
      + simpl. destruct (fst m0); [congruence|discriminate].
    - assert (DOT : Ascii.eqb c "." = true).
      { unfold p_alt in NA. cbn [p_chr] in NA. rewrite D in NA. cbn [app] in NA.
        unfold p_seq in NA. cbn [p_chr] in NA. unfold is_c in NA. destruct (Ascii.eqb c "."); [reflexivity | exfalso; apply NA; reflexivity]. }
      apply Ascii.eqb_eq in DOT. subst c.
      assert (E0 : p_star is_digit ("."%char :: x) = [([], "."%char :: x)]) by reflexivity.
      destruct (seq_hd (p_star is_digit) tail_pat ("."%char :: x) _ _ E0 (tail_nonempty _)) as (b & Hb & HH).
      cbn [snd fst app] in *. eexists. split; [|split; [exact HH|]].
      { intros E. rewrite E in HH. discriminate. }
      cbn [fst]. clear HH. unfold tail_pat, p_alt in Hb.
      change (p_seq (p_chr (is_c "/")) (p_lazyplus is_digit) ("."%char :: x)) with (@nil (str * str)) in Hb.
      cbn [app] in Hb.
      assert (ED : exists m1 l1, p_opt (p_seq (p_chr (is_c ".")) (p_star is_digit)) ("."%char :: x) = m1 :: l1 /\ fst m1 <> []).
      { unfold p_opt, p_alt.
        assert (NS : p_star is_digit x <> []).
        { destruct x as [|d x]; simpl; [discriminate|]. destruct (is_digit d); [|discriminate].
          intros E. apply app_eq_nil in E as [_ E]. discriminate. }
        assert (EC : p_seq (p_chr (is_c ".")) (p_star is_digit) ("."%char :: x)
                     = map (fun n => ("."%char :: fst n, snd n)) (p_star is_digit x)).
        { unfold p_seq. cbn [p_chr]. unfold is_c. simpl. rewrite app_nil_r. reflexivity. }
        rewrite EC. destruct (p_star is_digit x) as [|m1 l1]; [congruence|]. simpl.
        eexists _, _. split; [reflexivity|]. discriminate. }
      destruct ED as (m1 & l1 & E1 & N1).
      destruct (seq_hd _ (p_opt (p_seq (p_chr is_e) (p_seq (p_opt (p_chr is_sign)) (p_plus is_digit)))) _ m1 l1 E1 (opt_nonempty _ _)) as (b' & _ & HH).
      rewrite HH in Hb. injection Hb as <-. simpl. destruct (fst m1); [congruence|discriminate]. }
  destruct ST as (y & NE & HY & NY).
  destruct (seq_hd _ (p_seq (p_star is_digit) tail_pat) x _ _ EA NE) as (b & Hb & HH).
  rewrite HH in H. injection H as <-. cbn [fst snd app] in *. rewrite HY in Hb. injection Hb as <-. exact NY.
Qed.
Lemma rational_first x m : hd_error (re_rational x) = Some m -> fst m <> [].
Proof.
  change re_rational with (p_seq (p_opt (p_chr is_sign)) body_pat). intros H.
  unfold p_seq, p_opt, p_alt, p_eps in H. destruct x as [|c x]; [discriminate|].
  cbn [p_chr] in H. destruct (is_sign c); cbn [app flat_map fst snd] in H.
  - destruct (body_pat x) as [|a l].
    + cbn [map app] in H. rewrite app_nil_r in H.
      destruct (body_pat (c :: x)) as [|b l] eqn:EB; [discriminate|]. simpl in H. injection H as <-.
      simpl. apply (body_first (c :: x)). rewrite EB. reflexivity.
    + simpl in H. injection H as <-. discriminate.
  - rewrite app_nil_r in H.
    destruct (body_pat (c :: x)) as [|b l] eqn:EB; [discriminate|]. simpl in H. injection H as <-.
    simpl. apply (body_first (c :: x)). rewrite EB. reflexivity.
Qed.
Lemma constant_first x g r : hd_error (re_constant x) = Some (g, r) -> length r < length x.
Proof.
  unfold re_constant. intros H.
  destruct (re_rational x) as [|a l] eqn:E; [discriminate|].
  assert (NA : fst a <> []) by (apply (rational_first x); rewrite E; reflexivity).
  assert (IA : x = fst a ++ snd a) by (apply sound_rational; rewrite E; left; reflexivity).
  simpl in H.
  assert (NC : cap_opt re_exponent (snd a) <> []).
  { unfold cap_opt. intros EE. apply app_eq_nil in EE as [_ EE]. discriminate. }
  destruct (cap_opt re_exponent (snd a)) as [|e l'] eqn:EC; [congruence|].
  simpl in H. injection H as _ <-.
  assert (length (snd e) <= length (snd a)).
  { apply (cap_opt_length _ _ _ sound_exponent). rewrite EC. left. reflexivity. }
  rewrite IA, app_length. destruct (fst a); [congruence|]. simpl. lia.
Qed.

Section Total.
Variable libm_pow : Qc -> Qc -> option Qc.
Set Default Proof Using "Type".

(** an outcome that is not the model's own [OutOfFuel] *)
Definition real {A} (m : result A) : Prop := m <> Raise OutOfFuel.
Lemma real_bind {A B} (m : result A) (f : A -> result B) :
  real m -> (forall a, m = Ok a -> real (f a)) -> real (bind m f).
Proof. intros M F. destruct m; simpl; [apply F; reflexivity | intros E; apply M; injection E as ->; reflexivity]. Qed.
Lemma real_ok {A} (a : A) : real (Ok a).
Proof. discriminate. Qed.

Lemma real_fraction_unsigned x : real (fraction_unsigned x).
Proof.
  unfold fraction_unsigned, real.
  repeat match goal with |- context [match ?y with _ => _ end] => destruct y end; discriminate.
Qed.
Lemma real_fraction x : real (fraction_of_str x).
Proof.
  unfold fraction_of_str. destruct x as [|c x]; [apply real_fraction_unsigned|].
  destruct (is_sign c); [|apply real_fraction_unsigned].
  apply real_bind; [apply real_fraction_unsigned | intros; apply real_ok].
Qed.
Lemma real_std_coef g : real (std_coef g).
Proof.
  destruct g as [[|c x]|]; try discriminate. cbn [std_coef].
  apply real_bind; [apply real_fraction | intros; apply real_ok].
Qed.
Lemma real_std_exponent g : real (std_exponent g).
Proof.
  destruct g as [[|c x]|]; try discriminate. cbn [std_exponent].
  apply real_bind; [apply real_fraction | intros; apply real_ok].
Qed.
Lemma real_term_factory c b e : real (term_factory c b e).
Proof. unfold term_factory. destruct b as [b|]; [destruct (base_is_valid b)|]; discriminate. Qed.
Lemma real_float_pow a b : real (float_pow libm_pow a b).
Proof. unfold float_pow. destruct (qc_eqb a 1); [discriminate|]. destruct (libm_pow a b); discriminate. Qed.
Lemma real_fr_pow a b : real (fr_pow libm_pow a b).
Proof.
  unfold fr_pow. destruct (q_isint b); [|apply real_float_pow].
  destruct (qc_eqb a 0 && Z.ltb (qnum b) 0); discriminate.
Qed.
Lemma real_op_pow o p : real (op_pow libm_pow o p).
Proof. apply real_bind; [apply real_fr_pow | intros; apply real_ok]. Qed.
Lemma real_op_powf o p : real (op_powf libm_pow o p).
Proof. apply real_bind; [apply real_float_pow | intros; apply real_ok]. Qed.
Lemma real_evaluate op o : real (evaluate libm_pow op o).
Proof. destruct op; [apply real_ok | apply real_op_pow | apply real_op_powf]. Qed.
Lemma real_group_exp g : real (match g_exp g with
       | None => Ok 1%Qc
       | Some t => fraction_of_str (filter (fun c => negb (Ascii.eqb c "^")) t)
       end).
Proof. destruct (g_exp g); [apply real_fraction | apply real_ok]. Qed.
Lemma real_build_variable g : real (build_variable g).
Proof.
  apply real_bind; [apply real_std_coef|]. intros. apply real_bind; [apply real_group_exp|].
  intros. apply real_term_factory.
Qed.
Lemma real_build_constant g : real (build_constant libm_pow g).
Proof.
  apply real_bind; [apply real_std_coef|]. intros. apply real_bind; [apply real_group_exp|].
  intros. apply real_bind; [apply real_fr_pow|]. intros. apply real_term_factory.
Qed.
Lemma real_match_simplex md x : real (match_simplex libm_pow md x).
Proof.
  unfold match_simplex.
  destruct (run_mode md (re_variable x)) as [[gv rv]|], (run_mode md (re_constant x)) as [[gc rc]|];
    try apply real_ok; try (apply real_bind; [first [apply real_build_variable | apply real_build_constant] | intros; apply real_ok]).
  destruct (Nat.eqb _ _); (apply real_bind; [first [apply real_build_variable | apply real_build_constant] | intros; apply real_ok]).
Qed.
Lemma real_match_complex md x : real (match_complex libm_pow md x).
Proof.
  unfold match_complex. destruct (find_bounds x) as [[i0 e]|]; [|apply real_ok].
  apply real_bind; [apply real_match_simplex|]. intros m _.
  destruct (match m with Some (o, _) => (coef o, 0) | None => (1%Qc, i0) end) as [cf i].
  destruct md, i; try apply real_ok;
  destruct (match first_match (re_exponent (skipn e x)) with Some (t, _) => (Some t, e + length t) | None => (None, e) end) as [ex e'].
  - apply real_bind; [apply real_std_exponent | intros; apply real_ok].
  - destruct (_ && _); [|apply real_ok]. apply real_bind; [apply real_std_exponent | intros; apply real_ok].
  - destruct (_ && _); [|apply real_ok]. apply real_bind; [apply real_std_exponent | intros; apply real_ok].
Qed.
Lemma real_search md x : real (search libm_pow md x).
Proof.
  apply real_bind; [apply real_match_simplex|]. intros [m|] _; [apply real_ok | apply real_match_complex].
Qed.

(** ** consumption *)
Lemma bind_ok_inv {A B} (m : result A) (f : A -> result B) b : bind m f = Ok b -> exists a, m = Ok a /\ f a = Ok b.
Proof. destruct m; simpl; [eauto | discriminate]. Qed.
Lemma term_factory_isterm c b e o : term_factory c b e = Ok o -> isterm o = true.
Proof.
  unfold term_factory. destruct b as [b|]; [destruct (base_is_valid b)|]; intros E; try discriminate; injection E as <-; reflexivity.
Qed.
Lemma build_isterm g o : build_variable g = Ok o \/ build_constant libm_pow g = Ok o -> isterm o = true.
Proof.
  intros [H|H]; unfold build_variable, build_constant in H;
  apply bind_ok_inv in H as (c & _ & H); apply bind_ok_inv in H as (e & _ & H).
  - eapply term_factory_isterm; exact H.
  - apply bind_ok_inv in H as (r & _ & H). eapply term_factory_isterm; exact H.
Qed.
Lemma simplex_consumes x o r : match_simplex libm_pow MMatch x = Ok (Some (o, r)) ->
  length r < length x /\ isterm o = true.
Proof.
  unfold match_simplex. cbn [run_mode]. unfold first_match.
  assert (V : forall g r, hd_error (re_variable x) = Some (g, r) -> length r < length x).
  { intros g r' E. destruct (re_variable x) as [|a l] eqn:EV; [discriminate|]. injection E as ->.
    apply (variable_length x (g, r')). rewrite EV. left. reflexivity. }
  assert (C : forall g r, hd_error (re_constant x) = Some (g, r) -> length r < length x) by apply constant_first.
  destruct (hd_error (re_variable x)) as [[gv rv]|], (hd_error (re_constant x)) as [[gc rc]|]; try discriminate.
  - destruct (Nat.eqb _ _); intros H; apply bind_ok_inv in H as (o' & Ho & H); injection H as -> ->;
    (split; [eauto | eapply build_isterm; eauto]).
  - intros H; apply bind_ok_inv in H as (o' & Ho & H); injection H as -> ->. split; [eauto | eapply build_isterm; eauto].
  - intros H; apply bind_ok_inv in H as (o' & Ho & H); injection H as -> ->. split; [eauto | eapply build_isterm; eauto].
Qed.
(** At least two characters are consumed by a pair of parentheses. *)
Lemma bounds_range x : forall init count i0 i a b,
  (1 <= i \/ (init = false /\ count = 0%Z)) ->
  find_bounds_from init count i0 i x = Some (a, b) -> 2 <= b /\ b <= i + length x.
Proof.
  induction x as [|c x IH]; intros init count i0 i a b I H; [discriminate|].
  cbn [find_bounds_from] in H.
  set (st := if Ascii.eqb c "(" then (true, (count + 1)%Z, if init then i0 else i)
             else if Ascii.eqb c ")" then (init, (count - 1)%Z, i0) else (init, count, i0)) in *.
  destruct st as [[init' count'] i0'] eqn:ST. unfold st in ST.
  destruct (init' && Z.eqb count' 0) eqn:D.
  - injection H as <- <-. simpl. split; [|lia].
    destruct I as [I|[-> ->]]; [lia|].
    destruct (Ascii.eqb c "("); [injection ST as <- <- <-; discriminate|].
    destruct (Ascii.eqb c ")"); injection ST as <- <- <-; discriminate.
  - apply IH in H; [simpl; lia | left; lia].
Qed.

Lemma slice_length x a b : length (slice x a b) <= b - a.
Proof. unfold slice. apply firstn_le_length. Qed.

Lemma complex_consumes x o r : match_complex libm_pow MMatch x = Ok (Some (o, r)) ->
  length r < length x /\ isterm o = false /\ length (base o) < length x.
Proof.
  unfold match_complex. destruct (find_bounds x) as [[i0 e]|] eqn:B; [|discriminate].
  apply bounds_range in B as [B1 B2]; [|right; split; reflexivity]. simpl in B2.
  intros H. apply bind_ok_inv in H as (m & _ & H).
  destruct (match m with Some (o, _) => (coef o, 0) | None => (1%Qc, i0) end) as [cf i].
  destruct i; [|discriminate].
  set (ee := match first_match (re_exponent (skipn e x)) with Some (t, _) => (Some t, e + length t) | None => (None, e) end) in H.
  assert (EE : e <= snd ee) by (unfold ee; destruct (first_match _) as [[t u]|]; simpl; lia).
  destruct ee as [ex e']. simpl in EE. apply bind_ok_inv in H as (q & _ & H). injection H as <- <-.
  repeat split.
  - rewrite skipn_length. lia.
  - cbn [mk_operand base]. pose proof (slice_length x (S i0) (e - 1)).
    destruct (slice x (S i0) (e - 1)); [simpl; lia|]. lia.
Qed.

Lemma search_consumes x o r : search libm_pow MMatch x = Ok (Some (o, r)) ->
  length r < length x /\ (isterm o = false -> length (base o) < length x).
Proof.
  intros H. apply bind_ok_inv in H as ([[o' r']|] & Hm & H).
  - injection H as -> ->. apply simplex_consumes in Hm as [H1 H2]. split; [exact H1 | congruence].
  - apply complex_consumes in H as (H1 & H2 & H3). auto.
Qed.

Lemma lstrip_length x : length (lstrip x) <= length x.
Proof. induction x as [|c x IH]; simpl; [lia|]. destruct (is_space c); simpl; lia. Qed.
Lemma strip_length x : length (strip x) <= length x.
Proof.
  unfold strip, rstrip. rewrite rev_length.
  pose proof (lstrip_length (rev (lstrip x))) as H. rewrite rev_length in H.
  pose proof (lstrip_length x). lia.
Qed.
Lemma operator_length x op r : operator_parse x = Some (op, r) -> length r <= length x.
Proof.
  unfold operator_parse, first_match.
  assert (G : forall (p : pat) a b, sound p -> hd_error (p x) = Some (a, b) -> length b <= length x).
  { intros p a b S E. destruct (p x) as [|m l] eqn:EP; [discriminate|]. injection E as ->.
    assert (x = a ++ b) as -> by (apply (S x (a, b)); rewrite EP; left; reflexivity). rewrite app_length. lia. }
  assert (S1 : forall a b, sound (re_op a b)) by (intros; unfold re_op; snd_tac).
  assert (S2 : sound re_sqrt) by (unfold re_sqrt; snd_tac).
  destruct (hd_error (re_op "*" "/" x)) as [[a b]|] eqn:E1.
  { intros H. injection H as <- <-. eapply G; [apply S1 | exact E1]. }
  destruct (hd_error (re_op "/" "*" x)) as [[a b]|] eqn:E2.
  { intros H. injection H as <- <-. eapply G; [apply S1 | exact E2]. }
  destruct (hd_error (re_sqrt x)) as [[a b]|] eqn:E3; [|discriminate].
  intros H. injection H as <- <-. eapply G; [apply S2 | exact E3].
Qed.

Lemma op_pow_base o p o' : op_pow libm_pow o p = Ok o' ->
  isterm o' = isterm o /\ (base o <> [] -> base o' = base o).
Proof.
  intros H. apply bind_ok_inv in H as (c & _ & H). injection H as <-. cbn [mk_operand isterm base].
  split; [reflexivity|]. destruct (base o); [congruence|reflexivity].
Qed.
Lemma op_powf_base o p o' : op_powf libm_pow o p = Ok o' ->
  isterm o' = isterm o /\ (base o <> [] -> base o' = base o).
Proof.
  intros H. apply bind_ok_inv in H as (c & _ & H). injection H as <-. cbn [mk_operand isterm base].
  split; [reflexivity|]. destruct (base o); [congruence|reflexivity].
Qed.
Lemma evaluate_base op o o' : evaluate libm_pow op o = Ok o' ->
  isterm o' = isterm o /\ (base o <> [] -> base o' = base o).
Proof.
  destruct op; cbn [evaluate]; [|apply op_pow_base|apply op_powf_base].
  intros H. injection H as <-. auto.
Qed.
Lemma build_base g o : build_variable g = Ok o \/ build_constant libm_pow g = Ok o -> base o <> [].
Proof.
  assert (T : forall c b e o, term_factory c b e = Ok o -> base o <> []).
  { intros c b e o' H. unfold term_factory in H. destruct b as [b|]; [destruct (base_is_valid b)|]; try discriminate;
    injection H as <-; cbn [mk_operand base]; try (destruct b; discriminate); discriminate. }
  intros [H|H]; unfold build_variable, build_constant in H;
  apply bind_ok_inv in H as (c & _ & H); apply bind_ok_inv in H as (e & _ & H).
  - eapply T; exact H.
  - apply bind_ok_inv in H as (r & _ & H). eapply T; exact H.
Qed.
Lemma search_base md x o r : search libm_pow md x = Ok (Some (o, r)) -> base o <> [].
Proof.
  intros H. apply bind_ok_inv in H as ([[o' r']|] & Hm & H).
  - injection H as -> ->. unfold match_simplex in Hm.
    destruct (run_mode md (re_variable x)) as [[gv rv]|], (run_mode md (re_constant x)) as [[gc rc]|]; try discriminate;
    try destruct (Nat.eqb _ _); apply bind_ok_inv in Hm as (o' & Ho & Hm); injection Hm as -> ->; eapply build_base; eauto.
  - unfold match_complex in H. destruct (find_bounds x) as [[i0 e]|]; [|discriminate].
    apply bind_ok_inv in H as (m & _ & H).
    destruct (match m with Some (o, _) => (coef o, 0) | None => (1%Qc, i0) end) as [cf i].
    assert (K : forall c b q, base (mk_operand false c b q) <> []).
    { intros c b q. cbn [mk_operand base]. destruct b; discriminate. }
    destruct md, i; try discriminate;
    destruct (match first_match (re_exponent (skipn e x)) with Some (t, _) => (Some t, e + length t) | None => (None, e) end) as [ex e'];
    try (destruct (_ && _); [|discriminate]);
    apply bind_ok_inv in H as (q & _ & H); injection H as <- <-; apply K.
Qed.

Lemma parse_operand_S fuel p x op y : x <> [] ->
  match operator_parse x with Some (op, r) => (Some op, r) | None => (None, x) end = (op, y) ->
  parse_operand libm_pow (S fuel) p x =
  (m <- operand_parse libm_pow y ;;
   match m, op with
   | Some (o, r), Some op =>
       o <- op_pow libm_pow o p ;; o <- evaluate libm_pow op o ;;
       os <- parse_operand libm_pow fuel p r ;; Ok (o :: os)
   | Some (o, r), None =>
       o <- op_pow libm_pow o p ;;
       os <- parse_operand libm_pow fuel p r ;; Ok (o :: os)
   | None, _ => Raise ParsingValueError
   end).
Proof.
  intros N E. destruct x as [|c x]; [congruence|]. cbn [parse_operand].
  destruct (operator_parse (c :: x)) as [[op' r']|]; injection E as <- <-; reflexivity.
Qed.
(** The loop over a string of length at most [fuel] terminates, and its
    groups are shorter than the string. *)
Lemma parse_operand_total fuel : forall p x, length x <= fuel ->
  real (parse_operand libm_pow fuel p x) /\
  forall os, parse_operand libm_pow fuel p x = Ok os ->
    Forall (fun o => isterm o = false -> length (base o) < length x) os.
Proof.
  induction fuel as [|fuel IH]; intros p x L.
  - destruct x; [|simpl in L; lia]. split; [apply real_ok|]. intros os H. injection H as <-. constructor.
  - destruct x as [|c x0]; [split; [apply real_ok|]; intros os H; injection H as <-; constructor|].
    assert (NE : c :: x0 <> []) by discriminate. set (x := c :: x0) in *. clearbody x.
    destruct (match operator_parse x with Some (op, r) => (Some op, r) | None => (None, x) end) as [op y] eqn:OP.
    assert (LY : length y <= length x).
    { destruct (operator_parse x) as [[op' r']|] eqn:E; injection OP as <- <-; [eapply operator_length; exact E | lia]. }
    assert (CONS : forall o r, operand_parse libm_pow y = Ok (Some (o, r)) ->
      length r <= fuel /\ base o <> [] /\ length r <= length x /\ (isterm o = false -> length (base o) < length x)).
    { intros o r E. unfold operand_parse in E. pose proof (search_base _ _ _ _ E).
      apply search_consumes in E as [E1 E2]. pose proof (strip_length y). repeat split; auto; try lia. }
    rewrite (parse_operand_S fuel p x op y NE OP). split.
    + apply real_bind; [apply real_search|]. intros [[o r]|] E.
      * destruct (CONS o r E) as (C1 & _). destruct op as [op|].
        -- apply real_bind; [apply real_op_pow|]. intros. apply real_bind; [apply real_evaluate|]. intros.
           apply real_bind; [apply IH, C1 | intros; apply real_ok].
        -- apply real_bind; [apply real_op_pow|]. intros.
           apply real_bind; [apply IH, C1 | intros; apply real_ok].
      * destruct op; discriminate.
    + intros os H. apply bind_ok_inv in H as ([[o r]|] & E & H); [|destruct op; discriminate].
      destruct (CONS o r E) as (C1 & C2 & C3 & C4).
      assert (TAIL : forall os', parse_operand libm_pow fuel p r = Ok os' ->
        Forall (fun o => isterm o = false -> length (base o) < length x) os').
      { intros os' H'. apply IH in H'; [|exact C1]. eapply Forall_impl; [|exact H'].
        simpl. intros o' K T. specialize (K T). lia. }
      destruct op as [op|].
      * apply bind_ok_inv in H as (o1 & E1 & H). apply bind_ok_inv in H as (o2 & E2 & H).
        apply bind_ok_inv in H as (os' & E3 & H). injection H as <-.
        apply op_pow_base in E1 as [T1 B1]. apply evaluate_base in E2 as [T2 B2].
        constructor; [|auto]. intros T. rewrite B2, B1 by (auto; rewrite B1; auto). apply C4. congruence.
      * apply bind_ok_inv in H as (o1 & E1 & H).
        apply bind_ok_inv in H as (os' & E3 & H). injection H as <-.
        apply op_pow_base in E1 as [T1 B1].
        constructor; [|auto]. intros T. rewrite B1 by auto. apply C4. congruence.
Qed.

Lemma real_mapM {A B} (f : A -> result B) l : Forall (fun a => real (f a)) l -> real (mapM f l).
Proof.
  induction 1 as [|a l H _ IH]; [apply real_ok|]. cbn [mapM].
  apply real_bind; [exact H|]. intros. apply real_bind; [exact IH | intros; apply real_ok].
Qed.

Lemma resolve_total fuel : forall o, length (base o) < fuel -> real (resolve libm_pow fuel o).
Proof.
  induction fuel as [|fuel IH]; intros o L; [lia|]. cbn [resolve].
  destruct (parse_operand_total (length (base o)) (expo o) (base o) (le_n _)) as [R B].
  apply real_bind; [exact R|]. intros os E. apply real_bind.
  - apply real_mapM. specialize (B os E). eapply Forall_impl; [|exact B].
    intros o' K. cbn beta in *. destruct (isterm o') eqn:T; [apply real_ok|]. apply IH. specialize (K eq_refl). lia.
  - intros tss _. apply real_bind; [apply real_term_factory | intros; apply real_ok].
Qed.

Theorem parse_total x : parse libm_pow x <> Raise OutOfFuel.
Proof.
  apply resolve_total. cbn [mk_operand base]. destruct x; simpl; lia.
Qed.
End Total.
