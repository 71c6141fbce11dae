(** * Proofs about default parameters *)
From Verif Require Import PyBase PyLemmas ContainerModel ContainerSpec ContainerProofs ContainerProofs2 SymbolicModel SymbolicSpec SymbolicProofs
  SymbolicRegex SymbolicParse SymbolicRoundTrip SymbolicProperties ConfigModel ConfigSpec ConfigProofs ParameterModel ParameterSpec ParameterNumbers ParameterProducts.
From Coq Require Import Lia.
Local Open Scope Qc_scope.

(** ** texts *)
Lemma starts_in p : forall x c, starts p x = true -> In c p -> In c x.
Proof.
  induction p as [|a p IH]; intros x c H I; [destruct I|]. destruct x as [|b x]; [discriminate|]. cbn [starts] in H.
  apply andb_true_iff in H as (E & H). apply Ascii.eqb_eq in E. subst b. destruct I as [->|I]; [left; reflexivity|right; apply IH; assumption].
Qed.
Lemma split_absent p c : In c p -> forall x acc, ~ In c x -> split_from p 0 acc x = [rev acc ++ x].
Proof.
  intros I. induction x as [|d x IH]; intros acc N; [cbn; rewrite app_nil_r; reflexivity|]. cbn [split_from].
  destruct (starts p (d :: x)) eqn:S; [exfalso; exact (N (starts_in _ _ _ S I))|]. rewrite IH by (intros H; apply N; right; exact H).
  cbn [rev]. rewrite <- app_assoc. reflexivity.
Qed.
Lemma has_text_absent p c x : In c p -> ~ In c x -> has_text p x = false.
Proof.
  intros I N. unfold has_text, split. destruct p as [|a p]; [destruct I|]. rewrite (split_absent (a :: p) c I x [] N). reflexivity.
Qed.
Lemma has_char c x : has_text [c] x = true <-> In c x.
Proof.
  split.
  - intros H. destruct (in_dec Ascii.ascii_dec c x) as [I|N]; [exact I|]. rewrite (has_text_absent [c] c x (or_introl eq_refl) N) in H. discriminate.
  - intros I. unfold has_text. rewrite split_one. destruct (after c x) as [y|] eqn:A; [|apply after_none in A; contradiction].
    rewrite split_char. destruct (after c y); reflexivity.
Qed.
Lemma has_char_false c x : has_text [c] x = false <-> ~ In c x.
Proof. rewrite <- has_char. destruct (has_text [c] x); split; congruence. Qed.

Lemma decimal_chars d c : decimal_ok d -> In c (decimal_text d) -> is_digit c = true \/ is_sign c = true \/ c = "."%char \/ is_e c = true.
Proof.
  intros (Di & Df & _ & Oe). rewrite decimal_parts. rewrite !in_app_iff. intros [H|[H|[H|H]]].
  - right. left. destruct (d_sign d) as [[|]|]; cbn in H; [destruct H as [<-|[]]; reflexivity|destruct H as [<-|[]]; reflexivity|destruct H].
  - left. exact (digits_in _ _ Di H).
  - destruct (d_frac d) as [f|]; [|destruct H]. destruct H as [<-|H]; [auto|]. left. exact (digits_in _ _ Df H).
  - destruct (d_exp d) as [((e & sg) & ds)|]; [|destruct H]. destruct Oe as (C & D & _). cbn [exp_text] in H.
    destruct H as [<-|H]; [right; right; right; destruct C; subst; reflexivity|]. apply in_app_or in H as [H|H].
    + right. left. destruct sg as [[|]|]; cbn in H; [destruct H as [<-|[]]; reflexivity|destruct H as [<-|[]]; reflexivity|destruct H].
    + left. exact (digits_in _ _ D H).
Qed.
Lemma numeral_chars x q c : numeral x q -> In c x -> is_space c = true \/ is_digit c = true \/ is_sign c = true \/ c = "."%char \/ is_e c = true.
Proof.
  intros (d & O & (a & b & -> & A & B & _) & _) H. rewrite !in_app_iff in H. destruct H as [H|[H|H]].
  - left. exact (proj1 (Forall_forall _ _) A c H).
  - right. exact (decimal_chars d c O H).
  - left. exact (proj1 (Forall_forall _ _) B c H).
Qed.
Lemma numeral_head c x q : numeral (c :: x) q -> is_space c = true \/ is_digit c = true \/ is_sign c = true \/ c = "."%char.
Proof.
  intros (d & O & (a & b & E & A & _) & _). destruct a as [|a0 a]; [|injection E as -> _; left; inversion A; assumption]. right.
  pose proof (start_ok d O) as H. cbn [app] in E. rewrite decimal_parts in E.
  set (u := d_int d ++ frac_text (d_frac d) ++ exp_text (d_exp d)) in *. clearbody u. destruct (d_sign d) as [[|]|]; cbn [sign_text] in E.
  - right. left. change (s "-" ++ u) with ("-"%char :: u) in E. injection E as -> _. reflexivity.
  - right. left. change (s "+" ++ u) with ("+"%char :: u) in E. injection E as -> _. reflexivity.
  - cbn [app] in E. destruct u as [|c' y]; [discriminate H|]. cbn [app] in E. injection E as -> _.
    unfold numeral_start in H. apply orb_true_iff in H as [H|H]; [auto|]. apply andb_true_iff in H as (H & _). apply Ascii.eqb_eq in H. auto.
Qed.
Lemma not_numeral_char x c : In c x -> is_space c = false -> is_digit c = false -> is_sign c = false -> c <> "."%char -> is_e c = false -> forall q, ~ numeral x q.
Proof. intros I H1 H2 H3 H4 H5 q N. destruct (numeral_chars x q c N I) as [H|[H|[H|[H|H]]]]; congruence. Qed.
Lemma word_bits c : word_char c = true -> is_space c = false /\ is_sign c = false /\ c <> "."%char /\ c <> "*"%char /\ c <> "/"%char /\ c <> "+"%char /\ c <> "-"%char /\ is_word c = true.
Proof.
  intros H. assert (W : is_word c = true) by (unfold word_char in H; unfold is_word; rewrite H; reflexivity).
  split; [|split; [|split; [|split; [|split; [|split; [|split; [|exact W]]]]]]].
  all: try (intros ->; discriminate H).
  - destruct c as [[] [] [] [] [] [] [] []]; try reflexivity; discriminate H.
  - unfold is_sign. destruct (Ascii.eqb_spec c "-") as [->|_]; [discriminate H|]. destruct (Ascii.eqb_spec c "+") as [->|_]; [discriminate H|reflexivity].
Qed.
Lemma name_not_numeral x : name_ok x -> forall q, ~ numeral x q.
Proof.
  intros (H & F) q N. destruct x as [|c x]; [exact H|]. inversion F as [|? ? W _]; subst. destruct (word_bits c W) as (S1 & S2 & S3 & _).
  destruct (numeral_head c x q N) as [X|[X|[X|X]]]; congruence.
Qed.
Lemma name_char x c : name_ok x -> In c x -> word_char c = true.
Proof. intros (_ & F) I. exact (proj1 (Forall_forall _ _) F c I). Qed.

(** ** "config." *)
Definition nodot (x : str) : Prop := ~ In "."%char x.
Inductive drops : str -> str -> Prop :=
| drops_plain x : nodot x -> drops x x
| drops_marker x y z : nodot x -> drops y z -> drops (x ++ config_dot ++ y) (x ++ z).
Lemma starts_app p x : starts p (p ++ x) = true.
Proof. induction p as [|c p IH]; [reflexivity|]. cbn [starts app]. rewrite Ascii.eqb_refl. exact IH. Qed.
Lemma starts_prefix p : forall x, starts p x = true -> exists y, x = p ++ y.
Proof.
  induction p as [|c p IH]; intros x H; [exists x; reflexivity|]. destruct x as [|d x]; [discriminate|]. cbn [starts] in H.
  apply andb_true_iff in H as (E & H). apply Ascii.eqb_eq in E. subst d. destruct (IH x H) as (y & ->). exists y. reflexivity.
Qed.
Lemma split_skip p k : forall acc x y, length x = k -> split_from p k acc (x ++ y) = split_from p 0 acc y.
Proof.
  induction k as [|k IH]; intros acc x y L; [destruct x; [reflexivity|discriminate]|]. destruct x as [|c x]; [discriminate|].
  cbn [app split_from]. apply IH. injection L as L. exact L.
Qed.
Lemma split_marker x y : nodot x -> forall acc, split_from config_dot 0 acc (x ++ config_dot ++ y) = (rev acc ++ x) :: split_from config_dot 0 [] y.
Proof.
  induction x as [|c x IH]; intros N acc.
  - cbn [app]. rewrite app_nil_r. change (config_dot ++ y) with ("c"%char :: (s "onfig." ++ y)). cbn [split_from].
    change ("c"%char :: s "onfig." ++ y) with (config_dot ++ y). rewrite starts_app. change (length config_dot - 1)%nat with 6%nat.
    rewrite split_skip by reflexivity. reflexivity.
  - cbn [app split_from]. destruct (starts config_dot (c :: x ++ config_dot ++ y)) eqn:S.
    + exfalso. apply starts_prefix in S as (z & E).
      destruct (after_app "."%char (s "config") z) as (_ & B1); [cbn; intuition discriminate|].
      destruct (after_app "."%char (c :: x ++ s "config") y) as (_ & B2).
      { intros [H|H]; [apply N; left; exact H|]. apply in_app_or in H as [H|H]; [apply N; right; exact H|cbn in H; intuition discriminate]. }
      assert (E' : (c :: x ++ s "config") ++ "."%char :: y = s "config" ++ "."%char :: z).
      { cbn [app]. rewrite <- app_assoc. exact E. }
      rewrite E' in B2. rewrite B1 in B2. apply (f_equal (@length ascii)) in B2. clear -B2. cbn [length] in B2. rewrite app_length in B2. cbn in B2. lia.
    + rewrite IH by (intros H; apply N; right; exact H). cbn [rev]. rewrite <- app_assoc. reflexivity.
Qed.
Lemma drops_drop x y : drops x y -> drop_config x = y.
Proof.
  unfold drop_config. induction 1 as [x N|x y z N D IH].
  - rewrite (split_absent config_dot "."%char) by (assumption || (cbn; tauto)). cbn. apply app_nil_r.
  - rewrite split_marker by exact N. cbn [concat rev app]. rewrite IH. reflexivity.
Qed.
Lemma nodot_app x y : nodot x -> nodot y -> nodot (x ++ y).
Proof. intros A B H. apply in_app_or in H as [H|H]; contradiction. Qed.
Lemma drops_cat x y z u : drops x y -> drops z u -> drops (x ++ z) (y ++ u).
Proof.
  intros D E. induction D as [x N|x y w N D IH].
  - destruct E as [z M|z y' w M E]; [constructor; apply nodot_app; assumption|]. rewrite !app_assoc. rewrite <- (app_assoc (x ++ z)).
    constructor; [apply nodot_app; assumption|exact E].
  - rewrite <- !app_assoc. constructor; assumption.
Qed.
Lemma digits_nodot x : digits x -> nodot x.
Proof. intros D H. pose proof (digits_in _ _ D H). discriminate. Qed.
Lemma num_nodot q : nodot (str_of_q q).
Proof.
  assert (Z : forall z, nodot (str_of_Z z)).
  { intros z. unfold str_of_Z. destruct z; try (apply digits_nodot, str_of_N_digits). intros [H|H]; [discriminate|]. revert H. apply digits_nodot, str_of_N_digits. }
  unfold str_of_q. destruct (q_isint q); [apply Z|]. apply nodot_app; [apply Z|]. intros [H|H]; [discriminate|]. revert H. apply digits_nodot, str_of_N_digits.
Qed.
Lemma power_nodot e : nodot (power_text e).
Proof. unfold power_text. destruct (qc_eqb e 1); [intros []|]. intros [H|H]; [discriminate|]. exact (num_nodot e H). Qed.
Lemma blanks_nodot n : nodot (blanks n).
Proof. unfold blanks. intros H. apply repeat_spec in H. discriminate. Qed.
Lemma sep_nodot o : nodot (sep_text o).
Proof.
  destruct o; cbn [sep_text]; [apply blanks_nodot| |]; (apply nodot_app; [apply blanks_nodot|]; intros [H|H]; [discriminate|exact (blanks_nodot _ H)]).
Qed.
Lemma symbol_chars b c : is_symbol b = true -> In c b -> is_basechar c = true \/ is_digit c = true.
Proof.
  intros S I. destruct (is_symbol_shape b S) as (d & ls & ds & -> & H & F & G). destruct I as [<-|I]; [auto|].
  apply in_app_or in I as [I|I]; [left; exact (proj1 (Forall_forall _ _) F c I)|right; exact (proj1 (Forall_forall _ _) G c I)].
Qed.
Lemma symbol_nodot b : is_symbol b = true -> nodot b.
Proof. intros S I. destruct (symbol_chars b _ S I); discriminate. Qed.
Lemma symbols_ok : (forall f int, factor_ok int f = true -> forall b, In b (factor_symbols f) -> is_symbol b = true) /\
  (forall w int, written_ok int w = true -> forall b, In b (written_symbols w) -> is_symbol b = true).
Proof.
  apply written_ind2.
  - intros b e int H b' [<-|[]]. cbn [factor_ok] in H. rewrite !andb_true_iff in H. tauto.
  - intros c int _ b [].
  - intros x IH e int H b I. cbn [factor_ok] in H. rewrite !andb_true_iff in H. eapply IH; [apply H|exact I].
  - intros f IH int H b I. eapply IH; eassumption.
  - intros f IHf o r IHr int H b I. cbn [written_ok] in H. rewrite !andb_true_iff in H. cbn [written_symbols] in I.
    apply in_app_or in I as [I|I]; [eapply IHf; [apply H|exact I]|eapply IHr; [apply H|exact I]].
Qed.
Lemma one_not_symbol w : written_ok true w = true -> ~ In one_base (written_symbols w).
Proof. intros O I. pose proof (proj2 symbols_ok w true O _ I). discriminate. Qed.
Lemma member_drops pre : (forall f, (forall b, In b (factor_symbols f) -> is_symbol b = true) -> drops (member_factor pre f) (factor_text f)) /\
  (forall w, (forall b, In b (written_symbols w) -> is_symbol b = true) -> drops (member_text pre w) (written_text w)).
Proof.
  apply written_ind2.
  - intros b e S. cbn [member_factor factor_text]. specialize (S b (or_introl eq_refl)). apply drops_cat; [|constructor; apply power_nodot].
    destruct (pre b); [|constructor; apply symbol_nodot, S]. change (s "config." ++ b) with ([] ++ config_dot ++ b). 
    change b with ([] ++ b) at 2. constructor; [intros []|constructor; apply symbol_nodot, S].
  - intros c _. constructor. apply num_nodot.
  - intros x IH e S. cbn [member_factor factor_text]. change ("("%char :: ?y) with (["("%char] ++ y). apply drops_cat; [constructor; intros [H|[]]; discriminate|].
    apply drops_cat; [apply IH, S|]. constructor. intros [H|H]; [discriminate|exact (power_nodot e H)].
  - intros f IH S. apply IH, S.
  - intros f IHf o r IHr S. cbn [member_text written_text]. apply drops_cat; [apply IHf; intros b I; apply S, in_or_app; auto|].
    apply drops_cat; [constructor; apply sep_nodot|]. apply IHr. intros b I. apply S, in_or_app. auto.
Qed.
Lemma drop_member pre w : written_ok true w = true -> drop_config (member_text pre w) = written_text w.
Proof. intros O. apply drops_drop, member_drops. apply (proj2 symbols_ok w true O). Qed.

(** ** tables *)
Definition ktype (k : kind) : ptype := match k with KInt => TInt | KFloat => TFloat | KString => TStr | KArray => TList end.
Section Tables.
Variable libm : Qc -> Qc -> option Qc.
Variable constants : list (str * (bool * str)).
Variable parameters : list (str * (kind * str)).
Hypothesis ok : tables_ok constants parameters.
Let consts : list (str * str) := map (fun c => (fst c, snd (snd c))) constants.
Let ctypes : list (str * bool) := map (fun c => (fst c, fst (snd c))) constants.
Let params : list (str * (ptype * str)) := map (fun p => (fst p, (ktype (fst (snd p)), snd (snd p)))) parameters.
Set Default Proof Using "ok".

Lemma consts_keys : map fst consts = map fst constants.
Proof. unfold consts. rewrite map_map. reflexivity. Qed.
Lemma params_keys : map fst params = map fst parameters.
Proof. unfold params. rewrite map_map. reflexivity. Qed.
Lemma const_lookup n i t : In (n, (i, t)) constants -> lookup str_eqb consts n = Ok t /\ lookup str_eqb ctypes n = Ok i.
Proof.
  intros I. destruct ok as (ND & _). split; apply (lookup_in str_eqb str_decides).
  - rewrite consts_keys. exact ND.
  - unfold consts. apply in_map_iff. exists (n, (i, t)). split; [reflexivity|exact I].
  - unfold ctypes. rewrite map_map. exact ND.
  - unfold ctypes. apply in_map_iff. exists (n, (i, t)). split; [reflexivity|exact I].
Qed.
Lemma const_name n : In n (map fst constants) -> name_ok n.
Proof. intros I. destruct ok as (_ & _ & F & _). apply in_map_iff in I as (c & <- & I). exact (proj1 (Forall_forall _ _) F c I). Qed.
Lemma param_name n : In n (map fst parameters) -> name_ok n.
Proof. intros I. destruct ok as (_ & _ & _ & F & _). apply in_map_iff in I as (c & <- & I). exact (proj1 (Forall_forall _ _) F c I). Qed.
Lemma param_lookup n k t : In (n, (k, t)) parameters -> lookup str_eqb params n = Ok (ktype k, t).
Proof.
  intros I. destruct ok as (_ & ND & _). apply (lookup_in str_eqb str_decides); [rewrite params_keys; exact ND|].
  unfold params. apply in_map_iff. exists (n, (k, t)). split; [reflexivity|exact I].
Qed.
Lemma param_absent x c : In c x -> word_char c = false -> (exists e, lookup str_eqb params x = Raise e) /\ mem str_eqb x (map fst consts) = false.
Proof.
  intros I W. split.
  - exists KeyError. apply (lookup_missing str_eqb str_decides). split; [reflexivity|]. rewrite params_keys. intros H.
    rewrite (name_char x c (param_name x H) I) in W. discriminate.
  - apply (mem_false str_eqb str_decides). rewrite consts_keys. intros H. rewrite (name_char x c (const_name x H) I) in W. discriminate.
Qed.

(** ** constants *)
Lemma literal_plain i t q : literal i t q -> symbolic_text t = false.
Proof.
  intros L. assert (N : numeral t q) by (destruct i; [apply integer_is_numeral, L|exact L]).
  unfold symbolic_text. rewrite (has_text_absent (s "*") "*"%char), (has_text_absent (s "/") "/"%char), (has_text_absent (s "sqrt") "q"%char);
    [reflexivity| | | | | |]; try (left; reflexivity); try (right; left; reflexivity);
    intros I; destruct (numeral_chars t q _ N I) as [H|[H|[H|[H|H]]]]; discriminate H.
Qed.
Lemma constant_named n q : constant_value constants n q -> In n (map fst constants).
Proof. intros [name int text q' I _|name int w v I _ _ _ _ _]; apply (in_map fst) in I; exact I. Qed.
Lemma fr_pow_int x e : x <> 0 -> q_isint e = true -> fr_pow libm x e = Ok (qpowz x (qnum e)).
Proof. intros X E. unfold fr_pow. rewrite E. rewrite (proj2 (qc_eqb_neq x 0) X). reflexivity. Qed.
Lemma uniform {A} (P : nat -> A -> Prop) (l : list A) : (forall b, In b l -> exists n0, forall n, (n0 <= n)%nat -> P n b) ->
  exists n0, forall n, (n0 <= n)%nat -> forall b, In b l -> P n b.
Proof.
  induction l as [|a l IH]; intros H; [exists 0%nat; intros n _ b []|].
  destruct (H a (or_introl eq_refl)) as (n1 & H1). destruct IH as (n2 & H2); [intros b I; apply H; right; exact I|].
  exists (Nat.max n1 n2). intros n L b [<-|I]; [apply H1; lia|apply H2; [lia|exact I]].
Qed.
Lemma bt_evaluate_value f v ts : ~ In one_base (map fst constants) ->
  Forall (fun t => (base t = one_base /\ expo t = 1 /\ coef t <> 0) \/
    (base t <> one_base /\ In (base t) (map fst constants) /\ q_isint (expo t) = true /\ coef t <> 0)) ts ->
  (forall t, In t ts -> base t <> one_base -> f (base t) = Ok (v (base t)) /\ v (base t) <> 0) ->
  forall acc, bt_evaluate libm consts f ts acc = Ok (acc * product (map (term_value v) ts)).
Proof.
  intros NO F. induction F as [|t ts H F IH]; intros G acc; cbn [bt_evaluate map product]; [f_equal; ring|].
  rewrite consts_keys. unfold term_value at 1. destruct H as [(B & E & C)|(B & I & E & C)].
  - rewrite B. rewrite (proj2 (mem_false str_eqb str_decides one_base (map fst constants)) NO). rewrite (str_eqb_refl one_base).
    change (str_eqb one_base (s "1")) with true. cbv iota. rewrite IH by (intros u Hu; apply G; right; exact Hu). f_equal. ring.
  - rewrite (proj2 (mem_spec str_eqb str_decides (base t) (map fst constants)) I). destruct (G t (or_introl eq_refl) B) as (-> & V). cbn [bind].
    unfold term_call. assert (NB : str_eqb (base t) one_base = false) by (apply str_eqb_neq, B). change (s "1") with one_base. rewrite NB.
    rewrite (fr_pow_int _ _ V E). cbn [bind]. rewrite or1_id by (apply qc_mul_nonzero; [exact C|apply qpowz_nonzero, V]).
    rewrite IH by (intros u Hu; apply G; right; exact Hu). f_equal. ring.
Qed.
Lemma one_not_constant : ~ In one_base (map fst constants).
Proof. intros I. apply const_name in I as (H & _). discriminate H. Qed.
Lemma constants_computed n q : constant_value constants n q -> exists n0, forall m, (n0 <= m)%nat -> bt_compute libm consts ctypes m n = Ok q.
Proof.
  revert n q. fix IH 3. intros n q [name int text q' I L|name int w v I O WI ST CV NZ].
  - exists 1%nat. intros m Lm. destruct m as [|m]; [lia|]. cbn [bt_compute]. destruct (const_lookup _ _ _ I) as (-> & ->). cbn [bind].
    rewrite (literal_plain _ _ _ L). destruct int; [apply int_numeral, L|apply float_numeral, L].
  - destruct (uniform (fun m b => bt_compute libm consts ctypes m b = Ok (v b)) (written_symbols w)) as (n0 & H0).
    { intros b Hb. exact (IH b (v b) (CV b Hb)). }
    exists (S n0). intros m Lm. destruct m as [|m]; [lia|]. cbn [bt_compute]. destruct (const_lookup _ _ _ I) as (-> & ->). cbn [bind].
    assert (ST' : symbolic_text (written_text w) = true).
    { unfold symbolic_text. destruct ST as [ST|ST]; apply has_char in ST; [change (s "*") with ["*"%char]|change (s "/") with ["/"%char]]; rewrite ST; [reflexivity|].
      rewrite orb_true_r. reflexivity. }
    rewrite ST'. destruct (C04_parse_meaning libm w O) as (r & -> & C & MC & ME). cbn [bind].
    destruct (canonical_value v w r C WI NZ (one_not_symbol w O) MC ME) as (F & V).
    rewrite (bt_evaluate_value _ v r one_not_constant).
    + rewrite V. f_equal. ring.
    + eapply Forall_impl; [|exact F]. cbn beta. intros t [H|(H1 & H2 & H3)]; [left; exact H|right]. split; [exact H1|]. split; [|exact H3].
      eapply constant_named, CV, H2.
    + intros t Ht Bt. rewrite Forall_forall in F. destruct (F t Ht) as [(B & _)|(_ & B & _)]; [contradiction|]. split; [apply H0; [lia|exact B]|apply NZ, B].
Qed.

(** ** defaults *)
Let eval := eval_param libm consts ctypes params.
Lemma eval_zero n x q : cast x = Some q -> q <> 0 -> eval (S n) x = Ok (PNum q).
Proof. intros C Q. unfold eval. cbn [eval_param]. rewrite C, (proj2 (qc_eqb_neq q 0) Q). reflexivity. Qed.
Lemma eval_rest n x : cast x = None -> x <> s "N_PROCS" -> x <> s "third" -> eval (S n) x =
  match lookup str_eqb params x with
  | Ok (t, text) => let v := convert text t in
      if has_type v t then Ok v else match v with PStr y => eval n y | _ => Raise TypeError end
  | Raise _ => if mem str_eqb x (map fst consts) then q <- bt_compute libm consts ctypes n x ;; Ok (PNum q)
               else resolve_text libm (eval n) x
  end.
Proof.
  intros C N1 N2. unfold eval. cbn [eval_param]. rewrite C. rewrite (proj2 (str_eqb_neq x (s "N_PROCS")) N1), (proj2 (str_eqb_neq x (s "third")) N2). reflexivity.
Qed.
Lemma eval_resolve n x c : cast x = None -> In c x -> word_char c = false -> eval (S n) x = resolve_text libm (eval n) x.
Proof.
  intros C I W. rewrite eval_rest; [|exact C| |].
  - destruct (param_absent x c I W) as ((e & ->) & ->). reflexivity.
  - intros ->. cbn in I. repeat (destruct I as [<-|I]; [discriminate W|]). destruct I.
  - intros ->. cbn in I. repeat (destruct I as [<-|I]; [discriminate W|]). destruct I.
Qed.
Lemma param_plain name : In name (map fst parameters) -> cast name = None /\ name <> s "N_PROCS" /\ name <> s "third".
Proof.
  intros I. split; [apply cast_none, name_not_numeral, param_name, I|]. destruct ok as (_ & _ & _ & _ & N1 & N2).
  split; intros ->; [apply N2|apply N1]; apply in_or_app; right; exact I.
Qed.
Lemma const_plain name : In name (map fst constants) -> cast name = None /\ name <> s "N_PROCS" /\ name <> s "third".
Proof.
  intros I. split; [apply cast_none, name_not_numeral, const_name, I|]. destruct ok as (_ & _ & _ & _ & N1 & N2).
  split; intros ->; [apply N2|apply N1]; apply in_or_app; left; exact I.
Qed.
Lemma struct_member_chars x c : struct_member x = true -> In c x -> is_word c = true \/ c = "."%char.
Proof.
  unfold struct_member. intros H I. apply andb_true_iff in H as (S & W). apply starts_prefix in S as (y & ->).
  change (skipn 7 (config_dot ++ y)) with y in W. apply in_app_or in I as [I|I].
  - cbn in I. repeat (destruct I as [<-|I]; [try (left; reflexivity); right; reflexivity|]). destruct I.
  - left. rewrite forallb_forall in W. apply W, I.
Qed.
Lemma in_lstrip_chars f c x : In c x -> f c = false -> In c (lstrip_chars f x).
Proof. induction x as [|d x IH]; cbn; [auto|]. intros [->|I] F; [rewrite F; left; reflexivity|]. destruct (f d); [auto|right; exact I]. Qed.
Lemma in_strip_chars f c x : In c x -> f c = false -> In c (strip_chars f x).
Proof. intros I F. unfold strip_chars. apply -> in_rev. apply in_lstrip_chars; [apply -> in_rev; apply in_lstrip_chars; assumption|exact F]. Qed.
Lemma resolve_operator f x c : In c x -> is_word c = false -> c <> "."%char -> is_bracket c = false ->
  resolve_text libm f x =
   (sum <- compute_sum f x ;;
    let rest :=
      if has_text (s "*") x || has_text (s "/") x then
        ts <- expression_of_str libm (drop_config x) ;;
        vs <- mapM (fun t => v <- f (base t) ;; q <- number_of v ;; p <- fr_pow libm q (expo t) ;; Ok (coef t * p)) ts ;;
        Ok (PNum (product vs))
      else Raise TypeError in
    match sum with
    | Some q => if qc_eqb q 0 then rest else Ok (PNum q)
    | None => rest
    end).
Proof.
  intros I W D B. unfold resolve_text.
  assert (N : forall y, In c y -> struct_member y = false).
  { intros y Iy. destruct (struct_member y) eqn:S; [|reflexivity]. destruct (struct_member_chars y c S Iy); congruence. }
  rewrite (N x I), (N _ (in_strip_chars is_bracket c x I B)). reflexivity.
Qed.
Lemma mapM_terms f v ts : Forall (fun t => (base t = one_base /\ expo t = 1 /\ coef t <> 0) \/
    (base t <> one_base /\ f (base t) = Ok (PNum (v (base t))) /\ v (base t) <> 0 /\ q_isint (expo t) = true)) ts ->
  f one_base = Ok (PNum 1) ->
  mapM (fun t => v <- f (base t) ;; q <- number_of v ;; p <- fr_pow libm q (expo t) ;; Ok (coef t * p)) ts = Ok (map (term_value v) ts).
Proof.
  intros F O. induction F as [|t ts H F IH]; [reflexivity|]. cbn [mapM map]. unfold term_value at 1. destruct H as [(B & E & C)|(B & V & NZ & I)].
  - rewrite B, O. cbn [bind number_of]. rewrite E, (fr_pow_int 1 1) by (discriminate || reflexivity). cbn [bind]. rewrite str_eqb_refl, IH. cbn [bind]. f_equal. f_equal.
    change (qnum 1) with 1%Z. rewrite qpowz_1_r. ring.
  - rewrite V. cbn [bind number_of]. rewrite (fr_pow_int _ _ NZ I). cbn [bind]. rewrite (proj2 (str_eqb_neq (base t) one_base) B), IH. reflexivity.
Qed.
Lemma eval_one n : eval (S n) one_base = Ok (PNum 1).
Proof. apply eval_zero; [reflexivity|discriminate]. Qed.
Lemma definitions_evaluated x q : definition_value constants parameters (fun q => q <> 0) x q ->
  exists n0, forall n, (n0 <= n)%nat -> eval n x = Ok (PNum q).
Proof.
  induction 1 as [x q N NZ| |name k i text q I K L|name k i text q I K NN _ (n0 & IH)|name q NI CV|name q NO _ (n0 & IH)
    |a b a' b' p q Ha Hb Ta Tb NN _ (n0 & IHa) _ (n1 & IHb) NZ|a b a' b' p q Hab Ta Tb NN _ (n0 & IHa) _ (n1 & IHb) NZ|w pre v O WI ST NP NM _ IH NZ].
  - exists 1%nat. intros [|n] Ln; [lia|]. apply eval_zero; [apply cast_numeral, N|exact NZ].
  - exists 1%nat. intros [|n] Ln; [lia|]. unfold eval. cbn [eval_param]. 
    change (cast (s "third")) with (@None Qc). reflexivity.
  - exists 1%nat. intros [|n] Ln; [lia|]. pose proof (in_map fst _ _ I) as In'. destruct (param_plain name In') as (C & N1 & N2).
    rewrite eval_rest by assumption. rewrite (param_lookup _ _ _ I). cbv zeta.
    assert (CN : convert text (ktype k) = PNum q).
    { destruct k; try discriminate K; cbn [kind_int] in K; injection K as <-; cbn [ktype convert].
      - rewrite (proj2 (int_numeral text q) L). reflexivity.
      - rewrite (proj2 (float_numeral text q) L). reflexivity. }
    rewrite CN. destruct k; try discriminate K; reflexivity.
  - exists (S n0). intros [|n] Ln; [lia|]. pose proof (in_map fst _ _ I) as In'. destruct (param_plain name In') as (C & N1 & N2).
    rewrite eval_rest by assumption. rewrite (param_lookup _ _ _ I). cbv zeta.
    assert (CN : convert text (ktype k) = PStr text).
    { destruct k; try discriminate K; cbn [ktype convert].
      - destruct (int_fails text NN) as (e & ->). reflexivity.
      - destruct (float_fails text NN) as (e & ->). reflexivity. }
    rewrite CN. destruct k; try discriminate K; apply IH; lia.
  - pose proof (constant_named _ _ CV) as IC. destruct (constants_computed _ _ CV) as (n0 & H0). exists (S n0). intros [|n] Ln; [lia|].
    destruct (const_plain name IC) as (C & N1 & N2). rewrite eval_rest by assumption.
    rewrite (proj2 (lookup_missing str_eqb str_decides params name KeyError)) by (split; [reflexivity|rewrite params_keys; exact NI]).
    rewrite consts_keys, (proj2 (mem_spec str_eqb str_decides name (map fst constants)) IC), H0 by lia. reflexivity.
  - exists (S n0). intros [|n] Ln; [lia|].
    assert (ID : In "."%char (s "config." ++ name)) by (apply in_or_app; left; cbn; tauto).
    rewrite (eval_resolve n _ "."%char); [|apply cast_none|exact ID|reflexivity].
    + assert (SM : struct_member (s "config." ++ name) = true).
      { unfold struct_member. change (s "config." ++ name) with (config_dot ++ name). rewrite starts_app. change (skipn 7 (config_dot ++ name)) with name.
        apply forallb_forall. intros c Ic. apply word_bits, (name_char name c NO Ic). }
      unfold resolve_text. rewrite SM.
      replace (drop_config (s "config." ++ name)) with name; [apply IH; lia|]. symmetry. apply drops_drop.
      change (s "config." ++ name) with ([] ++ config_dot ++ name). change name with ([] ++ name) at 2. constructor; [intros []|].
      constructor. intros Ic. pose proof (name_char name _ NO Ic). discriminate.
    + intros r N. destruct (numeral_head _ _ _ N) as [X|[X|[X|X]]]; discriminate X.
  - exists (S (Nat.max n0 n1)). intros [|n] Ln; [lia|]. set (x := a ++ "+"%char :: b).
    assert (IP : In "+"%char x) by (apply in_or_app; right; left; reflexivity).
    rewrite (eval_resolve n x "+"%char); [|apply cast_none; exact NN|exact IP|reflexivity].
    rewrite (resolve_operator _ x "+"%char IP); try reflexivity; try discriminate. unfold compute_sum. change (s "+") with ["+"%char].
    rewrite (proj2 (has_char "+"%char x) IP). rewrite (proj2 (split_two "+"%char x a b) (conj eq_refl (conj Ha Hb))). cbn [bind mapM].
    apply trimmed_strip in Ta, Tb. rewrite <- Ta, <- Tb. rewrite IHa, IHb by lia. cbn [bind two_terms number_of].
    replace (p + 1 * q) with (p + q) by ring. rewrite (proj2 (qc_eqb_neq _ _) NZ). reflexivity.
  - exists (S (Nat.max n0 n1)). intros [|n] Ln; [lia|]. set (x := a ++ "-"%char :: b).
    assert (IM : In "-"%char x) by (apply in_or_app; right; left; reflexivity).
    rewrite (eval_resolve n x "-"%char); [|apply cast_none; exact NN|exact IM|reflexivity].
    rewrite (resolve_operator _ x "-"%char IM); try reflexivity; try discriminate. unfold compute_sum. change (s "+") with ["+"%char]. change (s "-") with ["-"%char].
    assert (NP : ~ In "+"%char x).
    { intros I. apply in_app_or in I as [I|[I|I]]; [exact (proj1 (Hab _ (or_introl I)) eq_refl)|discriminate|exact (proj1 (Hab _ (or_intror I)) eq_refl)]. }
    rewrite (proj2 (has_char_false "+"%char x) NP), (proj2 (has_char "-"%char x) IM).
    rewrite (proj2 (split_two "-"%char x a b)).
    2:{ split; [reflexivity|]. split; intros I; [exact (proj2 (Hab _ (or_introl I)) eq_refl)|exact (proj2 (Hab _ (or_intror I)) eq_refl)]. }
    cbn [bind mapM].
    apply trimmed_strip in Ta, Tb. rewrite <- Ta, <- Tb. rewrite IHa, IHb by lia. cbn [bind two_terms number_of].
    replace (p + - (1) * q) with (p - q) by ring. rewrite (proj2 (qc_eqb_neq _ _) NZ). reflexivity.
  - destruct (uniform (fun m b => eval m b = Ok (PNum (v b))) (written_symbols w) IH) as (n0 & H0).
    exists (S (S n0)). intros [|n] Ln; [lia|]. set (x := member_text pre w) in *.
    assert (Op : exists c, In c x /\ word_char c = false /\ is_word c = false /\ c <> "."%char /\ is_bracket c = false /\ (forall r, ~ numeral x r)).
    { destruct ST as [I|I]; [exists "*"%char|exists "/"%char]; (split; [exact I|]); (split; [reflexivity|]); (split; [reflexivity|]); (split; [discriminate|]);
        (split; [reflexivity|]); eapply not_numeral_char; try exact I; try reflexivity; discriminate. }
    destruct Op as (c & Ic & W1 & W2 & D & B & NN).
    rewrite (eval_resolve n x c); [|apply cast_none; exact NN|exact Ic|exact W1].
    rewrite (resolve_operator _ x c Ic W2 D B). unfold compute_sum. change (s "+") with ["+"%char]. change (s "-") with ["-"%char].
    rewrite (proj2 (has_char_false "+"%char x) NP), (proj2 (has_char_false "-"%char x) NM). cbn [bind].
    assert (HT : has_text (s "*") x || has_text (s "/") x = true).
    { change (s "*") with ["*"%char]. change (s "/") with ["/"%char]. destruct ST as [I|I]; apply has_char in I; rewrite I; [reflexivity|apply orb_true_r]. }
    rewrite HT. unfold x. rewrite (drop_member pre w O). destruct (C04_parse_meaning libm w O) as (r & -> & C & MC & ME). cbn [bind].
    destruct (canonical_value v w r C WI NZ (one_not_symbol w O) MC ME) as (F & V).
    rewrite (mapM_terms (eval n) v r).
    + cbn [bind]. rewrite V. reflexivity.
    + eapply Forall_impl; [|exact F]. cbn beta. intros t [H|(H1 & H2 & H3 & H4)]; [left; exact H|right]. split; [exact H1|].
      split; [apply H0; [lia|exact H2]|]. split; [apply NZ, H2|exact H3].
    + destruct n as [|n]; [lia|]. apply eval_one.
Qed.
End Tables.
