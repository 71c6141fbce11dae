(** Conversions to a metric system *)
From Verif Require Import PyBase PyLemmas SymbolicModel SymbolicSpec SymbolicProofs SymbolicRegex SymbolicParse SymbolicTotal SymbolicRoundTrip SymbolicAlgebra ContainerModel ContainerSpec ContainerProofs ContainerProofs2 AliasedModel MetricModel MetricSpec MetricTables MetricSizes MetricProofs MetricProofs2 UnitModel UnitOpsModel UnitOpsSpec UnitOpsProofs UnitOpsProofs2 UnitOpsTables UnitOpsProofs3 NormalizeModel NormalizeSpec NormalizeProofs NormalizeProofs2 SystemsModel SystemsProofs ConvertModel.

(** ** Texts of products *)
Definition blank : ascii := " "%char.
Notation unspaced x := (~ In blank x).
Lemma starts_with_app k x : starts_with k x = true -> exists r, x = k ++ r.
Proof.
  revert x. induction k as [|c k IH]; intros x H; [exists x; reflexivity|]. destruct x as [|d x]; [discriminate H|]. cbn [starts_with] in H.
  apply andb_true_iff in H as (H1 & H2). apply Ascii.eqb_eq in H1. subst d. destruct (IH x H2) as (r & ->). exists r. reflexivity.
Qed.
Lemma replace_absent k n x : (forall p r, x <> p ++ k ++ r) -> replace k n x = x.
Proof.
  unfold replace. generalize (length x). intros f. revert x. induction f as [|f IH]; intros x H; [reflexivity|]. destruct x as [|c x]; [reflexivity|]. cbn [replace_from].
  destruct (starts_with k (c :: x)) eqn:E.
  - apply starts_with_app in E as (r & E). destruct (H [] r E).
  - rewrite IH; [reflexivity|]. intros p r X. apply (H (c :: p) r). cbn [app]. rewrite X. reflexivity.
Qed.
Lemma replace_same k x : replace k k x = x.
Proof.
  unfold replace. generalize (length x). intros f. revert x. induction f as [|f IH]; intros x; [reflexivity|]. destruct x as [|c x]; [reflexivity|]. cbn [replace_from].
  destruct (starts_with k (c :: x)) eqn:E; [|rewrite IH; reflexivity].
  apply starts_with_app in E as (r & E). rewrite IH. rewrite E, skipn_app, skipn_all, Nat.sub_diag. reflexivity.
Qed.
Lemma blank_split x m P R : unspaced x -> x ++ blank :: m = P ++ blank :: R -> (P = x /\ m = R) \/ exists P', P = x ++ blank :: P' /\ m = P' ++ blank :: R.
Proof.
  revert P. induction x as [|c x IH]; intros P U E; cbn [app] in E.
  - destruct P as [|d P]; cbn [app] in E; injection E; intros; [left; auto|right]. exists P. split; [cbn; congruence|assumption].
  - destruct P as [|d P]; cbn [app] in E; injection E; intros E' Ec; [destruct U; left; exact Ec|]. subst d.
    destruct (IH P) as [(-> & ->)|(P' & -> & ->)]; [intros I; apply U; right; exact I|exact E'|left; auto|right; exists P'; auto].
Qed.
Lemma prefix_unspaced b r y m : unspaced b -> y ++ blank :: m = b ++ r -> exists r', y = b ++ r'.
Proof.
  revert y. induction b as [|c b IH]; intros y U E; [exists y; reflexivity|]. destruct y as [|d y]; cbn [app] in E; injection E; intros E' Ec; [destruct U; left; auto|].
  subst d. destruct (IH y) as (r' & ->); [intros I; apply U; right; exact I|exact E'|exists r'; reflexivity].
Qed.
Lemma suffix_unspaced a p x P : unspaced a -> p ++ a = x ++ blank :: P -> exists p', P = p' ++ a.
Proof.
  revert x. induction p as [|c p IH]; intros x U E; cbn [app] in E.
  - destruct U. rewrite E. apply in_or_app. right. left. reflexivity.
  - destruct x as [|d x]; cbn [app] in E; injection E; intros E' Ec; [exists p; auto|exact (IH x U E')].
Qed.
Lemma join_words a b r l : unspaced a -> unspaced b -> Forall (fun t => unspaced t) l ->
  forall p, join (s " ") l = p ++ a ++ blank :: b ++ r -> exists l1 t u l2, l = l1 ++ t :: u :: l2 /\ (exists p', t = p' ++ a) /\ exists r', u = b ++ r'.
Proof.
  intros A B. induction l as [|x l IH]; intros F p E; [destruct p as [|? ?]; cbn in E; [destruct a; discriminate E|discriminate E]|].
  inversion F as [|? ? Fx Fl]; subst. destruct l as [|y l].
  - cbn [join] in E. destruct Fx. rewrite E. apply in_or_app. right. apply in_or_app. right. left. reflexivity.
  - change (join (s " ") (x :: y :: l)) with (x ++ blank :: join (s " ") (y :: l)) in E. rewrite app_assoc in E.
    destruct (blank_split x _ _ _ Fx E) as [(P & M)|(P' & P & M)].
    + exists [], x, y, l. split; [reflexivity|]. split; [exists p; auto|]. destruct l as [|z l]; [cbn [join] in M; exists r; exact M|].
      change (join (s " ") (y :: z :: l)) with (y ++ blank :: join (s " ") (z :: l)) in M. exact (prefix_unspaced b r y _ B M).
    + destruct (suffix_unspaced a p x P' A P) as (p' & ->). rewrite <- app_assoc in M. destruct (IH Fl p' M) as (l1 & t & u & l2 & -> & T & U). exists (x :: l1), t, u, l2. auto.
Qed.

(** ** Characters of numbers *)
Definition num_char (c : ascii) : bool := is_digit c || Ascii.eqb c "-" || Ascii.eqb c "/".
Lemma str_of_N_chars n : Forall (fun c => num_char c = true) (str_of_N n).
Proof. eapply Forall_impl; [|apply str_of_N_digits]. intros c H. unfold num_char. rewrite H. reflexivity. Qed.
Lemma str_of_q_chars q : Forall (fun c => num_char c = true) (str_of_q q).
Proof.
  assert (Z1 : forall z, Forall (fun c => num_char c = true) (str_of_Z z)).
  { intros z. unfold str_of_Z. destruct z; try apply str_of_N_chars. constructor; [reflexivity|apply str_of_N_chars]. }
  unfold str_of_q. destruct (q_isint q); [apply Z1|]. apply Forall_app. split; [apply Z1|]. constructor; [reflexivity|apply str_of_N_chars].
Qed.
Lemma str_of_q_nonempty q : str_of_q q <> [].
Proof.
  assert (Z1 : forall z, str_of_Z z <> []) by (intros z; unfold str_of_Z; destruct z; try apply str_of_N_nonempty; discriminate).
  unfold str_of_q. destruct (q_isint q); [apply Z1|]. intros E. apply app_eq_nil in E as (E & _). exact (Z1 _ E).
Qed.

(** ** Texts of quantities *)
Definition letter (c : ascii) : bool := is_alpha c.
Fixpoint cut (x : str) : str * option str :=
  match x with
  | [] => ([], None)
  | c :: x' => if Ascii.eqb c blank then ([], Some x') else let '(a, b) := cut x' in (c :: a, b)
  end.
Lemma cut_ok x : match snd (cut x) with Some b => x = fst (cut x) ++ blank :: b | None => x = fst (cut x) end.
Proof. induction x as [|c x IH]; [reflexivity|]. cbn [cut]. destruct (Ascii.eqb_spec c blank) as [->|N]; [reflexivity|]. destruct (cut x) as (a, [b|]); cbn in *; congruence. Qed.
Definition ends_with (a x : str) : bool := starts_with (rev a) (rev x).
Lemma ends_with_app p a : ends_with a (p ++ a) = true.
Proof. unfold ends_with. rewrite rev_app_distr. generalize (rev a) (rev p). clear. induction l as [|c l IH]; intros m; [reflexivity|]. cbn. rewrite Ascii.eqb_refl. apply IH. Qed.
Lemma starts_with_prefix b r : starts_with b (b ++ r) = true.
Proof. induction b as [|c b IH]; [reflexivity|]. cbn. rewrite Ascii.eqb_refl. exact IH. Qed.
Definition word (x : str) : bool := match x with [] => false | _ => true end && forallb letter x.
Definition key_check (k : str) : bool :=
  match cut k with
  | (_, None) => str_eqb (blanks_to_underscores k) k && is_symbol k && negb (sqrt_prefix k)
  | (a, Some b) => word a && word b
      && forallb (fun q => forallb (fun q' => negb (ends_with a (blanks_to_underscores q) && starts_with b (blanks_to_underscores q'))
                                              || (str_eqb q (s "mass") && str_eqb q' (s "number"))) QS) QS
  end.
Lemma key_checks : forallb key_check (map fst QUANTITIES) = true.
Proof. vm_compute. reflexivity. Qed.
Definition upper_char (c : ascii) : bool := Nat.leb 65 (nat_of_ascii c) && Nat.leb (nat_of_ascii c) 90.
Definition text_char (c : ascii) : bool := negb (Ascii.eqb c blank) && negb (upper_char c).
Lemma name_chars : forallb (fun q => forallb text_char (blanks_to_underscores q)) QS = true.
Proof. vm_compute. reflexivity. Qed.
Lemma num_text c : num_char c = true -> text_char c = true /\ letter c = false.
Proof.
  assert (K : forallb (fun n => let c := ascii_of_nat n in negb (num_char c) || (text_char c && negb (letter c))) (seq 0 256) = true) by (vm_compute; reflexivity).
  intros H. pose proof (proj1 (forallb_forall _ _) K (nat_of_ascii c)) as C. cbv beta zeta in C. rewrite ascii_nat_embedding, H in C. cbn [negb orb] in C.
  assert (I : In (nat_of_ascii c) (seq 0 256)) by (apply in_seq; pose proof (nat_ascii_bounded c); lia). apply C in I. apply andb_true_iff in I as (I1 & I2). apply negb_true_iff in I2. auto.
Qed.

(** a term of a quantity expression *)
Definition quantity_of (t : operand) (q : str) : Prop := In q QS /\ t = {| coef := 1; base := blanks_to_underscores q; expo := expo t; isterm := true |}.
Definition qtail (t : operand) : str := if qc_eqb (expo t) 1 then [] else "^"%char :: str_of_q (expo t).
Lemma qname_ok q : In q QS -> is_symbol (blanks_to_underscores q) = true /\ blanks_to_underscores q <> one_base /\ underscores_to_blanks (blanks_to_underscores q) = q.
Proof. intros I. destruct (name_ok q I) as (A & B & _). split; [exact B|]. split; [exact (symbol_not_one _ B)|exact A]. Qed.
Lemma qterm_text t q : quantity_of t q -> format_term t = blanks_to_underscores q ++ qtail t.
Proof.
  intros (I & E). destruct (qname_ok q I) as (_ & N & _). unfold format_term, format_coefficient, format_exponent, qtail.
  assert (B : base t = blanks_to_underscores q) by (rewrite E; reflexivity). assert (C : coef t = 1%Qc) by (rewrite E; reflexivity). rewrite B, C. change (s "1") with one_base. rewrite (proj2 (str_eqb_neq _ _) N), qc_eqb_refl. reflexivity.
Qed.
Lemma qterm_chars t q : quantity_of t q -> Forall (fun c => text_char c = true) (format_term t).
Proof.
  intros H. rewrite (qterm_text t q H). destruct H as (I & _). apply Forall_app. split.
  - apply Forall_forall. exact (proj1 (forallb_forall _ _) (proj1 (forallb_forall _ _) name_chars q I)).
  - unfold qtail. destruct (qc_eqb (expo t) 1); [constructor|]. constructor; [reflexivity|]. eapply Forall_impl; [|apply str_of_q_chars]. intros c Hc. apply num_text, Hc.
Qed.
Lemma last_char (p a x c : str) : a <> [] -> forallb letter a = true -> c <> [] -> Forall (fun z => letter z = false) c -> x ++ c = p ++ a -> False.
Proof.
  intros NA LA NC LC E. destruct (exists_last NA) as (a' & z & ->). destruct (exists_last NC) as (c' & w & ->). rewrite !app_assoc in E. apply app_inj_tail in E as (_ & ->).
  apply Forall_app in LC as (_ & LC). inversion LC; subst. rewrite forallb_app in LA. apply andb_true_iff in LA as (_ & LA). cbn in LA. rewrite andb_true_r in LA. congruence.
Qed.
Lemma first_char b r x c : b <> [] -> forallb letter b = true -> (c = [] \/ exists d c', c = d :: c' /\ letter d = false) -> x ++ c = b ++ r -> exists r', x = b ++ r'.
Proof.
  intros _ LB C. revert x. induction b as [|z b IH]; intros x E; [exists x; reflexivity|]. cbn [forallb] in LB. apply andb_true_iff in LB as (Lz & LB).
  destruct x as [|d x]; cbn [app] in E.
  - destruct C as [->|(d & c' & -> & D)]; [discriminate E|]. injection E; intros _ Ed. subst d. congruence.
  - injection E; intros E' ->. destruct (IH LB x E') as (r' & ->). exists r'. reflexivity.
Qed.
Definition quantities_of (qs : list operand) : Prop := Forall (fun t => exists q, quantity_of t q) qs.
(** the quantity 'mass' followed by the quantity 'number' *)
Definition clash (qs : list operand) : Prop := exists t u, In t qs /\ In u qs /\ base t = s "mass" /\ expo t = 1%Qc /\ base u = s "number".
Lemma unspaced_text t q : quantity_of t q -> unspaced (format_term t).
Proof. intros H I. pose proof (proj1 (Forall_forall _ _) (qterm_chars t q H) _ I) as C. discriminate C. Qed.
Lemma spaced_key k a b qs p r : In k (map fst QUANTITIES) -> cut k = (a, Some b) -> quantities_of qs -> ~ clash qs -> format_expression qs <> p ++ k ++ r.
Proof.
  intros K C Q N E. pose proof (proj1 (forallb_forall _ _) key_checks k K) as H. unfold key_check in H. rewrite C in H. pose proof (cut_ok k) as X. rewrite C in X. cbn [fst snd] in X. subst k.
  apply andb_true_iff in H as (H & H3). apply andb_true_iff in H as (H1 & H2). unfold word in H1, H2. apply andb_true_iff in H1 as (A1 & A2), H2 as (B1 & B2).
  assert (NA : a <> []) by (destruct a; [discriminate|congruence]). assert (NB : b <> []) by (destruct b; [discriminate|congruence]).
  assert (W : forall x, forallb letter x = true -> unspaced x) by (intros x L I; pose proof (proj1 (forallb_forall _ _) L _ I) as Z; discriminate Z).
  unfold format_expression in E. change ((a ++ blank :: b) ++ r) with ((a ++ [blank] ++ b) ++ r) in E. rewrite <- !app_assoc in E. cbn [app] in E.
  assert (F : Forall (fun t => unspaced t) (map format_term qs)) by (apply Forall_map; eapply Forall_impl; [|exact Q]; intros t (q & H); exact (unspaced_text t q H)).
  destruct (join_words a b r _ (W a A2) (W b B2) F p E) as (l1 & t & u & l2 & El & (p' & T) & (r' & U)).
  apply map_eq_app in El as (m1 & m & -> & _ & El). destruct m as [|t' m]; [discriminate El|]. destruct m as [|u' m]; [discriminate El|]. cbn [map] in El. injection El; intros _ Eu Et. rewrite T in Et. rewrite U in Eu. clear El F E T U t u. rename Et into T, Eu into U.
  apply Forall_app in Q as (_ & Q). inversion Q as [|? ? (qt & Qt) Q']; subst. inversion Q' as [|? ? (qu & Qu) _]; subst.
  rewrite (qterm_text _ _ Qt) in T. rewrite (qterm_text _ _ Qu) in U.
  assert (X1 : expo t' = 1%Qc /\ exists p, blanks_to_underscores qt = p ++ a).
  { unfold qtail in T. destruct (qc_eqb_spec (expo t') 1) as [E1|E1]; [split; [exact E1|]; rewrite app_nil_r in T; exists p'; exact T|]. exfalso.
    change (blanks_to_underscores qt ++ "^"%char :: str_of_q (expo t')) with (blanks_to_underscores qt ++ ["^"%char] ++ str_of_q (expo t')) in T. rewrite app_assoc in T.
    refine (last_char p' a _ (str_of_q (expo t')) NA A2 (str_of_q_nonempty _) _ T). eapply Forall_impl; [|apply str_of_q_chars]. intros c Hc. apply num_text, Hc. }
  assert (X2 : exists r, blanks_to_underscores qu = b ++ r).
  { apply (first_char b r' _ (qtail u') NB B2); [|exact U]. unfold qtail. destruct (qc_eqb (expo u') 1); [left; reflexivity|right; eauto]. }
  destruct X1 as (X1 & pa & Ea). destruct X2 as (ra & Eb). destruct Qt as (It & Dt), Qu as (Iu & Du).
  pose proof (proj1 (forallb_forall _ _) (proj1 (forallb_forall _ _) H3 qt It) qu Iu) as Z. rewrite Ea, Eb, ends_with_app, starts_with_prefix in Z. cbn [andb negb orb] in Z.
  apply andb_true_iff in Z as (Z1 & Z2). apply str_eqb_eq in Z1, Z2. subst qt qu. apply N. exists t', u'. split; [apply in_or_app; right; left; reflexivity|]. split; [apply in_or_app; right; right; left; reflexivity|].
  split; [rewrite Dt; reflexivity|]. split; [exact X1|rewrite Du; reflexivity].
Qed.
Lemma names_untouched qs : quantities_of qs -> ~ clash qs -> fold_left (fun x k => replace k (blanks_to_underscores k) x) (map fst QUANTITIES) (format_expression qs) = format_expression qs.
Proof.
  intros Q N. assert (G : forall K, (forall k, In k K -> In k (map fst QUANTITIES)) -> fold_left (fun x k => replace k (blanks_to_underscores k) x) K (format_expression qs) = format_expression qs);
    [|apply G; auto].
  induction K as [|k K IH]; intros I; [reflexivity|]. cbn [fold_left].
  assert (E : replace k (blanks_to_underscores k) (format_expression qs) = format_expression qs); [|rewrite E; apply IH; intros; apply I; right; assumption].
  pose proof (I k (or_introl eq_refl)) as Ik. destruct (cut k) as (a, [b|]) eqn:C.
  - apply replace_absent. intros p r. exact (spaced_key k a b qs p r Ik C Q N).
  - pose proof (proj1 (forallb_forall _ _) key_checks k Ik) as H. unfold key_check in H. rewrite C in H. apply andb_true_iff in H as (H & _). apply andb_true_iff in H as (H & _). apply str_eqb_eq in H. rewrite H. apply replace_same.
Qed.
Lemma text_lower x : Forall (fun c => text_char c = true \/ c = blank) x -> lower x = x.
Proof.
  induction 1 as [|c x H _ IH]; [reflexivity|]. cbn [lower map]. fold (lower x). rewrite IH. f_equal. unfold lower_char. destruct H as [H| ->]; [|reflexivity].
  unfold text_char, upper_char in H. apply andb_true_iff in H as (_ & H). apply negb_true_iff in H. cbv zeta. rewrite H. reflexivity.
Qed.
Lemma join_chars (P : ascii -> Prop) l : P blank -> Forall (Forall P) l -> Forall P (join (s " ") l).
Proof.
  intros B. induction 1 as [|x l H F IH]; [constructor|]. destruct l as [|y l]; [exact H|]. change (join (s " ") (x :: y :: l)) with (x ++ blank :: join (s " ") (y :: l)).
  apply Forall_app. split; [exact H|]. constructor; [exact B|exact IH].
Qed.
Lemma quantities_lower qs : quantities_of qs -> lower (format_expression qs) = format_expression qs.
Proof.
  intros Q. apply text_lower. apply join_chars; [right; reflexivity|]. apply Forall_map. eapply Forall_impl; [|exact Q]. intros t (q & H).
  eapply Forall_impl; [|exact (qterm_chars t q H)]. intros c Hc. left. exact Hc.
Qed.

(** ** The unit of a quantity expression *)
Section Quantity.
Set Default Proof Using "Type".
Variable libm : Qc -> Qc -> option Qc.
Definition text_check (y : system) (q : str) : bool :=
  match quantity_unit q y with
  | Some v =>
      match expression_of_str libm v with
      | Ok e => match e with [] => false | _ => true end && forallb (plain_check 2) e
                && match SymbolicModel.reduce e with Ok r => terms_same r e | Raise _ => false end
                && forallb (fun t => str_eqb (base t) one_base || mem str_eqb (base t) (symbols y)) e
                && forallb (fun x => qc_eqb (mono_expo x e) (coherent y q x)) (symbols y)
      | Raise _ => false
      end
  | None => false
  end && mem str_eqb q (map fst CANONICAL_DIMS) && str_eqb (underscores_to_blanks q) q.
Lemma text_checks : forallb (fun y => forallb (text_check y) QS) [Mks; Cgs] = true.
Proof. vm_compute. reflexivity. Qed.
Lemma property_table y f q : 8 <= f -> In q (map fst CANONICAL_DIMS) -> exists v, property libm f true y q = Ok v /\ quantity_unit q y = Some v.
Proof.
  intros L I. destruct (Nat.le_exists_sub 8 f L) as (k & E & _). rewrite Nat.add_comm in E. apply in_map_iff in I as (e & <- & I).
  pose proof (proj1 (forallb_forall _ _) (property_rows libm k) y (in_systems y)) as K. pose proof (proj1 (forallb_forall _ _) K e I) as C. clear K. unfold property_check in C. rewrite <- E in C.
  destruct (property libm f true y (fst e)) as [v|]; [|discriminate C]. destruct (quantity_unit (fst e) y) as [w|]; [|discriminate C]. apply str_eqb_eq in C. subst w. exists v. auto.
Qed.
Lemma unit_text y q f : 8 <= f -> In q QS -> exists v e, property libm f true y q = Ok v /\ quantity_unit q y = Some v /\ expression_of_str libm v = Ok e /\ canonical e /\ plain 2 e /\
  (forall t, In t e -> base t = one_base \/ In (base t) (symbols y)) /\ forall x, x <> one_base -> mono_expo x e = coherent y q x.
Proof.
  intros L I. pose proof (checked text_check QS y q text_checks I) as K. unfold text_check in K. apply andb_true_iff in K as (K & _). apply andb_true_iff in K as (K & KI).
  destruct (property_table y f q L (proj1 (mem_spec str_eqb str_decides _ _) KI)) as (v & P & U). rewrite U in K. destruct (expression_of_str libm v) as [e|] eqn:E; [|discriminate K].
  exists v, e. split; [exact P|]. split; [exact U|]. split; [exact E|].
  apply andb_true_iff in K as (K & K5). apply andb_true_iff in K as (K & K4). apply andb_true_iff in K as (K & K3). apply andb_true_iff in K as (K1 & K2).
  assert (PC : plain 2 e) by (apply Forall_forall; intros t Ht; apply plain_check_ok; exact (proj1 (forallb_forall _ _) K2 t Ht)).
  assert (BS : forall t, In t e -> base t = one_base \/ In (base t) (symbols y)).
  { intros t Ht. pose proof (proj1 (forallb_forall _ _) K4 t Ht) as B. cbv beta in B. apply orb_true_iff in B as [B|B]; [left; apply str_eqb_eq, B|right; apply (mem_spec str_eqb str_decides), B]. }
  split; [|split; [exact PC|split; [exact BS|]]].
  - destruct (SymbolicModel.reduce e) as [r|] eqn:R; [|discriminate K3]. apply terms_same_eq in K3. subst r. eapply reduce_canonical; [|eapply (plain_ok 2), PC|exact R]. destruct e; [discriminate K1|congruence].
  - intros x X. destruct (in_dec str_eq_dec x (symbols y)) as [J|J].
    + pose proof (proj1 (forallb_forall _ _) K5 x J) as Z. apply qc_eqb_eq in Z. exact Z.
    + rewrite coherent_absent by exact J. apply mono_expo_absent. intros t Ht Z. destruct (BS t Ht) as [B|B]; congruence.
Qed.
Lemma blank_free_names q : In q QS -> forall k, In k (map fst QUANTITIES) -> snd (cut k) = None -> blanks_to_underscores q = k -> q = k.
Proof.
  assert (K : forallb (fun k => str_eqb (underscores_to_blanks k) k) (map fst QUANTITIES) = true) by (vm_compute; reflexivity).
  intros I k Ik _ <-. pose proof (proj1 (forallb_forall _ _) K _ Ik) as H. apply str_eqb_eq in H. rewrite <- H at 1. symmetry. apply qname_ok, I.
Qed.
Lemma property_text limit y qs : 9 <= limit -> quantities_of qs -> canonical qs -> plain 2 qs -> ~ clash qs ->
  exists v r, property libm limit true y (format_expression qs) = Ok v /\ expression_of_str libm v = Ok r /\ canonical r /\ plain 4 r /\
    (forall t, In t r -> base t = one_base \/ In (base t) (symbols y)) /\
    forall x, x <> one_base -> mono_expo x r = compound (S := expos) (fun b => coherent y (underscores_to_blanks b) x) qs.
Proof.
  intros L Q C P N. destruct limit as [|f]; [lia|]. cbn [property].
  assert (PP : printable qs = true) by (apply (plain_printable _ C), (plain_more 2 4), P).
  destruct (assoc QUANTITIES (format_expression qs)) as [d|] eqn:A.
  - (* the text is the name of a quantity *)
    assert (I : In (format_expression qs) (map fst QUANTITIES)) by (apply assoc_in in A; apply in_map_iff; eexists; split; [|exact A]; reflexivity).
    destruct (cut (format_expression qs)) as (a, [b|]) eqn:Cu; [destruct (spaced_key _ a b qs [] [] I Cu Q N); rewrite app_nil_r; reflexivity|].
    pose proof (proj1 (forallb_forall _ _) key_checks _ I) as K. unfold key_check in K. rewrite Cu in K. apply andb_true_iff in K as (K & K3). apply andb_true_iff in K as (_ & K2). apply negb_true_iff in K3.
    assert (E : qs = [var_term (format_expression qs) 1]).
    { pose proof (symbol_not_one _ K2) as NO.
      assert (Cv : canonical [var_term (format_expression qs) 1]).
      { exists 1%Qc, [var_term (format_expression qs) 1]. split; [reflexivity|]. split; [discriminate|]. split; [constructor; [|constructor]; exists (format_expression qs), 1%Qc; split; [reflexivity|]; split; [exact NO|]; split; [discriminate|apply symbol_valid, K2]|].
        split; [repeat constructor|]. cbn. constructor; [intros []|constructor]. }
      assert (Pv : plain 8 [var_term (format_expression qs) 1]) by (constructor; [split; [reflexivity|]; split; [reflexivity|]; split; [discriminate|]; split; [exact (parts_int 8 1)|right; auto]|constructor]).
      pose proof (parse_format libm qs C PP) as E1. pose proof (parse_format libm _ Cv (plain_printable _ Cv Pv)) as E2.
      assert (T : format_expression [var_term (format_expression qs) 1] = format_expression qs).
      { unfold format_expression at 1. cbn [map join]. unfold format_term, format_coefficient, format_exponent. cbn [base coef expo var_term]. change (s "1") with one_base. rewrite (proj2 (str_eqb_neq _ _) NO), !qc_eqb_refl. cbn. apply app_nil_r. }
      rewrite T in E2. congruence. }
    pose proof Q as Q'. rewrite E in Q'. inversion Q' as [|? ? (q & Iq & Eq) _]; subst. cbn [var_term base expo] in Eq. injection Eq; intros Eb.
    assert (Eqk : q = format_expression qs) by (apply blank_free_names; auto; rewrite Cu; reflexivity).
    destruct (unit_text y q (Datatypes.S f) ltac:(lia) Iq) as (v & e & Pv & _ & Ev & Ce & Pe & Be & Xe). rewrite Eqk in Pv. cbn [property] in Pv. rewrite A in Pv.
    exists v, e. split; [exact Pv|]. split; [exact Ev|]. split; [exact Ce|]. split; [exact (plain_more 2 2 _ Pe)|]. split; [exact Be|]. intros x X. rewrite (Xe x X), E.
    change (compound (S := expos) (fun b => coherent y (underscores_to_blanks b) x) [var_term (format_expression qs) 1]) with (coherent y (underscores_to_blanks (format_expression qs)) x * 1 + 0)%Qc.
    rewrite Eb, (proj2 (proj2 (qname_ok q Iq))). ring.
  - rewrite (names_untouched qs Q N), (parse_format libm qs C PP). cbn [bind].
    assert (G : exists es, mapM (fun t => v <- property libm f true y (underscores_to_blanks (base t)) ;; e <- expression_of_str libm v ;; mapM (fun o => op_pow libm o (expo t)) e) qs = Ok es /\
      plain 4 (concat es) /\ (qs <> [] -> concat es <> []) /\ (forall t, In t (concat es) -> base t = one_base \/ In (base t) (symbols y)) /\
      forall x, x <> one_base -> mono_expo x (concat es) = compound (S := expos) (fun b => coherent y (underscores_to_blanks b) x) qs).
    { clear - L Q P. induction qs as [|t qs IH]; [exists []; split; [reflexivity|]; split; [constructor|]; split; [congruence|]; split; [contradiction|reflexivity]|].
      inversion Q as [|? ? (q & Iq & Eq) Q']; subst. inversion P as [|? ? Pt P']; subst. destruct (IH Q' P') as (es & E2 & P2 & N2 & B2 & X2). cbn [mapM].
      assert (Bt : base t = blanks_to_underscores q) by (rewrite Eq; reflexivity). rewrite Bt, (proj2 (proj2 (qname_ok q Iq))).
      destruct (unit_text y q f ltac:(lia) Iq) as (v & e & -> & _ & Ev & Ce & Pe & Be & Xe). cbn [bind]. rewrite Ev. cbn [bind]. destruct Pt as (_ & _ & Nt & Pt & _).
      rewrite (pow_list libm 2 e (expo t) Pe Nt). cbn [bind]. rewrite E2. cbn [bind]. eexists. split; [reflexivity|]. cbn [concat].
      split; [apply plain_app; [exact (raise_list_plain 2 2 e (expo t) Pe Nt Pt)|exact P2]|]. split; [intros _; destruct (canonical_ok e Ce) as [Ne _]; destruct e; [congruence|discriminate]|]. split.
      - intros w Hw. apply in_app_or in Hw as [Hw|Hw]; [|apply B2, Hw]. apply in_map_iff in Hw as (w' & <- & Hw). cbn [raise base]. apply Be, Hw.
      - intros x X. rewrite mono_expo_app, raise_expo, (Xe x X), (X2 x X).
        change (compound (S := expos) (fun b => coherent y (underscores_to_blanks b) x) (t :: qs)) with
          (coherent y (underscores_to_blanks (base t)) x * expo t + compound (S := expos) (fun b => coherent y (underscores_to_blanks b) x) qs)%Qc.
        rewrite Bt, (proj2 (proj2 (qname_ok q Iq))). ring. }
    destruct G as (es & -> & Pe & Ne & Be & Xe). cbn [bind].
    destruct (reduce_plain 4 (concat es) (Ne (proj1 (canonical_ok qs C))) Pe) as (r & R). rewrite (rt_reduce _ _ _ R). cbn [bind].
    assert (Pr : printable r = true) by (apply (plain_printable _ (rt_canonical _ _ _ R)), (plain_more 4 2), (rt_plain _ _ _ R)).
    rewrite (of_terms_printable libm r (rt_canonical _ _ _ R) Pr). cbn [bind]. exists (format_expression r), r. split; [reflexivity|].
    split; [exact (parse_format libm r (rt_canonical _ _ _ R) Pr)|]. split; [exact (rt_canonical _ _ _ R)|]. split; [exact (rt_plain _ _ _ R)|]. split.
    + intros t Ht. destruct (rt_base _ _ _ R t Ht) as [B|(w & Hw & <-)]; [left; exact B|apply Be, Hw].
    + intros x X. rewrite (rt_expo _ _ _ R x X). exact (Xe x X).
Qed.
End Quantity.
