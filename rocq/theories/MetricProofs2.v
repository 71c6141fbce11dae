(** * The actual tables fit the SI sizes; pairing of the factors of compound units; the cache *)
From Verif Require Import PyBase PyLemmas SymbolicModel SymbolicSpec SymbolicProofs ContainerModel ContainerSpec ContainerProofs ContainerProofs2 AliasedModel AliasedProofs MetricModel MetricSpec MetricTables MetricSizes MetricProofs.

Lemma monos_laws : scale_laws monos.
Proof.
  constructor; cbn; unfold mono_mul, mono_inv, mono_pw, mono_one; intros; repeat match goal with a : mono |- _ => destruct a end; cbn; f_equal; ring.
Qed.

Definition mono_eqb (a b : mono) : bool :=
  qc_eqb (e2 a) (e2 b) && qc_eqb (e3 a) (e3 b) && qc_eqb (e5 a) (e5 b) && qc_eqb (e37 a) (e37 b) && qc_eqb (ePI a) (ePI b)
  && qc_eqb (eC a) (eC b) && qc_eqb (eRS a) (eRS b) && qc_eqb (eQE a) (eQE b) && qc_eqb (eAU a) (eAU b) && qc_eqb (eMN a) (eMN b).
Lemma mono_eqb_eq a b : mono_eqb a b = true -> a = b.
Proof. unfold mono_eqb. rewrite !andb_true_iff, !qc_eqb_eq. destruct a, b. cbn. intros H. repeat match goal with K : _ /\ _ |- _ => destruct K end. subst. reflexivity. Qed.

Definition good_entry (e : list str * nunit) : bool :=
  mono_eqb (si_size (n_symbol (snd e))) (named_size (snd e)) && mono_eqb (si_size (n_name (snd e))) (named_size (snd e)).
Lemma good_named : forallb good_entry NAMED = true. Proof. vm_compute. reflexivity. Qed.
Lemma good_conversions : forallb (fun e => mono_eqb (snd e) (over (S := monos) (si_size (fst (fst e))) (si_size (snd (fst e))))) CONVERSIONS = true.
Proof. vm_compute. reflexivity. Qed.
Lemma named_entry u n : named_unit u = Some n -> exists g, In (g, n) NAMED.
Proof.
  unfold named_unit, unit_in, getitem. destruct resolve as [i|]; [|discriminate]. destruct nth_error as [(g, v)|] eqn:E; [|discriminate].
  intros [= <-]. exists g. eapply nth_error_In, E.
Qed.
Lemma si_named u n : named_unit u = Some n -> si_size u = named_size n.
Proof. unfold si_size. intros ->. reflexivity. Qed.
Lemma tenpow_pw k : tenpow k = mono_pw ten_ (zq k).
Proof. unfold tenpow, m6, mono_pw, ten_. cbn. rewrite zq_0. f_equal; ring. Qed.
Lemma fits_by (named : str -> option nunit) (conv : list ((str * str) * mono)) (size : str -> mono) (bs : str -> mono) :
  (forall u v w, In ((u, v), w) conv -> w = over (S := monos) (size u) (size v)) ->
  (forall u n, named u = Some n -> size u = mono_mul (tenpow (p_exp n)) (bs (b_sym n))) ->
  (forall u n, named u = Some n -> size (n_symbol n) = mono_mul (tenpow (p_exp n)) (bs (b_sym n))) ->
  (forall u n, named u = Some n -> size (n_name n) = mono_mul (tenpow (p_exp n)) (bs (b_sym n))) ->
  fits monos named conv size.
Proof.
  intros K N1 N2 N3. constructor; [exact K| | |].
  - intros u n H. rewrite (N1 u n H). eapply N2, H.
  - intros u n H. rewrite (N1 u n H). eapply N3, H.
  - intros u v n m Hu Hv B. rewrite (N1 u n Hu), (N1 v m Hv).
    assert (b_sym n = b_sym m) as -> by (unfold same_base in B; rewrite !andb_true_iff, !str_eqb_eq in B; tauto).
    rewrite !tenpow_pw. generalize (bs (b_sym m)) as b. intros b.
    change (@over monos (@mul monos (pw ten (zq (p_exp n))) b) (@mul monos (pw ten (zq (p_exp m))) b) = over (pw ten (zq (p_exp n))) (pw ten (zq (p_exp m)))).
    unfold over. rewrite (inv_mul monos monos_laws), (m_swap monos monos_laws), (m_inv monos monos_laws). apply (m_1r monos monos_laws).
Qed.
Lemma conv_sizes : forall u v w, In ((u, v), w) CONVERSIONS -> w = over (S := monos) (si_size u) (si_size v).
Proof. intros u v w H. exact (mono_eqb_eq _ _ (proj1 (forallb_forall _ _) good_conversions _ H)). Qed.
Lemma good_entry_parts e : good_entry e = true -> si_size (n_symbol (snd e)) = named_size (snd e) /\ si_size (n_name (snd e)) = named_size (snd e).
Proof. unfold good_entry. intros H. apply andb_true_iff in H as (H1 & H2). split; apply mono_eqb_eq; assumption. Qed.
Lemma good_all : forall e, In e NAMED -> good_entry e = true.
Proof. apply forallb_forall. exact good_named. Qed.
Lemma entry_sizes u n : named_unit u = Some n -> si_size (n_symbol n) = named_size n /\ si_size (n_name n) = named_size n.
Proof. intros H. destruct (named_entry u n H) as (g & Hg). pose proof (good_entry_parts (g, n) (good_all _ Hg)) as K. cbn [snd] in K. exact K. Qed.
Lemma symbol_size u n : named_unit u = Some n -> si_size (n_symbol n) = named_size n.
Proof. intros H. exact (proj1 (entry_sizes u n H)). Qed.
Lemma name_size u n : named_unit u = Some n -> si_size (n_name n) = named_size n.
Proof. intros H. exact (proj2 (entry_sizes u n H)). Qed.
Lemma si_fits : fits monos named_unit CONVERSIONS si_size.
Proof. exact (fits_by named_unit CONVERSIONS si_size (tabulated base_sizes) conv_sizes si_named symbol_size name_size). Qed.

(** ** Compound units: pairing factors *)
Section Pairing.
Set Default Proof Using "Type".
Variable S : scales.
Hypothesis L : scale_laws S.
Variable named : str -> option nunit.
Variable conv : list ((str * str) * num S).
Variable order : list str.
Variables qunit qdim : str -> system -> option str.
Variable libm : Qc -> Qc -> option Qc.
Variable size : str -> num S.
Hypothesis F : fits S named conv size.
Notation cmp := (compound (S := S) size).

Lemma compound_app l l' : cmp (l ++ l') = mul (cmp l) (cmp l').
Proof using L. induction l as [|t l IH]; cbn; [symmetry; apply (m_1l S L)|]. rewrite IH. apply (m_assoc S L). Qed.
Definition exact_expo (t : operand) : Prop := is_double (expo t) = true.
Lemma eqb_parts t x : exact_expo t -> exact_expo x -> operand_eqb x t = true -> base x = base t /\ expo x = expo t.
Proof.
  unfold exact_expo, operand_eqb, is_double. rewrite !andb_true_iff, !str_eqb_eq, !qc_eqb_eq. intros E1 E2 ((B & E) & _). split; [exact B|congruence].
Qed.
Lemma remove_compound t : forall l r, exact_expo t -> Forall exact_expo l -> list_remove t l = Ok r ->
  cmp l = mul (pw (size (base t)) (expo t)) (cmp r) /\ Forall exact_expo r.
Proof using L.
  induction l as [|x l IH]; intros r Et El; cbn; [discriminate|]. inversion El as [|? ? Ex El']; subst. destruct (operand_eqb x t) eqn:E.
  - intros [= <-]. destruct (eqb_parts t x Et Ex E) as (-> & ->). auto.
  - destruct (list_remove t l) as [r'|] eqn:R; cbn [bind]; [|discriminate]. intros [= <-]. destruct (IH r' Et El' eq_refl) as (H1 & H2). rewrite H1. split; [|auto].
    cbn. rewrite !(m_assoc S L). f_equal. apply (m_comm S L).
Qed.
Lemma first_conv_sound u e : forall l f x, first_conversion S named conv order u e l = Ok (Some (f, x)) ->
  In x l /\ f = pw (over (size u) (size (base x))) e.
Proof using L F.
  induction l as [|t l IH]; intros f x; cbn; [discriminate|]. destruct convert_as_strings as [[w|]|] eqn:E; cbn [bind]; [| |discriminate].
  - intros [= <- <-]. apply (strings_sound S L named conv order size F) in E as ->. split; [left; reflexivity|reflexivity].
  - intros H. apply IH in H as (H & ->). split; [right; exact H|reflexivity].
Qed.
(** a factor without dimension has size one *)
Definition plain_one (t : operand) : Prop := dimensionless_unit libm named qunit qdim (base t) = Ok true -> size (base t) = one.
Lemma resolve_sound : forall todo matched unmatched factor w,
  Forall exact_expo todo -> Forall plain_one todo -> Forall exact_expo unmatched ->
  resolve_loop libm S named conv order qunit qdim todo matched unmatched factor = Ok (Some w) -> w = mul factor (cmp unmatched).
Proof using L F.
  induction todo as [|t todo IH]; intros matched unmatched factor w Ht HD Hu; cbn [resolve_loop].
  - destruct unmatched; [|discriminate]. intros [= <-]. cbn. symmetry. apply (m_1r S L).
  - inversion Ht as [|? ? Et Ht']; subst. inversion HD as [|? ? D HD']; subst. destruct tmem; [apply IH; assumption|].
    destruct match_exponents as [m|] eqn:M; cbn [bind]; [|discriminate]. destruct m as [(value, x)|]; [|apply IH; assumption].
    unfold match_exponents in M. destruct dimensionless_unit as [dl|] eqn:Dl; cbn [bind] in M; [|discriminate]. destruct dl.
    + injection M as <- <-. assert (operand_eqb t t = true) as ->.
      { unfold operand_eqb. rewrite str_eqb_refl, !(proj2 (qc_eqb_eq _ _) eq_refl). reflexivity. }
      destruct list_remove as [u|] eqn:R; cbn [bind]; [|discriminate]. destruct (remove_compound t _ _ Et Hu R) as (H1 & H2).
      intros H; apply IH in H as ->; try assumption. rewrite H1, (D Dl), (one_pw S L), (m_1l S L), (m_1r S L). reflexivity.
    + apply first_conv_sound in M as (Hx & ->). unfold inverse_powers in Hx. apply filter_In in Hx as (Hx & Ex). apply andb_true_iff in Ex as (N & Ex).
      apply qc_eqb_eq in Ex. destruct (operand_eqb x t); [discriminate|].
      destruct list_remove as [u|] eqn:R; cbn [bind]; [|discriminate]. destruct (remove_compound t _ _ Et Hu R) as (H1 & H2).
      destruct (list_remove x u) as [u'|] eqn:R'; cbn [bind]; [|discriminate].
      assert (Dx : exact_expo x) by (exact (proj1 (Forall_forall _ _) Hu x Hx)).
      destruct (remove_compound x _ _ Dx H2 R') as (H3 & H4). intros H; apply IH in H as ->; try assumption.
      rewrite H1, H3, Ex, (pw_opp S L), (pw_over S L). unfold over. rewrite !(m_assoc S L). reflexivity.
Qed.
Lemma resolve_terms_sound ts w : Forall exact_expo ts -> Forall plain_one ts ->
  resolve_terms libm S named conv order qunit qdim ts = Ok (Some w) -> w = cmp ts.
Proof using L F.
  intros H HD. unfold resolve_terms. destruct Nat.leb; [discriminate|]. intros R; apply resolve_sound in R; try assumption; rewrite R. apply (m_1l S L).
Qed.
End Pairing.

(** ** Compound units: only the total exponents matter *)
Section Exponents.
Set Default Proof Using "Type".
Variable S : scales.
Hypothesis L : scale_laws S.
Variable size : str -> num S.
Notation cmp := (compound (S := S) size).
Fixpoint prod (f : str -> Qc) (B : list str) : num S :=
  match B with [] => one | b :: B' => mul (pw (size b) (f b)) (prod f B') end.
Lemma prod_ext f g B : (forall b, In b B -> size b = one \/ f b = g b) -> prod f B = prod g B.
Proof using L.
  induction B as [|b B IH]; cbn; intros H; [reflexivity|]. rewrite IH by auto. f_equal. destruct (H b (or_introl eq_refl)) as [E|E]; rewrite E; [|reflexivity].
  rewrite !(one_pw S L). reflexivity.
Qed.
Lemma prod_zero B : prod (fun _ => 0%Qc) B = one.
Proof using L. induction B as [|b B IH]; cbn; [reflexivity|]. rewrite IH, (pw_0 S L). apply (m_1l S L). Qed.
Lemma prod_sub f g B : prod (fun b => f b - g b)%Qc B = over (prod f B) (prod g B).
Proof using L.
  induction B as [|b B IH]; cbn; [symmetry; apply (over_self S L)|]. rewrite IH. unfold over, Qcminus. rewrite (pw_add S L), (pw_opp S L), (inv_mul S L), (m_swap S L). reflexivity.
Qed.
Lemma prod_bump (f : str -> Qc) a e B : NoDup B -> In a B ->
  prod (fun b => if str_eqb a b then (e + f b)%Qc else f b) B = mul (pw (size a) e) (prod f B).
Proof using L.
  induction B as [|b B IH]; [contradiction|]. intros N H. inversion N as [|? ? Nb N']; subst. cbn. destruct (str_eqb a b) eqn:E.
  - apply str_eqb_eq in E as ->. rewrite (pw_add S L), <- !(m_assoc S L). do 2 f_equal. apply prod_ext. intros x Hx. right.
    destruct (str_eqb b x) eqn:E; [apply str_eqb_eq in E as ->; contradiction|reflexivity].
  - destruct H as [->|H]; [rewrite str_eqb_refl in E; discriminate|]. rewrite IH by assumption. rewrite !(m_assoc S L), (m_comm S L (pw (size b) _)). reflexivity.
Qed.
Lemma compound_prod B ts : NoDup B -> (forall t, In t ts -> In (base t) B) -> cmp ts = prod (fun b => mono_expo b ts) B.
Proof using L.
  intros N. induction ts as [|t ts IH]; intros H.
  - cbn. symmetry. apply prod_zero.
  - cbn. rewrite IH by (intros; apply H; right; assumption). symmetry. apply (prod_bump (fun b => mono_expo b ts)); [exact N|]. apply H. left. reflexivity.
Qed.
Lemma cover (l : list (list operand)) : exists B, NoDup B /\ forall ts t, In ts l -> In t ts -> In (base t) B.
Proof.
  exists (nodup str_eq_dec (map base (concat l))). split; [apply NoDup_nodup|]. intros ts t H1 H2. apply nodup_In, in_map, in_concat. eauto.
Qed.
Lemma compound_quotient r a b : size one_base = one ->
  (forall x, x <> one_base -> mono_expo x r = (mono_expo x a - mono_expo x b)%Qc) -> cmp r = over (cmp a) (cmp b).
Proof using L.
  intros U H. destruct (cover [r; a; b]) as (B & N & K).
  rewrite (compound_prod B r), (compound_prod B a), (compound_prod B b) by (first [exact N | intros t Ht; refine (K _ t _ Ht); cbn; auto]).
  rewrite <- prod_sub. apply prod_ext. intros x Hx. destruct (str_eq_dec x one_base) as [->|D]; [auto|]. right. apply H, D.
Qed.
Lemma compound_same a b : size one_base = one -> (forall x, x <> one_base -> mono_expo x a = mono_expo x b) -> cmp a = cmp b.
Proof using L.
  intros U H. destruct (cover [a; b]) as (B & N & K).
  rewrite (compound_prod B a), (compound_prod B b) by (first [exact N | intros t Ht; refine (K _ t _ Ht); cbn; auto]).
  apply prod_ext. intros x Hx. destruct (str_eq_dec x one_base) as [->|D]; [auto|]. right. apply H, D.
Qed.
Lemma compound_filter (p : operand -> bool) ts : (forall t, In t ts -> p t = false -> size (base t) = one) -> cmp (filter p ts) = cmp ts.
Proof using L.
  induction ts as [|t ts IH]; cbn; intros H; [reflexivity|]. destruct (p t) eqn:E; cbn; rewrite IH by auto; [reflexivity|].
  rewrite (H t (or_introl eq_refl) E), (one_pw S L), (m_1l S L). reflexivity.
Qed.
End Exponents.

(** ** The cache of conversions *)
Section Cache.
Set Default Proof Using "Type".
Variable libm : Qc -> Qc -> option Qc.
Variable S : scales.
Hypothesis L : scale_laws S.
Variable named : str -> option nunit.
Variable conv : list ((str * str) * num S).
Variables order : list str.
Variable ys : list system.
Variables qunit qdim : str -> system -> option str.
Notation cv := (convert libm S named conv order ys qunit qdim).
Notation factory := (conversion_factory libm S named conv order ys qunit qdim).
Notation history := (conversion_history libm S named conv order ys qunit qdim).
(** every cached factor is a computed factor, or the inverse of one *)
Definition faithful (k : ccache S) : Prop :=
  forall u v f, conv_get S k (u, v) = Some f -> cv u v = Ok f \/ exists g, cv v u = Ok g /\ f = inv g.
Lemma get_set k e w e' : conv_get S (cache_set S k e w) e' = if edge_eqb e e' then Some w else conv_get S k e'.
Proof.
  unfold cache_set. cbn. destruct (edge_eqb e e') eqn:E; [reflexivity|]. induction k as [|(x, y) k IH]; cbn; [reflexivity|].
  destruct (edge_eqb x e) eqn:E1; cbn.
  - apply edge_eqb_spec in E1 as ->. rewrite E. exact IH.
  - destruct (edge_eqb x e'); [reflexivity|exact IH].
Qed.
Lemma factory_faithful k u v : faithful k -> faithful (fst (factory k u v)).
Proof.
  intros Hk. unfold conversion_factory. destruct (conv_get S k (u, v)) eqn:G; [exact Hk|]. destruct (cv u v) as [f|] eqn:C; [|exact Hk].
  cbn [fst]. intros x y g. rewrite !get_set. destruct (edge_eqb (v, u) (x, y)) eqn:E1.
  - apply edge_eqb_spec in E1. injection E1 as <- <-. intros [= <-]. right. eauto.
  - destruct (edge_eqb (u, v) (x, y)) eqn:E2; [|apply Hk]. apply edge_eqb_spec in E2. injection E2 as <- <-. intros [= <-]. auto.
Qed.
Lemma history_faithful l : forall k, faithful k -> faithful (history k l).
Proof. induction l as [|(u, v) l IH]; intros k Hk; cbn; [exact Hk|]. apply IH, factory_faithful, Hk. Qed.
End Cache.
